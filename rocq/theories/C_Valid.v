(** C53, C54, C58, C59: the validators. *)
From Coq Require Import String Floats.SpecFloat Permutation Lia.
From Verif Require Import PyBase Env PyNum Validate Spec EnvOk ValidSpec Demo.
From Verif Require Import NumLemmas HexProofs PrepProofs AmountProofs DesignProofs SignProofs DemoProofs.
Open Scope Z_scope.

Section WithEnv.
Context {E : Env}.

Lemma existsb_neg : forall (f : Z -> bool) s, existsb (fun c => negb (f c)) s = negb (forallb f s).
Proof. intros f s. induction s as [|c s IH]; auto. cbn [existsb forallb]. rewrite IH. destruct (f c); auto. Qed.

Lemma isdigit_iff : forall c, char_isdigit c = true <-> digit_char c.
Proof.
  intros c. unfold char_isdigit, digit_char. destruct (Z.ltb_spec c 128).
  - rewrite andb_true_iff, !Z.leb_le. split; [lia|]. intros [A|[A _]]; lia.
  - split; [auto|]. intros [A|[_ A]]; [lia|auto].
Qed.
Lemma alldigit_iff : forall s, forallb char_isdigit s = true <-> Forall digit_char s.
Proof. intros s. rewrite forallb_forall, Forall_forall. split; intros H c I; apply isdigit_iff; auto. Qed.
Lemma re_digit_iff : UniOk E -> forall c, char_re_digit c = true <-> decimal_char c.
Proof.
  intros [HU _] c. unfold char_re_digit, decimal_char, dec_char. destruct (Z.ltb_spec c 128).
  - rewrite andb_true_iff, !Z.leb_le. split. { intros A. exists (c - 48). lia. } intros (d & _ & [A|[A _]]); lia.
  - destruct (uni_decimal c) as [d|] eqn:D.
    + split; auto. intros _. exists d. destruct (HU c d D). auto.
    + split; [discriminate|]. intros (d & _ & [A|[_ A]]); [lia|discriminate].
Qed.
Lemma all_re_iff : UniOk E -> forall s, forallb char_re_digit s = true <-> Forall decimal_char s.
Proof. intros HU s. rewrite forallb_forall, Forall_forall. split; intros H c I; apply (re_digit_iff HU); auto. Qed.

(** C53.  A string passes validate_string_is_whole_number exactly if all its characters are digits (so the empty string
    does), and validate_string_is_positive_integer exactly if moreover it is not the string 0; otherwise ValueError, or TypeError if it
    is no string. *)
Lemma c53_whole_number : 
  (forall s, Forall digit_char s -> validate_string_is_whole_number (PStr s) = Ok tt) /\
  (forall s, ~ Forall digit_char s -> validate_string_is_whole_number (PStr s) = Err ValueError) /\
  (forall s, Forall digit_char s -> s <> lit "0" -> validate_string_is_positive_integer (PStr s) = Ok tt) /\
  (forall s, ~ (Forall digit_char s /\ s <> lit "0") -> validate_string_is_positive_integer (PStr s) = Err ValueError) /\
  (forall v, (forall s, v <> PStr s) -> validate_string_is_whole_number v = Err TypeError /\ validate_string_is_positive_integer v = Err TypeError).
Proof.
  split; [|split; [|split; [|split]]].
  - intros s H. rewrite whole_number_text. apply alldigit_iff in H. rewrite H. auto.
  - intros s H. rewrite whole_number_text. destruct (forallb char_isdigit s) eqn:Q; auto. apply alldigit_iff in Q. tauto.
  - intros s H N. rewrite positive_integer_text. apply alldigit_iff in H. rewrite H. destruct (str_eqb s (lit "0")) eqn:Q; auto. apply str_eqb_eq in Q. tauto.
  - intros s H. rewrite positive_integer_text. destruct (str_eqb s (lit "0")) eqn:Q; auto. cbn [negb andb].
    destruct (forallb char_isdigit s) eqn:D; auto. exfalso. apply H. split; [apply alldigit_iff; auto|]. intros ->. rewrite str_eqb_refl in Q. discriminate.
  - intros v H. destruct v; try (split; reflexivity). exfalso. eapply H. reflexivity.
Qed.

(** C53, naive claim "a string accepted by validate_string_is_positive_integer denotes a positive integer" refuted: the empty
    string, and zero written with two digits, are accepted. *)
Lemma c53_positive_refuted : validate_string_is_positive_integer (PStr []) = Ok tt /\ validate_string_is_positive_integer (PStr (lit "00")) = Ok tt /\
  py_int_str 10 (lit "00") = Ok 0 /\ exists e, py_int_str 10 [] = Err e.
Proof. split; [reflexivity|]. split; [reflexivity|]. split; [reflexivity|]. eexists. reflexivity. Qed.

(** C53.  A string passes validate_string_is_decimal exactly if it consists of digits, one dot and digits, at least one digit on each
    side; otherwise TypeError. *)
Lemma c53_decimal : forall v,
  (validate_string_is_decimal v = Ok tt <-> exists a b, v = PStr (a ++ [46] ++ b) /\ a <> [] /\ b <> [] /\ Forall digit_char a /\ Forall digit_char b) /\
  (validate_string_is_decimal v = Ok tt \/ validate_string_is_decimal v = Err TypeError).
Proof.
  intros v. split.
  - split.
    + destruct v; try discriminate. intros H. apply decimal_text in H as (a & b & -> & Na & Nb & Da & Db). exists a, b. rewrite <- !alldigit_iff. auto.
    + intros (a & b & -> & Na & Nb & Da & Db). apply decimal_text. exists a, b. rewrite !alldigit_iff. auto.
  - destruct v; try (right; reflexivity). unfold validate_string_is_decimal. cbn [validate_string bind as_str].
    destruct (Nat.eqb (count_char 46 s) 1) eqn:C; cbn [negb]; auto. apply Nat.eqb_eq in C.
    destruct (count1 s C) as [a [b [-> [Ha Hb]]]]. destruct (one_dot a b Ha Hb) as [_ [C2 C3]]. rewrite C3. destruct (_ || _); auto.
Qed.

(** C53.  The combined validator accepts what one of the two accepts; a string accepted by neither raises ValueError. *)
Lemma c53_either : forall s,
  (validate_string_is_whole_number_or_decimal (PStr s) = Ok tt <->
     Forall digit_char s \/ exists a b, s = a ++ [46] ++ b /\ a <> [] /\ b <> [] /\ Forall digit_char a /\ Forall digit_char b) /\
  (validate_string_is_whole_number_or_decimal (PStr s) = Ok tt \/ validate_string_is_whole_number_or_decimal (PStr s) = Err ValueError).
Proof.
  intros s. unfold validate_string_is_whole_number_or_decimal. rewrite whole_number_text. destruct (c53_decimal (PStr s)) as [DI DE]. pose proof (alldigit_iff s) as AD.
  destruct (forallb char_isdigit s).
  - split; auto. split; auto. intros _. left. apply AD. auto.
  - destruct DE as [D|D]; rewrite D in *.
    + split; auto. split; auto. intros _. right. destruct (proj1 DI eq_refl) as (a & b & Q & R). injection Q as ->. exists a, b. auto.
    + split; auto. split; [discriminate|]. intros [A|(a & b & -> & R)]. { apply AD in A. discriminate. } exfalso. assert (X : Err TypeError = Ok tt) by (apply DI; exists a, b; auto). discriminate X.
Qed.

Lemma permitted_printable : forall c, char_in c permitted_data_characters = true <-> printable_char c.
Proof.
  intros c. unfold printable_char. destruct (Z.leb_spec 0 c) as [A|A]; [destruct (Z.ltb_spec c 128) as [B|B]|].
    - pose proof (range_check (fun c => Bool.eqb (char_in c permitted_data_characters) ((c =? 9) || (c =? 10) || ((32 <=? c) && (c <=? 126)))) 128 ltac:(vm_compute; reflexivity) c ltac:(lia)) as R.
      cbn beta in R. apply Bool.eqb_prop in R. rewrite R, !orb_true_iff, andb_true_iff, !Z.eqb_eq, !Z.leb_le. tauto.
    - split; [|lia]. intros H. exfalso. assert (F : forallb (fun d => d <? 128) permitted_data_characters = true) by (vm_compute; reflexivity).
      rewrite forallb_forall in F. unfold char_in in H. apply existsb_exists in H as (d & I & Q). apply Z.eqb_eq in Q. subst. apply F in I. apply Z.ltb_lt in I. lia.
    - split; [|lia]. intros H. exfalso. assert (F : forallb (fun d => 0 <=? d) permitted_data_characters = true) by (vm_compute; reflexivity).
      rewrite forallb_forall in F. unfold char_in in H. apply existsb_exists in H as (d & I & Q). apply Z.eqb_eq in Q. subst. apply F in I. apply Z.leb_le in I. lia.
Qed.

(** C53.  validate_string_is_printable_ascii accepts exactly the strings of printable ASCII characters, tabs and newlines; other
    strings raise ValueError. *)
Lemma c53_printable : forall s,
  (Forall printable_char s -> validate_string_is_printable_ascii (PStr s) = Ok tt) /\
  (~ Forall printable_char s -> validate_string_is_printable_ascii (PStr s) = Err ValueError).
Proof.
  intros s.
  pose proof permitted_printable as K.
  unfold validate_string_is_printable_ascii. cbn [validate_string bind as_str]. rewrite existsb_neg. split.
  - intros F. replace (forallb _ s) with true; auto. symmetry. apply forallb_forall. intros c I. apply K. rewrite Forall_forall in F. auto.
  - intros F. destruct (forallb (fun c => char_in c permitted_data_characters) s) eqn:Q; auto. exfalso. apply F. apply Forall_forall. intros c I. apply K. rewrite forallb_forall in Q. auto.
Qed.

Lemma date_match_iff : UniOk E -> forall s, date_match s = true <-> (date_text s \/ (exists r, s = r ++ [10] /\ date_text r)).
Proof.
  intros HU s.
  split.
    - intros M. do 10 (destruct s as [|? s]; [discriminate M|]). cbn [date_match] in M. repeat (apply andb_prop in M as [M ?]).
      rewrite Z.eqb_eq in *. subst.
      repeat match goal with H : char_re_digit _ = true |- _ => apply (re_digit_iff HU) in H end.
      assert (D : forall r, date_text (z :: z0 :: z1 :: z2 :: 45 :: z4 :: z5 :: 45 :: z7 :: z8 :: r) <-> r = []).
      { intros r. split.
        - intros (y & m & d & Q & Ly & Lm & Ld & _). apply (f_equal (@length Z)) in Q. rewrite !app_length in Q. cbn [length] in Q. destruct r; auto. cbn [length] in Q. lia.
        - intros ->. exists [z; z0; z1; z2], [z4; z5], [z7; z8]. split; auto. split; auto. split; auto. split; auto. cbn [app]. repeat constructor; auto. }
      destruct s as [|n [|n' s]]; [left; apply D; auto| |discriminate]. right. match goal with H : (n =? 10) = true |- _ => apply Z.eqb_eq in H; subst end.
      exists [z; z0; z1; z2; 45; z4; z5; 45; z7; z8]. split; auto. apply D. auto.
    - assert (D : forall r, date_text r -> date_match r = true /\ date_match (r ++ [10]) = true).
      { intros r (y & m & d & -> & Ly & Lm & Ld & F). do 5 (destruct y as [|? y]; try discriminate). do 3 (destruct m as [|? m]; try discriminate). do 3 (destruct d as [|? d]; try discriminate).
        cbn [app] in *. repeat match goal with H : Forall decimal_char (_ :: _) |- _ => apply Forall_cons_iff in H as [? H] end.
        repeat match goal with H : decimal_char _ |- _ => apply (re_digit_iff HU) in H end.
        cbn [app date_match]. repeat match goal with H : char_re_digit _ = true |- _ => rewrite H; clear H end. split; reflexivity. }
      intros [H|(r & -> & H)]; apply D; auto.
Qed.
(** C53.  validate_string_is_date accepts exactly date texts, and date texts followed by one newline; other strings raise ValueError. *)
Lemma c53_date : UniOk E -> forall s,
  (date_text s \/ (exists r, s = r ++ [10] /\ date_text r) -> validate_string_is_date (PStr s) = Ok tt) /\
  (~ (date_text s \/ (exists r, s = r ++ [10] /\ date_text r)) -> validate_string_is_date (PStr s) = Err ValueError).
Proof.
  intros HU s. unfold validate_string_is_date. cbn [validate_string bind as_str].
  pose proof (date_match_iff HU s) as K.
  split; intros H.
  - apply K in H. rewrite H. auto.
  - destruct (date_match s); auto. exfalso. apply H, K. auto.
Qed.

(** C53, naive claim "only YYYY-MM-DD is accepted" refuted. *)
Lemma c53_date_refuted : validate_string_is_date (PStr (lit "2021-06-01" ++ [10])) = Ok tt /\ validate_string_is_date (PStr (lit "9999-99-99")) = Ok tt.
Proof. split; reflexivity. Qed.

(** C54.  Which values are ints for Python: ints and bools. *)
Lemma c54_integer : forall v,
  validate_integer v = match v with PInt _ | PBool _ => Ok tt | _ => Err TypeError end /\
  validate_positive_integer v = match v with PInt n => if 1 <=? n then Ok tt else Err ValueError | PBool b => if b then Ok tt else Err ValueError | _ => Err TypeError end.
Proof.
  intros v. split; [destruct v; reflexivity|]. unfold validate_positive_integer. destruct v as [|[]|n|f|s|l|d]; try reflexivity. cbn [as_int].
  destruct (Z.ltb_spec n 1), (Z.leb_spec 1 n); auto; lia.
Qed.

(** C54.  validate_whole_number accepts ints that are not negative, bools, and the floats 0.0 and -0.0; it raises ValueError for
    negative ints and TypeError for everything else. *)
Lemma c54_whole_number : forall v,
  validate_whole_number v =
    match v with
    | PInt n => if 0 <=? n then Ok tt else Err ValueError
    | PBool _ | PFloat (S754_zero _) => Ok tt
    | _ => Err TypeError
    end.
Proof.
  intros v. unfold validate_whole_number, validate_positive_integer. destruct v as [|[]|n|f|s|l|d]; try reflexivity.
  - cbn [py_eq_int as_int]. destruct (Z.eqb_spec n 0) as [->|N]; auto. destruct (Z.ltb_spec n 1), (Z.leb_spec 0 n); auto; lia.
  - cbn [py_eq_int as_int]. destruct f as [b|[]| |b m e]; try reflexivity.
    replace (match float_cmp_int (S754_finite b m e) 0 with Some Eq => true | _ => false end) with false; auto. symmetry. cbn [float_cmp_int].
    destruct (Z.leb_spec 0 e).
    + assert (0 < 2 ^ e) by (apply Z.pow_pos_nonneg; lia). destruct b; [destruct (Z.compare_spec (Z.neg m * 2 ^ e) 0)|destruct (Z.compare_spec (Z.pos m * 2 ^ e) 0)]; auto; nia.
    + rewrite Z.mul_0_l. destruct b; reflexivity.
Qed.

(** C54, naive claim "validate_whole_number accepts only ints" refuted. *)
Lemma c54_whole_refuted : validate_whole_number (PFloat (S754_zero true)) = Ok tt /\ validate_whole_number (PBool false) = Ok tt /\ validate_integer (PFloat (S754_zero true)) = Err TypeError.
Proof. repeat split. Qed.

(** C54.  validate_integer_domain accepts exactly the ints from min to max. *)
Lemma c54_domain : forall v lo hi,
  (validate_integer_domain v lo hi = Ok tt <-> exists n, as_int v = Some n /\ lo <= n <= hi) /\
  (as_int v = None -> validate_integer_domain v lo hi = Err TypeError) /\
  (forall n, as_int v = Some n -> ~ lo <= n <= hi -> validate_integer_domain v lo hi = Err ValueError).
Proof.
  intros v lo hi. unfold validate_integer_domain. destruct (as_int v) as [n|].
  - split; [|split; [discriminate|]].
    + split.
      * destruct (lo >? hi); [discriminate|]. destruct (Z.leb_spec lo n), (Z.leb_spec n hi); cbn [andb]; [intros _; exists n; auto| | |];
          (destruct (Z.ltb_spec n lo); [discriminate|]); (rewrite Z.gtb_ltb; destruct (Z.ltb_spec hi n); [discriminate|lia]).
      * intros (m & Q & R). injection Q as ->. rewrite Z.gtb_ltb. destruct (Z.ltb_spec hi lo); [lia|]. destruct (Z.leb_spec lo m), (Z.leb_spec m hi); auto; lia.
    + intros m Q R. injection Q as ->. rewrite !Z.gtb_ltb. destruct (Z.ltb_spec hi lo); auto. destruct (Z.leb_spec lo m), (Z.leb_spec m hi); cbn [andb]; [lia| | |]; destruct (Z.ltb_spec m lo); auto; destruct (Z.ltb_spec hi m); auto; lia.
  - split; [split; [discriminate|intros (n & Q & _); discriminate]|]. split; auto. discriminate.
Qed.

(** C58.  With dp, validate_string_is_decimal accepts exactly decimals with dp decimal places written with characters that have a decimal
    value (although its pattern leaves the dot unescaped), for every dp. *)
Lemma c58_decimal_places : UniOk E -> forall s n, 0 <= n < 4294967295 ->
  (validate_string_is_decimal_dp (PStr s) (PInt n) = Ok tt <->
     exists a b, s = a ++ [46] ++ b /\ a <> [] /\ b <> [] /\ Forall decimal_char a /\ Forall decimal_char b /\ Z.of_nat (length b) = n).
Proof.
  intros HU s n Hn. unfold validate_string_is_decimal_dp. cbn [as_str as_int].
  assert (N46 : forall a, Forall decimal_char a -> ~ In 46 a).
  { intros a F I. rewrite Forall_forall in F. apply F, (re_digit_iff HU) in I. discriminate. }
  assert (DD : forall a, Forall decimal_char a -> Forall digit_char a).
  { intros a F. eapply Forall_impl; [|exact F]. intros c (d & R & [A|[A B]]); [left; lia|right; split; auto]. apply HU in B. tauto. }
  replace (n <? 0) with false by (symmetry; apply Z.ltb_ge; lia). replace (4294967295 <=? n) with false by (symmetry; apply Z.leb_gt; lia).
  split.
  - intros H. inv_bind H u U. destruct u. apply c53_decimal in U as (a & b & Q & Na & Nb & Da & Db). injection Q as ->. cbn [bind] in H.
    change (a ++ 46 :: b) with (a ++ [46] ++ b) in *. revert H. destruct (dp_match (Z.to_nat n) (a ++ [46] ++ b)) eqn:M; [intros _|discriminate]. exists a, b. split; auto. split; auto. split; auto.
    unfold dp_match in M. apply existsb_exists in M as (k & _ & M). unfold dp_match_at in M.
    destruct (skipn k (a ++ [46] ++ b)) as [|c r] eqn:SK; [rewrite andb_false_r in M; discriminate|].
    apply andb_prop in M as [M1 M]. apply andb_prop in M1 as [M1 _]. apply andb_prop in M as [M M4]. apply andb_prop in M as [M M3]. apply andb_prop in M as [_ M2]. apply Nat.leb_le in M3.
    apply (all_re_iff HU) in M1, M2.
    assert (SP : a ++ [46] ++ b = firstn k (a ++ [46] ++ b) ++ c :: r) by (rewrite <- SK, firstn_skipn; auto).
    set (p := firstn k (a ++ [46] ++ b)) in *. clearbody p. clear SK.
    (* the tail after the dp digits *)
    assert (R : r = firstn (Z.to_nat n) r ++ skipn (Z.to_nat n) r) by (rewrite firstn_skipn; auto).
    set (q := firstn (Z.to_nat n) r) in *. assert (Lq : length q = Z.to_nat n) by (unfold q; rewrite firstn_length; lia). clearbody q.
    assert (NB : ~ In 10 b). { intros I. rewrite Forall_forall in Db. apply Db in I. destruct I as [I|[I _]]; lia. }
    assert (T : skipn (Z.to_nat n) r = []).
    { revert R M4. destruct (skipn (Z.to_nat n) r) as [|w [|w' z]]; intros R M4; [reflexivity| |discriminate M4]. exfalso. apply Z.eqb_eq in M4. subst w.
      rewrite R in SP. apply NB. destruct (exists_last Nb) as (b' & x & ->). rewrite !app_assoc in SP. 
      assert (LL : (p ++ c :: q ++ [10]) = (p ++ c :: q) ++ [10]) by (rewrite <- app_assoc; auto). rewrite LL in SP. apply app_inj_tail in SP as [_ ->]. apply in_or_app. right. left. auto. }
    rewrite T, app_nil_r in R. subst r.
    assert (Ia : In 46 (p ++ c :: q)) by (rewrite <- SP; apply in_or_app; right; left; auto).
    apply in_app_or in Ia as [I|[->|I]]; [destruct (N46 _ M1 I)| |destruct (N46 _ M2 I)].
    assert (A46 : ~ In 46 a). { intros I. rewrite Forall_forall in Da. apply Da in I. destruct I as [I|[I _]]; lia. }
    assert (PA : a = p /\ b = q).
    { clear - SP A46 M1 N46. pose proof (N46 p M1) as P46. cbn [app] in SP. revert p SP P46 M1. induction a as [|x a IH]; intros [|y p] SP P46 M1; cbn [app] in SP.
      - injection SP as ->. auto.
      - injection SP as <- _. exfalso. apply P46. left. auto.
      - injection SP as -> _. exfalso. apply A46. left. auto.
      - injection SP as -> SP. apply IH in SP; auto; [destruct SP as [-> ->]; auto| | |].
        + intros I. apply A46. right. auto. + intros I. apply P46. right. auto. + inversion M1; auto. }
    destruct PA as [-> ->]. split; auto. split; auto. lia.
  - intros (a & b & -> & Na & Nb & Da & Db & L).
    assert (U : validate_string_is_decimal (PStr (a ++ [46] ++ b)) = Ok tt) by (apply c53_decimal; exists a, b; auto 6). rewrite U. cbn [bind].
    replace (dp_match (Z.to_nat n) (a ++ [46] ++ b)) with true; auto. symmetry. unfold dp_match. apply existsb_exists. exists (length a). split.
    + apply in_seq. rewrite !app_length. cbn [length]. lia.
    + unfold dp_match_at. rewrite firstn_app, firstn_all, Nat.sub_diag, skipn_app, skipn_all, Nat.sub_diag. cbn [firstn skipn app]. rewrite app_nil_r.
      assert (X : firstn (Z.to_nat n) b = b) by (apply firstn_all2; lia). rewrite X. assert (Y : skipn (Z.to_nat n) b = []) by (apply skipn_all2; lia). rewrite Y.
      apply (all_re_iff HU) in Da, Db. rewrite Da, Db, app_length. cbn [length]. replace (Nat.leb (length a) (length a + S (length b))) with true by (symmetry; apply Nat.leb_le; lia).
      replace (Nat.leb (Z.to_nat n) (length b)) with true by (symmetry; apply Nat.leb_le; lia). reflexivity.
Qed.

(** C58.  Otherwise: TypeError if the text is no decimal, else ValueError, or OverflowError if dp is too large for a regular expression;
    a dp that is no int is ignored. *)
Lemma c58_decimal_places_errors : forall v dp,
  (validate_string_is_decimal v <> Ok tt -> validate_string_is_decimal_dp v dp = Err TypeError) /\
  (validate_string_is_decimal v = Ok tt -> as_int dp = None -> validate_string_is_decimal_dp v dp = Ok tt) /\
  (forall n, validate_string_is_decimal v = Ok tt -> as_int dp = Some n ->
     (n < 0 -> validate_string_is_decimal_dp v dp = Err ValueError) /\ (4294967295 <= n -> validate_string_is_decimal_dp v dp = Err OverflowError) /\
     (0 <= n < 4294967295 -> validate_string_is_decimal_dp v dp = Ok tt \/ validate_string_is_decimal_dp v dp = Err ValueError)).
Proof.
  intros v dp. unfold validate_string_is_decimal_dp. split; [|split].
  - intros H. destruct (proj2 (c53_decimal v)) as [X|X]; [tauto|]. rewrite X. reflexivity.
  - intros H A. rewrite H. cbn [bind]. apply c53_decimal in H as (a & b & -> & _). cbn [as_str bind]. rewrite A. auto.
  - intros n H A. rewrite H. cbn [bind]. apply c53_decimal in H as (a & b & -> & _). cbn [as_str bind]. rewrite A.
    split; [|split]; intros R.
    + destruct (Z.ltb_spec n 0); auto; lia.
    + destruct (Z.ltb_spec n 0); [lia|]. destruct (Z.leb_spec 4294967295 n); auto; lia.
    + destruct (Z.ltb_spec n 0); [lia|]. destruct (Z.leb_spec 4294967295 n); [lia|]. destruct (dp_match _ _); auto.
Qed.

(** C59.  The list validators: contains_items accepts exactly lists with all the items, item_in_list exactly members, and
    lists_are_identical exactly lists that are equal up to order; otherwise ValueError. *)
Lemma c59_lists : 
  (forall input items, validate_list_contains_items input items = if forallb (fun x => str_in x input) items then Ok tt else Err ValueError) /\
  (forall input items, validate_list_contains_items input items = Ok tt <-> forall x, In x items -> In x input) /\
  (forall x l, (In x l -> validate_item_in_list x l = Ok tt) /\ (~ In x l -> validate_item_in_list x l = Err ValueError)) /\
  (forall l l', (Permutation l l' -> validate_lists_are_identical l l' = Ok tt) /\ (~ Permutation l l' -> validate_lists_are_identical l l' = Err ValueError)).
Proof.
  split; [|split; [|split]].
  - intros input items. unfold validate_list_contains_items. induction items as [|x l IH]; auto. cbn [filter forallb]. destruct (str_in x input); cbn [negb andb]; auto.
  - exact contains_iff.
  - intros x l. unfold validate_item_in_list. split; intros H.
    + apply str_in_In in H. rewrite H. auto.
    + destruct (str_in x l) eqn:Q; auto. apply str_in_In in Q. tauto.
  - intros l l'. split; [apply identical_iff|apply identical_err].
Qed.

End WithEnv.

(** Concrete cases: accepted and rejected texts. *)
Example ex53_texts : forall E : Env, Forall digit_char (lit "0123456789") /\ ~ Forall digit_char (lit "1x") /\ Forall printable_char (lit "a b~") /\ ~ Forall printable_char [127] /\
  date_text (lit "2021-06-01") /\ ~ date_text (lit "2021-6-1").
Proof.
  intros E. split; [repeat constructor; vm_compute; intuition discriminate|]. split.
  { intros H. inversion H as [|? ? _ H']; subst. inversion H' as [|? ? [X|[X _]] _]; subst; cbn in X; lia. }
  split; [repeat constructor; unfold printable_char; cbn; lia|]. split. { intros H. inversion H as [|? ? X _]; subst. unfold printable_char in X. lia. }
  split.
  - exists (lit "2021"), (lit "06"), (lit "01"). do 4 (split; [reflexivity|]).
    assert (D : forall c, 48 <= c <= 57 -> decimal_char c) by (intros c R; exists (c - 48); split; [lia|]; left; lia). repeat constructor; apply D; cbn; lia.
  - intros (y & m & d & Q & Ly & Lm & Ld & _). apply (f_equal (@length Z)) in Q. rewrite !app_length, Ly, Lm, Ld in Q. discriminate.
Qed.
Example ex58_places : @validate_string_is_decimal_dp demo_env (PStr (lit "0.00000001")) (PInt 8) = Ok tt /\
  @validate_string_is_decimal_dp demo_env (PStr (lit "0.1")) (PInt 8) = Err ValueError /\
  @validate_string_is_decimal_dp demo_env (PStr (lit "12345678")) (PInt 2) = Err TypeError.
Proof. repeat split. Qed.
Example ex59_lists : validate_lists_are_identical [lit "b"; lit "a"] [lit "a"; lit "b"] = Ok tt /\ validate_lists_are_identical [lit "a"; lit "a"] [lit "a"] = Err ValueError.
Proof. split; reflexivity. Qed.

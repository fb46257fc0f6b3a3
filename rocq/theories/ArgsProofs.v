(** Proofs about the command line. *)
From Coq Require Import String Lia.
From Verif Require Import PyBase Env PyNum Cli Files Args ArgsSpec NumLemmas HexProofs SignProofs.
Open Scope Z_scope.

(** * Words *)
Lemma starts_prefix : forall p s, starts_with p s = true <-> prefix p s.
Proof.
  induction p as [|x p IH]; intros s; cbn [starts_with].
  - split; auto. intros _. exists s. reflexivity.
  - destruct s as [|y s]; [split; [discriminate|intros [r H]; discriminate]|]. rewrite andb_true_iff, Z.eqb_eq, IH. split.
    + intros [-> [r ->]]. exists r. reflexivity.
    + intros [r H]. injection H as -> ->. split; auto. exists r. reflexivity.
Qed.
Lemma split_eq_some : forall s a b, split_eq s = Some (a, b) <-> s = a ++ [61] ++ b /\ ~ In 61 a.
Proof.
  induction s as [|c s IH]; intros a b; cbn [split_eq].
  - split; [discriminate|]. intros [H _]. destruct a; discriminate.
  - destruct (c =? 61) eqn:Q.
    + apply Z.eqb_eq in Q. subst c. split.
      * intros H. injection H as <- <-. split; auto.
      * intros [H N]. destruct a as [|x a]; [injection H as ->; reflexivity|]. injection H as <- _. elim N. left. reflexivity.
    + apply Z.eqb_neq in Q. destruct (split_eq s) as [[a' b']|] eqn:R.
      * assert (R' : s = a' ++ [61] ++ b' /\ ~ In 61 a') by (apply IH; reflexivity). destruct R' as [R1 R2]. split.
        -- intros H. injection H as <- <-. subst s. split; auto. intros [H|H]; auto.
        -- intros [H N]. destruct a as [|x a]; [injection H as H; congruence|]. injection H as -> H.
           assert (I : Some (a', b') = Some (a, b)) by (apply IH; split; auto; intros I; apply N; right; auto). injection I as -> ->. reflexivity.
      * split; [discriminate|]. intros [H N]. destruct a as [|x a]; [injection H as H; congruence|]. injection H as -> H.
        assert (I : None = Some (a, b)) by (apply IH; split; auto; intros I; apply N; right; auto). discriminate.
Qed.
Lemma split_eq_none : forall s, split_eq s = None <-> ~ In 61 s.
Proof.
  intros s. destruct (split_eq s) as [[a b]|] eqn:R.
  - apply split_eq_some in R as [-> _]. split; [discriminate|]. intros H. elim H. apply in_or_app. right. left. reflexivity.
  - split; auto. intros _ I. apply in_split in I as (a & b & H).
    assert (G : forall n a b, (length a <= n)%nat -> s = a ++ [61] ++ b -> exists a' b', s = a' ++ [61] ++ b' /\ ~ In 61 a').
    { induction n as [|n IH]; intros u w L U.
      - destruct u; [exists [], w; split; auto|cbn in L; lia].
      - destruct (in_dec Z.eq_dec 61 u) as [J|J]; [|exists u, w; auto]. apply in_split in J as (x & y & J). apply (IH x (y ++ [61] ++ w)).
        + rewrite J, app_length in L. cbn [length] in L. lia.
        + rewrite U, J, <- !app_assoc. reflexivity. }
    destruct (G _ a b (le_n _) H) as (a' & b' & Q). apply split_eq_some in Q. congruence.
Qed.

(** * The table of options *)
Lemma table_in : forall n o, In (n, o) option_strings <-> n = long o \/ exists c, letter o c /\ n = [45; c].
Proof.
  intros n o. split.
  - intros I. unfold option_strings in I. cbn [In] in I.
    repeat (destruct I as [I|I]; [injection I as <- <-; first [left; reflexivity|right; eexists; split; [constructor|reflexivity]]|]). destruct I.
  - intros [->|(c & L & ->)]; [|destruct L; cbn; tauto]. destruct o; cbn; tauto.
Qed.
Lemma long_dashes : forall o, exists c r, long o = 45 :: 45 :: c :: r /\ c <> 61.
Proof. intros o. destruct o; eexists; eexists; (split; [reflexivity|discriminate]). Qed.
Lemma long_no_eq : forall o, ~ In 61 (long o).
Proof. intros o H. destruct o; vm_compute in H; repeat (destruct H as [H|H]; [discriminate|]); exact H. Qed.
Lemma prefix_no_eq : forall w o, prefix w (long o) -> ~ In 61 w.
Proof. intros w o [r H] I. apply (long_no_eq o). rewrite H. apply in_or_app. auto. Qed.
Lemma long_inj : forall o o', long o = long o' -> o = o'.
Proof. intros o o' H. destruct o, o'; try reflexivity; discriminate H. Qed.
Lemma letter_fun : forall o o' c, letter o c -> letter o' c -> o = o'.
Proof. intros o o' c H H'. inversion H; subst; inversion H'; subst; reflexivity. Qed.
Lemma letter_fun' : forall o c c', letter o c -> letter o c' -> c = c'.
Proof. intros o c c' H H'. inversion H; subst; inversion H'; subst; reflexivity. Qed.
Lemma letter_plain : forall o c, letter o c -> c <> 45 /\ c <> 61.
Proof. intros o c H. destruct H; split; discriminate. Qed.

Lemma find_option_iff : forall w o, find_option w = Some o <-> w = long o \/ exists c, letter o c /\ w = [45; c].
Proof.
  intros w o. unfold find_option. split.
  - destruct (find _ option_strings) as [[n o']|] eqn:F; [|discriminate]. intros H. injection H as ->. apply find_some in F as [I Q]. cbn [fst] in Q.
    apply str_eqb_eq in Q. subst n. apply table_in. exact I.
  - intros [->|(c & L & ->)]; [destruct o; reflexivity|destruct L; reflexivity].
Qed.
Lemma find_option_none : forall w, find_option w = None <-> (forall o, w <> long o) /\ (forall o c, letter o c -> w <> [45; c]).
Proof.
  intros w. destruct (find_option w) as [o|] eqn:F.
  - split; [discriminate|]. intros [H1 H2]. apply find_option_iff in F as [F|(c & L & F)]; [elim (H1 o F)|elim (H2 o c L F)].
  - split; auto. intros _. split.
    + intros o H. assert (Q : find_option w = Some o) by (apply find_option_iff; auto). congruence.
    + intros o c L H. assert (Q : find_option w = Some o) by (apply find_option_iff; right; eauto). congruence.
Qed.

(** A filter that leaves one element. *)
Lemma filter_one : forall (A : Type) (p : A -> bool) l x, NoDup l -> (filter p l = [x] <-> In x l /\ p x = true /\ forall y, In y l -> p y = true -> y = x).
Proof.
  intros A p l x N. split.
  - intros H. assert (I : In x (filter p l)) by (rewrite H; left; auto). apply filter_In in I as [I P]. split; auto. split; auto.
    intros y J Q. assert (K : In y (filter p l)) by (apply filter_In; auto). rewrite H in K. destruct K as [K|[]]; auto.
  - intros (I & P & U). assert (L : forall y, In y (filter p l) -> y = x) by (intros y J; apply filter_In in J as [J Q]; auto).
    assert (J : In x (filter p l)) by (apply filter_In; auto). pose proof (NoDup_filter p N) as NF.
    destruct (filter p l) as [|a [|b r]]; [destruct J|f_equal; apply L; left; auto|].
    exfalso. inversion NF as [|? ? NI _]; subst. apply NI. left. transitivity x; [|symmetry]; apply L; [right; left|left]; auto.
Qed.
Lemma table_nodup : NoDup option_strings.
Proof.
  apply (NoDup_map_inv fst). unfold option_strings. cbn [map fst].
  repeat (constructor; [intros H; cbn [In] in H; repeat (destruct H as [H|H]; [discriminate H|]); exact H|]). constructor.
Qed.
Lemma long_only : forall n o w, In (n, o) option_strings -> prefix (lit "--") w -> prefix w n -> n = long o.
Proof.
  intros n o w I [r W] [r' P]. apply table_in in I as [I|(c & L & I)]; auto. exfalso. subst n w. change (lit "--") with [45; 45] in P. cbn in P.
  injection P as P _. apply letter_plain in L as [L _]. congruence.
Qed.
Lemma table_one : forall w e, prefix (lit "--") w ->
  (filter (fun e => starts_with w (fst e)) option_strings = [e] <-> fst e = long (snd e) /\ prefix w (long (snd e)) /\ forall o', prefix w (long o') -> o' = snd e).
Proof.
  intros w [n o] D. rewrite (filter_one _ _ _ _ table_nodup). cbn [fst snd]. split.
  - intros (I & P & U). apply starts_prefix in P. pose proof (long_only _ _ _ I D P) as ->. split; auto. split; auto. intros o' P'.
    assert (Q : (long o', o') = (long o, o)) by (apply U; [apply table_in; auto|apply starts_prefix; auto]). injection Q as _ Q. exact Q.
  - intros (-> & P & U). split; [apply table_in; auto|]. split; [apply starts_prefix; auto|]. intros [n' o'] I P'. cbn [fst] in P'. apply starts_prefix in P'.
    pose proof (long_only _ _ _ I D P') as ->. rewrite (U o' P'). reflexivity.
Qed.
Lemma table_none : forall w, prefix (lit "--") w ->
  (filter (fun e => starts_with w (fst e)) option_strings = [] <-> forall o, ~ prefix w (long o)).
Proof.
  intros w D. split.
  - intros H o P. assert (I : In (long o, o) (filter (fun e => starts_with w (fst e)) option_strings)) by (apply filter_In; split; [apply table_in; auto|apply starts_prefix; auto]).
    rewrite H in I. destruct I.
  - intros H. destruct (filter _ option_strings) as [|[n o] r] eqn:F; [reflexivity|]. exfalso.
    assert (I : In (n, o) (filter (fun e => starts_with w (fst e)) option_strings)) by (rewrite F; left; auto). apply filter_In in I as [I P]. cbn [fst] in P. apply starts_prefix in P.
    rewrite (long_only _ _ _ I D P) in P. exact (H o P).
Qed.

(** The tuples of a word with one dash. *)
Lemma short_tuples : forall d r, d <> 45 -> get_option_tuples (45 :: d :: r) =
  match find_option [45; d] with Some o => [(o, [45; d], Some r)] | None => [] end.
Proof.
  intros d r N. assert (G : get_option_tuples (45 :: d :: r) = flat_map (fun e => if str_eqb (fst e) [45; d] then [(snd e, fst e, Some r)]
                         else if starts_with (45 :: d :: r) (fst e) then [(snd e, fst e, None)] else []) option_strings).
  { unfold get_option_tuples. destruct d as [|p|p]; try reflexivity. repeat (destruct p as [p|p|]; try reflexivity). congruence. }
  rewrite G. clear G.
  assert (S : forall n o, In (n, o) option_strings -> starts_with (45 :: d :: r) n = true -> n = [45; d]).
  { intros n o I P. apply starts_prefix in P as [q P]. apply table_in in I as [->|(c & L & ->)].
    - destruct (long_dashes o) as (c & s & H & _). rewrite H in P. cbn in P. injection P as P _. congruence.
    - cbn in P. injection P as -> P. reflexivity. }
  destruct (find_option [45; d]) as [o|] eqn:F.
  - apply find_option_iff in F as [F|(c & L & F)]; [destruct (long_dashes o) as (c & s & H & _); rewrite H in F; discriminate|]. injection F as ->.
    destruct L; vm_compute; reflexivity.
  - assert (Z : forall l, (forall e, In e l -> In e option_strings) -> flat_map (fun e => if str_eqb (fst e) [45; d] then [(snd e, fst e, Some r)]
                         else if starts_with (45 :: d :: r) (fst e) then [(snd e, fst e, None)] else []) l = []); [|apply Z; auto].
    induction l as [|[n o] l IH]; intros H; [reflexivity|]. cbn [flat_map fst snd]. rewrite IH by (intros; apply H; right; auto).
    assert (I : In (n, o) option_strings) by (apply H; left; auto).
    assert (NE : n <> [45; d]).
    { intros ->. apply find_option_none in F as [_ F]. apply table_in in I as [I|(c & L & I)]; [|exact (F o c L I)].
      destruct (long_dashes o) as (c & s & Q & _). rewrite Q in I. discriminate. }
    destruct (str_eqb n [45; d]) eqn:Q; [apply str_eqb_eq in Q; contradiction|]. destruct (starts_with (45 :: d :: r) n) eqn:P; [elim NE; eapply S; eauto|]. reflexivity.
Qed.

Lemma long_tuples : forall r, get_option_tuples (45 :: 45 :: r) =
  let '(p, explicit) := match split_eq (45 :: 45 :: r) with Some (a, b) => (a, Some b) | None => (45 :: 45 :: r, None) end in
  map (fun e => (snd e, fst e, explicit)) (filter (fun e => starts_with p (fst e)) option_strings).
Proof. reflexivity. Qed.
Lemma dd : lit "--" = [45; 45].
Proof. reflexivity. Qed.
(** The part of a word before the first equals sign. *)
Lemma dash_head : forall r a b, split_eq (45 :: 45 :: r) = Some (a, b) -> prefix (lit "--") a.
Proof.
  intros r a b H. apply split_eq_some in H as [H _]. destruct a as [|x [|y a]]; [discriminate|injection H as _ H; discriminate|]. injection H as <- <- _. exists a. reflexivity.
Qed.

Section WithEnv.
Context {E : Env}.

Lemma decimal_iff : forall c, is_decimal c = true <-> decimal_char c.
Proof.
  intros c. unfold is_decimal, decimal_char. rewrite orb_true_iff, !andb_true_iff, !Z.leb_le. split; (intros [H|[H D]]; [left; lia|right; split; auto]).
  - destruct (uni_decimal c) as [d|]; [eauto|discriminate].
  - destruct D as [d ->]. reflexivity.
Qed.
Lemma all_decimal_iff : forall s, all_decimal s = true <-> Forall decimal_char s.
Proof. intros s. unfold all_decimal. rewrite forallb_forall, Forall_forall. split; intros H c I; apply decimal_iff, H, I. Qed.
Lemma nonempty_iff : forall (A : Type) (l : list A), nonempty l = true <-> l <> [].
Proof. intros A [|x l]; cbn; split; congruence. Qed.
Lemma decimal_no : forall s c, Forall decimal_char s -> c < 48 -> ~ In c s.
Proof. intros s c F L I. rewrite Forall_forall in F. destruct (F c I) as [H|[H _]]; lia. Qed.
Lemma split_two : forall s a b, split_char 46 s = [a; b] -> s = a ++ [46] ++ b.
Proof.
  assert (ONE : forall s a, split_char 46 s = [a] -> s = a).
  { induction s as [|x s IH]; intros a H; cbn [split_char] in H; [injection H as <-; reflexivity|].
    destruct (x =? 46); [injection H as _ H; destruct s as [|y s]; cbn in H; [discriminate|destruct (y =? 46); [discriminate|destruct (split_char 46 s); discriminate]]|].
    destruct (split_char 46 s) as [|w [|? ?]] eqn:Q; try discriminate; injection H as <-; [destruct s as [|y s]; cbn in Q; [discriminate|destruct (y =? 46); [discriminate|destruct (split_char 46 s); discriminate]]|].
    rewrite <- (IH w eq_refl). reflexivity. }
  induction s as [|x s IH]; intros a b H; cbn [split_char] in H; [discriminate|]. destruct (x =? 46) eqn:Q.
  - apply Z.eqb_eq in Q. subst x. injection H as <- H. apply ONE in H. subst s. reflexivity.
  - destruct (split_char 46 s) as [|w [|w2 [|? ?]]] eqn:R; try discriminate. injection H as <- <-. rewrite (IH w w2 eq_refl). reflexivity.
Qed.
Lemma split_two' : forall a b, ~ In 46 a -> ~ In 46 b -> split_char 46 (a ++ [46] ++ b) = [a; b].
Proof.
  assert (ONE : forall b, ~ In 46 b -> split_char 46 b = [b]).
  { induction b as [|x b IH]; intros N; [reflexivity|]. cbn [split_char]. destruct (x =? 46) eqn:Q; [apply Z.eqb_eq in Q; elim N; left; auto|].
    rewrite IH by (intros I; apply N; right; auto). reflexivity. }
  induction a as [|x a IH]; intros b N M; cbn [app split_char]; [change (46 =? 46) with true; cbn match; rewrite ONE; auto|].
  destruct (x =? 46) eqn:Q; [apply Z.eqb_eq in Q; elim N; left; auto|]. change (46 :: b) with ([46] ++ b). rewrite IH; auto. intros I. apply N. right. auto.
Qed.
Lemma number_body_iff : forall s, number_body s = true <->
  exists a b, Forall decimal_char a /\ Forall decimal_char b /\ ((s = a /\ a <> []) \/ (s = a ++ [46] ++ b /\ b <> [])).
Proof.
  intros s. unfold number_body. rewrite orb_true_iff, andb_true_iff, nonempty_iff, all_decimal_iff. split.
  - intros [[N F]|H]; [exists s, []; auto|]. destruct (split_char 46 s) as [|a [|b [|? ?]]] eqn:S; try discriminate.
    rewrite !andb_true_iff, nonempty_iff, !all_decimal_iff in H. destruct H as [[A N] B]. exists a, b. apply split_two in S. auto.
  - intros (a & b & A & B & [[-> N]|[-> N]]); [left; auto|right]. rewrite (split_two' a b) by (eapply decimal_no; [eassumption|lia]).
    rewrite !andb_true_iff, nonempty_iff, !all_decimal_iff. auto.
Qed.
Lemma negative_iff : forall w, negative_number w = true <-> negative w.
Proof.
  intros w. unfold negative, negative_number. change (lit "-") with [45]. change (lit ".") with [46]. split.
  - intros H. destruct w as [|c r]; [discriminate|]. assert (c = 45) by (destruct c as [|p|p]; try discriminate; repeat (destruct p as [p|p|]; try discriminate); reflexivity). subst c.
    apply orb_true_iff in H as [H|H].
    + apply number_body_iff in H as (a & b & A & B & H). exists a, b, []. split; auto. split; auto. split; auto. rewrite !app_nil_r.
      destruct H as [[-> N]|[-> N]]; [left|right]; auto.
    + destruct (rev r) as [|c r'] eqn:R; [discriminate|]. assert (c = 10) by (destruct c as [|p|p]; try discriminate; repeat (destruct p as [p|p|]; try discriminate); reflexivity). subst c.
      assert (RR : r = rev r' ++ [10]) by (rewrite <- (rev_involutive r), R; reflexivity).
      apply number_body_iff in H as (a & b & A & B & H). exists a, b, [10]. split; auto. split; auto. split; auto. subst r.
      destruct H as [[-> N]|[-> N]]; [left|right]; rewrite <- ?app_assoc; auto.
  - intros (a & b & nl & NL & A & B & H).
    assert (G : exists s, w = 45 :: s ++ nl /\ number_body s = true).
    { destruct H as [[-> N]|[-> N]]; [exists a|exists (a ++ [46] ++ b)]; (split; [rewrite <- ?app_assoc; reflexivity|]); apply number_body_iff; exists a, b; auto. }
    destruct G as (s & -> & G). destruct NL as [-> | ->].
    + rewrite app_nil_r, G. reflexivity.
    + rewrite rev_app_distr. cbn [rev app]. rewrite rev_involutive, G. apply orb_true_r.
Qed.

(** How a word is read as an option. *)
Inductive reads : pystr -> opt -> pystr -> option pystr -> Prop :=
| r_name : forall w o n, names w o -> prefix (lit "--") n -> reads w o n None
| r_name_eq : forall w o n v, names w o -> prefix (lit "--") n -> reads (w ++ [61] ++ v) o n (Some v)
| r_letter : forall o c, letter o c -> reads [45; c] o [45; c] None
| r_letter_eq : forall o c v, letter o c -> reads ([45; c] ++ [61] ++ v) o [45; c] (Some v)
| r_letter_text : forall o c v, letter o c -> v <> [] -> ~ prefix (lit "=") v -> reads ([45; c] ++ v) o [45; c] (Some v).

Lemma dash_case : forall w, (forall r, w <> lit "-" ++ r) \/ w = lit "-" \/ (exists c r, w = 45 :: c :: r /\ c <> 45) \/ (exists r, w = 45 :: 45 :: r).
Proof.
  intros [|a [|b r]]; change (lit "-") with [45].
  - left. discriminate.
  - destruct (Z.eq_dec a 45) as [->|N]; [right; left; reflexivity|left; intros r H; injection H as H; congruence].
  - destruct (Z.eq_dec a 45) as [->|N]; [|left; intros q H; injection H as H; congruence].
    right. right. destruct (Z.eq_dec b 45) as [->|M]; [right; eauto|left; eauto].
Qed.
Lemma plain_not_dash : forall w, (forall r, w <> lit "-" ++ r) -> parse_optional w = Some MA.
Proof.
  intros [|c r] H; [reflexivity|]. unfold parse_optional. destruct (c =? 45) eqn:Q; [apply Z.eqb_eq in Q; subst c; elim (H r); reflexivity|reflexivity].
Qed.
(** A word with one dash. *)
Lemma read_short : forall c r, c <> 45 -> parse_optional (45 :: c :: r) =
  match find_option [45; c] with
  | Some o => Some (MO (Some o) [45; c] (match r with [] => None | d :: r' => Some (if d =? 61 then r' else r) end))
  | None => if negative_number (45 :: c :: r) then Some MA else if char_in 32 (45 :: c :: r) then Some MA else Some (MO None (45 :: c :: r) None)
  end.
Proof.
  intros c r N. unfold parse_optional. change (negb (45 =? 45)) with false. cbn match.
  destruct r as [|d r].
  - destruct (find_option [45; c]) as [o|] eqn:F; [reflexivity|]. change (Nat.eqb (length [45; c]) 1) with false. cbn match.
    assert (S : match split_eq [45; c] with Some (a, b) => match find_option a with Some o => Some (MO (Some o) a (Some b)) | None => None end | None => None end = None).
    { destruct (split_eq [45; c]) as [[a b]|] eqn:S; [|reflexivity]. apply split_eq_some in S as [S _].
      destruct a as [|x [|y a]]; [discriminate|injection S as <- S; reflexivity|injection S as _ _ S; destruct a; discriminate]. }
    rewrite S. rewrite short_tuples by auto. rewrite F. reflexivity.
  - assert (FN : find_option (45 :: c :: d :: r) = None).
    { apply find_option_none. split; [intros o H; destruct (long_dashes o) as (x & s & L & _); rewrite L in H; injection H as H _; congruence|]. intros o x _ H. discriminate. }
    rewrite FN. change (Nat.eqb (length (45 :: c :: d :: r)) 1) with false. cbn match.
    destruct (split_eq (45 :: c :: d :: r)) as [[a b]|] eqn:S.
    + apply split_eq_some in S as [S SN]. destruct (find_option a) as [o|] eqn:FA.
      * apply find_option_iff in FA as [->|(x & L & ->)]; [destruct (long_dashes o) as (x & s & L & _); rewrite L in S; injection S as S _; congruence|].
        injection S as <- S1 S2. subst d r. assert (FL : find_option [45; c] = Some o) by (apply find_option_iff; right; eauto). rewrite FL. reflexivity.
      * cbn match. rewrite short_tuples by auto. destruct (find_option [45; c]) as [o|] eqn:FC; [|reflexivity].
        destruct (d =? 61) eqn:Q; [|reflexivity]. exfalso. apply Z.eqb_eq in Q. subst d.
        destruct a as [|x [|y [|z a]]]; [discriminate|injection S as _ -> _|injection S as <- <- S|injection S as <- <- <- S].
        -- apply find_option_iff in FC as [FC|(x' & L & FC)]; [destruct (long_dashes o) as (? & ? & L & _); rewrite L in FC; discriminate|]. injection FC as <-. apply letter_plain in L. lia.
        -- congruence.
        -- apply SN. right. right. left. reflexivity.
    + cbn match. rewrite short_tuples by auto. destruct (find_option [45; c]) as [o|] eqn:FC; [|reflexivity].
      destruct (d =? 61) eqn:Q; [|reflexivity]. exfalso. apply Z.eqb_eq in Q. subst d. apply (proj1 (split_eq_none _) S). right. right. left. reflexivity.
Qed.

(** A word with two dashes: its name is what comes before the first equals sign. *)
Definition name_part (w : pystr) : pystr * option pystr := match split_eq w with Some (a, b) => (a, Some b) | None => (w, None) end.
Lemma read_long : forall r, parse_optional (45 :: 45 :: r) =
  let w := 45 :: 45 :: r in
  let '(n, e) := name_part w in
  match find_option n with
  | Some o => Some (MO (Some o) n e)
  | None => match filter (fun e => starts_with n (fst e)) option_strings with
            | _ :: _ :: _ => None
            | [(name, o)] => Some (MO (Some o) name e)
            | [] => if negative_number w then Some MA else if char_in 32 w then Some MA else Some (MO None w None)
            end
  end.
Proof.
  intros r. cbv zeta. unfold parse_optional, name_part. change (negb (45 =? 45)) with false. cbn match. rewrite long_tuples.
  change (Nat.eqb (length (45 :: 45 :: r)) 1) with false.
  destruct (split_eq (45 :: 45 :: r)) as [[a b]|] eqn:S; cbv zeta iota beta.
  - assert (FN : find_option (45 :: 45 :: r) = None).
    { apply split_eq_some in S as [S _]. apply find_option_none. split.
      - intros o H. apply (long_no_eq o). rewrite <- H, S. apply in_or_app. right. left. reflexivity.
      - intros o c L H. injection H as H _. apply letter_plain in L. lia. }
    rewrite FN. destruct (find_option a); [reflexivity|]. destruct (filter _ option_strings) as [|[n o] [|? ?]]; reflexivity.
  - destruct (find_option (45 :: 45 :: r)); [reflexivity|]. destruct (filter _ option_strings) as [|[n o] [|? ?]]; reflexivity.
Qed.
Lemma name_part_iff : forall w n e, name_part w = (n, e) <-> ~ In 61 n /\ ((e = None /\ w = n) \/ exists v, e = Some v /\ w = n ++ [61] ++ v).
Proof.
  intros w n e. unfold name_part. destruct (split_eq w) as [[a b]|] eqn:S.
  - pose proof S as S0. apply split_eq_some in S as [S N]. split.
    + intros H. injection H as <- <-. split; auto. right. eauto.
    + intros (M & [[-> ->]|(v & -> & H)]).
      * exfalso. apply M. rewrite S. apply in_or_app. right. left. reflexivity.
      * assert (Q : split_eq w = Some (n, v)) by (apply split_eq_some; auto). congruence.
  - pose proof S as S0. apply split_eq_none in S. split.
    + intros H. injection H as <- <-. auto.
    + intros (M & [[-> ->]|(v & -> & H)]); auto. exfalso. apply S. rewrite H. apply in_or_app. right. left. reflexivity.
Qed.

Lemma names_dashes : forall w o, names w o -> prefix (lit "--") w /\ prefix w (long o) /\ exists r, w = 45 :: 45 :: r.
Proof.
  intros w o [->|(D & P & _)].
  - destruct (long_dashes o) as (c & r & H & _). rewrite H. split; [exists (c :: r); reflexivity|]. split; [exists []; rewrite app_nil_r; reflexivity|eauto].
  - split; [auto|]. split; [auto|]. destruct D as [r D]. exists r. exact D.
Qed.
(** The name part of a word with two dashes decides. *)
Lemma name_option : forall n o m, prefix (lit "--") n ->
  (match find_option n with
   | Some o => Some (n, o)
   | None => match filter (fun e => starts_with n (fst e)) option_strings with [e] => Some e | _ => None end
   end = Some (m, o) -> names n o /\ prefix (lit "--") m).
Proof.
  intros n o m D H. destruct (find_option n) as [o'|] eqn:F.
  - injection H as -> ->. split; auto. apply find_option_iff in F as [F|(c & L & F)]; [left; exact F|]. exfalso. destruct D as [r D]. rewrite F in D. injection D as D _. apply letter_plain in L. lia.
  - destruct (filter _ option_strings) as [|e [|? ?]] eqn:T; try discriminate. injection H as ->. apply (table_one n (m, o) D) in T as (T1 & T2 & T3). cbn [fst snd] in *.
    split; [right; auto|]. rewrite T1. destruct (long_dashes o) as (c & r & L & _). rewrite L. exists (c :: r). reflexivity.
Qed.
Lemma name_option' : forall n o, names n o -> exists m, prefix (lit "--") m /\
  match find_option n with
   | Some o => Some (n, o)
   | None => match filter (fun e => starts_with n (fst e)) option_strings with [e] => Some e | _ => None end
   end = Some (m, o).
Proof.
  intros n o H. destruct (names_dashes _ _ H) as (D & P & _). destruct (find_option n) as [o'|] eqn:F.
  - exists n. split; auto. apply find_option_iff in F as [F|(c & L & F)]; [|exfalso; destruct D as [r D]; rewrite F in D; injection D as D _; apply letter_plain in L; lia].
    f_equal. f_equal. destruct H as [->|(_ & _ & U)]; [symmetry; apply long_inj; auto|]. apply U. exists []. rewrite app_nil_r. auto.
  - destruct H as [->|(_ & _ & U)]; [apply find_option_none in F as [F _]; elim (F o eq_refl)|].
    exists (long o). split; [destruct (long_dashes o) as (c & r & L & _); rewrite L; exists (c :: r); reflexivity|].
    assert (T : filter (fun e => starts_with n (fst e)) option_strings = [(long o, o)]) by (apply table_one; auto). rewrite T. reflexivity.
Qed.

Lemma read_option : forall w o n e, parse_optional w = Some (MO (Some o) n e) -> reads w o n e.
Proof.
  intros w o n e H. destruct (dash_case w) as [D|[->|[(c & r & -> & N)|(r & ->)]]].
  - rewrite plain_not_dash in H by auto. discriminate.
  - discriminate.
  - rewrite read_short in H by auto. destruct (find_option [45; c]) as [o'|] eqn:F.
    + assert (L : letter o' c) by (apply find_option_iff in F as [F|(x & L & F)]; [destruct (long_dashes o') as (x & s & L & _); rewrite L in F; discriminate|injection F as ->; exact L]).
      injection H as -> <- <-. destruct r as [|d r]; [apply (r_letter o c L)|]. destruct (d =? 61) eqn:Q.
      * apply Z.eqb_eq in Q. subst d. apply (r_letter_eq o c r L).
      * apply Z.eqb_neq in Q. apply (r_letter_text o c (d :: r) L); [discriminate|]. intros [x X]. injection X as X _. congruence.
    + destruct (negative_number _); [discriminate|]. destruct (char_in 32 _); discriminate.
  - rewrite read_long in H. cbv zeta in H. destruct (name_part (45 :: 45 :: r)) as [a x] eqn:P. pose proof P as P0. apply name_part_iff in P as [NI P].
    assert (D : prefix (lit "--") a).
    { unfold name_part in P0. destruct (split_eq (45 :: 45 :: r)) as [[u v]|] eqn:S; injection P0 as <- <-; [eapply dash_head; eauto|exists r; reflexivity]. }
    assert (Q : names a o /\ prefix (lit "--") n /\ e = x).
    { destruct (find_option a) as [o'|] eqn:F.
      - injection H as -> <- <-. destruct (name_option a o a D) as [? ?]; [rewrite F; reflexivity|auto].
      - destruct (filter _ option_strings) as [|[m o'] [|? ?]] eqn:T; [|injection H as -> <- <-; destruct (name_option a o m D) as [? ?]; [rewrite F, T; reflexivity|auto]|discriminate].
        destruct (negative_number _); [discriminate|]. destruct (char_in 32 _); discriminate. }
    destruct Q as (Q1 & Q2 & ->). destruct P as [[-> ->]|(v & -> & ->)]; [apply r_name|apply r_name_eq]; auto.
Qed.
Lemma read_name : forall w o, names w o -> exists n, prefix (lit "--") n /\ parse_optional w = Some (MO (Some o) n None).
Proof.
  intros w o H. destruct (names_dashes _ _ H) as (D & P & r & ->). destruct (name_option' _ _ H) as (m & M & Q). exists m. split; auto.
  rewrite read_long. cbv zeta. assert (N : name_part (45 :: 45 :: r) = (45 :: 45 :: r, None)) by (apply name_part_iff; split; [eapply prefix_no_eq; eauto|auto]). rewrite N.
  destruct (find_option (45 :: 45 :: r)); [injection Q as -> ->; reflexivity|]. destruct (filter _ option_strings) as [|[a b] [|? ?]]; try discriminate. injection Q as -> ->. reflexivity.
Qed.
Lemma read_name_eq : forall w o v, names w o -> exists n, prefix (lit "--") n /\ parse_optional (w ++ [61] ++ v) = Some (MO (Some o) n (Some v)).
Proof.
  intros w o v H. destruct (names_dashes _ _ H) as (D & P & r & W). destruct (name_option' _ _ H) as (m & M & Q). exists m. split; auto.
  assert (X : w ++ [61] ++ v = 45 :: 45 :: r ++ [61] ++ v) by (rewrite W; reflexivity). rewrite X. rewrite read_long. cbv zeta. rewrite <- X.
  assert (N : name_part (w ++ [61] ++ v) = (w, Some v)) by (apply name_part_iff; split; [eapply prefix_no_eq; eauto|eauto]). rewrite N.
  destruct (find_option w); [injection Q as -> ->; reflexivity|]. destruct (filter _ option_strings) as [|[a b] [|? ?]]; try discriminate. injection Q as -> ->. reflexivity.
Qed.
Lemma find_letter : forall o c, letter o c -> find_option [45; c] = Some o.
Proof. intros o c L. apply find_option_iff. right. eauto. Qed.
Lemma read_letter : forall o c r, letter o c -> parse_optional (45 :: c :: r) =
  Some (MO (Some o) [45; c] (match r with [] => None | d :: r' => Some (if d =? 61 then r' else r) end)).
Proof. intros o c r L. rewrite read_short by apply (letter_plain _ _ L). rewrite (find_letter _ _ L). reflexivity. Qed.

Lemma char_in_iff : forall c s, char_in c s = true <-> In c s.
Proof. intros c s. unfold char_in. rewrite existsb_exists. split; [intros (x & I & Q); apply Z.eqb_eq in Q; subst; auto|intros I; exists c; split; auto; apply Z.eqb_refl]. Qed.
Lemma letter_like : forall o c r, letter o c -> like_option (45 :: c :: r).
Proof. intros o c r L. left. exists o, c, r. auto. Qed.

Lemma read_value : forall w, parse_optional w = Some MA <-> value_word w.
Proof.
  intros w. unfold value_word. destruct (dash_case w) as [D|[->|[(c & r & -> & N)|(r & ->)]]].
  - rewrite plain_not_dash by auto. split; auto.
  - split; auto.
  - assert (ND : ~ (forall q, 45 :: c :: r <> lit "-" ++ q)) by (intros H; apply (H (c :: r)); reflexivity).
    rewrite read_short by auto. destruct (find_option [45; c]) as [o|] eqn:F.
    + assert (L : letter o c) by (apply find_option_iff in F as [F|(x & L & F)]; [destruct (long_dashes o) as (x & s & L & _); rewrite L in F; discriminate|injection F as ->; exact L]).
      split; [discriminate|]. intros [H|[H|[H _]]]; [contradiction|discriminate|]. elim H. eapply letter_like; eauto.
    + assert (NL : ~ like_option (45 :: c :: r)).
      { apply find_option_none in F as [F1 F2]. intros [(o & x & q & L & H)|(o & n & q & [s D] & P & H)].
        - cbn in H. injection H as -> _. exact (F2 o x L eq_refl).
        - rewrite D in H. rewrite dd in H. destruct H as [H|H]; cbn in H; injection H as H _; congruence. }
      rewrite <- negative_iff, <- char_in_iff. destruct (negative_number _); [split; auto|]. destruct (char_in 32 _); [split; auto|].
      split; [discriminate|]. intros [H|[H|[_ [H|H]]]]; try discriminate; contradiction.
  - assert (ND : ~ (forall q, 45 :: 45 :: r <> lit "-" ++ q)) by (intros H; apply (H (45 :: r)); reflexivity).
    rewrite read_long. cbv zeta. destruct (name_part (45 :: 45 :: r)) as [a x] eqn:P. pose proof P as P0. apply name_part_iff in P as [NI P].
    assert (D : prefix (lit "--") a).
    { unfold name_part in P0. destruct (split_eq (45 :: 45 :: r)) as [[u v]|] eqn:S; injection P0 as <- <-; [eapply dash_head; eauto|exists r; reflexivity]. }
    assert (LK : forall o, prefix a (long o) -> like_option (45 :: 45 :: r)).
    { intros o Q. right. destruct P as [[_ P]|(v & _ & P)]; [exists o, a, []; auto|exists o, a, v; split; auto; split; auto; right; exact P]. }
    destruct (find_option a) as [o|] eqn:F.
    + split; [discriminate|]. intros [H|[H|[H _]]]; [contradiction|discriminate|]. elim H. apply (LK o).
      apply find_option_iff in F as [->|(c & L & F)]; [exists []; rewrite app_nil_r; auto|]. exfalso. destruct D as [q D]. rewrite F in D. injection D as D _. apply letter_plain in L. lia.
    + destruct (filter (fun e => starts_with a (fst e)) option_strings) as [|[m o] l] eqn:T.
      * rewrite (table_none a D) in T. assert (NL : ~ like_option (45 :: 45 :: r)).
        { intros [(o & c & q & L & H)|(o & n & q & Dn & Pn & H)].
          - cbn in H. injection H as <- _. apply letter_plain in L. lia.
          - apply (T o). assert (Q : exists z, name_part (45 :: 45 :: r) = (n, z)).
            { destruct H as [H|H]; [exists None|exists (Some q)]; (apply name_part_iff; split; [eapply prefix_no_eq; eauto|]); [left; auto|right; exists q; auto]. }
            destruct Q as [z Q]. rewrite Q in P0. injection P0 as <- _. exact Pn. }
        rewrite <- negative_iff, <- char_in_iff. destruct (negative_number _); [split; auto|]. destruct (char_in 32 _); [split; auto|].
        split; [discriminate|]. intros [H|[H|[_ [H|H]]]]; try discriminate; contradiction.
      * assert (I : In (m, o) (filter (fun e => starts_with a (fst e)) option_strings)) by (rewrite T; left; auto). apply filter_In in I as [I S]. cbn [fst] in S.
        apply starts_prefix in S. rewrite (long_only _ _ _ I D S) in S. pose proof (LK o S) as LKo.
        split; [destruct l; discriminate|]. intros [H|[H|[H _]]]; [contradiction|discriminate|contradiction].
Qed.
Lemma value_not_dashes : forall w, value_word w -> w <> lit "--".
Proof. intros w H ->. apply read_value in H. discriminate H. Qed.

(** * From words to settings *)
Lemma switch_iff : forall o, switch o <-> nargs o = Zero.
Proof. intros o. unfold switch. split; [intros [->|[->|[->| ->]]]; reflexivity|]. destruct o; cbn; intros H; try discriminate; auto. Qed.
Lemma listed_iff : forall o, listed o <-> nargs o = Many.
Proof. intros o. unfold listed. split; [intros [->| ->]; reflexivity|]. destruct o; cbn; intros H; try discriminate; auto. Qed.
Lemma single_iff : forall o, single o <-> nargs o = One.
Proof. intros o. unfold single. rewrite switch_iff, listed_iff. destruct (nargs o); split; try discriminate; try tauto; split; discriminate. Qed.
Lemma letter_arity : forall o c, letter o c -> nargs o <> Many.
Proof. intros o c L. destruct L; discriminate. Qed.

Definition marked (ws : list pystr) (l : list (pystr * mark)) : Prop := Forall2 (fun w e => fst e = w /\ parse_optional w = Some (snd e)) ws l.
Lemma classify_marked : forall ws, ~ In (lit "--") ws -> forall l, classify ws = Some l <-> marked ws l.
Proof.
  induction ws as [|w ws IH]; intros N l; cbn [classify].
  - split; [intros H; injection H as <-; constructor|]. intros H. inversion H; subst. reflexivity.
  - destruct (str_eqb w (lit "--")) eqn:Q; [apply str_eqb_eq in Q; elim N; left; auto|]. specialize (IH (fun I => N (or_intror I))).
    destruct (parse_optional w) as [m|] eqn:P.
    + destruct (classify ws) as [r|] eqn:C.
      * split; [intros H; injection H as <-; constructor; [auto|apply IH; auto]|]. intros H. inversion H as [|? [w' m'] ? l0 AB F]; subst. destruct AB as [A B]. cbn in A, B. subst w'.
        rewrite P in B. injection B as ->. apply IH in F. injection F as ->. reflexivity.
      * split; [discriminate|]. intros H. inversion H as [|? ? ? l0 AB F]; subst. apply IH in F. discriminate.
    + split; [discriminate|]. intros H. inversion H as [|? ? ? l0 [A B] F]; subst. congruence.
Qed.
Lemma classify_dashes : forall ws l, classify ws = Some l -> In (lit "--") ws -> exists w, In (w, MDash) l.
Proof.
  induction ws as [|w ws IH]; intros l H I; [destruct I|]. cbn [classify] in H. destruct (str_eqb w (lit "--")) eqn:Q.
  - injection H as <-. exists w. left. reflexivity.
  - destruct I as [->|I]; [rewrite (proj2 (str_eqb_eq _ _) eq_refl) in Q; discriminate|]. destruct (parse_optional w); [|discriminate]. destruct (classify ws) as [r|]; [|discriminate].
    injection H as <-. destruct (IH r eq_refl I) as [x X]. exists x. right. auto.
Qed.

Definition words_of (l : list (pystr * mark)) : list pystr := map fst l.
Definition all_args (l : list (pystr * mark)) : Prop := Forall (fun e => snd e = MA) l.
Lemma span_args_spec : forall l a b, span_args l = (a, b) -> exists t, l = t ++ b /\ all_args t /\ a = words_of t /\ (forall w b', b <> (w, MA) :: b').
Proof.
  induction l as [|[w m] l IH]; intros a b H; cbn [span_args] in H.
  - injection H as <- <-. exists []. split; [reflexivity|]. split; [constructor|]. split; [reflexivity|]. discriminate.
  - destruct m; try (injection H as <- <-; exists []; split; [reflexivity|]; split; [constructor|]; split; [reflexivity|]; discriminate).
    destruct (span_args l) as [a' b'] eqn:S. injection H as <- <-. destruct (IH _ _ eq_refl) as (t & -> & A & -> & N). exists ((w, MA) :: t).
    split; [reflexivity|]. split; [constructor; auto|]. split; [reflexivity|exact N].
Qed.
Lemma span_args_at : forall t b, all_args t -> (forall w b', b <> (w, MA) :: b') -> span_args (t ++ b) = (words_of t, b).
Proof.
  induction t as [|[w m] t IH]; intros b A N.
  - cbn [app]. destruct b as [|[w m] b]; [reflexivity|]. cbn [span_args]. destruct m; [elim (N w b eq_refl)|reflexivity|reflexivity].
  - inversion A as [|? ? M A']; subst. cbn in M. subst m. cbn [app span_args]. rewrite IH; auto.
Qed.
(** The arguments an option takes from the words after it. *)
Lemma from_words_spec : forall o r args r', from_words o r = Parsed (args, r') ->
  exists t, r = t ++ r' /\ all_args t /\ args = words_of t /\
    ((nargs o = Zero /\ t = []) \/ (nargs o = One /\ exists w, t = [(w, MA)]) \/ (nargs o = Many /\ t <> [])).
Proof.
  intros o r args r' H. unfold from_words in H. destruct (nargs o) eqn:A.
  - injection H as <- <-. exists []. split; auto. split; [constructor|]. auto.
  - destruct r as [|[w m] r]; [discriminate|]. destruct m; try discriminate. injection H as <- <-. exists [(w, MA)]. split; auto. split; [constructor; auto; constructor|]. split; auto. right. left. eauto.
  - destruct (span_args r) as [a b] eqn:S. destruct (span_args_spec _ _ _ S) as (t & -> & AA & -> & N). destruct t as [|e t]; [discriminate|].
    cbn [words_of map] in H. injection H as <- <-. exists (e :: t). split; auto. split; auto. split; auto. right. right. split; auto. discriminate.
Qed.
Lemma from_words_at : forall o t b, all_args t -> (forall w b', b <> (w, MA) :: b') ->
  (nargs o = Zero /\ t = []) \/ (nargs o = One /\ exists w, t = [(w, MA)]) \/ (nargs o = Many /\ t <> []) -> from_words o (t ++ b) = Parsed (words_of t, b).
Proof.
  intros o t b A N [[H ->]|[[H [w ->]]|[H T]]]; unfold from_words; rewrite H; auto. rewrite span_args_at by auto. destruct t as [|e t]; [congruence|]. reflexivity.
Qed.

(** The letters after a switch in the same word. *)
Lemma find_letter' : forall c o, find_option [45; c] = Some o -> letter o c.
Proof. intros c o F. apply find_option_iff in F as [F|(x & L & F)]; [destruct (long_dashes o) as (x & s & L & _); rewrite L in F; discriminate|injection F as ->; exact L]. Qed.
Inductive bundle : pystr -> list (pystr * mark) -> list (opt * list pystr) -> list (pystr * mark) -> Prop :=
| bu_end : forall o c r, letter o c -> switch o -> bundle [c] r [(o, [])] r
| bu_more : forall o c e r l r', letter o c -> switch o -> bundle e r l r' -> bundle (c :: e) r ((o, []) :: l) r'
| bu_last : forall o c r args r', letter o c -> single o -> from_words o r = Parsed (args, r') -> bundle [c] r [(o, args)] r'
| bu_joined : forall o c v r, letter o c -> single o -> v <> [] -> bundle (c :: v) r [(o, [v])] r.
Lemma unbundle_spec : forall e o r acts r', nargs o = Zero -> (unbundle o e r = Parsed (acts, r') <-> exists l, acts = (o, []) :: l /\ bundle e r l r').
Proof.
  induction e as [|c e IH]; intros o r acts r' Z; cbn [unbundle]; rewrite Z.
  - split; [discriminate|]. intros (l & -> & B). inversion B.
  - destruct (find_option [45; c]) as [o'|] eqn:F.
    + pose proof (find_letter' _ _ F) as L.
      assert (AR : nargs o' = Zero \/ nargs o' = One) by (pose proof (letter_arity _ _ L); destruct (nargs o'); auto; congruence).
      assert (INV : forall l, bundle (c :: e) r l r' -> (nargs o' = Zero /\ e = [] /\ l = [(o', [])] /\ r' = r) \/ (nargs o' = Zero /\ exists l', l = (o', []) :: l' /\ bundle e r l' r') \/
        (nargs o' = One /\ e = [] /\ exists args, l = [(o', args)] /\ from_words o' r = Parsed (args, r')) \/ (nargs o' = One /\ e <> [] /\ l = [(o', [e])] /\ r' = r)).
      { intros l B. inversion B as [o2 ? ? L2 S2|o2 ? ? ? l2 ? L2 S2 B2|o2 ? ? args ? L2 S2 FW|o2 ? ? ? L2 S2 NE]; subst; pose proof (letter_fun _ _ _ L2 L) as Q; subst o2;
          rewrite ?switch_iff, ?single_iff in S2; [left; auto|right; left; eauto|right; right; left; eauto|right; right; right; auto]. }
      destruct e as [|d e].
      * split.
        -- intros H. destruct (from_words o' r) as [[args r1]| | |] eqn:FW; try discriminate. cbn [obind] in H. injection H as <- <-. exists [(o', args)]. split; auto.
           destruct AR as [AR|AR].
           ++ unfold from_words in FW. rewrite AR in FW. injection FW as <- <-. apply bu_end; auto. apply switch_iff; auto.
           ++ apply bu_last; auto. apply single_iff; auto.
        -- intros (l & -> & B). destruct (INV l B) as [(A & _ & -> & ->)|[(A & l' & -> & B')|[(A & _ & args & -> & FW)|(A & N & _)]]]; [| |rewrite FW; reflexivity|congruence].
           ++ unfold from_words. rewrite A. reflexivity.
           ++ inversion B'.
      * split.
        -- intros H. destruct (unbundle o' (d :: e) r) as [[l r1]| | |] eqn:U; try discriminate. cbn [obind] in H. injection H as <- <-. exists l. split; auto. destruct AR as [AR|AR].
           ++ apply IH in U as (l' & -> & B); auto. apply bu_more; auto. apply switch_iff; auto.
           ++ cbn [unbundle] in U. rewrite AR in U. injection U as <- <-. apply bu_joined; auto; [apply single_iff; auto|discriminate].
        -- intros (l & -> & B). destruct (INV l B) as [(A & N & _)|[(A & l' & -> & B')|[(A & N & _)|(A & _ & -> & ->)]]]; [discriminate| |discriminate|].
           ++ assert (U : unbundle o' (d :: e) r = Parsed ((o', []) :: l', r')) by (apply IH; eauto). rewrite U. reflexivity.
           ++ cbn [unbundle]. rewrite A. reflexivity.
    + split; [discriminate|]. intros (l & -> & B). exfalso. apply find_option_none in F as [_ F].
      inversion B as [o2 ? ? L2 S2|o2 ? ? ? l2 ? L2 S2 B2|o2 ? ? args ? L2 S2 FW|o2 ? ? ? L2 S2 NE]; subst; exact (F _ _ L2 eq_refl).
Qed.
(** In the terms of the specification. *)
Lemma bundle_cases : forall e r l r', bundle e r l r' ->
  (e <> [] /\ switches e l /\ r' = r) \/
  (exists s l0 o c args, e = s ++ [c] /\ switches s l0 /\ letter o c /\ single o /\ from_words o r = Parsed (args, r') /\ l = l0 ++ [(o, args)]) \/
  (exists s l0 o c v, e = s ++ [c] ++ v /\ switches s l0 /\ letter o c /\ single o /\ v <> [] /\ l = l0 ++ [(o, [v])] /\ r' = r).
Proof.
  intros e r l r' B. induction B as [o c r L S|o c e r l r' L S B IH|o c r args r' L S FW|o c v r L S N].
  - left. split; [discriminate|]. split; auto. constructor; auto. constructor.
  - destruct IH as [(N & W & ->)|[(s & l0 & o2 & c2 & args & -> & W & L2 & S2 & FW & ->)|(s & l0 & o2 & c2 & v & -> & W & L2 & S2 & NV & -> & ->)]].
    + left. split; [discriminate|]. split; auto. constructor; auto.
    + right. left. exists (c :: s), ((o, []) :: l0), o2, c2, args. repeat (split; auto). constructor; auto.
    + right. right. exists (c :: s), ((o, []) :: l0), o2, c2, v. repeat (split; auto). constructor; auto.
  - right. left. exists [], [], o, c, args. repeat (split; auto); try constructor; apply S.
  - right. right. exists [], [], o, c, v. repeat (split; auto); try constructor; apply S.
Qed.
Lemma bundle_switches : forall s l, switches s l -> s <> [] -> forall r, bundle s r l r.
Proof.
  intros s l W. induction W as [|o c s l L S W IH]; intros N r; [congruence|]. destruct s as [|d s]; [inversion W; subst; constructor; auto|]. apply bu_more; auto. apply IH. discriminate.
Qed.
Lemma bundle_then : forall s l, switches s l -> forall e r l' r', bundle e r l' r' -> bundle (s ++ e) r (l ++ l') r'.
Proof. intros s l W. induction W as [|o c s l L S W IH]; intros e r l' r' B; cbn [app]; [exact B|]. apply bu_more; auto. Qed.

Lemma consume_short : forall o c e r, c <> 45 -> consume_optional o [45; c] (Some e) r = match nargs o with Zero => unbundle o e r | _ => Parsed ([(o, [e])], r) end.
Proof.
  intros o c e r N. unfold consume_optional. destruct (nargs o); try reflexivity. destruct c as [|p|p]; try reflexivity. repeat (destruct p as [p|p|]; try reflexivity). congruence.
Qed.
Lemma consume_long : forall o n e r, prefix (lit "--") n -> consume_optional o n (Some e) r = match nargs o with Zero => Refused | _ => Parsed ([(o, [e])], r) end.
Proof. intros o n e r [q ->]. unfold consume_optional. cbn. destruct (nargs o); reflexivity. Qed.

(** The settings made by actions with their raw arguments. *)
Definition valued (acts : list (opt * list pystr)) (l : list setting) : Prop :=
  Forall2 (fun a s => fst a = fst s /\ snd s = remove_dashes (snd a) /\ (nargs (fst a) = One -> exists v, snd s = [v])) acts l.
Lemma remove_values : forall vs, Forall value_word vs -> remove_dashes vs = vs.
Proof.
  intros vs F. induction F as [|v vs V F IH]; [reflexivity|]. cbn [remove_dashes]. destruct (str_eqb v (lit "--")) eqn:Q; [apply str_eqb_eq in Q; elim (value_not_dashes _ V Q)|]. rewrite IH. reflexivity.
Qed.
Lemma remove_one : forall v, v <> lit "--" -> remove_dashes [v] = [v].
Proof. intros v N. cbn [remove_dashes]. destruct (str_eqb v (lit "--")) eqn:Q; [apply str_eqb_eq in Q; contradiction|reflexivity]. Qed.
Lemma valued_switches : forall s l, switches s l -> valued l l.
Proof. intros s l W. induction W as [|o c s l L S W IH]; constructor; auto. cbn [fst snd]. split; auto. split; auto. apply switch_iff in S. congruence. Qed.
Lemma valued_one : forall o v, v <> lit "--" -> valued [(o, [v])] [(o, [v])].
Proof. intros o v N. constructor; [|constructor]. cbn [fst snd]. rewrite remove_one by auto. split; auto. split; auto. intros _. eauto. Qed.
Lemma valued_app : forall a a' l l', valued a l -> valued a' l' -> valued (a ++ a') (l ++ l').
Proof. intros. apply Forall2_app; auto. Qed.

Lemma marked_split : forall ws t r, marked ws (t ++ r) -> exists ws1 ws2, ws = ws1 ++ ws2 /\ marked ws1 t /\ marked ws2 r.
Proof.
  intros ws t r H. unfold marked in H. apply Forall2_app_inv_r in H as (a & b & A & B & ->). eauto.
Qed.
Lemma marked_args : forall ws t, marked ws t -> all_args t -> words_of t = ws /\ Forall value_word ws.
Proof.
  intros ws t H. induction H as [|w [w' m] ws t [A B] H IH]; intros AA; [split; [reflexivity|constructor]|]. cbn in A, B. subst w'. apply Forall_inv in AA as M. apply Forall_inv_tail in AA as AA'. cbn in M. subst m.
  destruct (IH AA') as [<- F]. split; [reflexivity|]. constructor; auto. apply read_value. exact B.
Qed.
Lemma marked_args' : forall ws, Forall value_word ws -> exists t, marked ws t /\ all_args t /\ words_of t = ws.
Proof.
  intros ws F. induction F as [|w ws V F (t & M & A & W)]; [exists []; repeat split; constructor|]. exists ((w, MA) :: t). split; [constructor; auto; cbn; split; auto; apply read_value; auto|].
  split; [constructor; auto|]. cbn. f_equal. exact W.
Qed.

Lemma from_words_words : forall o r args r' ws, from_words o r = Parsed (args, r') -> marked ws r ->
  exists ws2, ws = args ++ ws2 /\ marked ws2 r' /\ Forall value_word args /\
    ((nargs o = Zero /\ args = []) \/ (nargs o = One /\ exists w, args = [w]) \/ (nargs o = Many /\ args <> [])).
Proof.
  intros o r args r' ws H M. apply from_words_spec in H as (t & -> & AA & -> & AR). apply marked_split in M as (ws1 & ws2 & -> & M1 & M2).
  destruct (marked_args _ _ M1 AA) as [W F]. exists ws2. rewrite W. split; auto. split; auto. split; auto. subst ws1.
  destruct AR as [[A ->]|[[A [w ->]]|[A N]]]; [left; auto|right; left; split; auto; exists w; reflexivity|right; right; split; auto]. destruct t; [congruence|discriminate].
Qed.

Lemma consume_sound : forall w o n e ws r acts r', parse_optional w = Some (MO (Some o) n e) -> marked ws r -> consume_optional o n e r = Parsed (acts, r') ->
  Forall (fun a => nargs (fst a) = One -> remove_dashes (snd a) <> []) acts ->
  exists ws1 ws2 l, ws = ws1 ++ ws2 /\ marked ws2 r' /\ part (w :: ws1) l /\ valued acts l.
Proof.
  intros w o n e ws r acts r' P M C OK. apply read_option in P. destruct P as [w o n NM D|w o n v NM D|o c L|o c v L|o c v L NV NE].
  - (* name *)
    cbn [consume_optional] in C. destruct (from_words o r) as [[args r1]| | |] eqn:FW; try discriminate. cbn [obind] in C. injection C as <- <-.
    destruct (from_words_words _ _ _ _ _ FW M) as (ws2 & -> & M2 & V & AR). exists args, ws2. destruct AR as [[A ->]|[[A [v ->]]|[A N]]].
    + exists [(o, [])]. split; auto. split; auto. split; [apply p_switch; auto; apply switch_iff; auto|]. constructor; [|constructor]. cbn. split; auto. split; auto. congruence.
    + exists [(o, [v])]. inversion V as [|? ? V1 _]; subst. split; auto. split; auto. split; [apply p_next; auto; apply single_iff; auto|]. apply valued_one, value_not_dashes; auto.
    + exists [(o, args)]. split; auto. split; auto. split; [apply p_list; auto; apply listed_iff; auto|]. constructor; [|constructor]. cbn [fst snd]. rewrite remove_values by auto. split; auto. split; auto. congruence.
  - (* name=value *)
    rewrite consume_long in C by auto. exists [], ws. destruct (str_eqb v (lit "--")) eqn:Q.
    + apply str_eqb_eq in Q. subst v. destruct (nargs o) eqn:A; [discriminate| |]; injection C as <- <-.
      * inversion OK as [|? ? OK1 _]; subst. elim (OK1 A). reflexivity.
      * exists [(o, [])]. split; auto. split; auto. split; [apply (p_equals_nothing w o); auto; apply listed_iff; auto|]. constructor; [|constructor]. cbn [fst snd]. split; auto. split; auto. congruence.
    + assert (N : v <> lit "--") by (intros ->; rewrite (proj2 (str_eqb_eq _ _) eq_refl) in Q; discriminate).
      assert (NS : ~ switch o) by (rewrite switch_iff; intros A; rewrite A in C; discriminate).
      assert (CA : acts = [(o, [v])] /\ r' = r) by (destruct (nargs o); [discriminate| |]; injection C as <- <-; auto). destruct CA as [-> ->].
      exists [(o, [v])]. split; auto. split; auto. split; [apply (p_equals w o v); auto|apply valued_one; auto].
  - (* letter *)
    cbn [consume_optional] in C. destruct (from_words o r) as [[args r1]| | |] eqn:FW; try discriminate. cbn [obind] in C. injection C as <- <-.
    destruct (from_words_words _ _ _ _ _ FW M) as (ws2 & -> & M2 & V & AR). exists args, ws2. destruct AR as [[A ->]|[[A [v ->]]|[A N]]]; [| |elim (letter_arity _ _ L A)].
    + exists [(o, [])]. split; auto. split; auto. split; [|constructor; [|constructor]; cbn; split; auto; split; auto; congruence].
      apply (p_letters c [] [(o, [])] []); auto. constructor; auto; [apply switch_iff; auto|constructor].
    + exists [(o, [v])]. inversion V as [|? ? V1 _]; subst. split; auto. split; auto. split; [apply (p_last o c v); auto; apply single_iff; auto|]. apply valued_one, value_not_dashes; auto.
  - (* letter=text *)
    rewrite consume_short in C by apply (letter_plain _ _ L). destruct (nargs o) eqn:A; [|injection C as <- <-|elim (letter_arity _ _ L A)].
    + apply (unbundle_spec _ _ _ _ _ A) in C as (l & -> & B). apply switch_iff in A. destruct (bundle_cases _ _ _ _ B) as [(N & W & ->)|[(s & l0 & o2 & c2 & args & -> & W & L2 & S2 & FW & ->)|(s & l0 & o2 & c2 & v2 & -> & W & L2 & S2 & NV & -> & ->)]].
      * exists [], ws, ((o, []) :: l). split; auto. split; auto. assert (W2 : switches (c :: v) ((o, []) :: l)) by (constructor; auto). split; [|eapply valued_switches; eauto].
        apply (p_letters c v ((o, []) :: l) (lit "=")); auto.
      * destruct (from_words_words _ _ _ _ _ FW M) as (ws2 & -> & M2 & V & AR). apply single_iff in S2 as A2.
        destruct AR as [[A3 _]|[[_ [v ->]]|[A3 _]]]; try congruence. inversion V as [|? ? V1 _]; subst.
        assert (W2 : switches (c :: s) ((o, []) :: l0)) by (constructor; auto). exists [v], ws2, (((o, []) :: l0) ++ [(o2, [v])]). split; auto. split; auto. split.
        -- apply (p_last_of c s ((o, []) :: l0) (lit "=") o2 c2 v); auto.
        -- apply (valued_app ((o, []) :: l0) [(o2, [v])]); [eapply valued_switches; eauto|apply valued_one, value_not_dashes; auto].
      * assert (W2 : switches (c :: s) ((o, []) :: l0)) by (constructor; auto). exists [], ws, (((o, []) :: l0) ++ [(o2, [v2])]). split; auto. split; auto.
        assert (N2 : v2 <> lit "--").
        { intros ->. rewrite Forall_forall in OK. apply (OK (o2, [lit "--"])); [right; apply in_or_app; right; left; reflexivity|apply single_iff; auto|reflexivity]. }
        split; [apply (p_joined_of c s ((o, []) :: l0) (lit "=") o2 c2 v2); auto|]. apply (valued_app ((o, []) :: l0) [(o2, [v2])]); [eapply valued_switches; eauto|apply valued_one; auto].
    + inversion OK as [|? ? OK1 _]; subst. exists [], ws, [(o, [v])]. split; auto. split; auto.
      assert (N : v <> lit "--") by (intros ->; apply (OK1 A); reflexivity). split; [apply (p_joined_equals o c v); auto; apply single_iff; auto|apply valued_one; auto].
  - (* letter and text *)
    rewrite consume_short in C by apply (letter_plain _ _ L). destruct (nargs o) eqn:A; [|injection C as <- <-|elim (letter_arity _ _ L A)].
    + apply (unbundle_spec _ _ _ _ _ A) in C as (l & -> & B). apply switch_iff in A. destruct (bundle_cases _ _ _ _ B) as [(N & W & ->)|[(s & l0 & o2 & c2 & args & -> & W & L2 & S2 & FW & ->)|(s & l0 & o2 & c2 & v2 & -> & W & L2 & S2 & NV2 & -> & ->)]].
      * exists [], ws, ((o, []) :: l). split; auto. split; auto. assert (W2 : switches (c :: v) ((o, []) :: l)) by (constructor; auto). split; [|eapply valued_switches; eauto].
        apply (p_letters c v ((o, []) :: l) []); auto.
      * destruct (from_words_words _ _ _ _ _ FW M) as (ws2 & -> & M2 & V & AR). apply single_iff in S2 as A2.
        destruct AR as [[A3 _]|[[_ [v ->]]|[A3 _]]]; try congruence. inversion V as [|? ? V1 _]; subst.
        assert (W2 : switches (c :: s) ((o, []) :: l0)) by (constructor; auto). exists [v], ws2, (((o, []) :: l0) ++ [(o2, [v])]). split; auto. split; auto. split.
        -- apply (p_last_of c s ((o, []) :: l0) [] o2 c2 v); auto.
        -- apply (valued_app ((o, []) :: l0) [(o2, [v])]); [eapply valued_switches; eauto|apply valued_one, value_not_dashes; auto].
      * assert (W2 : switches (c :: s) ((o, []) :: l0)) by (constructor; auto). exists [], ws, (((o, []) :: l0) ++ [(o2, [v2])]). split; auto. split; auto.
        assert (N2 : v2 <> lit "--").
        { intros ->. rewrite Forall_forall in OK. apply (OK (o2, [lit "--"])); [right; apply in_or_app; right; left; reflexivity|apply single_iff; auto|reflexivity]. }
        split; [apply (p_joined_of c s ((o, []) :: l0) [] o2 c2 v2); auto|]. apply (valued_app ((o, []) :: l0) [(o2, [v2])]); [eapply valued_switches; eauto|apply valued_one; auto].
    + inversion OK as [|? ? OK1 _]; subst. exists [], ws, [(o, [v])]. split; auto. split; auto.
      assert (N : v <> lit "--") by (intros ->; apply (OK1 A); reflexivity). split; [apply (p_joined o c v); auto; apply single_iff; auto|apply valued_one; auto].
Qed.

(** A part is read as its settings, whatever option follows. *)
Lemma part_read : forall ws l, part ws l -> exists w ws1 o n e t acts, ws = w :: ws1 /\ parse_optional w = Some (MO (Some o) n e) /\ marked ws1 t /\ w <> lit "--" /\ ~ In (lit "--") ws1 /\
  valued acts l /\ forall r, (forall x r', r <> (x, MA) :: r') -> consume_optional o n e (t ++ r) = Parsed (acts, r).
Proof.
  assert (VN : forall vs, Forall value_word vs -> ~ In (lit "--") vs) by (intros vs F I; rewrite Forall_forall in F; apply (value_not_dashes _ (F _ I)); reflexivity).
  assert (ND : forall w o n e, parse_optional w = Some (MO (Some o) n e) -> w <> lit "--") by (intros w o n e H ->; discriminate H).
  (* an option word followed by its arguments *)
  assert (G : forall w o n vs, parse_optional w = Some (MO (Some o) n None) -> Forall value_word vs -> (nargs o = Zero /\ vs = []) \/ (nargs o = One /\ exists v, vs = [v]) \/ (nargs o = Many /\ vs <> []) ->
    exists w' ws1 o' n e t acts, w :: vs = w' :: ws1 /\ parse_optional w' = Some (MO (Some o') n e) /\ marked ws1 t /\ w' <> lit "--" /\ ~ In (lit "--") ws1 /\
      valued acts [(o, vs)] /\ forall r, (forall x r', r <> (x, MA) :: r') -> consume_optional o' n e (t ++ r) = Parsed (acts, r)).
  { intros w o n vs P V AR. destruct (marked_args' vs V) as (t & M & A & W). exists w, vs, o, n, None, t, [(o, vs)]. split; auto. split; auto. split; auto. split; [eapply ND; eauto|]. split; [auto|]. split.
    - constructor; [|constructor]. cbn [fst snd]. rewrite remove_values by auto. split; auto. split; auto. intros O. destruct AR as [[? _]|[[_ ?]|[? _]]]; [congruence|auto|congruence].
    - intros r N. cbn [consume_optional]. rewrite (from_words_at o t r A N); [rewrite W; reflexivity|]. subst vs.
      destruct AR as [[? H]|[[? [v H]]|[? H]]]; [left; split; auto; destruct t; [auto|discriminate]|right; left; split; auto|right; right; split; auto; intros ->; apply H; reflexivity].
      destruct t as [|[x m] [|? ?]]; try discriminate. inversion A as [|? ? Q _]; subst. cbn in Q. subst m. eauto. }
  (* one word *)
  assert (J : forall w o n e acts l, parse_optional w = Some (MO (Some o) n (Some e)) -> valued acts l -> (forall r, consume_optional o n (Some e) r = Parsed (acts, r)) ->
    exists w' ws1 o' n e t acts, [w] = w' :: ws1 /\ parse_optional w' = Some (MO (Some o') n e) /\ marked ws1 t /\ w' <> lit "--" /\ ~ In (lit "--") ws1 /\
      valued acts l /\ forall r, (forall x r', r <> (x, MA) :: r') -> consume_optional o' n e (t ++ r) = Parsed (acts, r)).
  { intros w o n e acts l P V C. exists w, [], o, n, (Some e), [], acts. split; auto. split; auto. split; [constructor|]. split; [eapply ND; eauto|]. split; [intros []|]. split; auto. }
  assert (SW1 : forall d s l, switches (d :: s) l -> exists o l', letter o d /\ switch o /\ switches s l' /\ l = (o, []) :: l') by (intros d s l W; inversion W; subst; eauto 8).
  intros ws l H. destruct H as [w o NM S|w o v NM S V|w o vs NM S N V|w o v NM S N|w o NM S|c s l e W EE|o c v L S V|d s l e o c v W EE L S V|o c v L S N1 N2 N3|o c v L S N|d s l e o c v W EE L S N1 N2].
  - destruct (read_name _ _ NM) as (n & D & P). apply (G w o n []); auto. left. split; auto. apply switch_iff. auto.
  - destruct (read_name _ _ NM) as (n & D & P). apply (G w o n [v]); auto. right. left. split; [apply single_iff; auto|eauto].
  - destruct (read_name _ _ NM) as (n & D & P). apply (G w o n vs); auto. right. right. split; auto. apply listed_iff; auto.
  - destruct (read_name_eq w o v NM) as (n & D & P). apply (J _ o n v [(o, [v])]); auto; [apply valued_one; auto|]. intros r. rewrite consume_long by auto. rewrite switch_iff in S. destruct (nargs o); congruence.
  - destruct (read_name_eq w o (lit "--") NM) as (n & D & P). apply (J _ o n (lit "--") [(o, [lit "--"])]); auto.
    + constructor; [|constructor]. apply listed_iff in S. cbn [fst snd]. split; auto. split; auto. congruence.
    + intros r. rewrite consume_long by auto. apply listed_iff in S. rewrite S. reflexivity.
  - (* letters *)
    destruct (SW1 _ _ _ W) as (o & l' & L & S & W' & ->). pose proof (read_letter o c (e ++ s) L) as P. apply switch_iff in S as S'. destruct EE as [->|[-> NE]].
    + destruct s as [|d s].
      * inversion W'; subst. apply (G _ o [45; c] []); auto.
      * destruct (SW1 _ _ _ W') as (o2 & l2 & L2 & _). assert (Q : d =? 61 = false) by (apply Z.eqb_neq; apply (letter_plain _ _ L2)). cbn [app] in P. rewrite Q in P.
        apply (J _ o [45; c] (d :: s) ((o, []) :: l')); auto; [eapply valued_switches; eauto|]. intros r. rewrite consume_short by apply (letter_plain _ _ L). rewrite S'.
        apply unbundle_spec; auto. exists l'. split; auto. apply bundle_switches; auto. discriminate.
    + apply (J _ o [45; c] s ((o, []) :: l')); auto; [eapply valued_switches; eauto|]. intros r. rewrite consume_short by apply (letter_plain _ _ L). rewrite S'.
      apply unbundle_spec; auto. exists l'. split; auto. apply bundle_switches; auto.
  - pose proof (read_letter o c [] L) as P. apply (G _ o [45; c] [v]); auto. right. left. split; [apply single_iff; auto|eauto].
  - (* letters and a value in the next word *)
    destruct (SW1 _ _ _ W) as (o1 & l' & L1 & S1 & W' & ->). pose proof (read_letter o1 d (e ++ s ++ [c]) L1) as P. apply switch_iff in S1 as S1'.
    assert (P' : parse_optional (lit "-" ++ [d] ++ e ++ s ++ [c]) = Some (MO (Some o1) [45; d] (Some (s ++ [c])))).
    { destruct EE as [->| ->]; [|exact P]. change (lit "-" ++ [d] ++ [] ++ s ++ [c]) with (45 :: d :: s ++ [c]). cbn [app] in P. rewrite P. destruct s as [|x s]; cbn [app].
      - assert (Q : c =? 61 = false) by (apply Z.eqb_neq; apply (letter_plain _ _ L)). rewrite Q. reflexivity.
      - destruct (SW1 _ _ _ W') as (o2 & l2 & L2 & _). assert (Q : x =? 61 = false) by (apply Z.eqb_neq; apply (letter_plain _ _ L2)). rewrite Q. reflexivity. }
    exists (lit "-" ++ [d] ++ e ++ s ++ [c]), [v], o1, [45; d], (Some (s ++ [c])), [(v, MA)], (((o1, []) :: l') ++ [(o, [v])]).
    split; auto. split; auto. split; [constructor; [cbn; split; auto; apply read_value; auto|constructor]|]. split; [eapply ND; eauto|]. split; [intros [I|[]]; apply (value_not_dashes _ V); auto|].
    split; [apply valued_app; [eapply valued_switches; eauto|apply valued_one, value_not_dashes; auto]|].
    intros r N. rewrite consume_short by apply (letter_plain _ _ L1). rewrite S1'. apply unbundle_spec; auto. exists (l' ++ [(o, [v])]). split; auto.
    apply bundle_then; auto. apply bu_last; auto. unfold from_words. apply single_iff in S. rewrite S. reflexivity.
  - pose proof (read_letter o c v L) as P. destruct v as [|x v]; [congruence|]. assert (Q : x =? 61 = false) by (apply Z.eqb_neq; intros ->; apply N3; exists v; reflexivity). rewrite Q in P.
    apply (J _ o [45; c] (x :: v) [(o, [x :: v])]); auto; [apply valued_one; auto|]. intros r. rewrite consume_short by apply (letter_plain _ _ L). apply single_iff in S. rewrite S. reflexivity.
  - pose proof (read_letter o c (61 :: v) L) as P. apply (J _ o [45; c] v [(o, [v])]); auto; [apply valued_one; auto|]. intros r. rewrite consume_short by apply (letter_plain _ _ L). apply single_iff in S. rewrite S. reflexivity.
  - (* letters and a value in the same word *)
    destruct (SW1 _ _ _ W) as (o1 & l' & L1 & S1 & W' & ->). pose proof (read_letter o1 d (e ++ s ++ [c] ++ v) L1) as P. apply switch_iff in S1 as S1'.
    assert (P' : parse_optional (lit "-" ++ [d] ++ e ++ s ++ [c] ++ v) = Some (MO (Some o1) [45; d] (Some (s ++ [c] ++ v)))).
    { destruct EE as [->| ->]; [|exact P]. change (lit "-" ++ [d] ++ [] ++ s ++ [c] ++ v) with (45 :: d :: s ++ [c] ++ v). cbn [app] in P |- *. rewrite P. destruct s as [|x s]; cbn [app].
      - assert (Q : c =? 61 = false) by (apply Z.eqb_neq; apply (letter_plain _ _ L)). rewrite Q. reflexivity.
      - destruct (SW1 _ _ _ W') as (o2 & l2 & L2 & _). assert (Q : x =? 61 = false) by (apply Z.eqb_neq; apply (letter_plain _ _ L2)). rewrite Q. reflexivity. }
    apply (J _ o1 [45; d] (s ++ [c] ++ v) (((o1, []) :: l') ++ [(o, [v])])); auto.
    + apply valued_app; [eapply valued_switches; eauto|apply valued_one; auto].
    + intros r. rewrite consume_short by apply (letter_plain _ _ L1). rewrite S1'. apply unbundle_spec; auto. exists (l' ++ [(o, [v])]). split; auto.
      apply bundle_then; auto. apply bu_joined; auto.
Qed.

(** * Taking the actions *)
Definition bad_level (s : setting) : bool := match s with (O_log_level, [v]) => negb (str_in v log_levels) | _ => false end.
Fixpoint sets (l : list setting) (st : parsed * list opt) : outcome (parsed * list opt) :=
  match l with
  | [] => Parsed st
  | (o, vs) :: r =>
      if bad_level (o, vs) then Refused
      else if existsb (conflicts o) (snd st) then Refused
      else match o with O_help => Helped | _ => sets r (store o vs (fst st), o :: snd st) end
  end.
Lemma obind_assoc : forall (A B C : Type) (m : outcome A) (f : A -> outcome B) (g : B -> outcome C), obind (obind m f) g = obind m (fun a => obind (f a) g).
Proof. intros A B C m f g. destruct m; reflexivity. Qed.
Lemma take_sets : forall acts l, valued acts l -> forall st, take_actions acts st = sets l st.
Proof.
  intros acts l V. induction V as [|[o args] [o' vs] acts l (Q1 & Q2 & Q3) V IH]; intros [p seen]; [reflexivity|]. cbn [fst snd] in *. subst o' vs.
  cbn [take_actions sets snd fst]. unfold take_action. unfold get_values. cbv zeta.
  destruct (nargs o) eqn:A.
  - destruct o; try discriminate; cbn [bad_level obind]; (destruct (existsb _ seen); [reflexivity|]); cbn [obind]; auto.
  - destruct (Q3 eq_refl) as [v ->]. cbv iota beta. destruct o; try discriminate; cbn [bad_level obind]; try ((destruct (existsb _ seen); [reflexivity|]); cbn [obind]; auto; fail).
    destruct (str_in v log_levels); cbn [negb obind]; [|reflexivity]. destruct (existsb _ seen); [reflexivity|]. cbn [obind]. auto.
  - destruct o; try discriminate; cbn [bad_level obind]; (destruct (existsb _ seen); [reflexivity|]); cbn [obind]; auto.
Qed.
Lemma taken_values : forall acts st st', take_actions acts st = Parsed st' -> Forall (fun a => nargs (fst a) = One -> remove_dashes (snd a) <> []) acts.
Proof.
  induction acts as [|[o args] acts IH]; intros st st' H; constructor.
  - cbn [fst snd]. intros A R. cbn [take_actions] in H. destruct st as [p seen]. unfold take_action, get_values in H. rewrite A, R in H. discriminate.
  - cbn [take_actions] in H. destruct (take_action o args st) as [st1| | |]; try discriminate. eapply IH; eauto.
Qed.
Lemma sets_app : forall l l' st, sets (l ++ l') st = obind (sets l st) (sets l').
Proof.
  induction l as [|[o vs] l IH]; intros l' st; [reflexivity|]. cbn [app sets]. destruct (bad_level (o, vs)); [reflexivity|]. destruct (existsb _ _); [reflexivity|]. destruct o; auto.
Qed.

(** * The loop *)
Lemma consume_suffix : forall o n e r acts r', consume_optional o n e r = Parsed (acts, r') -> exists t, r = t ++ r' /\ all_args t.
Proof.
  assert (FW : forall o r args r', from_words o r = Parsed (args, r') -> exists t, r = t ++ r' /\ all_args t) by (intros o r args r' H; apply from_words_spec in H as (t & -> & A & _); eauto).
  assert (BU : forall e r l r', bundle e r l r' -> exists t, r = t ++ r' /\ all_args t).
  { intros e r l r' B. induction B; eauto; exists []; split; auto; constructor. }
  intros o n e r acts r' H. destruct e as [e|].
  - unfold consume_optional in H. assert (NZ : nargs o = Zero -> unbundle o e r = Parsed (acts, r') -> exists t, r = t ++ r' /\ all_args t) by (intros A U; apply (unbundle_spec _ _ _ _ _ A) in U as (l & _ & B); eauto).
    destruct (nargs o) eqn:A.
    + destruct n as [|x [|y n]]; auto. assert (Q : unbundle o e r = Parsed (acts, r')) by (destruct y as [|q|q]; auto; repeat (destruct q as [q|q|]; auto); discriminate). auto.
    + injection H as <- <-. exists []. split; auto. constructor.
    + injection H as <- <-. exists []. split; auto. constructor.
  - cbn [consume_optional] in H. destruct (from_words o r) as [[args r1]| | |] eqn:F; try discriminate. injection H as <- <-. eauto.
Qed.
Lemma loop_no_dash : forall f l ex st p, (length l <= f)%nat -> loop f l ex st = Parsed (p, false) -> ex = false /\ forall w, ~ In (w, MDash) l.
Proof.
  induction f as [|f IH]; intros l ex st p LE H.
  - destruct l; [|cbn in LE; lia]. cbn in H. injection H as _ ->. split; auto.
  - destruct l as [|[w m] l]; [cbn in H; injection H as _ ->; split; auto|]. cbn [length] in LE. cbn [loop] in H.
    destruct m as [| |[o|] n e]; try (apply IH in H as [H _]; [discriminate|lia]).
    destruct (consume_optional o n e l) as [[acts r']| | |] eqn:C; try discriminate. cbn [obind] in H. destruct (take_actions acts st) as [st'| | |]; try discriminate. cbn [obind] in H.
    apply consume_suffix in C as (t & -> & A). rewrite app_length in LE. apply IH in H as [H1 H2]; [|lia]. split; auto. intros x [I|I]; [discriminate|].
    apply in_app_or in I as [I|I]; [|exact (H2 x I)]. unfold all_args in A. rewrite Forall_forall in A. apply A in I. discriminate.
Qed.
Lemma loop_sound : forall f l ex st p ws, (length l <= f)%nat -> marked ws l -> loop f l ex st = Parsed (p, false) ->
  exists s seen, command ws s /\ sets s st = Parsed (p, seen).
Proof.
  induction f as [|f IH]; intros l ex st p ws LE M H.
  - destruct l; [|cbn in LE; lia]. inversion M; subst. cbn in H. injection H as <- _. exists [], (snd st). split; [constructor|]. destruct st; reflexivity.
  - destruct l as [|[w m] l]; [inversion M; subst; cbn in H; injection H as <- _; exists [], (snd st); split; [constructor|]; destruct st; reflexivity|].
    cbn [length] in LE. inversion M as [|w0 e0 ws0 l0 [A B] M0]; subst. cbn [fst snd] in *. cbn [loop] in H.
    destruct m as [| |[o|] n e]; try (apply loop_no_dash in H as [H _]; [discriminate|lia]).
    destruct (consume_optional o n e l) as [[acts r']| | |] eqn:C; try discriminate. cbn [obind] in H. destruct (take_actions acts st) as [st'| | |] eqn:T; try discriminate. cbn [obind] in H.
    destruct (consume_suffix _ _ _ _ _ _ C) as (t & L & _).
    destruct (consume_sound _ _ _ _ _ _ _ _ B M0 C (taken_values _ _ _ T)) as (ws1 & ws2 & s & -> & M2 & P & V).
    apply IH with (ws := ws2) in H as (s2 & seen & C2 & S2); auto; [|rewrite L, app_length in LE; lia].
    exists (s ++ s2), seen. split.
    + apply (c_part (w :: ws1) s ws2 s2); auto.
    + rewrite sets_app, <- (take_sets acts s V), T. exact S2.
Qed.
Lemma loop_complete : forall ws s, command ws s -> exists l, marked ws l /\ ~ In (lit "--") ws /\ (forall x r, l <> (x, MA) :: r) /\
  forall f st, (length l <= f)%nat -> loop f l false st = obind (sets s st) (fun st' => Parsed (fst st', false)).
Proof.
  intros ws s C. induction C as [|ws s ws' s' P C (l & M & N & H & L)].
  - exists []. split; [constructor|]. split; [intros []|]. split; [discriminate|]. intros f st _. destruct f; destruct st; reflexivity.
  - destruct (part_read _ _ P) as (w & ws1 & o & n & e & t & acts & -> & R & MT & NW & N1 & V & CO). exists ((w, MO (Some o) n e) :: t ++ l).
    split; [constructor; [split; auto|apply Forall2_app; auto]|]. split; [intros [I|I]; [auto|apply in_app_or in I as [I|I]; auto]|]. split; [discriminate|].
    intros f st LE. cbn [length] in LE. rewrite app_length in LE. destruct f as [|f]; [lia|]. cbn [loop]. rewrite CO by exact H. cbn [obind]. rewrite (take_sets _ _ V), sets_app.
    destruct (sets s st) as [st'| | |]; try reflexivity. cbn [obind]. rewrite L by lia. reflexivity.
Qed.
Definition shaped (s : list setting) : Prop := Forall (fun x => single (fst x) -> exists v, snd x = [v]) s.
Lemma command_shaped : forall ws s, command ws s -> shaped s.
Proof.
  intros ws s C. induction C as [|ws s ws' s' P C IH]; [constructor|]. apply Forall_app. split; auto.
  destruct (part_read _ _ P) as (w & ws1 & o & n & e & t & acts & _ & _ & _ & _ & _ & V & _). clear - V. induction V as [|a x acts s (Q1 & _ & Q3) V IH]; constructor; auto.
  intros S. apply Q3. rewrite Q1. apply single_iff. auto.
Qed.

Lemma parse_iff_sets : forall ws p, parse_args ws = Parsed p <-> exists s seen, command ws s /\ sets s (defaults, []) = Parsed (p, seen).
Proof.
  intros ws p. unfold parse_args. split.
  - intros H. destruct (classify ws) as [l|] eqn:C; [|discriminate]. destruct (loop (length l) l false (defaults, [])) as [[p' ex]| | |] eqn:L; try discriminate. cbn [obind] in H.
    destruct ex; [discriminate|]. injection H as <-. destruct (loop_no_dash _ _ _ _ _ (le_n _) L) as [_ ND].
    assert (N : ~ In (lit "--") ws) by (intros I; destruct (classify_dashes _ _ C I) as [w W]; exact (ND w W)).
    apply (loop_sound _ _ _ _ _ ws (le_n _)) in L; [exact L|]. apply classify_marked; auto.
  - intros (s & seen & C & S). destruct (loop_complete _ _ C) as (l & M & N & _ & L). apply (classify_marked ws N) in M. rewrite M, L by auto. rewrite S. reflexivity.
Qed.
End WithEnv.

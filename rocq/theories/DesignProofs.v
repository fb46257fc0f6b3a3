(** The argument processing of create_transaction accepts exactly the requests of FloatSpec NumSpec CreateSpec. *)
From Coq Require Import String Floats.SpecFloat Permutation Sorted Lia.
From Verif Require Import PyBase Env PyNum Validate Basic Spec EnvOk TxInput TxOutput Tx Create TxSpec CreateSpec.
From Verif Require Import NumLemmas HexProofs Base58Proofs AddrProofs AmountProofs NumProofs PrepProofs.

Section WithEnv.
Context {E : Env}.
Hypothesis HH : HashOk E.
Hypothesis HZ : ZeroAddressOk E.
Hypothesis HU : UniOk E.

Lemma app_ne : forall A (x y : list A), x <> [] -> x ++ y <> [].
Proof. intros A [|a x] y H; [congruence|discriminate]. Qed.

(** float() of digit strings. *)
Lemma float_digits : forall s ip, Forall2 dec_char s ip -> ip <> [] -> py_float_str s = Ok (float_of_dec false (val 10 ip) 0).
Proof.
  intros s ip D N. destruct (dec_run HU s ip D) as (I1 & I2 & I3 & _).
  pose proof (py_float_okc _ _ I2) as PF. rewrite float_core_int in PF by auto. rewrite <- I2 in PF. apply PF.
  apply (okc_isdigit HU). auto.
Qed.
Lemma float_decimal : forall a b ip fp, Forall2 dec_char a ip -> Forall2 dec_char b fp -> ip ++ fp <> [] ->
  py_float_str (a ++ [46] ++ b) = Ok (float_of_dec false (val 10 (ip ++ fp)) (- Z.of_nat (length fp))).
Proof.
  intros a b ip fp D D' N. destruct (dec_run HU a ip D) as (I1 & I2 & I3 & _). destruct (dec_run HU b fp D') as (J1 & J2 & J3 & _).
  assert (MA : map to_ascii (a ++ [46] ++ b) = map dchar ip ++ [46] ++ map dchar fp) by (rewrite !map_app, I2, J2; reflexivity).
  pose proof (py_float_okc _ _ MA) as PF. rewrite float_core_dot in PF by auto. rewrite <- MA in PF. apply PF.
  rewrite !map_app. apply Forall_app. split; [apply (okc_isdigit HU); auto|]. apply Forall_app. split; [constructor; [cbv; lia|constructor]|apply (okc_isdigit HU); auto].
Qed.
Lemma float_isdigit : forall s r, forallb char_isdigit s = true -> py_float_str s = Ok r -> exists ip, Forall2 dec_char s ip.
Proof.
  intros s r SD F. destruct (run_cases HU s SD) as [H|[ds [a1 [c [a2 [-> [B1 [B2 B3]]]]]]]]; auto. exfalso.
  destruct (dec_run HU a1 ds B1) as (I1 & I2 & _).
  assert (MA : map to_ascii (a1 ++ c :: a2) = map dchar ds ++ 63 :: map to_ascii a2) by (rewrite map_app; cbn [map]; rewrite I2, B2; auto).
  pose proof (py_float_okc _ _ MA) as PF. rewrite float_core_bad in PF by auto.
  rewrite <- MA in PF. rewrite (PF (okc_isdigit HU _ SD)) in F. discriminate.
Qed.
Lemma float_dot_isdigit : forall a b r, forallb char_isdigit a = true -> forallb char_isdigit b = true ->
  py_float_str (a ++ [46] ++ b) = Ok r -> exists ip fp, Forall2 dec_char a ip /\ Forall2 dec_char b fp.
Proof.
  intros a b r Sa Sb F.
  assert (OK : Forall okc (map to_ascii (a ++ [46] ++ b))).
  { rewrite !map_app. apply Forall_app. split; [apply (okc_isdigit HU); auto|]. apply Forall_app. split; [constructor; [cbv; lia|constructor]|apply (okc_isdigit HU); auto]. }
  destruct (run_cases HU a Sa) as [[ip Hip]|[ds [a1 [c [a2 [-> [B1 [B2 B3]]]]]]]].
  - destruct (run_cases HU b Sb) as [[fp Hfp]|[ds [a1 [c [a2 [-> [B1 [B2 B3]]]]]]]]; [eauto|]. exfalso.
    destruct (dec_run HU a ip Hip) as [I1 [I2 _]]. destruct (dec_run HU a1 ds B1) as [J1 [J2 _]].
    assert (MA : map to_ascii (a ++ [46] ++ a1 ++ c :: a2) = map dchar ip ++ [46] ++ map dchar ds ++ 63 :: map to_ascii a2).
    { rewrite !map_app. cbn [map]. rewrite I2, J2, B2. reflexivity. }
    pose proof (py_float_okc _ _ MA) as PF. rewrite float_core_bad2 in PF by auto. rewrite <- MA in PF. rewrite PF in F by auto. discriminate.
  - exfalso. destruct (dec_run HU a1 ds B1) as [I1 [I2 _]].
    assert (MA : map to_ascii ((a1 ++ c :: a2) ++ [46] ++ b) = map dchar ds ++ 63 :: map to_ascii (a2 ++ [46] ++ b)).
    { rewrite <- app_assoc, map_app. cbn [map app]. rewrite I2, B2. reflexivity. }
    pose proof (py_float_okc _ _ MA) as PF. rewrite float_core_bad in PF by auto. rewrite <- MA in PF. rewrite PF in F by auto. discriminate.
Qed.

Lemma existsb_negb : forall s, existsb (fun c => negb (char_isdigit c)) s = negb (forallb char_isdigit s).
Proof. induction s as [|c s IH]; auto. cbn [existsb forallb]. rewrite IH. destruct (char_isdigit c); auto. Qed.
Lemma positive_integer_text : forall s, validate_string_is_positive_integer (PStr s) =
  if negb (str_eqb s (lit "0")) && forallb char_isdigit s then Ok tt else Err ValueError.
Proof.
  intros s. unfold validate_string_is_positive_integer. cbn [validate_string bind as_str]. rewrite existsb_negb.
  destruct (str_eqb s (lit "0")); cbn [negb andb]; auto. destruct (forallb char_isdigit s); auto.
Qed.
Lemma whole_number_text : forall s, validate_string_is_whole_number (PStr s) =
  if forallb char_isdigit s then Ok tt else Err ValueError.
Proof.
  intros s. unfold validate_string_is_whole_number. cbn [validate_string bind as_str]. rewrite positive_integer_text.
  destruct (str_eqb s (lit "0")) eqn:Z0; auto. apply str_eqb_eq in Z0. subst. reflexivity.
Qed.
Lemma decimal_text : forall s, validate_string_is_decimal (PStr s) = Ok tt <->
  exists a b, s = a ++ [46] ++ b /\ a <> [] /\ b <> [] /\ forallb char_isdigit a = true /\ forallb char_isdigit b = true.
Proof.
  intros s. unfold validate_string_is_decimal. cbn [validate_string bind as_str]. split.
  - destruct (count_char 46 s) as [|[|k]] eqn:C; cbn [Nat.eqb negb]; try discriminate.
    destruct (count1 s C) as [a [b [-> [Ha Hb]]]]. destruct (one_dot a b Ha Hb) as [_ [C2 C3]]. rewrite C3.
    destruct (str_isdigit a) eqn:Sa; [|discriminate]. destruct (str_isdigit b) eqn:Sb; [|discriminate]. intros _.
    apply str_isdigit_iff in Sa as [? ?]. apply str_isdigit_iff in Sb as [? ?]. exists a, b. auto.
  - intros (a & b & -> & Na & Nb & Sa & Sb).
    assert (D : forall x, forallb char_isdigit x = true -> ~ In 46 x).
    { intros x Hx Hin. rewrite forallb_forall in Hx. specialize (Hx _ Hin). discriminate. }
    destruct (one_dot a b (D a Sa) (D b Sb)) as [C1 [_ C3]]. rewrite C1, C3. cbn [Nat.eqb negb].
    assert (X : str_isdigit a = true) by (apply str_isdigit_iff; auto). assert (Y : str_isdigit b = true) by (apply str_isdigit_iff; auto).
    rewrite X, Y. reflexivity.
Qed.

Lemma nil_of_F2 : forall a ds, Forall2 dec_char a ds -> (a = [] <-> ds = []).
Proof. intros a ds H. inversion H; subst; split; congruence. Qed.

Lemma rate_str_iff : forall s r, s <> [] ->
  (validate_string_is_whole_number_or_decimal (PStr s) = Ok tt /\ py_float_str s = Ok r <->
   exists ip fp, rate_text s ip fp /\ r = float_of_dec false (val 10 (ip ++ fp)) (- Z.of_nat (length fp))).
Proof.
  intros s r N. unfold validate_string_is_whole_number_or_decimal. rewrite whole_number_text. split.
  - intros [V F]. destruct (forallb char_isdigit s) eqn:SD.
    + destruct (float_isdigit s r SD F) as [ip D]. assert (ip <> []) by (intros X; apply N, (nil_of_F2 _ _ D); auto).
      rewrite (float_digits s ip) in F by auto. injection F as <-. exists ip, []. split; [left; auto|]. rewrite app_nil_r. reflexivity.
    + destruct (validate_string_is_decimal (PStr s)) as [[]|e] eqn:DT; [|discriminate].
      apply decimal_text in DT as (a & b & -> & Na & Nb & Sa & Sb).
      destruct (float_dot_isdigit a b r Sa Sb F) as (ip & fp & Da & Db).
      assert (ip <> []) by (intros X; apply Na, (nil_of_F2 _ _ Da); auto).
      assert (fp <> []) by (intros X; apply Nb, (nil_of_F2 _ _ Db); auto).
      rewrite (float_decimal a b ip fp) in F by (auto using app_ne). injection F as <-.
      exists ip, fp. split; auto. right. exists a, b. auto.
  - intros (ip & fp & [(D & -> & Nn)|(a & b & -> & Da & Db & Na & Nb)] & ->).
    + destruct (dec_run HU s ip D) as (_ & _ & I3 & _). rewrite I3. rewrite (float_digits s ip) by auto. rewrite app_nil_r. auto.
    + destruct (dec_run HU a ip Da) as (_ & _ & I3 & _). destruct (dec_run HU b fp Db) as (_ & _ & J3 & _).
      rewrite (float_decimal a b ip fp) by (auto using app_ne). split; auto.
      assert (X : validate_string_is_decimal (PStr (a ++ [46] ++ b)) = Ok tt).
      { apply decimal_text. exists a, b. repeat split; auto. intros X; apply Na, (nil_of_F2 _ _ Da); auto. intros X; apply Nb, (nil_of_F2 _ _ Db); auto. }
      destruct (forallb char_isdigit (a ++ [46] ++ b)); [reflexivity|]. rewrite X. reflexivity.
Qed.

Lemma int_str_rate : forall z, 0 <= z -> exists ip, rate_text (int_str z) ip [] /\ val 10 ip = z /\ int_str z <> [].
Proof.
  intros z Hz. destruct (nat_text10 z Hz) as (ds & T & D & Nn & V & _). exists ds.
  assert (I : int_str z = text10 ds). { unfold int_str. replace (z <? 0) with false by (symmetry; apply Z.ltb_ge; lia). auto. }
  rewrite I. pose proof (text10_run ds D) as R. split; [|split; auto].
  - left. auto.
  - intros X. apply Nn. apply (nil_of_F2 _ _ R). auto.
Qed.
Lemma int_str_neg : forall z, z < 0 -> validate_string_is_whole_number_or_decimal (PStr (int_str z)) <> Ok tt.
Proof.
  intros z Hz. unfold int_str. rewrite (proj2 (Z.ltb_lt z 0) Hz). unfold validate_string_is_whole_number_or_decimal.
  rewrite whole_number_text. cbn [forallb]. change (char_isdigit 45) with false. cbn [andb].
  destruct (validate_string_is_decimal (PStr (45 :: nat_text 10 (- z)))) as [[]|e] eqn:D; [|discriminate].
  apply decimal_text in D as (a & b & Q & Na & Nb & Sa & Sb). destruct a as [|c a]; [congruence|]. injection Q as <- Q. discriminate.
Qed.

(** fee and fee_rate entries after adjust_design. *)
Definition adjusted_fee (o : option pyval) : option (option pyval) :=
  match o with
  | Some (PStr s) => match py_int_str 10 s with Ok n => Some (Some (PInt n)) | Err _ => None end
  | _ => Some o
  end.
Definition adjusted_rate (o : option pyval) : option pyval :=
  match o with
  | Some (PInt z) => Some (PStr (py_str_int (PInt z)))
  | Some (PBool b) => Some (PStr (py_str_int (PBool b)))
  | _ => o
  end.

Lemma set_other : forall k k' v d, k <> k' -> dict_find k (dict_set k' v d) = dict_find k d.
Proof. intros. rewrite find_set, seq_neq; auto. Qed.

Lemma adjust_design_inv : forall d d1, adjust_design d = (Ok tt, d1) ->
  adjusted_fee (dict_find (lit "fee") d) = Some (dict_find (lit "fee") d1) /\
  dict_find (lit "fee_rate") d1 = adjusted_rate (dict_find (lit "fee_rate") d) /\
  adjusted_fee (dict_find (lit "max_fee") d) = Some (dict_find (lit "max_fee") d1) /\
  (forall k, k <> lit "fee" -> k <> lit "fee_rate" -> k <> lit "max_fee" -> dict_find k d1 = dict_find k d).
Proof.
  intros d d1 H. unfold adjust_design in H.
  set (s1 := match dict_find (lit "fee") d with Some (PStr s) => _ | _ => _ end) in H.
  assert (S1 : match s1 with
    | inl d' => adjusted_fee (dict_find (lit "fee") d) = Some (dict_find (lit "fee") d') /\
                (forall k, k <> lit "fee" -> dict_find k d' = dict_find k d)
    | inr _ => True end).
  { subst s1. destruct (dict_find (lit "fee") d) as [[| | | |s| |]|] eqn:F; cbn [adjusted_fee]; try (split; [congruence|auto]).
    destruct (py_int_str 10 s); auto. rewrite find_set_same. split; auto. intros. apply set_other; auto. }
  destruct s1 as [d'|e]; [|discriminate]. destruct S1 as [A1 A2].
  set (d2 := match dict_find (lit "fee_rate") d' with Some _ => _ | None => _ end) in H.
  assert (S2 : dict_find (lit "fee_rate") d2 = adjusted_rate (dict_find (lit "fee_rate") d') /\
     (forall k, k <> lit "fee_rate" -> dict_find k d2 = dict_find k d')).
  { subst d2. destruct (dict_find (lit "fee_rate") d') as [[|b|z| | | |]|] eqn:F; cbn [adjusted_rate]; try (split; [congruence|auto]);
    (rewrite find_set_same; split; auto; intros; apply set_other; auto). }
  destruct S2 as [B1 B2].
  assert (S3 : adjusted_fee (dict_find (lit "max_fee") d2) = Some (dict_find (lit "max_fee") d1) /\
     (forall k, k <> lit "max_fee" -> dict_find k d1 = dict_find k d2)).
  { destruct (dict_find (lit "max_fee") d2) as [[| | | |s| |]|] eqn:F; cbn [adjusted_fee]; try (injection H as <-; split; [congruence|auto]).
    destruct (py_int_str 10 s); [|discriminate]. injection H as <-. rewrite find_set_same. split; auto. intros. apply set_other; auto. }
  destruct S3 as [C1 C2]. split; [|split; [|split]].
  - rewrite (C2 (lit "fee")), (B2 (lit "fee")) by discriminate. auto.
  - rewrite (C2 (lit "fee_rate")) by discriminate. rewrite B1, (A2 (lit "fee_rate")) by discriminate. auto.
  - rewrite (B2 (lit "max_fee")), (A2 (lit "max_fee")) in C1 by discriminate. auto.
  - intros k K1 K2 K3. rewrite C2, B2, A2; auto.
Qed.
Lemma adjust_design_ok : forall d f m, adjusted_fee (dict_find (lit "fee") d) = Some f ->
  adjusted_fee (dict_find (lit "max_fee") d) = Some m -> exists d1, adjust_design d = (Ok tt, d1).
Proof.
  intros d f m F M. unfold adjust_design.
  set (s1 := match dict_find (lit "fee") d with Some (PStr s) => _ | _ => _ end).
  assert (S1 : exists d', s1 = inl d' /\ (forall k, k <> lit "fee" -> dict_find k d' = dict_find k d)).
  { subst s1. destruct (dict_find (lit "fee") d) as [[| | | |s| |]|] eqn:Q; cbn [adjusted_fee] in F; eauto.
    destruct (py_int_str 10 s); [|discriminate]. eexists. split; eauto. intros. apply set_other; auto. }
  destruct S1 as (d' & -> & A2).
  set (d2 := match dict_find (lit "fee_rate") d' with Some _ => _ | None => _ end).
  assert (S2 : forall k, k <> lit "fee_rate" -> dict_find k d2 = dict_find k d').
  { subst d2. destruct (dict_find (lit "fee_rate") d') as [[|b|z| | | |]|] eqn:Q; auto; intros; apply set_other; auto. }
  rewrite S2, A2 by discriminate. destruct (dict_find (lit "max_fee") d) as [[| | | |s| |]|] eqn:Q; cbn [adjusted_fee] in M; eauto.
  destruct (py_int_str 10 s); [eauto|discriminate].
Qed.

Definition oget (o : option pyval) : pyval := match o with Some v => v | None => PNone end.

Lemma py_float_nil : py_float_str [] = Err ValueError.
Proof. reflexivity. Qed.

Lemma rate_text_val : forall s ip fp, rate_text s ip fp -> 0 <= val 10 (ip ++ fp).
Proof.
  intros s ip fp H. apply val_bounds; [lia|]. destruct H as [(D & -> & _)|(a & b & _ & D & D' & _)].
  - rewrite app_nil_r. apply (dec_run HU s ip D).
  - apply Forall_app. split; [apply (dec_run HU a ip D)|apply (dec_run HU b fp D')].
Qed.

Lemma fees_ok : forall fo ro c, fee_arg fo ro c -> exists f1, adjusted_fee fo = Some f1 /\
  validate_fees (oget f1) (oget (adjusted_rate ro)) = Ok tt /\
  match c with
  | FixedFee n => oget f1 = PInt n /\ truthy (oget f1) = true
  | FeeRate r => truthy (oget f1) = false /\ py_float (oget (adjusted_rate ro)) = Ok r
  end.
Proof.
  intros fo ro c H. unfold validate_fees. destruct c as [n|r]; cbn [fee_arg] in H.
  - destruct H as (N & NR & F). exists (Some (PInt n)).
    assert (FF : adjusted_fee fo = Some (Some (PInt n))) by (destruct F as [->|[s [-> I]]]; cbn [adjusted_fee]; [auto|apply (int_text_iff HU) in I; rewrite I; auto]).
    assert (T : truthy (PInt n) = true) by (cbn; apply negb_true_iff, Z.eqb_neq; lia).
    assert (TR : truthy (oget (adjusted_rate ro)) = false).
    { destruct ro as [v|]; [|reflexivity]. destruct NR as [T0 A0]. apply falsy_iff in T0. destruct v; cbn [adjusted_rate oget]; auto; discriminate. }
    split; auto. cbn [oget]. rewrite T, TR. cbn [andb orb is_none].
    assert (W : validate_whole_number (PInt n) = Ok tt) by (apply whole_iff; exists n; left; split; auto; lia).
    rewrite W. auto.
  - destruct H as (NF & v & -> & R).
    assert (FF : exists f1, adjusted_fee fo = Some f1 /\ truthy (oget f1) = false).
    { destruct fo as [w|]; [|exists None; auto]. destruct w as [| | | |s| |]; cbn [no_fee] in NF; try apply falsy_iff in NF; cbn [adjusted_fee]; eauto.
      apply (int_text_iff HU) in NF. rewrite NF. exists (Some (PInt 0)). auto. }
    destruct FF as (f1 & F1 & TF). exists f1. split; auto. rewrite TF. cbn [andb orb].
    destruct R as [(z & -> & Z0 & RR)|[(s & ip & fp & -> & RT & RR)|(b & -> & ->)]]; cbn [adjusted_rate oget].
    + apply rounds_int in RR; auto. subst r. destruct (int_str_rate z Z0) as (ip & RT & V & NE). cbn [py_str_int].
      destruct (proj2 (rate_str_iff (int_str z) (float_of_dec false z 0) NE)) as [V1 V2].
      { exists ip, []. split; auto. rewrite app_nil_r, V. auto. }
      destruct (int_str z) as [|c0 s0] eqn:Q; [congruence|]. cbn [truthy is_none]. rewrite andb_false_r. rewrite V1. cbn [bind]. auto.
    + apply rounds_decimal in RR; [|eapply rate_text_val; eauto]. subst r. assert (NE : s <> []).
      { intros ->. destruct RT as [(D & _ & Nn)|(a & b & Q & _)]; [inversion D; congruence|destruct a; discriminate]. }
      destruct (proj2 (rate_str_iff s (float_of_dec false (val 10 (ip ++ fp)) (- Z.of_nat (length fp))) NE)) as [V1 V2]; [eauto|].
      destruct s as [|c0 s0]; [congruence|]. cbn [truthy is_none]. rewrite andb_false_r, V1. cbn [bind]. auto.
    + cbn [truthy is_none]. rewrite andb_false_r. cbn. auto.
Qed.

Lemma fees_inv : forall fo ro f1, adjusted_fee fo = Some f1 -> validate_fees (oget f1) (oget (adjusted_rate ro)) = Ok tt ->
  (truthy (oget f1) = false -> exists r, py_float (oget (adjusted_rate ro)) = Ok r) -> oget f1 <> PBool true ->
  exists c, fee_arg fo ro c.
Proof.
  intros fo ro f1 F V PF NT. unfold validate_fees in V. destruct (truthy (oget f1)) eqn:TF.
  - destruct (truthy (oget (adjusted_rate ro))) eqn:TR; [discriminate|]. cbn [andb orb] in V.
    destruct (is_none (oget f1) && is_none (oget (adjusted_rate ro))); [discriminate|].
    inv_bind V u V1. destruct u. apply whole_iff in V1 as (z & W).
    assert (Q : oget f1 = PInt z /\ 0 < z).
    { destruct W as [[W Z0]|[[b [W _]]|[b [W _]]]]; rewrite W in *.
      - split; auto. cbn [truthy] in TF. apply negb_true_iff, Z.eqb_neq in TF. lia.
      - destruct b; [congruence|discriminate]. - discriminate. }
    destruct Q as [Q Zp]. exists (FixedFee z). split; auto. split.
    + destruct ro as [v|]; cbn [no_rate]; auto. destruct v as [|b|n| | | |]; cbn [adjusted_rate oget] in TR; try (split; [apply falsy_iff; assumption|reflexivity]).
      * destruct b; discriminate.
      * cbn [py_str_int] in TR. destruct (int_str n) eqn:X; [|discriminate]. exfalso. revert X. unfold int_str.
        destruct (Z.ltb_spec n 0); [discriminate|]. destruct (nat_text10 n ltac:(lia)) as (ds & -> & _ & Nn & _). destruct ds; [congruence|discriminate].
    + destruct fo as [w|]; cbn [adjusted_fee] in F; [|injection F as <-; discriminate].
      destruct w as [| | | |s| |]; try (injection F as <-; cbn [oget] in Q; left; congruence).
      destruct (py_int_str 10 s) as [n|] eqn:I; [|discriminate]. injection F as <-. cbn [oget] in Q. injection Q as ->. right. exists s. split; auto. apply (int_text_iff HU). auto.
  - cbn [andb orb] in V. destruct (is_none (oget f1) && is_none (oget (adjusted_rate ro))) eqn:NN; [discriminate|].
    cbn [bind] in V. destruct (PF eq_refl) as [r R]. exists (FeeRate r). split.
    + destruct fo as [w|]; cbn [no_fee]; auto. destruct w as [| | | |s| |]; cbn [adjusted_fee] in F; try (injection F as <-; apply falsy_iff; assumption).
      destruct (py_int_str 10 s) as [n|] eqn:I; [|discriminate]. injection F as <-. cbn [oget truthy] in TF.
      apply negb_false_iff, Z.eqb_eq in TF. subst n. apply (int_text_iff HU). auto.
    + destruct ro as [v|]; [|cbn in R; discriminate]. exists v. split; auto.
      destruct v as [|b|z|f|s|l|d]; cbn [adjusted_rate oget] in *; try discriminate.
      * destruct b; vm_compute in V; discriminate.
      * left. exists z. split; auto. cbn [py_str_int] in *. destruct (Z.ltb_spec z 0) as [L|L].
        { exfalso. apply (int_str_neg z L). assert (T : truthy (PStr (int_str z)) = true) by (unfold int_str; rewrite (proj2 (Z.ltb_lt z 0) L); reflexivity).
          rewrite T in V. auto. }
        split; auto. apply rounds_int; auto. destruct (int_str_rate z L) as (ip & RT & VV & NE).
        destruct (proj2 (rate_str_iff (int_str z) (float_of_dec false z 0) NE)) as [V1 V2].
        { exists ip, []. split; auto. rewrite app_nil_r, VV. auto. }
        cbn [py_float] in R. congruence.
      * right. right. cbn [py_float] in R. injection R as <-.
        destruct (truthy (PFloat f)) eqn:T; [discriminate|]. destruct f; try discriminate. eauto.
      * right. left. destruct s as [|c0 s0]; [discriminate|]. cbn [truthy] in V.
        destruct (proj1 (rate_str_iff (c0 :: s0) r ltac:(discriminate)) (conj V R)) as (ip & fp & A & B). exists (c0 :: s0), ip, fp. split; auto. split; auto. apply rounds_decimal; auto. eapply rate_text_val; eauto.
Qed.

(** max_fee *)
Lemma max_fee_ok : forall v z, whole_arg v z -> exists w, adjusted_fee (Some v) = Some (Some w) /\ whole w z.
Proof.
  intros v z [W|[s [-> [I Z0]]]].
  - exists v. split; auto. destruct W as [[-> _]|[[b [-> _]]|[b [-> _]]]]; auto.
  - apply (int_text_iff HU) in I. exists (PInt z). cbn [adjusted_fee]. rewrite I. split; auto. left. auto.
Qed.
Lemma max_fee_inv : forall o w z, adjusted_fee o = Some (Some w) -> whole w z -> exists v, o = Some v /\ whole_arg v z.
Proof.
  intros o w z A W. destruct o as [v|]; [|discriminate]. exists v. split; auto.
  destruct v as [| | | |s| |]; cbn [adjusted_fee] in A; try (injection A as <-; left; exact W).
  destruct (py_int_str 10 s) as [n|] eqn:I; [|discriminate]. injection A as <-. right. exists s.
  destruct W as [[W Z0]|[[b [W _]]|[b [W _]]]]; try discriminate. injection W as ->. split; auto. split; auto. apply (int_text_iff HU). auto.
Qed.

(** approaches *)
Lemma choose_inv : forall v a, choose_approach v = Ok a -> v = PList [PStr (approach_name a)].
Proof.
  intros v a H. destruct v as [| | | |s|l|d]; try discriminate.
  - destruct s as [|? [|? ?]]; discriminate.
  - destruct l as [|x [|y l]]; try discriminate. cbn [choose_approach] in H.
    assert (K : forall n, py_eq_str x n = true -> x = PStr n).
    { intros n Hn. destruct x; try discriminate. cbn in Hn. apply str_eqb_eq in Hn. congruence. }
    destruct (py_eq_str x (lit "largest_first")) eqn:E1. { injection H as <-. apply K in E1. subst. auto. }
    destruct (py_eq_str x (lit "smallest_first")) eqn:E2. { injection H as <-. apply K in E2. subst. auto. }
    destruct (py_eq_str x (lit "all")) eqn:E3. { injection H as <-. apply K in E3. subst. auto. } discriminate.
  - destruct d as [|? [|? ?]]; discriminate.
Qed.
Lemma choose_ok : forall a, choose_approach (PList [PStr (approach_name a)]) = Ok a.
Proof. destruct a; reflexivity. Qed.
Lemma validate_approaches_ok : forall o a, approach_arg o a -> validate_approaches (oget o) = Ok tt.
Proof. intros o a [[-> _]| ->]; [reflexivity|]. destruct a; reflexivity. Qed.

Definition default_approaches (o : option pyval) : pyval :=
  match o with Some v => v | None => PList [PStr (lit "largest_first")] end.
Lemma approaches_ok : forall o a, approach_arg o a -> choose_approach (default_approaches o) = Ok a.
Proof. intros o a [[-> ->]| ->]; [reflexivity|apply choose_ok]. Qed.
Lemma approaches_inv : forall o a, choose_approach (default_approaches o) = Ok a -> approach_arg o a.
Proof.
  intros [v|] a H; cbn [default_approaches] in H.
  - apply choose_inv in H. subst. right. auto.
  - injection H as <-. left. auto.
Qed.

(** The prepared values say what q says. *)
Definition prep (p : prepared) (q : order) : Prop :=
  Forall2 (fun v i => make_input v = txin_create (PStr (ia_address i)) (PStr (hex_of (ia_txid i))) (PInt (ia_index i)) (ia_value i)) (p_inputs p) (q_inputs q) /\
  Forall2 (fun v o => make_output v = txout_create (PStr (oa_address o)) (oa_value o)) (p_outputs p) (q_outputs q) /\
  match q_fee q with FixedFee n => p_fee p = PInt n /\ p_fee_rate p = None | FeeRate r => p_fee_rate p = Some r end /\
  p_change_address p = PStr (q_change_address q) /\ whole (p_max_fee p) (q_max_fee q) /\
  p_max_spend_percentage p = q_max_spend q /\ choose_approach (p_approaches p) = Ok (q_approach q) /\
  p_allow_duplicate p = q_allow_duplicates q /\ p_change_output_index p = q_change_index q.

Lemma F2_exists : forall A B C (R : A -> B -> Prop) (S : A -> B -> C -> Prop) l1 l2,
  Forall2 R l1 l2 -> (forall a b, R a b -> exists c, S a b c) ->
  exists l3, Forall2 (fun a c => exists b, R a b /\ S a b c) l1 l3 /\ Forall2 (fun b c => exists a, R a b /\ S a b c) l2 l3.
Proof.
  intros A B C R S l1 l2 H K. induction H as [|a b l1 l2 Hab H IH].
  - exists []. split; constructor.
  - destruct IH as (l3 & I1 & I2). destruct (K a b Hab) as [c Hc]. exists (c :: l3). split; constructor; eauto.
Qed.

Lemma options_ok : forall a q, option_arg (ns_allow_duplicate_output_address a) (q_allow_duplicates q) ->
  index_arg (ns_change_output_index a) (q_change_index q) ->
  validate_options a = Ok tt /\
  match ns_allow_duplicate_output_address a with Some v => truthy v | None => false end = q_allow_duplicates q /\
  match ns_change_output_index a with Some v => v | None => PNone end = q_change_index q.
Proof.
  intros a q O I. unfold validate_options.
  assert (A : match ns_allow_duplicate_output_address a with None | Some PNone => Ok tt | Some v => validate_boolean v end = Ok tt /\
    match ns_allow_duplicate_output_address a with Some v => truthy v | None => false end = q_allow_duplicates q).
  { destruct O as [[[-> | ->] ->]| ->]; auto. }
  destruct A as [A1 A2]. rewrite A1. cbn [bind]. split; [|split; auto].
  - destruct I as [[[-> | ->] I]|[-> W]]; auto.
    assert (V : validate_whole_number (q_change_index q) = Ok tt) by (apply whole_iff; auto).
    destruct (q_change_index q); auto.
  - destruct I as [[[-> | ->] ->]|[-> W]]; auto.
Qed.
Lemma options_inv : forall a, validate_options a = Ok tt ->
  (exists b, option_arg (ns_allow_duplicate_output_address a) b) /\ (exists i, index_arg (ns_change_output_index a) i).
Proof.
  intros a H. unfold validate_options in H. inv_bind H u H1. destruct u. split.
  - destruct (ns_allow_duplicate_output_address a) as [v|].
    + destruct v as [|b| | | | |]; try discriminate; [exists false; left; auto|exists b; right; auto].
    + exists false. left. auto.
  - destruct (ns_change_output_index a) as [v|].
    + destruct v eqn:Q; try (apply whole_iff in H; rewrite <- Q in *; exists v; right; auto; fail). exists PNone. left. auto.
    + exists PNone. left. auto.
Qed.

Lemma contains_iff : forall input items, validate_list_contains_items input items = Ok tt <-> forall x, In x items -> In x input.
Proof.
  intros input items. unfold validate_list_contains_items.
  assert (K : forall x, str_in x input = true <-> In x input).
  { intros x. unfold str_in. rewrite existsb_exists. split.
    - intros (y & Hy & E0). apply str_eqb_eq in E0. congruence. - intros H. exists x. split; auto. apply str_eqb_refl. }
  split.
  - intros H x Hx. apply K. destruct (str_in x input) eqn:Q; auto. exfalso.
    assert (I : In x (filter (fun x => negb (str_in x input)) items)) by (apply filter_In; rewrite Q; auto).
    destruct (filter _ items); [destruct I|discriminate].
  - intros H. destruct (filter (fun x => negb (str_in x input)) items) as [|y l] eqn:Q; auto. exfalso.
    assert (I : In y (filter (fun x => negb (str_in x input)) items)) by (rewrite Q; left; auto).
    apply filter_In in I as [I1 I2]. apply negb_true_iff in I2. apply H in I1. apply K in I1. congruence.
Qed.
Lemma find_in : forall k d v, dict_find k d = Some v -> In k (map fst d).
Proof.
  intros k d v H. destruct (In_dec (list_eq_dec Z.eq_dec) k (map fst d)) as [I|I]; auto.
  apply find_none in I. congruence.
Qed.

Lemma head_ok : forall d ca w mv p n l h, dict_find (lit "change_address") d = Some (PStr ca) -> is_address h ca ->
  dict_find (lit "max_fee") d = Some w -> (exists z, whole w z) ->
  dict_find (lit "max_spend_percentage") d = Some mv -> py_float mv = Ok p -> py_trunc p = Ok n -> 0 <= n <= 100 ->
  dict_find (lit "outputs") d = Some (PList l) -> validate_design_head d = Ok l.
Proof.
  intros d ca w mv p n l h F1 A F2 W F3 P T N F4. unfold validate_design_head.
  assert (C : validate_list_contains_items (dict_keys d) (map lit ["change_address"; "max_fee"; "max_spend_percentage"; "outputs"]%string) = Ok tt).
  { apply contains_iff. intros x Hx. unfold dict_keys. cbn [map] in Hx.
    destruct Hx as [<-|[<-|[<-|[<-|[]]]]]; eauto using find_in. }
  rewrite C. cbn [bind]. unfold dict_get. rewrite F1, F2, F3, F4. cbn [bind].
  rewrite (validate_address_ok HH HZ h) by auto. cbn [bind]. apply whole_iff in W. rewrite W. cbn [bind].
  rewrite P. cbn [bind]. rewrite T. cbn [bind]. rewrite validate_integer_domain_ok by lia. reflexivity.
Qed.
Lemma head_inv : forall d l, validate_design_head d = Ok l ->
  exists ca w z mv p n, dict_find (lit "change_address") d = Some (PStr ca) /\ address ca /\
  dict_find (lit "max_fee") d = Some w /\ whole w z /\
  dict_find (lit "max_spend_percentage") d = Some mv /\ py_float mv = Ok p /\ py_trunc p = Ok n /\ 0 <= n <= 100 /\
  dict_find (lit "outputs") d = Some (PList l).
Proof.
  intros d l H. unfold validate_design_head in H. inv_bind H u1 H1.
  inv_bind H ca G1. inv_bind H mf G2. inv_bind H ms G3. inv_bind H os G4. apply get_ok in G1, G2, G3, G4.
  inv_bind H u2 H2. destruct u2. apply (validate_address_inv HH HZ) in H2 as (h & s & -> & A).
  inv_bind H u3 H3. destruct u3. apply whole_iff in H3 as (z & W). inv_bind H p P. inv_bind H n T.
  inv_bind H u4 H4. assert (N : 0 <= n <= 100).
  { destruct (Z_le_dec 0 n), (Z_le_dec n 100); try lia; rewrite validate_integer_domain_bad in H4 by lia; discriminate. }
  inv_bind H u5 H5. destruct os; try discriminate. injection H as <-. exists s, mf, z, ms, p, n.
  split; auto. split; [exists h; auto|]. auto 10.
Qed.

Lemma F2_right : forall A B (R : A -> B -> Prop) l1 l2, Forall2 R l1 l2 -> forall (P : A -> Prop), (forall a b, R a b -> P a) -> Forall P l1.
Proof. induction 1; intros; constructor; eauto. Qed.
Lemma F2_choose : forall A B (P : A -> B -> Prop) l, Forall (fun a => exists b, P a b) l -> exists l', Forall2 P l l'.
Proof. induction 1 as [|a l [b Hb] H IH]; [exists []; constructor|]. destruct IH as [l' ?]. exists (b :: l'). constructor; auto. Qed.

Lemma F2_impl : forall A B (R S : A -> B -> Prop) l1 l2, (forall a b, R a b -> S a b) -> Forall2 R l1 l2 -> Forall2 S l1 l2.
Proof. induction 2; constructor; auto. Qed.

(** The argument object after a call that got past the validation. *)
Definition used (a : namespace) (q : order) : Prop :=
  exists l d f m, ns_inputs a = Some (PList l) /\ Forall2 (fun i v => exists d0, v = PDict (final_input d0 i)) (q_inputs q) l /\
    ns_design a = Some (PDict d) /\ adjusted_fee (dict_find (lit "fee") d) = Some f /\ adjusted_fee (dict_find (lit "max_fee") d) = Some m.
Lemma adjusted_twice : forall o f, adjusted_fee o = Some f -> adjusted_fee f = Some f.
Proof.
  intros [[| | | |s| |]|] ff; cbn; try (intros [= <-]; reflexivity). destruct (py_int_str 10 s); [|discriminate]. intros [= <-]. reflexivity.
Qed.

Lemma prepare_ok : forall a q, asked a q -> exists p a', prepare a = (Ok p, a') /\ prep p q /\ used a' q.
Proof.
  intros a q (l & d & NI & FI & ND & (( lo & GO & FO) & (GC & (h & CA)) & (mv & GM & WM) & (pv & n & GP & PF & PT & PN) & FA & AA) & OA & IA).
  apply (py_float_iff HU) in PF. apply py_trunc_iff in PT. unfold prepare. rewrite NI, ND.
  destruct (fees_ok _ _ _ FA) as (f1 & AF & VF & FC). destruct (max_fee_ok _ _ WM) as (w & AM & WW).
  destruct (adjust_design_ok d f1 (Some w) AF) as [d1 AD]. { rewrite GM. auto. }
  rewrite AD. destruct (adjust_design_inv d d1 AD) as (D1 & D2 & D3 & D4). rewrite AF in D1. injection D1 as D1. rewrite GM, AM in D3. injection D3 as D3. symmetry in D1, D3.
  (* inputs *)
  destruct (F2_exists _ _ _ _ (fun v i c => exists d, v = PDict d /\
     adjust_input v = (Ok tt, c) /\ validate_input c = Ok tt /\
     add_satoshi_amount c = (Ok tt, PDict (final_input d i)) /\
     make_input (PDict (final_input d i)) = txin_create (PStr (ia_address i)) (PStr (hex_of (ia_txid i))) (PInt (ia_index i)) (ia_value i)) _ _ FI) as (l2 & L1 & L2).
  { intros v i Hi. destruct (input_steps_ok HH HZ HU v i Hi) as (d0 & -> & S1 & S2 & S3 & S4). exists (PDict (adjusted_input d0 i)), d0. auto. }
  assert (FE : for_each adjust_input l = (Ok tt, l2)).
  { apply for_each_ok. eapply F2_impl; [|exact L1]. intros x y (i & _ & d0 & _ & S1 & _). exact S1. }
  rewrite FE. cbn [set_ns_inputs set_ns_design ns_inputs ns_design].
  assert (VI : validate_inputs (PList l2) = Ok tt).
  { unfold validate_inputs. cbn [validate_list bind as_list]. apply iter_ok. clear - L2. induction L2 as [|i c li lc Hc H IH]; constructor; auto.
    destruct Hc as (v & _ & d0 & _ & _ & S2 & _). exact S2. }
  cbn [bind]. rewrite VI.
  (* outputs *)
  destruct (F2_exists _ _ _ _ (fun v o c => exists d s, v = PDict d /\
     validate_output v = (Ok tt, c) /\ add_satoshi_amount c = (Ok tt, PDict (final_output d s (oa_value o))) /\
     make_output (PDict (final_output d s (oa_value o))) = txout_create (PStr (oa_address o)) (oa_value o)) _ _ FO) as (lo2 & O1 & O2).
  { intros v o Ho. destruct (output_steps_ok HH HZ HU v o Ho) as (d0 & s & -> & S1 & S2 & S3). exists (PDict (adjusted_output d0 s)), d0, s. auto. }
  assert (FOE : for_each validate_output lo = (Ok tt, lo2)).
  { apply for_each_ok. eapply F2_impl; [|exact O1]. intros x y (i & _ & d0 & s & _ & S1 & _). exact S1. }
  unfold validate_design. rewrite (head_ok d1 (q_change_address q) w pv (q_max_spend q) n lo h); auto; try (rewrite D4 by discriminate; auto); [|eauto].
  rewrite FOE. cbv zeta. set (d3 := dict_set (lit "outputs") (PList lo2) d1).
  assert (D5 : forall k, k <> lit "outputs" -> dict_find k d3 = dict_find k d1) by (intros; apply set_other; auto).
  assert (VF' : validate_fees (get_or_none (lit "fee") d1) (get_or_none (lit "fee_rate") d1) = Ok tt).
  { unfold get_or_none. rewrite D1, D2. exact VF. }
  rewrite VF'. cbn [bind].
  assert (VA : validate_approaches (get_or_none (lit "input_selection_approaches") d1) = Ok tt).
  { unfold get_or_none. rewrite D4 by discriminate. eapply validate_approaches_ok; eauto. }
  rewrite VA. cbn [bind]. destruct (options_ok a q OA IA) as (V1 & V2 & V3). rewrite V1. cbn [bind].
  assert (UN : exists rate, unpack a d3 = Ok (q_max_spend q, rate, oget f1, PStr (q_change_address q), w, default_approaches (dict_find (lit "input_selection_approaches") d)) /\
     match q_fee q with FixedFee n => oget f1 = PInt n /\ rate = None | FeeRate r => rate = Some r end).
  { unfold unpack, dict_get, get_or_none. rewrite !D5 by discriminate. rewrite D1, D2, D3. rewrite !D4 by discriminate. rewrite GC, GP. cbn [bind]. rewrite PF. cbn [bind].
    change (match f1 with Some v => v | None => PNone end) with (oget f1).
    change (match adjusted_rate (dict_find (lit "fee_rate") d) with Some v => v | None => PNone end) with (oget (adjusted_rate (dict_find (lit "fee_rate") d))).
    destruct (q_fee q) as [m|r]; destruct FC as [C1 C2].
    - rewrite C2. cbn [bind]. eexists. split; [reflexivity|]. auto.
    - rewrite C1, C2. cbn [bind]. eexists. split; [reflexivity|]. auto. }
  destruct UN as (rate & UN & UF). rewrite UN. cbn [bind]. unfold dict_get, d3. rewrite find_set_same. cbn [bind as_list].
  (* satoshi amounts *)
  destruct (F2_exists _ _ _ _ (fun i c v => exists d, v = PDict (final_input d i) /\ add_satoshi_amount c = (Ok tt, v) /\
     make_input v = txin_create (PStr (ia_address i)) (PStr (hex_of (ia_txid i))) (PInt (ia_index i)) (ia_value i)) _ _ L2) as (l4 & M1 & M2).
  { intros i c (v & _ & d0 & _ & _ & _ & S3 & S4). exists (PDict (final_input d0 i)), d0. auto. }
  assert (FE2 : for_each add_satoshi_amount l2 = (Ok tt, l4)).
  { apply for_each_ok. eapply F2_impl; [|exact M2]. intros x y (i & _ & d0 & _ & S & _). exact S. }
  rewrite FE2.
  destruct (F2_exists _ _ _ _ (fun o c v => exists d s, v = PDict (final_output d s (oa_value o)) /\ add_satoshi_amount c = (Ok tt, v) /\
     make_output v = txout_create (PStr (oa_address o)) (oa_value o)) _ _ O2) as (lo4 & P1 & P2).
  { intros o c (v & _ & d0 & s & _ & _ & S3 & S4). exists (PDict (final_output d0 s (oa_value o))), d0, s. auto. }
  assert (FE3 : for_each add_satoshi_amount lo2 = (Ok tt, lo4)).
  { apply for_each_ok. eapply F2_impl; [|exact P2]. intros x y (i & _ & d0 & s & _ & S & _). exact S. }
  rewrite FE3. eexists. eexists. split; [reflexivity|]. split; cycle 1.
  { exists l4. eexists. exists f1, (Some w). split; [reflexivity|]. split; [|split; [reflexivity|]].
    - clear - M1. induction M1 as [|i c li lc Hc H IH]; constructor; auto. destruct Hc as (v & _ & d0 & -> & _ & S2). eauto.
    - rewrite !set_other by discriminate. rewrite D1, D3. split; [eapply adjusted_twice; eauto|]. eapply adjusted_twice. eauto. }
  unfold prep. cbn [p_inputs p_outputs p_fee p_fee_rate p_change_address p_max_fee p_max_spend_percentage p_approaches p_allow_duplicate p_change_output_index].
  split; [|split; [|split; [|split; [|split; [|split; [|split; [|split]]]]]]]; auto.
  - clear - M1. induction M1 as [|i c li lc Hc H IH]; constructor; auto. destruct Hc as (v & _ & d0 & _ & _ & S2). exact S2.
  - clear - P1. induction P1 as [|i c li lc Hc H IH]; constructor; auto. destruct Hc as (v & _ & d0 & s & _ & _ & S2). exact S2.
  - apply approaches_ok. auto.
Qed.

Lemma prepare_inv : forall a p a' ap, prepare a = (Ok p, a') -> choose_approach (p_approaches p) = Ok ap -> p_fee p <> PBool true ->
  exists q, asked a q /\ prep p q.
Proof.
  intros a p a' ap H CH NT. assert (H0 := H). unfold prepare in H.
  destruct (ns_inputs a) as [vin|] eqn:NI; [|discriminate]. destruct (ns_design a) as [[| | | | | |d]|] eqn:ND; try discriminate.
  destruct (adjust_design d) as [o1 d1] eqn:AD. destruct o1 as [[]|e]; [|discriminate].
  destruct vin as [| | | | |l|]; try discriminate. destruct (for_each adjust_input l) as [o2 l2] eqn:FE.
  destruct o2 as [[]|e]; [|discriminate]. cbn [bind] in H.
  destruct (validate_inputs (PList l2)) as [[]|e] eqn:VI; [|discriminate].
  destruct (validate_design d1) as [o3 d3] eqn:VD. destruct o3 as [[]|e]; [|discriminate]. cbn [bind] in H.
  destruct (validate_options a) as [[]|e] eqn:VO; [|discriminate]. cbn [bind] in H.
  destruct (unpack a d3) as [u|e] eqn:UN; [|discriminate]. cbn [bind] in H.
  destruct (dict_get (lit "outputs") d3) as [outs|e] eqn:GO; [|discriminate]. cbn [bind] in H.
  destruct (as_list outs) as [lo|e] eqn:LO; [|discriminate]. cbn [bind] in H.
  destruct (for_each add_satoshi_amount l2) as [o4 l4] eqn:FE4. destruct o4 as [[]|e]; [|discriminate].
  destruct (for_each add_satoshi_amount lo) as [o5 lo5] eqn:FE5. destruct o5 as [[]|e]; [|discriminate].
  destruct u as [[[[[msp rate] fe] ca] mf] aps]. injection H as <- <-. cbn [p_approaches p_fee] in CH, NT.
  destruct (adjust_design_inv d d1 AD) as (D1 & D2 & D3 & D4).
  (* design *)
  unfold validate_design in VD. destruct (validate_design_head d1) as [lv|e] eqn:HD; [|discriminate].
  destruct (for_each validate_output lv) as [ov lo'] eqn:FV. destruct ov as [[]|e]; [|discriminate]. injection VD as VD <-.
  inv_bind VD u1 VF. destruct u1.
  destruct (head_inv d1 lv HD) as (cha & w & z & mv & pf & n & G1 & A1 & G2 & W & G3 & P1 & T1 & N1 & G4).
  assert (D5 : forall k, k <> lit "outputs" -> dict_find k (dict_set (lit "outputs") (PList lo') d1) = dict_find k d1) by (intros; apply set_other; auto).
  unfold unpack, dict_get, get_or_none in UN. rewrite !D5 in UN by discriminate. rewrite D2, G1, G2, G3 in UN. cbn [bind] in UN. rewrite P1 in UN. cbn [bind] in UN.
  change (match dict_find (lit "fee") d1 with Some v => v | None => PNone end) with (oget (dict_find (lit "fee") d1)) in UN.
  change (match adjusted_rate (dict_find (lit "fee_rate") d) with Some v => v | None => PNone end) with (oget (adjusted_rate (dict_find (lit "fee_rate") d))) in UN.
  rewrite (D4 (lit "input_selection_approaches")) in UN by discriminate.
  change (match dict_find (lit "input_selection_approaches") d with Some v => v | None => PList [PStr (lit "largest_first")] end) with (default_approaches (dict_find (lit "input_selection_approaches") d)) in UN.
  inv_bind UN rt RT. injection UN as <- <- <- <- <- <-.
  (* fees *)
  assert (FA : exists c, fee_arg (dict_find (lit "fee") d) (dict_find (lit "fee_rate") d) c).
  { eapply fees_inv; eauto.
    - unfold get_or_none in VF. rewrite D2 in VF. exact VF.
    - intros TF. rewrite TF in RT. inv_bind RT r R. eauto. }
  destruct FA as [c FA].
  destruct (options_inv a VO) as [[b OB] [i OI]]. apply approaches_inv in CH.
  rewrite G2 in D3. destruct (max_fee_inv _ _ _ D3 W) as (v & GM & WM).
  apply for_each_ok in FE, FV.
  assert (FI : exists li, Forall2 input_arg l li).
  { apply F2_choose. unfold validate_inputs in VI. cbn [validate_list bind as_list] in VI. apply iter_ok in VI. clear - FE VI HH HZ HU.
    induction FE as [|x y l1 l2 Hxy FE IH]; constructor; inversion VI; subst; auto. eapply (input_steps_inv HH HZ HU); eauto. }
  destruct FI as [li FI].
  assert (FO : exists lo, Forall2 output_arg lv lo).
  { apply F2_choose. clear - FV HH HZ HU. induction FV as [|x y l1 l2 Hxy FV IH]; constructor; auto. eapply (output_steps_inv HH HZ HU); eauto. }
  destruct FO as [los FO].
  rewrite D4 in G1, G3, G4 by discriminate.
  set (q := mk_order li los c cha z pf ap b i).
  assert (AS : asked a q).
  { exists l, d. split; auto. split; auto. split; auto. split; [|split; auto].
    split; [exists lv; auto|]. split; [split; auto|]. split; [exists v; auto|]. split; [exists mv, n; split; [exact G3|]; split; [apply (py_float_iff HU); exact P1|]; split; [apply py_trunc_iff; exact T1|exact N1]|]. split; auto. }
  exists q. split; auto. destruct (prepare_ok a q AS) as (p' & a'' & Q & PQ & _). rewrite H0 in Q. injection Q as Q1 _. rewrite Q1. auto.
Qed.

End WithEnv.

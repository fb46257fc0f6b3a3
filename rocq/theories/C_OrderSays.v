(** C101: what create_transaction says of malformed arguments. *)
From Coq Require Import String Floats.SpecFloat Permutation Lia.
From Verif Require Import PyBase Env PyNum Validate Basic Spec EnvOk TxInput TxOutput Tx Create FloatSpec NumSpec ValidSpec CreateSpec RefuseSpec Messages MessagesSpec Complaints ComplaintsSpec Answer BasicSays BasicSaysSpec TxSpec JsonSpec DocSays DocSaysSpec OrderSays OrderSaysSpec Demo DemoTx DemoCreate DemoRefuse DemoOrderSays.
From Verif Require Import NumLemmas HexProofs Base58Proofs AddrProofs FloatProofs AmountProofs ScriptProofs WireProofs MakeProofs NumProofs PrepProofs DesignProofs BuildProofs CreateProofs RefuseProofs C_Valid C_Messages C_Complaints C_Amount C_BasicSays C_DocSays C_Refuse OrderSaysProofs DemoProofs DemoTxProofs DemoCreateProofs.
Open Scope Z_scope.

Section WithEnv.
Context {E : Env}.

Lemma same_all_in : forall {A B} (f : A -> res B) (g : A -> answer B) l, Forall (fun x => f x = unsaid (g x)) l -> mapM f l = unsaid (all_say g l).
Proof.
  intros A B f g l H. induction H as [|x l H1 H IH]; [reflexivity|]. cbn [mapM all_say]. rewrite H1. destruct (g x) as [y|e t]; [|reflexivity]. cbn [unsaid bind abind].
  rewrite IH. destruct (all_say g l); reflexivity.
Qed.
Lemma all_say_F2 : forall {A B} (g : A -> answer B) l l', all_say g l = Gives l' -> Forall2 (fun x y => g x = Gives y) l l'.
Proof.
  intros A B g l. induction l as [|x l IH]; intros l' H; cbn [all_say] in H; [injection H as <-; constructor|]. destruct (g x) as [y|e t] eqn:Q; cbn [abind] in H; [|discriminate].
  destruct (all_say g l) as [ys|e t]; cbn [abind] in H; [|discriminate]. injection H as <-. constructor; auto.
Qed.
Lemma satoshi_given : forall repr v v', satoshi_says repr v = Gives v' -> exists d n, v = PDict d /\ v' = PDict (dict_set (lit "satoshi_amount") (PInt n) d).
Proof.
  intros repr v v' H. unfold satoshi_says in H. destruct (subscript_says repr v "bitcoin_amount") as [b|]; cbn [abind] in H; [|discriminate]. destruct (bitcoin_to_satoshi_says repr b) as [n|]; cbn [abind] in H; [|discriminate].
  destruct v; try discriminate. injection H as <-. eauto.
Qed.
Lemma make_input_same : forall repr v v', satoshi_says repr v = Gives v' -> make_input v' = unsaid (make_input_says repr v').
Proof.
  intros repr v v' H. apply satoshi_given in H as (d & n & -> & ->). unfold make_input, make_input_says. cbn [bind subscript_says].
  apply same_bind; [apply same_item|]. intros x1 _. apply same_bind; [apply same_item|]. intros x2 _. apply same_bind; [apply same_item|]. intros x3 _.
  unfold dict_get, item. rewrite find_set_same. cbn [bind abind as_int int_of]. apply txin_create_same.
Qed.
Lemma make_output_same : forall repr v v', satoshi_says repr v = Gives v' -> make_output v' = unsaid (make_output_says repr v').
Proof.
  intros repr v v' H. apply satoshi_given in H as (d & n & -> & ->). unfold make_output, make_output_says. cbn [bind subscript_says].
  apply same_bind; [apply same_item|]. intros x1 _. unfold dict_get, item. rewrite find_set_same. cbn [bind abind as_int int_of]. apply txout_create_same.
Qed.

(** The names of the attributes, for the two that must be there. *)
Lemma attributes_checked : forall attrs a, lists_attributes attrs a ->
  match ns_inputs a, ns_design a with
  | Some _, Some _ => validate_list_contains_items_says attrs (map lit ["inputs"; "design"]%string) = None
  | _, _ => exists t, validate_list_contains_items_says attrs (map lit ["inputs"; "design"]%string) = Some (ValueError, t)
  end.
Proof.
  intros attrs a [H1 H2]. unfold validate_list_contains_items_says. cbn [map fold_left].
  assert (X : forall k, str_in k attrs = true <-> In k attrs).
  { intros k. unfold str_in. rewrite existsb_exists. split; [intros (y & I & Q); apply str_eqb_eq in Q; subst; auto|intros I; exists k; split; auto; apply str_eqb_refl]. }
  assert (Y1 : str_in (lit "inputs") attrs = true <-> ns_inputs a <> None) by (rewrite X; exact H1).
  assert (Y2 : str_in (lit "design") attrs = true <-> ns_design a <> None) by (rewrite X; exact H2).
  destruct (str_in (lit "inputs") attrs), (str_in (lit "design") attrs); cbn [negb app length]; destruct (ns_inputs a), (ns_design a);
    solve [reflexivity|eexists; reflexivity|exfalso; destruct Y1 as [A1 A2], Y2 as [B1 B2]; first [now apply A1|now apply B1|discriminate (A2 ltac:(discriminate))|discriminate (B2 ltac:(discriminate))]].
Qed.

Lemma prepare_same : forall repr attrs a, lists_attributes attrs a -> fst (prepare a) = unsaid (prepare_says repr attrs a).
Proof.
  intros repr attrs a H. apply attributes_checked in H. unfold prepare, prepare_says.
  destruct (ns_inputs a) as [vin|] eqn:I; [|destruct H as (t & ->); reflexivity]. destruct (ns_design a) as [vd|] eqn:D; [|destruct H as (t & ->); reflexivity]. rewrite H. cbn [check]. clear H.
  destruct vd as [| | | | | |d]; try reflexivity. cbn [dict_says abind].
  pose proof (adjust_same repr d) as S. destruct (adjust_says repr d) as [d1|e t]; cbn [abind unsaid].
  2: { destruct (adjust_design d) as [o d1]. cbn [fst] in S. subst o. reflexivity. }
  rewrite S. clear S. cbv zeta.
  destruct vin as [|b|z|f|s|l|dd]; try reflexivity.
  - destruct s as [|c s]; reflexivity.
  - cbn [items_says abind]. pose proof (loop_same _ _ (index_same repr) l) as S. destruct (all_say (index_says repr) l) as [l2|e t]; cbn [abind unsaid].
    2: { destruct (for_each adjust_input l) as [o l2]. cbn [fst] in S. subst o. reflexivity. }
    rewrite S. clear S. change (list_check repr (PList l)) with (@None (exn * pystr)). cbn [check bind]. unfold validate_inputs. cbn [validate_list as_list bind].
    pose proof (loop_check validate_input (input_says repr) (fun x => ltac:(rewrite (input_same repr); destruct (input_says repr x) as [[]|]; reflexivity)) l2) as S.
    destruct (all_say (input_says repr) l2) as [us|e t]; cbn [abind unsaid]; rewrite S; [|reflexivity]. clear S us.
    unfold validate_design. rewrite (head_same repr). destruct (head_says repr d1) as [lo|e t]; cbn [abind unsaid bind]; [|reflexivity].
    pose proof (loop_same _ _ (output_same repr) lo) as S. destruct (all_say (output_says repr) lo) as [lo2|e t]; cbn [abind unsaid].
    2: { destruct (for_each validate_output lo) as [o lo2]. cbn [fst] in S. subst o. reflexivity. }
    rewrite S. clear S. cbv beta iota. rewrite (fees_same repr). destruct (fees_says repr _ _) as [[]|e t]; cbn [abind unsaid bind]; [|reflexivity].
    rewrite (approaches_same repr). destruct (approaches_says repr _) as [[]|e t]; cbn [abind unsaid bind]; [|reflexivity].
    rewrite (options_same repr). destruct (options_says repr a) as [[]|e t]; cbn [abind unsaid bind]; [|reflexivity].
    unfold unpack, dict_get, get_or_none, item. rewrite !find_set.
    replace (str_eqb (lit "outputs") (lit "fee")) with false by reflexivity. replace (str_eqb (lit "outputs") (lit "fee_rate")) with false by reflexivity.
    replace (str_eqb (lit "outputs") (lit "change_address")) with false by reflexivity. replace (str_eqb (lit "outputs") (lit "max_fee")) with false by reflexivity.
    replace (str_eqb (lit "outputs") (lit "max_spend_percentage")) with false by reflexivity. replace (str_eqb (lit "outputs") (lit "input_selection_approaches")) with false by reflexivity.
    replace (str_eqb (lit "outputs") (lit "outputs")) with true by reflexivity.
    destruct (dict_find (lit "change_address") d1) as [ca|]; cbn [abind unsaid bind]; [|reflexivity]. destruct (dict_find (lit "max_fee") d1) as [mf|]; cbn [abind unsaid bind]; [|reflexivity].
    destruct (dict_find (lit "max_spend_percentage") d1) as [sp|]; cbn [abind unsaid bind]; [|reflexivity].
    rewrite (same_read_float repr). destruct (float_says repr sp) as [msp|e t]; cbn [abind unsaid bind]; [|reflexivity].
    rewrite (same_read_float repr). set (fee := match dict_find (lit "fee") d1 with Some v => v | None => PNone end).
    assert (R : (if truthy fee then Ok None else r <- unsaid (float_says repr match dict_find (lit "fee_rate") d1 with Some v => v | None => PNone end) ;; Ok (Some r)) =
      unsaid (if truthy fee then Gives None else abind (float_says repr match dict_find (lit "fee_rate") d1 with Some v => v | None => PNone end) (fun r => Gives (Some r)))).
    { destruct (truthy fee); [reflexivity|]. destruct (float_says repr _); reflexivity. }
    rewrite R. clear R. destruct (if truthy fee then _ else _) as [rate|e t]; cbn [abind unsaid bind]; [|reflexivity]. cbn [as_list bind].
    pose proof (loop_same _ _ (satoshi_same repr) l2) as S. destruct (all_say (satoshi_says repr) l2) as [l4|e t]; cbn [abind unsaid].
    2: { destruct (for_each add_satoshi_amount l2) as [o l4]. cbn [fst] in S. subst o. reflexivity. }
    rewrite S. clear S. cbv beta iota.
    pose proof (loop_same _ _ (satoshi_same repr) lo2) as S. destruct (all_say (satoshi_says repr) lo2) as [lo5|e t]; cbn [abind unsaid].
    2: { destruct (for_each add_satoshi_amount lo2) as [o lo5]. cbn [fst] in S. subst o. reflexivity. }
    rewrite S. cbv beta iota. reflexivity.
  - destruct dd as [|p dd]; reflexivity.
Qed.

(** *** Tests *)
Lemma first_app : forall ts ts' r, first_of (ts ++ ts') r <-> (exists e text, r = Some (e, text) /\ first_of ts (Some (e, text))) \/ (first_of ts None /\ first_of ts' r).
Proof.
  induction ts as [|t ts IH]; intros ts' r; cbn [app].
  - split; [intros H; right; split; [constructor|exact H]|]. intros [(e & x & _ & H)|[_ H]]; [inversion H|exact H].
  - split.
    + intros H. inversion H as [|t0 ts0 e x F|t0 ts0 r0 F G]; subst; [left; exists e, x; split; [reflexivity|now apply complaint]|]. apply IH in G as [(e & x & -> & G)|[G1 G2]].
      * left. exists e, x. split; [reflexivity|now apply passed_on]. * right. split; [now apply passed_on|exact G2].
    + intros [(e & x & -> & H)|[H1 H2]].
      * inversion H as [|t0 ts0 e' x' F|t0 ts0 r0 F G]; subst; [now apply complaint|]. apply passed_on; [exact F|]. apply IH. left. eauto.
      * inversion H1 as [| |t0 ts0 r0 F G]; subst. apply passed_on; [exact F|]. apply IH. right. auto.
Qed.
Lemma agrees_app : forall {A B} (m : answer A) (k : A -> answer B) ts ts', agrees m ts -> (forall x, m = Gives x -> agrees (k x) ts') -> agrees (abind m k) (ts ++ ts').
Proof.
  intros A B m k ts ts' T N r. rewrite first_app. pose proof (T r) as TR. pose proof (T None) as T0. destruct m as [x|e t]; cbn [abind says_of] in *.
  - specialize (N x eq_refl r). rewrite N. split; [intros H; right; split; [now apply T0|exact H]|]. intros [(e & y & -> & H)|[_ H]]; [|exact H]. apply T in H. discriminate H.
  - split; [intros <-; left; exists e, t; split; [reflexivity|now apply TR]|]. intros [(e' & y & -> & H)|[H _]]; [now apply T in H|]. apply T in H. discriminate H.
Qed.
Lemma agrees_last : forall {A} (m : answer A) (t : test), is_test (says_of m) t -> agrees m [t].
Proof.
  intros A m t T. apply (agrees_cons m (says_of m)); [exact T|auto|]. destruct m as [x|e t0]; [|discriminate]. intros _. apply agrees_end.
Qed.
Lemma agrees_unit : forall {A B} (m : answer A) (k : A -> answer B) (t : test) ts, is_test (says_of m) t -> (forall x, m = Gives x -> agrees (k x) ts) -> agrees (abind m k) (t :: ts).
Proof. intros A B m k t ts. apply agrees_all. Qed.
Lemma test_bind : forall {A B} (m : answer A) (k : A -> answer B) (R : answer A -> Prop) P, (forall r, m = r <-> R r) -> (forall x, m = Gives x -> is_test (says_of (k x)) (P x)) -> is_test (says_of (abind m k)) (answers R P).
Proof.
  intros A B m k R P H T. replace (says_of (abind m k)) with (both m (fun x => says_of (k x))) by (destruct m; reflexivity). now apply both_test.
Qed.
Lemma no_more : forall {A} (m : answer A) (R : answer A -> Prop), (forall r, m = r <-> R r) -> is_test (says_of m) (answers R no_test).
Proof.
  intros A m R H. replace (says_of m) with (both m (fun _ => None)) by (destruct m; reflexivity). apply both_test; [exact H|]. intros x _ r. unfold no_test. split; congruence.
Qed.
Lemma same_test : forall m (t t' : test), (forall r, t r <-> t' r) -> is_test m t -> is_test m t'.
Proof. intros m t t' H T r. rewrite <- H. apply T. Qed.
Lemma required_test : forall (b : bool) (P : Prop) e text, (b = true -> ~ P) -> (b = false -> P) -> is_test (if b then Some (e, text) else None) (required P e text).
Proof.
  intros b P e text H1 H2 r. unfold required. destruct b.
  - specialize (H1 eq_refl). split; [intros <-; auto|intros [[Q _]|[_ ->]]; tauto].
  - specialize (H2 eq_refl). split; [intros <-; auto|intros [[_ ->]|[N _]]; tauto].
Qed.
Lemma each_test2 : forall {A B C} (g : pyval -> answer C) (f : C -> answer B) (P : pyval -> test) (l : list pyval) (l2 : list C) (x0 : A), Forall2 (fun x y => g x = Gives y) l l2 -> (forall x y, g x = Gives y -> is_test (says_of (f y)) (P x)) ->
  is_test (says_of (all_say f l2)) (each P (PList l)).
Proof.
  intros A B C g f P l l2 _ H T. assert (Q : all_say f l2 = all_say (fun x => match g x with Gives y => f y | Says e t => Says e t end) l).
  { induction H as [|x y l l2 G H IH]; [reflexivity|]. cbn [all_say]. rewrite G, IH. reflexivity. }
  rewrite Q. clear Q. assert (I : forall x, In x l -> exists y, g x = Gives y).
  { clear -H. induction H; intros z []; [subst; eauto|auto]. }
  clear H l2. revert I. intros I r. unfold each. transitivity (Forall (fun x => P x None) l /\ r = None \/ exists pre x post e text, l = pre ++ x :: post /\ Forall (fun x => P x None) pre /\ P x (Some (e, text)) /\ r = Some (e, text)).
  2: { split; [eauto|]. intros (l' & Q & H). injection Q as <-. exact H. }
  induction l as [|x l IH]; cbn [all_say says_of].
  - split; [intros <-; left; auto|]. intros [[_ ->]|(pre & x & post & e & t & Q & _)]; [reflexivity|]. destruct pre; discriminate Q.
  - destruct (I x (or_introl eq_refl)) as (y & G). pose proof (T x y G) as TX. rewrite G. specialize (IH (fun z J => I z (or_intror J))). set (h := fun x => match g x with Gives y => f y | Says e t => Says e t end) in *.
    destruct (f y) as [w|e t]; cbn [abind says_of] in *.
    + transitivity (says_of (all_say h l) = r); [destruct (all_say h l); reflexivity|]. rewrite IH. assert (N : P x None) by now apply TX. split.
      * intros [[F ->]|(pre & z & post & e & t & -> & F & Z & ->)]; [left; auto|right]. exists (x :: pre), z, post, e, t. repeat split; auto.
      * intros [[F ->]|(pre & z & post & e & t & Q & F & Z & ->)]; [left; inversion F; auto|]. destruct pre as [|x' pre]; injection Q as <- ->; [apply TX in Z; discriminate|]. right. exists pre, z, post, e, t. inversion F; auto.
    + split.
      * intros <-. right. exists [], x, l, e, t. repeat split; auto. now apply TX.
      * intros [[F ->]|(pre & z & post & e' & t' & Q & F & Z & ->)]; [inversion F as [|? ? N]; apply TX in N; discriminate|]. destruct pre as [|x' pre]; injection Q as <- ->; [apply TX in Z; congruence|]. inversion F as [|? ? N]; apply TX in N; discriminate.
Qed.

(** *** Built-in functions *)
Lemma blank_iff : UniOk E -> forall s, strip_end (skip_spaces (map to_ascii s)) = [] <-> Forall space s.
Proof.
  intros HU s. pose proof (ascii_map HU s) as A. set (t := map to_ascii s) in *. rewrite <- (spaces_lift HU). fold t.
  destruct (skip_inv t A) as (w & Q & W & P). assert (A1 : ascii (skip_spaces t)) by (rewrite Q in A; apply Forall_app in A; apply A).
  destruct (strip_inv (skip_spaces t) A1) as (w' & Q' & W'). split.
  - intros N. rewrite N in Q'. cbn [app] in Q'. rewrite Q, Q'. now apply Forall_app.
  - intros F. apply (all_spaces_iff t A) in F. unfold all_spaces in F. destruct (skip_spaces t); [reflexivity|discriminate].
Qed.
Lemma int_read_iff : UniOk E -> forall repr v r, int_says repr v = r <-> int_read repr v r.
Proof.
  intros HU repr v. apply by_answer.
  - destruct (py_int v) as [n|e] eqn:Q; [exists (Gives n); apply int_given; now apply (py_int_iff HU)|]. destruct v as [|b|z|f|s|l|d]; cbn [py_int] in Q; try discriminate.
    + eexists. apply (int_no_number repr PNone "NoneType"); [constructor|cbn; tauto].
    + destruct f as [b|b| |b m x]; try discriminate; eexists; [now eapply int_infinite|now apply int_nan].
    + eexists. apply (int_literal repr (PStr s) s eq_refl). intros n I. apply (int_text_iff HU) in I. congruence.
    + eexists. apply (int_no_number repr (PList l) "list"); [constructor|cbn; tauto].
    + eexists. apply (int_no_number repr (PDict d) "dict"); [constructor|cbn; tauto].
  - intros r [n I|s -> N| ->|sign ->|t T I].
    + apply (py_int_iff HU) in I. now apply (unsaid_ok _ _ _ (same_read_int repr v)).
    + cbn [int_says]. unfold BasicSays.int_text. destruct (py_int_str 10 s) as [n|e] eqn:Q; [apply (int_text_iff HU) in Q; now apply N in Q|]. rewrite (py_int_str_err _ _ _ Q). reflexivity.
    + reflexivity.
    + destruct sign; reflexivity.
    + destruct T; cbn [In] in I; try (destruct I as [I|[I|[I|[]]]]; discriminate I); reflexivity.
Qed.
Lemma float_read_iff : UniOk E -> forall repr v r, float_says repr v = r <-> float_read repr v r.
Proof.
  intros HU repr v. apply by_answer.
  - destruct (py_float v) as [f|e] eqn:Q; [exists (Gives f); apply float_given; now apply (py_float_iff HU)|].
    assert (N : forall f, ~ float_of_value v f) by (intros f F; apply (py_float_iff HU) in F; congruence). destruct v as [|b|z|f|s|l|d]; cbn [py_float] in Q; try discriminate.
    + eexists. apply (float_no_number repr PNone "NoneType"); [constructor|cbn; tauto].
    + exfalso. destruct b; discriminate.
    + eexists. eapply float_large; eauto.
    + destruct (strip_end (skip_spaces (map to_ascii s))) eqn:B; eexists.
      * eapply float_blank; [reflexivity|]. now apply (blank_iff HU).
      * eapply float_literal; [reflexivity| |exact N]. intros F. apply (blank_iff HU) in F. congruence.
    + eexists. apply (float_no_number repr (PList l) "list"); [constructor|cbn; tauto].
    + eexists. apply (float_no_number repr (PDict d) "dict"); [constructor|cbn; tauto].
  - assert (X : forall s, (forall f, ~ float_text s f) -> py_float (PStr s) = Err ValueError).
    { intros s N. cbn [py_float]. destruct (py_float_str s) as [f|e] eqn:Q; [apply (float_text_iff HU) in Q; now apply N in Q|]. now rewrite (py_float_str_err _ _ Q). }
    intros r [f F|s -> B|s -> B N|z -> N|t T I]; unfold float_says.
    + apply (py_float_iff HU) in F. now rewrite F.
    + rewrite <- (blank_iff HU) in B. assert (Y : py_float (PStr s) = Err ValueError) by (cbn [py_float]; unfold py_float_str; rewrite B; reflexivity). rewrite Y. now rewrite B.
    + rewrite X by exact N. destruct (strip_end _) eqn:Q; [|reflexivity]. now apply (blank_iff HU) in Q.
    + destruct (py_float (PInt z)) as [f|e] eqn:Q; [apply (py_float_iff HU) in Q; now apply N in Q|]. cbn [py_float] in Q. unfold py_float_int in Q. destruct (SpecFloat.binary_normalize _ _ _ _ _); try discriminate. now injection Q as <-.
    + destruct T; cbn [In] in I; try (destruct I as [I|[I|[I|[]]]]; discriminate I); reflexivity.
Qed.

Lemma subscript_iff : forall repr v k r, subscript_says repr v k = r <-> subscripted repr v k r.
Proof.
  intros repr v k. apply by_answer.
  - destruct v as [|b|z|f|s|l|d].
    + eexists. apply (subscript_other repr PNone k "NoneType"); [constructor|cbn; tauto].
    + eexists. apply (subscript_other repr (PBool b) k "bool"); [constructor|cbn; tauto].
    + eexists. apply (subscript_other repr (PInt z) k "int"); [constructor|cbn; tauto].
    + eexists. apply (subscript_other repr (PFloat f) k "float"); [constructor|cbn; tauto].
    + eexists. now eapply subscript_str.
    + eexists. now eapply subscript_list.
    + destruct (dict_find (lit k) d) as [w|] eqn:F; eexists; [eapply subscript_found; [reflexivity|exact F]|eapply subscript_absent; [reflexivity|]]. unfold has. intros w. congruence.
  - intros r [d w -> H|d -> N|s ->|l ->|t T I]; cbn [subscript_says]; try reflexivity.
    + now apply item_has.
    + unfold item. destruct (dict_find (lit k) d) as [w|] eqn:F; [now elim (N w)|reflexivity].
    + destruct T; cbn [In] in I; try (destruct I as [I|[I|[I|[I|[]]]]]; discriminate I); reflexivity.
Qed.
Lemma iterated_iff : forall v r, items_says v = r <-> iterated v r.
Proof.
  intros v. apply by_answer.
  - destruct v as [|b|z|f|s|l|d].
    + eexists. apply (iterate_other PNone "NoneType"); [constructor|cbn; tauto].
    + eexists. apply (iterate_other (PBool b) "bool"); [constructor|cbn; tauto].
    + eexists. apply (iterate_other (PInt z) "int"); [constructor|cbn; tauto].
    + eexists. apply (iterate_other (PFloat f) "float"); [constructor|cbn; tauto].
    + eexists. now apply iterate_str.
    + eexists. now apply iterate_list.
    + eexists. now apply iterate_dict.
  - intros r [l ->|s ->|d ->|t T I]; cbn [items_says]; try reflexivity.
    + unfold dict_keys. now rewrite map_map.
    + destruct T; cbn [In] in I; try (destruct I as [I|[I|[I|[I|[]]]]]; discriminate I); reflexivity.
Qed.

(** *** Single values *)
Lemma whole_test : forall repr v, is_test (whole_check repr v) (a_whole repr v).
Proof. intros repr v r. apply c94_numbers. Qed.
Lemma range_test : forall repr v lo hi, is_test (domain_check repr v lo hi) (number_within repr lo hi v).
Proof. intros repr v lo hi r. apply c94_domain. Qed.
Lemma rate_test : UniOk E -> forall repr v, is_test (rate_check repr v) (a_rate repr v).
Proof. intros HU repr v r. apply (c94_decimal HU). Qed.
Lemma names_test : forall repr d keys, is_test (validate_lists_are_identical_says repr (dict_keys d) (map lit keys)) (same_names repr d keys).
Proof. intros repr d keys r. unfold same_names, required. apply (proj2 (proj2 c94_lists)). Qed.
Lemma names_there : forall repr d keys, validate_lists_are_identical_says repr (dict_keys d) (map lit keys) = None -> forall k, In k keys -> exists v, has d k v.
Proof.
  intros repr d keys H k I. apply names_test in H. destruct H as [[P _]|[_ H]]; [|discriminate]. apply in_keys. eapply Permutation_in; [apply Permutation_sym; exact P|]. now apply in_map.
Qed.
Lemma attribute_test : forall o v m P, attribute o v -> is_test m (P v) -> is_test m (fun r => exists v, attribute o v /\ P v r).
Proof.
  intros o v m P H T r. rewrite (T r). split; [eauto|]. intros (w & [->|[-> ->]] & F); destruct H as [H|[H ->]]; [injection H as ->; exact F|discriminate|discriminate|exact F].
Qed.
Lemma object_given : forall d m P, is_test m (P d) -> is_test m (object P (PDict d)).
Proof.
  intros d m P T r. rewrite (T r). unfold object. split; [eauto|]. intros [(d' & Q & F)|(t & N & _)]; [injection Q as <-; exact F|now elim (N d)].
Qed.

(** *** Inputs and outputs *)
Lemma index_agrees : UniOk E -> forall repr v, is_test (says_of (index_says repr v)) (index_test repr v).
Proof.
  intros HU repr v. unfold index_says, index_test. apply test_bind; [apply subscript_iff|]. intros w H.
  assert (D : exists d, v = PDict d) by (destruct v; try discriminate; eauto). destruct D as (d & ->).
  apply (is_test_eq (says_of (int_says repr w))); [apply no_more; now apply int_read_iff|destruct (int_says repr w); reflexivity].
Qed.
Lemma index_given : UniOk E -> forall repr v v', index_says repr v = Gives v' -> exists d w n, v = PDict d /\ has d "previous_output_index" w /\ NumSpec.int_value w n /\ v' = PDict (dict_set (lit "previous_output_index") (PInt n) d).
Proof.
  intros HU repr v v' H. unfold index_says in H. destruct (subscript_says repr v "previous_output_index") as [w|] eqn:S; cbn [abind] in H; [|discriminate]. destruct (int_says repr w) as [n|] eqn:N; cbn [abind] in H; [|discriminate].
  destruct v as [| | | | | |d]; try discriminate. injection H as <-. apply subscript_iff in S. apply (int_read_iff HU) in N. inversion S as [d' w' Q G| | | |]; subst. injection Q as <-. inversion N; subst. exists d, w, n. auto.
Qed.
Lemma int_value_fun : UniOk E -> forall v n n', NumSpec.int_value v n -> NumSpec.int_value v n' -> n = n'.
Proof. intros HU v n n' H H'. apply (py_int_iff HU) in H, H'. congruence. Qed.
Lemma read_test : UniOk E -> forall v n m P, NumSpec.int_value v n -> is_test m (P n) -> is_test m (fun r => exists n, NumSpec.int_value v n /\ P n r).
Proof. intros HU v n m P H T r. rewrite (T r). split; [eauto|]. intros (n' & H' & F). now rewrite (int_value_fun HU _ _ _ H H'). Qed.
Lemma has_set : forall d k k' v w, lit k <> lit k' -> has d k v -> has (dict_set (lit k') w d) k v.
Proof. unfold has. intros. rewrite find_set. destruct (str_eqb (lit k') (lit k)) eqn:Q; [apply str_eqb_eq in Q; congruence|assumption]. Qed.
Lemma input_order_agrees : HashOk E -> UniOk E -> forall repr v v', index_says repr v = Gives v' -> is_test (says_of (input_says repr v')) (input_order_test repr v).
Proof.
  intros HH HU repr v v' H. apply (index_given HU) in H as (d & w & n & -> & G & I & ->). unfold input_says, input_order_test. cbn [dict_says abind]. apply object_given.
  assert (K : dict_keys (dict_set (lit "previous_output_index") (PInt n) d) = dict_keys d) by (unfold dict_keys; eapply keys_set_present; exact G). rewrite K. clear K.
  apply agrees_check; [apply names_test|]. intros K. pose proof (names_there repr d _ K) as T. clear K.
  destruct (T "address"%string ltac:(cbn; tauto)) as (v1 & H1). destruct (T "transaction_id"%string ltac:(cbn; tauto)) as (v2 & H2). destruct (T "bitcoin_amount"%string ltac:(cbn; tauto)) as (v4 & H4). clear T.
  rewrite (item_has repr _ "address" v1) by (apply has_set; [discriminate|exact H1]). cbn [abind]. apply agrees_check; [apply (entry_test d _ v1 _ _ H1); now apply address_test|]. intros _.
  rewrite (item_has repr _ "transaction_id" v2) by (apply has_set; [discriminate|exact H2]). cbn [abind]. apply agrees_check; [apply (entry_test d _ v2 _ _ H2); apply hex_of_test|]. intros _.
  rewrite (item_has repr _ "previous_output_index" (PInt n)) by apply find_set_same. cbn [abind]. apply agrees_check; [apply (entry_test d _ w _ (fun v r => exists n, NumSpec.int_value v n /\ a_whole repr (PInt n) r) G); apply (read_test HU w n _ (fun n => a_whole repr (PInt n)) I); apply whole_test|]. intros _.
  rewrite (item_has repr _ "bitcoin_amount" v4) by (apply has_set; [discriminate|exact H4]). cbn [abind]. apply agrees_check; [apply (entry_test d _ v4 _ _ H4); now apply amount_test|]. intros _. apply agrees_end.
Qed.
Lemma amount_given : UniOk E -> forall repr v, validate_positive_bitcoin_amount_says repr v = None -> exists s t, v = PStr s /\ ensure_8_decimal_places_says s = Gives t.
Proof.
  intros HU repr v F. pose proof (same_positive_amount repr v) as S. rewrite F in S. cbn [outcome_of] in S. apply (positive_amount_iff HU) in S as (s & n & -> & H).
  destruct (ensure8_ok HU s n (proj1 H)) as (t & Q & _). exists s, t. split; [reflexivity|]. exact (unsaid_ok _ _ _ (same_eight s) Q).
Qed.
Lemma output_order_agrees : HashOk E -> UniOk E -> forall repr v, is_test (says_of (output_says repr v)) (output_order_test repr v).
Proof.
  intros HH HU repr v. unfold output_says, output_order_test. apply object_test. intros d _. apply agrees_check; [apply names_test|]. intros K. pose proof (names_there repr d _ K) as T. clear K.
  destruct (T "address"%string ltac:(cbn; tauto)) as (v1 & H1). destruct (T "bitcoin_amount"%string ltac:(cbn; tauto)) as (v2 & H2). clear T.
  rewrite (item_has repr _ _ _ H1). cbn [abind]. apply agrees_check; [apply (entry_test d _ v1 _ _ H1); now apply address_test|]. intros _.
  rewrite (item_has repr _ _ _ H2). cbn [abind]. apply agrees_check; [apply (entry_test d _ v2 _ _ H2); now apply amount_test|]. intros F.
  apply (amount_given HU) in F as (s & t & -> & Q). cbn [str_of]. rewrite Q. apply agrees_end.
Qed.

(** *** The design *)
Lemma readable_test : UniOk E -> forall repr d d' k, dict_find (lit k) d' = dict_find (lit k) d -> is_test (says_of (number_says repr k d')) (readable repr d k).
Proof.
  intros HU repr d d' k Q r. unfold number_says, readable, has. rewrite Q. destruct (dict_find (lit k) d) as [v|].
  2: { split; [intros <-; left; split; [congruence|reflexivity]|intros [[_ ->]|(s & H & _)]; [reflexivity|discriminate]]. }
  assert (X : (exists s, v = PStr s) \/ forall s, v <> PStr s) by (destruct v; solve [eauto|right; congruence]). destruct X as [(s & ->)|N].
  - pose proof (no_more (int_says repr (PStr s)) (int_read repr (PStr s)) (int_read_iff HU repr (PStr s)) r) as T. cbn [int_says] in T.
    transitivity (says_of (BasicSays.int_text repr 10 s) = r); [destruct (BasicSays.int_text repr 10 s); reflexivity|]. rewrite T. split; [intros H; right; eauto|]. intros [[N _]|(s' & Q' & H)]; [now elim (N s)|]. now injection Q' as <-.
  - transitivity (None = r); [destruct v; solve [reflexivity|now elim (N s)]|]. split; [intros <-; left; split; [congruence|reflexivity]|intros [[_ ->]|(s & H & _)]; [reflexivity|congruence]].
Qed.
Lemma number_given : forall repr k d d1, number_says repr k d = Gives d1 -> map fst d1 = map fst d /\ forall k', k' <> lit k -> dict_find k' d1 = dict_find k' d.
Proof.
  intros repr k d d1 H. unfold number_says in H. destruct (dict_find (lit k) d) as [v|] eqn:F; [|injection H as <-; auto]. destruct v as [| | | |s| |]; try (injection H as <-; auto).
  destruct (BasicSays.int_text repr 10 s) as [n|]; cbn [abind] in H; [|discriminate]. injection H as <-. split; [now apply (keys_set_present _ _ _ (PStr s))|]. intros k' N. now apply set_other.
Qed.
Definition rate_set (d : dict) : dict := match dict_find (lit "fee_rate") d with
  | Some (PInt z) => dict_set (lit "fee_rate") (PStr (py_str_int (PInt z))) d
  | Some (PBool b) => dict_set (lit "fee_rate") (PStr (py_str_int (PBool b))) d
  | _ => d end.
Lemma rate_given : forall d, map fst (rate_set d) = map fst d /\ forall k', k' <> lit "fee_rate" -> dict_find k' (rate_set d) = dict_find k' d.
Proof.
  intros d. unfold rate_set. destruct (dict_find (lit "fee_rate") d) as [v|] eqn:F; [|auto]. destruct v; auto; (split; [eapply keys_set_present; exact F|intros; now apply set_other]).
Qed.
Lemma adjust_agrees : UniOk E -> forall repr d, agrees (adjust_says repr d) [readable repr d "fee"; readable repr d "max_fee"].
Proof.
  intros HU repr d. unfold adjust_says. apply agrees_unit; [now apply readable_test|]. intros d1 H. fold (rate_set d1). apply agrees_last. apply (readable_test HU). rewrite (proj2 (rate_given d1)) by discriminate. now apply (number_given _ _ _ _ H).
Qed.
Lemma adjust_keys : forall repr d d1, adjust_says repr d = Gives d1 -> map fst d1 = map fst d.
Proof.
  intros repr d d1 H. unfold adjust_says in H. destruct (number_says repr "fee" d) as [d2|] eqn:N; cbn [abind] in H; [|discriminate]. fold (rate_set d2) in H. apply number_given in N as [N _], H as [H _]. rewrite H, (proj1 (rate_given d2)). exact N.
Qed.

(** What the adjusted design says. *)
Lemma as_number_given : UniOk E -> forall o o', adjusted_fee o = Some o' -> as_number (oget o) (oget o').
Proof.
  intros HU o o' H. destruct o as [v|]; [|injection H as <-; right; split; [discriminate|reflexivity]].
  destruct v as [| | | |s| |]; cbn [adjusted_fee] in H; try (injection H as <-; right; split; [discriminate|reflexivity]).
  destruct (py_int_str 10 s) as [n|] eqn:Q; [|discriminate]. injection H as <-. left. exists s, n. split; [reflexivity|]. split; [now apply (int_text_iff HU)|reflexivity].
Qed.
Lemma as_number_fun : UniOk E -> forall v w w', as_number v w -> as_number v w' -> w = w'.
Proof.
  intros HU v w w' [(s & n & -> & I & ->)|[N ->]] [(s' & n' & Q & I' & ->)|[N' ->]].
  - injection Q as <-. apply (int_text_iff HU) in I, I'. congruence.
  - now elim (N' s).
  - now elim (N s').
  - reflexivity.
Qed.
Lemma as_rate_given : forall o, as_rate (oget o) (oget (adjusted_rate o)).
Proof.
  intros [v|]; [|do 3 right; repeat split; discriminate]. destruct v as [|[]|z| | | |]; cbn [adjusted_rate oget]; unfold as_rate; try (do 3 right; repeat split; discriminate).
  - right. left. auto. - right. right. left. auto. - left. exists z. auto.
Qed.
Lemma as_rate_fun : forall v w w', as_rate v w -> as_rate v w' -> w = w'.
Proof.
  intros v w w' H H'. assert (X : forall u, as_rate v u -> u = match v with PInt z => PStr (int_str z) | PBool true => PStr (lit "True") | PBool false => PStr (lit "False") | _ => v end).
  { intros u [(z & -> & ->)|[[-> ->]|[[-> ->]|(N1 & N2 & ->)]]]; try reflexivity. destruct v as [|b|z| | | |]; try reflexivity; [now elim (N2 b)|now elim (N1 z)]. }
  now rewrite (X w H), (X w' H').
Qed.
Lemma entry_or_none_find : forall d k, entry_or_none d k (oget (dict_find (lit k) d)).
Proof. intros d k. unfold entry_or_none, has. destruct (dict_find (lit k) d) as [v|]; [left; reflexivity|right; split; [congruence|reflexivity]]. Qed.
Lemma entry_or_none_fun : forall d k v, entry_or_none d k v -> v = oget (dict_find (lit k) d).
Proof.
  intros d k v [H|[N ->]]; unfold has in *; [now rewrite H|]. destruct (dict_find (lit k) d) as [w|] eqn:F; [now elim (N w)|reflexivity].
Qed.
Lemma or_none_test : forall d k m P, is_test m (P (oget (dict_find (lit k) d))) -> is_test m (fun r => exists v, entry_or_none d k v /\ P v r).
Proof.
  intros d k m P T r. rewrite (T r). split; [intros F; eexists; split; [apply entry_or_none_find|exact F]|]. intros (v & H & F). now apply entry_or_none_fun in H as ->.
Qed.
Lemma fees_test : UniOk E -> forall d d1 m (P : pyval -> pyval -> test), adjust_design d = (Ok tt, d1) -> is_test m (P (get_or_none (lit "fee") d1) (get_or_none (lit "fee_rate") d1)) -> is_test m (with_fees d P).
Proof.
  intros HU d d1 m P A T r. destruct (adjust_design_inv d d1 A) as (D1 & D2 & _). rewrite (T r). unfold with_fees.
  assert (F : as_number (oget (dict_find (lit "fee") d)) (get_or_none (lit "fee") d1)) by (change (get_or_none (lit "fee") d1) with (oget (dict_find (lit "fee") d1)); now apply as_number_given).
  assert (G : as_rate (oget (dict_find (lit "fee_rate") d)) (get_or_none (lit "fee_rate") d1)) by (change (get_or_none (lit "fee_rate") d1) with (oget (dict_find (lit "fee_rate") d1)); rewrite D2; apply as_rate_given).
  split.
  - intros H. exists (oget (dict_find (lit "fee") d)), (get_or_none (lit "fee") d1), (oget (dict_find (lit "fee_rate") d)), (get_or_none (lit "fee_rate") d1). auto using entry_or_none_find.
  - intros (v & fee & w & rate & H1 & H2 & H3 & H4 & H). apply entry_or_none_fun in H1, H3. subst v w. rewrite (as_number_fun HU _ _ _ F H2), (as_rate_fun _ _ _ G H4). exact H.
Qed.

Lemma percentage_agrees : UniOk E -> forall repr v, is_test (both (abind (float_says repr v) (fun f => int_says repr (PFloat f))) (fun n => domain_check repr (PInt n) 0 100))
  (answers (float_read repr v) (fun f => answers (int_read repr (PFloat f)) (fun n => number_within repr 0 100 (PInt n)))).
Proof.
  intros HU repr v. replace (both _ _) with (both (float_says repr v) (fun f => both (int_says repr (PFloat f)) (fun n => domain_check repr (PInt n) 0 100))) by (destruct (float_says repr v); reflexivity).
  apply both_test; [now apply float_read_iff|]. intros f _. apply both_test; [now apply int_read_iff|]. intros n _. apply range_test.
Qed.
Lemma head_agrees : HashOk E -> UniOk E -> forall repr d d1, adjust_says repr d = Gives d1 ->
  agrees (head_says repr d1)
   [ all_entries d ["change_address"; "max_fee"; "max_spend_percentage"; "outputs"]%string;
     DocSaysSpec.entry d "change_address" (an_address repr);
     DocSaysSpec.entry d "max_fee" (fun v r => exists w, as_number v w /\ a_whole repr w r);
     DocSaysSpec.entry d "max_spend_percentage" (fun v => answers (float_read repr v) (fun f => answers (int_read repr (PFloat f)) (fun n => number_within repr 0 100 (PInt n))));
     DocSaysSpec.entry d "outputs" (a_list repr) ].
Proof.
  intros HH HU repr d d1 A. pose proof (adjust_keys repr d d1 A) as K. pose proof (adjust_same repr d) as S. rewrite A in S. destruct (adjust_design_inv d d1 S) as (_ & _ & D3 & D4). clear S.
  unfold head_says. unfold dict_keys. rewrite K. apply agrees_check; [apply entries_test|]. intros KT. pose proof (entries_there d _ KT) as T. clear KT K.
  destruct (T "change_address"%string ltac:(cbn; tauto)) as (v1 & H1). destruct (T "max_fee"%string ltac:(cbn; tauto)) as (v2 & H2). destruct (T "max_spend_percentage"%string ltac:(cbn; tauto)) as (v3 & H3). destruct (T "outputs"%string ltac:(cbn; tauto)) as (v4 & H4). clear T.
  rewrite (item_has repr d1 "change_address" v1) by (unfold has; now rewrite D4 by discriminate). cbn [abind].
  unfold has in H2. rewrite H2 in D3. pose proof (as_number_given HU _ _ D3) as N. cbn [oget] in N.
  assert (M : exists w, dict_find (lit "max_fee") d1 = Some w).
  { destruct (dict_find (lit "max_fee") d1) as [w|]; [eauto|]. exfalso. destruct v2; cbn [adjusted_fee] in D3; try discriminate. destruct (py_int_str 10 s); discriminate. }
  destruct M as (w & M). rewrite M in N. cbn [oget] in N. rewrite (item_has repr d1 "max_fee" w M). cbn [abind].
  rewrite (item_has repr d1 "max_spend_percentage" v3) by (unfold has; now rewrite D4 by discriminate). cbn [abind]. rewrite (item_has repr d1 "outputs" v4) by (unfold has; now rewrite D4 by discriminate). cbn [abind].
  apply agrees_check; [apply (entry_test d _ v1 _ _ H1); now apply address_test|]. intros _.
  apply agrees_check.
  { apply (entry_test d _ v2 _ _ H2). intros r. rewrite (whole_test repr w r). split; [eauto|]. intros (w' & N' & F). now rewrite (as_number_fun HU _ _ _ N N'). }
  intros _. apply (agrees_cons _ (both (abind (float_says repr v3) (fun f => int_says repr (PFloat f))) (fun n => domain_check repr (PInt n) 0 100))).
  - apply (entry_test d _ v3 _ _ H3). now apply percentage_agrees.
  - intros e t. destruct (float_says repr v3) as [f|e' t']; cbn [abind both says_of]; [|auto]. destruct (int_says repr (PFloat f)) as [n|e' t']; cbn [abind both says_of]; [|auto]. intros ->. reflexivity.
  - destruct (float_says repr v3) as [f|e' t']; cbn [abind both]; [|discriminate]. destruct (int_says repr (PFloat f)) as [n|e' t']; cbn [abind both]; [|discriminate]. intros ->. cbn [check].
    apply agrees_check; [apply (entry_test d _ v4 _ _ H4); apply list_test|]. intros _. apply agrees_end.
Qed.
Lemma head_given : UniOk E -> forall repr d d1 lo, adjust_says repr d = Gives d1 -> head_says repr d1 = Gives lo -> has d "outputs" (PList lo) /\
  exists v f, has d "max_spend_percentage" v /\ has d1 "max_spend_percentage" v /\ float_says repr v = Gives f /\ (exists ca, has d1 "change_address" ca) /\ (exists mf, has d1 "max_fee" mf).
Proof.
  intros HU repr d d1 lo A H. pose proof (adjust_same repr d) as S. rewrite A in S. destruct (adjust_design_inv d d1 S) as (_ & _ & _ & D4). clear S. unfold head_says in H.
  destruct (validate_list_contains_items_says _ _) as [[e t]|]; cbn [check] in H; [discriminate|]. unfold item in H.
  destruct (dict_find (lit "change_address") d1) as [v1|] eqn:H1; cbn [abind] in H; [|discriminate]. destruct (dict_find (lit "max_fee") d1) as [v2|] eqn:H2; cbn [abind] in H; [|discriminate].
  destruct (dict_find (lit "max_spend_percentage") d1) as [v3|] eqn:H3; cbn [abind] in H; [|discriminate]. destruct (dict_find (lit "outputs") d1) as [v4|] eqn:H4; cbn [abind] in H; [|discriminate].
  destruct (validate_bitcoin_address_says repr v1) as [[e t]|]; cbn [check] in H; [discriminate|]. destruct (whole_check repr v2) as [[e t]|]; cbn [check] in H; [discriminate|].
  destruct (float_says repr v3) as [f|] eqn:F; cbn [abind] in H; [|discriminate]. destruct (int_says repr (PFloat f)) as [n|]; cbn [abind] in H; [|discriminate]. destruct (domain_check repr (PInt n) 0 100) as [[e t]|]; cbn [check] in H; [discriminate|].
  pose proof (same_list repr v4) as S. destruct (list_check repr v4) as [[e t]|]; cbn [check] in H; [discriminate|]. injection H as <-.
  rewrite D4 in H4 by discriminate. destruct v4; try discriminate. cbn [list_of]. split; [exact H4|]. exists v3, f. unfold has. rewrite <- (D4 (lit "max_spend_percentage")) by discriminate. eauto 10.
Qed.

(** *** Fees, approaches, options *)
Lemma not_false_test : forall v m P, is_test m (P v) -> is_test (if truthy v then m else None) (unless_false P v).
Proof.
  intros v m P T r. unfold unless_false. rewrite <- falsy_iff. destruct (truthy v).
  - rewrite (T r). split; [intros H; right; split; [discriminate|exact H]|]. intros [[Q _]|[_ H]]; [discriminate|exact H].
  - split; [intros <-; left; auto|]. intros [[_ ->]|[N _]]; [reflexivity|congruence].
Qed.
Lemma none_iff : forall v, is_none v = true <-> v = PNone.
Proof. intros []; split; intros H; try reflexivity; discriminate. Qed.
Lemma true_iff : forall v, truthy v = true <-> ~ counts_as_false v.
Proof. intros v. rewrite <- falsy_iff. destruct (truthy v); split; congruence. Qed.
Lemma fees_agree : UniOk E -> forall repr d d1, adjust_design d = (Ok tt, d1) -> agrees (fees_says repr (get_or_none (lit "fee") d1) (get_or_none (lit "fee_rate") d1))
  [ with_fees d (fun fee rate => required (~ (~ counts_as_false fee /\ ~ counts_as_false rate) /\ ~ (fee = PNone /\ rate = PNone)) ValueError
      (lit "Design must contain exactly one of these keys:" ++ [10] ++ lit "- fee (integer)" ++ [10] ++ lit "- fee_rate (integer or decimal)"));
    with_fees d (fun fee _ => unless_false (a_whole repr) fee);
    with_fees d (fun _ rate => unless_false (a_rate repr) rate) ].
Proof.
  intros HU repr d d1 A. unfold fees_says. apply agrees_check.
  { apply (fees_test HU d d1 _ _ A). apply required_test.
    - intros H. rewrite <- !true_iff, <- !none_iff. apply orb_true_iff in H as [H|H]; apply andb_true_iff in H as [H1 H2]; rewrite H1, H2; tauto.
    - intros H. rewrite <- !true_iff, <- !none_iff. apply orb_false_iff in H as [H1 H2]. apply andb_false_iff in H1, H2. split; intros [Q1 Q2]; [destruct H1; congruence|destruct H2; congruence]. }
  intros _. apply agrees_check; [apply (fees_test HU d d1 _ (fun fee _ => unless_false (a_whole repr) fee) A); apply not_false_test; apply whole_test|].
  intros _. apply agrees_check; [apply (fees_test HU d d1 _ (fun _ rate => unless_false (a_rate repr) rate) A); apply not_false_test; now apply rate_test|]. intros _. apply agrees_end.
Qed.
Lemma contains_list : forall l x, contains (PList l) (PStr (lit x)) <-> in_approaches x l = true.
Proof. intros l x. rewrite in_approaches_iff. unfold contains. split; [intros (l' & Q & I); injection Q as <-; exact I|eauto]. Qed.
Lemma conflict_test : forall l x y, is_test (conflict_check l x y) (no_conflict (PList l) x y).
Proof.
  intros l x y. unfold conflict_check, no_conflict. apply required_test; rewrite !contains_list.
  - intros H N. apply N. now apply andb_true_iff.
  - intros H [Q1 Q2]. rewrite Q1, Q2 in H. discriminate.
Qed.
Lemma approaches_agree : forall repr v, is_test (says_of (approaches_says repr v)) (unless_false (approaches_test repr) v).
Proof.
  intros repr v. unfold approaches_says. cbv zeta.
  match goal with |- is_test (says_of (if negb (truthy v) then Gives tt else ?k)) _ => apply (is_test_eq (if truthy v then says_of k else None)); [|destruct (truthy v); reflexivity]; apply not_false_test end.
  unfold approaches_test. apply agrees_check; [apply list_test|]. intros F. pose proof (same_list repr v) as S. rewrite F in S. destruct v as [| | | | |l|]; try discriminate. cbn [list_of]. clear F S.
  apply agrees_check.
  { apply required_test.
    - intros H N. apply existsb_exists in H as (x & I & H). destruct (N x) as (n & -> & J); [exists l; auto|]. rewrite (proj2 (known_iff (PStr n))) in H by eauto. discriminate.
    - intros H x (l' & Q & I). injection Q as <-. apply known_iff. destruct (existsb (py_eq_str x) available_approaches) eqn:X; [reflexivity|].
      assert (existsb (fun v => negb (existsb (py_eq_str v) available_approaches)) l = true); [|congruence]. apply existsb_exists. exists x. rewrite X. auto. }
  intros _. apply agrees_check.
  { apply required_test; rewrite contains_list.
    - intros H N. apply andb_true_iff in H as [H1 H2]. destruct (N H1) as (x & Q). injection Q as ->. discriminate.
    - intros H M. rewrite M in H. cbn [andb] in H. apply in_approaches_iff in M. destruct l as [|x [|y l]]; [destruct M|eauto|discriminate]. }
  intros _. apply agrees_check; [apply conflict_test|]. intros _. apply agrees_check; [apply conflict_test|]. intros _. apply agrees_check; [apply conflict_test|]. intros _. apply agrees_end.
Qed.
Lemma option_agrees : forall o m (P : pyval -> test), (forall v, is_test (m v) (P v)) -> is_test (match o with None | Some PNone => None | Some v => m v end) (fun r => exists v, attribute o v /\ if_present P v r).
Proof.
  intros o m P T. destruct o as [v|].
  - apply (attribute_test _ v); [left; reflexivity|]. apply (is_test_eq (if is_none v then None else m v)); [apply present_test, T|destruct v; reflexivity].
  - apply (attribute_test _ PNone); [right; auto|]. apply (is_test_eq (if is_none PNone then None else m PNone)); [apply present_test, T|reflexivity].
Qed.
Lemma options_agree : forall repr a, agrees (options_says repr a)
  [ (fun r => exists v, attribute (ns_allow_duplicate_output_address a) v /\ if_present (a_bool repr) v r);
    (fun r => exists v, attribute (ns_change_output_index a) v /\ if_present (a_whole repr) v r) ].
Proof.
  intros repr a. unfold options_says. apply agrees_check; [apply option_agrees; apply bool_test|]. intros _. apply agrees_check; [apply option_agrees; apply whole_test|]. intros _. apply agrees_end.
Qed.

(** *** What is made of the inputs and outputs, and the approach *)
Definition taken (repr : pyval -> pystr) (v : pyval) : answer pyval := abind (index_says repr v) (fun v2 => abind (input_says repr v2) (fun _ => satoshi_says repr v2)).
Lemma make_test : HashOk E -> ZeroAddressOk E -> UniOk E -> forall repr v v4, taken repr v = Gives v4 -> is_test (says_of (make_input_says repr v4)) (fits_test repr v).
Proof.
  intros HH HZ HU repr v v4 H. unfold taken in H. destruct (index_says repr v) as [v2|] eqn:H1; cbn [abind] in H; [|discriminate]. destruct (input_says repr v2) as [u|] eqn:H2; cbn [abind] in H; [|discriminate].
  pose proof (index_same repr v) as A. rewrite H1 in A. pose proof (input_same repr v2) as V. rewrite H2 in V. destruct u. cbn [unsaid] in V.
  destruct (input_steps_inv HH HZ HU v v2 A V) as (i & IA). destruct (input_steps_ok HH HZ HU v i IA) as (d & -> & S1 & _ & S3 & S4). rewrite A in S1. injection S1 as ->.
  pose proof (satoshi_same repr (PDict (adjusted_input d i))) as S. rewrite H in S. rewrite S3 in S. injection S as <-.
  destruct IA as (d' & vi & s & Q & _ & F1 & AD & F2 & B & L & F3 & I & I0 & _ & AA). injection Q as <-. pose proof (amount_arg_bounds HU _ _ AA) as AB.
  unfold fits_test. apply object_given. apply (entry_test d _ vi _ (fun v r => exists n, NumSpec.int_value v n /\ answers (le_number repr 4 (PInt n)) no_test r) F3). apply (read_test HU vi (ia_index i) _ (fun n => answers (le_number repr 4 (PInt n)) no_test) I).
  assert (Q : make_input_says repr (PDict (final_input d i)) = txin_create_says repr (PStr (ia_address i)) (PStr (hex_of (ia_txid i))) (PInt (ia_index i)) (ia_value i)).
  { unfold make_input_says. cbn [subscript_says]. unfold item, final_input, adjusted_input. rewrite !find_set.
    replace (str_eqb (lit "satoshi_amount") (lit "address")) with false by reflexivity. replace (str_eqb (lit "previous_output_index") (lit "address")) with false by reflexivity.
    replace (str_eqb (lit "satoshi_amount") (lit "transaction_id")) with false by reflexivity. replace (str_eqb (lit "previous_output_index") (lit "transaction_id")) with false by reflexivity.
    replace (str_eqb (lit "satoshi_amount") (lit "previous_output_index")) with false by reflexivity. replace (str_eqb (lit "previous_output_index") (lit "previous_output_index")) with true by reflexivity.
    replace (str_eqb (lit "satoshi_amount") (lit "satoshi_amount")) with true by reflexivity. rewrite F1, F2. reflexivity. }
  rewrite Q. clear Q S3 S4 H A V H1 H2.
  apply (is_test_eq (says_of (le_field_says repr (PInt (ia_index i)) 4))); [apply no_more; intros r; apply (le_number_iff repr 4); lia|].
  pose proof (txin_create_same repr (PStr (ia_address i)) (PStr (hex_of (ia_txid i))) (PInt (ia_index i)) (ia_value i)) as TS. destruct AD as (h & AD).
  assert (C1 : validate_bitcoin_address_says repr (PStr (ia_address i)) = None) by (eapply outcome_ok; [apply same_validate_address|now apply (validate_address_ok HH HZ h)]).
  assert (C2 : hex_length_check repr (PStr (hex_of (ia_txid i))) 32 = None) by (eapply outcome_ok; [apply (same_length repr _ 32)|now apply validate_hex_length_ok]).
  destruct (le_field_says repr (PInt (ia_index i)) 4) as [x|e t] eqn:LF.
  - apply (le_number_iff repr 4) in LF; [|lia]. inversion LF as [z IV ZB| | ]; subst. assert (z = ia_index i) by (apply int_value_as in IV; cbn [as_int] in IV; congruence). subst z.
    destruct (make_input_exists HU i) as (y & Y); [split; [exists h; exact AD|]; split; [exact B|]; split; [exact L|]; split; [lia|exact AB]|change (256 ^ Z.of_nat 4) with (2 ^ 32) in *; lia|].
    assert (X : txin_create (PStr (ia_address i)) (PStr (hex_of (ia_txid i))) (PInt (ia_index i)) (ia_value i) = Ok y) by (apply (txin_create_iff HH HZ HU); eauto).
    rewrite (unsaid_ok _ _ _ TS X). reflexivity.
  - unfold txin_create_says. rewrite C1, C2. cbn [check]. assert (R : reverse_hex_order_says repr (PStr (hex_of (ia_txid i))) = Gives (hex_of (rev (ia_txid i)))) by (eapply unsaid_ok; [apply same_reverse|now apply reverse_hex_order_ok]).
    rewrite R. cbn [abind]. replace (integer_check repr (PInt (ia_index i))) with (@None (exn * pystr)) by reflexivity. cbn [check]. rewrite LF. reflexivity.
Qed.
Lemma satoshi_total : HashOk E -> ZeroAddressOk E -> UniOk E -> forall repr v v2, index_says repr v = Gives v2 -> input_says repr v2 = Gives tt -> exists v4, satoshi_says repr v2 = Gives v4.
Proof.
  intros HH HZ HU repr v v2 H1 H2. pose proof (index_same repr v) as A. rewrite H1 in A. pose proof (input_same repr v2) as V. rewrite H2 in V. cbn [unsaid] in V.
  destruct (input_steps_inv HH HZ HU v v2 A V) as (i & IA). destruct (input_steps_ok HH HZ HU v i IA) as (d & -> & S1 & _ & S3 & _). rewrite A in S1. injection S1 as ->.
  pose proof (satoshi_same repr (PDict (adjusted_input d i))) as S. rewrite S3 in S. destruct (satoshi_says repr _) as [v4|]; [eauto|discriminate].
Qed.
Lemma output_total : HashOk E -> ZeroAddressOk E -> UniOk E -> forall repr v v2, output_says repr v = Gives v2 -> exists v4 y, satoshi_says repr v2 = Gives v4 /\ make_output_says repr v4 = Gives y.
Proof.
  intros HH HZ HU repr v v2 H. pose proof (output_same repr v) as A. rewrite H in A. destruct (output_steps_inv HH HZ HU v v2 A) as (o & OA). destruct (output_steps_ok HH HZ HU v o OA) as (d & s & -> & S1 & S2 & S3).
  rewrite A in S1. injection S1 as ->. pose proof (satoshi_same repr (PDict (adjusted_output d s))) as S. rewrite S2 in S. destruct (satoshi_says repr _) as [v4|] eqn:Q; [|discriminate]. assert (QV : v4 = PDict (final_output d s (oa_value o))) by congruence. subst v4. clear S.
  destruct OA as (d' & s' & _ & _ & _ & AD & _ & AA). destruct (make_output_exists HU o) as (y & Y); [split; [exact AD|exact (amount_arg_bounds HU _ _ AA)]|].
  exists (PDict (final_output d s (oa_value o))), y. split; [reflexivity|]. eapply unsaid_ok; [eapply make_output_same; exact Q|]. rewrite S3. apply (txout_create_iff HH HZ HU). eauto.
Qed.
Lemma all_given : forall {A B} (f : A -> answer B) l, Forall (fun x => exists y, f x = Gives y) l -> exists l', all_say f l = Gives l'.
Proof. intros A B f l H. induction H as [|x l (y & Q) H [l' IH]]; [exists []; reflexivity|]. exists (y :: l'). cbn [all_say]. rewrite Q, IH. reflexivity. Qed.
Lemma F2_outer : forall {A B} (R : A -> B -> Prop) l l', Forall2 R l l' -> Forall (fun y => exists x, R x y) l'.
Proof. intros A B R l l' H. induction H; constructor; eauto. Qed.

Lemma says_by : forall {A} (R : test) (m : answer A), (exists r, R r) -> (forall r, R r -> says_of m = r) -> is_test (says_of m) R.
Proof. intros A R m (r & T) S q. split; [intros <-; now rewrite (S r T)|auto]. Qed.
Lemma names_three : forall n, (exists ap, n = approach_name ap) \/ (forall ap, n <> approach_name ap) /\ py_eq_str (PStr n) (lit "largest_first") = false /\ py_eq_str (PStr n) (lit "smallest_first") = false /\ py_eq_str (PStr n) (lit "all") = false.
Proof.
  intros n. cbn [py_eq_str]. destruct (str_eqb n (lit "largest_first")) eqn:Q1; [left; exists LargestFirst; now apply str_eqb_eq|]. destruct (str_eqb n (lit "smallest_first")) eqn:Q2; [left; exists SmallestFirst; now apply str_eqb_eq|].
  destruct (str_eqb n (lit "all")) eqn:Q3; [left; exists All; now apply str_eqb_eq|]. right. split; [|auto]. apply str_eqb_neq in Q1, Q2, Q3. intros []; assumption.
Qed.
Lemma chosen_test : forall repr v, approaches_says repr v = Gives tt -> is_test (says_of (choose_says repr v)) (one_used repr v).
Proof.
  intros repr v H. assert (T : truthy v = true -> exists l, v = PList l /\ forall x, In x l -> exists n, x = PStr n).
  { intros T. pose proof (proj1 (approaches_agree repr v None)) as X. rewrite H in X. specialize (X eq_refl). destruct X as [[F _]|[_ X]]; [apply falsy_iff in F; congruence|].
    unfold approaches_test in X. inversion X as [| |? ? ? X1 X2]; subst. inversion X2 as [| |? ? ? X3 _]; subst.
    apply list_test in X1. pose proof (same_list repr v) as S. rewrite X1 in S. destruct v as [| | | | |l|]; try discriminate. exists l. split; [reflexivity|].
    intros x I. destruct X3 as [[X3 _]|[_ X3]]; [|discriminate]. destruct (X3 x) as (n & -> & _); [exists l; auto|]. eauto. }
  apply says_by.
  - destruct v as [|b|z|f|[|c s]|[|x [|y l]]|[|p d]].
    + eexists. apply (used_no_list repr PNone "NoneType"); [constructor|cbn; tauto].
    + eexists. apply (used_no_list repr (PBool b) "bool"); [constructor|cbn; tauto].
    + eexists. apply (used_no_list repr (PInt z) "int"); [constructor|cbn; tauto].
    + eexists. apply (used_no_list repr (PFloat f) "float"); [constructor|cbn; tauto].
    + eexists. now apply used_empty_str.
    + destruct (T eq_refl) as (l & Q & _). discriminate.
    + eexists. now apply used_empty.
    + destruct (T eq_refl) as (l & Q & N). injection Q as <-. destruct (N x) as (n & ->); [left; reflexivity|]. destruct (names_three n) as [(ap & ->)|(N3 & _)]; eexists; [now eapply used_one|now eapply used_other].
    + eexists. now eapply used_many.
    + eexists. now apply used_empty_dict.
    + destruct (T eq_refl) as (l & Q & _). discriminate.
  - intros r [ap ->|t C I| -> | -> | -> |x y l ->|n -> N].
    + destruct ap; reflexivity.
    + destruct C; cbn [In] in I; try (destruct I as [I|[I|[I|[I|[]]]]]; discriminate I); reflexivity.
    + reflexivity. + reflexivity. + reflexivity. + reflexivity.
    + destruct (names_three n) as [(ap & ->)|(_ & Q1 & Q2 & Q3)]; [now elim (N ap)|]. cbn [choose_says]. rewrite Q1, Q2, Q3. reflexivity.
Qed.

(** *** All together *)
Lemma abind_assoc : forall {A B C} (m : answer A) (f : A -> answer B) (g : B -> answer C), abind (abind m f) g = abind m (fun x => abind (f x) g).
Proof. intros A B C [x|e t] f g; reflexivity. Qed.
Lemma check_abind : forall {A B} c (k : answer A) (f : A -> answer B), abind (check c k) f = check c (abind k f).
Proof. intros A B [[e t]|] k f; reflexivity. Qed.
Lemma agrees_three : forall {A B C D} (m : answer A) (f : A -> answer B) (g : B -> answer C) (h : C -> answer D) ts,
  agrees (abind (abind m f) (fun y => abind (g y) h)) ts -> agrees (abind m (fun x => abind (abind (f x) g) h)) ts.
Proof. intros A B C D m f g h ts H. destruct m as [x|e t]; cbn [abind] in *; [now rewrite abind_assoc|exact H]. Qed.
Lemma named_test : forall attrs keys, is_test (validate_list_contains_items_says attrs (map lit keys)) (all_entries (map (fun k => (k, PNone)) attrs) keys).
Proof.
  intros attrs keys. pose proof (entries_test (map (fun k => (k, PNone)) attrs) keys) as T. unfold dict_keys in T. rewrite map_map in T. cbn [fst] in T. rewrite map_id in T. exact T.
Qed.
Lemma front_agrees : HashOk E -> ZeroAddressOk E -> UniOk E -> forall repr attrs a, is_test (says_of (front_says repr attrs a)) (argument_test repr attrs a).
Proof.
  intros HH HZ HU repr attrs a. unfold front_says, prepare_says, argument_test. cbv zeta. rewrite check_abind. apply agrees_check; [apply named_test|]. intros _. apply agrees_last.
  assert (AD : attribute (ns_design a) match ns_design a with Some v => v | None => PNone end) by (destruct (ns_design a); [left|right]; auto).
  apply (attribute_test _ _ _ (object (fun d => first_of (order_tests repr a d))) AD). rewrite abind_assoc. apply object_test. intros d _. clear AD. unfold order_tests.
  set (vin := match ns_inputs a with Some v => v | None => PNone end). assert (AI : attribute (ns_inputs a) vin) by (subst vin; destruct (ns_inputs a); [left|right]; auto). clearbody vin. cbv zeta.
  rewrite abind_assoc. apply (agrees_app (adjust_says repr d) _ [readable repr d "fee"; readable repr d "max_fee"]); [now apply adjust_agrees|]. intros d1 A. cbv beta.
  pose proof (adjust_same repr d) as AS. rewrite A in AS. destruct (adjust_design_inv d d1 AS) as (_ & _ & _ & D4).
  rewrite abind_assoc. cbv beta.
  apply (agrees_three (items_says vin) (all_say (index_says repr))).
  apply agrees_unit.
  { apply (attribute_test _ vin _ (fun v => answers (iterated v) (every (index_test repr))) AI). apply test_bind; [apply iterated_iff|]. intros l _. unfold every. apply each_test. now apply index_agrees. }
  intros l2 L2. rewrite check_abind. apply agrees_check; [apply (attribute_test _ vin _ _ AI), list_test|]. intros VL.
  assert (LL : exists l, vin = PList l) by (pose proof (same_list repr vin) as S; rewrite VL in S; destruct vin; try discriminate; eauto). destruct LL as (l & ->). cbn [items_says abind] in L2. clear VL. pose proof (all_say_F2 _ _ _ L2) as F2. clear L2.
  rewrite abind_assoc. apply agrees_unit.
  { apply (attribute_test _ (PList l) _ _ AI). apply (each_test2 (index_says repr) (input_says repr) (input_order_test repr) l l2 tt F2). now apply input_order_agrees. }
  intros us US. rewrite abind_assoc.
  match goal with |- agrees _ (?t1 :: ?t2 :: ?t3 :: ?t4 :: ?t5 :: ?ts) => apply (agrees_app (head_says repr d1) _ [t1; t2; t3; t4; t5]); [now apply head_agrees|] end. intros lo HD. cbv beta.
  destruct (head_given HU _ _ _ _ A HD) as (HO & sp & f & SP & SP1 & FS & (ca & CA) & (mf & MF)). clear HD.
  rewrite abind_assoc. apply agrees_unit.
  { apply (entry_test d "outputs" (PList lo) _ (each (output_order_test repr)) HO). apply each_test. now apply output_order_agrees. }
  intros lo2 O2. pose proof (all_say_F2 _ _ _ O2) as OF. clear O2. rewrite abind_assoc.
  match goal with |- agrees _ (?t1 :: ?t2 :: ?t3 :: ?ts) => apply (agrees_app (fees_says repr _ _) _ [t1; t2; t3]); [now apply fees_agree|] end. intros u1 FE. cbv beta. destruct u1.
  rewrite abind_assoc. apply agrees_unit.
  { apply (or_none_test d "input_selection_approaches" _ (unless_false (approaches_test repr))). unfold get_or_none. rewrite D4 by discriminate. apply approaches_agree. }
  intros u2 AP. destruct u2. rewrite abind_assoc.
  match goal with |- agrees _ (?t1 :: ?t2 :: ?ts) => apply (agrees_app (options_says repr a) _ [t1; t2]); [apply options_agree|] end. intros u3 OP. cbv beta. clear u3 OP.
  rewrite (item_has _ _ _ _ CA). cbn [abind]. rewrite (item_has _ _ _ _ MF). cbn [abind]. rewrite (item_has _ _ _ _ SP1). cbn [abind]. rewrite FS. cbn [abind].
  rewrite abind_assoc. apply agrees_unit.
  { apply (fees_test HU d d1 _ (fun fee rate r => ~ counts_as_false fee /\ r = None \/ counts_as_false fee /\ answers (float_read repr rate) no_test r) AS).
    set (fee := get_or_none (lit "fee") d1). intros r. rewrite <- (falsy_iff fee). destruct (truthy fee); cbn [says_of].
    - split; [intros <-; left; split; [discriminate|reflexivity]|intros [[_ ->]|[Q _]]; [reflexivity|discriminate]].
    - transitivity (says_of (float_says repr (get_or_none (lit "fee_rate") d1)) = r); [destruct (float_says repr (get_or_none (lit "fee_rate") d1)); reflexivity|]. rewrite (no_more _ (float_read repr _) (float_read_iff HU repr (get_or_none (lit "fee_rate") d1)) r).
      split; [intros H; right; auto|intros [[N _]|[_ H]]; [congruence|exact H]]. }
  intros rate RT. rewrite abind_assoc.
  assert (UF : Forall (fun x => input_says repr x = Gives tt) l2) by (apply all_say_F2 in US; clear - US; induction US as [|x [] xs ys Q US IH]; constructor; auto).
  assert (TK : exists l4, all_say (satoshi_says repr) l2 = Gives l4 /\ Forall2 (fun v w => taken repr v = Gives w) l l4).
  { clear - F2 UF HH HZ HU. induction F2 as [|v v2 l l2 H1 F2 IH]; [exists []; split; [reflexivity|constructor]|]. inversion UF as [|? ? H2 UF2]; subst. destruct (IH UF2) as (l4 & Q & IH').
    destruct (satoshi_total HH HZ HU repr v v2 H1 H2) as (v4 & S). exists (v4 :: l4). split; [cbn [all_say]; rewrite S, Q; reflexivity|]. constructor; [|exact IH']. unfold taken. rewrite H1. cbn [abind]. rewrite H2. exact S. }
  destruct TK as (l4 & -> & TK). cbn [abind]. rewrite abind_assoc.
  assert (TO : exists lo5 ys, all_say (satoshi_says repr) lo2 = Gives lo5 /\ all_say (make_output_says repr) lo5 = Gives ys).
  { clear - OF HH HZ HU. induction OF as [|v v2 l l2 H1 OF IH]; [exists [], []; split; reflexivity|]. destruct IH as (l5 & ys & Q1 & Q2). destruct (output_total HH HZ HU repr v v2 H1) as (v4 & y & S1 & S2).
    exists (v4 :: l5), (y :: ys). cbn [all_say]. rewrite S1, Q1, S2. cbn [abind]. rewrite Q2. split; reflexivity. }
  destruct TO as (lo5 & ys & -> & YS). cbn [abind p_inputs p_outputs p_approaches].
  apply agrees_unit.
  { apply (attribute_test _ (PList l) _ _ AI). apply (each_test2 (taken repr) (make_input_says repr) (fits_test repr) l l4 tt TK). now apply make_test. }
  intros xs _. rewrite YS. cbn [abind]. rewrite (D4 (lit "input_selection_approaches")) by discriminate.
  set (o := dict_find (lit "input_selection_approaches") d) in *. unfold get_or_none in AP. rewrite D4 in AP by discriminate. fold o in AP.
  apply agrees_last. apply (is_test_eq (says_of (choose_says repr match o with Some v => v | None => PList [PStr (lit "largest_first")] end))); [|destruct (choose_says repr _); reflexivity].
  assert (OU : is_test (says_of (choose_says repr match o with Some v => v | None => PList [PStr (lit "largest_first")] end)) (one_used repr match o with Some v => v | None => PList [PStr (lit "largest_first")] end)).
  { destruct o as [v|]; [now apply chosen_test|]. apply chosen_test. reflexivity. }
  intros r. rewrite (OU r). unfold has. fold o. destruct o as [v|].
  - split; [intros H; exists v; auto|]. intros (w & [Q|[N _]] & H); [injection Q as <-; exact H|now elim (N v)].
  - split; [intros H; eexists; split; [right; split; [discriminate|reflexivity]|exact H]|]. intros (w & [Q|[_ ->]] & H); [discriminate|exact H].
Qed.

Lemma prepare_inv : forall repr attrs a p, prepare_says repr attrs a = Gives p ->
  (exists l2, all_say (satoshi_says repr) l2 = Gives (p_inputs p)) /\ (exists lo2, all_say (satoshi_says repr) lo2 = Gives (p_outputs p)).
Proof.
  intros repr attrs a p H. unfold prepare_says in H. destruct (validate_list_contains_items_says _ _) as [[e t]|]; cbn [check] in H; [discriminate|]. cbv zeta in H.
  destruct (dict_says _) as [d|]; cbn [abind] in H; [|discriminate]. destruct (adjust_says repr d) as [d1|]; cbn [abind] in H; [|discriminate].
  destruct (items_says _) as [l|]; cbn [abind] in H; [|discriminate]. destruct (all_say (index_says repr) l) as [l2|]; cbn [abind] in H; [|discriminate].
  destruct (list_check repr _) as [[e t]|]; cbn [check] in H; [discriminate|]. destruct (all_say (input_says repr) l2) as [us|]; cbn [abind] in H; [|discriminate].
  destruct (head_says repr d1) as [lo|]; cbn [abind] in H; [|discriminate]. destruct (all_say (output_says repr) lo) as [lo2|]; cbn [abind] in H; [|discriminate].
  destruct (fees_says repr _ _) as [u1|]; cbn [abind] in H; [|discriminate]. destruct (approaches_says repr _) as [u2|]; cbn [abind] in H; [|discriminate].
  destruct (options_says repr a) as [u3|]; cbn [abind] in H; [|discriminate]. destruct (item repr d1 "change_address") as [x1|]; cbn [abind] in H; [|discriminate].
  destruct (item repr d1 "max_fee") as [x2|]; cbn [abind] in H; [|discriminate]. destruct (item repr d1 "max_spend_percentage") as [x3|]; cbn [abind] in H; [|discriminate].
  destruct (float_says repr x3) as [x4|]; cbn [abind] in H; [|discriminate].
  match type of H with abind ?x _ = _ => destruct x as [rate|] end; cbn [abind] in H; [|discriminate].
  destruct (all_say (satoshi_says repr) l2) as [l4|] eqn:Q4; cbn [abind] in H; [|discriminate]. destruct (all_say (satoshi_says repr) lo2) as [lo5|] eqn:Q5; cbn [abind] in H; [|discriminate].
  injection H as <-. cbn [p_inputs p_outputs]. eauto.
Qed.
Lemma front_same : forall repr attrs a, lists_attributes attrs a -> front a = unsaid (front_says repr attrs a).
Proof.
  intros repr attrs a LA. unfold front, front_says. apply same_bind; [now apply prepare_same|]. intros p P. destruct (prepare_inv _ _ _ _ P) as [(l2 & L) (lo2 & O)].
  assert (FI : Forall (fun v => make_input v = unsaid (make_input_says repr v)) (p_inputs p)).
  { apply all_say_F2 in L. induction L as [|v v' l l' H L IH]; constructor; auto. now apply (make_input_same repr v). }
  assert (FO : Forall (fun v => make_output v = unsaid (make_output_says repr v)) (p_outputs p)).
  { apply all_say_F2 in O. induction O as [|v v' l l' H O IH]; constructor; auto. now apply (make_output_same repr v). }
  apply same_bind; [now apply same_all_in|]. intros _ _. apply same_bind; [now apply same_all_in|]. intros _ _. apply same_bind; [apply choose_same|]. reflexivity.
Qed.

(** C101.  What is said of malformed arguments, for every argument object: the class and the text of the first test that fails, and nothing if none does. *)
Lemma c101_said : HashOk E -> ZeroAddressOk E -> UniOk E -> forall repr attrs a,
  (forall e text, front_says repr attrs a = Says e text <-> argument_test repr attrs a (Some (e, text))) /\
  ((exists x, front_says repr attrs a = Gives x) <-> argument_test repr attrs a None).
Proof. intros HH HZ HU repr attrs a. apply said. now apply front_agrees. Qed.

(** C101.  It is what the code does before it compares amounts. *)
Lemma c101_same : forall repr attrs a, lists_attributes attrs a ->
  (p <- fst (prepare a) ;; _ <- mapM make_input (p_inputs p) ;; _ <- mapM make_output (p_outputs p) ;; ap <- choose_approach (p_approaches p) ;; Ok (p, ap)) = unsaid (front_says repr attrs a).
Proof. intros repr attrs a H. now apply front_same. Qed.

(** C101.  A failing test makes create_transaction raise the exception with the text. *)
Lemma c101_create : HashOk E -> ZeroAddressOk E -> UniOk E -> forall repr attrs a e text, lists_attributes attrs a ->
  argument_test repr attrs a (Some (e, text)) -> fst (create_transaction a) = Err e.
Proof.
  intros HH HZ HU repr attrs a e text LA T. apply create_front. rewrite (front_same repr attrs a LA). apply (proj1 (c101_said HH HZ HU repr attrs a)) in T. now rewrite T.
Qed.

(** C101.  The tests are those of C69: exactly one answer is the case, and its class is that of the first problem. *)
Lemma c101_first_problem : HashOk E -> ZeroAddressOk E -> UniOk E -> forall repr attrs a, lists_attributes attrs a ->
  (argument_test repr attrs a None <-> all_pass (argument_checks a)) /\
  (forall e, (exists text, argument_test repr attrs a (Some (e, text))) <-> first_problem (argument_checks a) e) /\
  (forall r r', argument_test repr attrs a r -> argument_test repr attrs a r' -> r = r').
Proof.
  intros HH HZ HU repr attrs a LA. pose proof (front_agrees HH HZ HU repr attrs a) as FA. destruct (c101_said HH HZ HU repr attrs a) as [S1 S2]. pose proof (front_same repr attrs a LA) as FS. pose proof (front_ck HH HZ HU a) as [K1 K2].
  assert (OK : argument_test repr attrs a None <-> all_pass (argument_checks a)).
  { rewrite <- S2, <- K1, FS. destruct (front_says repr attrs a) as [x|e t]; cbn [unsaid]; split; intros [y Q]; try discriminate; eauto. }
  split; [exact OK|]. split.
  - intros e. split.
    + intros [t T]. apply S1 in T. destruct (pass_or_problem (argument_checks a)) as [AP|[e' FP]].
      * apply K1 in AP as [x Q]. rewrite FS, T in Q. discriminate.
      * pose proof (K2 _ FP) as Q. rewrite FS, T in Q. injection Q as <-. exact FP.
    + intros FP. apply K2 in FP. rewrite FS in FP. destruct (front_says repr attrs a) as [x|e' t] eqn:Q; [discriminate|]. injection FP as ->. exists t. now apply S1.
  - intros r r' H H'. apply FA in H. apply FA in H'. congruence.
Qed.

End WithEnv.

Lemma demo_lists : forall i d x y, lists_attributes demo_attrs (mk_ns (Some i) (Some d) x y).
Proof. intros i d x y. split; split; intros _; try discriminate; [right; left|right; right; left]; reflexivity. Qed.
Example ex101_two_problems : @argument_test demo_env plain_repr demo_attrs two_problems (Some (ValueError, lit "invalid literal for int() with base 10: 'a lot'")) /\
  lists_attributes demo_attrs two_problems /\ fst (@create_transaction demo_env two_problems) = Err ValueError.
Proof.
  assert (T : @argument_test demo_env plain_repr demo_attrs two_problems (Some (ValueError, lit "invalid literal for int() with base 10: 'a lot'"))).
  { apply (@c101_said demo_env demo_hash demo_zero_address demo_uni). vm_compute. reflexivity. }
  split; [exact T|]. split; [apply demo_lists|]. apply (@c101_create demo_env demo_hash demo_zero_address demo_uni plain_repr demo_attrs two_problems _ _ (demo_lists _ _ _ _) T).
Qed.
Example ex101_both_ways : @argument_test demo_env plain_repr demo_attrs both_ways
  (Some (ValueError, lit "In the input selection approach list, cannot use both 'largest_first' and 'smallest_first' together.")).
Proof. apply (@c101_said demo_env demo_hash demo_zero_address demo_uni). vm_compute. reflexivity. Qed.
Example ex101_no_design : @argument_test demo_env plain_repr [lit "inputs"] no_design (Some (ValueError,
  lit "Some items are not in the list." ++ [10] ++ lit "List items:" ++ [10] ++ lit "- inputs" ++ [10] ++ lit "Items not found:" ++ [10] ++ lit "- design")) /\ lists_attributes [lit "inputs"] no_design.
Proof.
  split; [apply (@c101_said demo_env demo_hash demo_zero_address demo_uni); vm_compute; reflexivity|].
  split; split; intros H; try discriminate; [left; reflexivity|destruct H as [H|[]]; discriminate|now elim H].
Qed.
Example ex101_demo : @argument_test demo_env plain_repr demo_attrs demo_ns None /\ lists_attributes demo_attrs demo_ns.
Proof.
  split; [|apply demo_lists]. apply (@c101_first_problem demo_env demo_hash demo_zero_address demo_uni plain_repr demo_attrs demo_ns (demo_lists _ _ _ _)). exact (proj1 ex69_demo).
Qed.

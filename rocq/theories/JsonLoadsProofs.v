(** json.loads reads exactly the documents of JsonGrammar; json.dumps writes one. *)
From Coq Require Import String Floats.SpecFloat Reals Lia.
From Verif Require Import PyBase Env PyNum Spec EnvOk NumSpec Json JsonGrammar.
From Verif Require Import NumLemmas HexProofs AmountProofs JsonTextProofs JsonNumProofs.
Open Scope Z_scope.

Scheme value_mind := Minimality for value Sort Prop
  with elements_mind := Minimality for elements Sort Prop
  with pairs_mind := Minimality for pairs Sort Prop.
Combined Scheme value_all from value_mind, elements_mind, pairs_mind.

(** * White space *)
Lemma is_ws_iff : forall c, is_ws c = true <-> c = 32 \/ c = 9 \/ c = 10 \/ c = 13.
Proof. intros c. unfold is_ws. rewrite !orb_true_iff, !Z.eqb_eq. tauto. Qed.
Lemma skip_white : forall w s, white w -> skip_ws (w ++ s) = skip_ws s.
Proof. intros w s W. induction W as [|c w H W IH]; [reflexivity|]. cbn [app skip_ws]. apply is_ws_iff in H. rewrite H. exact IH. Qed.
Lemma skip_white_all : forall w, white w -> skip_ws w = [].
Proof. intros w W. pose proof (skip_white w [] W) as H. rewrite app_nil_r in H. exact H. Qed.
Lemma skip_spec : forall s, exists w, s = w ++ skip_ws s /\ white w.
Proof.
  induction s as [|c s (w & Q & W)]; [exists []; split; [reflexivity|constructor]|]. cbn [skip_ws]. destruct (is_ws c) eqn:C; [|exists []; split; [reflexivity|constructor]].
  exists (c :: w). split; [cbn [app]; rewrite <- Q; reflexivity|]. constructor; auto. apply is_ws_iff. auto.
Qed.
Lemma skip_plain : forall c s, is_ws c = false -> skip_ws (c :: s) = c :: s.
Proof. intros c s H. cbn [skip_ws]. rewrite H. reflexivity. Qed.
Lemma white_ends : forall w z, white w -> (match z with [] => True | c :: _ => c = 44 \/ c = 93 \/ c = 125 end) -> ends (w ++ z).
Proof. intros w z [|c w' C W] H; cbn [app ends]; [destruct z; auto; cbn; lia|lia]. Qed.
Lemma white_app : forall a b, white a -> white b -> white (a ++ b).
Proof. intros a b A B. apply Forall_app. auto. Qed.

(** * Dictionaries *)
Definition set_pair (d : dict) (e : pystr * pyval) : dict := dict_set (fst e) (snd e) d.
Definition build (ps : list (pystr * pyval)) (d : dict) : dict := fold_left set_pair ps d.
Lemma seq_iff : forall a b, str_eqb a b = true <-> a = b.
Proof. intros a b. split; [apply str_eqb_eq|intros ->; apply str_eqb_refl]. Qed.
Lemma set_keys : forall k v d, map fst (dict_set k v d) = if str_in k (map fst d) then map fst d else map fst d ++ [k].
Proof.
  intros k v d. induction d as [|[k' v'] d IH]; [reflexivity|]. cbn [dict_set map fst]. destruct (str_eqb k' k) eqn:Q.
  - apply seq_iff in Q. subst k'. cbn [map fst str_in existsb]. rewrite str_eqb_refl. reflexivity.
  - cbn [map fst]. rewrite IH. unfold str_in. cbn [existsb]. assert (Q' : str_eqb k k' = false) by (destruct (str_eqb k k') eqn:X; auto; apply seq_iff in X; subst; rewrite str_eqb_refl in Q; discriminate).
    rewrite Q'. cbn [orb]. destruct (existsb (str_eqb k) (map fst d)); reflexivity.
Qed.
Lemma set_in : forall k v d k1 v1, NoDup (map fst d) -> (In (k1, v1) (dict_set k v d) <-> (k1 = k /\ v1 = v) \/ (k1 <> k /\ In (k1, v1) d)).
Proof.
  intros k v d k1 v1 N. induction d as [|[k' v'] d IH]; [cbn; split; [intros [H|[]]; injection H as <- <-; auto|intros [[-> ->]|[_ []]]; auto]|].
  cbn [map fst] in N. inversion N as [|x l NI N']; subst. specialize (IH N'). cbn [dict_set]. destruct (str_eqb k' k) eqn:Q.
  - apply seq_iff in Q. subst k'. cbn [In]. split.
    + intros [H|H]; [injection H as <- <-; auto|]. right. split; auto. intros ->. apply NI. apply in_map_iff. exists (k, v1). auto.
    + intros [[-> ->]|[D [H|H]]]; auto. injection H as -> _. congruence.
  - assert (D : k' <> k) by (intros ->; rewrite str_eqb_refl in Q; discriminate). cbn [In]. rewrite IH. split.
    + intros [H|[H|H]]; auto; [injection H as <- <-; auto|]. destruct H as [? ?]. auto.
    + intros [H|[D' [H|H]]]; auto.
Qed.
Lemma str_in_iff : forall k l, str_in k l = true <-> In k l.
Proof. intros k l. unfold str_in. rewrite existsb_exists. split; [intros (x & I & Q); apply seq_iff in Q; subst; auto|intros I; exists k; split; auto; apply str_eqb_refl]. Qed.
Lemma firsts_snoc : forall l k, firsts (l ++ [k]) = if str_in k l then firsts l else firsts l ++ [k].
Proof.
  induction l as [|x l IH]; intros k; [reflexivity|]. cbn [app firsts]. rewrite IH. unfold str_in. cbn [existsb]. destruct (str_eqb k x) eqn:Q.
  - apply seq_iff in Q. subst x. cbn [orb]. f_equal. destruct (existsb (str_eqb k) l) eqn:X; auto. rewrite filter_app. cbn [filter]. rewrite str_eqb_refl. cbn [negb]. rewrite app_nil_r. reflexivity.
  - cbn [orb]. destruct (existsb (str_eqb k) l) eqn:X; [reflexivity|]. rewrite filter_app. cbn [filter]. rewrite Q. reflexivity.
Qed.
Lemma firsts_in : forall l k, In k (firsts l) <-> In k l.
Proof.
  induction l as [|x l IH]; intros k; [tauto|]. cbn [firsts In]. rewrite filter_In, IH. split; [intuition|]. intros [->|H]; auto. destruct (str_eqb k x) eqn:Q; [apply seq_iff in Q; auto|]. right. split; auto.
Qed.
Lemma firsts_nodup : forall l, NoDup (firsts l).
Proof. induction l as [|x l IH]; cbn [firsts]; constructor; [rewrite filter_In; intros [_ H]; rewrite str_eqb_refl in H; discriminate|apply NoDup_filter; auto]. Qed.
Lemma build_makes : forall ps, makes ps (build ps []).
Proof.
  induction ps as [|[k v] ps (K & L)] using rev_ind; [split; [reflexivity|intros k v []]|]. unfold build. rewrite fold_left_app. cbn [fold_left]. fold (build ps []). unfold set_pair at 1. cbn [fst snd]. split.
  - rewrite set_keys, K, map_app. cbn [map fst]. rewrite firsts_snoc. assert (Q : str_in k (firsts (map fst ps)) = str_in k (map fst ps)); [|rewrite Q; reflexivity].
    destruct (str_in k (map fst ps)) eqn:X; [apply str_in_iff; apply firsts_in; apply str_in_iff; auto|]. destruct (str_in k (firsts (map fst ps))) eqn:Y; auto. apply (proj1 (str_in_iff _ _)) in Y. apply (proj1 (firsts_in _ _)) in Y. apply str_in_iff in Y. congruence.
  - intros k1 v1 I. apply set_in in I; [|change (fold_left set_pair ps []) with (build ps []); rewrite K; apply firsts_nodup]. destruct I as [[-> ->]|[D I]].
    + exists ps, []. split; auto.
    + destruct (L _ _ I) as (a & b & -> & NI). exists a, (b ++ [(k, v)]). split; [rewrite <- app_assoc; reflexivity|]. rewrite map_app. intros J. apply in_app_or in J as [J|[J|[]]]; auto.
Qed.
Lemma last_pair_fun : forall (a b a' b' : list (pystr * pyval)) k v v', a ++ (k, v) :: b = a' ++ (k, v') :: b' -> ~ In k (map fst b) -> ~ In k (map fst b') -> v = v'.
Proof.
  induction a as [|x a IH]; intros b a' b' k v v' Q N N'; destruct a' as [|y a']; cbn [app] in Q.
  - congruence.
  - injection Q as _ Q. elim N. rewrite Q, map_app. apply in_or_app. right. left. reflexivity.
  - injection Q as _ Q. elim N'. rewrite <- Q, map_app. apply in_or_app. right. left. reflexivity.
  - injection Q as _ Q. eauto.
Qed.
Lemma makes_fun : forall ps d d', makes ps d -> makes ps d' -> d = d'.
Proof.
  intros ps d d' [K L] [K' L']. assert (Q : map fst d = map fst d') by congruence. clear K K'. assert (G : forall k v v', In (k, v) d -> In (k, v') d' -> v = v').
  { intros k v v' I I'. destruct (L _ _ I) as (a & b & Q1 & N1), (L' _ _ I') as (a' & b' & Q2 & N2). rewrite Q1 in Q2. eapply last_pair_fun; eauto. }
  clear L L'. revert d' Q G. induction d as [|[k v] d IH]; intros [|[k' v'] d'] Q G; try discriminate; [reflexivity|]. cbn [map fst] in Q. injection Q as -> Q. f_equal.
  - f_equal. apply (G k'); left; reflexivity.
  - apply IH; auto. intros k0 v0 v0' I I'. apply (G k0); right; auto.
Qed.

Section WithEnv.
Context {E : Env}.

(** One step of the three readers. *)
Lemma scan_once_S : forall f s, scan_once (S f) s =
  match s with
  | [] => Err ValueError
  | c :: r =>
      if c =? 34 then '(t, z) <- scan_string r ;; Ok (PStr t, z)
      else if c =? 123 then
        match skip_ws r with
        | x :: z => if x =? 125 then Ok (PDict [], z) else '(d, z) <- members f (x :: z) [] ;; Ok (PDict d, z)
        | [] => Err ValueError
        end
      else if c =? 91 then
        match skip_ws r with
        | x :: z => if x =? 93 then Ok (PList [], z) else '(l, z) <- items f (x :: z) ;; Ok (PList l, z)
        | [] => Err ValueError
        end
      else match scan_constant constants s with Some vz => Ok vz | None => scan_number s end
  end.
Proof. reflexivity. Qed.
Lemma items_S : forall f s, items (S f) s =
  '(v, s1) <- scan_once f s ;;
  match skip_ws s1 with
  | x :: z => if x =? 93 then Ok ([v], z)
              else if x =? 44 then '(l, z') <- items f (skip_ws z) ;; Ok (v :: l, z')
              else Err ValueError
  | [] => Err ValueError
  end.
Proof. reflexivity. Qed.
Lemma members_S : forall f s d, members (S f) s d =
  match s with
  | q :: s0 =>
      if q =? 34 then
        '(k, s1) <- scan_string s0 ;;
        match skip_ws s1 with
        | x :: s2 =>
            if x =? 58 then
              '(v, s3) <- scan_once f (skip_ws s2) ;;
              match skip_ws s3 with
              | y :: z => if y =? 125 then Ok (dict_set k v d, z)
                          else if y =? 44 then members f (skip_ws z) (dict_set k v d)
                          else Err ValueError
              | [] => Err ValueError
              end
            else Err ValueError
        | [] => Err ValueError
        end
      else Err ValueError
  | [] => Err ValueError
  end.
Proof. reflexivity. Qed.

(** * Soundness *)
Lemma after_prefix_spec : forall p s z, after_prefix p s = Some z -> s = p ++ z.
Proof.
  induction p as [|x p IH]; intros s z H; [destruct s; injection H as <-; reflexivity|]. cbn [after_prefix] in H. destruct s as [|y s]; [discriminate|]. destruct (x =? y) eqn:Q; [|discriminate]. zb. subst. cbn [app]. f_equal. auto.
Qed.
Lemma constant_sound : forall s v z, scan_constant constants s = Some (v, z) -> exists t, s = t ++ z /\ value t v.
Proof.
  intros s v z H. unfold constants in H. cbn [scan_constant] in H.
  repeat match type of H with match after_prefix ?w s with _ => _ end = _ => let A := fresh "A" in destruct (after_prefix w s) eqn:A; [injection H as <- <-; apply after_prefix_spec in A; eexists; split; [exact A|constructor]|clear A] end. discriminate.
Qed.
Lemma elements_white : forall w t l, white w -> elements t l -> elements (w ++ t) l.
Proof. intros w t l W H. destruct H; rewrite app_assoc; constructor; auto using white_app. Qed.
Lemma pairs_white : forall w t l, white w -> pairs t l -> pairs (w ++ t) l.
Proof. intros w t l W H. destruct H; rewrite app_assoc; constructor; auto using white_app. Qed.

Lemma sound : forall f,
  (forall s v z, scan_once f s = Ok (v, z) -> exists t, s = t ++ z /\ value t v) /\
  (forall s l z, items f s = Ok (l, z) -> exists t, s = t ++ lit "]" ++ z /\ elements t l) /\
  (forall s d d' z, members f s d = Ok (d', z) -> exists t ps, s = t ++ lit "}" ++ z /\ pairs t ps /\ d' = build ps d).
Proof.
  induction f as [|f (IH1 & IH2 & IH3)]; [repeat split; discriminate|]. split; [|split].
  - intros s v z H. rewrite scan_once_S in H. destruct s as [|c r]; [discriminate|]. destruct (c =? 34) eqn:C1.
    { zb. subst c. destruct (scan_string r) as [[t z']|] eqn:S; [|discriminate]. cbn [bind] in H. injection H as <- <-. apply scan_string_iff in S as (b & -> & C). exists ([34] ++ b ++ [34]). split; [cbn [app]; rewrite <- app_assoc; reflexivity|]. apply v_string. auto. }
    destruct (c =? 123) eqn:C2.
    { zb. subst c. destruct (skip_spec r) as (w & Q & W). destruct (skip_ws r) as [|x z0]; [discriminate|]. destruct (x =? 125) eqn:X.
      - zb. subst x. injection H as <- <-. exists (lit "{" ++ w ++ lit "}"). split; [rewrite Q, <- !app_assoc; reflexivity|]. apply v_empty_object. auto.
      - destruct (members f (x :: z0) []) as [[d z']|] eqn:M; [|discriminate]. cbn [bind] in H. injection H as <- <-. apply IH3 in M as (t & ps & T & P & ->). exists (lit "{" ++ (w ++ t) ++ lit "}").
        split; [rewrite Q, T, <- !app_assoc; reflexivity|]. eapply v_object; [apply pairs_white; eauto|apply build_makes]. }
    destruct (c =? 91) eqn:C3.
    { zb. subst c. destruct (skip_spec r) as (w & Q & W). destruct (skip_ws r) as [|x z0]; [discriminate|]. destruct (x =? 93) eqn:X.
      - zb. subst x. injection H as <- <-. exists (lit "[" ++ w ++ lit "]"). split; [rewrite Q, <- !app_assoc; reflexivity|]. apply v_empty_array. auto.
      - destruct (items f (x :: z0)) as [[d z']|] eqn:M; [|discriminate]. cbn [bind] in H. injection H as <- <-. apply IH2 in M as (t & T & P). exists (lit "[" ++ (w ++ t) ++ lit "]").
        split; [rewrite Q, T, <- !app_assoc; reflexivity|]. apply v_array. apply elements_white; auto. }
    destruct (scan_constant constants (c :: r)) as [[v' z']|] eqn:SC; [injection H as <- <-; apply constant_sound; auto|]. apply scan_number_sound in H as (t & Q & N). exists t. split; auto. constructor. auto.
  - intros s l z H. rewrite items_S in H. destruct (scan_once f s) as [[v s1]|] eqn:S; [|discriminate]. cbn [bind] in H. apply IH1 in S as (t & -> & V). destruct (skip_spec s1) as (w & Q & W). destruct (skip_ws s1) as [|x z0]; [discriminate|].
    destruct (x =? 93) eqn:X; [zb; subst x; injection H as <- <-; exists ([] ++ t ++ w); split; [rewrite Q, <- !app_assoc; reflexivity|]; constructor; auto; constructor|].
    destruct (x =? 44) eqn:Y; [|discriminate]. zb. subst x. destruct (items f (skip_ws z0)) as [[l' z']|] eqn:M; [|discriminate]. cbn [bind] in H. injection H as <- <-. apply IH2 in M as (t' & T & P).
    destruct (skip_spec z0) as (w2 & Q2 & W2). exists ([] ++ t ++ w ++ lit "," ++ (w2 ++ t')). split; [rewrite Q, Q2, T; cbn [app]; rewrite <- !app_assoc; reflexivity|]. constructor; auto; [constructor|]. apply elements_white; auto.
  - intros s d d' z H. rewrite members_S in H. destruct s as [|q s0]; [discriminate|]. destruct (q =? 34) eqn:Q0; [|discriminate]. zb. subst q. destruct (scan_string s0) as [[k s1]|] eqn:SS; [|discriminate]. cbn [bind] in H.
    apply scan_string_iff in SS as (b & -> & CH). destruct (skip_spec s1) as (w1 & Q1 & W1). destruct (skip_ws s1) as [|x s2]; [discriminate|]. destruct (x =? 58) eqn:X; [|discriminate]. zb. subst x.
    destruct (skip_spec s2) as (w2 & Q2 & W2). destruct (scan_once f (skip_ws s2)) as [[v s3]|] eqn:S; [|discriminate]. cbn [bind] in H. apply IH1 in S as (t & T & V). destruct (skip_spec s3) as (w3 & Q3 & W3).
    destruct (skip_ws s3) as [|y z0]; [discriminate|]. destruct (y =? 125) eqn:Y.
    + zb. subst y. injection H as <- <-. exists ([] ++ [34] ++ b ++ [34] ++ w1 ++ lit ":" ++ w2 ++ t ++ w3), [(k, v)]. split; [rewrite Q1, Q2, T, Q3; cbn [app]; repeat (rewrite <- app_assoc; cbn [app]); reflexivity|]. split; [constructor; auto; constructor|reflexivity].
    + destruct (y =? 44) eqn:Y2; [|discriminate]. zb. subst y. apply IH3 in H as (t' & ps & T' & P & ->). destruct (skip_spec z0) as (w4 & Q4 & W4).
      exists ([] ++ [34] ++ b ++ [34] ++ w1 ++ lit ":" ++ w2 ++ t ++ w3 ++ lit "," ++ (w4 ++ t')), ((k, v) :: ps). split; [rewrite Q1, Q2, T, Q3, Q4, T'; cbn [app]; repeat (rewrite <- app_assoc; cbn [app]); reflexivity|].
      split; [constructor; auto; [constructor|apply pairs_white; auto]|reflexivity].
Qed.

(** * Completeness *)
Lemma number_not_constant : forall t v z, number t v -> scan_constant constants (t ++ z) = None.
Proof.
  intros t v z N. destruct (number_head t v N) as (c & r & -> & C & M). cbn [app].
  assert (A : forall x w, x <> c -> after_prefix (x :: w) (c :: r ++ z) = None) by (intros x w H; cbn [after_prefix]; apply Z.eqb_neq in H; rewrite H; reflexivity).
  unfold constants. cbn [scan_constant]. change (lit "null") with (110 :: lit "ull"). rewrite A by lia. change (lit "true") with (116 :: lit "rue"). rewrite A by lia. change (lit "false") with (102 :: lit "alse"). rewrite A by lia.
  change (lit "NaN") with (78 :: lit "aN"). rewrite A by lia. change (lit "Infinity") with (73 :: lit "nfinity"). rewrite A by lia. destruct (Z.eq_dec c 45) as [->|D].
  - destruct (M eq_refl) as (d & r' & -> & Hd). change (lit "-Infinity") with (45 :: 73 :: lit "nfinity"). cbn [app after_prefix]. change (45 =? 45) with true. cbv iota. replace (73 =? d) with false by (symmetry; apply Z.eqb_neq; lia). reflexivity.
  - change (lit "-Infinity") with (45 :: lit "Infinity"). rewrite A by lia. reflexivity.
Qed.
Lemma value_head : forall t v, value t v -> exists c r, t = c :: r /\ is_ws c = false /\ c <> 93 /\ c <> 125.
Proof.
  intros t v V. destruct V; try (eexists _, _; split; [reflexivity|]; split; [reflexivity|]; split; discriminate).
  destruct (number_head _ _ H) as (c & r & -> & C & _). exists c, r. split; auto. split; [|lia]. destruct (is_ws c) eqn:W; auto. apply is_ws_iff in W. lia.
Qed.
Lemma value_skip : forall w t v q, white w -> value t v -> skip_ws (w ++ t ++ q) = t ++ q.
Proof. intros w t v q W V. rewrite skip_white by auto. destruct (value_head t v V) as (c & r & -> & C & _). cbn [app]. apply skip_plain. auto. Qed.
Lemma elements_head : forall s l q, elements s l -> exists c r, skip_ws (s ++ q) = c :: r /\ c <> 93.
Proof.
  intros s l q H. destruct H as [w s v w' W V W'|w s v w' r l W V W' H]; destruct (value_head s v V) as (c & r0 & Q & _ & C & _);
    [assert (X : (w ++ s ++ w') ++ q = w ++ s ++ (w' ++ q)) by (rewrite <- !app_assoc; reflexivity)|assert (X : (w ++ s ++ w' ++ lit "," ++ r) ++ q = w ++ s ++ ((w' ++ lit "," ++ r) ++ q)) by (rewrite <- !app_assoc; reflexivity)];
    rewrite X, (value_skip w s v _ W V), Q; cbn [app]; eauto.
Qed.
Lemma pairs_head : forall s l q, pairs s l -> exists r, skip_ws (s ++ q) = 34 :: r.
Proof. intros s l q H. destruct H; rewrite <- app_assoc, skip_white by auto; cbn [app]; rewrite skip_plain by reflexivity; eauto. Qed.

Lemma complete :
  (forall t v, value t v -> forall f z, (2 * length t <= f)%nat -> ends z -> scan_once f (t ++ z) = Ok (v, z)) /\
  (forall s l, elements s l -> forall f z, (2 * length s + 1 <= f)%nat -> items f (skip_ws (s ++ lit "]" ++ z)) = Ok (l, z)) /\
  (forall s ps, pairs s ps -> forall f z d, (2 * length s + 1 <= f)%nat -> members f (skip_ws (s ++ lit "}" ++ z)) d = Ok (build ps d, z)).
Proof.
  apply value_all.
  1-6: intros f z L _; (destruct f as [|f]; [cbn in L; lia|]); reflexivity.
  - (* number *) intros s v N f z L EZ. pose proof (number_not_constant s v z N) as NC. pose proof (scan_number_complete s v N z EZ) as SN. destruct (number_head s v N) as (c & r & -> & C & _).
    destruct f as [|f]; [cbn in L; lia|]. cbn [app] in *. rewrite scan_once_S. replace (c =? 34) with false by (symmetry; apply Z.eqb_neq; lia). replace (c =? 123) with false by (symmetry; apply Z.eqb_neq; lia). replace (c =? 91) with false by (symmetry; apply Z.eqb_neq; lia).
    rewrite NC. exact SN.
  - (* string *) intros s t C f z L _. destruct f as [|f]; [cbn in L; lia|]. cbn [app]. rewrite scan_once_S. change (34 =? 34) with true. cbv iota. rewrite <- app_assoc. rewrite (scan_string_complete s t C). reflexivity.
  - intros w W f z L _. destruct f as [|f]; [cbn in L; lia|]. rewrite <- !app_assoc. change (lit "[") with [91]. cbn [app]. rewrite scan_once_S. change (91 =? 34) with false. change (91 =? 123) with false. change (91 =? 91) with true. cbv iota.
    rewrite skip_white by auto. change (lit "]") with [93]. cbn [app]. rewrite skip_plain by reflexivity. reflexivity.
  - intros s l EL IH f z L _. destruct f as [|f]; [cbn in L; lia|]. rewrite !app_length in L. change (length (lit "[")) with 1%nat in L. change (length (lit "]")) with 1%nat in L. rewrite <- !app_assoc. destruct (elements_head s l (lit "]" ++ z) EL) as (c & r & Q & NC).
    assert (I : items f (skip_ws (s ++ lit "]" ++ z)) = Ok (l, z)) by (apply IH; lia). change (lit "[") with [91]. change ([91] ++ s ++ lit "]" ++ z) with (91 :: (s ++ lit "]" ++ z)). rewrite scan_once_S. change (91 =? 34) with false. change (91 =? 123) with false. change (91 =? 91) with true. cbv iota.
    rewrite Q in *. replace (c =? 93) with false by (symmetry; apply Z.eqb_neq; auto). rewrite I. reflexivity.
  - intros w W f z L _. destruct f as [|f]; [cbn in L; lia|]. rewrite <- !app_assoc. change (lit "{") with [123]. cbn [app]. rewrite scan_once_S. change (123 =? 34) with false. change (123 =? 123) with true. cbv iota.
    rewrite skip_white by auto. change (lit "}") with [125]. cbn [app]. rewrite skip_plain by reflexivity. reflexivity.
  - intros s ps d P IH M f z L _. destruct f as [|f]; [cbn in L; lia|]. rewrite !app_length in L. change (length (lit "{")) with 1%nat in L. change (length (lit "}")) with 1%nat in L. rewrite <- !app_assoc. destruct (pairs_head s ps (lit "}" ++ z) P) as (r & Q).
    assert (I : members f (skip_ws (s ++ lit "}" ++ z)) [] = Ok (build ps [], z)) by (apply IH; lia). change (lit "{") with [123]. change ([123] ++ s ++ lit "}" ++ z) with (123 :: (s ++ lit "}" ++ z)). rewrite scan_once_S. change (123 =? 34) with false. change (123 =? 123) with true. cbv iota.
    rewrite Q in *. change (34 =? 125) with false. cbv iota. rewrite I. cbn [bind]. rewrite (makes_fun ps d (build ps []) M (build_makes ps)). reflexivity.
  - (* last element *) intros w s v w' W V IH W' f z L. rewrite !app_length in L. destruct f as [|f]; [lia|]. assert (X : (w ++ s ++ w') ++ lit "]" ++ z = w ++ s ++ (w' ++ lit "]" ++ z)) by (rewrite <- !app_assoc; reflexivity). rewrite X, (value_skip w s v _ W V).
    rewrite items_S. rewrite IH; [|lia|apply white_ends; auto; cbn; auto]. cbn [bind]. rewrite skip_white by auto. change (lit "]") with [93]. cbn [app]. rewrite skip_plain by reflexivity. reflexivity.
  - (* more elements *) intros w s v w' r l W V IH W' EL IH2 f z L. rewrite !app_length in L. change (length (lit ",")) with 1%nat in L. destruct f as [|f]; [lia|].
    assert (X : (w ++ s ++ w' ++ lit "," ++ r) ++ lit "]" ++ z = w ++ s ++ (w' ++ lit "," ++ (r ++ lit "]" ++ z))) by (rewrite <- !app_assoc; reflexivity). rewrite X, (value_skip w s v _ W V).
    rewrite items_S. rewrite IH; [|lia|apply white_ends; auto; cbn; auto]. cbn [bind]. rewrite skip_white by auto. change (lit ",") with [44]. cbn [app]. rewrite skip_plain by reflexivity. change (44 =? 93) with false. change (44 =? 44) with true. cbv iota.
    change (length (lit "]")) with 1%nat in *. rewrite IH2 by lia. reflexivity.
  - (* last pair *) intros w k t w1 w2 s v w3 W C W1 W2 V IH W3 f z d L. rewrite !app_length in L. change (length (lit ":")) with 1%nat in L. destruct f as [|f]; [lia|].
    assert (X : (w ++ [34] ++ k ++ [34] ++ w1 ++ lit ":" ++ w2 ++ s ++ w3) ++ lit "}" ++ z = w ++ 34 :: (k ++ [34] ++ (w1 ++ lit ":" ++ (w2 ++ s ++ (w3 ++ lit "}" ++ z))))) by (rewrite <- !app_assoc; reflexivity).
    rewrite X, skip_white, skip_plain by (auto; reflexivity). rewrite members_S. change (34 =? 34) with true. cbv iota. rewrite (scan_string_complete k t C). cbn [bind]. rewrite skip_white by auto. change (lit ":") with [58]. cbn [app]. rewrite skip_plain by reflexivity. change (58 =? 58) with true. cbv iota.
    pose proof (value_skip w2 s v (w3 ++ lit "}" ++ z) W2 V) as VS. cbn [app] in VS. rewrite VS. rewrite IH; [|lia|apply white_ends; auto; cbn; auto]. cbn [bind]. rewrite skip_white by auto. change (lit "}") with [125]. cbn [app]. rewrite skip_plain by reflexivity. reflexivity.
  - (* more pairs *) intros w k t w1 w2 s v w3 r l W C W1 W2 V IH W3 P IH2 f z d L. rewrite !app_length in L. change (length (lit ":")) with 1%nat in L. change (length (lit ",")) with 1%nat in L. destruct f as [|f]; [lia|].
    assert (X : (w ++ [34] ++ k ++ [34] ++ w1 ++ lit ":" ++ w2 ++ s ++ w3 ++ lit "," ++ r) ++ lit "}" ++ z = w ++ 34 :: (k ++ [34] ++ (w1 ++ lit ":" ++ (w2 ++ s ++ (w3 ++ lit "," ++ (r ++ lit "}" ++ z)))))) by (rewrite <- !app_assoc; reflexivity).
    rewrite X, skip_white, skip_plain by (auto; reflexivity). rewrite members_S. change (34 =? 34) with true. cbv iota. rewrite (scan_string_complete k t C). cbn [bind]. rewrite skip_white by auto. change (lit ":") with [58]. cbn [app]. rewrite skip_plain by reflexivity. change (58 =? 58) with true. cbv iota.
    pose proof (value_skip w2 s v (w3 ++ lit "," ++ r ++ lit "}" ++ z) W2 V) as VS. cbn [app] in VS. rewrite VS. rewrite IH; [|lia|apply white_ends; auto; cbn; auto]. cbn [bind]. rewrite skip_white by auto. change (lit ",") with [44]. cbn [app]. rewrite skip_plain by reflexivity.
    change (44 =? 125) with false. change (44 =? 44) with true. cbv iota. rewrite IH2 by (cbn [length] in L; lia). reflexivity.
Qed.

Lemma loads_iff : forall s v, loads s = Ok v <-> document s v.
Proof.
  intros s v. unfold loads. split.
  - destruct (skip_spec s) as (w & Q & W). destruct (scan_once (2 * length s + 2) (skip_ws s)) as [[v' z]|] eqn:S; [|discriminate]. cbn [bind]. destruct (skip_ws z) as [|c r] eqn:Z; [|discriminate]. intros H. injection H as <-.
    apply (proj1 (sound _)) in S as (t & T & V). destruct (skip_spec z) as (w' & Q' & W'). rewrite Z, app_nil_r in Q'. subst z. exists w, t, w'. split; [rewrite Q, T; reflexivity|auto].
  - intros (w & t & w' & -> & W & W' & V). rewrite (value_skip w t v w' W V). rewrite (proj1 complete t v V); [|rewrite !app_length; lia|rewrite <- (app_nil_r w'); apply white_ends; auto]. cbn [bind]. rewrite skip_white_all by auto. reflexivity.
Qed.

Lemma errors : forall f,
  (forall s e, scan_once f s = Err e -> e = ValueError) /\ (forall s e, items f s = Err e -> e = ValueError) /\ (forall s d e, members f s d = Err e -> e = ValueError).
Proof.
  induction f as [|f (IH1 & IH2 & IH3)]; [repeat split; cbn; congruence|]. split; [|split].
  - intros s e H. rewrite scan_once_S in H. destruct s as [|c r]; [congruence|]. destruct (c =? 34).
    { destruct (scan_string r) as [[? ?]|e'] eqn:S; [discriminate|]. cbn [bind] in H. injection H as ->. eapply scan_string_err; eauto. }
    destruct (c =? 123).
    { destruct (skip_ws r) as [|x z]; [congruence|]. destruct (x =? 125); [discriminate|]. destruct (members f (x :: z) []) as [[? ?]|e'] eqn:M; [discriminate|]. cbn [bind] in H. injection H as ->. eauto. }
    destruct (c =? 91).
    { destruct (skip_ws r) as [|x z]; [congruence|]. destruct (x =? 93); [discriminate|]. destruct (items f (x :: z)) as [[? ?]|e'] eqn:M; [discriminate|]. cbn [bind] in H. injection H as ->. eauto. }
    destruct (scan_constant constants (c :: r)); [discriminate|]. eapply scan_number_err; eauto.
  - intros s e H. rewrite items_S in H. destruct (scan_once f s) as [[v s1]|e'] eqn:S; [|cbn [bind] in H; injection H as ->; eauto]. cbn [bind] in H. destruct (skip_ws s1) as [|x z]; [congruence|]. destruct (x =? 93); [discriminate|]. destruct (x =? 44); [|congruence].
    destruct (items f (skip_ws z)) as [[? ?]|e'] eqn:M; [discriminate|]. cbn [bind] in H. injection H as ->. eauto.
  - intros s d e H. rewrite members_S in H. destruct s as [|q s0]; [congruence|]. destruct (q =? 34); [|congruence]. destruct (scan_string s0) as [[k s1]|e'] eqn:S; [|cbn [bind] in H; injection H as ->; eapply scan_string_err; eauto]. cbn [bind] in H.
    destruct (skip_ws s1) as [|x s2]; [congruence|]. destruct (x =? 58); [|congruence]. destruct (scan_once f (skip_ws s2)) as [[v s3]|e'] eqn:S2; [|cbn [bind] in H; injection H as ->; eauto]. cbn [bind] in H.
    destruct (skip_ws s3) as [|y z]; [congruence|]. destruct (y =? 125); [discriminate|]. destruct (y =? 44); [eauto|congruence].
Qed.
Lemma loads_err : forall s e, loads s = Err e -> e = ValueError.
Proof.
  intros s e H. unfold loads in H. destruct (scan_once (2 * length s + 2) (skip_ws s)) as [[v z]|e'] eqn:S; [|cbn [bind] in H; injection H as ->; exact (proj1 (errors _) _ _ S)]. cbn [bind] in H. destruct (skip_ws z); congruence.
Qed.

(** * Writing *)
Lemma int_number : forall z, number (int_str z) (PInt z).
Proof.
  intros z. unfold int_str. assert (G : forall n, 0 <= n -> exists ds, nat_text 10 n = text10 ds /\ whole (text10 ds) ds /\ val 10 ds = n).
  { intros n N. destruct (nat_text10 n N) as (ds & Q & D & NE & V & L). exists ds. split; auto. split; auto. split; auto. split; auto. destruct L; auto. }
  destruct (z <? 0) eqn:Q; zb.
  - destruct (G (- z)) as (ds & -> & W & V); [lia|]. change (45 :: text10 ds) with ([45] ++ text10 ds). replace z with (signed true (val 10 ds)) by (cbn [signed]; lia). apply n_int; auto. constructor.
  - destruct (G z) as (ds & -> & W & V); [lia|]. change (text10 ds) with ([] ++ text10 ds). replace z with (signed false (val 10 ds)) by (cbn [signed]; lia). apply n_int; auto. constructor.
Qed.
Lemma white_line : forall n, white (new_line n).
Proof. intros n. constructor; [auto|]. apply Forall_forall. intros c I. apply repeat_spec in I. auto. Qed.
Lemma elements_join : forall (g : pyval -> pystr) w w' l, white w -> white w' -> l <> [] -> Forall (fun v => value (g v) v) l -> elements (w ++ join (lit "," ++ w) (map g l) ++ w') l.
Proof.
  intros g w w' l W W' NE F. induction F as [|v l V F IH]; [congruence|]. destruct l as [|v' l]; [cbn [map join]; constructor; auto|].
  assert (X : w ++ join (lit "," ++ w) (map g (v :: v' :: l)) ++ w' = w ++ g v ++ [] ++ lit "," ++ (w ++ join (lit "," ++ w) (map g (v' :: l)) ++ w')).
  { cbn [map join]. cbn [app]. rewrite <- !app_assoc. reflexivity. }
  rewrite X. constructor; auto; [constructor|]. apply IH. discriminate.
Qed.
Lemma pairs_join : forall (g : pyval -> pystr) w w' l, white w -> white w' -> l <> [] -> Forall (fun e => plain_text (fst e)) l -> Forall (fun e => value (g (snd e)) (snd e)) l ->
  pairs (w ++ join (lit "," ++ w) (map (fun e => dump_string (fst e) ++ lit ": " ++ g (snd e)) l) ++ w') l.
Proof.
  intros g w w' l W W' NE P F. induction F as [|[k v] l V F IH]; [congruence|]. inversion P as [|? ? PK P']; subst. cbn [fst snd] in *. assert (SP : white [32]) by (constructor; auto; constructor).
  destruct l as [|v' l].
  - cbn [map join fst snd].
    assert (X : w ++ (dump_string k ++ lit ": " ++ g v) ++ w' = w ++ [34] ++ flat_map escape_char k ++ [34] ++ [] ++ lit ":" ++ [32] ++ g v ++ w') by (unfold dump_string; change (lit ": ") with (lit ":" ++ [32]); repeat (rewrite <- app_assoc; cbn [app]); reflexivity).
    rewrite X. constructor; auto using chars_dump; constructor.
  - assert (X : w ++ join (lit "," ++ w) (map (fun e => dump_string (fst e) ++ lit ": " ++ g (snd e)) ((k, v) :: v' :: l)) ++ w' =
      w ++ [34] ++ flat_map escape_char k ++ [34] ++ [] ++ lit ":" ++ [32] ++ g v ++ [] ++ lit "," ++ (w ++ join (lit "," ++ w) (map (fun e => dump_string (fst e) ++ lit ": " ++ g (snd e)) (v' :: l)) ++ w')).
    { cbn [map join fst snd]. unfold dump_string at 1. change (lit ": ") with (lit ":" ++ [32]). repeat (rewrite <- app_assoc; cbn [app]). reflexivity. }
    rewrite X. constructor; auto using chars_dump; try constructor. apply IH; auto. discriminate.
Qed.
Lemma makes_self : forall d : dict, NoDup (map fst d) -> makes d d.
Proof.
  intros d N. split.
  - induction d as [|[k v] d IH]; [reflexivity|]. cbn [map fst firsts] in *. inversion N as [|x l NI N']; subst. rewrite <- IH by auto. f_equal. clear IH N N'. induction (map fst d) as [|x l IH]; [reflexivity|]. cbn [filter].
    destruct (str_eqb x k) eqn:Q; [apply seq_iff in Q; subst; elim NI; left; auto|]. cbn [negb]. f_equal. apply IH. intros I. apply NI. right. auto.
  - intros k v I. apply in_split in I as (a & b & ->). exists a, b. split; auto. rewrite map_app in N. cbn [map fst] in N. apply NoDup_remove_2 in N. intros J. apply N. apply in_or_app. auto.
Qed.
Context (float_repr : spec_float -> pystr).
Lemma dump_value : forall v, plain_value v -> forall level, value (dump float_repr level v) v.
Proof.
  fix IH 1. intros v P level. destruct v as [|b|z|f|s|l|d].
  - constructor.
  - destruct b; constructor.
  - constructor. apply int_number.
  - inversion P.
  - cbn [dump]. apply v_string. apply chars_dump. inversion P. auto.
  - assert (F : Forall plain_value l) by (inversion P; auto). clear P. assert (G : Forall (fun v => value (dump float_repr (S level) v) v) l).
    { induction l as [|v l IHl]; [constructor|]. inversion F as [|? ? PV F']; subst. constructor; [apply IH; exact PV|apply IHl; exact F']. }
    destruct l as [|v l]; [apply (v_empty_array []); constructor|].
    assert (X : dump float_repr level (PList (v :: l)) = lit "[" ++ (new_line (S level) ++ join (lit "," ++ new_line (S level)) (map (dump float_repr (S level)) (v :: l)) ++ new_line level) ++ lit "]").
    { cbn [dump]. rewrite <- !app_assoc. reflexivity. }
    rewrite X. apply v_array. apply elements_join; auto using white_line. discriminate.
  - assert (N : NoDup (map fst d)) by (inversion P; auto). assert (T : Forall (fun e => plain_text (fst e)) d) by (inversion P; auto). assert (F : Forall (fun e => plain_value (snd e)) d) by (inversion P; auto). clear P.
    assert (G : Forall (fun e => value (dump float_repr (S level) (snd e)) (snd e)) d).
    { clear N T. induction d as [|[k v] d IHd]; [constructor|]. inversion F as [|? ? PV F']; subst. constructor; [apply IH; exact PV|apply IHd; exact F']. }
    destruct d as [|e d]; [apply (v_empty_object []); constructor|].
    assert (X : dump float_repr level (PDict (e :: d)) = lit "{" ++ (new_line (S level) ++ join (lit "," ++ new_line (S level)) (map (fun e => dump_string (fst e) ++ lit ": " ++ dump float_repr (S level) (snd e)) (e :: d)) ++ new_line level) ++ lit "}").
    { cbn [dump]. rewrite <- !app_assoc. reflexivity. }
    rewrite X. apply (v_object _ (e :: d)); [|apply makes_self; auto]. apply (pairs_join (dump float_repr (S level))); auto using white_line. discriminate.
Qed.
Lemma loads_dumps : forall v, plain_value v -> loads (dumps float_repr v) = Ok v.
Proof. intros v P. apply loads_iff. exists [], (dumps float_repr v), []. split; [rewrite app_nil_r; reflexivity|]. split; [constructor|]. split; [constructor|]. apply dump_value. auto. Qed.

Lemma json_plain_value : forall v, json_plain v = true -> plain_value v.
Proof.
  assert (A : forall s, ascii_str s = true -> plain_text s).
  { intros s H. unfold ascii_str in H. rewrite forallb_forall in H. assert (F : Forall (fun c => 0 <= c < 128) s) by (apply Forall_forall; intros c I; apply H in I; zb; lia). clear H. split; [eapply Forall_impl; [|exact F]; unfold character; intros; cbv beta in *; lia|].
    induction F as [|c s C F IH]; [exact I|]. cbn [no_split_pair]. split; auto. unfold high. lia. }
  assert (K : forall l, distinct_keys l = true -> NoDup l).
  { induction l as [|k l IH]; intros H; [constructor|]. cbn [distinct_keys] in H. zb. constructor; auto. intros I. apply str_in_iff in I. rewrite I in *. discriminate. }
  fix IH 1. intros v P. destruct v as [|b|z|f|s|l|d]; try constructor; cbn [json_plain] in P; try discriminate; auto.
  - induction l as [|v l IHl]; [constructor|]. cbn [forallb] in P. apply andb_true_iff in P as [P1 P2]. constructor; [apply IH; exact P1|apply IHl; exact P2].
  - apply andb_true_iff in P as [P _]. auto.
  - apply andb_true_iff in P as [_ P]. induction d as [|[k v] d IHd]; [constructor|]. cbn [forallb fst snd] in P. apply andb_true_iff in P as [P1 P2]. apply andb_true_iff in P1 as [P1 _]. constructor; [apply A; exact P1|apply IHd; exact P2].
  - apply andb_true_iff in P as [_ P]. induction d as [|[k v] d IHd]; [constructor|]. cbn [forallb fst snd] in P. apply andb_true_iff in P as [P1 P2]. apply andb_true_iff in P1 as [_ P1]. constructor; [apply IH; exact P1|apply IHd; exact P2].
Qed.
Lemma with_json_ok : JsonOk (with_json float_repr E).
Proof. intros v P. cbn [json_loads json_dumps with_json]. apply loads_dumps. apply json_plain_value. auto. Qed.
End WithEnv.

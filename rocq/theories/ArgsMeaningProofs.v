(** What the settings of a command mean. *)
From Coq Require Import String Lia.
From Verif Require Import PyBase Env PyNum Cli Files Args ArgsSpec NumLemmas HexProofs SignProofs ArgsProofs.

Lemma uses_snoc : forall s o' vs o, uses (s ++ [(o', vs)]) o <-> uses s o \/ o' = o.
Proof.
  intros s o' vs o. unfold uses. split.
  - intros (v & I). apply in_app_or in I as [I|[I|[]]]; [left; eauto|]. injection I as -> _. auto.
  - intros [(v & I)| ->]; [exists v; apply in_or_app; auto|]. exists vs. apply in_or_app. right. left. reflexivity.
Qed.
Lemma uses_nil : forall o, ~ uses [] o.
Proof. intros o (v & []). Qed.
Lemma last_same : forall s o v, last_value (s ++ [(o, [v])]) o v.
Proof. intros s o v. exists s, []. split; auto. apply uses_nil. Qed.
Lemma last_other : forall s o o' vs v, o' <> o -> last_value s o v -> last_value (s ++ [(o', vs)]) o v.
Proof.
  intros s o o' vs v N (a & b & -> & U). exists a, (b ++ [(o', vs)]). split; [rewrite <- !app_assoc; reflexivity|]. rewrite uses_snoc. intros [H|H]; auto.
Qed.
Lemma text_same : forall s o d v, text (s ++ [(o, [v])]) o d v.
Proof. intros. left. apply last_same. Qed.
Lemma text_other : forall s o o' vs d v, o' <> o -> text s o d v -> text (s ++ [(o', vs)]) o d v.
Proof. intros s o o' vs d v N [H|[H ->]]; [left; apply last_other; auto|right; split; auto]. rewrite uses_snoc. intros [U|U]; auto. Qed.
Lemma opt_same : forall s o v, optional_text (s ++ [(o, [v])]) o (Some v).
Proof. intros. left. exists v. split; auto. apply last_same. Qed.
Lemma opt_other : forall s o o' vs r, o' <> o -> optional_text s o r -> optional_text (s ++ [(o', vs)]) o r.
Proof. intros s o o' vs r N [(v & H & ->)|[H ->]]; [left; exists v; split; auto; apply last_other; auto|right; split; auto]. rewrite uses_snoc. intros [U|U]; auto. Qed.
Lemma occurrences_none : forall s o, ~ uses s o -> occurrences s o = [].
Proof.
  intros s o. unfold occurrences. induction s as [|[o' vs] s IH]; intros U; [reflexivity|]. cbn [filter fst]. destruct (opt_eq_dec o' o) as [->|N].
  - elim U. exists vs. left. reflexivity.
  - apply IH. intros (v & I). apply U. exists v. right. auto.
Qed.
Lemma occurrences_same : forall s o vs, occurrences (s ++ [(o, vs)]) o = occurrences s o ++ [vs].
Proof.
  intros s o vs. induction s as [|[o' x] s IH].
  - unfold occurrences. cbn [app filter fst]. destruct (opt_eq_dec o o) as [_|N]; [reflexivity|congruence].
  - unfold occurrences in *. cbn [app filter fst]. destruct (opt_eq_dec o' o); cbn [map app]; [f_equal|]; exact IH.
Qed.
Lemma lists_same : forall s o vs r, lists s o r -> lists (s ++ [(o, vs)]) o (append_to r vs).
Proof.
  intros s o vs r H. left. split; [apply uses_snoc; auto|]. rewrite occurrences_same. unfold append_to.
  destruct H as [[U ->]|[U ->]]; [reflexivity|]. rewrite (occurrences_none _ _ U). reflexivity.
Qed.
Lemma lists_other : forall s o o' vs r, o' <> o -> lists s o r -> lists (s ++ [(o', vs)]) o r.
Proof.
  intros s o o' vs r N H. assert (OC : occurrences (s ++ [(o', vs)]) o = occurrences s o).
  { unfold occurrences. rewrite filter_app. cbn [filter fst]. destruct (opt_eq_dec o' o); [contradiction|]. rewrite app_nil_r. reflexivity. }
  unfold lists. rewrite OC, uses_snoc. destruct H as [[U ->]|[U ->]]; [left; auto|right; split; auto]. intros [H|H]; auto.
Qed.
Lemma on_same : forall s o vs, on (s ++ [(o, vs)]) o true.
Proof. intros. split; auto. intros _. apply uses_snoc. auto. Qed.
Lemma on_other : forall s o o' vs b, o' <> o -> on s o b -> on (s ++ [(o', vs)]) o b.
Proof. intros s o o' vs b N H. unfold on in *. rewrite uses_snoc, H. tauto. Qed.

Lemma meaning_nil : meaning [] defaults.
Proof. unfold meaning, text, optional_text, lists, on. cbn. repeat split; try (right; split; [apply uses_nil|reflexivity]); try discriminate; intros H; elim (uses_nil _ H). Qed.
Lemma meaning_snoc : forall s o vs p, (single o -> exists v, vs = [v]) -> o <> O_help -> meaning s p -> meaning (s ++ [(o, vs)]) (store o vs p).
Proof.
  intros s o vs p SH NH M. destruct p. unfold meaning in *. cbn in M.
  repeat match goal with H : _ /\ _ |- _ => destruct H end.
  destruct o; try congruence; try (destruct SH as [v ->]; [apply single_iff; reflexivity|]); cbn;
    repeat split; auto using text_same, opt_same, lists_same; try (apply text_other; [discriminate|assumption]); try (apply opt_other; [discriminate|assumption]); try (apply lists_other; [discriminate|assumption]);
    try (intros _; apply uses_snoc; auto; fail); try (intros H'; apply uses_snoc; left; match goal with Q : on _ _ _ |- _ => apply Q; exact H' end);
    try (intros H'; apply uses_snoc in H' as [H'|H']; [|discriminate]; match goal with Q : on _ ?oo _, U : uses _ ?oo |- _ => apply Q; exact U end).
Qed.

Lemma last_fun : forall s o v v', last_value s o v -> last_value s o v' -> v = v'.
Proof.
  intros s o v v' (a & b & -> & U) (a' & b' & Q & U'). revert a' Q. induction a as [|x a IH]; intros a' Q; destruct a' as [|y a']; cbn [app] in Q.
  - congruence.
  - injection Q as _ Q. elim U. exists [v']. rewrite Q. apply in_or_app. right. left. reflexivity.
  - injection Q as Q1 Q. elim U'. exists [v]. rewrite <- Q. apply in_or_app. right. left. reflexivity.
  - injection Q as _ Q. eauto.
Qed.
Lemma last_uses : forall s o v, last_value s o v -> uses s o.
Proof. intros s o v (a & b & -> & _). exists [v]. apply in_or_app. right. left. reflexivity. Qed.
Lemma text_fun : forall s o d v v', text s o d v -> text s o d v' -> v = v'.
Proof. intros s o d v v' [H|[H ->]] [H'|[H' ->]]; auto; [eapply last_fun; eauto| |]; exfalso; eauto using last_uses. Qed.
Lemma opt_fun : forall s o v v', optional_text s o v -> optional_text s o v' -> v = v'.
Proof. intros s o v v' [(x & H & ->)|[H ->]] [(x' & H' & ->)|[H' ->]]; auto; [f_equal; eapply last_fun; eauto| |]; exfalso; eauto using last_uses. Qed.
Lemma lists_fun : forall s o v v', lists s o v -> lists s o v' -> v = v'.
Proof. intros s o v v' [[H ->]|[H ->]] [[H' ->]|[H' ->]]; auto; contradiction. Qed.
Lemma on_fun : forall s o b b', on s o b -> on s o b' -> b = b'.
Proof. intros s o b b' H H'. unfold on in *. destruct b, b'; auto; [symmetry|]; tauto. Qed.
Lemma meaning_fun : forall s p p', meaning s p -> meaning s p' -> p = p'.
Proof.
  intros s p p' (A1 & A2 & A3 & A4 & A5 & A6 & A7 & A8 & A9 & A10 & A11 & A12 & A13 & A14 & A15 & A16) (B1 & B2 & B3 & B4 & B5 & B6 & B7 & B8 & B9 & B10 & B11 & B12 & B13 & B14 & B15 & B16).
  destruct p, p'. cbn in *.
  rewrite (text_fun _ _ _ _ _ A1 B1), (lists_fun _ _ _ _ A2 B2), (lists_fun _ _ _ _ A3 B3), (opt_fun _ _ _ _ A4 B4), (opt_fun _ _ _ _ A5 B5), (opt_fun _ _ _ _ A6 B6),
    (opt_fun _ _ _ _ A7 B7), (opt_fun _ _ _ _ A8 B8), (opt_fun _ _ _ _ A9 B9), (opt_fun _ _ _ _ A10 B10), (opt_fun _ _ _ _ A11 B11), (text_fun _ _ _ _ _ A12 B12),
    (on_fun _ _ _ _ A13 B13), (on_fun _ _ _ _ A14 B14), (on_fun _ _ _ _ A15 B15), (text_fun _ _ _ _ _ A16 B16). reflexivity.
Qed.

Lemma conflicts_iff : forall a b, conflicts a b = true <-> a <> b /\ ((key_source a /\ key_source b) \/ (data_source a /\ data_source b)).
Proof.
  intros a b. unfold key_source, data_source. split.
  - intros H. destruct a, b; try discriminate H; (split; [discriminate|]); [left|left|left|left|left|left|left|left|left|left|left|left|right|right]; auto.
  - intros (N & [[A B]|[A B]]).
    + destruct A as [->|[->|[->| ->]]], B as [->|[->|[->| ->]]]; try reflexivity; congruence.
    + destruct A as [->| ->], B as [->| ->]; try reflexivity; congruence.
Qed.
Lemma bad_level_iff : forall o vs, (single o -> exists v, vs = [v]) -> (bad_level (o, vs) = false <-> (o = O_log_level -> forall v, vs = [v] -> In v log_levels)).
Proof.
  intros o vs SH. split.
  - intros H -> v ->. cbn [bad_level] in H. apply negb_false_iff in H. apply str_in_In. exact H.
  - intros H. destruct o; try reflexivity. destruct SH as [v ->]; [apply single_iff; reflexivity|]. cbn [bad_level]. apply negb_false_iff, str_in_In. auto.
Qed.

Lemma go_app : forall s x, go_together (s ++ [x]) -> go_together s.
Proof.
  intros s [o vs] (A & B & C & D). split; [|split; [|split]].
  - intros H. apply A, uses_snoc. auto.
  - intros a b Ua Ub. apply B; apply uses_snoc; auto.
  - intros a b Ua Ub. apply C; apply uses_snoc; auto.
  - intros v I. apply D, in_or_app. auto.
Qed.
Lemma go_snoc : forall s o vs, (single o -> exists v, vs = [v]) -> go_together s -> (go_together (s ++ [(o, vs)]) <->
  o <> O_help /\ bad_level (o, vs) = false /\ forall b, uses s b -> conflicts o b = false).
Proof.
  intros s o vs SH G. rewrite (bad_level_iff o vs SH). split.
  - intros (A & B & C & D). split; [intros ->; apply A, uses_snoc; auto|]. split.
    + intros -> v ->. apply D, in_or_app. right. left. reflexivity.
    + intros b U. destruct (conflicts o b) eqn:Q; auto. apply conflicts_iff in Q as (N & [[Ka Kb]|[Ka Kb]]); elim N; [apply B|apply C]; auto; apply uses_snoc; auto.
  - intros (NH & LV & NC). destruct G as (A & B & C & D).
    assert (X : forall b, uses s b -> o <> b -> ~ ((key_source o /\ key_source b) \/ (data_source o /\ data_source b))).
    { intros b U N K. specialize (NC b U). assert (conflicts o b = true) by (apply conflicts_iff; auto). congruence. }
    assert (G : forall P : opt -> Prop, (forall a b, uses s a -> uses s b -> P a -> P b -> a = b) -> (forall b, uses s b -> P o -> P b -> o = b) -> forall a b, uses (s ++ [(o, vs)]) a -> uses (s ++ [(o, vs)]) b -> P a -> P b -> a = b).
    { intros P P1 P2 a b Ua Ub Pa Pb. apply uses_snoc in Ua as [Ua|<-]; apply uses_snoc in Ub as [Ub|<-]; auto. symmetry. auto. }
    split; [intros H; apply uses_snoc in H as [H|H]; auto|]. split; [|split].
    + apply G; auto. intros b U Po Pb. destruct (opt_eq_dec o b) as [Q|Q]; auto. elim (X b U Q). auto.
    + apply G; auto. intros b U Po Pb. destruct (opt_eq_dec o b) as [Q|Q]; auto. elim (X b U Q). auto.
    + intros v I. apply in_app_or in I as [I|[I|[]]]; auto. injection I as -> ->. apply LV; auto.
Qed.

Lemma sets_iff : forall s, shaped s -> (forall p, (exists seen, sets s (defaults, []) = Parsed (p, seen)) <-> go_together s /\ meaning s p) /\
  (forall p seen, sets s (defaults, []) = Parsed (p, seen) -> forall o, In o seen <-> uses s o).
Proof.
  induction s as [|[o vs] s IH] using rev_ind; intros SH.
  - split.
    + intros p. split.
      * intros (seen & H). cbn in H. injection H as <- _. split; [|apply meaning_nil]. split; [apply uses_nil|]. split; [|split]; try (intros a b U; elim (uses_nil _ U)). intros v [].
      * intros [_ M]. exists []. cbn. f_equal. f_equal. apply (meaning_fun []); auto. apply meaning_nil.
    + intros p seen H o. cbn in H. injection H as _ <-. split; [intros []|intros U; elim (uses_nil _ U)].
  - apply Forall_app in SH as [SH SO]. apply Forall_inv in SO. cbn [fst snd] in SO. destruct (IH SH) as [IH1 IH2]. clear IH.
    assert (STEP : forall st, sets [(o, vs)] st = if bad_level (o, vs) then Refused else if existsb (conflicts o) (snd st) then Refused else match o with O_help => Helped | _ => Parsed (store o vs (fst st), o :: snd st) end) by (intros st; destruct o; reflexivity).
    assert (OK : forall p seen, sets (s ++ [(o, vs)]) (defaults, []) = Parsed (p, seen) <-> exists p0 seen0, sets s (defaults, []) = Parsed (p0, seen0) /\ o <> O_help /\ bad_level (o, vs) = false /\ (forall b, uses s b -> conflicts o b = false) /\ p = store o vs p0 /\ seen = o :: seen0).
    { intros p seen. rewrite sets_app. split.
      - intros H. destruct (sets s (defaults, [])) as [[p0 seen0]| | |] eqn:S; try discriminate. cbn [obind] in H. rewrite STEP in H. destruct (bad_level (o, vs)) eqn:BL; [discriminate|].
        destruct (existsb (conflicts o) (snd (p0, seen0))) eqn:EX; [discriminate|]. cbn [fst snd] in *. exists p0, seen0. split; auto.
        assert (NH : o <> O_help) by (intros ->; discriminate). split; auto. split; auto. split.
        + intros b U. apply (IH2 _ _ eq_refl) in U. destruct (conflicts o b) eqn:Q; auto. assert (existsb (conflicts o) seen0 = true) by (apply existsb_exists; eauto). congruence.
        + destruct o; try congruence; injection H as <- <-; auto.
      - intros (p0 & seen0 & S & NH & BL & NC & -> & ->). rewrite S. cbn [obind]. rewrite STEP, BL. cbn [fst snd].
        assert (EX : existsb (conflicts o) seen0 = false).
        { destruct (existsb (conflicts o) seen0) eqn:Q; auto. apply existsb_exists in Q as (b & I & Q). apply (IH2 _ _ S) in I. rewrite (NC b I) in Q. discriminate. }
        rewrite EX. destruct o; try congruence; reflexivity. }
    split.
    + intros p. split.
      * intros (seen & H). apply OK in H as (p0 & seen0 & S & NH & BL & NC & -> & ->). destruct (proj1 (IH1 p0) (ex_intro _ _ S)) as [G M]. split; [apply go_snoc; auto|apply meaning_snoc; auto].
      * intros [G M]. pose proof (go_app _ _ G) as G0. apply (go_snoc s o vs SO G0) in G as (NH & BL & NC).
        assert (EX : exists p0, meaning s p0 /\ exists seen0, sets s (defaults, []) = Parsed (p0, seen0)).
        { clear - SH G0 IH1 IH2. 
          (* no meaning is needed to run *)
          assert (R : forall l, shaped l -> go_together l -> exists p0 seen0, sets l (defaults, []) = Parsed (p0, seen0) /\ forall o, In o seen0 -> uses l o).
          { induction l as [|[o vs] l IH] using rev_ind; intros SH' G.
            - exists defaults, []. split; [reflexivity|]. intros o [].
            - apply Forall_app in SH' as [SH' SO]. apply Forall_inv in SO. cbn [fst snd] in SO. pose proof (go_app _ _ G) as G'. destruct (IH SH' G') as (p0 & seen0 & S & U).
              apply (go_snoc l o vs SO G') in G as (NH & BL & NC). exists (store o vs p0), (o :: seen0). split.
              + rewrite sets_app, S. cbn [obind sets]. rewrite BL. cbn [fst snd]. assert (EX : existsb (conflicts o) seen0 = false).
                { destruct (existsb (conflicts o) seen0) eqn:Q; auto. apply existsb_exists in Q as (b & I & Q). rewrite (NC b (U b I)) in Q. discriminate. }
                rewrite EX. destruct o; try congruence; reflexivity.
              + intros x [<-|I]; apply uses_snoc; auto. }
          destruct (R s SH G0) as (p0 & seen0 & S & _). exists p0. split; [|eauto]. apply (proj1 (IH1 p0)). eauto. }
        destruct EX as (p0 & M0 & seen0 & S). exists (o :: seen0). apply OK. exists p0, seen0. repeat (split; auto). apply (meaning_fun (s ++ [(o, vs)])); auto. apply meaning_snoc; auto.
    + intros p seen H x. apply OK in H as (p0 & seen0 & S & NH & BL & NC & -> & ->). cbn [In]. rewrite uses_snoc, (IH2 _ _ S). tauto.
Qed.

Section WithEnv.
Context {E : Env}.
Lemma parse_iff : forall ws p, parse_args ws = Parsed p <-> exists s, command ws s /\ go_together s /\ meaning s p.
Proof.
  intros ws p. rewrite parse_iff_sets. split.
  - intros (s & seen & C & S). exists s. split; auto. apply (proj1 (sets_iff s (command_shaped _ _ C))). eauto.
  - intros (s & C & G). apply (proj1 (sets_iff s (command_shaped _ _ C))) in G as (seen & G). eauto.
Qed.
End WithEnv.

(** What happens to a command whose settings do not go together. *)
Section Outcomes.
Context {E : Env}.
Lemma parse_command : forall ws s, command ws s -> parse_args ws = obind (sets s (defaults, [])) (fun st => Parsed (fst st)).
Proof.
  intros ws s C. unfold parse_args. destruct (loop_complete _ _ C) as (l & M & N & _ & L). apply (classify_marked ws N) in M. rewrite M, L by auto.
  destruct (sets s (defaults, [])); reflexivity.
Qed.
Lemma sets_exits : forall s st, shaped s -> match sets s st with Raised _ => False | _ => True end.
Proof.
  induction s as [|[o vs] s IH]; intros st SH; [exact I|]. inversion SH as [|x l SO SH']; subst. cbn [sets].
  destruct (bad_level (o, vs)); [exact I|]. destruct (existsb (conflicts o) (snd st)); [exact I|]. destruct o; try exact I; apply IH; auto.
Qed.
Lemma sets_run : forall s, shaped s -> go_together s -> exists p seen, sets s (defaults, []) = Parsed (p, seen) /\ meaning s p.
Proof.
  intros s. induction s as [|[o vs] s IH] using rev_ind; intros SH G.
  - exists defaults, []. split; [reflexivity|apply meaning_nil].
  - pose proof SH as SH0. apply Forall_app in SH as [SH SO]. apply Forall_inv in SO. cbn [fst snd] in SO. pose proof (go_app _ _ G) as G0. destruct (IH SH G0) as (p0 & seen0 & S & M0).
    assert (X : exists seen, sets (s ++ [(o, vs)]) (defaults, []) = Parsed (store o vs p0, seen)).
    { apply (proj1 (sets_iff (s ++ [(o, vs)]) SH0)). split; auto. apply meaning_snoc; auto. intros ->. apply G. apply uses_snoc. auto. }
    destruct X as (seen & X). exists (store o vs p0), seen. split; auto. apply meaning_snoc; auto. intros ->. apply G. apply uses_snoc. auto.
Qed.
Lemma meaning_exists : forall ws s, command ws s -> go_together s -> exists p, meaning s p.
Proof. intros ws s C G. destruct (sets_run s (command_shaped _ _ C) G) as (p & _ & _ & M). eauto. Qed.
Lemma sets_help : forall s, shaped s -> (sets s (defaults, []) = Helped <-> exists a vs b, s = a ++ (O_help, vs) :: b /\ go_together a).
Proof.
  intros s SH. split.
  - assert (G : forall b a p seen, shaped (a ++ b) -> sets a (defaults, []) = Parsed (p, seen) -> sets b (p, seen) = Helped -> exists a' vs b', a ++ b = a' ++ (O_help, vs) :: b' /\ go_together a').
    { induction b as [|[o vs] b IH]; intros a p seen SA A B; [discriminate|].
      assert (SA' : shaped a) by (apply Forall_app in SA as [? _]; auto).
      assert (GA : go_together a) by (apply (proj1 (sets_iff a SA') p); eauto).
      destruct (opt_eq_dec o O_help) as [->|N]; [exists a, vs, b; auto|].
      change ((o, vs) :: b) with ([(o, vs)] ++ b) in B. rewrite sets_app in B. destruct (sets [(o, vs)] (p, seen)) as [[p1 seen1]| | |] eqn:S1; try discriminate.
      - cbn [obind] in B. destruct (IH (a ++ [(o, vs)]) p1 seen1) as (a' & vs' & b' & Q & G'); auto.
        + rewrite <- app_assoc. exact SA.
        + rewrite sets_app, A. exact S1.
        + exists a', vs', b'. split; auto. rewrite <- Q, <- app_assoc. reflexivity.
      - exfalso. cbn [sets] in S1. destruct (bad_level (o, vs)); [discriminate|]. destruct (existsb _ _); [discriminate|]. destruct o; try discriminate. congruence. }
    intros H. exact (G s [] defaults [] SH eq_refl H).
  - intros (a & vs & b & -> & G). apply Forall_app in SH as [SA _]. destruct (sets_run a SA G) as (p & seen & S & _). rewrite sets_app, S. cbn [obind sets]. cbn [bad_level].
    assert (X : existsb (conflicts O_help) (snd (p, seen)) = false) by (destruct (existsb (conflicts O_help) (snd (p, seen))) eqn:Q; auto; apply existsb_exists in Q as (x & _ & Q); discriminate).
    rewrite X. reflexivity.
Qed.
Lemma switches_values : forall w l, switches w l -> forall o vs, In (o, vs) l -> vs = [].
Proof. intros w l H. induction H as [|o c w l _ _ _ IH]; intros o' vs I; [destruct I|]. destruct I as [I|I]; [injection I as _ <-; reflexivity|eauto]. Qed.
Lemma command_switch : forall ws s, command ws s -> forall o vs, switch o -> In (o, vs) s -> vs = [].
Proof.
  intros ws s C. induction C as [|ws s ws' s' P C IH]; intros o vs W I; [destruct I|]. apply in_app_or in I as [I|I]; [|eauto].
  assert (L1 : forall o', single o' -> o' = o -> False) by (intros o' [S _] ->; contradiction).
  assert (L2 : forall o', listed o' -> o' = o -> False) by (intros o' [-> | ->] <-; destruct W as [W|[W|[W|W]]]; discriminate).
  destruct P; try (destruct I as [I|[]]; injection I as -> <-; auto; try contradiction; exfalso; eauto; fail).
  - eapply switches_values; eauto.
  - apply in_app_or in I as [I|[I|[]]]; [eapply switches_values; eauto|]. injection I as -> <-. exfalso. eauto.
  - apply in_app_or in I as [I|[I|[]]]; [eapply switches_values; eauto|]. injection I as -> <-. exfalso. eauto.
Qed.
Lemma parse_help : forall ws s, command ws s -> (parse_args ws = Helped <-> exists a b, s = a ++ (O_help, []) :: b /\ go_together a).
Proof.
  intros ws s C. rewrite (parse_command ws s C). pose proof (command_shaped _ _ C) as SH.
  assert (X : obind (sets s (defaults, [])) (fun st => Parsed (fst st)) = Helped <-> sets s (defaults, []) = Helped) by (destruct (sets s (defaults, [])); cbn [obind]; split; try discriminate; auto).
  rewrite X, (sets_help s SH). split.
  - intros (a & vs & b & -> & G). exists a, b. split; auto. f_equal. f_equal. f_equal.
    apply (command_switch _ _ C O_help vs); [left; reflexivity|]. apply in_or_app. right. left. reflexivity.
  - intros (a & b & -> & G). exists a, [], b. auto.
Qed.
Lemma parse_refused : forall ws s, command ws s -> (parse_args ws = Refused <-> ~ go_together s /\ ~ exists a b, s = a ++ (O_help, []) :: b /\ go_together a).
Proof.
  intros ws s C. rewrite <- (parse_help ws s C). pose proof (sets_exits s (defaults, []) (command_shaped _ _ C)) as X. rewrite (parse_command ws s C). split.
  - intros H. split; [|rewrite H; discriminate]. intros G. destruct (sets_run s (command_shaped _ _ C) G) as (p & seen & S & _). rewrite S in H. discriminate.
  - intros [NG NH]. destruct (sets s (defaults, [])) as [[p seen]| | |] eqn:S; [|reflexivity|elim NH; reflexivity|contradiction].
    elim NG. apply (proj1 (sets_iff s (command_shaped _ _ C)) p). eauto.
Qed.
End Outcomes.

(** C56, C60, C61: logger configuration. *)
From Coq Require Import String Floats.SpecFloat Lia.
From Verif Require Import PyBase Env PyNum Validate Spec EnvOk Logger LogSpec Demo.
From Verif Require Import HexProofs.
Open Scope Z_scope.

Section WithEnv.
Context {E : Env}.

Lemma level_of_iff : forall s n, level_of s = Ok n <-> level_named s n.
Proof.
  intros s n. unfold level_of, level_named. split.
  - destruct (str_eqb s (lit "error")) eqn:A; [apply str_eqb_eq in A; injection 1 as <-; auto|].
    destruct (str_eqb s (lit "warning")) eqn:B; [apply str_eqb_eq in B; injection 1 as <-; auto|].
    destruct (str_eqb s (lit "info")) eqn:C; [apply str_eqb_eq in C; injection 1 as <-; auto|].
    destruct (str_eqb s (lit "debug")) eqn:D; [apply str_eqb_eq in D; injection 1 as <-; auto|discriminate].
  - intros [[-> ->]|[[-> ->]|[[-> ->]|[-> ->]]]]; reflexivity.
Qed.

(** C56.  What one call does, completely: nothing to an initialised logger; with proper arguments it adds a console handler and, if asked, a
    file handler, and sets the level (but if the log directory cannot be created it fails and leaves the console handler); with
    improper arguments it fails and leaves level and handlers alone. *)
Lemma c56_call : forall l c,
  (lg_initialised l = true -> configure_module_logger l c = (Ok tt, l)) /\
  (lg_initialised l = false ->
    (forall n ts, log_args c n ts None -> configure_module_logger l c = (Ok tt, mk_logger true false n (lg_handlers l ++ added n ts None))) /\
    (forall n ts f, log_args c n ts (Some f) -> lc_makedirs c = Ok tt -> configure_module_logger l c = (Ok tt, mk_logger true false n (lg_handlers l ++ added n ts (Some f)))) /\
    (forall n ts f e, log_args c n ts (Some f) -> lc_makedirs c = Err e -> configure_module_logger l c = (Err e, mk_logger false false n (lg_handlers l ++ added n ts None))) /\
    ((forall n ts file, ~ log_args c n ts file) ->
       exists e p, configure_module_logger l c = (Err e, mk_logger false p (lg_level l) (lg_handlers l)) /\ (e = TypeError \/ e = KeyError))).
Proof.
  intros l c. split. { intros I. unfold configure_module_logger. rewrite I. auto. }
  intros I. unfold configure_module_logger. rewrite I.
  assert (V : forall n ts file, log_args c n ts file -> validate_log_args c = Ok tt /\ truthy (lc_log_timestamp c) = ts /\
    level_of (if truthy (lc_debug c) then lit "debug" else match lc_log_level c with PStr s => s | _ => [] end) = Ok n).
  { intros n ts file ((name & dbg & A1 & A2 & LN) & TS & FI). unfold validate_log_args. rewrite A1, A2. cbn [validate_string validate_boolean bind truthy].
    split; [|split; [destruct TS as [[-> ->]| ->]; reflexivity|apply level_of_iff; auto]].
    assert (X : (if is_none (lc_log_timestamp c) then Ok tt else validate_boolean (lc_log_timestamp c)) = Ok tt) by (destruct TS as [[-> ->]| ->]; reflexivity).
    rewrite X. cbn [bind]. destruct file as [f|]; [destruct FI as [-> _]; reflexivity|destruct FI as [-> | ->]; reflexivity]. }
  split; [|split; [|split]].
  - intros n ts A. destruct (V _ _ _ A) as (-> & -> & ->). destruct A as (_ & _ & [-> | ->]); reflexivity.
  - intros n ts f A M. destruct (V _ _ _ A) as (-> & -> & ->). destruct A as (_ & _ & [-> N]). destruct f as [|x r]; [congruence|]. rewrite M. unfold added. cbn [lg_handlers]. rewrite <- app_assoc. reflexivity.
  - intros n ts f e A M. destruct (V _ _ _ A) as (-> & -> & ->). destruct A as (_ & _ & [-> N]). destruct f as [|x r]; [congruence|]. rewrite M. reflexivity.
  - intros N. assert (LE : mk_logger false (lg_propagate l) (lg_level l) (lg_handlers l) = l) by (destruct l; cbn in *; congruence).
    destruct (validate_log_args c) as [u|e] eqn:VA.
    + destruct (level_of _) as [n|e] eqn:LO.
      * exfalso. unfold validate_log_args in VA. destruct (lc_log_level c) as [| | | |name| |] eqn:A1; try discriminate. destruct (lc_debug c) as [|dbg| | | | |] eqn:A2; try discriminate.
        cbn [validate_string validate_boolean bind] in VA. inv_bind VA u1 U1. apply level_of_iff in LO. cbn [truthy] in LO.
        assert (TS : exists ts, (lc_log_timestamp c = PNone /\ ts = false) \/ lc_log_timestamp c = PBool ts).
        { destruct (lc_log_timestamp c) as [|b| | | | |]; try discriminate U1; [exists false|exists b]; auto. }
        destruct TS as (ts & TS).
        destruct (lc_log_file c) as [| | | |[|x f]| |] eqn:A4; try discriminate VA.
        -- apply (N n ts None). unfold log_args. rewrite A1, A2, A4. eauto 10.
        -- apply (N n ts None). unfold log_args. rewrite A1, A2, A4. eauto 10.
        -- apply (N n ts (Some (x :: f))). unfold log_args. rewrite A1, A2, A4. split; [eauto 10|]. split; auto. split; auto. discriminate.
      * exists e, false. split; auto. right. unfold level_of in LO. repeat (destruct (str_eqb _ _); [discriminate|]). congruence.
    + exists e, (lg_propagate l). rewrite LE. split; auto. left. unfold validate_log_args in VA.
      destruct (lc_log_level c); try (cbn in VA; congruence). destruct (lc_debug c); try (cbn in VA; congruence). cbn [validate_string validate_boolean bind] in VA.
      destruct (lc_log_timestamp c); cbn [is_none validate_boolean bind] in VA; try congruence; destruct (lc_log_file c); cbn in VA; congruence.
Qed.

(** C56.  Once a call has succeeded, no later call changes the logger. *)
Lemma c56_frozen : forall l c l', configure_module_logger l c = (Ok tt, l') -> lg_initialised l' = true /\ forall cs, run_calls l' cs = l'.
Proof.
  intros l c l' H. assert (I : lg_initialised l' = true).
  { unfold configure_module_logger in H. destruct (lg_initialised l) eqn:IL; [injection H as <-; auto|]. destruct (validate_log_args c); [|discriminate].
    destruct (level_of _); [|discriminate]. destruct (lc_log_file c) as [| | | |[|x r]| |]; try (injection H as <-; reflexivity). destruct (lc_makedirs c); [|discriminate]. injection H as <-. reflexivity. }
  split; auto. intros cs. induction cs as [|c' cs IH]; auto. cbn [run_calls]. rewrite (proj1 (c56_call l' c') I). exact IH.
Qed.

(** C56.  After any history of calls in which the log directory could always be created, a module logger either never had a proper call
    and has its initial handlers and level, or has exactly the handlers and level asked for by the first proper call. *)
Lemma c56_history : forall cs, Forall (fun c => lc_makedirs c = Ok tt) cs ->
  let l := run_calls fresh_logger cs in
  (lg_initialised l = false /\ lg_level l = 40 /\ lg_handlers l = [NullHandler] /\ (forall c n ts file, In c cs -> ~ log_args c n ts file)) \/
  (exists before c after n ts file, cs = before ++ c :: after /\ (forall c' n ts file, In c' before -> ~ log_args c' n ts file) /\ log_args c n ts file /\
     l = mk_logger true false n (NullHandler :: added n ts file)).
Proof.
  intros cs F. cbv zeta. 
  assert (G : forall l0, lg_initialised l0 = false -> let l := run_calls l0 cs in
    (lg_initialised l = false /\ lg_level l = lg_level l0 /\ lg_handlers l = lg_handlers l0 /\ (forall c n ts file, In c cs -> ~ log_args c n ts file)) \/
    (exists before c after n ts file, cs = before ++ c :: after /\ (forall c' n ts file, In c' before -> ~ log_args c' n ts file) /\ log_args c n ts file /\
     l = mk_logger true false n (lg_handlers l0 ++ added n ts file))).
  { cbv zeta. induction F as [|c cs M F IH]; intros l0 I; [left; cbn; auto|]. cbn [run_calls]. destruct (c56_call l0 c) as [_ K]. destruct (K I) as (K1 & K2 & _ & K4). clear K.
    assert (D : (exists n ts file, log_args c n ts file) \/ (forall n ts file, ~ log_args c n ts file)).
    { destruct (configure_module_logger l0 c) as [r l1] eqn:CF. destruct (lc_debug c) as [|dbg| | | | |] eqn:A2; try (right; intros n ts file ((nm & dd & _ & Q & _) & _); congruence).
      destruct (lc_log_level c) as [| | | |name| |] eqn:A1; try (right; intros n ts file ((nm & dd & Q & _) & _); congruence).
      destruct (level_of (if dbg then lit "debug" else name)) as [n|e] eqn:LO.
      2: { right. intros n ts file ((nm & dd & Q1 & Q2 & LN) & _). rewrite A1 in Q1. rewrite A2 in Q2. injection Q1 as <-. injection Q2 as <-. apply level_of_iff in LN. congruence. }
      apply level_of_iff in LO. assert (LN : exists nm d, lc_log_level c = PStr nm /\ lc_debug c = PBool d /\ level_named (if d then lit "debug" else nm) n) by (exists name, dbg; auto).
      destruct (lc_log_timestamp c) as [|b| | | | |] eqn:A3; try (right; intros n0 ts file (_ & [[Q _]|Q] & _); congruence);
      (destruct (lc_log_file c) as [| | | |[|x f]| |] eqn:A4; try (right; intros n0 ts [f0|] (_ & _ & Q); [destruct Q; congruence|destruct Q; congruence])); left;
      [exists n, false, None|exists n, false, None|exists n, false, (Some (x :: f))|exists n, b, None|exists n, b, None|exists n, b, (Some (x :: f))]; unfold log_args; rewrite ?A1, ?A2, ?A3, ?A4 in *;
      (split; [exact LN|]); (split; [auto|]); auto; split; auto; discriminate. }
    destruct D as [(n & ts & file & A)|N].
    - right. exists [], c, cs, n, ts, file. split; auto. split; [intros ? ? ? ? []|]. split; auto.
      assert (X : configure_module_logger l0 c = (Ok tt, mk_logger true false n (lg_handlers l0 ++ added n ts file))) by (destruct file; auto).
      rewrite X. cbn [snd]. eapply c56_frozen. exact X.
    - destruct (K4 N) as (e & p & X & _). rewrite X. cbn [snd].
      destruct (IH (mk_logger false p (lg_level l0) (lg_handlers l0)) eq_refl) as [(A1 & A2 & A3 & A4)|(bf & c' & af & n & ts & file & -> & B & A & Q)].
      + left. split; auto. split; auto. split; auto. intros c' n ts file [<-|In']; auto.
      + right. exists (c :: bf), c', af, n, ts, file. split; auto. split; [|auto]. intros c2 n2 ts2 f2 [<-|In']; eauto. }
  exact (G fresh_logger eq_refl).
Qed.

Lemma validate_types : forall c, validate_log_args c = Ok tt <-> log_types c.
Proof.
  intros c. unfold validate_log_args, log_types. destruct (lc_log_level c); cbn [validate_string bind]; try (split; [discriminate|intros ((? & Q) & _); discriminate]).
  destruct (lc_debug c); cbn [validate_boolean bind]; try (split; [discriminate|intros (_ & (? & Q) & _); discriminate]).
  destruct (lc_log_timestamp c); cbn [is_none validate_boolean bind]; try (split; [discriminate|intros (_ & _ & [Q|(? & Q)] & _); discriminate]);
    (destruct (lc_log_file c); cbn [is_none validate_string]; try (split; [discriminate|intros (_ & _ & _ & [Q|(? & Q)]); discriminate])); split; eauto 12.
Qed.
(** C56.  After any history of calls, the logger passes its messages on to its ancestors exactly if no call had arguments of the right types. *)
Lemma c56_propagate : forall cs, lg_propagate (run_calls fresh_logger cs) = true <-> (forall c, In c cs -> ~ log_types c).
Proof.
  assert (ONE : forall l c, lg_initialised l = false -> (log_types c -> lg_propagate (snd (configure_module_logger l c)) = false) /\ (~ log_types c -> snd (configure_module_logger l c) = l)).
  { intros l c I. unfold configure_module_logger. rewrite I. split.
    - intros T. apply validate_types in T. rewrite T. cbv zeta. destruct (level_of _); [|reflexivity]. destruct (lc_log_file c) as [| | | |[|x f]| |]; try reflexivity. destruct (lc_makedirs c); reflexivity.
    - intros T. destruct (validate_log_args c) as [[]|e] eqn:V; [apply validate_types in V; tauto|reflexivity]. }
  assert (FIN : forall cs l, lg_propagate l = false -> lg_propagate (run_calls l cs) = false).
  { induction cs as [|c cs IH]; intros l P; auto. cbn [run_calls]. apply IH. destruct (lg_initialised l) eqn:I; [unfold configure_module_logger; rewrite I; exact P|].
    unfold configure_module_logger. rewrite I. cbv zeta. destruct (validate_log_args c); [|exact P]. destruct (level_of _); [|reflexivity]. destruct (lc_log_file c) as [| | | |[|x f]| |]; try reflexivity. destruct (lc_makedirs c); reflexivity. }
  assert (DEC : forall c, log_types c \/ ~ log_types c). { intros c. rewrite <- validate_types. destruct (validate_log_args c) as [[]|]; auto. right. discriminate. }
  induction cs as [|c cs IH]; [split; [intros _ c []|reflexivity]|]. cbn [run_calls]. destruct (DEC c) as [T|T].
  - rewrite FIN by (apply ONE; auto). split; [discriminate|]. intros H. elim (H c); [now left|exact T].
  - rewrite (proj2 (ONE fresh_logger c eq_refl) T), IH. split; [intros H c' [<-|I]; auto|intros H c' I; apply H; now right].
Qed.

(** C56, naive claim "however often setup is called, there is at most one console handler" refuted: each call that fails to create the log
    directory leaves one. *)
Lemma c56_twice_refuted : exists c1 c2 l, run_calls fresh_logger [c1; c2] = l /\ fst (configure_module_logger fresh_logger c1) = Err LibraryError /\
  lg_initialised l = true /\ lg_handlers l = [NullHandler; ConsoleHandler 40 false; ConsoleHandler 40 false].
Proof.
  exists (mk_call (PStr (lit "error")) (PBool false) (PBool false) (PStr (lit "no/such/dir")) (Err LibraryError)), (mk_call (PStr (lit "error")) (PBool false) (PBool false) PNone (Ok tt)).
  eexists. split; [reflexivity|]. split; [reflexivity|]. split; reflexivity.
Qed.

(** C60.  Package setup: if it returns normally then every logger is initialised, those that were before are unchanged, and the others
    all have the level asked for. *)
Lemma c60_setup_ok : forall ls c dirs n ls', setup_all ls c dirs n = (Ok tt, ls') ->
  Forall2 (fun l l' => lg_initialised l' = true /\ (lg_initialised l = true -> l' = l) /\
    (lg_initialised l = false -> exists lvl ts file, log_args c lvl ts file /\ l' = mk_logger true false lvl (lg_handlers l ++ added lvl ts file))) ls ls'.
Proof.
  intros ls c dirs. induction ls as [|l r IH]; intros n ls' H; cbn [setup_all] in H; [injection H as <-; constructor|].
  set (c' := mk_call _ _ _ _ _) in H. destruct (configure_module_logger l c') as [[[]|e] l1] eqn:CF; [|discriminate]. destruct (setup_all r c dirs (S n)) as [y r'] eqn:SA. injection H as -> <-.
  constructor; [|eapply IH; eauto]. destruct (c56_frozen _ _ _ CF) as [I _]. split; auto. destruct (c56_call l c') as [K1 K2]. split.
  - intros IL. rewrite (K1 IL) in CF. congruence.
  - intros IL. destruct (K2 IL) as (A & B & C & D).
    assert (LA : forall lvl ts file, log_args c' lvl ts file <-> log_args c lvl ts file) by (intros; reflexivity).
    assert (X : ~ forall n ts file, ~ log_args c' n ts file) by (intros N; destruct (D N) as (e & p & Q & _); congruence).
    unfold configure_module_logger in CF. rewrite IL in CF. destruct (validate_log_args c') as [u|] eqn:VA; [|discriminate]. destruct (level_of _) as [lvl|] eqn:LO; [|discriminate].
    unfold validate_log_args in VA. destruct (lc_log_level c') as [| | | |name| |] eqn:A1; try discriminate. destruct (lc_debug c') as [|dbg| | | | |] eqn:A2; try discriminate.
    cbn [validate_string validate_boolean bind] in VA. inv_bind VA u1 U1. apply level_of_iff in LO. cbn [truthy] in LO.
    assert (TS : (lc_log_timestamp c' = PNone /\ truthy (lc_log_timestamp c') = false) \/ lc_log_timestamp c' = PBool (truthy (lc_log_timestamp c'))).
    { destruct (lc_log_timestamp c') as [|b| | | | |]; try discriminate U1; auto. }
    destruct (lc_log_file c') as [| | | |[|x f]| |] eqn:A4; try discriminate VA.
    + exists lvl, (truthy (lc_log_timestamp c')), None. split; [|injection CF as <-; auto]. apply (proj1 (LA _ _ _)). unfold log_args. rewrite A1, A2, A4. eauto 10.
    + exists lvl, (truthy (lc_log_timestamp c')), None. split; [|injection CF as <-; auto]. apply (proj1 (LA _ _ _)). unfold log_args. rewrite A1, A2, A4. eauto 10.
    + exists lvl, (truthy (lc_log_timestamp c')), (Some (x :: f)). split.
      * apply (proj1 (LA _ _ _)). unfold log_args. rewrite A1, A2, A4. split; [eauto 10|]. split; auto. split; auto. discriminate.
      * destruct (lc_makedirs c'); [|discriminate]. injection CF as <-. cbn [lg_handlers]. rewrite <- app_assoc. reflexivity.
Qed.

(** C60.  If package setup fails, it fails at some logger: those before it are initialised, those after it untouched. *)
Lemma c60_setup_failed : forall ls c dirs n e ls', setup_all ls c dirs n = (Err e, ls') ->
  exists before l after before' l', ls = before ++ l :: after /\ ls' = before' ++ l' :: after /\ length before' = length before /\
    Forall (fun x => lg_initialised x = true) before' /\ lg_initialised l = false /\ lg_initialised l' = false.
Proof.
  intros ls c dirs. induction ls as [|l r IH]; intros n e ls' H; cbn [setup_all] in H; [discriminate|].
  set (c' := mk_call _ _ _ _ _) in H. destruct (configure_module_logger l c') as [[[]|e1] l1] eqn:CF.
  - destruct (setup_all r c dirs (S n)) as [y r'] eqn:SA. injection H as -> <-. destruct (IH _ _ _ SA) as (bf & l2 & af & bf' & l2' & -> & -> & L & F & I1 & I2).
    exists (l :: bf), l2, af, (l1 :: bf'), l2'. split; auto. split; auto. split; [cbn; lia|]. split; auto. constructor; auto. eapply c56_frozen. eauto.
  - injection H as -> <-. exists [], l, r, [], l1. split; auto. split; auto. split; auto. split; auto.
    destruct (lg_initialised l) eqn:IL. { rewrite (proj1 (c56_call l c') IL) in CF. discriminate. } split; auto.
    unfold configure_module_logger in CF. rewrite IL in CF. destruct (validate_log_args c'); [|injection CF as _ <-; auto]. destruct (level_of _); [|injection CF as _ <-; auto].
    destruct (lc_log_file c') as [| | | |[|x f]| |]; try discriminate. destruct (lc_makedirs c'); [discriminate|]. injection CF as _ <-. auto.
Qed.

(** C61.  A freshly configured logger writes exactly the messages of the configured level or above, to the console and to the log file if
    there is one. *)
Lemma c61_emitted : forall c l n ts file m, log_args c n ts file -> configure_module_logger fresh_logger c = (Ok tt, l) ->
  filter (fun h => match h with NullHandler => false | _ => true end) (emit l m) = if n <=? m then added n ts file else [].
Proof.
  intros c l n ts file m A H. destruct (c56_call fresh_logger c) as [_ K]. destruct (K eq_refl) as (K1 & K2 & K3 & _). clear K.
  assert (L : l = mk_logger true false n (lg_handlers fresh_logger ++ added n ts file)).
  { destruct file as [f|]; [|rewrite (K1 _ _ A) in H; congruence]. destruct (lc_makedirs c) as [[]|e] eqn:M; [rewrite (K2 _ _ _ A eq_refl) in H; congruence|]. rewrite (K3 _ _ _ _ A eq_refl) in H. discriminate. }
  subst l. unfold emit. cbn [lg_level lg_handlers fresh_logger app]. destruct (n <=? m) eqn:Q; auto. unfold added. cbn [filter handler_level]. rewrite Q.
  destruct (0 <=? m); cbn [filter]; destruct file; cbn [filter handler_level]; rewrite ?Q; reflexivity.
Qed.

(** C61.  Before any set-up a module is silent: its messages reach no console and no file, and those below the level ERROR reach no handler at all. *)
Lemma c61_silent : forall m, emit fresh_logger m = if 40 <=? m then [NullHandler] else [].
Proof. intros m. unfold emit. cbn [lg_level lg_handlers fresh_logger filter handler_level]. destruct (Z.leb_spec 40 m); [|reflexivity]. destruct (Z.leb_spec 0 m); [reflexivity|lia]. Qed.

(** C61, naive claim "after setLevelStr the messages of the new level or above are written" refuted: the handlers keep their level, so
    messages below the configured level are still not written. *)
Lemma c61_set_level_refuted : forall c l n ts file name k l' m, log_args c n ts file -> configure_module_logger fresh_logger c = (Ok tt, l) ->
  level_named name k -> set_level_str l name = (Ok tt, l') -> m < n ->
  filter (fun h => match h with NullHandler => false | _ => true end) (emit l' m) = [].
Proof.
  intros c l n ts file name k l' m A H LN SL Lt. destruct (c56_call fresh_logger c) as [_ K]. destruct (K eq_refl) as (K1 & K2 & K3 & _). clear K.
  assert (L : l = mk_logger true false n (lg_handlers fresh_logger ++ added n ts file)).
  { destruct file as [f|]; [|rewrite (K1 _ _ A) in H; congruence]. destruct (lc_makedirs c) as [[]|e] eqn:M; [rewrite (K2 _ _ _ A eq_refl) in H; congruence|]. rewrite (K3 _ _ _ _ A eq_refl) in H. discriminate. }
  subst l. apply level_of_iff in LN. unfold set_level_str in SL. rewrite LN in SL. injection SL as <-. unfold emit. cbn [lg_level lg_handlers fresh_logger app].
  destruct (k <=? m); auto. unfold added. cbn [filter handler_level]. replace (n <=? m) with false by (symmetry; apply Z.leb_gt; lia).
  destruct (0 <=? m); cbn [filter]; destruct file; cbn [filter handler_level]; rewrite ?(proj2 (Z.leb_gt n m) Lt); reflexivity.
Qed.

End WithEnv.

(** Concrete cases: a proper call, an improper one, a failing one, and package setup with ten loggers. *)
Example ex56_calls : log_args (mk_call (PStr (lit "info")) (PBool false) PNone (PStr (lit "a.log")) (Ok tt)) 20 false (Some (lit "a.log")) /\
  (forall n ts file, ~ log_args (mk_call (PStr (lit "verbose")) (PBool false) PNone PNone (Ok tt)) n ts file) /\
  run_calls fresh_logger [mk_call (PStr (lit "verbose")) (PBool false) PNone PNone (Ok tt); mk_call (PStr (lit "info")) (PBool false) PNone (PStr (lit "a.log")) (Ok tt);
    mk_call (PStr (lit "debug")) (PBool true) PNone PNone (Ok tt)] = mk_logger true false 20 [NullHandler; ConsoleHandler 20 false; FileHandler (lit "a.log") 20 false].
Proof.
  split; [|split; [|reflexivity]].
  - split; [exists (lit "info"), false; split; auto; split; auto; right; right; left; auto|]. split; auto. split; auto. discriminate.
  - intros n ts file ((nm & d & Q1 & Q2 & LN) & _). cbn [lc_log_level lc_debug] in *. injection Q1 as <-. injection Q2 as <-. destruct LN as [[Q _]|[[Q _]|[[Q _]|[Q _]]]]; discriminate.
Qed.
Example ex60_setup : setup_all (repeat fresh_logger 10) (mk_call (PStr (lit "error")) (PBool true) (PBool true) PNone (Ok tt)) (fun _ => Ok tt) 0 =
    (Ok tt, repeat (mk_logger true false 10 [NullHandler; ConsoleHandler 10 true]) 10) /\
  setup_all (repeat fresh_logger 2) (mk_call (PStr (lit "error")) (PBool false) (PBool false) (PStr (lit "d/f")) (Ok tt)) (fun n => match n with O => Ok tt | _ => Err LibraryError end) 0 =
    (Err LibraryError, [mk_logger true false 40 [NullHandler; ConsoleHandler 40 false; FileHandler (lit "d/f") 40 false]; mk_logger false false 40 [NullHandler; ConsoleHandler 40 false]]).
Proof. split; reflexivity. Qed.
Example ex61_levels : exists c l l', log_args c 40 false None /\ configure_module_logger fresh_logger c = (Ok tt, l) /\ set_level_str l (lit "debug") = (Ok tt, l') /\
  emit l' 10 = [NullHandler] /\ emit l' 40 = [NullHandler; ConsoleHandler 40 false].
Proof.
  exists (mk_call (PStr (lit "error")) (PBool false) PNone PNone (Ok tt)). eexists. eexists. split; [|split; [reflexivity|split; [reflexivity|split; reflexivity]]].
  split; [exists (lit "error"), false; split; auto; split; auto; left; auto|]. split; auto.
Qed.

(** Every message of the command line parser has one of the reasons of C103. *)
From Coq Require Import String Lia.
From Verif Require Import PyBase Env PyNum Cli Files Args ArgsSpec ArgsSays ArgsSaysSpec NumLemmas HexProofs SignProofs ArgsProofs ArgsMeaningProofs ArgsSaysProofs ArgsSaysWordsProofs.

Section WithEnv.
Context {E : Env} (repr : pyval -> pystr).

(** * A tail that cannot be values *)
Definition no_value (tl : list (pystr * mark)) : Prop := forall w r, tl <> (w, MA) :: r.
Lemma span_tail : forall m tl, no_value tl -> span_args (m ++ tl) = let '(a, b) := span_args m in (a, b ++ tl).
Proof.
  induction m as [|[w k] m IH]; intros tl N.
  - cbn [app span_args]. destruct tl as [|[w k] tl]; [reflexivity|]. cbn [span_args]. destruct k; [elim (N w tl eq_refl)|reflexivity|reflexivity].
  - cbn [app span_args]. destruct k; try reflexivity. rewrite IH by auto. destruct (span_args m) as [a b]. reflexivity.
Qed.
Lemma from_tail : forall o m tl, no_value tl -> says_from_words o (m ++ tl) = sbind (says_from_words o m) (fun '(a, r) => Takes (a, r ++ tl)).
Proof.
  intros o m tl N. unfold says_from_words. destruct (nargs o); [reflexivity| |].
  - destruct m as [|[w k] m]; [|destruct k; reflexivity]. cbn [app]. destruct tl as [|[w k] tl]; [reflexivity|]. destruct k; [elim (N w tl eq_refl)|reflexivity|reflexivity].
  - rewrite span_tail by auto. destruct (span_args m) as [[|a l] b]; reflexivity.
Qed.
Lemma unbundle_tail : forall e o m tl, no_value tl -> says_unbundle repr o e (m ++ tl) = sbind (says_unbundle repr o e m) (fun '(a, r) => Takes (a, r ++ tl)).
Proof.
  induction e as [|c e IH]; intros o m tl N; cbn [says_unbundle]; destruct (nargs o); try reflexivity. destruct (find_option [45; c]) as [o'|]; [|reflexivity]. destruct e as [|d e].
  - rewrite from_tail by auto. destruct (says_from_words o' m) as [[a r]| | |]; reflexivity.
  - rewrite IH by auto. destruct (says_unbundle repr o' (d :: e) m) as [[a r]| | |]; reflexivity.
Qed.
Lemma consume_tail : forall o n e m tl, no_value tl -> says_consume_optional repr o n e (m ++ tl) = sbind (says_consume_optional repr o n e m) (fun '(a, r) => Takes (a, r ++ tl)).
Proof.
  intros o n e m tl N. unfold says_consume_optional. destruct e as [e|].
  - destruct (nargs o); try reflexivity. destruct n as [|x [|y n]]; try (apply unbundle_tail; auto). destruct y as [|q|q]; try (apply unbundle_tail; auto; fail). repeat (destruct q as [q|q|]; try (apply unbundle_tail; auto; fail)). reflexivity.
  - rewrite from_tail by auto. destruct (says_from_words o m) as [[a r]| | |]; reflexivity.
Qed.
Lemma loop_tail : forall f m ex st tl, no_value tl -> (forall f ex st, (length tl <= f)%nat -> says_loop repr f tl ex st = Takes (fst st, ex ++ words_of tl)) -> (length (m ++ tl) <= f)%nat ->
  says_loop repr f (m ++ tl) ex st = sbind (says_loop repr f m ex st) (fun '(p, x) => Takes (p, x ++ words_of tl)).
Proof.
  induction f as [|f IH]; intros m ex st tl N T LE.
  - destruct m; [|cbn in LE; lia]. cbn [app] in *. rewrite T by exact LE. reflexivity.
  - destruct m as [|[w k] m]; [cbn [app] in *; rewrite T by exact LE; reflexivity|]. cbn [app length] in LE.
    destruct k as [| |[o|] n e]; cbn [app says_loop]; try (apply IH; auto; lia).
    rewrite consume_tail by auto. destruct (says_consume_optional repr o n e m) as [[acts r']|t| |x] eqn:C; try reflexivity. cbn [sbind]. destruct (says_take_actions repr acts st) as [st'| | |]; try reflexivity. cbn [sbind].
    assert (CP : consume_optional o n e m = Parsed (acts, r')) by (rewrite <- (same_consume repr), C; reflexivity). apply consume_suffix in CP as (t & -> & _).
    apply IH; auto. rewrite !app_length in *. lia.
Qed.
Lemma dash_tail : forall r f ex st, (length ((lit "--", MDash) :: map (fun x => (x, MA)) r) <= f)%nat ->
  says_loop repr f ((lit "--", MDash) :: map (fun x => (x, MA)) r) ex st = Takes (fst st, ex ++ words_of ((lit "--", MDash) :: map (fun x => (x, MA)) r)).
Proof.
  intros r f ex st LE. cbn [length] in LE. rewrite map_length in LE. destruct f as [|f]; [lia|]. cbn [says_loop]. rewrite loop_left by lia. unfold words_of. cbn [map fst]. rewrite map_map. cbn [fst]. rewrite map_id, <- app_assoc. reflexivity.
Qed.

(** * The words that have been read *)
Lemma mark_not_dash : forall w, parse_optional w <> Some MDash.
Proof.
  intros w Q. destruct (dash_case w) as [D|[->|[(c & q & -> & N)|(q & ->)]]].
  - rewrite plain_not_dash in Q by auto. discriminate.
  - discriminate.
  - rewrite read_short in Q by auto. destruct (find_option _); [discriminate|]. destruct (negative_number _); [discriminate|]. destruct (char_in 32 _); discriminate.
  - rewrite read_long in Q. cbv zeta in Q. destruct (name_part _) as [n e]. destruct (find_option n); [discriminate|]. destruct (filter _ option_strings) as [|[a b] [|? ?]]; try discriminate.
    destruct (negative_number _); [discriminate|]. destruct (char_in 32 _); discriminate.
Qed.
Lemma marked_unknown : forall w n e, parse_optional w = Some (MO None n e) -> unknown w.
Proof.
  intros w n e Q. split; [|split].
  - destruct (dash_case w) as [D|[->|[(c & q & -> & _)|(q & ->)]]]; [rewrite plain_not_dash in Q by auto; discriminate|discriminate| |]; [exists (c :: q)|exists (45 :: q)]; reflexivity.
  - intros V. apply read_value in V. congruence.
  - intros [(o & c & r & L & ->)|(o & m & r & D & P & H)].
    + change ([45; c] ++ r) with (45 :: c :: r) in Q. rewrite (read_letter o c r L) in Q. discriminate.
    + assert (W : exists q, w = 45 :: 45 :: q) by (destruct D as [q ->]; destruct H as [->| ->]; [exists q|exists (q ++ lit "=" ++ r)]; reflexivity). destruct W as [q ->].
      rewrite read_long in Q. cbv zeta in Q. assert (NP : exists z, name_part (45 :: 45 :: q) = (m, z)).
      { pose proof (prefix_no_eq _ _ P) as NI. destruct H as [H|H]; [exists None|exists (Some r)]; apply name_part_iff; split; auto. right. exists r. split; [reflexivity|exact H]. }
      destruct NP as [z NP]. rewrite NP in Q. destruct (find_option m); [discriminate|].
      assert (I : In (long o, o) (filter (fun x => starts_with m (fst x)) option_strings)) by (apply filter_In; split; [apply table_in; auto|apply starts_prefix; exact P]).
      destruct (filter _ option_strings) as [|[a b] [|? ?]]; [destruct I|discriminate|discriminate].
Qed.
Lemma bundle_shape : forall e r l r', bundle e r l r' -> (exists sw x, l = sw ++ [x] /\ Forall (fun a => nargs (fst a) = Zero) sw) /\ Forall (fun a => nargs (fst a) <> Many) l.
Proof.
  intros e r l r' B. induction B as [o c r L S|o c e r l r' L S B [(sw & x & -> & F) G]|o c r args r' L S FW|o c v r L S N].
  - split; [exists [], (o, []); split; [reflexivity|constructor]|]. constructor; [apply (letter_arity _ _ L)|constructor].
  - split; [|constructor; [apply (letter_arity _ _ L)|exact G]]. exists ((o, []) :: sw), x. split; auto. constructor; auto. apply switch_iff in S. exact S.
  - split; [exists [], (o, args); split; [reflexivity|constructor]|]. constructor; [apply (letter_arity _ _ L)|constructor].
  - split; [exists [], (o, [v]); split; [reflexivity|constructor]|]. constructor; [apply (letter_arity _ _ L)|constructor].
Qed.
Lemma consume_shape : forall o n e r acts r', consume_optional o n e r = Parsed (acts, r') ->
  (exists sw x, acts = sw ++ [x] /\ Forall (fun a => nargs (fst a) = Zero) sw) /\ (r' = r \/ Forall (fun a => nargs (fst a) <> Many) acts \/ no_value r').
Proof.
  intros o n e r acts r' H. unfold consume_optional in H. destruct e as [e|].
  - destruct (nargs o) eqn:A.
    + assert (U : unbundle o e r = Parsed (acts, r')).
      { destruct n as [|x [|y n]]; auto. destruct y as [|q|q]; auto. repeat (destruct q as [q|q|]; auto). discriminate. }
      apply (unbundle_spec _ _ _ _ _ A) in U as (l & -> & B). destruct (bundle_shape _ _ _ _ B) as [(sw & x & -> & F) G]. split.
      * exists ((o, []) :: sw), x. split; auto.
      * right. left. constructor; [cbn [fst]; congruence|exact G].
    + injection H as <- <-. split; auto. exists [], (o, [e]). split; [reflexivity|constructor].
    + injection H as <- <-. split; auto. exists [], (o, [e]). split; [reflexivity|constructor].
  - destruct (from_words o r) as [[args r1]| | |] eqn:F; try discriminate. cbn [obind] in H. injection H as <- <-. split; [exists [], (o, args); split; [reflexivity|constructor]|].
    unfold from_words in F. destruct (nargs o) eqn:A.
    + injection F as <- <-. auto.
    + right. left. constructor; [cbn [fst]; congruence|constructor].
    + right. right. destruct (span_args r) as [a b] eqn:S. destruct (span_args_spec _ _ _ S) as (t & _ & _ & _ & N). destruct a; [discriminate|]. injection F as <- <-. exact N.
Qed.
Lemma rivals_none : forall o, nargs o = Zero -> rivals o = [].
Proof. intros o A. destruct o; try discriminate; reflexivity. Qed.
Lemma takes_switches : forall sw st t, Forall (fun a => nargs (fst a) = Zero) sw -> says_take_actions repr sw st <> Complains t.
Proof.
  induction sw as [|[o args] sw IH]; intros [p seen] t F; [discriminate|]. apply Forall_inv in F as Z. apply Forall_inv_tail in F. cbn [fst] in Z. cbn [says_take_actions]. unfold says_take_action, says_get_values. cbv zeta.
  rewrite Z, (rivals_none o Z). cbn [sbind find]. destruct o; try discriminate; cbn [sbind]; apply IH; exact F.
Qed.
Lemma takes_app : forall a b st, says_take_actions repr (a ++ b) st = sbind (says_take_actions repr a st) (says_take_actions repr b).
Proof. induction a as [|[o args] a IH]; intros b st; [reflexivity|]. cbn [app says_take_actions]. destruct (says_take_action repr o args st); cbn [sbind]; auto. Qed.
Lemma complaint_values : forall acts st t sw x, acts = sw ++ [x] -> Forall (fun a => nargs (fst a) = Zero) sw -> says_take_actions repr acts st = Complains t ->
  Forall (fun a => nargs (fst a) = One -> remove_dashes (snd a) <> []) acts.
Proof.
  intros acts st t sw [o args] -> F H. apply Forall_app. split; [eapply Forall_impl; [|exact F]; cbn; intros a Z; congruence|]. constructor; [|constructor]. cbn [fst snd]. intros A R.
  rewrite takes_app in H. pose proof (takes_switches sw st t F) as NC. destruct (says_take_actions repr sw st) as [[p seen]| | |]; cbn [sbind] in H; try congruence.
  cbn [says_take_actions] in H. unfold says_take_action, says_get_values in H. rewrite R, A in H. discriminate.
Qed.

(** The word w, which is read as an option, or the words after it, are refused. *)
Definition stopped (w : pystr) (b : list pystr) (t : pystr) : Prop :=
  exists o n e m, parse_optional w = Some (MO (Some o) n e) /\ marked b m /\ says_consume_optional repr o n e m = Complains t.
Lemma no_first : forall ws a b r, marked ws r -> no_value r -> ws = a ++ b -> forall w q, a = w :: q -> ~ value_word w.
Proof.
  intros ws a b r M N -> w q -> V. inversion M as [|? z ? m AB M']; subst. destruct z as [w' k], AB as [A B]. cbn [fst snd] in A, B. apply read_value in V. rewrite V in B. injection B as <-. exact (N w' m eq_refl).
Qed.
Lemma split_values : forall ws, exists v b, ws = v ++ b /\ Forall value_word v /\ forall w r, b = w :: r -> ~ value_word w.
Proof.
  induction ws as [|w ws (v & b & -> & F & N)]; [exists [], []; split; [reflexivity|]; split; [constructor|discriminate]|].
  assert (D : value_word w \/ ~ value_word w).
  { rewrite <- read_value. destruct (parse_optional w) as [[| |? ? ?]|]; [left; reflexivity|right|right|right]; discriminate. }
  destruct D as [D|D].
  - exists (w :: v), b. split; [reflexivity|]. split; [constructor; auto|exact N].
  - exists [], (w :: v ++ b). split; [reflexivity|]. split; [constructor|]. intros w' r Q. injection Q as <- _. exact D.
Qed.
Lemma scattered_values : forall v, Forall value_word v -> scattered v [] v.
Proof. intros v F. induction F; [constructor|apply s_value; auto]. Qed.
Lemma marked_length : forall ws l, marked ws l -> length ws = length l.
Proof. intros ws l M. induction M; cbn [length]; congruence. Qed.
Lemma loop_every : forall f l ex st ws, (length l <= f)%nat -> marked ws l ->
  (forall t, says_loop repr f l ex st = Complains t -> exists a b s x, ws = a ++ b /\ scattered a s x /\
    ((says_sets repr s st = Complains t /\ forall v r, b = v :: r -> ~ value_word v) \/ exists st' w b', says_sets repr s st = Takes st' /\ b = w :: b' /\ stopped w b' t)) /\
  (forall p ex', says_loop repr f l ex st = Takes (p, ex') -> exists s x st', scattered ws s x /\ says_sets repr s st = Takes st' /\ ex' = ex ++ x).
Proof.
  induction f as [|f IH]; intros l ex st ws LE M.
  - destruct l; [|cbn in LE; lia]. inversion M; subst. split; [discriminate|]. intros p ex' H. cbn in H. injection H as _ <-. exists [], [], st. split; [constructor|]. split; [reflexivity|]. rewrite app_nil_r. reflexivity.
  - destruct l as [|[w k] l].
    { inversion M; subst. split; [discriminate|]. intros p ex' H. cbn in H. injection H as _ <-. exists [], [], st. split; [constructor|]. split; [reflexivity|]. rewrite app_nil_r. reflexivity. }
    inversion M as [|? ? ws0 ? [A B] M']; subst. cbn [fst snd length] in *. destruct k as [| |[o|] n e]; cbn [says_loop].
    + destruct (IH l (ex ++ [w]) st ws0) as [I1 I2]; [lia|auto|]. apply read_value in B. split.
      * intros t H. destruct (I1 t H) as (a & b & s & x & -> & S & R). exists (w :: a), b, s, (w :: x). split; [reflexivity|]. split; [apply s_value; auto|exact R].
      * intros p ex' H. destruct (I2 p ex' H) as (s & x & st' & S & R & ->). exists s, (w :: x), st'. split; [apply s_value; auto|]. split; auto. rewrite <- app_assoc. reflexivity.
    + elim (mark_not_dash _ B).
    + destruct (says_consume_optional repr o n e l) as [[acts r']|t0| |e0] eqn:C; cbn [sbind].
      * assert (CP : consume_optional o n e l = Parsed (acts, r')) by (rewrite <- (same_consume repr), C; reflexivity).
        destruct (consume_shape _ _ _ _ _ _ CP) as [(sw & xx & SH & FZ) BD]. destruct (consume_suffix _ _ _ _ _ _ CP) as (t1 & L & _).
        assert (PART : Forall (fun a => nargs (fst a) = One -> remove_dashes (snd a) <> []) acts -> exists ws1 ws2 s, ws0 = ws1 ++ ws2 /\ marked ws2 r' /\ part (w :: ws1) s /\ valued acts s /\
          (length (w :: ws1) = 1%nat \/ (forall o vs, In (o, vs) s -> ~ listed o) \/ no_value r')).
        { intros OK. destruct (consume_sound _ _ _ _ _ _ _ _ B M' CP OK) as (ws1 & ws2 & s & -> & M2 & P & V). exists ws1, ws2, s. repeat (split; auto). destruct BD as [Q|[Q|Q]]; auto.
          - left. subst r'. apply marked_length in M'. apply marked_length in M2. rewrite app_length in M'. destruct ws1; [reflexivity|cbn in M'; lia].
          - right. left. intros o' vs I. rewrite listed_iff. clear - Q V I. induction V as [|a [o1 v1] acts s (Q1 & _) V IH]; [destruct I|]. apply Forall_inv in Q as Q0. apply Forall_inv_tail in Q. cbn [fst] in Q1. destruct I as [I|I]; [|auto]. injection I as -> ->. congruence. }
        destruct (says_take_actions repr acts st) as [st'|t0| |e0] eqn:T; cbn [sbind].
        -- assert (OK : Forall (fun a => nargs (fst a) = One -> remove_dashes (snd a) <> []) acts) by (apply (taken_values acts st st'); rewrite <- (same_takes repr), T; reflexivity).
           destruct (PART OK) as (ws1 & ws2 & s1 & -> & M2 & P & V & BB). rewrite (says_take_sets repr _ _ V) in T. destruct (IH r' ex st' ws2) as [I1 I2]; [rewrite L, app_length in LE; lia|auto|].
           assert (SC : forall a b s x, ws2 = a ++ b -> scattered a s x -> scattered ((w :: ws1) ++ a) (s1 ++ s) x).
           { intros a b s x Q S. apply s_part; auto. destruct BB as [BB|[BB|BB]]; auto. right. right. exact (no_first ws2 a b r' M2 BB Q). }
           split.
           ++ intros t H. destruct (I1 t H) as (a & b & s & x & Q & S & R). exists ((w :: ws1) ++ a), b, (s1 ++ s), x. split; [rewrite Q, <- app_assoc; reflexivity|]. split; [apply (SC a b s x Q S)|].
              rewrite says_sets_app, T. cbn [sbind]. exact R.
           ++ intros p ex' H. destruct (I2 p ex' H) as (s & x & st2 & S & R & ->). exists (s1 ++ s), x, st2. split; [apply (SC ws2 [] s x (eq_sym (app_nil_r ws2)) S)|]. rewrite says_sets_app, T. auto.
        -- split; [|discriminate]. intros t H. injection H as <-. destruct (PART (complaint_values acts st t0 sw xx SH FZ T)) as (ws1 & ws2 & s1 & -> & M2 & P & V & BB).
           rewrite (says_take_sets repr _ _ V) in T. destruct (split_values ws2) as (v & b & -> & FV & NVB).
           exists ((w :: ws1) ++ v), b, (s1 ++ []), v. split; [rewrite <- app_assoc; reflexivity|]. split; [|left; split; [rewrite app_nil_r; exact T|exact NVB]].
           apply s_part; [exact P| |apply scattered_values; exact FV]. destruct BB as [BB|[BB|BB]]; auto. right. right. exact (no_first _ v b r' M2 BB eq_refl).
        -- split; discriminate.
        -- split; discriminate.
      * split; [|discriminate]. intros t H. injection H as <-. exists [], (w :: ws0), [], []. split; [reflexivity|]. split; [constructor|]. right. exists st, w, ws0. split; [reflexivity|]. split; [reflexivity|]. exists o, n, e, l. auto.
      * split; discriminate.
      * split; discriminate.
    + destruct (IH l (ex ++ [w]) st ws0) as [I1 I2]; [lia|auto|]. apply marked_unknown in B. split.
      * intros t H. destruct (I1 t H) as (a & b & s & x & -> & S & R). exists (w :: a), b, s, (w :: x). split; [reflexivity|]. split; [apply s_unknown; auto|exact R].
      * intros p ex' H. destruct (I2 p ex' H) as (s & x & st' & S & R & ->). exists s, (w :: x), st'. split; [apply s_unknown; auto|]. split; auto. rewrite <- app_assoc. reflexivity.
Qed.

(** * Why a word stops the parser *)
Lemma lacks : forall o b m t, marked b m -> says_from_words o m = Complains t -> lack o t /\ forall v r, b = v :: r -> ~ value_word v.
Proof.
  intros o b m t M H. unfold says_from_words in H. destruct (nargs o) eqn:A; [discriminate| |].
  - destruct M as [|w [w' k] b m [Q B] M].
    + injection H as <-. split; [left; split; [apply single_iff; exact A|apply about_error]|discriminate].
    + cbn [fst snd] in Q, B. destruct k; try discriminate; injection H as <-; (split; [left; split; [apply single_iff; exact A|apply about_error]|]); intros v r Z V; injection Z as <- _; apply read_value in V; congruence.
  - destruct M as [|w [w' k] b m [Q B] M].
    + injection H as <-. split; [right; split; [apply listed_iff; exact A|apply about_error]|discriminate].
    + cbn [fst snd] in Q, B. cbn [span_args] in H. destruct k.
      * destruct (span_args m). discriminate.
      * injection H as <-. split; [right; split; [apply listed_iff; exact A|apply about_error]|]. intros v r Z V; injection Z as <- _; apply read_value in V; congruence.
      * injection H as <-. split; [right; split; [apply listed_iff; exact A|apply about_error]|]. intros v r Z V; injection Z as <- _; apply read_value in V; congruence.
Qed.
Lemma unbundle_says : forall e o m t, nargs o = Zero -> says_unbundle repr o e m = Complains t ->
  (exists s l o' c, switches s l /\ letter o' c /\ e = s ++ [c] /\ says_from_words o' m = Complains t) \/
  (exists y e', e = y :: e' /\ (forall o', ~ letter o' y) /\ t = about o (lit "ignored explicit argument " ++ repr (PStr (y :: e')))) \/
  (exists s l o' c y e', switches s l /\ letter o' c /\ switch o' /\ e = s ++ [c] ++ y :: e' /\ (forall o', ~ letter o' y) /\ t = about o' (lit "ignored explicit argument " ++ repr (PStr (y :: e')))).
Proof.
  induction e as [|c e IH]; intros o m t A H; cbn [says_unbundle] in H; rewrite A in H; [discriminate|]. destruct (find_option [45; c]) as [o'|] eqn:F.
  - apply find_letter' in F. destruct e as [|d e].
    + left. exists [], [], o', c. split; [constructor|]. split; [exact F|]. split; [reflexivity|]. destruct (says_from_words o' m) as [[? ?]| | |]; cbn [sbind] in H; try discriminate. congruence.
    + destruct (nargs o') eqn:A'.
      * assert (S : switch o') by (apply switch_iff; exact A'). destruct (says_unbundle repr o' (d :: e) m) as [[? ?]|t'| |] eqn:U; cbn [sbind] in H; try discriminate. injection H as <-.
        destruct (IH o' m t' A' U) as [(s & l & o1 & c1 & W & L & Q & R)|[(y & e' & Q & N & R)|(s & l & o1 & c1 & y & e' & W & L & S1 & Q & N & R)]].
        -- left. exists (c :: s), ((o', []) :: l), o1, c1. rewrite Q. split; [constructor; auto|]. auto.
        -- right. right. exists [], [], o', c, y, e'. rewrite Q. split; [constructor|]. auto.
        -- right. right. exists (c :: s), ((o', []) :: l), o1, c1, y, e'. rewrite Q. split; [constructor; auto|]. auto.
      * cbn [says_unbundle] in H. rewrite A' in H. discriminate.
      * cbn [says_unbundle] in H. rewrite A' in H. discriminate.
  - right. left. exists c, e. split; [reflexivity|]. split.
    + intros o' L. rewrite (find_letter _ _ L) in F. discriminate.
    + rewrite about_error in H. injection H as <-. reflexivity.
Qed.
Lemma letters_stop : forall o c q v b m t, letter o c -> (q = [] /\ ~ prefix (lit "=") v) \/ q = [61] -> marked b m ->
  says_consume_optional repr o [45; c] (Some v) m = Complains t -> stop repr ([45; c] ++ q ++ v) b t.
Proof.
  intros o c q v b m t L Q M H. unfold says_consume_optional in H. destruct (nargs o) eqn:A; try discriminate. assert (SW : switch o) by (apply switch_iff; exact A).
  assert (U : says_unbundle repr o v m = Complains t).
  { pose proof (letter_plain _ _ L) as [L1 _]. destruct c as [|p|p]; try exact H. repeat (destruct p as [p|p|]; try exact H). congruence. }
  assert (Q' : q = [] \/ q = lit "=") by (destruct Q as [[Q _]|Q]; auto).
  destruct (unbundle_says v o m t A U) as [(s & l & o' & c' & W & L' & -> & F)|[(y & e' & -> & N & ->)|(s & l & o' & c' & y & e' & W & L' & S' & -> & N & ->)]].
  - destruct (lacks _ _ _ _ M F) as [K V]. apply (stop_lack repr _ o' b t); auto. right. right. exists c, s, ((o, []) :: l), q, c'. split; [constructor; auto|]. auto.
  - apply (stop_letters repr _ o y e' b); auto. exact (t_first o c q (y :: e') L SW Q).
  - apply (stop_letters repr _ o' y e' b); auto. exact (t_later c s ((o, []) :: l) q o' c' (y :: e') (sw_cons o c s l L SW W) Q' L' S').
Qed.
Lemma stopped_stop : forall w b t, stopped w b t -> stop repr w b t.
Proof.
  intros w b t (o & n & e & m & P & M & H). apply read_option in P. destruct P as [w o n N D|w o n v N D|o c L|o c v L|o c v L NE NP].
  - cbn [says_consume_optional] in H. destruct (says_from_words o m) as [[? ?]|t'| |] eqn:F; cbn [sbind] in H; try discriminate. injection H as <-. destruct (lacks _ _ _ _ M F) as [K V].
    exact (stop_lack repr w o b t' (or_introl N) K V).
  - unfold says_consume_optional in H. destruct (nargs o) eqn:A; try discriminate. destruct D as [q ->]. cbn [lit app] in H. rewrite about_error in H. injection H as <-.
    exact (stop_name repr _ o v b N (proj2 (switch_iff o) A)).
  - cbn [says_consume_optional] in H. destruct (says_from_words o m) as [[? ?]|t'| |] eqn:F; cbn [sbind] in H; try discriminate. injection H as <-. destruct (lacks _ _ _ _ M F) as [K V].
    exact (stop_lack repr [45; c] o b t' (or_intror (or_introl (ex_intro _ c (conj L eq_refl)))) K V).
  - apply (letters_stop o c [61] v b m t L); auto.
  - apply (letters_stop o c [] v b m t L); auto.
Qed.
(** * All the words *)
Lemma classify_split : forall ws l, says_classify ws = Takes l -> exists a m b tl, ws = a ++ b /\ l = m ++ tl /\ marked a m /\ ~ In (lit "--") a /\
  (b = [] /\ tl = [] \/ exists r, b = lit "--" :: r /\ tl = (lit "--", MDash) :: map (fun x => (x, MA)) r).
Proof.
  induction ws as [|w ws IH]; intros l H; cbn [says_classify] in H.
  - injection H as <-. exists [], [], [], []. split; [reflexivity|]. split; [reflexivity|]. split; [constructor|]. split; [intros []|auto].
  - destruct (str_eqb w (lit "--")) eqn:Q.
    + apply str_eqb_eq in Q. subst w. injection H as <-. exists [], [], (lit "--" :: ws), ((lit "--", MDash) :: map (fun x => (x, MA)) ws). split; [reflexivity|]. split; [reflexivity|]. split; [constructor|]. split; [intros []|]. right. eauto.
    + destruct (parse_optional w) as [k|] eqn:P; [|discriminate]. destruct (says_classify ws) as [l0| | |]; cbn [sbind] in H; try discriminate. injection H as <-.
      destruct (IH l0 eq_refl) as (a & m & b & tl & -> & -> & M & N & R). exists (w :: a), ((w, k) :: m), b, tl. split; [reflexivity|]. split; [reflexivity|]. split; [constructor; [split; [reflexivity|exact P]|exact M]|].
      split; [|exact R]. intros [I|I]; [subst w; discriminate Q|auto].
Qed.
Lemma classify_complains : forall ws t, says_classify ws = Complains t -> exists a w b ns u, ws = a ++ w :: b /\ ~ In (lit "--") a /\ (forall w' ns', In w' a -> ~ ambiguous w' ns') /\ w <> lit "--" /\ ambiguous w ns /\
  separated (lit ", ") ns u /\ t = lit "ambiguous option: " ++ w ++ lit " could match " ++ u.
Proof.
  induction ws as [|w ws IH]; intros t H; cbn [says_classify] in H; [discriminate|]. destruct (str_eqb w (lit "--")) eqn:Q; [discriminate|]. destruct (parse_optional w) as [k|] eqn:P.
  - destruct (says_classify ws) as [l0|t0| |]; cbn [sbind] in H; try discriminate. injection H as <-. destruct (IH t0 eq_refl) as (a & w1 & b & ns & u & -> & N & A & ND & W & U & T).
    exists (w :: a), w1, b, ns, u. split; [reflexivity|]. split; [intros [I|I]; [subst w; discriminate Q|auto]|]. split; [|auto]. intros w' ns' [I|I] X; [subst w'|exact (A w' ns' I X)].
    rewrite (proj2 (proj1 (ambiguous_iff w)) (ex_intro _ ns' X)) in P. discriminate.
  - injection H as <-. destruct (ambiguous_iff w) as [A1 A2]. destruct (proj1 A1 P) as (ns & W). exists [], w, ws, ns, (join (lit ", ") ns). split; [reflexivity|]. split; [intros []|]. split; [intros ? ? []|]. split; [intros ->; discriminate Q|]. split; [exact W|].
    unfold ambiguous_text. rewrite (A2 ns W). split; [|reflexivity]. apply joined. split; [|reflexivity]. destruct W as (n & _ & _ & _ & _ & _ & LE). intros ->. cbn in LE. lia.
Qed.
Lemma classify_clear' : forall ws l, says_classify ws = Takes l -> clear ws.
Proof.
  induction ws as [|w ws IH]; intros l H; [constructor|]. cbn [says_classify] in H. destruct (str_eqb w (lit "--")) eqn:Q; [apply str_eqb_eq in Q; subst w; constructor|].
  destruct (parse_optional w) as [k|] eqn:P; [|discriminate]. destruct (says_classify ws) as [l0| | |]; cbn [sbind] in H; try discriminate. constructor; [intros ->; discriminate Q| |exact (IH l0 eq_refl)].
  intros ns X. rewrite (proj2 (proj1 (ambiguous_iff w)) (ex_intro _ ns X)) in P. discriminate.
Qed.
Lemma clear_app : forall a b, ~ In (lit "--") a -> clear (a ++ b) -> clear b.
Proof. induction a as [|w a IH]; intros b N C; [exact C|]. cbn [app] in C. inversion C as [|? Q|? ? _ _ C']; subst; [elim N; left; reflexivity|]. apply IH; auto. intros I. apply N. right. exact I. Qed.
Lemma stop_more : forall w b t rest, left_over rest -> stop repr w b t -> stop repr w (b ++ rest) t.
Proof.
  intros w b t rest LO S. destruct S as [w o b t W K V|w o v b N S|w o y e b T N].
  - apply (stop_lack repr w o); auto. intros v r Q X. destruct b as [|v' b]; [|cbn [app] in Q; injection Q as -> _; exact (V v b eq_refl X)].
    destruct LO as [->|(q & ->)]; [discriminate|]. cbn [app] in Q. injection Q as <- _. exact (value_not_dashes _ X eq_refl).
  - apply stop_name; auto.
  - apply stop_letters; auto.
Qed.
Lemma parse_every : forall ws t, parse_says repr ws = Complains t ->
  (exists a w b ns u, ws = a ++ w :: b /\ ~ In (lit "--") a /\ (forall w' ns', In w' a -> ~ ambiguous w' ns') /\ w <> lit "--" /\ ambiguous w ns /\
    separated (lit ", ") ns u /\ t = lit "ambiguous option: " ++ w ++ lit " could match " ++ u) \/
  (exists a l x b, ws = a ++ b /\ scattered a l x /\ ((first_fault repr l t /\ clear b /\ forall v r, b = v :: r -> ~ value_word v) \/ (go_together l /\
    ((left_over b /\ exists u, separated (lit " ") (x ++ b) u /\ t = lit "unrecognized arguments: " ++ u) \/ (exists w rest, b = w :: rest /\ clear rest /\ stop repr w rest t))))).
Proof.
  intros ws t H. unfold parse_says in H. destruct (says_classify ws) as [l|t0| |] eqn:C; cbn [sbind] in H; try discriminate.
  2:{ injection H as <-. left. destruct (classify_complains _ _ C) as (a & w & b & ns & u & -> & N & A & ND & W & U & T). exists a, w, b, ns, u. repeat (split; auto). }
  right. pose proof (classify_clear' _ _ C) as CL. destruct (classify_split _ _ C) as (a & m & b & tl & -> & -> & M & N & R).
  assert (LO : left_over b) by (destruct R as [[-> _]|(r & -> & _)]; [left; reflexivity|right; eauto]).
  assert (NV : no_value tl) by (intros w r Q; destruct R as [[_ ->]|(q & _ & ->)]; discriminate).
  assert (WB : words_of tl = b).
  { destruct R as [[-> ->]|(r & -> & ->)]; [reflexivity|]. unfold words_of. cbn [map fst]. rewrite map_map. cbn [fst]. rewrite map_id. reflexivity. }
  assert (LT : forall f ex st, (length tl <= f)%nat -> says_loop repr f tl ex st = Takes (fst st, ex ++ words_of tl)).
  { intros f ex st LE. destruct R as [[_ ->]|(r & _ & ->)]; [|apply dash_tail; exact LE]. unfold words_of. cbn [map]. rewrite app_nil_r. destruct f; reflexivity. }
  rewrite (loop_tail _ m [] _ tl NV LT (le_n _)) in H.
  destruct (loop_every (length (m ++ tl)) m [] (defaults, []) a) as [I1 I2]; [rewrite app_length; lia|exact M|].
  destruct (says_loop repr (length (m ++ tl)) m [] (defaults, [])) as [[p x]|t0| |] eqn:L; cbn [sbind] in H; try discriminate.
  - destruct (I2 p x eq_refl) as (s & x' & st' & S & G & ->). cbn [app] in H. rewrite WB in H. exists a, s, x', b. split; [reflexivity|]. split; [exact S|]. right. split; [exact (says_sets_went repr s st' (scattered_shaped repr _ _ _ S) G)|]. left. split; [exact LO|].
    destruct (x' ++ b) as [|y q] eqn:Q; [discriminate|]. injection H as <-. exists (join (lit " ") (y :: q)). split; [apply joined; split; [discriminate|reflexivity]|reflexivity].
  - injection H as <-. destruct (I1 t0 eq_refl) as (a1 & b1 & s & x & -> & S & D). exists a1, s, x, (b1 ++ b). split; [rewrite <- app_assoc; reflexivity|]. split; [exact S|].
    assert (CB : clear (b1 ++ b)) by (apply (clear_app a1); [intros I; apply N; apply in_or_app; auto|rewrite app_assoc; exact CL]).
    destruct D as [[D NB]|(st' & w & b' & G & -> & K)].
    + left. split; [apply (says_sets_iff repr s t0 (scattered_shaped repr _ _ _ S)); exact D|]. split; [exact CB|]. intros v r Q X. destruct b1 as [|v' b1]; [|cbn [app] in Q; injection Q as -> _; exact (NB v b1 eq_refl X)].
      cbn [app] in Q. destruct LO as [->|(q & ->)]; [discriminate|]. injection Q as <- _. exact (value_not_dashes _ X eq_refl).
    + right. split; [exact (says_sets_went repr s st' (scattered_shaped repr _ _ _ S) G)|]. right. exists w, (b' ++ b). split; [reflexivity|]. split.
      * apply (clear_app [w] (b' ++ b)); [|exact CB]. intros [I|[]]. apply N. apply in_or_app. right. left. exact I.
      * apply stop_more; [exact LO|]. apply stopped_stop. exact K.
Qed.
End WithEnv.

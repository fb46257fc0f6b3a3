(** What the command line parser says: the words. *)
From Coq Require Import String Lia.
From Verif Require Import PyBase Env PyNum Cli Files Args ArgsSpec ArgsSays ArgsSaysSpec NumLemmas HexProofs SignProofs ArgsProofs ArgsMeaningProofs ArgsSaysProofs.

(** * Abbreviations *)
Lemma beginning_filter : forall n l, beginning n l (filter (starts_with n) l).
Proof.
  intros n l. induction l as [|x l IH]; [constructor|]. cbn [filter]. destruct (starts_with n x) eqn:Q.
  - apply b_take; auto. apply starts_prefix. exact Q.
  - apply b_skip; auto. intros P. apply starts_prefix in P. congruence.
Qed.
Lemma beginning_fun : forall n l r, beginning n l r -> r = filter (starts_with n) l.
Proof.
  intros n l r B. induction B as [|x l r P B IH|x l r P B IH]; [reflexivity| |]; cbn [filter].
  - apply starts_prefix in P. rewrite P, IH. reflexivity.
  - destruct (starts_with n x) eqn:Q; [apply starts_prefix in Q; contradiction|exact IH].
Qed.
Lemma table_names : forall r, map fst (filter (fun e => starts_with (45 :: 45 :: r) (fst e)) option_strings) = filter (starts_with (45 :: 45 :: r)) long_names.
Proof.
  intros r. assert (G : forall l : list (pystr * opt), map fst (filter (fun e => starts_with (45 :: 45 :: r) (fst e)) l) = filter (starts_with (45 :: 45 :: r)) (map fst l)).
  { induction l as [|e l IH]; [reflexivity|]. cbn [filter map]. destruct (starts_with _ (fst e)); cbn [map]; rewrite IH; reflexivity. }
  rewrite G. clear G.
  assert (I : forall s, starts_with (45 :: 45 :: r) s = true -> starts_with [45; 45] s = true) by (intros s H; apply starts_prefix in H as [q ->]; reflexivity).
  assert (F : forall l, filter (starts_with (45 :: 45 :: r)) l = filter (starts_with (45 :: 45 :: r)) (filter (starts_with [45; 45]) l)).
  { induction l as [|s l IH]; [reflexivity|]. cbn [filter]. destruct (starts_with (45 :: 45 :: r) s) eqn:Q.
    - rewrite (I s Q). cbn [filter]. rewrite Q, IH. reflexivity.
    - destruct (starts_with [45; 45] s); cbn [filter]; rewrite ?Q; exact IH. }
  assert (C : filter (starts_with [45; 45]) (map fst option_strings) = long_names) by (vm_compute; reflexivity).
  rewrite F, C. reflexivity.
Qed.
Lemma long_names_in : forall n, In n long_names <-> exists o, n = long o.
Proof.
  intros n. split.
  - intros I. unfold long_names in I. cbn [map In] in I.
    repeat (destruct I as [I|I]; [subst n; first [exists O_help; reflexivity|exists O_task; reflexivity|exists O_key_hex; reflexivity|exists O_key_file; reflexivity|exists O_key_dir; reflexivity|exists O_key_wif; reflexivity|exists O_public_key; reflexivity|exists O_signature; reflexivity|exists O_data; reflexivity|exists O_data_file; reflexivity|exists O_input_file; reflexivity|exists O_design_file; reflexivity|exists O_log_level; reflexivity|exists O_debug; reflexivity|exists O_log_timestamp; reflexivity|exists O_log_to_file; reflexivity|exists O_log_file; reflexivity]|]). destruct I.
  - intros (o & ->). unfold long_names. cbn [map In]. destruct o; unfold long; tauto.
Qed.
Lemma option_dashes : forall n, prefix (lit "--") n -> (find_option n = None <-> ~ In n long_names).
Proof.
  intros n [r ->]. rewrite long_names_in, find_option_none. split.
  - intros [H _] (o & Q). exact (H o Q).
  - intros H. split; [intros o Q; apply H; eauto|]. intros o c L Q. change (45 :: 45 :: r = [45; c]) in Q. injection Q as Q _. apply letter_plain in L as [L _]. congruence.
Qed.

Section WithEnv.
Context {E : Env}.

Lemma ambiguous_iff : forall w, (parse_optional w = None <-> exists ns, ambiguous w ns) /\
  (forall ns, ambiguous w ns -> map (fun t => snd (fst t)) (get_option_tuples w) = ns).
Proof.
  intros w.
  assert (NA : forall ns, ambiguous w ns -> exists r, w = 45 :: 45 :: r).
  { intros ns (n & [r ->] & _ & [->|(v & ->)] & _); [exists r; reflexivity|exists (r ++ lit "=" ++ v); reflexivity]. }
  destruct (dash_case w) as [D|[->|[(c & r & -> & N)|(r & ->)]]].
  - split; [rewrite plain_not_dash by auto; split; [discriminate|]|]; [intros (ns & A)|intros ns A]; destruct (NA _ A) as (r & ->); elim (D (45 :: r)); reflexivity.
  - split; [split; [discriminate|]|]; [intros (ns & A)|intros ns A]; destruct (NA _ A) as (r & Q); discriminate Q.
  - split; [rewrite read_short by auto; split; [|]|].
    + destruct (find_option [45; c]); [discriminate|]. destruct (negative_number _); [discriminate|]. destruct (char_in 32 _); discriminate.
    + intros (ns & A). destruct (NA _ A) as (x & Q). injection Q as Q _. congruence.
    + intros ns A. destruct (NA _ A) as (x & Q). injection Q as Q _. congruence.
  - clear NA. destruct (name_part (45 :: 45 :: r)) as [n e] eqn:NP. pose proof NP as NP0. apply name_part_iff in NP as [NI P].
    assert (DN : prefix (lit "--") n).
    { unfold name_part in NP0. destruct (split_eq (45 :: 45 :: r)) as [[u v]|] eqn:S; injection NP0 as <- <-; [eapply dash_head; eauto|exists r; reflexivity]. }
    assert (UN : forall m, prefix (lit "--") m -> ~ In 61 m -> (45 :: 45 :: r = m \/ exists v, 45 :: 45 :: r = m ++ lit "=" ++ v) -> m = n).
    { intros m Dm Im H. assert (Q : exists z, name_part (45 :: 45 :: r) = (m, z)).
      { destruct H as [H|(v & H)]; [exists None|exists (Some v)]; apply name_part_iff; split; auto. right. eauto. }
      destruct Q as [z Q]. rewrite Q in NP0. injection NP0 as <- _. reflexivity. }
    assert (TN : forall l, beginning n long_names l <-> l = map fst (filter (fun x => starts_with n (fst x)) option_strings)).
    { intros l. destruct DN as [q ->]. change (lit "--" ++ q) with (45 :: 45 :: q). rewrite table_names. split; [apply beginning_fun|intros ->; apply beginning_filter]. }
    assert (TU : get_option_tuples (45 :: 45 :: r) = map (fun x => (snd x, fst x, e)) (filter (fun x => starts_with n (fst x)) option_strings)).
    { rewrite long_tuples. unfold name_part in NP0. destruct (split_eq (45 :: 45 :: r)) as [[u v]|]; injection NP0 as <- <-; reflexivity. }
    split.
    + rewrite read_long. cbv zeta. rewrite NP0. split.
      * intros H. destruct (find_option n) eqn:F; [discriminate|]. destruct (filter (fun x => starts_with n (fst x)) option_strings) as [|a [|b l]] eqn:T.
        -- destruct (negative_number _); [discriminate|]. destruct (char_in 32 _); discriminate.
        -- destruct a; discriminate.
        -- exists (map fst (a :: b :: l)). exists n. split; auto. split; auto. split; [destruct P as [[_ P]|(v & _ & P)]; [left; auto|right; exists v; exact P]|].
           split; [apply option_dashes; auto|]. split; [apply TN; reflexivity|]. cbn [map length]. lia.
      * intros (ns & m & Dm & Im & H & NL & B & LE). pose proof (UN m Dm Im H) as ->. apply (option_dashes n DN) in NL. rewrite NL. apply TN in B. subst ns. rewrite map_length in LE.
        destruct (filter (fun x => starts_with n (fst x)) option_strings) as [|[a a'] [|b l]]; cbn [length] in LE; try lia. reflexivity.
    + intros ns (m & Dm & Im & H & NL & B & LE). pose proof (UN m Dm Im H) as ->. apply TN in B. rewrite TU, map_map. cbn [fst snd]. symmetry. exact B.
Qed.
Lemma joined : forall sep l t, separated sep l t <-> l <> [] /\ t = join sep l.
Proof.
  intros sep l t. split.
  - intros S. induction S as [x|x y l t S [_ ->]]; split; try discriminate; reflexivity.
  - revert t. induction l as [|x [|y l] IH]; intros t [N ->]; [congruence|constructor|]. cbn [join]. constructor. apply IH. split; [discriminate|reflexivity].
Qed.

(** * Reading the words *)
Lemma classify_clear : forall ws, clear ws -> exists l, says_classify ws = Takes l /\ ((forall w r, ws = w :: r -> ~ value_word w) -> forall w r, l <> (w, MA) :: r) /\
  (left_over ws -> l = [] /\ ws = [] \/ exists r, ws = lit "--" :: r /\ l = (lit "--", MDash) :: map (fun x => (x, MA)) r).
Proof.
  intros ws C. induction C as [|ws|w ws N A C (l & S & _)].
  - exists []. split; [reflexivity|]. split; [discriminate|auto].
  - exists ((lit "--", MDash) :: map (fun x => (x, MA)) ws). split; [reflexivity|]. split; [discriminate|]. intros _. right. eauto.
  - cbn [says_classify]. destruct (str_eqb w (lit "--")) eqn:Q; [apply str_eqb_eq in Q; contradiction|]. destruct (parse_optional w) as [m|] eqn:P.
    + rewrite S. cbn [sbind]. exists ((w, m) :: l). split; auto. split.
      * intros V w' r H. injection H as -> -> ->. apply read_value in P. exact (V _ _ eq_refl P).
      * intros [H|(r & H)]; [discriminate|]. injection H as H _. contradiction.
    + exfalso. apply (proj1 (ambiguous_iff w)) in P as (ns & P). exact (A ns P).
Qed.
Lemma classify_app : forall ws m rest, marked ws m -> ~ In (lit "--") ws -> says_classify (ws ++ rest) = sbind (says_classify rest) (fun l => Takes (m ++ l)).
Proof.
  intros ws m rest M. induction M as [|w [w' x] ws m [A B] M IH]; intros N; cbn [app].
  - destruct (says_classify rest); reflexivity.
  - cbn [fst snd] in A, B. subst w'. cbn [says_classify]. destruct (str_eqb w (lit "--")) eqn:Q; [apply str_eqb_eq in Q; elim N; left; auto|].
    rewrite B, IH by (intros I; apply N; right; auto). destruct (says_classify rest); reflexivity.
Qed.

(** Words after those that an option takes make no difference. *)
Lemma from_frame : forall o t args r, from_words o t = Parsed (args, []) -> t = [] \/ nargs o <> Many \/ (forall w r', r <> (w, MA) :: r') -> from_words o (t ++ r) = Parsed (args, r).
Proof.
  intros o t args r H C. apply from_words_spec in H as (t' & Q & A & -> & AR). rewrite app_nil_r in Q. subst t'. unfold from_words. destruct AR as [[N ->]|[[N (w & ->)]|[N T]]]; rewrite N.
  - reflexivity.
  - reflexivity.
  - destruct C as [C|[C|C]]; [congruence|congruence|]. rewrite span_args_at by auto. destruct t; [congruence|reflexivity].
Qed.
Lemma unbundle_frame : forall e o t acts r, unbundle o e t = Parsed (acts, []) -> (nargs o = Zero \/ t = []) -> unbundle o e (t ++ r) = Parsed (acts, r).
Proof.
  induction e as [|c e IH]; intros o t acts r H Z; cbn [unbundle] in *; destruct (nargs o) eqn:A; try discriminate; try (injection H as <- ->; reflexivity).
  destruct (find_option [45; c]) as [o'|] eqn:F; [|discriminate]. pose proof (letter_arity _ _ (find_letter' _ _ F)) as NM. destruct e as [|d e].
  - destruct (from_words o' t) as [[args r1]| | |] eqn:FW; try discriminate. cbn [obind] in H. injection H as <- ->. rewrite (from_frame o' t args r FW) by auto. reflexivity.
  - destruct (unbundle o' (d :: e) t) as [[l r1]| | |] eqn:U; try discriminate. cbn [obind] in H. injection H as <- ->.
    destruct (nargs o') eqn:A'; [|cbn [unbundle] in U |- *; rewrite A' in U |- *; injection U as <- ->; reflexivity|congruence].
    rewrite (IH o' t l r U) by auto. reflexivity.
Qed.
Lemma consume_frame : forall o n e t acts r, consume_optional o n e t = Parsed (acts, []) -> t = [] \/ (forall x, In x acts -> nargs (fst x) <> Many) \/ (forall w r', r <> (w, MA) :: r') ->
  consume_optional o n e (t ++ r) = Parsed (acts, r).
Proof.
  intros o n e t acts r H C. unfold consume_optional in *. destruct e as [e|].
  - destruct (nargs o) eqn:A.
    + destruct n as [|x [|y n]]; try (apply unbundle_frame; auto). destruct y as [|q|q]; try (apply unbundle_frame; auto; fail). repeat (destruct q as [q|q|]; try (apply unbundle_frame; auto; fail)). discriminate.
    + injection H as <- ->. reflexivity.
    + injection H as <- ->. reflexivity.
  - destruct (from_words o t) as [[args r1]| | |] eqn:F; try discriminate. cbn [obind] in H. injection H as <- ->. rewrite (from_frame o t args r F); [reflexivity|].
    destruct C as [C|[C|C]]; auto. right. left. apply (C (o, args)). left. reflexivity.
Qed.

Lemma unknown_marked : forall w, unknown w -> w <> lit "--" /\ exists n e, parse_optional w = Some (MO None n e).
Proof.
  intros w ([r P] & NV & NL).
  assert (ND : w <> lit "--") by (intros ->; apply NL; right; exists O_help, (lit "--"), []; split; [exists []; reflexivity|]; split; [exists (lit "help"); reflexivity|left; reflexivity]).
  split; auto. destruct (parse_optional w) as [[| |[o|] n e]|] eqn:Q.
  - apply read_value in Q. contradiction.
  - exfalso. subst w. destruct (dash_case (lit "-" ++ r)) as [D|[D|[(c & q & D & N)|(q & D)]]].
    + exact (D r eq_refl).
    + rewrite D in Q. discriminate.
    + rewrite D, read_short in Q by auto. destruct (find_option _); [discriminate|]. destruct (negative_number _); [discriminate|]. destruct (char_in 32 _); discriminate.
    + rewrite D, read_long in Q. cbv zeta in Q. destruct (name_part _) as [n e]. destruct (find_option n); [discriminate|]. destruct (filter _ option_strings) as [|[a b] [|? ?]]; try discriminate.
      destruct (negative_number _); [discriminate|]. destruct (char_in 32 _); discriminate.
  - exfalso. apply NL. apply read_option in Q. destruct Q as [w o n NM D|w o n v NM D|o c L|o c v L|o c v L NE NQ].
    + right. destruct (names_dashes _ _ NM) as (D1 & D2 & _). exists o, w, []. auto.
    + right. destruct (names_dashes _ _ NM) as (D1 & D2 & _). exists o, w, v. auto.
    + apply (letter_like o c). exact L.
    + apply (letter_like o c). exact L.
    + apply (letter_like o c). exact L.
  - eauto.
  - exfalso. apply (proj1 (ambiguous_iff w)) in Q as (ns & n & D & NI & H & _ & B & LE). apply NL.
    assert (X : exists o, prefix n (long o)).
    { clear - B LE. assert (G : forall l r, beginning n l r -> (forall x, In x l -> exists o, x = long o) -> r <> [] -> exists o, prefix n (long o)).
      { intros l r B0. induction B0 as [|x l r P B0 IH|x l r P B0 IH]; intros I N; [congruence| |].
        - destruct (I x (or_introl eq_refl)) as (o & ->). eauto.
        - apply IH; auto. intros y Iy. apply I. right. exact Iy. }
      apply (G long_names ns B); [intros x I; apply long_names_in; exact I|]. intros ->. cbn in LE. lia. }
    destruct X as (o & X). right. destruct H as [H|(v & H)]; [exists o, n, []; auto|exists o, n, v; auto].
Qed.

Context (repr : pyval -> pystr).

Lemma valued_ops : forall acts l, valued acts l -> forall x, In x acts -> exists vs, In (fst x, vs) l.
Proof.
  intros acts l V. induction V as [|a [o vs] acts l (Q & _) V IH]; intros x I; [destruct I|]. destruct I as [<-|I].
  - cbn [fst] in Q. rewrite Q. exists vs. left. reflexivity.
  - destruct (IH x I) as (v & J). exists v. right. exact J.
Qed.

Lemma loop_scattered : forall ws l x, scattered ws l x -> exists m, marked ws m /\ ~ In (lit "--") ws /\ shaped l /\
  forall rest, (forall w r, rest <> (w, MA) :: r) -> forall f, (length (m ++ rest) <= f)%nat -> exists f', (length rest <= f')%nat /\
    forall ex st, says_loop repr f (m ++ rest) ex st = sbind (says_sets repr l st) (fun st' => says_loop repr f' rest (ex ++ x) st').
Proof.
  intros ws l x S. induction S as [|ws l ws' l' x P B S (m & M & N & SH & L)|w ws l x V S (m & M & N & SH & L)|w ws l x U S (m & M & N & SH & L)].
  - exists []. split; [constructor|]. split; [intros []|]. split; [constructor|]. intros rest _ f LE. exists f. split; [exact LE|]. intros ex st. rewrite app_nil_r. reflexivity.
  - assert (SH1 : shaped l) by (apply (command_shaped ws), (fun c => eq_ind _ (fun z => command ws z) (eq_ind _ (fun y => command y (l ++ [])) c _ (app_nil_r ws)) _ (app_nil_r l)), c_part; [exact P|constructor]).
    destruct (part_read _ _ P) as (w & ws1 & o & n & e & t & acts & -> & R & MT & NW & N1 & VA & CO). exists ((w, MO (Some o) n e) :: t ++ m).
    split; [constructor; [split; auto|apply Forall2_app; auto]|]. split; [intros [I|I]; [auto|apply in_app_or in I as [I|I]; auto]|]. split; [apply Forall_app; auto|].
    intros rest NR f LE. cbn [app length] in LE. rewrite <- app_assoc, app_length in LE. destruct f as [|f]; [lia|].
    destruct (L rest NR f) as (f' & LE' & LL); [lia|]. exists f'. split; auto. intros ex st. cbn [app says_loop]. rewrite <- app_assoc.
    assert (CT : consume_optional o n e t = Parsed (acts, [])) by (rewrite <- (app_nil_r t); apply CO; discriminate).
    assert (CF : consume_optional o n e (t ++ m ++ rest) = Parsed (acts, m ++ rest)).
    { apply consume_frame; auto. destruct B as [B|[B|B]].
      - left. destruct ws1 as [|? ?]; [inversion MT; reflexivity|discriminate B].
      - right. left. intros a I. destruct (valued_ops _ _ VA a I) as (vs & J). pose proof (B _ _ J) as NL. rewrite listed_iff in NL. exact NL.
      - right. right. intros w' r' Q. destruct M as [|v [v' k] ws' m [A1 A2] M].
        + exact (NR _ _ Q).
        + cbn [app fst snd] in *. injection Q as -> -> _. apply read_value in A2. exact (B _ _ eq_refl A2). }
    rewrite (silent_takes _ _ _ (eq_trans (same_consume repr o n e _) CF)). cbn [sbind]. rewrite (says_take_sets repr _ _ VA), says_sets_app, sbind_assoc.
    destruct (says_sets repr l st) as [st'| | |]; try reflexivity. cbn [sbind]. apply LL.
  - exists ((w, MA) :: m). split; [constructor; [split; auto; apply read_value; auto|exact M]|]. split; [intros [I|I]; [exact (value_not_dashes _ V I)|auto]|]. split; auto.
    intros rest NR f LE. cbn [app length] in LE. destruct f as [|f]; [lia|]. destruct (L rest NR f) as (f' & LE' & LL); [lia|]. exists f'. split; auto. intros ex st. cbn [app says_loop].
    rewrite LL, <- app_assoc. reflexivity.
  - destruct (unknown_marked _ U) as (NW & n & e & R). exists ((w, MO None n e) :: m). split; [constructor; [split; auto|exact M]|]. split; [intros [I|I]; auto|]. split; auto.
    intros rest NR f LE. cbn [app length] in LE. destruct f as [|f]; [lia|]. destruct (L rest NR f) as (f' & LE' & LL); [lia|]. exists f'. split; auto. intros ex st. cbn [app says_loop].
    rewrite LL, <- app_assoc. reflexivity.
Qed.
Lemma loop_left : forall ws f ex st, (length ws <= f)%nat -> says_loop repr f (map (fun x => (x, MA)) ws) ex st = Takes (fst st, ex ++ ws).
Proof.
  induction ws as [|w ws IH]; intros f ex st LE; [destruct f; cbn [map says_loop]; rewrite app_nil_r; reflexivity|]. cbn [length] in LE. destruct f as [|f]; [lia|].
  cbn [map says_loop]. rewrite IH by lia. rewrite <- app_assoc. reflexivity.
Qed.
(** The parser on scattered words and whatever follows. *)
Lemma parse_scattered : forall ws l x rest, scattered ws l x -> clear rest -> (forall w r, rest = w :: r -> ~ value_word w) ->
  exists lr f, says_classify rest = Takes lr /\ (length lr <= f)%nat /\
    parse_says repr (ws ++ rest) = sbind (says_sets repr l (defaults, [])) (fun st => sbind (says_loop repr f lr x st) (fun '(p, extras) =>
      match extras with [] => Takes p | _ => Complains (lit "unrecognized arguments: " ++ join (lit " ") extras) end)).
Proof.
  intros ws l x rest S C V. destruct (loop_scattered _ _ _ S) as (m & M & N & _ & L). destruct (classify_clear rest C) as (lr & R & NM & _).
  destruct (L lr (NM V) (length (m ++ lr)) (le_n _)) as (f & LE & LL). exists lr, f. split; auto. split; auto.
  unfold parse_says. rewrite (classify_app ws m rest M N), R. cbn [sbind]. rewrite LL, sbind_assoc. cbn [app]. reflexivity.
Qed.
Lemma scattered_shaped : forall ws l x, scattered ws l x -> shaped l.
Proof. intros ws l x S. destruct (loop_scattered _ _ _ S) as (m & _ & _ & SH & _). exact SH. Qed.
End WithEnv.

(** C103: what is said of a command line that is refused. *)
From Coq Require Import String Lia.
From Verif Require Import PyBase Env PyNum Cli Files MessagesSpec Demo Args ArgsSpec DemoArgs ArgsSays ArgsSaysSpec.
From Verif Require Import NumLemmas HexProofs SignProofs ArgsProofs ArgsMeaningProofs ArgsSaysProofs ArgsSaysWordsProofs ArgsEveryProofs.
Open Scope Z_scope.

Section WithEnv.
Context {E : Env}.

(** C103.  The parser with messages does what the parser does. *)
Lemma c103_same : forall repr ws, silent (parse_says repr ws) = parse_args ws.
Proof. exact same_parse. Qed.

(** C103.  Words that make settings, with other words among them that belong to no option, and possibly "--" and more after them: they are refused with the message about the first setting that is at fault,
    a log level that does not exist or a second source of keys or data; if the settings go together, with the list of the words that belong to no option, in their order; and in no other way. *)
Lemma c103_words : forall repr ws l x rest, scattered ws l x -> left_over rest -> forall t,
  parse_says repr (ws ++ rest) = Complains t <->
  first_fault repr l t \/ (go_together l /\ exists u, separated (lit " ") (x ++ rest) u /\ t = lit "unrecognized arguments: " ++ u).
Proof.
  intros repr ws l x rest S LO t. pose proof (scattered_shaped repr _ _ _ S) as SH.
  assert (CL : clear rest) by (destruct LO as [->|(r & ->)]; constructor).
  assert (NV : forall w r, rest = w :: r -> ~ value_word w) by (intros w r Q V; destruct LO as [->|(q & ->)]; [discriminate|]; injection Q as <- _; exact (value_not_dashes _ V eq_refl)).
  destruct (parse_scattered repr ws l x rest S CL NV) as (lr & f & R & LE & P). rewrite P. clear P.
  assert (LL : forall st, says_loop repr f lr x st = Takes (fst st, x ++ rest)).
  { intros st. destruct LO as [->|(r & ->)].
    - cbn in R. injection R as <-. rewrite app_nil_r. destruct f; reflexivity.
    - cbn [says_classify] in R. change (str_eqb (lit "--") (lit "--")) with true in R. cbv iota in R. injection R as <-. cbn [length] in LE. rewrite map_length in LE. destruct f as [|f]; [lia|].
      cbn [says_loop]. rewrite loop_left by lia. rewrite <- app_assoc. reflexivity. }
  rewrite <- (says_sets_iff repr l t SH). destruct (says_sets repr l (defaults, [])) as [st|t'| |e] eqn:G; cbn [sbind].
  - rewrite LL. cbn [sbind]. pose proof (says_sets_went repr l st SH G) as GT. split.
    + destruct (x ++ rest) as [|y q] eqn:Q; [discriminate|]. intros H. injection H as <-. right. split; auto. exists (join (lit " ") (y :: q)). split; auto. apply joined. split; [discriminate|reflexivity].
    + intros [H|(_ & u & H & ->)]; [discriminate|]. apply joined in H as [NE ->]. destruct (x ++ rest); [congruence|reflexivity].
  - split; [intros H; left; congruence|]. intros [H|(H & _)]; [congruence|]. destruct (says_sets_run repr l SH H) as (p & seen & Q & _). congruence.
  - split; [discriminate|]. intros [H|(H & _)]; [discriminate|]. destruct (says_sets_run repr l SH H) as (p & seen & Q & _). congruence.
  - split; [discriminate|]. intros [H|(H & _)]; [discriminate|]. destruct (says_sets_run repr l SH H) as (p & seen & Q & _). congruence.
Qed.
(** C103.  In particular a command (C77) is refused with the message about its first fault, and in no other way. *)
Lemma c103_command : forall repr ws s t, command ws s -> (parse_says repr ws = Complains t <-> first_fault repr s t).
Proof.
  intros repr ws s t C. rewrite <- (says_sets_iff repr s t (command_shaped _ _ C)). destruct (loop_complete _ _ C) as (m & M & N & _ & L).
  assert (CM : parse_says repr ws = sbind (says_sets repr s (defaults, [])) (fun st => Takes (fst st))).
  { clear L m M N. assert (G : forall ws s, command ws s -> exists m, marked ws m /\ ~ In (lit "--") ws /\ (forall x r, m <> (x, MA) :: r) /\
      forall f st, (length m <= f)%nat -> says_loop repr f m [] st = sbind (says_sets repr s st) (fun st' => Takes (fst st', []))).
    { clear. intros ws s C. induction C as [|ws s ws' s' P C (l & M & N & H & L)].
      - exists []. split; [constructor|]. split; [intros []|]. split; [discriminate|]. intros f st _. destruct f; destruct st; reflexivity.
      - destruct (part_read _ _ P) as (w & ws1 & o & n & e & t & acts & -> & R & MT & NW & N1 & V & CO). exists ((w, MO (Some o) n e) :: t ++ l).
        split; [constructor; [split; auto|apply Forall2_app; auto]|]. split; [intros [I|I]; [auto|apply in_app_or in I as [I|I]; auto]|]. split; [discriminate|].
        intros f st LE. cbn [length] in LE. rewrite app_length in LE. destruct f as [|f]; [lia|]. cbn [says_loop].
        rewrite (silent_takes _ _ _ (eq_trans (same_consume repr o n e _) (CO l H))). cbn [sbind]. rewrite (says_take_sets repr _ _ V), says_sets_app.
        destruct (says_sets repr s st) as [st'| | |]; try reflexivity. cbn [sbind]. rewrite L by lia. reflexivity. }
    destruct (G ws s C) as (m & M & N & _ & L). unfold parse_says. pose proof (classify_app ws m [] M N) as CA. rewrite app_nil_r in CA. rewrite CA. cbn [says_classify sbind]. rewrite app_nil_r, L by auto.
    rewrite sbind_assoc. destruct (says_sets repr s (defaults, [])) as [[? ?]| | |]; reflexivity. }
  rewrite CM. destruct (says_sets repr s (defaults, [])); cbn [sbind]; split; congruence.
Qed.

(** C103.  The first fault of the settings is reported whatever follows the words that make them, unless one of the words that follow is ambiguous. *)
Lemma c103_first : forall repr ws l x rest t, scattered ws l x -> first_fault repr l t -> clear rest -> (forall w r, rest = w :: r -> ~ value_word w) ->
  parse_says repr (ws ++ rest) = Complains t.
Proof.
  intros repr ws l x rest t S F C V. destruct (parse_scattered repr ws l x rest S C V) as (lr & f & _ & _ & P). rewrite P. apply (says_sets_iff repr l t (scattered_shaped repr _ _ _ S)) in F. rewrite F. reflexivity.
Qed.

(** C103.  The words are looked at before the settings: if a word in front of "--" abbreviates several names, that is said of the first such word, with the names in the order of declaration, whatever else is wrong. *)
Lemma c103_ambiguous : forall repr ws w rest ns u, ~ In (lit "--") ws -> (forall w' ns', In w' ws -> ~ ambiguous w' ns') -> ambiguous w ns -> separated (lit ", ") ns u ->
  w <> lit "--" -> parse_says repr (ws ++ w :: rest) = Complains (lit "ambiguous option: " ++ w ++ lit " could match " ++ u).
Proof.
  intros repr ws w rest ns u N A W U ND. assert (C : says_classify (ws ++ w :: rest) = Complains (lit "ambiguous option: " ++ w ++ lit " could match " ++ u)).
  { induction ws as [|v ws IH]; cbn [app says_classify].
    - destruct (str_eqb w (lit "--")) eqn:Q; [apply str_eqb_eq in Q; contradiction|]. destruct (ambiguous_iff w) as [A1 A2]. rewrite (proj2 A1 (ex_intro _ ns W)).
      unfold ambiguous_text. rewrite (A2 ns W). apply joined in U as [_ ->]. reflexivity.
    - destruct (str_eqb v (lit "--")) eqn:Q; [apply str_eqb_eq in Q; elim N; left; auto|]. destruct (parse_optional v) as [m|] eqn:P.
      + rewrite IH; [reflexivity|intros I; apply N; right; auto|]. intros w' ns' I. apply A. right. exact I.
      + exfalso. apply (proj1 (ambiguous_iff v)) in P as (ns' & P). exact (A v ns' (or_introl eq_refl) P). }
  unfold parse_says. rewrite C. reflexivity.
Qed.

(** The word w comes after words whose settings go together. *)
Lemma after : forall repr ws l x w o n e rest, scattered ws l x -> go_together l -> w <> lit "--" -> parse_optional w = Some (MO (Some o) n e) -> clear rest ->
  exists lr, says_classify rest = Takes lr /\ ((forall v r, rest = v :: r -> ~ value_word v) -> forall v r, lr <> (v, MA) :: r) /\
    forall t, says_consume_optional repr o n e lr = Complains t -> parse_says repr (ws ++ w :: rest) = Complains t.
Proof.
  intros repr ws l x w o n e rest S G ND R C. destruct (classify_clear rest C) as (lr & CR & NM & _). exists lr. split; auto. split; auto. intros t H.
  destruct (loop_scattered repr _ _ _ S) as (m & M & N & SH & L).
  destruct (L ((w, MO (Some o) n e) :: lr) ltac:(discriminate) (length (m ++ (w, MO (Some o) n e) :: lr)) (le_n _)) as (f & LE & LL).
  unfold parse_says. rewrite (classify_app ws m (w :: rest) M N). cbn [says_classify]. destruct (str_eqb w (lit "--")) eqn:Q; [apply str_eqb_eq in Q; contradiction|].
  rewrite R, CR. cbn [sbind]. rewrite LL. destruct (says_sets_run repr l SH G) as (p & seen & Z & _). rewrite Z. cbn [sbind]. cbn [length] in LE. destruct f as [|f]; [lia|].
  cbn [says_loop]. rewrite H. reflexivity.
Qed.
Lemma option_read : forall repr w o t, option_word w o -> lack o t -> w <> lit "--" /\ exists o0 n e, parse_optional w = Some (MO (Some o0) n e) /\
  forall lr, (forall v r, lr <> (v, MA) :: r) -> says_consume_optional repr o0 n e lr = Complains t.
Proof.
  intros repr w o t W K. assert (F : forall lr, (forall v r, lr <> (v, MA) :: r) -> says_from_words o lr = Complains t).
  { intros lr NM. unfold says_from_words. destruct K as [[K ->]|[K ->]].
    - apply single_iff in K. rewrite K, about_error. destruct lr as [|[v [| |? ? ?]] r]; try reflexivity. elim (NM v r eq_refl).
    - apply listed_iff in K. rewrite K, about_error. destruct lr as [|[v [| |? ? ?]] r]; try reflexivity. elim (NM v r eq_refl). }
  destruct W as [H|[(c & L & ->)|(d & s & l & q & c & W & Q & L & ->)]].
  - destruct (read_name _ _ H) as (n & _ & R). split; [intros ->; discriminate R|]. exists o, n, None. split; [exact R|]. intros lr NM. cbn [says_consume_optional]. rewrite F by exact NM. reflexivity.
  - pose proof (read_letter o c [] L) as R. split; [intros Q; injection Q as Q; apply letter_plain in L as [L _]; congruence|]. exists o, [45; c], None. split; [exact R|].
    intros lr NM. cbn [says_consume_optional]. rewrite F by exact NM. reflexivity.
  - inversion W as [|o1 ? ? l1 L1 S1 W1]; subst.
    assert (R : parse_optional (lit "-" ++ [d] ++ q ++ s ++ [c]) = Some (MO (Some o1) [45; d] (Some (s ++ [c])))).
    { destruct Q as [->| ->]; [|exact (read_letter o1 d (61 :: s ++ [c]) L1)]. pose proof (read_letter o1 d (s ++ [c]) L1) as R. change (lit "-" ++ [d] ++ [] ++ s ++ [c]) with (45 :: d :: s ++ [c]). rewrite R.
      destruct s as [|z s]; cbn [app].
      - assert (X : c =? 61 = false) by (apply Z.eqb_neq; apply (letter_plain _ _ L)). rewrite X. reflexivity.
      - inversion W1 as [|o2 ? ? l2 L2 S2 W2]; subst. assert (X : z =? 61 = false) by (apply Z.eqb_neq; apply (letter_plain _ _ L2)). rewrite X. reflexivity. }
    split; [intros D; rewrite D in R; discriminate R|]. exists o1, [45; d], (Some (s ++ [c])). split; [exact R|]. intros lr NM.
    assert (Z : forall s l, switches s l -> forall o1, nargs o1 = Zero -> says_unbundle repr o1 (s ++ [c]) lr = Complains t).
    { clear - F L NM. intros s l W. induction W as [|o2 d2 s l L2 S2 W IH]; intros o1 A; cbn [app says_unbundle]; rewrite A.
      - rewrite (find_letter _ _ L), F by exact NM. reflexivity.
      - rewrite (find_letter _ _ L2). destruct (s ++ [c]) as [|z r] eqn:Q; [destruct s; discriminate|]. rewrite IH; [reflexivity|]. apply switch_iff. exact S2. }
    apply switch_iff in S1. specialize (Z s l1 W1 o1 S1). unfold says_consume_optional. rewrite S1. apply letter_plain in L1 as [L1 _]. destruct d as [|p|p]; try exact Z. repeat (destruct p as [p|p|]; try exact Z). congruence.
Qed.
(** C103.  After words whose settings go together, an option that needs a value and is not followed by a word that can be one (it is the last word, or "--" or a word like an option follows, none of them ambiguous)
    is refused with the number of values it expects. *)
Lemma c103_missing : forall repr ws l x w o rest t, scattered ws l x -> go_together l -> option_word w o -> lack o t -> clear rest -> (forall v r, rest = v :: r -> ~ value_word v) ->
  parse_says repr (ws ++ w :: rest) = Complains t.
Proof.
  intros repr ws l x w o rest t S G W K C V. destruct (option_read repr _ _ _ W K) as (ND & o0 & n & e & R & H). destruct (after repr ws l x w o0 n e rest S G ND R C) as (lr & _ & NM & A).
  apply A. apply H. exact (NM V).
Qed.
(** C103.  After words whose settings go together, a switch written --name=text is refused with the text. *)
Lemma c103_ignored : forall repr ws l x w o v rest, scattered ws l x -> go_together l -> names w o -> switch o -> clear rest ->
  parse_says repr (ws ++ (w ++ lit "=" ++ v) :: rest) = Complains (about o (lit "ignored explicit argument " ++ repr (PStr v))).
Proof.
  intros repr ws l x w o v rest S G W SW C. destruct (read_name_eq w o v W) as (n & D & R).
  assert (ND : w ++ lit "=" ++ v <> lit "--").
  { intros Q. change (lit "=") with [61] in Q. rewrite Q in R. discriminate R. }
  destruct (after repr ws l x _ o n (Some v) rest S G ND R C) as (lr & _ & _ & A). apply A. destruct D as [q ->]. unfold says_consume_optional. apply switch_iff in SW. rewrite SW. cbn [lit app].
  rewrite about_error. reflexivity.
Qed.
Lemma says_bundle : forall repr s l, switches s l -> forall o c y e lr o0, letter o c -> switch o -> (forall o', ~ letter o' y) -> nargs o0 = Zero ->
  says_unbundle repr o0 (s ++ [c] ++ y :: e) lr = Complains (about o (lit "ignored explicit argument " ++ repr (PStr (y :: e)))).
Proof.
  intros repr s l W. assert (Z : forall o y e lr, nargs o = Zero -> (forall o', ~ letter o' y) -> says_unbundle repr o (y :: e) lr = Complains (about o (lit "ignored explicit argument " ++ repr (PStr (y :: e))))).
  { intros o y e lr A NY. cbn [says_unbundle]. rewrite A. destruct (find_option [45; y]) as [o'|] eqn:F; [elim (NY o'); apply find_letter'; exact F|]. rewrite about_error. reflexivity. }
  induction W as [|o1 d s l L1 S1 W IH]; intros o c y e lr o0 L SW NY A0.
  - cbn [app says_unbundle]. rewrite A0, (find_letter _ _ L). pose proof (Z o y e lr (proj1 (switch_iff o) SW) NY) as Q. cbn [says_unbundle] in Q. rewrite Q. reflexivity.
  - cbn [app says_unbundle]. rewrite A0, (find_letter _ _ L1). destruct (s ++ c :: y :: e) as [|z q] eqn:Q; [destruct s; discriminate|]. rewrite <- Q.
    change (c :: y :: e) with ([c] ++ y :: e). rewrite (IH o c y e lr o1 L SW NY); [reflexivity|]. apply switch_iff. exact S1.
Qed.
(** C103.  After words whose settings go together, a switch written as a letter in a word that goes on with a character that is no option is refused with the rest of the word. *)
Lemma c103_letters : forall repr ws l x w o y e rest, scattered ws l x -> go_together l -> trailing w o (y :: e) -> (forall o', ~ letter o' y) -> clear rest ->
  parse_says repr (ws ++ w :: rest) = Complains (about o (lit "ignored explicit argument " ++ repr (PStr (y :: e)))).
Proof.
  intros repr ws l x w o y e rest S G T NY C. inversion T as [o1 c q e1 L SW Q|d s sl q o1 c e1 W Q L SW]; subst.
  - assert (R : parse_optional (lit "-" ++ [c] ++ q ++ y :: e) = Some (MO (Some o) [45; c] (Some (y :: e)))).
    { destruct Q as [[-> NQ]| ->].
      - pose proof (read_letter o c (y :: e) L) as R. destruct (y =? 61) eqn:Y; [apply Z.eqb_eq in Y; subst y; elim NQ; exists e; reflexivity|]. cbv beta iota in R. rewrite Y in R. exact R.
      - exact (read_letter o c (61 :: y :: e) L). }
    assert (ND : lit "-" ++ [c] ++ q ++ y :: e <> lit "--") by (intros D; rewrite D in R; discriminate R).
    destruct (after repr ws l x _ o [45; c] (Some (y :: e)) rest S G ND R C) as (lr & _ & _ & A). apply A.
    apply switch_iff in SW. rewrite <- about_error. unfold says_consume_optional. rewrite SW. assert (Z : says_unbundle repr o (y :: e) lr = Complains (argument_error o (ignored_text repr (y :: e)))).
    { cbn [says_unbundle]. rewrite SW. destruct (find_option [45; y]) as [o'|] eqn:F; [elim (NY o'); apply find_letter'; exact F|]. reflexivity. }
    apply letter_plain in L as [L _]. destruct c as [|p|p]; try exact Z. repeat (destruct p as [p|p|]; try exact Z). congruence.
  - inversion W as [|o1 ? ? l1 L1 S1 W1]; subst.
    assert (R : parse_optional (lit "-" ++ [d] ++ q ++ s ++ [c] ++ y :: e) = Some (MO (Some o1) [45; d] (Some (s ++ [c] ++ y :: e)))).
    { destruct Q as [->| ->]; [|exact (read_letter o1 d (61 :: s ++ [c] ++ y :: e) L1)]. pose proof (read_letter o1 d (s ++ [c] ++ y :: e) L1) as R. change (lit "-" ++ [d] ++ [] ++ s ++ [c] ++ y :: e) with (45 :: d :: s ++ [c] ++ y :: e). rewrite R.
      destruct s as [|z s]; cbn [app].
      - assert (X : c =? 61 = false) by (apply Z.eqb_neq; apply (letter_plain _ _ L)). rewrite X. reflexivity.
      - inversion W1 as [|o2 ? ? l2 L2 S2 W2]; subst. assert (X : z =? 61 = false) by (apply Z.eqb_neq; apply (letter_plain _ _ L2)). rewrite X. reflexivity. }
    assert (ND : lit "-" ++ [d] ++ q ++ s ++ [c] ++ y :: e <> lit "--") by (intros D; rewrite D in R; discriminate R).
    destruct (after repr ws l x _ o1 [45; d] (Some (s ++ [c] ++ y :: e)) rest S G ND R C) as (lr & _ & _ & A). apply A.
    apply switch_iff in S1. unfold says_consume_optional. rewrite S1. pose proof (says_bundle repr s l1 W1 o c y e lr o1 L SW NY S1) as Z.
    apply letter_plain in L1 as [L1 _]. destruct d as [|p|p]; try exact Z. repeat (destruct p as [p|p|]; try exact Z). congruence.
Qed.
Lemma stops : forall repr w rest t, stop repr w rest t -> forall ws l x, scattered ws l x -> go_together l -> clear rest -> parse_says repr (ws ++ w :: rest) = Complains t.
Proof.
  intros repr w rest t H ws l x S G C. destruct H as [w o b t W K V|w o v b N SW|w o y e b T N].
  - exact (c103_missing repr ws l x w o b t S G W K C V).
  - exact (c103_ignored repr ws l x w o v b S G N SW C).
  - exact (c103_letters repr ws l x w o y e b S G T N C).
Qed.
(** C103.  These are all: the parser complains with the text t exactly if a word in front of "--" is ambiguous, and t says so of the first; or none is, the words begin with words that make settings, and t is about
    the first setting at fault, or, if the settings go together, lists the words that belong to no option (all the words having been read), or is about the next word, which lacks a value or has one too many. *)
Lemma c103_every : forall repr ws t, parse_says repr ws = Complains t <->
  (exists a w b ns u, ws = a ++ w :: b /\ ~ In (lit "--") a /\ (forall w' ns', In w' a -> ~ ambiguous w' ns') /\ w <> lit "--" /\ ambiguous w ns /\
    separated (lit ", ") ns u /\ t = lit "ambiguous option: " ++ w ++ lit " could match " ++ u) \/
  (exists a l x b, ws = a ++ b /\ scattered a l x /\ ((first_fault repr l t /\ clear b /\ forall v r, b = v :: r -> ~ value_word v) \/ (go_together l /\
    ((left_over b /\ exists u, separated (lit " ") (x ++ b) u /\ t = lit "unrecognized arguments: " ++ u) \/ (exists w rest, b = w :: rest /\ clear rest /\ stop repr w rest t))))).
Proof.
  intros repr ws t. split; [apply parse_every|]. intros [(a & w & b & ns & u & -> & N & A & ND & W & U & ->)|(a & l & x & b & -> & S & [(F & C & V)|(G & [(LO & u & U & ->)|(w & rest & -> & C & K)])])].
  - exact (c103_ambiguous repr a w b ns u N A W U ND).
  - exact (c103_first repr a l x b t S F C V).
  - apply (c103_words repr a l x b S LO). right. split; [exact G|]. eauto.
  - exact (stops repr w rest t K a l x S G C).
Qed.
End WithEnv.

Example ex103_words : @parse_says demo_env plain_repr (words ["--private-key-hex"; "01"; "--private-key-wif"; "5H"]%string) = Complains (lit "argument --private-key-wif: not allowed with argument --private-key-hex") /\
  @parse_says demo_env plain_repr (words ["--log-level"; "fatal"]%string) = Complains (lit "argument -l/--log-level: invalid choice: 'fatal' (choose from 'debug', 'info', 'warning', 'error')") /\
  @parse_says demo_env plain_repr (words ["hello"; "-d"; "you"; "--bogus"; "-t"; "x"; "--"; "-z"]%string) = Complains (lit "unrecognized arguments: hello you --bogus -- -z") /\
  @parse_says demo_env plain_repr (words ["--private-key"; "01"]%string) =
    Complains (lit "ambiguous option: --private-key could match --private-key-hex, --private-key-file, --private-key-dir, --private-key-wif") /\
  @parse_says demo_env plain_repr (words ["-d"; "--task"]%string) = Complains (lit "argument -t/--task: expected one argument") /\
  @parse_says demo_env plain_repr (words ["--private-key-hex"; "--"; "01"]%string) = Complains (lit "argument --private-key-hex: expected at least one argument") /\
  @parse_says demo_env plain_repr (words ["x"; "-dst"; "--"; "y"]%string) = Complains (lit "argument -t/--task: expected one argument") /\
  @parse_says demo_env plain_repr (words ["--debug=1"]%string) = Complains (lit "argument -d/--debug: ignored explicit argument '1'") /\
  @parse_says demo_env plain_repr (words ["-dsq1"]%string) = Complains (lit "argument -s/--log-timestamp: ignored explicit argument 'q1'").
Proof. repeat split; vm_compute; reflexivity. Qed.
Lemma dash_d : @scattered demo_env (words ["hello"; "-d"]%string) [(O_debug, [])] (words ["hello"]%string).
Proof.
  apply s_value; [left; intros r Q; discriminate Q|]. apply (s_part (words ["-d"]%string) [(O_debug, [])] [] [] []); [|left; reflexivity|constructor].
  apply (p_letters 100 [] [(O_debug, [])] []); [|left; reflexivity]. constructor; [constructor|right; left; reflexivity|constructor].
Qed.
Lemma debug_alone : go_together [(O_debug, [])].
Proof.
  assert (U : forall o, uses [(O_debug, [])] o -> o = O_debug) by (intros o (vs & [Q|[]]); congruence).
  split; [intros H; apply U in H; discriminate|]. split; [intros a b A B; rewrite (U a A), (U b B); reflexivity|]. split; [intros a b A B; rewrite (U a A), (U b B); reflexivity|]. intros v [Q|[]]. discriminate.
Qed.
(** The hypotheses of C103 are met. *)
Example ex103_meets : (exists t, @parse_says demo_env plain_repr (words ["hello"; "-d"]%string ++ words ["--"; "x"]%string) = Complains t /\ t = lit "unrecognized arguments: hello -- x") /\
  @parse_says demo_env plain_repr (words ["hello"; "-d"]%string ++ lit "--private-key-file" :: words ["--"]%string) = Complains (lit "argument --private-key-file: expected at least one argument") /\
  (exists ns, ambiguous (lit "--l=x") ns).
Proof.
  split; [|split].
  - exists (lit "unrecognized arguments: hello -- x"). split; [|reflexivity]. apply (@c103_words demo_env plain_repr _ _ _ _ dash_d (or_intror (ex_intro _ _ eq_refl))). right. split; [apply debug_alone|].
    exists (lit "hello -- x"). split; [|reflexivity]. apply joined. split; [discriminate|reflexivity].
  - apply (@c103_missing demo_env plain_repr _ _ _ (lit "--private-key-file") O_key_file (words ["--"]%string) _ dash_d debug_alone); [left; left; reflexivity|right; split; [right; reflexivity|reflexivity]|constructor|].
    intros v r Q V. injection Q as <- _. exact (value_not_dashes _ V eq_refl).
  - exists (filter (starts_with (lit "--l")) long_names), (lit "--l"). split; [exists (lit "l"); reflexivity|]. split; [vm_compute; intros [H|[H|[H|[]]]]; discriminate|].
    split; [right; exists (lit "x"); reflexivity|]. split; [vm_compute; intros H; repeat (destruct H as [H|H]; [discriminate H|]); exact H|]. split; [apply beginning_filter|vm_compute; lia].
Qed.

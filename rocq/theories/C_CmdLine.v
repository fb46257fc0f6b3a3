(** C77, C78: the command line. *)
From Coq Require Import String Lia.
From Verif Require Import PyBase Env PyNum Logger LogSpec Cli Files FilesSpec Demo DemoTx DemoCreate DemoFiles Args ArgsSpec DemoArgs.
From Verif Require Import NumLemmas HexProofs SignProofs ArgsProofs ArgsMeaningProofs C_Files.
Open Scope Z_scope.

Section WithEnv.
Context {E : Env}.

(** C77.  A list of words is accepted, with result p, iff it is a command (a sequence of options written in one of the documented ways) whose settings go together, and p is what they mean. *)
Lemma c77_parsed : forall ws p, parse_args ws = Parsed p <-> exists s, command ws s /\ go_together s /\ meaning s p.
Proof. exact parse_iff. Qed.

(** C77.  Settings that go together have exactly one meaning. *)
Lemma c77_meaning : forall ws s, command ws s -> go_together s -> exists p, meaning s p /\ forall p', meaning s p' -> p' = p.
Proof. intros ws s C G. destruct (meaning_exists ws s C G) as (p & M). exists p. split; auto. intros p' M'. eapply meaning_fun; eauto. Qed.

(** C77.  A command shows the help (exit status 0) iff the settings before the first request for help go together; it is refused (exit status 2) iff its settings do not go together and it does not show the help. *)
Lemma c77_exits : forall ws s, command ws s ->
  (parse_args ws = Helped <-> exists a b, s = a ++ (O_help, []) :: b /\ go_together a) /\
  (parse_args ws = Refused <-> ~ go_together s /\ ~ exists a b, s = a ++ (O_help, []) :: b /\ go_together a).
Proof. intros ws s C. split; [apply parse_help|apply parse_refused]; auto. Qed.

Lemma raised_unbundle : forall e o rest x, unbundle o e rest = Raised x -> x = IndexError.
Proof.
  induction e as [|c e IH]; intros o rest x H; cbn [unbundle] in H; destruct (nargs o); try discriminate; [congruence|].
  destruct (find_option [45; c]) as [o'|]; [|discriminate]. destruct e as [|d e'].
  - unfold from_words in H. destruct (nargs o'); try discriminate.
    + destruct rest as [|[w [| |? ? ?]] r]; discriminate.
    + destruct (span_args rest) as [[|a l] b]; discriminate.
  - destruct (unbundle o' (d :: e') rest) as [[l r]| | |e0] eqn:U; try discriminate. cbn [obind] in H. injection H as <-. eauto.
Qed.
Lemma raised_consume : forall o n e rest x, consume_optional o n e rest = Raised x -> x = IndexError.
Proof.
  intros o n e rest x H. unfold consume_optional in H. destruct e as [e|].
  - destruct (nargs o); try discriminate. assert (Q : unbundle o e rest = Raised x).
    { destruct n as [|a [|b n]]; auto. destruct b as [|q|q]; auto; repeat (destruct q as [q|q|]; auto); discriminate. }
    eapply raised_unbundle; eauto.
  - exfalso. unfold from_words in H. destruct (nargs o); try discriminate.
    + destruct rest as [|[w [| |? ? ?]] r]; discriminate.
    + destruct (span_args rest) as [[|a l] b]; discriminate.
Qed.
Lemma raised_take : forall acts st x, take_actions acts st = Raised x -> x = ValueError.
Proof.
  induction acts as [|[o args] acts IH]; intros [p seen] x H; [discriminate|]. cbn [take_actions] in H.
  destruct (take_action o args (p, seen)) as [st'| | |e] eqn:T; try discriminate; [cbn [obind] in H; eauto|]. cbn [obind] in H. injection H as <-.
  unfold take_action in T. destruct (get_values o args) as [vs| | |e'] eqn:G; cbn [obind] in T; try discriminate.
  - destruct (existsb _ _); [discriminate|]. destruct o; discriminate.
  - injection T as ->. unfold get_values in G. destruct (nargs o); try discriminate. destruct (remove_dashes args) as [|v [|? ?]]; try congruence. destruct o; try discriminate. destruct (str_in v log_levels); discriminate.
Qed.
Lemma raised_loop : forall f l ex st x, loop f l ex st = Raised x -> x = ValueError \/ x = IndexError.
Proof.
  induction f as [|f IH]; intros l ex st x H; [discriminate|]. destruct l as [|[w [| |[o|] n e]] l]; try discriminate; cbn [loop] in H; eauto.
  destruct (consume_optional o n e l) as [[acts r']| | |e0] eqn:C; try discriminate.
  - cbn [obind] in H. destruct (take_actions acts st) as [st'| | |e1] eqn:T; try discriminate; cbn [obind] in H; eauto. injection H as <-. left. eapply raised_take; eauto.
  - cbn [obind] in H. injection H as <-. right. eapply raised_consume; eauto.
Qed.
Lemma raised_class : forall ws x, parse_args ws = Raised x -> x = ValueError \/ x = IndexError.
Proof.
  intros ws x H. unfold parse_args in H. destruct (classify ws) as [l|]; [|discriminate]. destruct (loop (length l) l false (defaults, [])) as [[p ex]| | |e] eqn:L; try discriminate.
  - cbn [obind] in H. destruct ex; discriminate.
  - cbn [obind] in H. injection H as <-. eapply raised_loop; eauto.
Qed.

(** C77.  The program does what the settings ask for; if the words are no command, or the settings do not go together, it ends in an exception (as a rule SystemExit, after a usage message) that depends on the words only:
    no file is read, nothing is signed, and no result is printed. *)
Lemma c77_program : forall ws,
  (forall s p, command ws s -> go_together s -> meaning s p -> forall fs sh ls dirs, program fs sh ls dirs ws = run fs sh ls dirs p) /\
  ((forall s, command ws s -> ~ go_together s) -> exists e, (e = SystemExit \/ e = ValueError \/ e = IndexError) /\ forall fs sh ls dirs, program fs sh ls dirs ws = ([], Err e)).
Proof.
  intros ws. split.
  - intros s p C G M fs sh ls dirs. unfold program. assert (P : parse_args ws = Parsed p) by (apply parse_iff; eauto). rewrite P. reflexivity.
  - intros N. unfold program. destruct (parse_args ws) as [p| | |e] eqn:P.
    + apply parse_iff in P as (s & C & G & _). elim (N s C G).
    + exists SystemExit. auto.
    + exists SystemExit. auto.
    + exists e. split; auto. apply raised_class in P as [->| ->]; auto.
Qed.

Lemma meaning_level : forall s p, go_together s -> meaning s p -> exists n, level_named (p_log_level p) n.
Proof.
  intros s p (_ & _ & _ & LV) M. destruct M as (_ & _ & _ & _ & _ & _ & _ & _ & _ & _ & _ & T & _). unfold level_named. destruct T as [(a & b & -> & _)|[_ ->]].
  - destruct (LV (p_log_level p)) as [<-|[<-|[<-|[<-|[]]]]]; [apply in_or_app; right; left; reflexivity|..]; eauto 8.
  - exists 40. auto.
Qed.
(** C77.  From the words to the effect: if the words are a command whose settings go together, and the files named by the settings can be read, the program has the effect of the command with the contents of the files (C63-C65, C73).
    The log level needs no hypothesis (compare C74): only existing levels get through. *)
Lemma c77_effect : forall fs sh ls dirs ws s p c, command ws s -> go_together s -> meaning s p -> listing_ok fs -> log_dir_ok p dirs -> contents fs p c ->
  program fs sh ls dirs ws = main sh c.
Proof. intros fs sh ls dirs ws s p c C G M LO LD CO. rewrite (proj1 (c77_program ws) s p C G M). apply c74_contents; auto. eapply meaning_level; eauto. Qed.

Lemma uses_occurrences : forall s o, uses s o <-> occurrences s o <> [].
Proof.
  intros s o. split.
  - intros (vs & I). induction s as [|[o' x] s IH]; [destruct I|]. unfold occurrences in *. cbn [filter fst]. destruct (opt_eq_dec o' o) as [->|N]; [discriminate|].
    destruct I as [I|I]; [congruence|auto].
  - intros H. destruct (occurrences s o) as [|x l] eqn:Q; [congruence|]. assert (I : In x (occurrences s o)) by (rewrite Q; left; auto).
    unfold occurrences in I. apply in_map_iff in I as ([o' y] & <- & I). apply filter_In in I as [I F]. cbn [fst] in F. destruct (opt_eq_dec o' o) as [->|]; [|discriminate]. exists y. exact I.
Qed.
Lemma occurrences_in : forall s o vs, In (o, vs) s <-> In vs (occurrences s o).
Proof.
  intros s o vs. unfold occurrences. split.
  - intros I. apply in_map_iff. exists (o, vs). split; auto. apply filter_In. split; auto. cbn [fst]. destruct (opt_eq_dec o o); congruence.
  - intros I. apply in_map_iff in I as ([o' y] & <- & I). apply filter_In in I as [I F]. cbn [fst snd] in *. destruct (opt_eq_dec o' o) as [->|]; [exact I|discriminate].
Qed.
Lemma occurrences_app : forall a b o, occurrences (a ++ b) o = occurrences a o ++ occurrences b o.
Proof. intros a b o. unfold occurrences. rewrite filter_app, map_app. reflexivity. Qed.
Lemma last_occurrences : forall s o v, last_value s o v <-> exists l, occurrences s o = l ++ [[v]].
Proof.
  intros s o v. split.
  - intros (a & b & -> & U). exists (occurrences a o). rewrite !occurrences_app, (occurrences_none b o U), app_nil_r. f_equal. unfold occurrences. cbn [filter fst]. destruct (opt_eq_dec o o); [reflexivity|congruence].
  - intros (l & H). revert l H. induction s as [|[o' x] s IH] using rev_ind; intros l H; [destruct l; discriminate|].
    destruct (opt_eq_dec o' o) as [->|N].
    + rewrite occurrences_same in H. apply app_inj_tail in H as [_ ->]. apply last_same.
    + assert (Q : occurrences [(o', x)] o = []) by (apply occurrences_none; intros (y & [I|[]]); congruence).
      assert (H2 : occurrences s o = l ++ [[v]]) by (pose proof (occurrences_app s [(o', x)] o) as X; rewrite Q, app_nil_r in X; rewrite <- X; exact H). apply last_other; eauto.
Qed.
Lemma meaning_by_option : forall s s' p, (forall o, occurrences s o = occurrences s' o) -> (go_together s -> go_together s') /\ (meaning s p -> meaning s' p).
Proof.
  intros s s' p H.
  assert (U : forall o, uses s o <-> uses s' o) by (intros o; rewrite !uses_occurrences, H; tauto).
  assert (L : forall o v, last_value s o v <-> last_value s' o v) by (intros o v; rewrite !last_occurrences, H; tauto).
  split.
  - intros (A & B & C & D). split; [rewrite <- U; auto|]. split; [intros a b; rewrite <- !U; auto|]. split; [intros a b; rewrite <- !U; auto|].
    intros v I. apply D. apply occurrences_in. rewrite H. apply occurrences_in. exact I.
  - assert (T : forall o d v, text s o d v -> text s' o d v) by (intros o d v [X|[X Y]]; [left; apply L; auto|right; rewrite <- U; auto]).
    assert (O : forall o v, optional_text s o v -> optional_text s' o v) by (intros o v [(x & X & Y)|[X Y]]; [left; exists x; rewrite <- L; auto|right; rewrite <- U; auto]).
    assert (LI : forall o v, lists s o v -> lists s' o v) by (intros o v [[X Y]|[X Y]]; [left; rewrite <- U, <- H; auto|right; rewrite <- U; auto]).
    assert (ON : forall o b, on s o b -> on s' o b) by (intros o b X; unfold on in *; rewrite <- U; auto).
    intros (A1 & A2 & A3 & A4 & A5 & A6 & A7 & A8 & A9 & A10 & A11 & A12 & A13 & A14 & A15 & A16).
    split; [apply T; auto|]. split; [apply LI; auto|]. split; [apply LI; auto|]. do 8 (split; [apply O; auto|]). split; [apply T; auto|]. do 3 (split; [apply ON; auto|]). apply T; auto.
Qed.

(** C78.  The order of the options on the command line makes no difference, as long as the occurrences of each single option stay in their order. *)
Lemma c78_order : forall ws ws' s s', command ws s -> command ws' s' -> (forall o, occurrences s o = occurrences s' o) ->
  (forall p, parse_args ws = Parsed p <-> parse_args ws' = Parsed p) /\
  (forall p fs sh ls dirs, parse_args ws = Parsed p -> program fs sh ls dirs ws = program fs sh ls dirs ws').
Proof.
  intros ws ws' s s' C C' H.
  assert (G : forall ws ws' s s' p, command ws s -> command ws' s' -> (forall o, occurrences s o = occurrences s' o) -> parse_args ws = Parsed p -> parse_args ws' = Parsed p).
  { clear. intros ws ws' s s' p C C' H P. pose proof (parse_command ws s C) as PC. assert (GM : go_together s /\ meaning s p).
    { apply (proj1 (sets_iff s (command_shaped _ _ C)) p). rewrite P in PC. destruct (sets s (defaults, [])) as [[p' seen]| | |]; try discriminate. cbn [obind fst] in PC. injection PC as ->. eauto. }
    destruct GM as [G M]. apply parse_iff. exists s'. split; auto. split; [apply (meaning_by_option s s' p H); auto|apply (meaning_by_option s s' p H); auto]. }
  split.
  - intros p. split; intros P; [eapply (G ws ws')|eapply (G ws' ws)]; eauto.
  - intros p fs sh ls dirs P. pose proof (G _ _ _ _ _ C C' H P) as P'. unfold program. rewrite P, P'. reflexivity.
Qed.

Lemma command_app : forall ws s ws' s', command ws s -> command ws' s' -> command (ws ++ ws') (s ++ s').
Proof. intros ws s ws' s' C C'. induction C as [|ws s w0 s0 P C IH]; [exact C'|]. rewrite <- !app_assoc. constructor; auto. Qed.
Lemma part_command : forall ws s, part ws s -> command ws s.
Proof. intros ws s P. rewrite <- (app_nil_r ws), <- (app_nil_r s). constructor; auto. constructor. Qed.
(** C78.  Any text except "--" can be given as the value of an option with "=", whatever it looks like; the last value wins. *)
Lemma c78_equals : forall ws s o v, command ws s -> single o -> v <> lit "--" ->
  command (ws ++ [long o ++ lit "=" ++ v]) (s ++ [(o, [v])]) /\ last_value (s ++ [(o, [v])]) o v.
Proof.
  intros ws s o v C [S _] V. split; [|exists s, []; split; auto; apply uses_nil].
  apply command_app; auto. apply part_command. apply p_equals; auto. left. reflexivity.
Qed.
(** C78.  As the word after the option, a text that begins like an option is not taken as its value: such a command line is never accepted as the one option with that value. *)
Lemma c78_dash_value_refuted : ~ (forall o v, single o -> v <> lit "--" -> exists p, parse_args [long o; v] = Parsed p /\ last_value [(o, [v])] o v).
Proof.
  intros H. destruct (H O_data (lit "-double spend")) as (p & P & _); [split; intros X; repeat (destruct X as [X|X]; try discriminate); discriminate|discriminate|]. vm_compute in P. discriminate.
Qed.

Lemma part_no_dashes : forall ws s, part ws s -> ~ In (lit "--") ws.
Proof. intros ws s P. destruct (part_read _ _ P) as (w & ws1 & o & n & e & t & acts & -> & _ & _ & NW & N1 & _). intros [I|I]; auto. Qed.
(** C78.  Nothing that is not an option or its value gets through: not "--", and no word in front of the first option. *)
Lemma c78_stray : forall ws p, parse_args ws = Parsed p -> ~ In (lit "--") ws /\ forall w r, ws = w :: r -> ~ value_word w.
Proof.
  intros ws p P. apply parse_iff in P as (s & C & _). split.
  - clear - C. induction C as [|ws s ws' s' P C IH]; [intros []|]. intros I. apply in_app_or in I as [I|I]; [eapply part_no_dashes; eauto|auto].
  - intros w r -> V. inversion C as [|w1 s1 w2 s2 P _ Q]; subst. destruct (part_read _ _ P) as (w' & ws1 & o & n & e & t & acts & -> & R & _).
    cbn [app] in Q. injection Q as -> _. apply read_value in V. congruence.
Qed.

(** C78.  At most one source of keys and at most one source of data gets through, and the log level is one of the four. *)
Lemma c78_sources : forall ws p, parse_args ws = Parsed p ->
  (p_private_key_hex p = None \/ p_private_key_file p = None) /\ (p_private_key_hex p = None \/ p_private_key_dir p = None) /\ (p_private_key_hex p = None \/ p_private_key_wif p = None) /\
  (p_private_key_file p = None \/ p_private_key_dir p = None) /\ (p_private_key_file p = None \/ p_private_key_wif p = None) /\ (p_private_key_dir p = None \/ p_private_key_wif p = None) /\
  (p_data p = None \/ p_data_file p = None) /\ In (p_log_level p) [lit "debug"; lit "info"; lit "warning"; lit "error"].
Proof.
  intros ws p P. apply parse_iff in P as (s & C & G & M). pose proof (meaning_level s p G M) as (n & LN). destruct G as (_ & K & D & _).
  destruct M as (_ & A2 & A3 & A4 & A5 & _ & _ & A8 & A9 & _).
  assert (L : forall o r, lists s o r -> r = None \/ uses s o) by (intros o r [[X _]|[_ X]]; auto).
  assert (T : forall o r, optional_text s o r -> r = None \/ uses s o) by (intros o r [(v & X & _)|[_ X]]; auto; right; eapply last_uses; eauto).
  apply L in A2. apply L in A3. apply T in A4. apply T in A5. apply T in A8. apply T in A9.
  assert (X : forall a b (x y : Prop), key_source a -> key_source b -> a <> b -> x \/ uses s a -> y \/ uses s b -> x \/ y).
  { intros a b x y Ka Kb N [?|Ua] [?|Ub]; auto. elim N. auto. }
  split; [eapply (X O_key_hex O_key_file); unfold key_source; auto; discriminate|]. split; [eapply (X O_key_hex O_key_dir); unfold key_source; auto; discriminate|].
  split; [eapply (X O_key_hex O_key_wif); unfold key_source; auto; discriminate|]. split; [eapply (X O_key_file O_key_dir); unfold key_source; auto; discriminate|].
  split; [eapply (X O_key_file O_key_wif); unfold key_source; auto; discriminate|]. split; [eapply (X O_key_dir O_key_wif); unfold key_source; auto; discriminate|].
  split.
  - destruct A8 as [?|U8]; auto. destruct A9 as [?|U9]; auto. assert (O_data = O_data_file) by (apply D; unfold data_source; auto). discriminate.
  - destruct LN as [[-> _]|[[-> _]|[[-> _]|[-> _]]]]; cbn; auto 6.
Qed.

(** C78.  The commands of the README, with any file names that do not begin with a dash. *)
Lemma c78_readme : forall keys inputs design data, Forall (fun f => forall r, f <> lit "-" ++ r) [keys; inputs; design; data] ->
  parse_args [lit "--task"; lit "create_transaction"; lit "--private-key-dir"; keys; lit "--input-file"; inputs; lit "--design-file"; design] =
    Parsed (mk_parsed (lit "create_transaction") None None (Some keys) None None None None None (Some inputs) (Some design) (lit "error") false false false (lit "log_bitcoin_toolset.txt")) /\
  parse_args [lit "--task"; lit "create_signed_transaction_json"; lit "--private-key-dir"; keys; lit "--data-file"; data] =
    Parsed (mk_parsed (lit "create_signed_transaction_json") None None (Some keys) None None None None (Some data) None None (lit "error") false false false (lit "log_bitcoin_toolset.txt")).
Proof.
  intros keys inputs design data F. inversion F as [|a l FK F1]; subst. inversion F1 as [|a l FI F2]; subst. inversion F2 as [|a l FD F3]; subst. inversion F3 as [|a l FA _]; subst. clear F F1 F2 F3.
  assert (PL : forall t, (match t with x :: _ => x <> 45 | [] => True end) -> value_word t) by (intros t N; left; intros r ->; apply N; reflexivity).
  assert (NX : forall o v ws s, single o -> value_word v -> command ws s -> command (long o :: v :: ws) ((o, [v]) :: s)).
  { intros o v ws s S V C. apply (c_part [long o; v] [(o, [v])] ws s); auto. apply p_next; auto. left. reflexivity. }
  assert (SG : forall o, nargs o = One -> single o) by (intros o; apply single_iff).
  assert (VW : forall f, (forall r, f <> lit "-" ++ r) -> value_word f) by (intros f N; left; exact N).
  split; apply parse_iff_sets.
  - exists [(O_task, [lit "create_transaction"]); (O_key_dir, [keys]); (O_input_file, [inputs]); (O_design_file, [design])]. eexists. split; [|reflexivity].
    apply (NX O_task); [apply SG; reflexivity|apply PL; discriminate|]. apply (NX O_key_dir); [apply SG; reflexivity|auto|]. apply (NX O_input_file); [apply SG; reflexivity|auto|]. apply (NX O_design_file); [apply SG; reflexivity|auto|]. constructor.
  - exists [(O_task, [lit "create_signed_transaction_json"]); (O_key_dir, [keys]); (O_data_file, [data])]. eexists. split; [|reflexivity].
    apply (NX O_task); [apply SG; reflexivity|apply PL; discriminate|]. apply (NX O_key_dir); [apply SG; reflexivity|auto|]. apply (NX O_data_file); [apply SG; reflexivity|auto|]. constructor.
Qed.
End WithEnv.

Example ex77_parsed : @parse_args demo_env (words ["--task"; "sign_data"; "--private-key-hex"; "01"; "--data=hello world"]%string) = Parsed (parsed_with "sign_data" "error" false false false (Some (lit "hello world")) (Some [[lit "01"]])) /\
  @parse_args demo_env (words ["-dsxthello"; "--private-key-h"; "01"; "02"; "--log-l"; "info"; "--private-key-hex=03"]%string) =
    Parsed (parsed_with "hello" "info" true true true None (Some [[lit "01"; lit "02"]; [lit "03"]])) /\
  @parse_args demo_env (words ["-t"; "a"; "--task=b"; "--data"; "-5"]%string) = Parsed (parsed_with "b" "error" false false false (Some (lit "-5")) None) /\
  @parse_args demo_env [] = Parsed (parsed_with "hello" "error" false false false None None).
Proof. repeat split; vm_compute; reflexivity. Qed.
Example ex77_exits : @parse_args demo_env (words ["--private-key-hex"; "01"; "--private-key-wif"; "5H"]%string) = Refused /\ @parse_args demo_env (words ["--data=a"; "--data-file"; "f"]%string) = Refused /\
  @parse_args demo_env (words ["--log-level"; "fatal"]%string) = Refused /\ @parse_args demo_env (words ["--private-key"; "01"]%string) = Refused /\ @parse_args demo_env (words ["hello"]%string) = Refused /\
  @parse_args demo_env (words ["--task"]%string) = Refused /\ @parse_args demo_env (words ["--task"; "--"; "hello"]%string) = Refused /\ @parse_args demo_env (words ["--debug=1"]%string) = Refused /\
  @parse_args demo_env (words ["-dh"; "--log-level"; "fatal"]%string) = Helped /\ @parse_args demo_env (words ["--task=--"]%string) = Raised ValueError /\ @parse_args demo_env (words ["-d="]%string) = Raised IndexError.
Proof. repeat split; vm_compute; reflexivity. Qed.
Example ex77_meets : exists s p, @command demo_env (words ["--task"; "get_address"; "--private-key-dir"; "one/"]%string) s /\ go_together s /\ meaning s p /\ p = demo_parsed "get_address" (Some (lit "one/")).
Proof.
  assert (P : @parse_args demo_env (words ["--task"; "get_address"; "--private-key-dir"; "one/"]%string) = Parsed (demo_parsed "get_address" (Some (lit "one/")))) by (vm_compute; reflexivity).
  apply parse_iff in P as (s & C & G & M). exists s, (demo_parsed "get_address" (Some (lit "one/"))). auto.
Qed.
Example ex77_program : @program demo_env demo_files no_shell [fresh_logger] (fun _ => Ok tt) (words ["--task"; "get_address"; "--private-key-dir=one/"]%string) = ([addr1], Ok tt).
Proof. vm_compute. reflexivity. Qed.
Example ex78_order : @parse_args demo_env (words ["--data=x"; "-t"; "sign_data"; "-d"; "--data=y"]%string) = @parse_args demo_env (words ["-dtsign_data"; "--data=x"; "--data=y"]%string) /\
  @parse_args demo_env (words ["--data=x"; "-t"; "sign_data"; "-d"; "--data=y"]%string) = Parsed (parsed_with "sign_data" "error" true false false (Some (lit "y")) None).
Proof. split; vm_compute; reflexivity. Qed.

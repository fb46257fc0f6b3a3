(** C74: the files of the command line. *)
From Coq Require Import String Floats.SpecFloat Lia.
From Verif Require Import PyBase Env PyNum Validate Basic TxInput TxOutput Tx Create Logger LogSpec Cli CliSpec Files FilesSpec Demo DemoTx DemoCreate DemoFiles.
From Verif Require Import HexProofs FilesProofs C_Log C_Cli StripProofs.
Open Scope Z_scope.

Section WithEnv.
Context {E : Env}.

Lemma builds_is : forall c p, c_task c = p_task p -> task_is c ["create_unsigned_transaction_json"; "create_sign_and_verify_transaction_hex"; "create_transaction"]%string = true <-> builds (p_task p).
Proof. intros c p T. unfold builds. rewrite <- T. rewrite task_is_spec. cbn [map In]. intuition. Qed.

Lemma content_given : forall fs o f t s, given o f -> holds fs f t -> content fs o s <-> s = Some t.
Proof.
  intros fs o f t s G H. split.
  - intros [[N _]|(f' & t' & G' & H' & ->)]; [elim (given_not _ _ G N)|]. pose proof (given_fun _ _ _ G G'). subst. unfold holds in *. congruence.
  - intros ->. right. eauto.
Qed.

(** C74.  With the four levels the command line offers, and if the log directory can be made when it is needed, logging is set up without error, whatever the state of the loggers. *)
Lemma c74_logging : forall ls p dirs, (exists n, level_named (p_log_level p) n) -> log_dir_ok p dirs -> fst (setup_all ls (log_arguments p) dirs 0) = Ok tt.
Proof.
  intros ls p dirs (n & LN) LD. generalize 0%nat. induction ls as [|l r IH]; intros k; [reflexivity|]. cbn [setup_all].
  assert (C : fst (configure_module_logger l (mk_call (lc_log_level (log_arguments p)) (lc_debug (log_arguments p)) (lc_log_timestamp (log_arguments p)) (lc_log_file (log_arguments p)) (dirs k))) = Ok tt).
  { unfold log_arguments. cbn [lc_log_level lc_debug lc_log_timestamp lc_log_file]. unfold configure_module_logger. destruct (lg_initialised l); [reflexivity|].
    unfold validate_log_args. cbn [lc_log_level lc_debug lc_log_timestamp lc_log_file lc_makedirs validate_string validate_boolean is_none bind].
    assert (V : (if is_none (if p_log_to_file p then PStr (p_log_file p) else PNone) then Ok tt else validate_string (if p_log_to_file p then PStr (p_log_file p) else PNone)) = Ok tt) by (destruct (p_log_to_file p); reflexivity).
    rewrite V. assert (LV : exists m, level_of (if truthy (PBool (p_debug p)) then lit "debug" else p_log_level p) = Ok m).
    { cbn [truthy]. destruct (p_debug p); [exists 10; reflexivity|]. exists n. apply level_of_iff. exact LN. }
    destruct LV as (m & ->). destruct (p_log_to_file p) eqn:TF; [|reflexivity]. destruct (p_log_file p) as [|x s] eqn:LF; [reflexivity|].
    destruct LD as [LD|[LD|LD]]; [congruence..|]. rewrite LD. reflexivity. }
  destruct (configure_module_logger _ _) as [x l']. cbn [fst] in C. subst x. specialize (IH (S k)). destruct (setup_all r _ dirs (S k)) as [y r']. exact IH.
Qed.

(** C74.  If every file the command needs can be read, running it has the effect of the command with the contents of the files in place of their names: the command of C63-C65.
    Log settings do not change what is printed. *)
Lemma c74_contents : forall fs sh ls dirs p c, listing_ok fs -> (exists n, level_named (p_log_level p) n) -> log_dir_ok p dirs ->
  contents fs p c -> run fs sh ls dirs p = main sh c.
Proof.
  intros fs sh ls dirs p c LO LN LD (T & H & W & P & S & D & K & IO).
  assert (WC : with_contents fs p = Ok (mk_args (c_task c) (c_private_key_hex c) (c_private_key_files c) (c_private_key_wif c) (c_public_key_hex c) (c_signature_hex c) (c_data c) None None)).
  { apply with_contents_ok; auto. exists (c_data c), (c_private_key_files c). split; auto. split; auto. congruence. }
  unfold run. rewrite WC. cbn [after]. set (c' := mk_args _ _ _ _ _ _ _ _ _). unfold main.
  change (check_single_key c') with (check_single_key c). change (check_data c') with (check_data c). destruct (check_single_key c) as [u|e]; [|reflexivity]. cbn [after]. destruct (check_data c) as [u2|e]; [|reflexivity]. cbn [after].
  assert (RJ : read_json_files fs p c' = load_files c).
  { unfold read_json_files, load_files. change (task_is c' _) with (task_is c ["create_unsigned_transaction_json"; "create_sign_and_verify_transaction_hex"; "create_transaction"]%string).
    destruct (task_is c ["create_unsigned_transaction_json"; "create_sign_and_verify_transaction_hex"; "create_transaction"]%string) eqn:TI; [|reflexivity]. apply (builds_is c p T) in TI. destruct (IO TI) as [I O].
    destruct I as [[NI ->]|(f & s & GI & HI & ->)].
    - apply given_text_none in NI. rewrite NI. reflexivity.
    - apply given_text_some in GI. rewrite GI. destruct O as [[NO ->]|(g & s2 & GO & HO & ->)].
      + apply given_text_none in NO. rewrite NO. reflexivity.
      + apply given_text_some in GO. rewrite GO. unfold holds in *. rewrite HI. cbn [bind]. destruct (json_loads s); [|reflexivity]. cbn [bind]. rewrite HO. reflexivity. }
  rewrite RJ. destruct (load_files c) as [[i d]|e]; [|reflexivity]. cbn [after]. rewrite (c74_logging ls p dirs LN LD). reflexivity.
Qed.

(** C74.  If data or keys cannot be read, the command prints nothing and fails with the error of the first file, in the order data file, key files, key directory, its files. *)
Lemma c74_sources : forall fs sh ls dirs p, listing_ok fs ->
  (forall e, sources_fail fs p e -> run fs sh ls dirs p = ([], Err e)) /\
  ((forall e, ~ sources_fail fs p e) -> (exists d, data_content fs p d) /\ (exists l, keys_content fs p l)).
Proof.
  intros fs sh ls dirs p LO. split.
  - intros e S. apply with_contents_err in S; auto. unfold run. rewrite S. reflexivity.
  - intros N. destruct (with_contents fs p) as [c|e] eqn:W; [|elim (N e); apply with_contents_err; auto]. apply with_contents_ok in W as (d & l & D & K & _); eauto.
Qed.

(** C74.  If the input file, or then the design file, cannot be read, a command that builds a transaction prints nothing and fails with this error (unless the design file is not given, which is found first). *)
Lemma c74_json_files : forall fs sh ls dirs p, listing_ok fs -> builds (p_task p) -> (forall e, ~ sources_fail fs p e) ->
  (not_given (p_input_file p) \/ not_given (p_design_file p) -> run fs sh ls dirs p = ([], Err ValueError)) /\
  (forall f g e, given (p_input_file p) f -> given (p_design_file p) g -> fs_read fs f = Err e -> run fs sh ls dirs p = ([], Err e)) /\
  (forall f g s e, given (p_input_file p) f -> given (p_design_file p) g -> holds fs f s -> json_loads s = Err e -> run fs sh ls dirs p = ([], Err e)) /\
  (forall f g s v e, given (p_input_file p) f -> given (p_design_file p) g -> holds fs f s -> json_loads s = Ok v -> fs_read fs g = Err e -> run fs sh ls dirs p = ([], Err e)).
Proof.
  intros fs sh ls dirs p LO B N. destruct (with_contents fs p) as [c|e] eqn:W; [|elim (N e); apply with_contents_err; auto].
  assert (CT : c_task c = p_task p) by (apply with_contents_ok in W as (d & l & D & K & ->); auto).
  assert (R : run fs sh ls dirs p = after (read_json_files fs p c) (fun '(inputs, design) => after (fst (setup_all ls (log_arguments p) dirs 0)) (fun _ => dispatch sh c inputs design))).
  { unfold run. rewrite W. cbn [after]. assert (A1 : task_is c single_key_tasks = false).
    { destruct (task_is c single_key_tasks) eqn:Q; auto. apply task_is_spec in Q. rewrite CT in Q. exfalso. clear - Q B. destruct B as [B|[B|B]]; rewrite B in Q; cbn in Q; repeat (destruct Q as [Q|Q]; [discriminate|]); exact Q. }
    assert (A2 : task_is c ["sign_data"; "validate_unsigned_transaction_json"]%string = false).
    { destruct (task_is c ["sign_data"; "validate_unsigned_transaction_json"]%string) eqn:Q; auto. apply task_is_spec in Q. rewrite CT in Q. exfalso. clear - Q B. destruct B as [B|[B|B]]; rewrite B in Q; cbn in Q; repeat (destruct Q as [Q|Q]; [discriminate|]); exact Q. }
    unfold check_single_key, check_data. rewrite A1, A2. reflexivity. }
  rewrite R. unfold read_json_files. rewrite (proj2 (builds_is c p CT) B). unfold holds. repeat split.
  - intros [NG|NG]; apply given_text_none in NG; rewrite NG; [reflexivity|]. destruct (given_text (p_input_file p)); reflexivity.
  - intros f g e G1 G2 H. apply given_text_some in G1, G2. rewrite G1, G2, H. reflexivity.
  - intros f g s e G1 G2 H J. apply given_text_some in G1, G2. rewrite G1, G2, H. cbn [bind]. rewrite J. reflexivity.
  - intros f g s v e G1 G2 H J H2. apply given_text_some in G1, G2. rewrite G1, G2, H. cbn [bind]. rewrite J. cbn [bind]. rewrite H2. reflexivity.
Qed.

(** C74.  If the log directory is wanted and cannot be made, the command prints nothing and fails: with this error, or with the error it would have failed with anyway. *)
Lemma c74_log_dir : forall fs sh ls dirs p e, p_log_to_file p = true -> p_log_file p <> [] -> (exists n, level_named (p_log_level p) n) -> dirs 0%nat = Err e ->
  exists e', run fs sh (fresh_logger :: ls) dirs p = ([], Err e') /\ (e' = e \/ run fs sh (fresh_logger :: ls) (fun _ => Ok tt) p = ([], Err e')).
Proof.
  intros fs sh ls dirs p e TF LF (n & LN) D.
  assert (ST : fst (setup_all (fresh_logger :: ls) (log_arguments p) dirs 0) = Err e).
  { cbn [setup_all]. unfold log_arguments at 1 2 3 4. cbn [lc_log_level lc_debug lc_log_timestamp lc_log_file]. rewrite TF, D. unfold configure_module_logger. cbn [lg_initialised fresh_logger].
    unfold validate_log_args. cbn [lc_log_level lc_debug lc_log_timestamp lc_log_file lc_makedirs validate_string validate_boolean is_none bind].
    assert (LV : exists m, level_of (if truthy (PBool (p_debug p)) then lit "debug" else p_log_level p) = Ok m).
    { cbn [truthy]. destruct (p_debug p); [exists 10; reflexivity|]. exists n. apply level_of_iff. exact LN. }
    destruct LV as (m & ->). destruct (p_log_file p) as [|x s]; [congruence|]. reflexivity. }
  unfold run. destruct (with_contents fs p) as [c|e1]; cbn [after]; [|exists e1; auto].
  destruct (check_single_key c) as [u|e1]; cbn [after]; [|exists e1; auto]. destruct (check_data c) as [u2|e1]; cbn [after]; [|exists e1; auto].
  destruct (read_json_files fs p c) as [[i d]|e1]; cbn [after]; [|exists e1; auto]. rewrite ST. cbn [after]. exists e. auto.
Qed.

(** C74.  The command reads nothing else: if two file systems agree on the files it wants (the data file, the key files, the .txt files of the key directory, and, only if it builds
    a transaction, the input and the design file) and on the listing of the key directory, it does the same with both. *)
Lemma c74_nothing_else : forall fs fs' sh ls dirs p, listing_ok fs -> same_for p fs fs' -> run fs sh ls dirs p = run fs' sh ls dirs p.
Proof.
  intros fs fs' sh ls dirs p LO [RD LS].
  assert (MM : forall l, (forall f, In f l -> wanted fs p f) -> mapM (fs_read fs) l = mapM (fs_read fs') l).
  { induction l as [|x l IH]; intros H; [reflexivity|]. cbn [mapM]. rewrite (RD x) by (apply H; now left). rewrite IH by (intros; apply H; now right). reflexivity. }
  assert (W : with_contents fs p = with_contents fs' p).
  { unfold with_contents. f_equal.
    - unfold read_data. destruct (given_text (p_data_file p)) as [f|] eqn:G; [|reflexivity]. apply given_text_some in G. rewrite (RD f) by (now constructor). reflexivity.
    - assert (K : key_files fs p = key_files fs' p); [|rewrite K; reflexivity]. unfold key_files. rewrite !files_of. rewrite <- MM by (intros; now apply want_key).
      destruct (mapM (fs_read fs) (all_of (p_private_key_file p))) as [l1|]; [|reflexivity]. cbn [bind]. destruct (given_text (p_private_key_dir p)) as [d|] eqn:G; [|reflexivity].
      apply given_text_some in G. rewrite <- (LS d G). destruct (fs_list fs d) as [names|] eqn:L; [|reflexivity]. cbn [bind]. rewrite <- MM; [reflexivity|].
      intros f I. eapply want_dir; [|exact I]. apply (dir_iff fs p LO d names G L). reflexivity. }
  unfold run. rewrite <- W. destruct (with_contents fs p) as [c|e] eqn:WC; [|reflexivity]. cbn [after]. destruct (check_single_key c); [|reflexivity]. cbn [after]. destruct (check_data c); [|reflexivity]. cbn [after].
  assert (J : read_json_files fs p c = read_json_files fs' p c); [|rewrite J; reflexivity].
  assert (CT : c_task c = p_task p) by (apply with_contents_ok in WC as (d & l & D & K & ->); auto).
  unfold read_json_files. destruct (task_is c _) eqn:TI; [|reflexivity]. apply (builds_is c p CT) in TI. destruct (given_text (p_input_file p)) as [f|] eqn:G1; [|reflexivity]. destruct (given_text (p_design_file p)) as [g|] eqn:G2; [|reflexivity].
  apply given_text_some in G1, G2. rewrite (RD f) by (now apply want_input). rewrite (RD g) by (now apply want_design). reflexivity.
Qed.

(** C74.  Which entries of the key directory are read, and under which path. *)
Lemma c74_key_dir : forall fs p d names, listing_ok fs -> given (p_private_key_dir p) d -> fs_list fs d = Ok names ->
  exists paths, dir_paths fs p paths /\ forall path, In path paths <-> exists x, In x names /\ key_file_name x /\ in_dir d x path.
Proof.
  intros fs p d names LO G L. eexists. split; [apply (dir_iff fs p LO d names G L); reflexivity|]. intros path. rewrite in_map_iff. split.
  - intros (x & J & I). apply filter_In in I as [I S]. destruct (LO _ _ _ L I) as [N1 N2]. exists x. split; auto. split; [now apply splitext_name|]. apply join_in_dir; auto. apply G.
  - intros (x & I & K & J). destruct (LO _ _ _ L I) as [N1 N2]. exists x. split; [apply join_in_dir; auto; apply G|]. apply filter_In. split; auto. now apply splitext_name.
Qed.

End WithEnv.

(** Beside C74: a key directory with two key files and other entries, a data file, and a command that needs neither an input file nor a design file. *)
Example ex74_address : @run demo_env demo_files no_shell [fresh_logger] (fun _ => Ok tt) (demo_parsed "get_address" (Some (lit "keys"))) = ([], Err AssertionError) /\
  @run demo_env demo_files no_shell [fresh_logger] (fun _ => Ok tt) (demo_parsed "get_address" (Some (lit "one/"))) = ([addr1], Ok tt) /\
  @run demo_env demo_files no_shell [fresh_logger] (fun _ => Ok tt) (demo_parsed "get_address" (Some (lit "absent"))) = ([], Err LibraryError).
Proof. split; [vm_compute; reflexivity|]. split; vm_compute; reflexivity. Qed.
Example ex74_meets : listing_ok demo_files /\ (exists n, level_named (p_log_level (demo_parsed "get_address" (Some (lit "keys")))) n) /\
  (exists c, contents demo_files (demo_parsed "get_address" (Some (lit "keys"))) c /\ map (@strip demo_env) (c_private_key_files c) = [key1; key2]).
Proof.
  assert (LO : listing_ok demo_files).
  { intros d names x H I. cbn in H. repeat (match type of H with (if ?b then _ else _) = _ => destruct b end; [injection H as <-; cbn in I; repeat (destruct I as [<-|I]; [split; [discriminate|intros J; cbn in J; lia]|]); destruct I|]). discriminate. }
  split; [exact LO|]. split; [exists 40; unfold level_named; auto|].
  destruct (with_contents demo_files (demo_parsed "get_address" (Some (lit "keys")))) as [c|e] eqn:W; [|vm_compute in W; discriminate].
  exists c. assert (W2 := W). apply (with_contents_ok demo_files _ LO) in W as (d & l & D & K & ->). split.
  - unfold contents. cbn [c_task c_private_key_hex c_private_key_wif c_public_key_hex c_signature_hex c_data c_private_key_files c_input_file c_design_file]. do 5 (split; [reflexivity|]). split; [exact D|]. split; [exact K|]. intros [B|[B|B]]; discriminate.
  - vm_compute in W2. injection W2 as <- _. vm_compute. reflexivity.
Qed.

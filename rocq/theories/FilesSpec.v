(** What the statements about the files of the command line (C74) are made of. *)
From Coq Require Import String.
From Verif Require Import PyBase Env Cli Files.

(** An option that counts as given: not absent and not the empty string. *)
Definition given (o : option pystr) (x : pystr) : Prop := o = Some x /\ x <> [].
Definition not_given (o : option pystr) : Prop := o = None \/ o = Some [].

(** A directory entry that is taken for a key file: it ends in .txt, and what comes before is not empty and not only dots. *)
Definition key_file_name (x : pystr) : Prop := exists stem c, x = stem ++ lit ".txt" /\ In c stem /\ c <> 46.
(** The path of the entry x of the directory d. *)
Definition in_dir (d x path : pystr) : Prop :=
  (exists d', d = d' ++ lit "/" /\ path = d ++ x) \/ ((forall d', d <> d' ++ lit "/") /\ path = d ++ lit "/" ++ x).
(** Directory entries are not empty and contain no slash. *)
Definition listing_ok (fs : file_system) : Prop := forall d names x, fs_list fs d = Ok names -> In x names -> x <> [] /\ ~ In 47 x.

(** l' are the members of l that satisfy P, in the same order. *)
Inductive picked {A : Type} (P : A -> Prop) : list A -> list A -> Prop :=
| picked_nil : picked P [] []
| picked_take : forall x l l', P x -> picked P l l' -> picked P (x :: l) (x :: l')
| picked_skip : forall x l l', ~ P x -> picked P l l' -> picked P (x :: l) l'.

(** The occurrences of an option that can be repeated, flattened. *)
Definition all_of (o : option (list (list pystr))) : list pystr := match o with Some l => concat l | None => [] end.
(** The key files of the directory, in the order of the listing. *)
Definition dir_paths (fs : file_system) (p : parsed) (paths : list pystr) : Prop :=
  (not_given (p_private_key_dir p) /\ paths = []) \/
  (exists d names chosen, given (p_private_key_dir p) d /\ fs_list fs d = Ok names /\ picked key_file_name names chosen /\ Forall2 (in_dir d) chosen paths).
(** path can be read and contains s. *)
Definition holds (fs : file_system) (path s : pystr) : Prop := fs_read fs path = Ok s.

(** The task builds a transaction from an input file and a design file. *)
Definition builds (task : pystr) : Prop :=
  task = lit "create_unsigned_transaction_json" \/ task = lit "create_sign_and_verify_transaction_hex" \/ task = lit "create_transaction".
(** s is what the file of the option contains; None if the option is not given. *)
Definition content (fs : file_system) (o : option pystr) (s : option pystr) : Prop :=
  (not_given o /\ s = None) \/ (exists f t, given o f /\ holds fs f t /\ s = Some t).
(** c is the command p with the contents of the files in place of their names.  The data are those of --data-file or else --data. *)
Definition data_content (fs : file_system) (p : parsed) (d : option pystr) : Prop :=
  (not_given (p_data_file p) /\ d = p_data p) \/ (exists f t, given (p_data_file p) f /\ holds fs f t /\ d = Some t).
Definition keys_content (fs : file_system) (p : parsed) (texts : list pystr) : Prop :=
  exists paths, dir_paths fs p paths /\ Forall2 (holds fs) (all_of (p_private_key_file p) ++ paths) texts.
Definition contents (fs : file_system) (p : parsed) (c : cli_args) : Prop :=
  c_task c = p_task p /\ c_private_key_hex c = all_of (p_private_key_hex p) /\ c_private_key_wif c = p_private_key_wif p /\
  c_public_key_hex c = p_public_key_hex p /\ c_signature_hex c = p_signature_hex p /\
  data_content fs p (c_data c) /\ keys_content fs p (c_private_key_files c) /\
  (builds (p_task p) -> content fs (p_input_file p) (c_input_file c) /\ content fs (p_design_file p) (c_design_file c)).

(** The files the command reads, and the directory it lists. *)
Inductive wanted (fs : file_system) (p : parsed) : pystr -> Prop :=
| want_data : forall f, given (p_data_file p) f -> wanted fs p f
| want_key : forall f, In f (all_of (p_private_key_file p)) -> wanted fs p f
| want_dir : forall f paths, dir_paths fs p paths -> In f paths -> wanted fs p f
| want_input : forall f, builds (p_task p) -> given (p_input_file p) f -> wanted fs p f
| want_design : forall f, builds (p_task p) -> given (p_design_file p) f -> wanted fs p f.
Definition same_for (p : parsed) (fs fs' : file_system) : Prop :=
  (forall f, wanted fs p f -> fs_read fs f = fs_read fs' f) /\ (forall d, given (p_private_key_dir p) d -> fs_list fs d = fs_list fs' d).

(** Reading the files one after the other fails with e: the first of them that cannot be read has the error e. *)
Definition first_unreadable (fs : file_system) (paths : list pystr) (e : exn) : Prop :=
  exists before f after, paths = before ++ [f] ++ after /\ (forall x, In x before -> exists s, holds fs x s) /\ fs_read fs f = Err e.
(** Reading data and keys fails with e. *)
Definition sources_fail (fs : file_system) (p : parsed) (e : exn) : Prop :=
  (exists f, given (p_data_file p) f /\ fs_read fs f = Err e) \/
  ((exists d, data_content fs p d) /\
     (first_unreadable fs (all_of (p_private_key_file p)) e \/
      ((exists l, Forall2 (holds fs) (all_of (p_private_key_file p)) l) /\
         ((exists d, given (p_private_key_dir p) d /\ fs_list fs d = Err e) \/ (exists paths, dir_paths fs p paths /\ first_unreadable fs paths e))))).
(** The log file is not wanted, or its directory exists or can be created whenever it is needed. *)
Definition log_dir_ok (p : parsed) (dirs : nat -> res unit) : Prop := p_log_to_file p = false \/ p_log_file p = [] \/ forall n, dirs n = Ok tt.

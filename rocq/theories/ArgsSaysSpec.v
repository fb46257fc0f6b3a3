(** What the command line parser says when it refuses.  Uses the grammar of ArgsSpec.v. *)
From Coq Require Import String.
From Verif Require Import PyBase Env Files Args ArgsSpec.

(** How an option is called in messages. *)
Definition called (o : opt) : pystr :=
  lit match o with
      | O_help => "-h/--help" | O_task => "-t/--task" | O_key_hex => "--private-key-hex" | O_key_file => "--private-key-file"
      | O_key_dir => "--private-key-dir" | O_key_wif => "--private-key-wif" | O_public_key => "--public-key-hex"
      | O_signature => "--signature-hex" | O_data => "--data" | O_data_file => "--data-file" | O_input_file => "--input-file"
      | O_design_file => "--design-file" | O_log_level => "-l/--log-level" | O_debug => "-d/--debug" | O_log_timestamp => "-s/--log-timestamp"
      | O_log_to_file => "-x/--log-to-file" | O_log_file => "-z/--log-file"
      end.
Definition about (o : opt) (t : pystr) : pystr := lit "argument " ++ called o ++ lit ": " ++ t.
(** Words with a separator between them. *)
Inductive separated (sep : pystr) : list pystr -> pystr -> Prop :=
| sep_one : forall x, separated sep [x] x
| sep_more : forall x y l t, separated sep (y :: l) t -> separated sep (x :: y :: l) (x ++ sep ++ t).

(** The fault of the setting s, the settings a (which go together) being made before it: a log level that does not exist, or a second source of keys or data. *)
Inductive fault (repr : pyval -> pystr) (a : list setting) : setting -> pystr -> Prop :=
| f_level : forall v, ~ In v [lit "debug"; lit "info"; lit "warning"; lit "error"] ->
    fault repr a (O_log_level, [v]) (about O_log_level (lit "invalid choice: " ++ repr (PStr v) ++ lit " (choose from " ++ repr (PStr (lit "debug")) ++ lit ", " ++
      repr (PStr (lit "info")) ++ lit ", " ++ repr (PStr (lit "warning")) ++ lit ", " ++ repr (PStr (lit "error")) ++ lit ")"))
| f_second : forall o vs o', uses a o' -> o' <> o -> (key_source o' /\ key_source o) \/ (data_source o' /\ data_source o) ->
    fault repr a (o, vs) (about o (lit "not allowed with argument " ++ called o')).
(** t is said of the first fault of the settings l (if help is not asked for before it). *)
Definition first_fault (repr : pyval -> pystr) (l : list setting) (t : pystr) : Prop :=
  exists a s b, l = a ++ s :: b /\ go_together a /\ fault repr a s t.

(** The long names of the options in the order of declaration (which is that of --help). *)
Definition long_names : list pystr :=
  map (fun s => lit s) ["--help"; "--task"; "--private-key-hex"; "--private-key-file"; "--private-key-dir"; "--private-key-wif"; "--public-key-hex"; "--signature-hex";
    "--data"; "--data-file"; "--input-file"; "--design-file"; "--log-level"; "--debug"; "--log-timestamp"; "--log-to-file"; "--log-file"]%string.
(** r are the members of l that begin with n. *)
Inductive beginning (n : pystr) : list pystr -> list pystr -> Prop :=
| b_nil : beginning n [] []
| b_take : forall x l r, prefix n x -> beginning n l r -> beginning n (x :: l) (x :: r)
| b_skip : forall x l r, ~ prefix n x -> beginning n l r -> beginning n (x :: l) r.
(** The word w (up to an equals sign) abbreviates the several names ns. *)
Definition ambiguous (w : pystr) (ns : list pystr) : Prop :=
  exists n, prefix (lit "--") n /\ ~ In 61 n /\ (w = n \/ exists v, w = n ++ lit "=" ++ v) /\ ~ In n long_names /\
    beginning n long_names ns /\ (2 <= length ns)%nat.
(** No word in front of "--" is ambiguous. *)
Inductive clear : list pystr -> Prop :=
| cl_nil : clear []
| cl_dashes : forall ws, clear (lit "--" :: ws)
| cl_word : forall w ws, w <> lit "--" -> (forall ns, ~ ambiguous w ns) -> clear ws -> clear (w :: ws).

Section WithEnv.
Context {E : Env}.

(** A word that begins with a dash, is not like an option, and cannot be a value. *)
Definition unknown (w : pystr) : Prop := prefix (lit "-") w /\ ~ value_word w /\ ~ like_option w.
(** Words that make the settings l, and x, the words among them that belong to no option. *)
Inductive scattered : list pystr -> list setting -> list pystr -> Prop :=
| s_nil : scattered [] [] []
| s_part : forall ws l ws' l' x, part ws l -> length ws = 1%nat \/ (forall o vs, In (o, vs) l -> ~ listed o) \/ (forall w r, ws' = w :: r -> ~ value_word w) ->
    scattered ws' l' x -> scattered (ws ++ ws') (l ++ l') x
| s_value : forall w ws l x, value_word w -> scattered ws l x -> scattered (w :: ws) l (w :: x)
| s_unknown : forall w ws l x, unknown w -> scattered ws l x -> scattered (w :: ws) l (w :: x).
(** The words after the last part: from "--" on, everything is left over. *)
Definition left_over (ws : list pystr) : Prop := ws = [] \/ exists r, ws = lit "--" :: r.
End WithEnv.

(** The word w is the option o, or letters of switches and the letter of o (an equals sign after the first letter is ignored), without a value in the same word. *)
Definition option_word (w : pystr) (o : opt) : Prop :=
  names w o \/ (exists c, letter o c /\ w = [45; c]) \/
  exists d s l q c, switches (d :: s) l /\ (q = [] \/ q = lit "=") /\ letter o c /\ w = lit "-" ++ [d] ++ q ++ s ++ [c].
(** How the lack of a value is worded. *)
Definition lack (o : opt) (t : pystr) : Prop :=
  (single o /\ t = about o (lit "expected one argument")) \/ (listed o /\ t = about o (lit "expected at least one argument")).
(** The word w ends in the letter of the switch o (an equals sign after the first letter is ignored) and e. *)
Inductive trailing : pystr -> opt -> pystr -> Prop :=
| t_first : forall o c q e, letter o c -> switch o -> (q = [] /\ ~ prefix (lit "=") e) \/ q = lit "=" -> trailing (lit "-" ++ [c] ++ q ++ e) o e
| t_later : forall d s l q o c e, switches (d :: s) l -> q = [] \/ q = lit "=" -> letter o c -> switch o -> trailing (lit "-" ++ [d] ++ q ++ s ++ [c] ++ e) o e.

Section WithEnv.
Context {E : Env}.
(** The word w, the words b following it, is refused with t: a value is missing, or there is text after a switch. *)
Inductive stop (repr : pyval -> pystr) : pystr -> list pystr -> pystr -> Prop :=
| stop_lack : forall w o b t, option_word w o -> lack o t -> (forall v r, b = v :: r -> ~ value_word v) -> stop repr w b t
| stop_name : forall w o v b, names w o -> switch o -> stop repr (w ++ lit "=" ++ v) b (about o (lit "ignored explicit argument " ++ repr (PStr v)))
| stop_letters : forall w o y e b, trailing w o (y :: e) -> (forall o', ~ letter o' y) -> stop repr w b (about o (lit "ignored explicit argument " ++ repr (PStr (y :: e)))).
End WithEnv.

(** The command line as a user writes it: which lists of words are a command, which settings they make, and what the settings mean.
    Uses the names of the options (opt) and the record of the parsed command line only. *)
From Coq Require Import String.
From Verif Require Import PyBase Env Files Args.

(** The long name of each option, and its letter. *)
Definition long (o : opt) : pystr :=
  lit match o with
      | O_help => "--help" | O_task => "--task" | O_key_hex => "--private-key-hex" | O_key_file => "--private-key-file"
      | O_key_dir => "--private-key-dir" | O_key_wif => "--private-key-wif" | O_public_key => "--public-key-hex"
      | O_signature => "--signature-hex" | O_data => "--data" | O_data_file => "--data-file" | O_input_file => "--input-file"
      | O_design_file => "--design-file" | O_log_level => "--log-level" | O_debug => "--debug" | O_log_timestamp => "--log-timestamp"
      | O_log_to_file => "--log-to-file" | O_log_file => "--log-file"
      end.
Inductive letter : opt -> Z -> Prop :=
| l_help : letter O_help 104            (* -h *)
| l_task : letter O_task 116            (* -t *)
| l_level : letter O_log_level 108      (* -l *)
| l_debug : letter O_debug 100          (* -d *)
| l_timestamp : letter O_log_timestamp 115   (* -s *)
| l_to_file : letter O_log_to_file 120  (* -x *)
| l_log_file : letter O_log_file 122.   (* -z *)

(** Options without a value, and options that take a list of values; the others take one. *)
Definition switch (o : opt) : Prop := o = O_help \/ o = O_debug \/ o = O_log_timestamp \/ o = O_log_to_file.
Definition listed (o : opt) : Prop := o = O_key_hex \/ o = O_key_file.
Definition single (o : opt) : Prop := ~ switch o /\ ~ listed o.

(** w is the long name of o, or an abbreviation of it and of no other. *)
Definition prefix (w s : pystr) : Prop := exists r, s = w ++ r.
Definition names (w : pystr) (o : opt) : Prop :=
  w = long o \/ (prefix (lit "--") w /\ prefix w (long o) /\ forall o', prefix w (long o') -> o' = o).

Section WithEnv.
Context {E : Env}.

(** Decimal digits; a negative number (a newline may follow). *)
Definition decimal_char (c : Z) : Prop := (48 <= c <= 57) \/ (128 <= c /\ exists d, uni_decimal c = Some d).
Definition negative (w : pystr) : Prop :=
  exists a b nl, (nl = [] \/ nl = [10]) /\ Forall decimal_char a /\ Forall decimal_char b /\
    ((w = lit "-" ++ a ++ nl /\ a <> []) \/ (w = lit "-" ++ a ++ lit "." ++ b ++ nl /\ b <> [])).
(** The word begins like an option: a dash and the letter of an option, or, before the first equals sign if there is one, the beginning of a long name. *)
Definition like_option (w : pystr) : Prop :=
  (exists o c r, letter o c /\ w = [45; c] ++ r) \/
  (exists o n r, prefix (lit "--") n /\ prefix n (long o) /\ (w = n \/ w = n ++ lit "=" ++ r)).
(** The word can be the value of an option that is written before it. *)
Definition value_word (w : pystr) : Prop :=
  (forall r, w <> lit "-" ++ r) \/ w = lit "-" \/ (~ like_option w /\ (negative w \/ In 32 w)).

(** A setting: an option with its values. *)
Definition setting : Type := (opt * list pystr)%type.

(** A word of letters of switches, as in -dsx: the letters and their settings. *)
Inductive switches : pystr -> list setting -> Prop :=
| sw_nil : switches [] []
| sw_cons : forall o c s l, letter o c -> switch o -> switches s l -> switches (c :: s) ((o, []) :: l).

(** A part of a command: some words and the settings they make.
    p_switch    --debug
    p_next      --task hello
    p_list      --private-key-hex k1 k2 k3
    p_equals    --task=hello; --private-key-hex=k1
    p_letters   -d, -dsx; an equals sign after the first letter is ignored
    p_last      -t hello, -dst hello
    p_joined    -thello, -t=hello, -dsthello *)
Inductive part : list pystr -> list setting -> Prop :=
| p_switch : forall w o, names w o -> switch o -> part [w] [(o, [])]
| p_next : forall w o v, names w o -> single o -> value_word v -> part [w; v] [(o, [v])]
| p_list : forall w o vs, names w o -> listed o -> vs <> [] -> Forall value_word vs -> part (w :: vs) [(o, vs)]
| p_equals : forall w o v, names w o -> ~ switch o -> v <> lit "--" -> part [w ++ lit "=" ++ v] [(o, [v])]
| p_equals_nothing : forall w o, names w o -> listed o -> part [w ++ lit "=" ++ lit "--"] [(o, [])]   (* "--" is dropped *)
| p_letters : forall c s l e, switches (c :: s) l -> e = [] \/ e = lit "=" /\ s <> [] -> part [lit "-" ++ [c] ++ e ++ s] l
| p_last : forall o c v, letter o c -> single o -> value_word v -> part [lit "-" ++ [c]; v] [(o, [v])]
| p_last_of : forall d s l e o c v, switches (d :: s) l -> e = [] \/ e = lit "=" -> letter o c -> single o -> value_word v ->
    part [lit "-" ++ [d] ++ e ++ s ++ [c]; v] (l ++ [(o, [v])])
| p_joined : forall o c v, letter o c -> single o -> v <> [] -> v <> lit "--" -> ~ prefix (lit "=") v -> part [lit "-" ++ [c] ++ v] [(o, [v])]
| p_joined_equals : forall o c v, letter o c -> single o -> v <> lit "--" -> part [lit "-" ++ [c] ++ lit "=" ++ v] [(o, [v])]
| p_joined_of : forall d s l e o c v, switches (d :: s) l -> e = [] \/ e = lit "=" -> letter o c -> single o -> v <> [] -> v <> lit "--" ->
    part [lit "-" ++ [d] ++ e ++ s ++ [c] ++ v] (l ++ [(o, [v])]).
Inductive command : list pystr -> list setting -> Prop :=
| c_nil : command [] []
| c_part : forall ws l ws' l', part ws l -> command ws' l' -> command (ws ++ ws') (l ++ l').

End WithEnv.

(** Settings that go together: no request for help; not two different sources of keys, nor of data; an existing log level. *)
Definition key_source (o : opt) : Prop := o = O_key_hex \/ o = O_key_file \/ o = O_key_dir \/ o = O_key_wif.
Definition data_source (o : opt) : Prop := o = O_data \/ o = O_data_file.
Definition uses (l : list setting) (o : opt) : Prop := exists vs, In (o, vs) l.
Definition go_together (l : list setting) : Prop :=
  ~ uses l O_help /\
  (forall a b, uses l a -> uses l b -> key_source a -> key_source b -> a = b) /\
  (forall a b, uses l a -> uses l b -> data_source a -> data_source b -> a = b) /\
  (forall v, In (O_log_level, [v]) l -> In v [lit "debug"; lit "info"; lit "warning"; lit "error"]).

(** The value of an option is the last one given. *)
Definition last_value (l : list setting) (o : opt) (v : pystr) : Prop :=
  exists a b, l = a ++ [(o, [v])] ++ b /\ ~ uses b o.
Definition text (l : list setting) (o : opt) (default v : pystr) : Prop := last_value l o v \/ (~ uses l o /\ v = default).
Definition optional_text (l : list setting) (o : opt) (r : option pystr) : Prop :=
  (exists v, last_value l o v /\ r = Some v) \/ (~ uses l o /\ r = None).
(** The occurrences of a list option, in order. *)
Definition occurrences (l : list setting) (o : opt) : list (list pystr) :=
  map snd (filter (fun s => if opt_eq_dec (fst s) o then true else false) l).
Definition lists (l : list setting) (o : opt) (r : option (list (list pystr))) : Prop :=
  (uses l o /\ r = Some (occurrences l o)) \/ (~ uses l o /\ r = None).
Definition on (l : list setting) (o : opt) (b : bool) : Prop := b = true <-> uses l o.

(** What the settings mean. *)
Definition meaning (l : list setting) (p : parsed) : Prop :=
  text l O_task (lit "hello") (p_task p) /\
  lists l O_key_hex (p_private_key_hex p) /\ lists l O_key_file (p_private_key_file p) /\
  optional_text l O_key_dir (p_private_key_dir p) /\ optional_text l O_key_wif (p_private_key_wif p) /\
  optional_text l O_public_key (p_public_key_hex p) /\ optional_text l O_signature (p_signature_hex p) /\
  optional_text l O_data (p_data p) /\ optional_text l O_data_file (p_data_file p) /\
  optional_text l O_input_file (p_input_file p) /\ optional_text l O_design_file (p_design_file p) /\
  text l O_log_level (lit "error") (p_log_level p) /\ on l O_debug (p_debug p) /\ on l O_log_timestamp (p_log_timestamp p) /\
  on l O_log_to_file (p_log_to_file p) /\ text l O_log_file (lit "log_bitcoin_toolset.txt") (p_log_file p).

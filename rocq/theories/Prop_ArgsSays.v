(** Property theorems: generated by tools/genprops.py from C_ArgsSays.v, which holds the proofs. *)
From Coq Require Import String Lia.
From Verif Require Import PyBase Env PyNum Cli Files MessagesSpec Demo Args ArgsSpec DemoArgs ArgsSays ArgsSaysSpec.
Open Scope Z_scope.
From Verif Require C_ArgsSays.

(** C103.  The parser with messages does what the parser does. *)
Theorem C103_same : forall E : Env,
  forall repr ws, silent (parse_says repr ws) = parse_args ws.
Proof. exact (fun E => C_ArgsSays.c103_same). Qed.
Print Assumptions C103_same.

(** C103.  Words that make settings, with other words among them that belong to no option, and possibly "--" and more after them: they are refused with the message about the first setting that is at fault,
    a log level that does not exist or a second source of keys or data; if the settings go together, with the list of the words that belong to no option, in their order; and in no other way. *)
Theorem C103_words : forall E : Env,
  forall repr ws l x rest, scattered ws l x -> left_over rest -> forall t,
  parse_says repr (ws ++ rest) = Complains t <->
  first_fault repr l t \/ (go_together l /\ exists u, separated (lit " ") (x ++ rest) u /\ t = lit "unrecognized arguments: " ++ u).
Proof. exact (fun E => C_ArgsSays.c103_words). Qed.
Print Assumptions C103_words.

(** C103.  In particular a command (C77) is refused with the message about its first fault, and in no other way. *)
Theorem C103_command : forall E : Env,
  forall repr ws s t, command ws s -> (parse_says repr ws = Complains t <-> first_fault repr s t).
Proof. exact (fun E => C_ArgsSays.c103_command). Qed.
Print Assumptions C103_command.

(** C103.  The first fault of the settings is reported whatever follows the words that make them, unless one of the words that follow is ambiguous. *)
Theorem C103_first : forall E : Env,
  forall repr ws l x rest t, scattered ws l x -> first_fault repr l t -> clear rest -> (forall w r, rest = w :: r -> ~ value_word w) ->
  parse_says repr (ws ++ rest) = Complains t.
Proof. exact (fun E => C_ArgsSays.c103_first). Qed.
Print Assumptions C103_first.

(** C103.  The words are looked at before the settings: if a word in front of "--" abbreviates several names, that is said of the first such word, with the names in the order of declaration, whatever else is wrong. *)
Theorem C103_ambiguous : forall E : Env,
  forall repr ws w rest ns u, ~ In (lit "--") ws -> (forall w' ns', In w' ws -> ~ ambiguous w' ns') -> ambiguous w ns -> separated (lit ", ") ns u ->
  w <> lit "--" -> parse_says repr (ws ++ w :: rest) = Complains (lit "ambiguous option: " ++ w ++ lit " could match " ++ u).
Proof. exact (fun E => C_ArgsSays.c103_ambiguous). Qed.
Print Assumptions C103_ambiguous.

(** C103.  After words whose settings go together, an option that needs a value and is not followed by a word that can be one (it is the last word, or "--" or a word like an option follows, none of them ambiguous)
    is refused with the number of values it expects. *)
Theorem C103_missing : forall E : Env,
  forall repr ws l x w o rest t, scattered ws l x -> go_together l -> option_word w o -> lack o t -> clear rest -> (forall v r, rest = v :: r -> ~ value_word v) ->
  parse_says repr (ws ++ w :: rest) = Complains t.
Proof. exact (fun E => C_ArgsSays.c103_missing). Qed.
Print Assumptions C103_missing.

(** C103.  After words whose settings go together, a switch written --name=text is refused with the text. *)
Theorem C103_ignored : forall E : Env,
  forall repr ws l x w o v rest, scattered ws l x -> go_together l -> names w o -> switch o -> clear rest ->
  parse_says repr (ws ++ (w ++ lit "=" ++ v) :: rest) = Complains (about o (lit "ignored explicit argument " ++ repr (PStr v))).
Proof. exact (fun E => C_ArgsSays.c103_ignored). Qed.
Print Assumptions C103_ignored.

(** C103.  After words whose settings go together, a switch written as a letter in a word that goes on with a character that is no option is refused with the rest of the word. *)
Theorem C103_letters : forall E : Env,
  forall repr ws l x w o y e rest, scattered ws l x -> go_together l -> trailing w o (y :: e) -> (forall o', ~ letter o' y) -> clear rest ->
  parse_says repr (ws ++ w :: rest) = Complains (about o (lit "ignored explicit argument " ++ repr (PStr (y :: e)))).
Proof. exact (fun E => C_ArgsSays.c103_letters). Qed.
Print Assumptions C103_letters.

(** C103.  These are all: the parser complains with the text t exactly if a word in front of "--" is ambiguous, and t says so of the first; or none is, the words begin with words that make settings, and t is about
    the first setting at fault, or, if the settings go together, lists the words that belong to no option (all the words having been read), or is about the next word, which lacks a value or has one too many. *)
Theorem C103_every : forall E : Env,
  forall repr ws t, parse_says repr ws = Complains t <->
  (exists a w b ns u, ws = a ++ w :: b /\ ~ In (lit "--") a /\ (forall w' ns', In w' a -> ~ ambiguous w' ns') /\ w <> lit "--" /\ ambiguous w ns /\
    separated (lit ", ") ns u /\ t = lit "ambiguous option: " ++ w ++ lit " could match " ++ u) \/
  (exists a l x b, ws = a ++ b /\ scattered a l x /\ ((first_fault repr l t /\ clear b /\ forall v r, b = v :: r -> ~ value_word v) \/ (go_together l /\
    ((left_over b /\ exists u, separated (lit " ") (x ++ b) u /\ t = lit "unrecognized arguments: " ++ u) \/ (exists w rest, b = w :: rest /\ clear rest /\ stop repr w rest t))))).
Proof. exact (fun E => C_ArgsSays.c103_every). Qed.
Print Assumptions C103_every.

Example ex103_words : forall E : Env,
  @parse_says demo_env plain_repr (words ["--private-key-hex"; "01"; "--private-key-wif"; "5H"]%string) = Complains (lit "argument --private-key-wif: not allowed with argument --private-key-hex") /\
  @parse_says demo_env plain_repr (words ["--log-level"; "fatal"]%string) = Complains (lit "argument -l/--log-level: invalid choice: 'fatal' (choose from 'debug', 'info', 'warning', 'error')") /\
  @parse_says demo_env plain_repr (words ["hello"; "-d"; "you"; "--bogus"; "-t"; "x"; "--"; "-z"]%string) = Complains (lit "unrecognized arguments: hello you --bogus -- -z") /\
  @parse_says demo_env plain_repr (words ["--private-key"; "01"]%string) =
    Complains (lit "ambiguous option: --private-key could match --private-key-hex, --private-key-file, --private-key-dir, --private-key-wif") /\
  @parse_says demo_env plain_repr (words ["-d"; "--task"]%string) = Complains (lit "argument -t/--task: expected one argument") /\
  @parse_says demo_env plain_repr (words ["--private-key-hex"; "--"; "01"]%string) = Complains (lit "argument --private-key-hex: expected at least one argument") /\
  @parse_says demo_env plain_repr (words ["x"; "-dst"; "--"; "y"]%string) = Complains (lit "argument -t/--task: expected one argument") /\
  @parse_says demo_env plain_repr (words ["--debug=1"]%string) = Complains (lit "argument -d/--debug: ignored explicit argument '1'") /\
  @parse_says demo_env plain_repr (words ["-dsq1"]%string) = Complains (lit "argument -s/--log-timestamp: ignored explicit argument 'q1'").
Proof. exact (fun E => C_ArgsSays.ex103_words). Qed.

(** The hypotheses of C103 are met. *)
Example ex103_meets : forall E : Env,
  (exists t, @parse_says demo_env plain_repr (words ["hello"; "-d"]%string ++ words ["--"; "x"]%string) = Complains t /\ t = lit "unrecognized arguments: hello -- x") /\
  @parse_says demo_env plain_repr (words ["hello"; "-d"]%string ++ lit "--private-key-file" :: words ["--"]%string) = Complains (lit "argument --private-key-file: expected at least one argument") /\
  (exists ns, ambiguous (lit "--l=x") ns).
Proof. exact (fun E => C_ArgsSays.ex103_meets). Qed.


(** Model of the command line of cli.py (L73-174): the options it declares, and parser.parse_args() as CPython 3.6 executes it
    (Lib/argparse.py; README.md "Environment": Python 3.6.15) for a parser that has no positional arguments, the prefix character '-' and
    abbreviations allowed.  Usage, help and error texts are not modelled; sys.argv[1:] is a list of str. *)
From Coq Require Import String.
From Verif Require Import PyBase Env PyNum Logger Cli Files.

(** The options (cli.py L79-172), and -h, which argparse adds. *)
Inductive opt : Set :=
| O_help | O_task | O_key_hex | O_key_file | O_key_dir | O_key_wif | O_public_key | O_signature | O_data | O_data_file
| O_input_file | O_design_file | O_log_level | O_debug | O_log_timestamp | O_log_to_file | O_log_file.
Definition opt_eq_dec : forall a b : opt, {a = b} + {a <> b}.
Proof. decide equality. Defined.

(** parser._option_string_actions, in the order of declaration. *)
Definition option_strings : list (pystr * opt) :=
  [ (lit "-h", O_help); (lit "--help", O_help);
    (lit "-t", O_task); (lit "--task", O_task);                                       (* L79-83 *)
    (lit "--private-key-hex", O_key_hex);                                             (* L87-91 *)
    (lit "--private-key-file", O_key_file);                                           (* L93-97 *)
    (lit "--private-key-dir", O_key_dir);                                             (* L99-102 *)
    (lit "--private-key-wif", O_key_wif);                                             (* L104-107 *)
    (lit "--public-key-hex", O_public_key);                                           (* L109-112 *)
    (lit "--signature-hex", O_signature);                                             (* L114-117 *)
    (lit "--data", O_data); (lit "--data-file", O_data_file);                         (* L121-129 *)
    (lit "--input-file", O_input_file); (lit "--design-file", O_design_file);         (* L131-139 *)
    (lit "-l", O_log_level); (lit "--log-level", O_log_level);                        (* L141-146 *)
    (lit "-d", O_debug); (lit "--debug", O_debug);                                    (* L148-152 *)
    (lit "-s", O_log_timestamp); (lit "--log-timestamp", O_log_timestamp);            (* L154-158 *)
    (lit "-x", O_log_to_file); (lit "--log-to-file", O_log_to_file);                  (* L160-164 *)
    (lit "-z", O_log_file); (lit "--log-file", O_log_file) ].                         (* L166-170 *)

(** nargs of the action: help and store_true take 0, '+' one or more, the others exactly one. *)
Inductive arity : Set := Zero | One | Many.
Definition nargs (o : opt) : arity :=
  match o with
  | O_help | O_debug | O_log_timestamp | O_log_to_file => Zero
  | O_key_hex | O_key_file => Many
  | _ => One
  end.

(** The two mutually exclusive groups (cli.py L85, L119). *)
Definition group (o : opt) : option nat :=
  match o with
  | O_key_hex | O_key_file | O_key_dir | O_key_wif => Some 1%nat
  | O_data | O_data_file => Some 2%nat
  | _ => None
  end.
Definition conflicts (a b : opt) : bool :=
  match group a, group b with
  | Some g, Some h => Nat.eqb g h && (if opt_eq_dec a b then false else true)
  | _, _ => false
  end.
(** choices of --log-level (cli.py L143) *)
Definition log_levels : list pystr := [lit "debug"; lit "info"; lit "warning"; lit "error"].

(** What parse_args does: it returns, exits with status 2 after a usage message on stderr, exits with status 0 after printing the help, or
    raises another exception. *)
Inductive outcome (A : Type) : Type :=
| Parsed (a : A)
| Refused
| Helped
| Raised (e : exn).
Arguments Parsed {A} a.
Arguments Refused {A}.
Arguments Helped {A}.
Arguments Raised {A} e.
Definition obind {A B : Type} (m : outcome A) (k : A -> outcome B) : outcome B :=
  match m with Parsed a => k a | Refused => Refused | Helped => Helped | Raised e => Raised e end.

(** s.startswith(p) *)
Fixpoint starts_with (p s : pystr) : bool :=
  match p, s with
  | [], _ => true
  | x :: p', y :: s' => (x =? y) && starts_with p' s'
  | _ :: _, [] => false
  end.
(** s.split('=', 1) if '=' in s *)
Fixpoint split_eq (s : pystr) : option (pystr * pystr) :=
  match s with
  | [] => None
  | c :: r => if c =? 61 then Some ([], r) else match split_eq r with Some (a, b) => Some (c :: a, b) | None => None end
  end.
(** w in parser._option_string_actions, and its action *)
Definition find_option (w : pystr) : option opt :=
  match find (fun e => str_eqb w (fst e)) option_strings with Some (_, o) => Some o | None => None end.

(** argparse._get_option_tuples: the options the word may abbreviate, as (action, option string, explicit argument).  The word has two
    characters at least and the first is '-'. *)
Definition get_option_tuples (w : pystr) : list (opt * pystr * option pystr) :=
  match w with
  | _ :: 45 :: _ =>
      let '(prefix, explicit) := match split_eq w with Some (a, b) => (a, Some b) | None => (w, None) end in
      map (fun e => (snd e, fst e, explicit)) (filter (fun e => starts_with prefix (fst e)) option_strings)
  | c :: d :: r =>
      flat_map (fun e => if str_eqb (fst e) [c; d] then [(snd e, fst e, Some r)]
                         else if starts_with w (fst e) then [(snd e, fst e, None)] else []) option_strings
  | _ => []
  end.

Section WithEnv.
Context {E : Env}.

(** re.match('^-\d+$|^-\d*\.\d+$', s): $ also matches before a newline at the end. *)
Definition is_decimal (c : Z) : bool :=
  ((48 <=? c) && (c <=? 57)) || ((128 <=? c) && match uni_decimal c with Some _ => true | None => false end).
Definition all_decimal (s : pystr) : bool := forallb is_decimal s.
Definition nonempty {A : Type} (l : list A) : bool := match l with [] => false | _ => true end.
Definition number_body (s : pystr) : bool :=
  (nonempty s && all_decimal s) ||
  match split_char 46 s with [a; b] => all_decimal a && nonempty b && all_decimal b | _ => false end.
Definition negative_number (s : pystr) : bool :=
  match s with
  | 45 :: r => number_body r || (match rev r with 10 :: r' => number_body (rev r') | _ => false end)
  | _ => false
  end.

(** What a word of the command line is: an argument ('A'), the first "--" ('-'), or an option ('O') with its action (None: no such
    option), the option string and the explicit argument. *)
Inductive mark : Type :=
| MA
| MDash
| MO (o : option opt) (name : pystr) (explicit : option pystr).

(** argparse._parse_optional; None if the word is ambiguous (exit with status 2). *)
Definition parse_optional (w : pystr) : option mark :=
  match w with
  | [] => Some MA
  | c :: _ =>
      if negb (c =? 45) then Some MA
      else match find_option w with
      | Some o => Some (MO (Some o) w None)
      | None =>
          if Nat.eqb (length w) 1 then Some MA
          else match (match split_eq w with
                      | Some (a, b) => match find_option a with Some o => Some (MO (Some o) a (Some b)) | None => None end
                      | None => None end) with
          | Some m => Some m
          | None =>
              match get_option_tuples w with
              | _ :: _ :: _ => None
              | [(o, name, explicit)] => Some (MO (Some o) name explicit)
              | [] =>
                  if negative_number w then Some MA
                  else if char_in 32 w then Some MA
                  else Some (MO None w None)
              end
          end
      end
  end.

(** argparse._parse_known_args, first loop: every word is classified before any action is taken; after the first "--" all are arguments. *)
Fixpoint classify (ws : list pystr) : option (list (pystr * mark)) :=
  match ws with
  | [] => Some []
  | w :: r =>
      if str_eqb w (lit "--") then Some ((w, MDash) :: map (fun x => (x, MA)) r)
      else match parse_optional w with
           | None => None
           | Some m => match classify r with Some l => Some ((w, m) :: l) | None => None end
           end
  end.

(** The namespace while parsing: the values, and the actions seen that were given a value (seen_non_default_actions; only those of the
    exclusive groups matter, their default is None). *)
Definition defaults : parsed :=
  mk_parsed (lit "hello") None None None None None None None None None None (lit "error") false false false (lit "log_bitcoin_toolset.txt").

(** action(parser, namespace, values): store, append, store_true. *)
Definition append_to (old : option (list (list pystr))) (vs : list pystr) : option (list (list pystr)) :=
  Some (match old with Some l => l ++ [vs] | None => [vs] end).
Definition store (o : opt) (vs : list pystr) (p : parsed) : parsed :=
  let v := match vs with x :: _ => x | [] => [] end in
  match p with
  | mk_parsed task key_hex key_file key_dir key_wif public signature data data_file input_file design_file level debug timestamp to_file log_file =>
    match o with
    | O_help => p
    | O_task => mk_parsed v key_hex key_file key_dir key_wif public signature data data_file input_file design_file level debug timestamp to_file log_file
    | O_key_hex => mk_parsed task (append_to key_hex vs) key_file key_dir key_wif public signature data data_file input_file design_file level debug timestamp to_file log_file
    | O_key_file => mk_parsed task key_hex (append_to key_file vs) key_dir key_wif public signature data data_file input_file design_file level debug timestamp to_file log_file
    | O_key_dir => mk_parsed task key_hex key_file (Some v) key_wif public signature data data_file input_file design_file level debug timestamp to_file log_file
    | O_key_wif => mk_parsed task key_hex key_file key_dir (Some v) public signature data data_file input_file design_file level debug timestamp to_file log_file
    | O_public_key => mk_parsed task key_hex key_file key_dir key_wif (Some v) signature data data_file input_file design_file level debug timestamp to_file log_file
    | O_signature => mk_parsed task key_hex key_file key_dir key_wif public (Some v) data data_file input_file design_file level debug timestamp to_file log_file
    | O_data => mk_parsed task key_hex key_file key_dir key_wif public signature (Some v) data_file input_file design_file level debug timestamp to_file log_file
    | O_data_file => mk_parsed task key_hex key_file key_dir key_wif public signature data (Some v) input_file design_file level debug timestamp to_file log_file
    | O_input_file => mk_parsed task key_hex key_file key_dir key_wif public signature data data_file (Some v) design_file level debug timestamp to_file log_file
    | O_design_file => mk_parsed task key_hex key_file key_dir key_wif public signature data data_file input_file (Some v) level debug timestamp to_file log_file
    | O_log_level => mk_parsed task key_hex key_file key_dir key_wif public signature data data_file input_file design_file v debug timestamp to_file log_file
    | O_debug => mk_parsed task key_hex key_file key_dir key_wif public signature data data_file input_file design_file level true timestamp to_file log_file
    | O_log_timestamp => mk_parsed task key_hex key_file key_dir key_wif public signature data data_file input_file design_file level debug true to_file log_file
    | O_log_to_file => mk_parsed task key_hex key_file key_dir key_wif public signature data data_file input_file design_file level debug timestamp true log_file
    | O_log_file => mk_parsed task key_hex key_file key_dir key_wif public signature data data_file input_file design_file level debug timestamp to_file v
    end
  end.

(** argparse._get_values: the first "--" is removed from the arguments; "arg_string, = arg_strings" for an option with one argument;
    the value is one of the choices. *)
Fixpoint remove_dashes (args : list pystr) : list pystr :=
  match args with [] => [] | x :: r => if str_eqb x (lit "--") then r else x :: remove_dashes r end.
Definition get_values (o : opt) (args : list pystr) : outcome (list pystr) :=
  let vs := remove_dashes args in
  match nargs o, vs with
  | One, [v] => match o with O_log_level => if str_in v log_levels then Parsed vs else Refused | _ => Parsed vs end
  | One, _ => Raised ValueError
  | _, _ => Parsed vs
  end.

(** take_action *)
Definition take_action (o : opt) (args : list pystr) (st : parsed * list opt) : outcome (parsed * list opt) :=
  let '(p, seen) := st in
  obind (get_values o args) (fun vs =>
    if existsb (conflicts o) seen then Refused
    else match o with
         | O_help => Helped
         | _ => Parsed (store o vs p, o :: seen)
         end).
Fixpoint take_actions (l : list (opt * list pystr)) (st : parsed * list opt) : outcome (parsed * list opt) :=
  match l with [] => Parsed st | (o, args) :: r => obind (take_action o args st) (take_actions r) end.

(** The words marked as arguments at the front. *)
Fixpoint span_args (l : list (pystr * mark)) : list pystr * list (pystr * mark) :=
  match l with
  | (w, MA) :: r => let '(a, b) := span_args r in (w :: a, b)
  | _ => ([], l)
  end.

(** consume_optional: from an option with an action, the actions to take and the rest of the words. *)
Definition from_words (o : opt) (rest : list (pystr * mark)) : outcome (list pystr * list (pystr * mark)) :=
  match nargs o with
  | Zero => Parsed ([], rest)
  | One => match rest with (w, MA) :: r => Parsed ([w], r) | _ => Refused end
  | Many => match span_args rest with ([], _) => Refused | (a, b) => Parsed (a, b) end
  end.
(** A single-dash option that takes no argument, followed by the text e in the same word. *)
Fixpoint unbundle (o : opt) (e : pystr) (rest : list (pystr * mark)) : outcome (list (opt * list pystr) * list (pystr * mark)) :=
  match nargs o with
  | Zero =>
      match e with
      | [] => Raised IndexError
      | c :: e' =>
          match find_option [45; c] with
          | None => Refused
          | Some o' =>
              obind (match e' with
                     | [] => obind (from_words o' rest) (fun '(args, r) => Parsed ([(o', args)], r))
                     | _ => unbundle o' e' rest
                     end) (fun '(l, r) => Parsed ((o, []) :: l, r))
          end
      end
  | _ => Parsed ([(o, [e])], rest)
  end.
Definition consume_optional (o : opt) (name : pystr) (explicit : option pystr) (rest : list (pystr * mark))
    : outcome (list (opt * list pystr) * list (pystr * mark)) :=
  match explicit with
  | None => obind (from_words o rest) (fun '(args, r) => Parsed ([(o, args)], r))
  | Some e =>
      match nargs o, name with
      | Zero, _ :: 45 :: _ => Refused
      | Zero, _ => unbundle o e rest
      | _, _ => Parsed ([(o, [e])], rest)
      end
  end.

(** argparse._parse_known_args, main loop: arguments that belong to no option, and options that do not exist, are extras, which
    parse_args refuses in the end.  Each round consumes a word, so that the number of words suffices as fuel. *)
Fixpoint loop (fuel : nat) (l : list (pystr * mark)) (extras : bool) (st : parsed * list opt) : outcome (parsed * bool) :=
  match fuel with
  | O => Parsed (fst st, extras)
  | S f =>
      match l with
      | [] => Parsed (fst st, extras)
      | (_, MA) :: r | (_, MDash) :: r | (_, MO None _ _) :: r => loop f r true st
      | (_, MO (Some o) name explicit) :: r =>
          obind (consume_optional o name explicit r) (fun '(acts, r') =>
            obind (take_actions acts st) (fun st' => loop f r' extras st'))
      end
  end.

(** cli.py L174: parser.parse_args() *)
Definition parse_args (argv : list pystr) : outcome parsed :=
  match classify argv with
  | None => Refused
  | Some l =>
      obind (loop (length l) l false (defaults, [])) (fun '(p, extras) => if extras then Refused else Parsed p)
  end.

(** python cli.py argv: the lines printed and the outcome (SystemExit: status 2 or, after the help, 0; the text of the help, which argparse
    prints, is left out). *)
Definition program (fs : file_system) (sh : shell) (ls : list logger) (dirs : nat -> res unit) (argv : list pystr) : task :=
  match parse_args argv with
  | Parsed p => run fs sh ls dirs p
  | Refused | Helped => ([], Err SystemExit)
  | Raised e => ([], Err e)
  end.

End WithEnv.

(** parser.parse_args() once more, with the messages of the refusals.  Args.v is the version without texts (C103_same: the two agree); the functions that
    cannot refuse (find_option, get_option_tuples, parse_optional, store, remove_dashes, span_args) are those of Args.v.
    parser.error(message) prints the usage and "cli.py: error: message" on stderr and exits with status 2; the message is modelled, the usage is not.
    An ArgumentError of argument a with text t gives the message "argument a: t" (CPython 3.6, Lib/argparse.py: ArgumentError.__str__, _get_action_name). *)
From Coq Require Import String.
From Verif Require Import PyBase Env PyNum Logger Cli Files Args.

(** parse_args returns, calls parser.error(text), shows the help, or raises another exception. *)
Inductive said (A : Type) : Type :=
| Takes (a : A)
| Complains (text : pystr)
| Shows
| Breaks (e : exn).
Arguments Takes {A} a.
Arguments Complains {A} text.
Arguments Shows {A}.
Arguments Breaks {A} e.
Definition sbind {A B : Type} (m : said A) (k : A -> said B) : said B :=
  match m with Takes a => k a | Complains t => Complains t | Shows => Shows | Breaks e => Breaks e end.
(** The same without the text. *)
Definition silent {A : Type} (m : said A) : outcome A :=
  match m with Takes a => Parsed a | Complains _ => Refused | Shows => Helped | Breaks e => Raised e end.

(** argparse._get_action_name: '/'.join(argument.option_strings); ArgumentError.__str__ *)
Definition action_name (o : opt) : pystr :=
  join (lit "/") (map fst (filter (fun e => if opt_eq_dec (snd e) o then true else false) option_strings)).
Definition argument_error (o : opt) (msg : pystr) : pystr := lit "argument " ++ action_name o ++ lit ": " ++ msg.

Section WithEnv.
Context {E : Env} (repr : pyval -> pystr).

(** argparse._parse_optional, the word w being ambiguous. *)
Definition ambiguous_text (w : pystr) : pystr :=
  lit "ambiguous option: " ++ w ++ lit " could match " ++ join (lit ", ") (map (fun t => snd (fst t)) (get_option_tuples w)).
(** argparse._parse_known_args, first loop (Args.classify). *)
Fixpoint says_classify (ws : list pystr) : said (list (pystr * mark)) :=
  match ws with
  | [] => Takes []
  | w :: r =>
      if str_eqb w (lit "--") then Takes ((w, MDash) :: map (fun x => (x, MA)) r)
      else match parse_optional w with
           | None => Complains (ambiguous_text w)
           | Some m => sbind (says_classify r) (fun l => Takes ((w, m) :: l))
           end
  end.

(** argparse._check_value (cli.py L143: choices): ', '.join(map(repr, action.choices)) *)
Definition choice_text (v : pystr) : pystr :=
  lit "invalid choice: " ++ repr (PStr v) ++ lit " (choose from " ++ join (lit ", ") (map (fun c => repr (PStr c)) log_levels) ++ lit ")".
(** argparse._get_values (Args.get_values) *)
Definition says_get_values (o : opt) (args : list pystr) : said (list pystr) :=
  let vs := remove_dashes args in
  match nargs o, vs with
  | One, [v] => match o with O_log_level => if str_in v log_levels then Takes vs else Complains (argument_error o (choice_text v)) | _ => Takes vs end
  | One, _ => Breaks ValueError
  | _, _ => Takes vs
  end.

(** action_conflicts[o]: the other options of the group, in the order in which they are declared. *)
Definition rivals (o : opt) : list opt := filter (conflicts o) [O_key_hex; O_key_file; O_key_dir; O_key_wif; O_data; O_data_file].
Definition is_seen (seen : list opt) (o : opt) : bool := existsb (fun a => if opt_eq_dec a o then true else false) seen.
(** take_action (Args.take_action) *)
Definition says_take_action (o : opt) (args : list pystr) (st : parsed * list opt) : said (parsed * list opt) :=
  let '(p, seen) := st in
  sbind (says_get_values o args) (fun vs =>
    match find (is_seen seen) (rivals o) with
    | Some b => Complains (argument_error o (lit "not allowed with argument " ++ action_name b))
    | None => match o with
              | O_help => Shows
              | _ => Takes (store o vs p, o :: seen)
              end
    end).
Fixpoint says_take_actions (l : list (opt * list pystr)) (st : parsed * list opt) : said (parsed * list opt) :=
  match l with [] => Takes st | (o, args) :: r => sbind (says_take_action o args st) (says_take_actions r) end.

(** consume_optional and argparse._match_argument (Args.from_words): nargs_errors. *)
Definition says_from_words (o : opt) (rest : list (pystr * mark)) : said (list pystr * list (pystr * mark)) :=
  match nargs o with
  | Zero => Takes ([], rest)
  | One => match rest with (w, MA) :: r => Takes ([w], r) | _ => Complains (argument_error o (lit "expected one argument")) end
  | Many => match span_args rest with ([], _) => Complains (argument_error o (lit "expected at least one argument")) | (a, b) => Takes (a, b) end
  end.
(** _('ignored explicit argument %r') % explicit_arg *)
Definition ignored_text (e : pystr) : pystr := lit "ignored explicit argument " ++ repr (PStr e).
(** Args.unbundle *)
Fixpoint says_unbundle (o : opt) (e : pystr) (rest : list (pystr * mark)) : said (list (opt * list pystr) * list (pystr * mark)) :=
  match nargs o with
  | Zero =>
      match e with
      | [] => Breaks IndexError
      | c :: e' =>
          match find_option [45; c] with
          | None => Complains (argument_error o (ignored_text e))
          | Some o' =>
              sbind (match e' with
                     | [] => sbind (says_from_words o' rest) (fun '(args, r) => Takes ([(o', args)], r))
                     | _ => says_unbundle o' e' rest
                     end) (fun '(l, r) => Takes ((o, []) :: l, r))
          end
      end
  | _ => Takes ([(o, [e])], rest)
  end.
(** Args.consume_optional *)
Definition says_consume_optional (o : opt) (name : pystr) (explicit : option pystr) (rest : list (pystr * mark))
    : said (list (opt * list pystr) * list (pystr * mark)) :=
  match explicit with
  | None => sbind (says_from_words o rest) (fun '(args, r) => Takes ([(o, args)], r))
  | Some e =>
      match nargs o, name with
      | Zero, _ :: 45 :: _ => Complains (argument_error o (ignored_text e))
      | Zero, _ => says_unbundle o e rest
      | _, _ => Takes ([(o, [e])], rest)
      end
  end.

(** argparse._parse_known_args, main loop (Args.loop): extras, with the words. *)
Fixpoint says_loop (fuel : nat) (l : list (pystr * mark)) (extras : list pystr) (st : parsed * list opt) : said (parsed * list pystr) :=
  match fuel with
  | O => Takes (fst st, extras)
  | S f =>
      match l with
      | [] => Takes (fst st, extras)
      | (w, MA) :: r | (w, MDash) :: r | (w, MO None _ _) :: r => says_loop f r (extras ++ [w]) st
      | (_, MO (Some o) name explicit) :: r =>
          sbind (says_consume_optional o name explicit r) (fun '(acts, r') =>
            sbind (says_take_actions acts st) (fun st' => says_loop f r' extras st'))
      end
  end.

(** cli.py L174: parser.parse_args(): _('unrecognized arguments: %s') % ' '.join(argv) *)
Definition parse_says (argv : list pystr) : said parsed :=
  sbind (says_classify argv) (fun l =>
    sbind (says_loop (length l) l [] (defaults, [])) (fun '(p, extras) =>
      match extras with [] => Takes p | _ => Complains (lit "unrecognized arguments: " ++ join (lit " ") extras) end)).

End WithEnv.

(** The text of the error messages of bitcoin_toolset/util/validate.py: build_error_msg (L386-405) and the three validators that say where in the text the fault is.  repr (the Python built-in) is a parameter of the model; a location, a kind and a
    value are given as Python values, a name is a string or None, as at every call in the code. *)
From Coq Require Import String Lia.
From Verif Require Import PyBase Env PyNum Validate.
Open Scope Z_scope.

(** name.split(' ') (validate.py L394): the pieces between single spaces; never empty. *)
Fixpoint split_spaces (s : pystr) : list pystr :=
  match s with
  | [] => [[]]
  | c :: s' => if c =? 32 then [] :: split_spaces s' else match split_spaces s' with w :: ws => (c :: w) :: ws | [] => [[c]] end
  end.
(** ' '.join(words) (L397). *)
Fixpoint join_spaces (ws : list pystr) : pystr :=
  match ws with
  | [] => []
  | [w] => w
  | w :: ws' => w ++ 32 :: join_spaces ws'
  end.
(** L394-397. *)
Definition quote_first_word (name : pystr) : pystr :=
  let words := split_spaces name in
  let name2 := lit "'" ++ hd [] words ++ lit "'" in
  if 1 <? Z.of_nat (length words) then name2 ++ lit " " ++ join_spaces (tl words) else name2.
(** str.capitalize on one character (L404); only the four letters a message can start with matter, the others are kept as they are (a simplification). *)
Definition capitalize_char (c : Z) : Z := if (97 <=? c) && (c <=? 122) then c - 32 else c.
(** build_error_msg (L386-405); m[0] raises IndexError on an empty m. *)
Definition build_error_msg (repr : pyval -> pystr) (msg : pystr) (value : pyval) (name : option pystr) (location kind : pyval) : res pystr :=
  let m := [] in
  let m := match location with PNone => m | _ => m ++ lit "in location " ++ repr location ++ lit ", " end in
  let m := match name with None => m | Some name => m ++ lit "for variable " ++ quote_first_word name ++ lit ", " end in
  let m := match kind with PNone => m | _ => m ++ lit "expected a " ++ repr kind ++ lit ", but " end in
  let m := m ++ lit "received value " ++ repr value in
  let m := match msg with [] => m | _ => m ++ lit ", " ++ msg end in
  match m with
  | [] => Err IndexError
  | c :: rest => Ok (capitalize_char c :: rest)
  end.

Section WithEnv.
Context {E : Env}.

(** type(x).__name__ *)
Definition type_name (v : pyval) : pystr :=
  match v with PNone => lit "NoneType" | PBool _ => lit "bool" | PInt _ => lit "int" | PFloat _ => lit "float" | PStr _ => lit "str" | PList _ => lit "list" | PDict _ => lit "dict" end.
(** str() of a list of ints, as str.format shows it (L319, L351). *)
Fixpoint comma_ints (l : list nat) : pystr :=
  match l with [] => [] | [i] => int_str (Z.of_nat i) | i :: l' => int_str (Z.of_nat i) ++ lit ", " ++ comma_ints l' end.
Definition show_indices (l : list nat) : pystr := lit "[" ++ comma_ints l ++ lit "]".
(** ','.join(l) (L319). *)
Fixpoint comma_join (l : list pystr) : pystr := match l with [] => [] | [x] => x | x :: l' => x ++ lit "," ++ comma_join l' end.
(** raise e(build_error_msg(...)): the exception and its text. *)
Definition complain (repr : pyval -> pystr) (e : exn) (msg : pystr) (value : pyval) (name : option pystr) (location kind : pyval) : option (exn * pystr) :=
  match build_error_msg repr msg value name location kind with Ok m => Some (e, m) | Err x => Some (x, []) end.

(** validate_string (L374-378), with its message; None if it returns. *)
Definition validate_string_says (repr : pyval -> pystr) (v : pyval) (name : option pystr) (location kind : pyval) : option (exn * pystr) :=
  match v with
  | PStr _ => None
  | _ => complain repr TypeError (lit "which has type '" ++ type_name v ++ lit "', not 'str'.") v name location kind
  end.
(** [i for i in range(len(s)) if not p(s[i])] (L311, L348). *)
Definition indices_where (bad : Z -> bool) (s : pystr) : list nat := filter (fun i => bad (nth i s 0)) (seq 0 (length s)).
(** validate_hex (L303-321), with its message. *)
Definition validate_hex_says (repr : pyval -> pystr) (v : pyval) (name : option pystr) (location kind : pyval) : option (exn * pystr) :=
  match validate_string_says repr v name location kind with
  | Some r => Some r
  | None =>
      match v with
      | PStr s =>
          if negb (Z.of_nat (length s) mod 2 =? 0) then
            complain repr ValueError (lit "whose length is not an even number (" ++ int_str (Z.of_nat (length s)) ++ lit " chars).") v name location kind
          else
            let indices := indices_where (fun c => negb (char_in c hex_digits)) s in
            if 0 <? Z.of_nat (length indices) then
              let chars := map (fun i => let c := nth i s 0 in if c =? 10 then [92; 110] else [c]) indices in
              complain repr ValueError (lit "where the chars at indices " ++ show_indices indices ++ lit " (with values '" ++ comma_join chars ++ lit "') are not hex chars.") v name location kind
            else None
      | _ => None
      end
  end.
(** The loop of validate_string_is_printable_ascii (L128-139): line, index and character at the first fault. *)
Fixpoint printable_scan (s : pystr) (line index : Z) : option (Z * Z * Z) :=
  match s with
  | [] => None
  | c :: r =>
      let index := index + 1 in
      if negb (char_in c permitted_data_characters) then Some (line, index, c)
      else if c =? 10 then printable_scan r (line + 1) 0 else printable_scan r line index
  end.
(** validate_string_is_printable_ascii (L120-139), with its message.  Its call of validate_string (L127) passes no name, location or kind. *)
Definition validate_string_is_printable_ascii_says (repr : pyval -> pystr) (v : pyval) (name : option pystr) (location kind : pyval) : option (exn * pystr) :=
  match validate_string_says repr v None PNone (PStr (lit "string")) with
  | Some r => Some r
  | None =>
      match v with
      | PStr s =>
          match printable_scan s 0 0 with
          | None => None
          | Some (line, index, c) =>
              complain repr ValueError (lit "Line " ++ int_str line ++ lit ", index " ++ int_str index ++ lit ": Character '" ++ [c] ++ lit "' (ord=" ++ int_str c ++
                lit ") is not in the list of permitted data characters.") v name location kind
          end
      | _ => None
      end
  end.

End WithEnv.

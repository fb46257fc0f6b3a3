(** Python runtime primitives used by the modelled code (CPython 3.6, README.md "Environment").
    No repository function is modelled here; these are the language built-ins. *)
From Coq Require Import String Ascii.
From Coq Require Import Floats.SpecFloat.
From Coq Require Export ZArith List Bool.
Export ListNotations.
Open Scope Z_scope.

(** * Exceptions as values.  The class is modelled, the message is not. *)
Inductive exn : Set :=
| ValueError | TypeError | KeyError | IndexError | AttributeError | AssertionError
| NotImplementedError | OverflowError | ZeroDivisionError | NameError
| OutputValueNotCovered            (* create_transaction.py L65 *)
| OutputAndFeeValueNotCovered      (* create_transaction.py L69 *)
| DuplicateOutputAddressError      (* create_transaction.py L73 *)
| SystemExit                       (* sys.exit(), cli.py L531 *)
| LibraryError.                    (* any other exception raised inside a git submodule *)

Inductive res (A : Type) : Type :=
| Ok (a : A)
| Err (e : exn).
Arguments Ok {A} a.
Arguments Err {A} e.

Definition bind {A B : Type} (m : res A) (k : A -> res B) : res B :=
  match m with Ok a => k a | Err e => Err e end.

Notation "x <- m ;; k" := (bind m (fun x => k))
  (at level 61, m at next level, right associativity, only parsing).
Notation "' p <- m ;; k" := (bind m (fun p => k))
  (at level 61, p pattern, m at next level, right associativity, only parsing).
Notation "m ;;; k" := (bind m (fun _ => k))
  (at level 61, right associativity, only parsing).

(** [assert b] (assertions enabled, i.e. not [python -O]). *)
Definition assert_ (b : bool) : res unit := if b then Ok tt else Err AssertionError.

(** Python list comprehension / for loop whose body may raise. *)
Fixpoint mapM {A B : Type} (f : A -> res B) (l : list A) : res (list B) :=
  match l with
  | [] => Ok []
  | x :: r => y <- f x ;; ys <- mapM f r ;; Ok (y :: ys)
  end.

Fixpoint iterM {A : Type} (f : A -> res unit) (l : list A) : res unit :=
  match l with
  | [] => Ok tt
  | x :: r => f x ;;; iterM f r
  end.

(** * Strings: sequences of Unicode code points. *)
Definition pystr : Type := list Z.

(** String literals of the source. *)
Definition lit (s : string) : pystr :=
  map (fun c => Z.of_N (N_of_ascii c)) (list_ascii_of_string s).

Fixpoint str_eqb (a b : pystr) : bool :=
  match a, b with
  | [], [] => true
  | x :: a', y :: b' => (x =? y) && str_eqb a' b'
  | _, _ => false
  end.

(** [c in s] for a one-character string [c]. *)
Definition char_in (c : Z) (s : pystr) : bool := existsb (Z.eqb c) s.

(** [x in l] for a list of strings. *)
Definition str_in (x : pystr) (l : list pystr) : bool := existsb (str_eqb x) l.

(** s[a:b] with 0 <= a <= b. *)
Definition slice {A : Type} (a b : nat) (s : list A) : list A := firstn (b - a) (skipn a s).

(** s[-k:] and s[:-k] with k >= 1 (Python clamps, as truncated subtraction does). *)
Definition last_n {A : Type} (k : nat) (s : list A) : list A := skipn (length s - k) s.
Definition drop_last_n {A : Type} (k : nat) (s : list A) : list A := firstn (length s - k) s.

(** s.lstrip(c) for a one-character argument. *)
Fixpoint lstrip (c : Z) (s : pystr) : pystr :=
  match s with
  | x :: r => if x =? c then lstrip c r else s
  | [] => []
  end.

(** s.count(c), s.replace(c, '') for a one-character c. *)
Definition count_char (c : Z) (s : pystr) : nat := length (filter (Z.eqb c) s).
Definition remove_char (c : Z) (s : pystr) : pystr := filter (fun x => negb (x =? c)) s.

(** s.split(c) for a one-character c. *)
Fixpoint split_char (c : Z) (s : pystr) : list pystr :=
  match s with
  | [] => [[]]
  | x :: r =>
      if x =? c then [] :: split_char c r
      else match split_char c r with
           | w :: ws => (x :: w) :: ws
           | [] => [[x]]
           end
  end.

(** [s[i:i+2] for i in range(0, len(s), 2)] *)
Fixpoint chunks2 (s : pystr) : list pystr :=
  match s with
  | [] => []
  | [a] => [[a]]
  | a :: b :: r => [a; b] :: chunks2 r
  end.

(** n * s *)
Definition rep_str (n : nat) (s : pystr) : pystr := concat (repeat s n).

(** Lexicographic comparison of strings by code point (used by sorted()). *)
Fixpoint str_leb (a b : pystr) : bool :=
  match a, b with
  | [], _ => true
  | _ :: _, [] => false
  | x :: a', y :: b' => if x <? y then true else if y <? x then false else str_leb a' b'
  end.

Fixpoint str_insert (x : pystr) (l : list pystr) : list pystr :=
  match l with
  | [] => [x]
  | y :: r => if str_leb x y then x :: l else y :: str_insert x r
  end.
Definition str_sorted (l : list pystr) : list pystr := fold_right str_insert [] l.

Fixpoint strs_eqb (a b : list pystr) : bool :=
  match a, b with
  | [], [] => true
  | x :: a', y :: b' => str_eqb x y && strs_eqb a' b'
  | _, _ => false
  end.

(** * Integer to text. *)

(** Digits of n in base b, most significant first; [] for n <= 0.
    The fuel Z.log2 n + 1 always suffices for b >= 2 (lemma digits_value). *)
Fixpoint digits_fuel (fuel : nat) (b n : Z) (acc : list Z) : list Z :=
  match fuel with
  | O => acc
  | S f => if n <=? 0 then acc else digits_fuel f b (n / b) (n mod b :: acc)
  end.
Definition digits (b n : Z) : list Z := digits_fuel (S (Z.to_nat (Z.log2 n))) b n [].

(** Character of a digit value 0..15: '0'..'9', 'a'..'f'. *)
Definition digit_char (d : Z) : Z := if d <? 10 then 48 + d else 87 + d.

Definition nat_text (b n : Z) : pystr :=
  if n =? 0 then [48] else map digit_char (digits b n).

(** str(n) and hex(n) for an int. *)
Definition int_str (n : Z) : pystr :=
  if n <? 0 then 45 :: nat_text 10 (- n) else nat_text 10 n.
Definition int_hex (n : Z) : pystr :=
  if n <? 0 then lit "-0x" ++ nat_text 16 (- n) else lit "0x" ++ nat_text 16 n.

(** * Python values (JSON-like data plus bool/float subtleties). *)
Inductive pyval : Type :=
| PNone
| PBool (b : bool)
| PInt (z : Z)
| PFloat (f : spec_float)
| PStr (s : pystr)
| PList (l : list pyval)
| PDict (d : list (pystr * pyval)).

Definition dict : Type := list (pystr * pyval).

Definition b2z (b : bool) : Z := if b then 1 else 0.

(** isinstance(v, int): bool is a subclass of int. *)
Definition as_int (v : pyval) : option Z :=
  match v with PInt z => Some z | PBool b => Some (b2z b) | _ => None end.

(** Exact comparison of a float with an int (CPython compares exactly); None = unordered. *)
Definition float_cmp_int (f : spec_float) (n : Z) : option comparison :=
  match f with
  | S754_nan => None
  | S754_infinity s => Some (if s then Lt else Gt)
  | S754_zero _ => Some (Z.compare 0 n)
  | S754_finite s m e =>
      let v := if s then Z.neg m else Z.pos m in
      Some (if 0 <=? e then Z.compare (v * 2 ^ e) n else Z.compare v (n * 2 ^ (- e)))
  end.

(** v == n for an int n. *)
Definition py_eq_int (v : pyval) (n : Z) : bool :=
  match v with
  | PInt z => z =? n
  | PBool b => b2z b =? n
  | PFloat f => match float_cmp_int f n with Some Eq => true | _ => false end
  | _ => false
  end.

(** v == s for a str s. *)
Definition py_eq_str (v : pyval) (s : pystr) : bool :=
  match v with PStr t => str_eqb t s | _ => false end.

Definition is_none (v : pyval) : bool := match v with PNone => true | _ => false end.

(** bool(v) *)
Definition truthy (v : pyval) : bool :=
  match v with
  | PNone => false
  | PBool b => b
  | PInt z => negb (z =? 0)
  | PFloat (S754_zero _) => false
  | PFloat _ => true
  | PStr s => match s with [] => false | _ => true end
  | PList l => match l with [] => false | _ => true end
  | PDict d => match d with [] => false | _ => true end
  end.

(** d[k] = v (insertion-ordered), d.get(k), d[k], d.keys() *)
Fixpoint dict_set (k : pystr) (v : pyval) (d : dict) : dict :=
  match d with
  | [] => [(k, v)]
  | (k', v') :: r => if str_eqb k' k then (k', v) :: r else (k', v') :: dict_set k v r
  end.
Fixpoint dict_find (k : pystr) (d : dict) : option pyval :=
  match d with
  | [] => None
  | (k', v) :: r => if str_eqb k' k then Some v else dict_find k r
  end.
Definition dict_get (k : pystr) (d : dict) : res pyval :=
  match dict_find k d with Some v => Ok v | None => Err KeyError end.
Definition dict_keys (d : dict) : list pystr := map fst d.

(** Attribute access .keys() on a value that may not be a dict. *)
Definition as_dict (v : pyval) : res dict :=
  match v with PDict d => Ok d | _ => Err AttributeError end.

(** Using v where a str (list) is required, after it was validated to be one. *)
Definition as_str (v : pyval) : res pystr :=
  match v with PStr s => Ok s | _ => Err TypeError end.
Definition as_list (v : pyval) : res (list pyval) :=
  match v with PList l => Ok l | _ => Err TypeError end.

Definition opt_str (o : option pystr) : pyval := match o with Some s => PStr s | None => PNone end.
Definition opt_int (o : option Z) : pyval := match o with Some z => PInt z | None => PNone end.

Definition Zsum (l : list Z) : Z := fold_right Z.add 0 l.

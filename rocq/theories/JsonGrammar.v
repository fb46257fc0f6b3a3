(** JSON texts and their values, after RFC 8259, with the three words CPython adds for numbers that are not finite.  Nothing here refers to
    the model of the json module. *)
From Coq Require Import String Floats.SpecFloat Reals.
From Verif Require Import PyBase Env Spec NumSpec.
Open Scope Z_scope.

Definition white (s : pystr) : Prop := Forall (fun c => c = 32 \/ c = 9 \/ c = 10 \/ c = 13) s.

(** * Strings *)
Inductive hex_value : Z -> Z -> Prop :=
| hv_digit d : 0 <= d <= 9 -> hex_value (48 + d) d
| hv_lower d : 10 <= d <= 15 -> hex_value (87 + d) d
| hv_upper d : 10 <= d <= 15 -> hex_value (55 + d) d.
(** s is four hexadecimal digits with value n. *)
Definition four (s : pystr) (n : Z) : Prop := exists ds, Forall2 hex_value s ds /\ length ds = 4%nat /\ n = val 16 ds.
Inductive escape : Z -> Z -> Prop :=
| esc_quote : escape 34 34 | esc_backslash : escape 92 92 | esc_slash : escape 47 47 | esc_b : escape 98 8 | esc_f : escape 102 12
| esc_n : escape 110 10 | esc_r : escape 114 13 | esc_t : escape 116 9.
Definition high (n : Z) : Prop := 55296 <= n <= 56319.   (* D800-DBFF *)
Definition low (n : Z) : Prop := 56320 <= n <= 57343.    (* DC00-DFFF *)
(** The text between the quotes, and the string it stands for.  A high surrogate and a low one, both escaped, are one character. *)
Inductive chars : pystr -> pystr -> Prop :=
| ch_nil : chars [] []
| ch_plain c s t : 32 <= c -> c <> 34 -> c <> 92 -> chars s t -> chars ([c] ++ s) (c :: t)
| ch_escape e c s t : escape e c -> chars s t -> chars ([92; e] ++ s) (c :: t)
| ch_pair h l n m s t : four h n -> high n -> four l m -> low m -> chars s t ->
    chars ([92; 117] ++ h ++ [92; 117] ++ l ++ s) (65536 + (n - 55296) * 1024 + (m - 56320) :: t)
| ch_unit h n s t : four h n -> ~ (high n /\ exists l m r, s = [92; 117] ++ l ++ r /\ four l m /\ low m) -> chars s t ->
    chars ([92; 117] ++ h ++ s) (n :: t).

(** * Numbers *)
Inductive minus_text : pystr -> bool -> Prop :=
| no_minus : minus_text [] false
| a_minus : minus_text [45] true.
(** No superfluous zero in front. *)
Definition whole (s : pystr) (ds : list Z) : Prop := s = text10 ds /\ digits_in 10 ds /\ (ds = [0] \/ (ds <> [] /\ no_lead0 ds)).
Definition fraction (s : pystr) (ds : list Z) : Prop := s = [46] ++ text10 ds /\ digits_in 10 ds /\ ds <> [].
Definition exponent (s : pystr) (x : Z) : Prop :=
  exists c sg neg ds, s = [c] ++ sg ++ text10 ds /\ (c = 101 \/ c = 69) /\ sign_text sg neg /\ digits_in 10 ds /\ ds <> [] /\ x = signed neg (val 10 ds).
Inductive number : pystr -> pyval -> Prop :=
| n_int sg neg i ip : minus_text sg neg -> whole i ip -> number (sg ++ i) (PInt (signed neg (val 10 ip)))
| n_float sg neg i ip f fp e x r : minus_text sg neg -> whole i ip ->
    (f = [] /\ fp = [] \/ fraction f fp) -> (e = [] /\ x = 0 \/ exponent e x) -> (f <> [] \/ e <> []) ->
    rounds (IZR (signed neg (val 10 (ip ++ fp))) * powerRZ 10 (x - Z.of_nat (length fp))) neg r ->
    number (sg ++ i ++ f ++ e) (PFloat r).

(** * Values *)
(** The dictionary of a list of pairs: each key once, in the order of first appearance, with the last of its values. *)
Fixpoint firsts (ks : list pystr) : list pystr :=
  match ks with [] => [] | k :: r => k :: filter (fun x => negb (str_eqb x k)) (firsts r) end.
Definition makes (ps : list (pystr * pyval)) (d : dict) : Prop :=
  map fst d = firsts (map fst ps) /\
  forall k v, In (k, v) d -> exists a b, ps = a ++ (k, v) :: b /\ ~ In k (map fst b).

Inductive value : pystr -> pyval -> Prop :=
| v_null : value (lit "null") PNone
| v_true : value (lit "true") (PBool true)
| v_false : value (lit "false") (PBool false)
| v_nan : value (lit "NaN") (PFloat S754_nan)
| v_infinity : value (lit "Infinity") (PFloat (S754_infinity false))
| v_minus_infinity : value (lit "-Infinity") (PFloat (S754_infinity true))
| v_number s v : number s v -> value s v
| v_string s t : chars s t -> value ([34] ++ s ++ [34]) (PStr t)
| v_empty_array w : white w -> value (lit "[" ++ w ++ lit "]") (PList [])
| v_array s l : elements s l -> value (lit "[" ++ s ++ lit "]") (PList l)
| v_empty_object w : white w -> value (lit "{" ++ w ++ lit "}") (PDict [])
| v_object s ps d : pairs s ps -> makes ps d -> value (lit "{" ++ s ++ lit "}") (PDict d)
with elements : pystr -> list pyval -> Prop :=
| e_last w s v w' : white w -> value s v -> white w' -> elements (w ++ s ++ w') [v]
| e_more w s v w' r l : white w -> value s v -> white w' -> elements r l -> elements (w ++ s ++ w' ++ lit "," ++ r) (v :: l)
with pairs : pystr -> list (pystr * pyval) -> Prop :=
| p_last w k t w1 w2 s v w3 : white w -> chars k t -> white w1 -> white w2 -> value s v -> white w3 ->
    pairs (w ++ [34] ++ k ++ [34] ++ w1 ++ lit ":" ++ w2 ++ s ++ w3) [(t, v)]
| p_more w k t w1 w2 s v w3 r l : white w -> chars k t -> white w1 -> white w2 -> value s v -> white w3 -> pairs r l ->
    pairs (w ++ [34] ++ k ++ [34] ++ w1 ++ lit ":" ++ w2 ++ s ++ w3 ++ lit "," ++ r) ((t, v) :: l).

(** s is a JSON document with value v. *)
Definition document (s : pystr) (v : pyval) : Prop := exists w t w', s = w ++ t ++ w' /\ white w /\ white w' /\ value t v.

(** Values that can be written and read back: no floats; strings of characters in which no high surrogate is followed by a low one (no text
    that comes from a file or a terminal has such a pair); no key twice. *)
Fixpoint no_split_pair (s : pystr) : Prop :=
  match s with
  | c :: r => (high c -> match r with d :: _ => ~ low d | [] => True end) /\ no_split_pair r
  | [] => True
  end.
Definition character (c : Z) : Prop := 0 <= c <= 1114111.   (* 10FFFF *)
Definition plain_text (s : pystr) : Prop := Forall character s /\ no_split_pair s.
Inductive plain_value : pyval -> Prop :=
| pv_none : plain_value PNone
| pv_bool b : plain_value (PBool b)
| pv_int z : plain_value (PInt z)
| pv_str s : plain_text s -> plain_value (PStr s)
| pv_list l : Forall plain_value l -> plain_value (PList l)
| pv_dict d : NoDup (map fst d) -> Forall (fun e => plain_text (fst e)) d -> Forall (fun e => plain_value (snd e)) d -> plain_value (PDict d).

(** * How json.dumps(v, indent=2) lays a value out *)
(** Four hexadecimal digits in lower case. *)
Definition lower_four (h : pystr) (n : Z) : Prop := four h n /\ Forall (fun c => ~ 65 <= c <= 70) h.
(** A character between the quotes. *)
Inductive shown : Z -> pystr -> Prop :=
| sh_self c : 32 <= c <= 126 -> c <> 34 -> c <> 92 -> shown c [c]
| sh_escape e c : escape e c -> c <> 47 -> shown c [92; e]
| sh_unit c h : 0 <= c <= 65535 -> ~ 32 <= c <= 126 -> (forall e, ~ escape e c) -> lower_four h c -> shown c ([92; 117] ++ h)
| sh_pair c n m h l : 65536 <= c -> c = 65536 + (n - 55296) * 1024 + (m - 56320) -> high n -> low m -> lower_four h n -> lower_four l m ->
    shown c ([92; 117] ++ h ++ [92; 117] ++ l).
Definition text_shown (s t : pystr) : Prop := exists parts, Forall2 shown s parts /\ t = [34] ++ concat parts ++ [34].

(** Lines of text. *)
Definition indented (ls : list pystr) : list pystr := map (fun l => lit "  " ++ l) ls.
Definition starting (x : pystr) (ls : list pystr) : list pystr := match ls with [] => [] | l :: r => (x ++ l) :: r end.
Fixpoint ending (ls : list pystr) (x : pystr) : list pystr := match ls with [] => [] | [l] => [l ++ x] | l :: r => l :: ending r x end.
Fixpoint listed (blocks : list (list pystr)) : list pystr :=
  match blocks with [] => [] | [b] => b | b :: r => ending b (lit ",") ++ listed r end.
Definition boxed (open close : string) (blocks : list (list pystr)) : list pystr :=
  match blocks with [] => [lit open ++ lit close] | _ => [lit open] ++ indented (listed blocks) ++ [lit close] end.
Inductive layout : pyval -> list pystr -> Prop :=
| l_null : layout PNone [lit "null"]
| l_true : layout (PBool true) [lit "true"]
| l_false : layout (PBool false) [lit "false"]
| l_int z t : number t (PInt z) -> t <> lit "-0" -> layout (PInt z) [t]
| l_str s t : text_shown s t -> layout (PStr s) [t]
| l_list l bs : layouts l bs -> layout (PList l) (boxed "[" "]" bs)
| l_dict d bs : entries d bs -> layout (PDict d) (boxed "{" "}" bs)
with layouts : list pyval -> list (list pystr) -> Prop :=
| ls_nil : layouts [] []
| ls_cons v b l bs : layout v b -> layouts l bs -> layouts (v :: l) (b :: bs)
with entries : dict -> list (list pystr) -> Prop :=
| en_nil : entries [] []
| en_cons k t v b d bs : text_shown k t -> layout v b -> entries d bs -> entries ((k, v) :: d) (starting (t ++ lit ": ") b :: bs).
(** Lines joined by line feeds, none at the end. *)
Fixpoint lines_text (ls : list pystr) : pystr := match ls with [] => [] | [l] => l | l :: r => l ++ [10] ++ lines_text r end.

(** * Texts that say the same *)
Definition same_json (s s' : pystr) : Prop := forall v, document s v <-> document s' v.
Inductive same_json_opt : option pystr -> option pystr -> Prop :=
| sj_none : same_json_opt None None
| sj_some s s' : same_json s s' -> same_json_opt (Some s) (Some s').

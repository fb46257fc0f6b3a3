(** What the functions of basic.py say when they refuse (C95), independent of the code. *)
From Coq Require Import String Floats.SpecFloat.
From Verif Require Import PyBase Env PyNum Spec EnvOk ValidSpec MessagesSpec ComplaintsSpec Answer.
Open Scope Z_scope.

Section WithEnv.
Context {E : Env}.

(** The report of a finding about value, where a [kind] was expected; no variable or location is named. *)
Definition told (repr : pyval -> pystr) (value : pyval) (kind : string) (f : finding) (e : exn) (text : pystr) : Prop :=
  reported repr value None PNone (PStr (lit kind)) f (Some (e, text)).

(** * Amounts *)

(** At most one period, and apart from it digits (at least one) only. *)
Definition digits_and_period (s : pystr) : Prop :=
  (exists k, dots k s /\ (k <= 1)%nat) /\ (forall c, In c s -> c = 46 \/ digit_char c) /\ (exists c, In c s /\ digit_char c).
(** What is wrong with v as an amount of bitcoin. *)
Inductive amount (repr : pyval -> pystr) (v : pyval) : finding -> Prop :=
| amount_type : forall t, (forall s, v <> PStr s) -> type_called v t -> amount repr v (Wrong TypeError (lit "which has type '" ++ lit t ++ lit "', not 'str'."))
| amount_periods : forall s k, v = PStr s -> dots k s -> (1 < k)%nat ->
    amount repr v (Plainly ValueError (lit "Amount contains " ++ int_str (Z.of_nat k) ++ lit " periods ('.'). It must contain either 1 or 0 periods. Amount: " ++ s))
| amount_chars : forall s k, v = PStr s -> dots k s -> (k <= 1)%nat -> ~ digits_and_period s ->
    amount repr v (Plainly ValueError (lit "Apart from an optional period ('.'), amount can contain only digits. Amount: " ++ s))
| amount_places : forall a b, v = PStr (a ++ [46] ++ b) -> digits_and_period (a ++ [46] ++ b) -> (8 < length b)%nat ->
    amount repr v (Plainly ValueError (lit "Amount (" ++ a ++ [46] ++ b ++ lit ") has " ++ int_str (Z.of_nat (length b)) ++ lit " decimal places. It can have at most 8 decimal places."))
| amount_digits : forall s c, v = PStr s -> digits_and_period s -> (forall a b, s = a ++ [46] ++ b -> (length b <= 8)%nat) -> In c s -> c <> 46 -> ~ decimal_char c ->
    amount repr v (Plainly ValueError (lit "could not convert string to float: " ++ repr v))
| amount_large : forall s n, v = PStr s -> amount_of s n -> 21000000 * 10 ^ 8 < n ->
    amount repr v (Plainly ValueError (lit "The maximum possible amount is 21000000.00000000. Amount: " ++ s))
| amount_fine : forall s n, v = PStr s -> amount_of s n -> n <= 21000000 * 10 ^ 8 -> amount repr v Fine.
(** What is wrong with v as a positive amount of bitcoin; the text is looked at before it is known to be an amount. *)
Inductive positive_amount (repr : pyval -> pystr) (v : pyval) : finding -> Prop :=
| positive_amount_zero : forall s, v = PStr s -> zero_text s -> positive_amount repr v (Plainly ValueError (lit "Amount ('" ++ s ++ lit "') cannot be 0."))
| positive_amount_other : forall f, (forall s, v = PStr s -> ~ zero_text s) -> amount repr v f -> positive_amount repr v f.

(** satoshi_to_bitcoin: a bool passes for 0 or 1, but its text is True or False. *)
Inductive to_bitcoin (repr : pyval -> pystr) (v : pyval) : answer pystr -> Prop :=
| to_bitcoin_given : forall n s, v = PInt n -> 0 <= n <= 21000000 * 10 ^ 8 -> btc_text s n -> to_bitcoin repr v (Gives s)
| to_bitcoin_refused : forall x f e text, in_domain repr v (PInt 0) (PInt (21000000 * 10 ^ 8)) x f -> told repr x "integer" f e text -> to_bitcoin repr v (Says e text)
| to_bitcoin_true : v = PBool true -> to_bitcoin repr v (Says ValueError (lit "Apart from an optional period ('.'), amount can contain only digits. Amount: 0.0000True"))
| to_bitcoin_false : v = PBool false -> to_bitcoin repr v (Says ValueError (lit "Apart from an optional period ('.'), amount can contain only digits. Amount: 0.000False")).
(** bitcoin_to_satoshi: an amount written with '0' and '.' only is refused with a text about an empty string. *)
Inductive to_satoshi (repr : pyval -> pystr) (v : pyval) : answer Z -> Prop :=
| to_satoshi_given : forall s n, v = PStr s -> amount_of s n -> n <= 21000000 * 10 ^ 8 -> ~ zero_text s -> to_satoshi repr v (Gives n)
| to_satoshi_zero : forall s n, v = PStr s -> amount_of s n -> zero_text s -> to_satoshi repr v (Says ValueError (lit "invalid literal for int() with base 10: " ++ repr (PStr [])))
| to_satoshi_refused : forall f e text, amount repr v f -> told repr v "string" f e text -> to_satoshi repr v (Says e text).
(** ensure_8_decimal_places: only what is between the first period and the next one (or the end) counts. *)
Inductive eight_places (s : pystr) : answer pystr -> Prop :=
| eight_none : ~ In 46 s -> eight_places s (Gives (s ++ lit ".00000000"))
| eight_filled : forall a b rest, s = a ++ [46] ++ b ++ rest -> ~ In 46 a -> ~ In 46 b -> (rest = [] \/ exists r, rest = [46] ++ r) -> (length b <= 8)%nat ->
    eight_places s (Gives (s ++ repeat 48 (8 - length b)))
| eight_over : forall a b rest, s = a ++ [46] ++ b ++ rest -> ~ In 46 a -> ~ In 46 b -> (rest = [] \/ exists r, rest = [46] ++ r) -> (8 < length b)%nat ->
    eight_places s (Says ValueError (lit "String decimal (" ++ s ++ lit ") has " ++ int_str (Z.of_nat (length b)) ++ lit " decimal places.")).

(** * Hex and integers *)

(** int_to_hex: of a negative number -n, the sign and the first character of 0x are cut off, and what is left is refused as hex. *)
Inductive to_hex (repr : pyval -> pystr) (v : pyval) : answer pystr -> Prop :=
| to_hex_given : forall n bs, int_value v n -> 0 <= n -> bytes bs -> minimal bs -> be_val bs = n -> to_hex repr v (Gives (hex_of bs))
| to_hex_negative : forall n ds x f e text, int_value v n -> n < 0 -> digits_in 16 ds -> no_lead0 ds -> val 16 ds = - n ->
    x = (if Nat.odd (length ds) then [] else [48]) ++ [120] ++ map Spec.hex_char ds ->
    hexadecimal (PStr x) f -> told repr (PStr x) "hex" f e text -> to_hex repr v (Says e text)
| to_hex_type : forall f e text, of_type "int" (fun v => exists n, int_value v n) v f -> told repr v "integer" f e text -> to_hex repr v (Says e text).
(** pad_hex and pad_hex_le, to the length n; [zeros] puts the zero bytes on the wanted side. *)
Inductive padded (repr : pyval -> pystr) (zeros : list Z -> list Z -> list Z) (x n : pyval) : answer pystr -> Prop :=
| padded_given : forall bs z, x = PStr (hex_of bs) -> bytes bs -> int_value n z -> Z.of_nat (length bs) <= z ->
    padded repr zeros x n (Gives (hex_of (zeros (repeat 0 (Z.to_nat z - length bs)) bs)))
| padded_long : forall bs z, x = PStr (hex_of bs) -> bytes bs -> int_value n z -> z < Z.of_nat (length bs) ->
    padded repr zeros x n (Says ValueError (lit "Hex value is already longer than desired padded length. Hex value: " ++ hex_of bs))
| padded_not_hex : forall f e text, hexadecimal x f -> told repr x "hex" f e text -> padded repr zeros x n (Says e text)
| padded_type : forall f e text, hexadecimal x Fine -> of_type "int" (fun v => exists z, int_value v z) n f -> told repr n "integer" f e text -> padded repr zeros x n (Says e text).
(** One-byte counts. *)
Inductive count_written (repr : pyval -> pystr) (v : pyval) : answer pystr -> Prop :=
| count_given : forall n, int_value v n -> 0 <= n <= 252 -> count_written repr v (Gives (hex_of [n]))
| count_refused : forall x f e text, in_domain repr v (PInt 0) (PInt 252) x f -> told repr x "integer" f e text -> count_written repr v (Says e text).
Inductive count_read (repr : pyval -> pystr) (v : pyval) : answer Z -> Prop :=
| count_value : forall n, 0 <= n <= 252 -> v = PStr (hex_of [n]) -> count_read repr v (Gives n)
| count_long : forall n, 253 <= n <= 255 -> v = PStr (hex_of [n]) -> count_read repr v (Says ValueError [])
| count_no_byte : forall x name kind f e text, hex_with_length v (PInt 1) None (PStr (lit "hex_length_1_bytes")) x name kind f -> reported repr x name PNone kind f (Some (e, text)) ->
    count_read repr v (Says e text).

(** * Base58Check *)

(** The last four bytes, or all if there are fewer, and what is before them. *)
Definition cut_checksum (bs body tail : list Z) : Prop := bs = body ++ tail /\ (length tail = 4%nat \/ (length bs < 4)%nat /\ body = []).
(** base58check_to_hex.  A text is n times '1' and a rest that does not start with '1'. *)
Inductive decoded58 (repr : pyval -> pystr) (v : pyval) : answer pystr -> Prop :=
| decoded_type : forall t e text, (forall s, v <> PStr s) -> type_called v t -> told repr v "string" (Wrong TypeError (lit "which has type '" ++ lit t ++ lit "', not 'str'.")) e text ->
    decoded58 repr v (Says e text)
| decoded_foreign : forall s c, v = PStr s -> In c s -> ~ In c alphabet58 -> decoded58 repr v (Says ValueError (lit "substring not found"))
| decoded_empty : forall n e text, v = PStr (repeat 49 n) -> told repr (PInt 0) "positive_integer" (Wrong ValueError (lit "which is less than 1.")) e text -> decoded58 repr v (Says e text)
| decoded_checksum : forall n ds bs body tail, v = PStr (repeat 49 n ++ text58 ds) -> digits_in 58 ds -> no_lead0 ds -> ds <> [] -> bytes bs -> minimal bs -> be_val bs = val 58 ds ->
    cut_checksum bs body tail -> tail <> checksum (repeat 0 n ++ body) ->
    decoded58 repr v (Says ValueError (lit "Checksum value does not match calculated checksum." ++ paragraph
      [lit "- Input: " ++ repeat 49 n ++ text58 ds; lit "- Input hex: " ++ hex_of bs; lit "- Input hex without checksum: " ++ hex_of body;
       lit "- Input hex without checksum and with zeroes: " ++ hex_of (repeat 0 n ++ body); lit "- Checksum value     : " ++ hex_of tail;
       lit "- Calculated checksum: " ++ hex_of (checksum (repeat 0 n ++ body))]))
| decoded_fine : forall n ds bs body tail, v = PStr (repeat 49 n ++ text58 ds) -> digits_in 58 ds -> no_lead0 ds -> ds <> [] -> bytes bs -> minimal bs -> be_val bs = val 58 ds ->
    cut_checksum bs body tail -> tail = checksum (repeat 0 n ++ body) -> decoded58 repr v (Gives (hex_of (repeat 0 n ++ body))).
(** bitcoin_address_to_public_key_hash_hex: of what is decoded the first byte must be 0 (otherwise there is no text), and 20 bytes must follow. *)
Inductive address_read (repr : pyval -> pystr) (v : pyval) : answer pystr -> Prop :=
| address_undecoded : forall e text, decoded58 repr v (Says e text) -> address_read repr v (Says e text)
| address_version : forall p, decoded58 repr v (Gives (hex_of p)) -> bytes p -> hd 1 p <> 0 -> address_read repr v (Says ValueError [])
| address_length : forall p e text, decoded58 repr v (Gives (hex_of (0 :: p))) -> bytes p -> length p <> 20%nat ->
    told repr (PStr (hex_of p)) "hex_length_20_bytes" (Wrong ValueError (lit "whose length is " ++ int_str (2 * Z.of_nat (length p)) ++ lit " chars, not 40 chars.")) e text ->
    address_read repr v (Says e text)
| address_hash : forall p, decoded58 repr v (Gives (hex_of (0 :: p))) -> bytes p -> length p = 20%nat -> address_read repr v (Gives (hex_of p)).

End WithEnv.

{"id": "C01", "title": "Hex validation is exact", "statement": "validate_hex(s) returns normally exactly when s is a str of even length consisting only of 0-9a-f; otherwise it raises (TypeError for a non-str, ValueError for a bad str). validate_hex_length(s, n) additionally requires exactly 2n characters.", "quantifier": "every Python value and every length", "why_tests_cant": "The set of strings is infinite; a test samples a handful of good and bad strings.", "anchors": ["bitcoin_toolset/util/validate.py:validate_hex", "bitcoin_toolset/util/validate.py:validate_hex_length"]}
{"id": "C02", "title": "Integers survive the trip through hex", "statement": "For every int n >= 0, int_to_hex(n) is valid hex using the fewest whole bytes, and hex_to_int of it is n; for every n < 0 int_to_hex raises ValueError.", "quantifier": "every integer of any size", "why_tests_cant": "Unbounded integers: odd/even nibble counts and byte boundaries recur forever.", "anchors": ["bitcoin_toolset/code/basic.py:int_to_hex", "bitcoin_toolset/code/basic.py:hex_to_int"]}
{"id": "C03", "title": "Byte-order reversal is exact", "statement": "reverse_hex_order of a valid hex string is the hex of the same bytes in opposite order; applying it twice gives the original; invalid hex raises.", "quantifier": "every hex string", "why_tests_cant": "All lengths and contents.", "anchors": ["bitcoin_toolset/code/basic.py:reverse_hex_order"]}
{"id": "C04", "title": "Fixed-width little-endian fields are exact or rejected", "statement": "int_to_hex_le followed by pad_hex_le(n_bytes=k) yields exactly k bytes whose little-endian value is n when 0 <= n < 256^k, and raises ValueError for every other integer: no silent truncation or wrap. hex_le_to_int inverts it.", "quantifier": "every integer and every width", "why_tests_cant": "Overflow boundaries at every width and all values.", "anchors": ["bitcoin_toolset/code/basic.py:int_to_hex_le", "bitcoin_toolset/code/basic.py:pad_hex_le", "bitcoin_toolset/code/basic.py:hex_le_to_int"]}
{"id": "C05", "title": "One-byte var_int codec is a bijection on 0..252", "statement": "int_to_var_int(n) succeeds exactly for 0<=n<=252 giving one byte of value n; var_int_to_int accepts exactly the single-byte hex strings of value <= 252 and inverts it.", "quantifier": "every integer / every string", "why_tests_cant": "Requires all integers and all strings incl. non-hex ones.", "anchors": ["bitcoin_toolset/code/basic.py:int_to_var_int", "bitcoin_toolset/code/basic.py:var_int_to_int"]}
{"id": "C06", "title": "Left padding preserves the value", "statement": "pad_hex(x, k) on valid hex of at most k bytes yields exactly k bytes with the same big-endian value, and raises ValueError when x is longer than k bytes.", "quantifier": "every hex string and width", "why_tests_cant": "All lengths/values.", "anchors": ["bitcoin_toolset/code/basic.py:pad_hex"]}
{"id": "C07", "title": "Base-58 digits denote the number", "statement": "hex_to_base58(x) is the base-58 representation (Bitcoin alphabet, no leading zero digit) of the big-endian value of x, and base58_to_int maps it back to that value whenever the value is positive; base58_to_int rejects any string with a character outside the alphabet and any string of value 0.", "quantifier": "every hex string / every string", "why_tests_cant": "Arbitrary precision numbers and arbitrary strings.", "anchors": ["bitcoin_toolset/code/basic.py:hex_to_base58", "bitcoin_toolset/code/basic.py:base58_to_int"]}
{"id": "C08", "title": "Base58Check encode then decode is the identity", "statement": "For every valid hex payload x, base58check_to_hex(hex_to_base58check(x)) = x, except exactly when every byte of x is zero and the 4-byte checksum of x itself starts with a zero byte (then decoding raises ValueError).", "quantifier": "every payload of any length and every hash function producing 32 bytes", "why_tests_cant": "The failing corner depends on a hash value; no finite set of payloads rules it out.", "anchors": ["bitcoin_toolset/code/basic.py:hex_to_base58check", "bitcoin_toolset/code/basic.py:base58check_to_hex", "bitcoin_toolset/code/basic.py:count_leading_zero_bytes"]}
{"id": "C09", "title": "Base58Check decoding is canonical", "statement": "If base58check_to_hex(s) returns x then hex_to_base58check(x) returns s: two different strings never decode to the same payload, and anything accepted carries the correct checksum.", "quantifier": "every string", "why_tests_cant": "Malleability is a claim about all strings.", "anchors": ["bitcoin_toolset/code/basic.py:base58check_to_hex", "bitcoin_toolset/code/basic.py:hex_to_base58check"]}
{"id": "C10", "title": "Address validation accepts exactly the P2PKH mainnet addresses", "statement": "validate_bitcoin_address(s) returns normally exactly when s is the Base58Check encoding of byte 00 followed by some 20-byte hash; bitcoin_address_to_public_key_hash_hex then returns that hash; non-strings raise TypeError and all other strings ValueError.", "quantifier": "every Python value", "why_tests_cant": "The accepted set is 2^160 strings inside an infinite space.", "anchors": ["bitcoin_toolset/code/basic.py:validate_bitcoin_address", "bitcoin_toolset/code/basic.py:bitcoin_address_to_public_key_hash_hex"]}
{"id": "C11", "title": "Address and hash/script conversions are mutually inverse", "statement": "public_key_hash_hex_to_address and bitcoin_address_to_public_key_hash_hex invert each other; address_to_script_pub_key yields 76a914<hash>88ac with length byte 19; script_pub_key_to_address of that script returns the same address.", "quantifier": "every 20-byte hash and every valid address", "why_tests_cant": "2^160 values.", "anchors": ["bitcoin_toolset/code/basic.py:public_key_hash_hex_to_address", "bitcoin_toolset/code/basic.py:address_to_script_pub_key", "bitcoin_toolset/code/basic.py:script_pub_key_to_address", "bitcoin_toolset/code/basic.py:public_key_hash_hex_to_script_pub_key"]}
{"id": "C12", "title": "Decoded output addresses are only meaningful for P2PKH scripts", "statement": "script_pub_key_to_address returns the address of bytes 3..-2 of whatever script it is given without checking the opcodes: for every 20-byte hash h and every 3-byte prefix and 2-byte suffix the reported address is that of h, so a decoded transaction can display a P2PKH address for an output that is not P2PKH (naive claim 'displayed address implies P2PKH script' is refuted).", "quantifier": "every script", "why_tests_cant": "Concerns scripts no test contains.", "anchors": ["bitcoin_toolset/code/basic.py:script_pub_key_to_address", "bitcoin_toolset/code/transaction.py:Transaction.from_hex_signed"]}
{"id": "C13", "title": "WIF round trip, and the missing version check", "statement": "private_key_wif_to_hex(private_key_hex_to_wif(k)) returns the 32-byte padded form of k for every key the ECDSA library validates; but private_key_wif_to_hex accepts any version byte (naive claim 'only 0x80 is accepted' is refuted).", "quantifier": "every private key / every string", "why_tests_cant": "All keys; all version bytes.", "anchors": ["bitcoin_toolset/code/basic.py:private_key_hex_to_wif", "bitcoin_toolset/code/basic.py:private_key_wif_to_hex"]}
{"id": "C14", "title": "satoshi_to_bitcoin is exact", "statement": "satoshi_to_bitcoin(n) succeeds exactly for 0 <= n <= 21e14 and returns the decimal numeral with exactly 8 decimals and no superfluous leading zero whose value times 10^8 is n.", "quantifier": "every integer", "why_tests_cant": "2.1e15 values; floating point would break only some.", "anchors": ["bitcoin_toolset/code/basic.py:satoshi_to_bitcoin"]}
{"id": "C15", "title": "bitcoin_to_satoshi is exact", "statement": "Whenever bitcoin_to_satoshi(s) returns n, s is a decimal numeral with at most 8 decimals, n is exactly its value times 10^8, and n <= 21e14; it returns for every such non-zero ASCII numeral; it raises ValueError for every all-'0' numeral and every other string. No float rounding influences the outcome although validation compares floats.", "quantifier": "every string", "why_tests_cant": "Float comparison at the 21-million boundary is exact only by an argument about all inputs.", "anchors": ["bitcoin_toolset/code/basic.py:bitcoin_to_satoshi", "bitcoin_toolset/code/basic.py:validate_bitcoin_amount"]}
{"id": "C16", "title": "Amount round trips", "statement": "bitcoin_to_satoshi(satoshi_to_bitcoin(n)) = n for every 1 <= n <= 21e14, and raises ValueError for n = 0 (naive 'for all valid n' refuted); satoshi_to_bitcoin(bitcoin_to_satoshi(s)) has the same numeric value as s, and bitcoin_to_satoshi is unchanged by ensure_8_decimal_places.", "quantifier": "every amount", "why_tests_cant": "2.1e15 values.", "anchors": ["bitcoin_toolset/code/basic.py:bitcoin_to_satoshi", "bitcoin_toolset/code/basic.py:satoshi_to_bitcoin", "bitcoin_toolset/code/basic.py:ensure_8_decimal_places"]}
{"id": "C17", "title": "Amount validation accepts exactly well-formed in-range amounts", "statement": "validate_bitcoin_amount(s) accepts an ASCII string exactly when it has at most one '.', at least one digit, otherwise only digits, at most 8 decimals and value <= 21,000,000 exactly (although the comparison is done in floating point). validate_positive_bitcoin_amount additionally rejects exactly the zero numerals among ASCII strings, but a numeral of non-ASCII decimal zeros is accepted (naive claim refuted).", "quantifier": "every string over any Unicode database", "why_tests_cant": "Boundary between floats and decimals; Unicode digits.", "anchors": ["bitcoin_toolset/code/basic.py:validate_bitcoin_amount", "bitcoin_toolset/code/basic.py:validate_positive_bitcoin_amount"]}
{"id": "C18", "title": "scriptSig build / parse round trip", "statement": "For every signature of at most 184 bytes (185 with the appended 01) and every 64-byte public key, the built scriptSig is the two pushes, the returned script_length is the one-byte length of the script, and script_sig_to_signature_hex_and_public_key_hex of it returns exactly that signature (without 01) and that key; longer signatures raise ValueError. The parser accepts exactly the scripts consisting of a push ending in 01 and a push starting with 04 (bytes after that are ignored: naive uniqueness refuted), and raises ValueError on every other string.", "quantifier": "every signature/public key", "why_tests_cant": "All lengths and contents.", "anchors": ["bitcoin_toolset/code/basic.py:signature_hex_and_public_key_hex_to_script_sig", "bitcoin_toolset/code/basic.py:script_sig_to_signature_hex_and_public_key_hex"]}
{"id": "C19", "title": "DER wrapping preserves signatures", "statement": "signature_from_der(signature_to_der(sig)) = sig for every 64-byte signature, given that the DER codec of the ECDSA submodule decodes what it encodes.", "quantifier": "every 64-byte signature", "why_tests_cant": "2^512 values incl. leading zero bytes.", "anchors": ["bitcoin_toolset/code/basic.py:signature_from_der", "bitcoin_toolset/code/basic.py:signature_to_der"]}
{"id": "C20", "title": "Signed serialisation is the Bitcoin wire format", "statement": "to_hex_signed_form of a fully signed well-formed transaction is the hex of: version 1, input count, per input (outpoint hash, little-endian index, script length, script, ffffffff), output count, per output (8-byte little-endian value, script length, script), lock time 0 - nothing more, nothing reordered.", "quantifier": "every transaction with any number (<=252) of inputs/outputs", "why_tests_cant": "All shapes and values.", "anchors": ["bitcoin_toolset/code/transaction.py:Transaction.to_hex_signed_form", "bitcoin_toolset/code/transaction.py:Transaction.to_dict_signed_form", "bitcoin_toolset/code/transaction_input.py:TransactionInput.to_dict_signed_form", "bitcoin_toolset/code/transaction_output.py:TransactionOutput.to_dict_signed_form"]}
{"id": "C21", "title": "Decoding a serialised transaction recovers it", "statement": "from_hex_signed(to_hex_signed_form(tx)) succeeds for every well-formed signed standard transaction and agrees with tx on every serialised field, on txids, indices, public keys, addresses, values; input amounts are unknown (None).", "quantifier": "every well-formed signed transaction", "why_tests_cant": "All shapes.", "anchors": ["bitcoin_toolset/code/transaction.py:Transaction.from_hex_signed", "bitcoin_toolset/code/transaction.py:Transaction.to_hex_signed_form"]}
{"id": "C22", "title": "Decoded transactions re-serialise to what was read", "statement": "If from_hex_signed(s) returns t then to_hex_signed_form(t) is a prefix of s; trailing bytes are silently ignored (naive equality refuted).", "quantifier": "every string", "why_tests_cant": "Parser claim over all strings.", "anchors": ["bitcoin_toolset/code/transaction.py:Transaction.from_hex_signed"]}
{"id": "C23", "title": "Truncated transactions are rejected", "statement": "No proper prefix of a serialised transaction is accepted by from_hex_signed; and wrong version, sequence or lock time raise.", "quantifier": "every transaction and cut point", "why_tests_cant": "Every cut point of every transaction.", "anchors": ["bitcoin_toolset/code/transaction.py:Transaction.from_hex_signed"]}
{"id": "C24", "title": "What is signed (sighash preimage)", "statement": "to_hex_signable_form(i) is version, count, every outpoint with an empty script except input i which carries the scriptPubKey of its address, sequence, all outputs, lock time and 01000000; it does not depend on any scriptSig or public key already stored in the transaction.", "quantifier": "every transaction and index", "why_tests_cant": "All shapes, all partial signing states.", "anchors": ["bitcoin_toolset/code/transaction.py:Transaction.to_hex_signable_form", "bitcoin_toolset/code/transaction.py:Transaction.to_dict_signable_form"]}
{"id": "C25", "title": "Signing then verifying always succeeds", "statement": "If sign(keys) succeeds on a well-formed transaction then verify() returns 0 invalid signatures, given ECDSA sign/verify correctness of the submodule.", "quantifier": "every transaction, key list, nonce list", "why_tests_cant": "All histories of partial signing; all keys.", "anchors": ["bitcoin_toolset/code/transaction.py:Transaction.sign", "bitcoin_toolset/code/transaction.py:Transaction.verify"]}
{"id": "C26", "title": "Signing changes only the signature fields", "statement": "sign leaves the outputs, the outpoints, amounts, addresses, scriptPubKeys and counts of the transaction unchanged, whether it succeeds or fails; after success every input is signed with the key whose address is the input's address.", "quantifier": "every transaction and key list, including failing runs", "why_tests_cant": "All failure points.", "anchors": ["bitcoin_toolset/code/transaction.py:Transaction.sign"]}
{"id": "C27", "title": "Signing requires a key for every input", "statement": "sign raises ValueError exactly at the first input whose address is not among the addresses of the supplied keys, inputs before it have been signed (partial effect), inputs after it are untouched.", "quantifier": "every transaction and key list", "why_tests_cant": "All failure points.", "anchors": ["bitcoin_toolset/code/transaction.py:Transaction.sign"]}
{"id": "C28", "title": "Supplied nonces are never reused", "statement": "sign with random_values_hex raises ValueError when two supplied values are equal or when their number differs from the number of keys; when it succeeds, distinct inputs were signed with distinct supplied values.", "quantifier": "every list of nonces", "why_tests_cant": "All lists.", "anchors": ["bitcoin_toolset/code/transaction.py:Transaction.sign"]}
{"id": "C29", "title": "verify() counts the invalid signatures", "statement": "verify() returns the number of inputs whose signature does not verify against that input's own signable form under the public key in its scriptSig; it raises ValueError if any input has no scriptSig; result 0 iff every signature is valid.", "quantifier": "every transaction", "why_tests_cant": "All inputs/outcomes of the signature oracle.", "anchors": ["bitcoin_toolset/code/transaction.py:Transaction.verify", "bitcoin_toolset/code/transaction.py:Transaction.verify_signature_for_one_input"]}
{"id": "C30", "title": "verify() on JSON-loaded transactions does not bind key to address", "statement": "For transactions loaded by from_hex_signed the scriptPubKey signed over is the hash of the public key in the scriptSig; for transactions loaded by from_json nothing ties the public key to the input address or scriptPubKey (naive claim 'verify()=0 implies the key owns the input address' refuted).", "quantifier": "every JSON document", "why_tests_cant": "Adversarial documents are not in the tests.", "anchors": ["bitcoin_toolset/code/transaction.py:Transaction.verify", "bitcoin_toolset/code/transaction.py:Transaction.from_json", "bitcoin_toolset/code/transaction_input.py:TransactionInput.from_dict"]}
{"id": "C31", "title": "txid is defined by the signed bytes", "statement": "calculate_txid raises ValueError unless every input is signed; otherwise it is the byte-reversed double SHA-256 of the signed serialisation, 32 bytes of hex.", "quantifier": "every transaction", "why_tests_cant": "All transactions.", "anchors": ["bitcoin_toolset/code/transaction.py:Transaction.calculate_txid"]}
{"id": "C32", "title": "JSON round trip", "statement": "from_json(to_json(tx)) succeeds for every transaction produced by create_transaction, signed or not, with positive amounts, and returns the same transaction except that public_key_hex and change_address are forgotten (naive identity refuted).", "quantifier": "every transaction", "why_tests_cant": "All shapes, signed and unsigned.", "anchors": ["bitcoin_toolset/code/transaction.py:Transaction.to_json", "bitcoin_toolset/code/transaction.py:Transaction.from_json", "bitcoin_toolset/code/transaction.py:Transaction.to_dict", "bitcoin_toolset/code/transaction_input.py:TransactionInput.from_dict", "bitcoin_toolset/code/transaction_output.py:TransactionOutput.from_dict"]}
{"id": "C33", "title": "from_json only accepts consistent documents", "statement": "Whenever from_json returns t: counts match the lists; every output's value, amount strings, address and script agree with each other; every input's txid/hash and index/index_int and amount strings agree; total output <= total input (so the fee is non-negative); script lengths match scripts.", "quantifier": "every JSON document", "why_tests_cant": "Adversarial documents.", "anchors": ["bitcoin_toolset/code/transaction.py:Transaction.from_json", "bitcoin_toolset/code/transaction_input.py:TransactionInput.from_dict", "bitcoin_toolset/code/transaction_output.py:TransactionOutput.from_dict"]}
{"id": "C34", "title": "from_json does not check version or input script", "statement": "from_json ignores the document's version and does not compare an input's script_pub_key with its address (naive claim refuted by witness).", "quantifier": "every JSON document", "why_tests_cant": "Adversarial documents.", "anchors": ["bitcoin_toolset/code/transaction.py:Transaction.from_json", "bitcoin_toolset/code/transaction_input.py:TransactionInput.from_dict"]}
{"id": "C35", "title": "Value conservation", "statement": "Whenever create_transaction returns tx: total_input(tx) = total_output(tx) + fee and tx.fee equals the designed fee (or the fee computed from the rate); no satoshi is lost or created.", "quantifier": "every inputs list and design", "why_tests_cant": "All combinations of amounts, selection and change cases.", "anchors": ["bitcoin_toolset/code/create_transaction.py:create_transaction"]}
{"id": "C36", "title": "Fee limit", "statement": "Whenever create_transaction returns tx, tx.fee <= max_fee; a design whose fee exceeds max_fee never yields a transaction.", "quantifier": "every design", "why_tests_cant": "All designs.", "anchors": ["bitcoin_toolset/code/create_transaction.py:create_transaction"]}
{"id": "C37", "title": "Designed payments are made exactly, change goes to the change address", "statement": "The outputs of the returned transaction are the designed outputs in order with their exact amounts, except that any surplus is added to exactly one output paying the change address - an existing one (the only one, or the change_output_index-th among them), or a new one inserted first.", "quantifier": "every design", "why_tests_cant": "All combinations.", "anchors": ["bitcoin_toolset/code/create_transaction.py:create_transaction"]}
{"id": "C38", "title": "Input selection", "statement": "The selected inputs are an initial segment of the available inputs sorted stably by amount (descending for largest_first/all, ascending for smallest_first); 'all' selects every input; otherwise selection stops at the first input that reaches the target: dropping the last one would not cover outputs + fee (unless all inputs match the target exactly).", "quantifier": "every inputs list", "why_tests_cant": "All lists, ties and totals.", "anchors": ["bitcoin_toolset/code/create_transaction.py:create_transaction"]}
{"id": "C39", "title": "largest_first uses the fewest possible inputs", "statement": "With largest_first and a strict surplus overall, no other sub-multiset of the available inputs with fewer elements covers outputs + fee.", "quantifier": "every inputs list", "why_tests_cant": "Exponential set of subsets.", "anchors": ["bitcoin_toolset/code/create_transaction.py:create_transaction"]}
{"id": "C40", "title": "Shortfall errors are exact", "statement": "Given arguments that pass the earlier checks: total input < total output raises OutputValueNotCovered, otherwise total input < total output + fee raises OutputAndFeeValueNotCovered, and when funds suffice neither is raised.", "quantifier": "every design", "why_tests_cant": "All amounts.", "anchors": ["bitcoin_toolset/code/create_transaction.py:create_transaction"]}
{"id": "C41", "title": "Duplicate output addresses are refused unless allowed", "statement": "Unless allow_duplicate_output_address is True, a returned transaction's designed outputs have pairwise distinct addresses, and a design with two equal output addresses raises DuplicateOutputAddressError once it is well-formed.", "quantifier": "every design", "why_tests_cant": "All designs.", "anchors": ["bitcoin_toolset/code/create_transaction.py:create_transaction"]}
{"id": "C42", "title": "Spending limit", "statement": "Whenever create_transaction returns tx, fee + value sent to addresses other than the change address is at most ceil(max_spend_percentage% of the total available input) computed in floating point, which exceeds the exact percentage by less than 1 satoshi plus a relative 2^-51.", "quantifier": "every design", "why_tests_cant": "Float rounding over all percentages and amounts.", "anchors": ["bitcoin_toolset/code/create_transaction.py:create_transaction"]}
{"id": "C43", "title": "max_spend_percentage range check truncates", "statement": "validate_design accepts percentages p with -1 < p < 101 (int() truncation), so limits above 100% and negative ones pass validation (naive 'accepts exactly 0..100' refuted).", "quantifier": "every percentage string", "why_tests_cant": "Boundary.", "anchors": ["bitcoin_toolset/code/create_transaction.py:validate_design"]}
{"id": "C44", "title": "Zero fee is not usable and fee/fee_rate exclusivity is leaky", "statement": "A design with integer fee 0 and no fee_rate never yields a transaction (TypeError after validation); a design with fee 0 and a fee_rate is accepted and uses the rate although both keys are present; both truthy -> ValueError; neither -> ValueError.", "quantifier": "every design", "why_tests_cant": "All designs.", "anchors": ["bitcoin_toolset/code/create_transaction.py:create_transaction", "bitcoin_toolset/code/create_transaction.py:validate_design"]}
{"id": "C45", "title": "Fee from a rate", "statement": "With an integer fee_rate r the fee is exactly r times the estimated size of a transaction spending all available inputs to the designed outputs; with a decimal rate the fee is within the stated float error of the exact product rounded up (naive 'equals ceil(rate*size)' refuted).", "quantifier": "every rate and size", "why_tests_cant": "Float rounding over all rates.", "anchors": ["bitcoin_toolset/code/create_transaction.py:create_transaction", "bitcoin_toolset/code/basic.py:estimate_transaction_size"]}
{"id": "C46", "title": "The rate is applied to the wrong transaction shape", "statement": "The estimate used for the fee counts all available inputs rather than the selected ones and never counts an added change output: witnesses show the paid rate can be below or above the requested rate.", "quantifier": "every design", "why_tests_cant": "Needs shape combinations.", "anchors": ["bitcoin_toolset/code/create_transaction.py:create_transaction"]}
{"id": "C47", "title": "create_transaction consumes its arguments", "statement": "create_transaction mutates the supplied dicts: after any run that got past amount conversion, calling it again with the same argument object and a non-empty input list raises ValueError and never returns a transaction.", "quantifier": "every argument object and history of two calls", "why_tests_cant": "History property.", "anchors": ["bitcoin_toolset/code/create_transaction.py:create_transaction", "bitcoin_toolset/code/create_transaction.py:validate_inputs"]}
{"id": "C48", "title": "Duplicate outpoints are not detected", "statement": "create_transaction can return a transaction spending the same outpoint twice (refutes 'inputs of a created transaction are distinct'); if the available inputs have distinct outpoints so do the selected ones.", "quantifier": "every inputs list", "why_tests_cant": "All lists.", "anchors": ["bitcoin_toolset/code/create_transaction.py:create_transaction", "bitcoin_toolset/code/create_transaction.py:validate_inputs"]}
{"id": "C49", "title": "End-to-end task is safe", "statement": "The create_transaction task prints a hex string only after it re-decoded and verified; for well-formed arguments and keys covering the selected inputs it does print, and the printed transaction spends exactly the selected outpoints and pays exactly the created outputs.", "quantifier": "every argument/keys", "why_tests_cant": "Whole pipeline over all inputs.", "anchors": ["cli.py:create_sign_and_verify_transaction_hex"]}
{"id": "C50", "title": "create_signed_transaction_hex always fails", "statement": "The create_signed_transaction_hex task never terminates normally: it raises NameError after printing the hex even when all signatures are valid, and prints the hex even when they are invalid (refutes the documented behaviour).", "quantifier": "every document", "why_tests_cant": "All documents.", "anchors": ["cli.py:create_signed_transaction_hex"]}
{"id": "C51", "title": "Actual size vs estimate", "statement": "For a signed transaction whose outputs are P2PKH, serialised size = estimate + sum over inputs of (scriptSig length - 138).", "quantifier": "every transaction", "why_tests_cant": "All shapes.", "anchors": ["bitcoin_toolset/code/basic.py:estimate_transaction_size", "bitcoin_toolset/code/transaction.py:Transaction.to_hex_signed_form"]}
{"id": "C52", "title": "The documented selection key is ignored", "statement": "A design's 'input_selection_approach' entry (README spelling) has no influence on the result of create_transaction; only 'input_selection_approaches' does.", "quantifier": "every design", "why_tests_cant": "Non-interference over all designs.", "anchors": ["bitcoin_toolset/code/create_transaction.py:create_transaction"]}
{"id": "C53", "title": "String validators", "statement": "validate_string_is_whole_number / positive_integer / decimal / printable_ascii / date accept exactly the stated character classes; the empty string and '00' are accepted as positive integers, and a date followed by a newline is accepted (naive claims refuted).", "quantifier": "every string", "why_tests_cant": "All strings.", "anchors": ["bitcoin_toolset/util/validate.py:validate_string_is_whole_number", "bitcoin_toolset/util/validate.py:validate_string_is_positive_integer", "bitcoin_toolset/util/validate.py:validate_string_is_decimal", "bitcoin_toolset/util/validate.py:validate_string_is_printable_ascii", "bitcoin_toolset/util/validate.py:validate_string_is_date"]}
{"id": "C54", "title": "Numeric validators", "statement": "validate_integer_domain accepts exactly min<=n<=max; validate_whole_number/positive_integer accept exactly ints >=0 / >=1 (plus False and 0.0 for whole_number: naive claim refuted).", "quantifier": "every value", "why_tests_cant": "All values.", "anchors": ["bitcoin_toolset/util/validate.py:validate_integer_domain", "bitcoin_toolset/util/validate.py:validate_whole_number", "bitcoin_toolset/util/validate.py:validate_positive_integer"]}
{"id": "C55", "title": "sign_data / verify_data_signature agree", "statement": "For printable ASCII data the signature printed by sign_data makes verify_data_signature print 'Valid signature.' for the corresponding public key; non-printable data is rejected before any signing.", "quantifier": "every data string and key", "why_tests_cant": "All data.", "anchors": ["cli.py:sign_data", "cli.py:verify_data_signature"]}
{"id": "C56", "title": "Logger configuration is set once, by the first successful call", "statement": "Once a configure call on a module logger succeeds, no later call changes its level, handlers or formatting; a fresh logger that is configured successfully has exactly the console handler and, if a directory was given, one file handler, at the requested level. A call that fails while creating the log directory leaves its console handler behind, so calling again after such a failure does duplicate console output (the naive 'at most one console handler' claim is refuted).", "quantifier": "every sequence of setup calls", "why_tests_cant": "Histories.", "anchors": ["bitcoin_toolset/util/module_logger.py:configure_module_logger"]}
{"id": "C57", "title": "Reported JSON totals are the transaction's", "statement": "to_dict of a created transaction reports total_input, total_output, fee, change and estimated size equal to the real sums, with bitcoin strings denoting the same amounts.", "quantifier": "every transaction", "why_tests_cant": "All transactions.", "anchors": ["bitcoin_toolset/code/transaction.py:Transaction.to_dict"]}
{"id": "C58", "title": "Decimal validation with a fixed number of places", "statement": "validate_string_is_decimal(s, dp=n) accepts exactly the strings made of digits, one dot and n digits (as its regular expression matches them), and otherwise raises; each kind of bad argument raises its own error class.", "quantifier": "every string and every dp", "why_tests_cant": "All strings and all dp values.", "anchors": ["bitcoin_toolset/util/validate.py:validate_string_is_decimal"]}
{"id": "C59", "title": "List validators decide inclusion, membership and permutation", "statement": "validate_list_contains_items(input, items) succeeds iff every one of the items is in the input; validate_item_in_list(x, l) succeeds iff x is in l; validate_lists_are_identical(a, b) succeeds iff b is a permutation of a; each raises ValueError otherwise.", "quantifier": "every pair of lists of strings", "why_tests_cant": "Unbounded lists.", "anchors": ["bitcoin_toolset/util/validate.py"]}
{"id": "C60", "title": "Package setup configures every module logger alike or stops at the first failure", "statement": "setup(...) gives every submodule logger the requested level and handlers; if configuration of one fails, the earlier ones are configured, the later ones untouched and the exception is reported.", "quantifier": "every level, every directory, every failing position", "why_tests_cant": "All failure points.", "anchors": ["bitcoin_toolset/__init__.py:setup", "bitcoin_toolset/util/module_logger.py:configure_module_logger"]}
{"id": "C61", "title": "A record is emitted exactly when its level is high enough", "statement": "A record at some level appears on the console iff the level is at least the level configured; setLevelStr changes the logger level but not the level of the handlers already attached, so lowering it does not reveal records.", "quantifier": "every level and record", "why_tests_cant": "All combinations and histories.", "anchors": ["bitcoin_toolset/util/module_logger.py"]}
{"id": "C62", "title": "The step-by-step command-line workflow gives the same transaction", "statement": "Whenever create_transaction prints a hex transaction, the separate tasks (create_unsigned_transaction_json, validate_unsigned_transaction_json, create_signed_transaction_json, verify_signed_transaction_json, create_signed_transaction_hex) print, from the same files and keys, a document that validates, a signed document that verifies, and the same hex; verify_ and decode_signed_transaction_hex accept that hex with any white space around it.", "quantifier": "every inputs file, design file and set of keys for which create_transaction succeeds", "why_tests_cant": "Equality of two pipelines over all inputs and keys.", "anchors": ["cli.py:create_sign_and_verify_transaction_hex", "cli.py:create_unsigned_transaction_json", "cli.py:create_signed_transaction_json", "cli.py:create_signed_transaction_hex", "cli.py:decode_signed_transaction_hex"]}
{"id": "C63", "title": "The command line runs the named task or refuses before doing anything", "statement": "A task that uses a private key runs only with exactly one key (AssertionError otherwise); sign_data and validate_unsigned_transaction_json need non-empty data, transaction creation needs both files and both must be JSON; any name that is not a task prints a message and exits; otherwise exactly the named task runs with the given arguments, keys read from files being stripped of surrounding white space.", "quantifier": "every combination of arguments", "why_tests_cant": "All names and argument combinations.", "anchors": ["cli.py:main"]}
{"id": "C64", "title": "Key tasks print the public key, address and WIF of the key", "statement": "For a valid private key get_public_key, get_address and get_private_key_wif print its public key, the address of that public key and a WIF that private_key_wif_to_hex turns back into the key; for an invalid key nothing is printed and the task fails.", "quantifier": "every private key", "why_tests_cant": "All keys.", "anchors": ["cli.py:get_private_key_wif", "cli.py:private_key_wif_to_hex", "cli.py:get_public_key", "cli.py:get_address"]}
{"id": "C65", "title": "get_python_version reports only what the shell reported successfully", "statement": "get_python_version succeeds iff both shell commands exit with 0, write nothing to stderr and only ASCII to stdout, and then prints the stripped output of 'python3 --version'; what a failing command wrote to stderr is printed with the command before the program ends; a tool name with a space is refused before any command runs.", "quantifier": "every shell behaviour", "why_tests_cant": "The shell's behaviour is arbitrary.", "anchors": ["cli.py:get_python_version", "bitcoin_toolset/util/misc.py:shell_tool_exists", "bitcoin_toolset/util/misc.py:run_local_cmd"]}
{"id": "C66", "title": "Argument checks of signature verification", "statement": "verify_signature refuses (ValueError) anything but a 64-byte hex public key, hex data and a 64-byte hex signature, and otherwise returns the library's verdict; verify_signature_digest checks the public key, requires the digest to be hex (AttributeError otherwise, because 64 is passed as the name) but not that it is 32 bytes, and does not check the signature at all.", "quantifier": "every triple of strings", "why_tests_cant": "All strings.", "anchors": ["bitcoin_toolset/code/basic.py:verify_signature", "bitcoin_toolset/code/basic.py:verify_signature_digest"]}
{"id": "C67", "title": "The dictionary and JSON forms carry exactly the bytes that are hashed, signed and published", "statement": "The hex signed form and the hex signable form are the concatenation, in document order, of all strings in the dictionary form; they exist iff no value in it is null (TypeError otherwise). Reading back the JSON signed form gives a document whose strings are the transaction bytes, and the JSON signable form for input k gives the bytes hashed for input k.", "quantifier": "every transaction object; for the JSON part every transaction with well-formed inputs and outputs, every input index", "why_tests_cant": "All transactions and input indices.", "anchors": ["bitcoin_toolset/code/transaction.py:Transaction.to_dict_signable_form", "bitcoin_toolset/code/transaction.py:Transaction.to_json_signable_form", "bitcoin_toolset/code/transaction.py:Transaction.to_dict_signed_form", "bitcoin_toolset/code/transaction.py:Transaction.to_json_signed_form", "bitcoin_toolset/code/transaction_input.py:TransactionInput.to_dict_signed_form"]}
{"id": "C68", "title": "str() describes transactions, inputs and outputs truthfully", "statement": "str(transaction) states the numbers of inputs and outputs and says '(signed)' iff every input has a signature script; a created transaction is described as unsigned, a decoded or successfully signed one as signed. str(input) shows the address, the first and last two bytes of the txid, the output index and the worth; str(output) the address and the value in satoshi.", "quantifier": "every transaction, input and output; every create, decode and sign call", "why_tests_cant": "All objects.", "anchors": ["bitcoin_toolset/code/transaction.py:Transaction.__str__", "bitcoin_toolset/code/transaction_input.py:TransactionInput.__str__", "bitcoin_toolset/code/transaction_output.py:TransactionOutput.__str__"]}
{"id": "C69", "title": "Each malformed argument to create_transaction is refused with the exception of the first check it fails", "statement": "create_transaction makes a fixed sequence of checks on its argument object (which keys are present, their types, that numbers can be read, that addresses, transaction ids and amounts are valid, that fee and fee rate are not both given, that the selection approach is known and implemented, that indices fit in four bytes). If a check fails, the exception raised is the one belonging to the first check that fails. An argument object passes them all exactly if it describes a well-formed order. A fee of True is always refused.", "quantifier": "every argument object: every combination of values of every type under every key", "why_tests_cant": "Infinitely many malformed objects, with several faults at a time.", "anchors": ["bitcoin_toolset/code/create_transaction.py:create_transaction", "bitcoin_toolset/code/create_transaction.py:validate_inputs", "bitcoin_toolset/code/create_transaction.py:validate_design", "bitcoin_toolset/util/validate.py"]}
{"id": "C70", "title": "A well-formed order that cannot be met is refused with the exception of the first check it fails", "statement": "For a well-formed order (whose indices fit in four bytes and whose max_spend_percentage is a double) create_transaction checks in a fixed order: the sums per address, duplicate output addresses, the counts of inputs and outputs, the fee, the totals, that inputs cover outputs, and outputs plus fee, that the change can be placed, the spend limit, the number of outputs. It raises e iff the first failing check has the exception e, and returns a transaction iff none fails.", "quantifier": "every well-formed order", "why_tests_cant": "All amounts, counts, rates and percentages, several faults at a time.", "anchors": ["bitcoin_toolset/code/create_transaction.py:create_transaction", "bitcoin_toolset/code/create_transaction.py:validate_inputs", "bitcoin_toolset/code/create_transaction.py:validate_design", "bitcoin_toolset/util/validate.py"]}
{"id": "C71", "title": "create_transaction raises nothing else", "statement": "If create_transaction raises e (and the fee is not True), then either the first failing argument check has exception e, or the argument object describes a well-formed order whose first failing order check has exception e; and conversely.", "quantifier": "every argument object in which floats are doubles, every exception", "why_tests_cant": "Absence of further exceptions over all inputs.", "anchors": ["bitcoin_toolset/code/create_transaction.py:create_transaction", "bitcoin_toolset/code/create_transaction.py:validate_inputs", "bitcoin_toolset/code/create_transaction.py:validate_design", "bitcoin_toolset/util/validate.py"]}
{"id": "C72", "title": "Error messages say what was wrong and where", "statement": "Building an error message never fails; it states, each only if given and in this order, the location, the variable (its first word quoted), the expected kind, the value received and the reason, with a capital first letter. validate_hex names exactly the positions, in increasing order, and the characters that are not hex digits; validate_string_is_printable_ascii names the line, the position in the line and the code of the first character that is not printable.", "quantifier": "every value, name, location, kind and text", "why_tests_cant": "All texts, with faults at all sets of positions.", "anchors": ["bitcoin_toolset/util/validate.py:build_error_msg", "bitcoin_toolset/util/validate.py:validate_hex", "bitcoin_toolset/util/validate.py:validate_string_is_printable_ascii"]}
{"id": "C73", "title": "What the verify, decode and sign tasks print is exactly the truth about the document", "statement": "verify_signed_transaction_hex says Valid iff the stripped input is the hex image of a wire-format transaction in which, for every input, the script is one signature and one public key and that signature verifies against the message defined by the format; it never prints when it fails. decode_signed_transaction_hex prints the decoded document for every wire-format transaction with well-formed scripts and fails afterwards iff some signature is invalid; anything else prints nothing. A transaction without inputs counts as valid. verify_signed_transaction_json gives the verdict of the transaction it loads. create_signed_transaction_json succeeds iff every key is valid and every input's address is controlled by one of them, and what it prints verifies.", "quantifier": "every text given as data, every list of keys", "why_tests_cant": "All texts, all numbers of inputs and outputs, all signatures.", "anchors": ["bitcoin_toolset/cli.py:verify_signed_transaction_hex", "bitcoin_toolset/cli.py:decode_signed_transaction_hex", "bitcoin_toolset/cli.py:create_signed_transaction_json", "bitcoin_toolset/code/transaction.py:verify"]}
{"id": "C74", "title": "The command line reads exactly the files it needs, in order, and acts on their contents", "statement": "If every needed file can be read, running the command line has the effect of the same command with contents in place of file names (keys stripped, --data-file overriding --data, the .txt files of the key directory in listing order), whatever the log settings. The first unreadable file, in the order data file, key files, key directory and its files, then (only for tasks that build a transaction) input file, design file, makes it fail with that error and print nothing. A log directory that cannot be made stops it before anything is printed. No other file influences the outcome.", "quantifier": "every parsed command line, every file system, every state of the loggers", "why_tests_cant": "All combinations of options and of readable and unreadable files.", "anchors": ["cli.py:main", "cli.py:setup"]}
{"id": "C75", "title": "Only what is asked for counts: spelling and listing order do not", "statement": "Two argument objects that ask for the same transaction in different spellings (numbers as int or str, order of dictionary keys, options missing or None) give the same transaction or are both refused. If the available inputs are listed in another order, creation succeeds iff it did before, with the same payments, change, fee and amounts spent, and refuses with the same exception; if no two available inputs have the same amount the transaction is identical. With equal amounts the listing order decides which one is spent.", "quantifier": "every pair of requests, every permutation of the available inputs, all keys and hash functions", "why_tests_cant": "A relation between two runs, for every request and every permutation.", "anchors": ["bitcoin_toolset/code/create_transaction.py:create_transaction"]}
{"id": "C76", "title": "Signing does not depend on how the keys are listed or on what was signed before", "statement": "The order of the private keys, repeated keys and further keys that control no input make no difference to the outcome and the resulting transaction (when nonces are given, for lists of the same length). If signing succeeds, then signing a transaction that differs from it only in public keys and scriptSigs gives the same result; in particular signing again changes nothing.", "quantifier": "every transaction, every two lists of keys that agree on the keys of its inputs, every previous state of its signatures", "why_tests_cant": "A relation between two runs, for every list of keys and every transaction.", "anchors": ["bitcoin_toolset/code/transaction.py:sign"]}
{"id": "C77", "title": "The command line: exactly the documented forms are accepted, and mean what they say", "statement": "A list of words is accepted iff it is a sequence of options, each written in one of the documented ways (long name or unambiguous abbreviation, value after '=' or as next word(s), letters, bundled letters), and the options go together (no two sources of keys, no two sources of data, an existing log level, no help). The result is then the defaults changed by the options: last value for single options, all values in order for key lists. Everything else exits: help with status 0 iff the options before it go together, otherwise status 2 (or a ValueError/IndexError), depending on the words only: no file is read, nothing is signed, nothing but usage is printed.", "quantifier": "every list of words, every file system, shell and logger state", "why_tests_cant": "Infinitely many command lines: abbreviations, bundling, repeated and conflicting options in every order.", "anchors": ["cli.py:argparse options", "cli.py:main"]}
{"id": "C78", "title": "Order of options, arbitrary values, no stray words", "statement": "The order of different options makes no difference. Any text except '--' can be given as a value with '=' and the last value wins; as the next word a text that begins like an option is not taken as a value. Words that are neither options nor values, and '--', are never accepted. At most one source of keys and one of data gets through. The README commands are read as documented for all file names that do not begin with a dash.", "quantifier": "every pair of command lines, every option, every value", "why_tests_cant": "A relation between all pairs of command lines and all values.", "anchors": ["cli.py:argparse options", "README.md"]}
{"id": "C79", "title": "JSON texts are read and written exactly as the grammar says", "statement": "Reading a text succeeds with value v iff the text is a JSON document with value v (RFC 8259 plus NaN/Infinity; each key once, in first position, with its last value); every other text is a ValueError; a text has at most one value. Writing a value (no floats, no string with a split surrogate pair) gives exactly its two-space-indented layout, in printable ASCII and line feeds; the text is read back as the same value and different values have different texts. A string with a split surrogate pair is not read back (refuted).", "quantifier": "every text and every value of the written kind, of any size and depth", "why_tests_cant": "Infinitely many texts and values; acceptance must be neither too wide nor too narrow.", "anchors": ["bitcoin_toolset/code/transaction.py:Transaction.to_json", "bitcoin_toolset/code/transaction.py:Transaction.from_json", "cli.py:main (json.load)"]}
{"id": "C80", "title": "Runs depend on JSON files only through their values", "statement": "Reformatting the input file, the design file or the JSON data (white space, escapes, equal documents) changes neither what a run prints nor how it ends. A text that is no JSON document is refused with ValueError, before anything is printed, by every task that reads JSON. The text a transaction is written as is the layout of its dictionary, in ASCII, and any reformatting of it loads the same transaction. If create_transaction turns two files into a hex, then the step-by-step workflow, with the intermediate texts reformatted in any way, gives the same hex.", "quantifier": "every command, every pair of JSON texts with the same value, every workflow", "why_tests_cant": "A relation between all pairs of equivalent texts and all runs.", "anchors": ["cli.py:main", "cli.py:create_signed_transaction_json", "cli.py:validate_unsigned_transaction_json", "bitcoin_toolset/code/transaction.py:Transaction.from_json"]}
{"id": "C81", "title": "Several calls of create_transaction with the same argument object", "statement": "One call settles the argument object: the second and every later call leaves it as it is and ends like the second call. A call refused for the form of its arguments (every check made before amounts are converted) is refused again with the same exception. After any other call, successful or not, every further call raises ValueError, unless the request names neither inputs nor outputs, in which case every call ends like the first. (That every refusal is repeated with the same exception is false: an unimplemented selection approach raises NotImplementedError, then ValueError.)", "quantifier": "every argument object and every number of calls", "why_tests_cant": "A statement about all histories of calls and all argument objects, including malformed ones.", "anchors": ["bitcoin_toolset/code/create_transaction.py:create_transaction", "bitcoin_toolset/code/create_transaction.py:validate_inputs", "bitcoin_toolset/code/create_transaction.py:validate_design"]}
{"id": "C82", "title": "What create_transaction leaves in its arguments", "statement": "After a call that passed the checks of form, whether it returns or raises: each input dict has its index replaced by the int it denotes and a new last entry satoshi_amount; each output dict has its amount rewritten with exactly eight decimals and the same new entry; fee and max_fee given as str are ints, a fee_rate given as int is a str; everything else, and the order of the keys, is as before. After a call refused for the form of its arguments no entry has been added or removed, and each is as before or rewritten in one of these ways.", "quantifier": "every argument object, every outcome", "why_tests_cant": "It quantifies over all argument objects and over every point at which the call can fail.", "anchors": ["bitcoin_toolset/code/create_transaction.py:create_transaction", "bitcoin_toolset/code/create_transaction.py:validate_design"]}
{"id": "C83", "title": "The report that create_transaction logs", "statement": "Logging changes nothing: leaving out what is logged, the call is the one described by C20-C38. A successful call logs exactly these lines in this order: the approaches if the design names any, that the arguments are fine, the inputs and outputs as supplied, their numbers, the approach, the sorted inputs and the outputs with eight decimals, the value at each input address and the value sent to each output address (in order of first appearance), the estimated size, the fee and how it arises, the maximum fee, the totals, the selection, the surplus and what becomes of it, the change, the maximum and the actual amount spent with the percentages, and that the transaction was created; every figure is the true one. Two lines are always or sometimes wrong: one says that the input value is at most the output value whenever it is at least as large, and if the inputs match exactly 'Selected inputs: 0' is logged although all are selected.", "quantifier": "every request", "why_tests_cant": "The text is a function of lists of arbitrary length, of floats and of the selection; it has to be right for every request.", "anchors": ["bitcoin_toolset/code/create_transaction.py:create_transaction", "bitcoin_toolset/code/create_transaction.py:validate_design"]}
{"id": "C84", "title": "The texts of the refusals of create_transaction", "statement": "A refused request raises an exception whose text is: for a repeated output address, the first repeated address in the order of the outputs and how many outputs pay it; for a fee that is too high, the fee and the maximum; for missing value, exactly how much is missing, with or without the fee; for an ambiguous change address or an index too large, the number of outputs that pay it; for too much spent, both amounts and one more than the percentage spent, without its decimals; for both or neither of fee and fee rate, the two keys; for approaches that exclude each other, the first such pair. What has been logged before is the report of C83 up to that point.", "quantifier": "every request refused for one of these reasons", "why_tests_cant": "It covers all requests and the order in which several reasons are noticed.", "anchors": ["bitcoin_toolset/code/create_transaction.py:create_transaction", "bitcoin_toolset/code/create_transaction.py:validate_design"]}
{"id": "C85", "title": "Following the advice of a refusal for overspending", "statement": "If a request would spend more than max_spend_percentage permits, the refusal advises a whole percentage between 1 and 101. If that is at most 100, the same request with max_spend_percentage replaced by the advice (as an int, float or str) succeeds, with exactly the transaction that was refused (provided it has at most 252 outputs). The advice is 101 exactly when all available value would be spent; then following it raises ValueError, and 100 would have sufficed (a defect).", "quantifier": "every request refused for overspending, every amount up to the maximum, every way to write the advised number", "why_tests_cant": "Whether the advice suffices depends on rounding in three float operations for each of the 10^15 possible amounts and each percentage; tests see only a few of them.", "anchors": ["bitcoin_toolset/code/create_transaction.py:create_transaction", "bitcoin_toolset/code/create_transaction.py:validate_args"]}
{"id": "C86", "title": "What sign logs", "statement": "Logging changes nothing: leaving out the records, the call is the one of C25-C28. Unfit nonces or keys: no record at all. Otherwise, for each input in order, INFO 'Creating [non-]deterministic signature k of n. Source address = a' (before the key is looked up), then at DEBUG the public key, the signature, its DER form, the same with the hash type, the key with its prefix, the two push bytes, the scriptSig and its length, each with its number of bytes; the closing line 'Transaction signed with n signatures.' appears exactly if all inputs were signed. The log of a successful signing discloses nothing that the signed transaction does not: two signings with the same result, both with or both without a nonce list, log the same, whatever the keys and nonces. One label is wrong: with an empty nonce list, which counts as none, the signatures are announced as non-deterministic.", "quantifier": "every well-formed transaction, every list of keys and nonces", "why_tests_cant": "That nothing secret is logged is a statement about all pairs of keys and nonces, and the records have to be right for any number of inputs and for a failure at any of them.", "anchors": ["bitcoin_toolset/code/transaction.py:Transaction.sign", "bitcoin_toolset/code/basic.py:signature_hex_and_public_key_hex_to_script_sig"]}
{"id": "C87", "title": "What verify logs", "statement": "Logging changes nothing: leaving out the records, the call is the one of C29 and C30. A call that returns logs for each input, in order, the parts of its scriptSig, the numbers r and s of its signature (32 bytes each) and the verdict, and then 'Transaction verified: n valid signature(s)'. The ERROR records are exactly one per invalid signature, in order, and their number is the result. A call that raises does so at the first input that cannot be checked, having reported the invalid signatures before it, without the closing line. The closing line is no evidence: it claims n valid signatures even if none is valid.", "quantifier": "every transaction with well-formed inputs and outputs, whatever its scriptSigs", "why_tests_cant": "It covers every mixture of valid, invalid and malformed signatures at any number of inputs.", "anchors": ["bitcoin_toolset/code/transaction.py:Transaction.verify", "bitcoin_toolset/code/basic.py:script_sig_to_signature_hex_and_public_key_hex", "bitcoin_toolset/code/basic.py:signature_from_der"]}
{"id": "C88", "title": "What loading and converting log", "statement": "Logging changes nothing. Loading a hex transaction logs, at INFO, the line that loading begins and, exactly on success, the line that it succeeded; in between, at DEBUG, every field of the transaction in wire order with its true value, and for each output the amount in satoshi and in bitcoin. A refused text leaves nothing above DEBUG but the first line. Converting to hex and loading JSON log one INFO line, and only on success.", "quantifier": "every string", "why_tests_cant": "The records mirror a text of unbounded length with nested counts.", "anchors": ["bitcoin_toolset/code/transaction.py:Transaction.from_hex_signed", "bitcoin_toolset/code/transaction.py:Transaction.to_hex_signed_form", "bitcoin_toolset/code/transaction.py:Transaction.from_json"]}
{"id": "C89", "title": "The hash helpers", "statement": "get_sha256, get_ripemd160, get_double_sha256 and get_double_sha256_checksum, applied to lower-case hex, return the lower-case hex of the digest (its first four bytes for the checksum); any other text is refused with ValueError. get_public_key_hash reads its argument as bytes.fromhex does (upper case and spaces between bytes are accepted), prepends the byte 04 and returns the hex of RIPEMD-160 of SHA-256; other text is refused with ValueError. Nothing checks the length of the key: even the empty text has a public key hash and an address.", "quantifier": "every string", "why_tests_cant": "It is about all strings of any length, including those that differ from hex in one character.", "anchors": ["bitcoin_toolset/code/basic.py:get_sha256", "bitcoin_toolset/code/basic.py:get_ripemd160", "bitcoin_toolset/code/basic.py:get_double_sha256", "bitcoin_toolset/code/basic.py:get_double_sha256_checksum", "bitcoin_toolset/code/basic.py:get_public_key_hash"]}
{"id": "C90", "title": "The type validators", "statement": "validate_string, validate_list, validate_dict and validate_boolean accept exactly the values of their type, whatever they contain, and raise TypeError for everything else.", "quantifier": "every value", "why_tests_cant": "It covers every value of every other type.", "anchors": ["bitcoin_toolset/util/validate.py:validate_string", "bitcoin_toolset/util/validate.py:validate_list", "bitcoin_toolset/util/validate.py:validate_dict", "bitcoin_toolset/util/validate.py:validate_boolean"]}
{"id": "C91", "title": "Signing primitives and addresses of keys", "statement": "Whatever create_deterministic_signature, create_deterministic_signature_for_digest or create_signature_for_digest returns is 64 bytes of hex which the matching verification function accepts under the public key of the signing key. private_key_hex_to_address returns an address exactly if private_key_hex_to_public_key_hex returns a key, and it is the address of that key; otherwise both raise the same exception. count_leading_zero_bytes counts the leading zero bytes.", "quantifier": "every key, every data, digest and nonce, every byte string", "why_tests_cant": "All keys, digests and nonces are meant.", "anchors": ["bitcoin_toolset/code/basic.py:create_deterministic_signature", "bitcoin_toolset/code/basic.py:create_signature_for_digest", "bitcoin_toolset/code/basic.py:private_key_hex_to_address", "bitcoin_toolset/code/basic.py:count_leading_zero_bytes"]}
{"id": "C92", "title": "What hex_to_int reads", "statement": "hex_to_int(x) returns n exactly if x is, within white space, an optional sign, an optional prefix 0x or 0X (possibly followed by an underscore) and one or more hexadecimal digits of either case, with single underscores between them, denoting n; everything else is a ValueError. So it accepts much that is no hex.", "quantifier": "every string, including non-ASCII", "why_tests_cant": "The grammar has unbounded words; tests try a few.", "anchors": ["bitcoin_toolset/code/basic.py:hex_to_int"]}
{"id": "C93", "title": "Signing and checking one input", "statement": "create_signature_for_one_input and verify_signature_for_one_input, with the number of an input, sign and check exactly the digest that sign and verify use for that input; a signature made for an input is accepted for it. A number beyond the inputs, from either end, is an IndexError. A negative number does not count from the end: it passes the check, but every negative number signs and checks the transaction without any script, so the signature is useless for any input.", "quantifier": "every well-formed transaction, every int, every key and nonce", "why_tests_cant": "All transactions and all ints are meant; the defect shows only for negative numbers, for which no test exists.", "anchors": ["bitcoin_toolset/code/transaction.py:Transaction.create_signature_for_one_input", "bitcoin_toolset/code/transaction.py:Transaction.verify_signature_for_one_input", "bitcoin_toolset/code/transaction.py:Transaction.to_hex_signable_form"]}
{"id": "C94", "title": "What the validators say", "statement": "Every validator of validate.py that rejects a value raises the exception of its model and a text that is determined by the value: for the type validators the type found and the type wanted (validate_bytes wrongly says int); for numbers that the value is less than 1; for hex of a given length both lengths; for digit strings exactly the positions and characters that are no digits, in order; for decimals the number of dots, or that there are non-digits, or the number of places wanted; for an either/or the fault of the first alternative; for an interval the bounds and the input; for lists every item, and exactly the missing ones.", "quantifier": "every value, name, location, kind, length, number of places and bound; every pair of lists of strings", "why_tests_cant": "The texts contain positions and counts that depend on the whole value; all values and all combinations of the optional arguments are meant.", "anchors": ["bitcoin_toolset/util/validate.py:validate_hex_length", "bitcoin_toolset/util/validate.py:validate_string_is_decimal", "bitcoin_toolset/util/validate.py:validate_string_is_positive_integer", "bitcoin_toolset/util/validate.py:validate_integer_domain", "bitcoin_toolset/util/validate.py:validate_list_contains_items", "bitcoin_toolset/util/validate.py:build_error_msg"]}
{"id": "C95", "title": "What the functions of basic.py say when they refuse", "statement": "The text of every exception of the amount, hex, count and Base58Check functions of basic.py is determined by the argument: an amount's text says the number of periods, that there are other characters than digits, the number of decimal places, that it cannot be converted, or that it exceeds 21000000.00000000 (the first that applies); a zero amount is refused by validate_positive_bitcoin_amount as zero but by bitcoin_to_satoshi with a text about an empty literal; satoshi_to_bitcoin(True) talks of the amount 0.0000True; a negative int is refused by int_to_hex as bad hex with an x in it; pad_hex, pad_hex_le and the one-byte counts name their argument; base58check_to_hex says that a substring is not found (foreign character), that 0 is less than 1 (only ones), or gives the input, its hex, its hex without the checksum, the stored and the calculated checksum; an address of another version is refused without a text, one of another length with both lengths. In each case the exception class and the values returned are those of C02, C05, C06, C08-C10 and C14-C17.", "quantifier": "every argument value of every type, every hash function of 32 bytes, every repr", "why_tests_cant": "The texts contain counts, positions and recomputed checksums of the whole argument, and which fault is named first depends on all checks; all arguments are meant.", "anchors": ["bitcoin_toolset/code/basic.py:validate_bitcoin_amount", "bitcoin_toolset/code/basic.py:validate_positive_bitcoin_amount", "bitcoin_toolset/code/basic.py:satoshi_to_bitcoin", "bitcoin_toolset/code/basic.py:bitcoin_to_satoshi", "bitcoin_toolset/code/basic.py:ensure_8_decimal_places", "bitcoin_toolset/code/basic.py:int_to_hex", "bitcoin_toolset/code/basic.py:pad_hex", "bitcoin_toolset/code/basic.py:pad_hex_le", "bitcoin_toolset/code/basic.py:int_to_var_int", "bitcoin_toolset/code/basic.py:var_int_to_int", "bitcoin_toolset/code/basic.py:base58check_to_hex", "bitcoin_toolset/code/basic.py:bitcoin_address_to_public_key_hash_hex", "bitcoin_toolset/code/basic.py:validate_bitcoin_address"]}
{"id": "C96", "title": "Signing a document whose scripts are whatever it says", "statement": "Reading a transaction document does not compare the script_pub_key of an input with its address. Transaction.sign signs such a transaction input by input with a key that controls the input's address, and each signature commits to the script that the document names, which need not pay that address; with unusable nonces or keys nothing changes; it stops at the first input that has no nonce (IndexError), no key (ValueError), no script (TypeError) or a refused signature, with the inputs before it signed and the others unchanged. Whatever was signed verifies. create_signed_transaction_json prints the signed document exactly if all keys are usable, every input has a key and a script and the amounts do not exceed 21000000 bitcoin; so replacing all scripts by any one script of at most 252 bytes in a document that can be signed gives a document that is signed and verified without complaint.", "quantifier": "every transaction document, every transaction read from one, every list of keys and nonces, every script", "why_tests_cant": "All documents, scripts, keys and failing positions are meant, and the state left behind at each of them.", "anchors": ["bitcoin_toolset/code/transaction.py:Transaction.sign", "bitcoin_toolset/code/transaction.py:Transaction.from_json", "bitcoin_toolset/code/transaction_input.py:TransactionInput.from_dict", "cli.py:create_signed_transaction_json"]}
{"id": "C97", "title": "What cli.py says in its own words when it refuses", "statement": "The exceptions that cli.py (with util/misc.py) raises itself, and their texts, are exactly: AssertionError without text if one of the four key tasks does not get exactly one key; the text naming --data and --data-file if sign_data (with one key) or validate_unsigned_transaction_json gets no data or empty data; the texts naming --input-file, else --design-file; SystemExit for an unknown task and for a command that wrote to stderr; the two texts of get_python_version with the exit code; 'Invalid signature!' of sign_data exactly if the signature just made does not verify (never for a valid key); the NameError of create_signed_transaction_hex for every document that can be verified; and the number of invalid signatures, with the plural of the number of inputs, from the tasks that verify or decode hex. The messages about invalid signatures of the tasks that sign transactions never appear. Every other exception comes from the functions called; without the texts the tasks are those of C63.", "quantifier": "every command line, every behaviour of the shell, every data", "why_tests_cant": "That some messages never appear, and the others exactly in their situation, is a statement about all command lines, documents and signatures.", "anchors": ["cli.py:main", "cli.py:sign_data", "cli.py:get_python_version", "cli.py:create_signed_transaction_hex", "cli.py:decode_signed_transaction_hex", "cli.py:verify_signed_transaction_hex", "cli.py:create_transaction", "bitcoin_toolset/util/misc.py:run_local_cmd", "bitcoin_toolset/util/misc.py:shell_tool_exists"]}
{"id": "C98", "title": "What is said of a transaction document that is refused", "statement": "A document given to Transaction.from_json (and so to the tasks that read transaction JSON) is tested in a fixed order: it is an object; it has all its entries; input_count is hex; inputs and outputs are lists; the counts are one-byte counts equal to their lengths; each input in order, then each output in order; lock time and hash types; 'signed' is a bool; outputs are not worth more than inputs; and if 'signed' is true every input has a script and its length. Each input and output is tested in a fixed order of its own entries. The document is refused with exactly the exception and the text of the first test that fails, and accepted exactly if none fails: no later defect hides or changes an earlier complaint.", "quantifier": "every JSON value (every type at every place, missing and additional entries), every JSON text", "why_tests_cant": "Documents can be wrong in arbitrarily many places at once, with any value of any type at each of 40 places; that the first failing test decides, and no other exception escapes, quantifies over all of them.", "anchors": ["bitcoin_toolset/code/transaction.py:Transaction.from_json", "bitcoin_toolset/code/transaction_input.py:TransactionInput.from_dict", "bitcoin_toolset/code/transaction_output.py:TransactionOutput.from_dict"]}
{"id": "C99", "title": "What is said of a signed transaction in hex that is refused", "statement": "A text given to Transaction.from_hex_signed (and so to the tasks of the command line that take a signed transaction in hex) is read from left to right: it must be hex, the version must be 1, then come the count of inputs, each input (36 bytes, a script with its length, the sequence ffffffff; the script holds a signature ending with 01 and an uncompressed public key of 64 bytes), the count of outputs, each output (8 bytes for the value, a script with its length), and the lock time 0; what follows is ignored. The first thing that is not so decides the exception: ValueError without a text for a wrong version, count above 252, hash type, key prefix, sequence or lock time; IndexError 'list index out of range' exactly where the data end before a count or a length; the text of the failing validator for a text that is not hex, a script that ends before one of its two lengths, a key of the wrong length, a value above 21 million bitcoin; the text of int() for an output with no data at all. A transaction is given exactly if nothing is wrong.", "quantifier": "every text, hex or not, of every length", "why_tests_cant": "Where the data end and what is wrong in them can be combined without limit; that each text has exactly one outcome, with this class and this text, quantifies over all of them.", "anchors": ["bitcoin_toolset/code/transaction.py:Transaction.from_hex_signed", "bitcoin_toolset/code/transaction_input.py:TransactionInput.create_from_signed_tx_data", "bitcoin_toolset/code/transaction_output.py:TransactionOutput.create_from_signed_tx_data", "bitcoin_toolset/code/basic.py:script_sig_to_signature_hex_and_public_key_hex"]}
{"id": "C100", "title": "What is said when signing is refused", "statement": "Transaction.sign looks at the nonces first, then at the keys in order, then at the inputs in order, and stops at the first problem: repeated nonces or another number of nonces than keys: ValueError without a text; a key that is not 32 bytes in hex: the exception and text of the hex length validator for that key; a key that ecdsa refuses: ecdsa's exception; an input for which no nonce is left: IndexError 'list index out of range'; an input whose address none of the keys controls: ValueError without a text; an input without a script: TypeError 'must be str, not NoneType'; a signature that ecdsa refuses to make: ecdsa's exception. Without nonces, and if ecdsa signs with every valid key, the keys, addresses and scripts alone decide which of these it is, and signing succeeds exactly if none of them occurs.", "quantifier": "every transaction (scripts as written or missing), every list of keys (texts of any kind), every list of nonces", "why_tests_cant": "Problems can be combined in any number of keys and inputs; which one is reported, and that nothing else is, quantifies over all combinations and lengths.", "anchors": ["bitcoin_toolset/code/transaction.py:Transaction.sign", "bitcoin_toolset/code/transaction.py:Transaction.create_signature_for_one_input", "bitcoin_toolset/util/validate.py:validate_hex_length"]}
{"id": "C101", "title": "What create_transaction says of malformed arguments", "statement": "create_transaction tests its arguments in one fixed order before it compares amounts, and the first test that fails decides the exception and its text: the attributes inputs and design exist; the design is a dict; fee and max_fee given as str can be read; every input has an index that can be read; inputs is a list; each input has exactly the four entries, with a valid address, a txid of 32 bytes, a whole index, a positive amount; the design has its four entries, with a valid change address, a whole max_fee, a percentage from 0 to 100, a list of outputs; each output has exactly two entries, a valid address and a positive amount; exactly one of fee and fee_rate, and it is well-formed; the approaches are a list of known ones that do not exclude each other; the two options are a bool and a whole number if given; the indices fit in four bytes; one of the three implemented approaches is used. The text is that of the validator, or that of the built-in int(), float(), subscript or iteration that fails. If no test fails, the arguments are accepted; exactly one outcome is the case for each argument object, and its class is that of C69.", "quantifier": "every argument object: any values of any type and nesting in inputs, design and the options", "why_tests_cant": "Any number of things can be wrong at once in lists of any length; that the one reported is the first in this order, with this text, quantifies over all combinations.", "anchors": ["bitcoin_toolset/code/create_transaction.py:create_transaction", "bitcoin_toolset/code/create_transaction.py:validate_inputs", "bitcoin_toolset/code/create_transaction.py:validate_design", "bitcoin_toolset/code/transaction_input.py:TransactionInput.create", "bitcoin_toolset/code/transaction_output.py:TransactionOutput.create"]}
{"id": "C102", "title": "What create_transaction says of an order that cannot be met", "statement": "A well-formed order is tested in one fixed order, and the first test that fails decides the exception and its text: no address with inputs, and none with outputs, worth more than 21 million bitcoin (the text names the amount of the first such address in order of appearance); no address paid by two outputs; at most 252 inputs and outputs; the fee computed from a rate representable and at most 21 million bitcoin; the fee at most max_fee (both written in the text, max_fee as it was given); inputs and outputs within 21 million bitcoin; inputs cover outputs and outputs plus fee (the shortfall is written in bitcoin); a given change address belongs to an input or an output index; the spending limit in range, and what is spent beyond the change within it (the text gives the percentage, the limit and advice); at most 252 outputs with the change. If no test fails the transaction is built. Every exception of create_transaction is therefore either about the arguments (C101) or about the order, with the text of its first failing test, and leaving the texts out gives exactly the outcomes of create_transaction. A fee of True counts as 1 in the checks of the arguments and is refused at the latest, after the numbers of inputs and outputs have been checked, because it cannot be written as a bitcoin amount.", "quantifier": "every well-formed order (any number of inputs and outputs, amounts, addresses, fee or rate, percentages that are doubles, approaches), and every argument object", "why_tests_cant": "Several tests can fail at once for orders of any size; that the first in this order is reported, with the amounts of that order, ranges over all orders.", "anchors": ["bitcoin_toolset/code/create_transaction.py:create_transaction", "bitcoin_toolset/code/basic.py:satoshi_to_bitcoin", "bitcoin_toolset/code/basic.py:int_to_var_int", "bitcoin_toolset/code/basic.py:estimate_transaction_size", "bitcoin_toolset/code/transaction_output.py:TransactionOutput.create"]}
{"id": "C103", "title": "What the command line parser says when it refuses", "statement": "When cli.py refuses its command line, the message (after the usage and 'cli.py: error: ') is determined as follows. A word in front of '--' that abbreviates several option names is reported before anything else, with the names it could stand for in the order in which they are declared (that of --help). Otherwise the first fault of the settings is reported, whatever follows: a log level that does not exist (with its repr and the four levels), or a second source of keys or of data (naming both options). After settings that go together: an option that needs a value and gets none says how many it expects ('expected one argument', 'expected at least one argument'); a switch written --name=text, or as a letter followed by a character that is no option, says that it ignored the text. Words that belong to no option, and everything from '--' on, are listed in their order after 'unrecognized arguments: ', if the settings go together and do not ask for help; a command (C77) is refused with the message about its first fault and in no other way. Options are called by all their names ('-l/--log-level'). Leaving the messages out gives the outcomes of C77. There is no other reason for a refusal: the parser complains with a text exactly if one of these is the case and the text is the one given there.", "quantifier": "every list of words (of any number and length, any characters) and every repr", "why_tests_cant": "A command line can have several faults at once; which is reported first, and with which names and words, ranges over all lists of words.", "anchors": ["cli.py:main"]}

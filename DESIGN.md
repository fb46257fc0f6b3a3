# Design: a Rocq model of bitcoin_toolset_python3

`/repo` is modelled function by function in Gallina, in the files listed below. Each property of `properties.jsonl` is one or
more theorems in `rocq/theories/Prop_*.v`; `MANIFEST.json` maps property to theorem names; `ASSUMPTIONS.md` lists what
`Print Assumptions` prints for each of them.

## 1. Layout (rocq/theories)

Model (every definition cites file and lines of /repo):

| file | models |
|---|---|
| `PyBase.v` | the Python runtime used by the code: values, exceptions as values, str/list/dict primitives, hex digits |
| `PyNum.v` | `int(str)`, `int(str, 16)`, `float(str)`, `float(int)`, `str(int)`, `math.ceil`, `int(float)`, float `*` and `/` (stdlib `SpecFloat`, binary64), slicing, `isdigit` |
| `Env.v` | the class `Env`: everything called that is not in /repo (see 4) |
| `Validate.v` | `util/validate.py` |
| `Messages.v` | `build_error_msg` of `util/validate.py` and the message texts of `validate_hex` and `validate_string_is_printable_ascii` |
| `Complaints.v` | the message texts of all other validators of `util/validate.py` |
| `Answer.v`, `BasicSays.v` | the functions of `basic.py` again, with the text of each exception |
| `CliSays.v` | the tasks of `cli.py` again, with the text of each exception that `cli.py` raises itself |
| `DocSays.v` | `from_dict` of inputs, outputs and transactions again, with the text of what they raise |
| `SignSays.v` | `sign` and what it calls again, with the text of what the code of /repo raises itself |
| `OrderSays.v` | `create_transaction` L98-235 again (all that is checked before amounts are compared), with the text of what it raises |
| `BuildSays.v` | `create_transaction` L197-561 again (`Create.build`), with the text of everything it raises |
| `HexSays.v` | `from_hex_signed` and what it calls again, with the text of what they raise |
| `Basic.v` | `code/basic.py` |
| `TxInput.v`, `TxOutput.v`, `Tx.v` | the three transaction classes |
| `TxApi.v` | the methods of Transaction that take the number of an input, called with any int |
| `Forms.v` | their dictionary and JSON forms and `__str__`, loop by loop as in the source |
| `Create.v` | `code/create_transaction.py` |
| `Report.v` | what `create_transaction.py` logs at level INFO, and the texts of the exceptions it raises itself |
| `Trace.v` | all log records (level and text, DEBUG included) of `sign`, `verify`, `from_hex_signed`, `to_hex_signed_form`, `from_json` and the `basic.py` functions they call |
| `Cli.v` | `cli.py` after `parse_args`, `util/misc.py`, `code/hello.py` |
| `Files.v` | the file layer of `cli.py`: reading the files named on the command line, JSON loading, the working directory listing; then `Cli.v` |
| `Args.v` | the options of `cli.py` and `parser.parse_args()` as CPython 3.6 executes it; the whole program from its words |
| `ArgsSays.v` | `parser.parse_args()` again, with the messages of its refusals (parser.error, ArgumentError) |
| `Logger.v` | `util/module_logger.py` and the `setup()` functions |
| `Json.v` | CPython 3.6 `json.dumps(indent=2)` and `json.loads` (character by character, including escapes and surrogate pairs); `with_json` puts them into an `Env` |

Specification (does not use the model's functions, only its value and record types):

| file | contents |
|---|---|
| `Spec.v` | bytes, positional values, hex text, base-58 text |
| `EnvOk.v` | what is assumed about `Env`; Base58Check, P2PKH, numerals, amounts |
| `FloatSpec.v`, `NumSpec.v` | binary64 values as real numbers; rounding to nearest; the grammar of `int()` and `float()` |
| `TxSpec.v` | the Bitcoin wire format as a relation between records and bytes; sighash preimage |
| `SignSpec.v` | who may sign, what a valid signature is |
| `JsonSpec.v` | the document from_json accepts |
| `CreateSpec.v` | which argument object asks for which order (`asked`), and which transaction meets it (`plan`, `tx_of`) |
| `RefuseSpec.v` | the checks of create_transaction in order, with their exceptions |
| `HistorySpec.v` | what one call of create_transaction leaves in its argument object, for calls that fail as well |
| `ValidSpec.v`, `LogSpec.v`, `FormsSpec.v`, `MessagesSpec.v`, `ComplaintsSpec.v`, `BasicSaysSpec.v` | validators, logger, descriptions, error messages, what each validator finds wrong, what basic.py says |
| `AsWrittenSpec.v`, `CliSaysSpec.v` | signing with the scripts that a document names; which own words cli.py uses when |
| `DocSaysSpec.v` | the tests of a transaction document, in order, each with what is said if it fails |
| `SignSaysSpec.v` | the ways in which signing ends, with what is said |
| `OrderSaysSpec.v` | the tests of the arguments of `create_transaction`, in order, each with what is said when it fails |
| `BuildSaysSpec.v` | the text that goes with each of the checks of an order (`order_checks` of `RefuseSpec.v`) |
| `HexSaysSpec.v` | how the bytes of a signed transaction are read, part by part, each with what is said if it is wrong |
| `TraceSpec.v` | the log records of signing, verifying and loading |
| `ReportSpec.v` | the report of create_transaction, part by part, and the texts of its refusals |
| `HelperSpec.v` | the text `bytes.fromhex` and `int(x, 16)` read; the bytes signed if no input is selected |
| `AdviceSpec.v` | a request refused for overspending; the same request with another percentage |
| `RelSpec.v` | two requests that list the same inputs; two lists of keys that agree on the inputs of a transaction |
| `VerifySpec.v`, `CliSpec.v`, `FilesSpec.v` | verdicts printed by the verification tasks; white space stripped around file contents; which command line and files make which run |
| `JsonGrammar.v` | the grammar of JSON texts (`value`), the indented layout the writer produces, equality of documents up to spelling |
| `ArgsSpec.v` | the grammar of the command line: which words make which settings, which go together, what they mean |
| `ArgsSaysSpec.v` | how options are called, the first fault of some settings, ambiguous words, words that belong to no option |

Proofs: `NumLemmas`, `HexProofs`, `Base58Proofs`, `AddrProofs`, `FloatProofs`, `AmountProofs`, `ScriptProofs`, `WireProofs`,
`SignProofs`, `VerifyProofs`, `JsonProofs`, `RateProofs`, `NumProofs`, `PrepProofs`, `DesignProofs`, `MakeProofs`, `BuildProofs`,
`CreateProofs`, `RefuseProofs`, `OrderProofs`, `CliProofs`; and `C_*.v`, which holds the property lemmas `cNN_name` with the examples `exNN_name`
that show that their hypotheses can be met.

`Prop_*.v` is generated by `tools/genprops.py` from `C_*.v`: it repeats the statement of each property lemma as a closed theorem
`CNN_name`, proves it by `exact`, and prints its assumptions. `tools/genmanifest.py` writes `MANIFEST.json`,
`tools/assumptions.py` writes `ASSUMPTIONS.md`.

`Demo*.v`: a concrete environment `demo_env` that satisfies all of `EnvOk` (toy hashes and signatures, real DER), concrete
transactions and requests. `RealHash.v`: SHA-256 and RIPEMD-160 in Gallina, checked on published vectors, to confirm the fact
`ZeroAddressOk` and to run the model on the repository's own test vectors. `Fidelity.v` (generated by `tools/fidelity.py` from the literals of /repo's test files, which are read as text) evaluates a selection of the repository's tests in the model, with real hashes and recorded curve operations, and proves `HashOk` and `ZeroAddressOk` for the real hashes; `tools/fidelity.py --full` checks every test function of `test_address.py`, `test_private_key.py`, `test_transaction.py` and `test_create_transaction.py` (190 examples, all hold). Four of the repository's tests (`test_add_input_to_pay_fee`, `..._2`, `test_fee_rate_argument_4`, `test_add_input_selection_approach_2`) give the design a key `input_selection_approach`; the code reads `input_selection_approaches` (l.145), so that they would fail as they stand if largest-first differs from their expectation; they are checked with the key the code reads. Likewise the tests raise unless `verify()` is truthy, while `verify` at this commit returns the number of invalid signatures; the model follows the code. `FidelityReadme.v` (generated by `tools/readme.py`) does the same for shell sessions of `README.md`: the whole program, from the words of the command line to the printed output (three are built; `tools/readme.py --full` checks fourteen, all hold).

## 2. Conventions

* A function that may raise is a function into `res A := Ok a | Err exn`. The exception class is modelled; the message text is not, except in `Messages.v`, `Complaints.v`, `BasicSays.v`, `CliSays.v`, `DocSays.v`, `HexSays.v`, `SignSays.v`, `OrderSays.v`, `BuildSays.v` and `Report.v`.
* `str` = list of code points; `int` = `Z` (unbounded); `float` = `spec_float` (binary64); JSON-like data = `pyval`. A `dict` is an association list in insertion order.
* In-place mutation is state passing; the mutated object is returned on the error path, too (`create_transaction` returns the outcome and the argument object as it is afterwards; `sign` the outcome and the transaction).
* `while` loops run on fuel that is proved sufficient.
* Logging calls have no effect in the model (C83 justifies this for `create_transaction`), but expressions evaluated for a log message that can raise are modelled (several of the exceptions of C70 come from there).
* External code is the class `Env`, over which every theorem quantifies; assumptions about it are hypotheses of the theorems that use them.
* Naive readings of a property that the code violates are proved false by a witness: theorems `..._refuted`.

## 3. Properties

How each is modelled and proved. All properties of the list are expressed in the model; none is left out.

* C01-C06 (hex and fixed-width fields), C07-C09 (base 58): a hex string is the image `hex_of bs` of a byte list; every function is characterised on that image and shown to raise outside it. Induction on lists and on digit expansions.
* C10-C13 (addresses, WIF): from C08/C09 plus leading-zero bookkeeping; SHA-256 is any function to 32 bytes, RIPEMD-160 any to 20.
* C14-C17 (amounts): decimal value of the digit lists. The float comparison in `validate_bitcoin_amount` is discharged with Flocq: rounding is monotone and the bounds are exact doubles.
* C18, C19 (scriptSig, DER): slicing lemmas; DER codec assumed to be a round trip.
* C20-C24, C31 (wire format, parser, sighash, txid): the relation `tx_wire` of `TxSpec.v`; the parser is proved to consume exactly one encoding; prefix-freeness gives truncation and unambiguity.
* C25-C30 (sign, verify): invariant of the signing loop: signed prefix ++ unsigned rest; each signature is over the sighash preimage, which does not depend on the other signatures.
* C32-C34, C57, C67, C68 (JSON, forms, descriptions): `pyval` documents; `json` assumed to be a round trip on them (proved for the modelled codec, C80).
* C35-C48, C52 (create_transaction): `prepare` (argument checks and rewriting) and `build` (pure) are each characterised by an iff: a call succeeds with t iff the arguments ask for an order, the order has a plan, and t is its transaction. Sorting is specified by permutation, order and stability; the float computations of rate and spending limit by correct rounding of real numbers.
* C69-C71 (all exceptions of create_transaction): the program is a sequence of checks; a small calculus `checked r cs` ("r succeeds iff all of cs pass, and otherwise raises the exception of the first that fails") is composed along the binds of the model.
* C49, C50, C55, C62-C66 (command line): a task is a list of printed lines and an outcome; theorems speak about what is printed.
* C51 (size): lengths of the wire form against the estimate.
* C53, C54, C58, C59, C66 (validators): acceptance iff plus exception class.
* C56, C60, C61 (logging): state machine; induction over the list of calls.
* C72 (error messages): equation for the text.
* C73 (verification tasks of the command line): verdict per signature as in C28; the task prints iff all are true.
* C75 (spelling and listing order): both runs are characterised by the plan of the request (C46, C70); plans of permuted inputs have the same values in the same places. The naive claim (same transaction for any order) is refuted for equal amounts.
* C76 (key lists): the key map of `sign` is compared on the addresses of the inputs; signing is a function of the unsigned part of the inputs.
* C77, C78 (the words of the command line): `Args.v` follows CPython 3.6's `argparse` step by step for the parser `cli.py` builds; `ArgsSpec.v` is an independent grammar of commands and their meaning. The parser accepts exactly the grammar: soundness by induction on the main loop, completeness by induction on the command; what the settings do is a fold over them, related to their meaning by induction from the right.
* C79, C80 (JSON text): `Json.v` follows CPython's scanner and encoder; the reader accepts exactly the texts of the grammar `JsonGrammar.v` with the value the grammar gives (soundness by induction on fuel, completeness by induction on the derivation); the writer's output is the layout of the specification; the round trip follows, and with it the assumption `JsonOk` of every other theorem.
* C81, C82 (several calls with one argument object): every step of the argument processing is shown to be idempotent (`settled`), loop by loop; the outcome of the second call follows from where the first one stopped, which is expressed by the checks of C69 made up to that point.
* C83, C84 (report of create_transaction): `Report.v` repeats the function with its log calls; erasing them gives `Create.v` (C83_erasure), so that the report is proved to accompany the transaction of C46; each part of the report is an equation between the lines logged by one section of the function and the text of `ReportSpec.v`. Two misleading lines are `_refuted`.
* C85 (the advised percentage): real-number reasoning about the rounding of the divisions and products of `create_transaction` L527-551 (`AdviceProofs.v`, with Flocq): the advised number a exceeds fl(fl(n/m)*100), hence fl(a/100) >= fl(n/m) >= n/m - 2^-53, and the limit ceil(fl(fl(a/100)*m)) is at least n, for all 0 < n <= m <= 21 million bitcoin. Spending everything yields the advice 101, which validation refuses (`_refuted`).
* C86-C88 (log of signing, verifying, loading): `Trace.v` repeats the functions with their log calls in a writer monad; erasing gives `Tx.v` (`*_erasure`); the records of every outcome are given by relations of `TraceSpec.v` over the wire bytes. C86_secrecy is a two-run (noninterference) statement. Two misleading lines are `_refuted`.
* C89-C93 (helpers called directly): case analysis; the text read by `bytes.fromhex` and `int(x, 16)` is a grammar (`HelperSpec.v`), proved equivalent to the scanner by induction; C93 reduces to the sighash theorem C24 for positions, and shows that negative numbers select no input (`_refuted`).
* C94 (texts of the validators): each specification is a relation between a value and a finding (`ComplaintsSpec.v`), proved functional; the model's text is shown to report one finding, so it reports the only one. `c94_same` ties the exception class to `Validate.v`.
* C95 (texts of basic.py): per function a relation between argument and answer (`BasicSaysSpec.v`); each constructor is shown to give the model's answer, and some constructor applies to every argument. `c95_same` ties class and value to `Basic.v`. CPython's own texts (float, int, str.index, list index) are written into the model; repr is a parameter, and CPython's cut of a repr at 200 characters in int()'s text is not modelled.
* C96 (documents with any scripts): `sign` without the assumption that each script pays the address of its input; induction over the inputs as for C41, with one more obstacle (no script). `c96_script_of_address_refuted`: signing does not compare scripts with addresses.
* C97 (own words of cli.py): `CliSays.v` distinguishes exceptions that cli.py raises from those it passes on; `own_words` lists situations and texts, and the theorem is an equivalence. `c97_same` ties it to `Cli.v`. That messages after signing never appear follows from C96 and C41.
* C98 (refused documents): `DocSaysSpec.v` lists the tests of a document, an input and an output as predicates on what is said (`first_of` picks the first complaint); proved by matching each step of `DocSays.v` with one test, using C94 and C95 for the single tests. `c98_same` ties the texts to the functions of C33.
* C99 (refused hex): `HexSaysSpec.v` describes readers of bytes (`then_read`, `times`, `counted`, `expected`); each step of `HexSays.v` is shown to give what its reader describes, and every reader describes some answer; composed by lemmas on sequences and repetitions. `c99_same` ties it to the function of C21-C23. Two calls whose texts are left out (`quietly`) cannot fail there.
* C100 (refused signing): `SignSays.v` tells exceptions raised in /repo (with text) from those passed on from ecdsa; induction over keys and inputs as for C96. The exact description `c100_ends` says how a call ended; it is an equivalence (`c100_plain`) without nonces and under SignTotal, as two different keys with one address could otherwise differ in what ecdsa refuses. `c100_same` ties it to the function of C25-C28. Calls whose texts are left out (`surely`) cannot fail there.
* C101 (malformed arguments, texts): `OrderSays.v` is the first part of `Create.v` again with texts; `c101_same` ties it to the code for every argument object whose attribute names are attrs; the combinators of `DocSaysSpec.v` state the tests in order (`argument_test`), one lemma per test, composed with `agrees_app`/`agrees_unit`; `c101_first_problem` ties them to the checks of C69 (the order is the same). The order of attributes (`vars(a).keys()`) and repr are parameters. Not modelled: the text of the built-in exceptions for values that JSON cannot give.
* C102 (an order that cannot be met, texts): `BuildSays.v` is `Create.build` again with texts (`c102_same`); a copy of the calculus of C70 in which every check carries a set of texts (`tested r cs`) is composed along its binds; the texts of the report (C83, C84) are re-used where both apply. `c102_every_text` combines it with C101: every exception with its text, for percentages that are doubles (others are not Python floats). A fee of True is treated by `c102_fee_true`: preparing the arguments is shown to commute with replacing True by 1 (`TrueFeeProofs.v`), up to the point where the fee is written as an amount.
* C103 (messages of the command line parser): `ArgsSays.v` is `Args.v` with the texts of Lib/argparse.py of CPython 3.6, and `c103_same` shows that it adds nothing else. The grammar of C77 is extended by words that belong to no option (`scattered`); the main loop on such words followed by anything is the fold of the settings followed by the loop on the rest, by induction on `scattered`, and the text of the fold is that of the first fault by induction from the right. Abbreviations are settled by comparing the table of the options with the list of long names. The usage that is printed before the message is not modelled. `c103_every` is the converse of all of them together: the marks in front of `--` are read back into words (induction on the fuel of the loop), and each way in which the loop can stop gives one of the reasons (`stop`).
* C74 (files of the command line): a file system is a function from paths to contents; the run is characterised by which files are read and what they contain.

Nothing is `_partial`.

## 4. Trusted base

1. The kernel of Coq 8.16.1 (including its VM: examples use `vm_compute`), confirmed by `coqchk`.
2. Axioms, as printed by `Print Assumptions` (per theorem in `ASSUMPTIONS.md`): more than half of the theorems are closed under the global context; the others, which reason about floats through real numbers, use the standard library's
   `ClassicalDedekindReals.sig_forall_dec`, `ClassicalDedekindReals.sig_not_dec`, `FunctionalExtensionality.functional_extensionality_dep`, `Classical_Prop.classic`. `coqchk` additionally names module-type fields of the standard library
   (`Coq.ssr.ssrunder.Under_rel.*`, `Coq.Reals.Rdefinitions.RbaseSymbolsImpl.*`, `RinvImpl.*`), which are sealed definitions, not axioms. No axiom is added here; Flocq (a library of definitions and theorems) is used for rounding.
3. That the model says what /repo does. To support it: line-by-line citations; examples from the repository's tests evaluated in the model (`Fidelity.v`) and from README.md (`FidelityReadme.v`); mutation tests (`seeded/LOG.jsonl`) that show that the theorems notice changes of the model.
4. The assumptions about code outside /repo, as hypotheses (`EnvOk.v`), jointly satisfiable (`DemoProofs.v`):

| hypothesis | says | about |
|---|---|---|
| `UniOk` | decimal digits are digits with value 0-9; white space is no digit | Unicode database of CPython |
| `HashOk` | results have 32 and 20 bytes | hashlib / submodules sha256, ripemd160 |
| `ZeroAddressOk` | the checksum of the all-zero address does not start with byte 0 | a fact of SHA-256, checked in `Fidelity.v` |
| `KeysOk` | formatted valid keys are 32 bytes hex and have 64-byte public keys | submodule ecdsa |
| `SignOk`, `SignTotal` | signatures are 64 bytes and verify; valid keys sign every digest | submodule ecdsa |
| `SplitOk`, `DerOk` | r/s splitting; DER round trip, at most 72 bytes | submodule ecdsa |
| `JsonOk` | loads(dumps(v)) = v for float-free values | CPython json; proved for the model of it in `Json.v` (C80) |

### Modelled

All functions of `basic.py`, `transaction.py`, `transaction_input.py`, `transaction_output.py`, `create_transaction.py`, `validate.py`, `module_logger.py`, `misc.py`, `hello.py`, the `setup()` chain, and the tasks of `cli.py`.

### Not modelled

* The usage and help texts of `argparse`; effects on the file system other than reads (`Files.v` reads a file system given as a function; the outcome of creating the log directory is an argument); log texts of `create_transaction` at level DEBUG, and those outside `Report.v` and `Trace.v`.
* The text of exceptions other than those of the validators (C72, C94), of basic.py (C95), of cli.py itself (C97), of reading a transaction document after json.loads (C98), of a transaction in hex (C99), of signing (C100), of create_transaction (C101, C102; its report: C84), of the command line parser (C103) and of unknown tasks (C63).
* JSON: the text of decoding errors, RecursionError on deep nesting, `float.__repr__` (an argument of `dumps`; the repository writes no float).
* The submodules `ecdsa_python3`, `sha256_python3`, `ripemd160_python3` (absent from /repo): `Env`.
* `validate_bytes` of a bytes object: there are no bytes values in the model's `pyval`; no function of /repo calls it. (Its message for other values: C94.)
* Non-standard subclasses of int/str/dict, objects with their own `__eq__`; `python -O` (asserts are executed); memory exhaustion; CPython's limit on the length of int text (introduced after the Python 3.6 the project targets).
* Simplifications inside the model are stated in the comment of the definition concerned.

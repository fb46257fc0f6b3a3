#!/usr/bin/env python3
"""Runs the model on the literals of the repository's own tests.

The test files are read as text (ast), nothing of /repo is imported or executed.  From each test function the literal
assignments are taken; the expected values become Coq examples about the model, evaluated in the environment `vec_env`:
SHA-256 and RIPEMD-160 of RealHash.v, DER of Demo.v, and tables for the elliptic curve operations (public key of a
private key; signature with a given nonce; validity of a signature), which are computed here by a small secp256k1
written for this purpose.

  fidelity.py          writes rocq/theories/Fidelity.v (a selection, part of the build)
  fidelity.py --full   checks all of them in a temporary directory, after the build, and reports
"""
import ast, hashlib, os, subprocess, sys, tempfile
REPO = '/repo/bitcoin_toolset/test/'
HERE = os.path.dirname(os.path.dirname(os.path.abspath(__file__)))

# --- secp256k1
P = 2**256 - 2**32 - 977
N = 0xFFFFFFFFFFFFFFFFFFFFFFFFFFFFFFFEBAAEDCE6AF48A03BBFD25E8CD0364141
G = (0x79BE667EF9DCBBAC55A06295CE870B07029BFCDB2DCE28D959F2815B16F81798,
     0x483ADA7726A3C4655DA4FBFC0E1108A8FD17B448A68554199C47D08FFB10D4B8)
def add(a, b):
    if a is None: return b
    if b is None: return a
    if a[0] == b[0]:
        if (a[1] + b[1]) % P == 0: return None
        m = 3 * a[0] * a[0] * pow(2 * a[1], -1, P) % P
    else:
        m = (b[1] - a[1]) * pow(b[0] - a[0], -1, P) % P
    x = (m * m - a[0] - b[0]) % P
    return (x, (m * (a[0] - x) - a[1]) % P)
def mul(k, a):
    r = None
    while k:
        if k & 1: r = add(r, a)
        a = add(a, a); k >>= 1
    return r
def public(key):
    x, y = mul(int(key, 16), G)
    return '%064x%064x' % (x, y)
def sign(key, digest, k):
    d, z, k = int(key, 16), int(digest, 16), int(k, 16)
    r = mul(k, G)[0] % N
    s = pow(k, -1, N) * (z + r * d) % N
    return '%064x%064x' % (r, min(s, N - s))
def verify(pub, digest, sig):
    r, s, z = int(sig[:64], 16), int(sig[64:], 16), int(digest, 16)
    q = (int(pub[:64], 16), int(pub[64:], 16))
    w = pow(s, -1, N)
    x = add(mul(z * w % N, G), mul(r * w % N, q))
    return x is not None and x[0] % N == r

# --- literals of the tests
class Names(ast.NodeTransformer):
    def visit_Name(self, n):
        d = {'null': None, 'true': True, 'false': False}
        return ast.Constant(d[n.id]) if n.id in d else n
def literal(node):
    if isinstance(node, ast.Call) and isinstance(node.func, ast.Attribute) and node.func.attr == 'strip' and not node.args:
        return literal(node.func.value).strip()
    if isinstance(node, ast.Call) and isinstance(node.func, ast.Attribute) and node.func.attr == 'hex' and not node.args:
        return literal(node.func.value).hex()
    return ast.literal_eval(Names().visit(node))
def tests(name):
    for f in ast.parse(open(REPO + name).read()).body:
        if not (isinstance(f, ast.FunctionDef) and f.name.startswith('test_')): continue
        v, asserts, raises, ns = {}, [], None, {}
        for s in f.body:
            if isinstance(s, ast.Assign) and len(s.targets) == 1 and isinstance(s.targets[0], ast.Name):
                n = s.targets[0].id
                if n == 'private_key_hex' and isinstance(s.value, ast.Call) and isinstance(s.value.func.value, ast.Name):
                    v[n] = v['private_key_bytes'].hex(); continue
                try: v[n] = literal(s.value)
                except Exception: pass
                if n == 'a' and isinstance(s.value, ast.Call):
                    for k in s.value.keywords:
                        ns[k.arg] = v[{'available_inputs_data': 'available_inputs_data', 'design': 'design'}[k.value.id]] if isinstance(k.value, ast.Name) else literal(k.value)
            elif isinstance(s, ast.Assert): asserts.append(s.test)
            elif isinstance(s, ast.With): raises = s.items[0].context_expr.args[0].id
        yield f.name, v, asserts, raises, ns

# --- wire format, for the digests of the tables only
def digests(hexform, scripts):
    b = bytes.fromhex(hexform); i = 4
    n = b[i]; i += 1; ins = []
    for _ in range(n):
        prev = b[i:i + 36]; l = b[i + 36]; script = b[i + 37:i + 37 + l]; i += 37 + l; seq = b[i:i + 4]; i += 4
        ins.append((prev, script, seq))
    tail = b[i:]
    out = []
    for j in range(n):
        m = b[:4] + bytes([n])
        for k, (prev, _, seq) in enumerate(ins):
            m += prev + (bytes([25]) + bytes.fromhex(scripts[j]) if k == j else b'\0') + seq
        m += tail + bytes.fromhex('01000000')
        out.append(hashlib.sha256(hashlib.sha256(m).digest()).digest().hex())
    return out, [(x[1][-64:].hex()) for x in ins]
B58 = '123456789ABCDEFGHJKLMNPQRSTUVWXYZabcdefghijkmnopqrstuvwxyz'
def p2pkh(addr):
    n = 0
    for c in addr: n = n * 58 + B58.index(c)
    return '76a914' + n.to_bytes(25, 'big')[1:21].hex() + '88ac'

# --- Coq text
def cs(s): return '(lit "%s")' % s
def cv(v):
    if v is None: return 'PNone'
    if v is True: return 'PBool true'
    if v is False: return 'PBool false'
    if isinstance(v, int): return 'PInt %d' % v
    if isinstance(v, str): return 'PStr %s' % cs(v)
    if isinstance(v, list): return 'PList [%s]' % '; '.join(cv(x) for x in v)
    if isinstance(v, dict): return 'PDict [%s]' % '; '.join('(%s, %s)' % (cs(k), cv(x)) for k, x in v.items())
    raise TypeError(v)
def opt(x): return 'None' if x is None else '(Some (%s))' % cv(x)

pubs, sigs, ok = {}, {}, {}
def key(k): k = k.rjust(64, '0'); pubs[k] = public(k); return k
out = []
def ex(name, stmt): out.append('Example %s : %s.\nProof. vm_compute. reflexivity. Qed.\n' % (name, stmt))

full = '--full' in sys.argv
notes = []
def pick(n): return full or n in ('test_p1', 'test_p1_reverse', 'test_p2', 'test_a2', 'test_a8', 'test_tx1', 'test_tx2', 'test_output_shortfall',
                                  'test_add_input_to_pay_fee', 'test_fee_rate_argument_3', 'test_duplicate_change_output_address_error')
for f in ('test_address.py', 'test_private_key.py'):
    for name, v, asserts, _, _ in tests(f):
        if not pick(name): continue
        for a in asserts:
            want = a.comparators[0]
            if isinstance(a.left, ast.Call): continue
            if 'private_key_wif' in v:
                ex(name, 'private_key_wif_to_hex (PStr %s) = Ok %s' % (cs(v['private_key_wif']), cs(literal(want)))); pubs.setdefault(literal(want), public(literal(want)))
            else:
                key(v['private_key_hex'])
                fn = 'private_key_hex_to_address' if f == 'test_address.py' else 'private_key_hex_to_wif'
                ex(name, '%s %s = Ok %s' % (fn, cs(v['private_key_hex']), cs(literal(want))))

def table(v, ins):
    """signatures and validity for a signed form"""
    h = v.get('tx_signed_hex_expected')
    if not h: return
    scripts = [p2pkh(x['address']) for x in ins]
    ds, ps = digests(h, scripts)
    by_pub = {public(k): k for k in v['private_keys_hex']}
    for d, p, r in zip(ds, ps, v['random_values_hex']):
        k = by_pub[p]; s = sign(k, d, r); assert verify(p, d, s)
        sigs[(k, d, r)] = s; ok[(p, d, s)] = True

def signed(name, tx, v):
    for k in v['private_keys_hex']: key(k)
    if not v.get('tx_signed_hex_expected'): return
    keys = '[%s]' % '; '.join(map(cs, v['private_keys_hex'])); rv = '(Some [%s])' % '; '.join(map(cs, v['random_values_hex']))
    out.append('Definition %s_signed : res unit * tx := Eval vm_compute in sign %s %s %s.\n' % (name, tx, keys, rv))
    ex(name + '_signed_ok', 'sign %s %s %s = (Ok tt, snd %s_signed)' % (tx, keys, rv, name))
    if v.get('tx_signed_expected'): ex(name + '_signed_dict', 'same_dict (to_dict (snd %s_signed)) (%s) = true' % (name, cv(v['tx_signed_expected'])))
    ex(name + '_signed_hex', 'to_hex_signed_form (snd %s_signed) = Ok %s' % (name, cs(v['tx_signed_hex_expected'])))
    ex(name + '_txid', 'calculate_txid (snd %s_signed) = Ok %s' % (name, cs(v['txid_expected'])))
    ex(name + '_verified', 'verify (snd %s_signed) = Ok 0' % name)

def asserted(name, tx, asserts):
    for i, a in enumerate(asserts):
        t = ast.unparse(a.left)
        w = a.comparators[0]
        if t == 'tx_unsigned.fee': ex('%s_fee' % name, 'fee %s = Some %d' % (tx, literal(w)))
        elif t.startswith('tx_unsigned.inputs['): ex('%s_in%d' % (name, i), 'option_map ti_bitcoin_amount (nth_error (tx_inputs %s) %s) = Some (Some %s)' % (tx, t[len('tx_unsigned.inputs[')], cs(literal(w))))
        elif t.startswith('tx_unsigned.outputs['): ex('%s_out%d' % (name, i), 'option_map to_satoshi_amount (nth_error (tx_outputs %s) %s) = Some %d' % (tx, t[len('tx_unsigned.outputs[')], literal(w)))

for name, v, asserts, _, _ in tests('test_transaction.py'):
    if not pick(name): continue
    out.append('Definition %s_tx : res tx := Eval vm_compute in built [%s] [%s].\nDefinition %s_u : tx := Eval vm_compute in or_dummy %s_tx.\n' %
      (name, '; '.join(cv(x) for x in v['inputs_data']), '; '.join(cv(x) for x in v['outputs_data']), name, name))
    ex(name + '_created', '%s_tx = Ok %s_u' % (name, name))
    if v.get('tx_unsigned_expected'): ex(name + '_dict', 'same_dict (to_dict %s_u) (%s) = true' % (name, cv(v['tx_unsigned_expected'])))
    asserted(name, name + '_u', asserts)
    table(v, v['inputs_data']); signed(name, name + '_u', v)

EXN = {}
for name, v, asserts, raises, ns in tests('test_create_transaction.py'):
    if not pick(name): continue
    d = dict(ns['design'])
    if 'input_selection_approach' in d:
        # The code reads input_selection_approaches (create_transaction.py l.145): the key of this test is ignored by it.
        notes.append(name)
        d = {('input_selection_approaches' if k == 'input_selection_approach' else k): x for k, x in d.items()}
    n = 'mk_ns %s %s %s %s' % (opt(ns['inputs']), opt(d), opt(ns.get('allow_duplicate_output_address')), opt(ns.get('change_output_index')))
    out.append('Definition %s_ns : namespace := %s.\n' % (name, n))
    if raises:
        ex(name, 'fst (create_transaction %s_ns) = Err %s' % (name, raises)); continue
    out.append('Definition %s_u : tx := Eval vm_compute in or_dummy (fst (create_transaction %s_ns)).\n' % (name, name))
    ex(name + '_created', 'fst (create_transaction %s_ns) = Ok %s_u' % (name, name))
    if v.get('tx_unsigned_expected'): ex(name + '_dict', 'same_dict (to_dict %s_u) (%s) = true' % (name, cv(v['tx_unsigned_expected'])))
    asserted(name, name + '_u', asserts)
    if v.get('tx_signed_hex_expected'):
        by = {x['transaction_id'] + str(x['previous_output_index']): x for x in ns['inputs']}
        b = v['tx_signed_hex_expected']; ins = sorted(ns['inputs'], key=lambda x: b.index(bytes.fromhex(x['transaction_id'])[::-1].hex() + x['previous_output_index'].to_bytes(4, 'little').hex()))
        table(v, ins); signed(name, name + '_u', v)

head = r'''(** The repository's own test vectors (bitcoin_toolset/test/*.py), evaluated in the model.  Generated by tools/fidelity.py from the literals
    of the test files%s.  These are tests of the model, not proofs of properties. *)
From Coq Require Import String.
From Verif Require Import PyBase Env PyNum Validate Basic TxInput TxOutput Tx Create Demo DemoTx Spec EnvOk.
From Verif Require RealHash.

Definition find3 {A : Type} (l : list (pystr * pystr * pystr * A)) (a b c : pystr) : option A :=
  option_map snd (find (fun '(x, y, z, _) => str_eqb x a && str_eqb y b && str_eqb z c) l).
Definition vec_public : list (pystr * pystr) := [%s].
Definition vec_signatures : list (pystr * pystr * pystr * pystr) := [%s].
Definition vec_valid : list (pystr * pystr * pystr * bool) := [%s].
Definition vec_sign (k d r : pystr) : res pystr := match find3 vec_signatures k d r with Some s => Ok s | None => Err LibraryError end.
Definition vec_verify (p d s : pystr) : res bool := match find3 vec_valid p d s with Some b => Ok b | None => Ok false end.
(** Real hashes, recorded curve operations. *)
#[local] Instance vec_env : Env := {|
  uni_isdigit := demo_isdigit; uni_decimal := demo_decimal; uni_isspace := demo_isspace;
  sha256 := RealHash.demo_sha256; ripemd160 := RealHash.demo_ripemd160;
  ec_format_private_key_hex := toy_format;
  ec_validate_private_key_hex := toy_validate;
  ec_public_key := fun k => match map_find k vec_public with Some p => Ok p | None => Err LibraryError end;
  ec_sign := fun _ _ => Err LibraryError;
  ec_sign_digest := fun _ _ => Err LibraryError;
  ec_sign_digest_k := vec_sign;
  ec_verify := vec_verify;
  ec_verify_digest := vec_verify;
  ec_split := fun s => if Nat.eqb (length s) 128 then Ok (firstn 64 s, skipn 64 s) else Err LibraryError;
  der_encode := demo_der_encode; der_decode := demo_der_decode;
  json_dumps := ser; json_loads := demo_loads
|}.

(** Published vectors: FIPS 180-2 appendix B.1; the RIPEMD-160 page of its authors. *)
Example sha256_abc : hex_of (RealHash.demo_sha256 (lit "abc")) = lit "ba7816bf8f01cfea414140de5dae2223b00361a396177a9cb410ff61f20015ad".
Proof. vm_compute. reflexivity. Qed.
Example ripemd160_abc : hex_of (RealHash.demo_ripemd160 (lit "abc")) = lit "8eb208f7e05d987a9b044a8e98c6b087f15a0bfc".
Proof. vm_compute. reflexivity. Qed.

(** The assumptions about the hashes hold of the real ones. *)
Lemma be4_bytes : forall x, bytes (RealHash.be4 x).
Proof. intros x. unfold RealHash.be4. repeat constructor; try (apply Z.mod_pos_bound; reflexivity). Qed.
Lemma le4_bytes : forall x, bytes (RealHash.le4 x).
Proof. intros x. unfold RealHash.le4. repeat constructor; try (apply Z.mod_pos_bound; reflexivity). Qed.
Theorem vec_hash : HashOk vec_env.
Proof.
  split; intros x; (split; [|reflexivity]).
  - change (bytes (RealHash.demo_sha256 x)). unfold RealHash.demo_sha256, bytes. repeat (apply Forall_app; split); apply be4_bytes.
  - change (bytes (RealHash.demo_ripemd160 x)). unfold RealHash.demo_ripemd160, bytes. repeat (apply Forall_app; split); apply le4_bytes.
Qed.
Theorem vec_zero_address : ZeroAddressOk vec_env.
Proof. assert (H : (hd 0 (@checksum vec_env (repeat 0 21)) =? 0) = false) by (vm_compute; reflexivity). apply Z.eqb_neq in H. exact H. Qed.

(** == of Python dictionaries: the order of the keys does not count. *)
Fixpoint same (fuel : nat) (a b : pyval) : bool :=
  match fuel with
  | O => false
  | S f =>
      match a, b with
      | PNone, PNone => true
      | PBool x, PBool y => Bool.eqb x y
      | PInt x, PInt y => x =? y
      | PStr x, PStr y => str_eqb x y
      | PList x, PList y => Nat.eqb (length x) (length y) && forallb (fun '(u, v) => same f u v) (combine x y)
      | PDict x, PDict y =>
          Nat.eqb (length x) (length y) &&
          forallb (fun '(k, u) => existsb (fun '(k', v) => str_eqb k k' && same f u v) y) x
      | _, _ => false
      end
  end.
Definition same_dict (a : res pyval) (b : pyval) : bool := match a with Ok v => same 9 v b | Err _ => false end.

(** test_transaction.py L54-69: build_tx_inputs_and_outputs; then Transaction.create *)
Definition field (d : pyval) (k : pystr) : pyval := match d with PDict l => match find (fun p => str_eqb (fst p) k) l with Some p => snd p | None => PNone end | _ => PNone end.
Fixpoint each {A B : Type} (f : A -> res B) (l : list A) : res (list B) :=
  match l with [] => Ok [] | x :: r => y <- f x ;; ys <- each f r ;; Ok (y :: ys) end.
Definition built (ins outs : list pyval) : res tx :=
  ins <- each (fun x => s <- bitcoin_to_satoshi (field x (lit "bitcoin_amount")) ;;
                        txin_create (field x (lit "address")) (field x (lit "transaction_id")) (field x (lit "previous_output_index")) s) ins ;;
  outs <- each (fun x => s <- bitcoin_to_satoshi (field x (lit "bitcoin_amount")) ;; txout_create (field x (lit "address")) s) outs ;;
  tx_create ins outs.

'''
sel = '' if full else ' (a selection; tools/fidelity.py --full checks all)'
text = head % (sel,
    '; '.join('(%s, %s)' % (cs(k), cs(p)) for k, p in pubs.items()),
    '; '.join('(%s, %s, %s, %s)' % (cs(a), cs(b), cs(c), cs(s)) for (a, b, c), s in sigs.items()),
    '; '.join('(%s, %s, %s, true)' % (cs(a), cs(b), cs(c)) for (a, b, c), s in ok.items()))
body = text + '\n'.join(out)
if notes: body += '\n(** In %s the key input_selection_approach, which the code ignores, is read as input_selection_approaches. *)\n' % ', '.join(notes)
if full:
    d = tempfile.mkdtemp()
    open(d + '/Full.v', 'w').write(body)
    r = subprocess.run(['coqc', '-Q', HERE + '/rocq/theories', 'Verif', d + '/Full.v'], capture_output=True, text=True)
    print(body.count('\nExample '), 'examples:', 'all hold' if r.returncode == 0 else r.stdout + r.stderr)
    print(d)
else:
    open(HERE + '/rocq/theories/Fidelity.v', 'w').write(body)
    print(body.count('\nExample '), 'examples in Fidelity.v')

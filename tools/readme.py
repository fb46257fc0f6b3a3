#!/usr/bin/env python3
"""Runs the model on the sessions printed in the README of the repository: command line in, text out.

README.md is read as text.  Each command becomes a Coq example: the model of the whole program (argument parser, files, JSON,
tasks), in an environment with SHA-256 and RIPEMD-160 of RealHash.v, DER of Demo.v, the JSON module of Json.v and tables for the
elliptic curve operations (from the README's own keys and signatures, checked here by a small secp256k1), prints what the README shows.

  readme.py          writes rocq/theories/FidelityReadme.v (a selection, part of the build)
  readme.py --full   checks all of them in a temporary directory, after the build, and reports
"""
import hashlib, os, re, shlex, subprocess, sys, tempfile
HERE = os.path.dirname(os.path.dirname(os.path.abspath(__file__)))
P = 2**256 - 2**32 - 977
N = 0xFFFFFFFFFFFFFFFFFFFFFFFFFFFFFFFEBAAEDCE6AF48A03BBFD25E8CD0364141
G = (0x79BE667EF9DCBBAC55A06295CE870B07029BFCDB2DCE28D959F2815B16F81798, 0x483ADA7726A3C4655DA4FBFC0E1108A8FD17B448A68554199C47D08FFB10D4B8)
def add(a, b):
    if a is None: return b
    if b is None: return a
    if a[0] == b[0]:
        if (a[1] + b[1]) % P == 0: return None
        m = 3 * a[0] * a[0] * pow(2 * a[1], -1, P) % P
    else: m = (b[1] - a[1]) * pow(b[0] - a[0], -1, P) % P
    x = (m * m - a[0] - b[0]) % P
    return (x, (m * (a[0] - x) - a[1]) % P)
def mul(k, a):
    r = None
    while k:
        if k & 1: r = add(r, a)
        a = add(a, a); k >>= 1
    return r
def public(key): return '%064x%064x' % mul(int(key, 16), G)
def verify(pub, digest, sig):
    r, s, z = int(sig[:64], 16), int(sig[64:], 16), int(digest, 16)
    w = pow(s, -1, N)
    x = add(mul(z * w % N, G), mul(r * w % N, (int(pub[:64], 16), int(pub[64:], 16))))
    return x is not None and x[0] % N == r

text = open('/repo/README.md').read()
lines = text.split('\n')
def find(s, start=0):
    for i in range(start, len(lines)):
        if s in lines[i]: return i
    raise KeyError(s)
def fenced(i):
    while not lines[i].startswith('```'): i += 1
    j = i + 1
    while lines[j] != '```': j += 1
    return '\n'.join(lines[i + 1:j]), j + 1
def block(i):
    while lines[i] != '{': i += 1
    j = i
    while lines[j] != '}': j += 1
    return '\n'.join(lines[i:j + 1])
def argv(l): return shlex.split(l[l.index('cli.py') + 6:].split(' > ')[0])

def coq(s): return '(lit "%s")' % s.replace('"', '""')
out, full = [], '--full' in sys.argv
SELECTED = ('readme_unsigned', 'readme_address', 'readme_verified_json')
def ex(name, fs, args, expect):
    if not (full or name in SELECTED): return
    files = 'Err LibraryError'
    for f, t in reversed(fs): files = 'if str_eqb f %s then Ok %s else %s' % (coq(f), coq(t), files)
    out.append('Example %s : program (E := readme_env) (mk_fs (fun f => %s) (fun d => Err LibraryError)) no_shell [] (fun _ => Ok tt)\n  [%s] = %s.\nProof. vm_compute. reflexivity. Qed.\n'
               % (name, files, '; '.join(coq(a) for a in args), expect))

# the first commands
pubs, signs, sigs, oks = {}, {}, {}, {}
shown = {}
i = 0
for name, task in (('readme_wif', 'get_private_key_wif'), ('readme_hex', 'private_key_wif_to_hex'), ('readme_public', 'get_public_key'), ('readme_address', 'get_address'), ('readme_signature', 'sign_data')):
    i = find('python cli.py --task ' + task, i)
    j = find('# result:', i) + 1
    shown[task] = lines[j][2:]
    ex(name, [], argv(lines[i]), '([%s], Ok tt)' % coq(shown[task]))
key1 = shown['private_key_wif_to_hex']
pubs[key1] = public(key1); assert pubs[key1] == shown['get_public_key']
hello = b'hello world'.hex()
signs[(key1, hello)] = shown['sign_data']
assert verify(pubs[key1], hashlib.sha256(b'hello world').hexdigest(), shown['sign_data'])
oks[(pubs[key1], hello, shown['sign_data'])] = True
i = find('--task verify_data_signature')
a = [x.replace('$PUBLIC_KEY', pubs[key1]).replace('$SIGNATURE', shown['sign_data']) for x in argv(lines[i])]
ex('readme_verified', [], a, '([%s], Ok tt)' % coq('Valid signature.'))

# the step-by-step session
i = find('# Example transaction creation (slow')
inputs, i = fenced(i)
design, i = fenced(i)
keyfile, i = fenced(i)
key = keyfile.strip()
i = find('--task create_unsigned_transaction_json', i)
cmd1 = argv(lines[i]); unsigned = block(i)
i = find('--task validate_unsigned_transaction_json', i); cmd2 = argv(lines[i]); assert lines[i + 1] == 'Unsigned transaction data validated.'
i = find('--task create_signed_transaction_json', i); cmd3 = argv(lines[i])
i = find('cat cli_output/tx_signed.json', i); signed = block(i)
i = find('--task verify_signed_transaction_json', i); cmd4 = argv(lines[i]); assert lines[i + 1] == 'Valid signature.'
i = find('--task create_signed_transaction_hex', i); cmd5 = argv(lines[i])
i = find('cat cli_output/tx_signed.txt', i); txhex = lines[i + 1]
i = find('--task verify_signed_transaction_hex', i); cmd6 = argv(lines[i]); assert lines[i + 1] == 'Valid signature.'
i = find('--task decode_signed_transaction_hex', i); cmd7 = argv(lines[i]); decoded = block(i)
# its digest and signature
b = bytes.fromhex(txhex)
l = b[41]; script = b[42:42 + l]
der = script[1:script[0]]
rl = der[3]; r = int.from_bytes(der[4:4 + rl], 'big'); sl = der[5 + rl]; s = int.from_bytes(der[6 + rl:6 + rl + sl], 'big')
sig = '%064x%064x' % (r, s); pub = script[-64:].hex(); pubs[key] = public(key); assert pub == pubs[key]
spk = bytes.fromhex(re.search(r'"script_pub_key": "(\w+)"', unsigned).group(1))
m = b[:41] + bytes([len(spk)]) + spk + b[42 + l:] + bytes.fromhex('01000000')
digest = hashlib.sha256(hashlib.sha256(m).digest()).hexdigest()
assert verify(pub, digest, sig)
sigs[(key, digest)] = sig; oks[(pub, digest, sig)] = True
IN = [('cli_input/inputs.json', inputs + '\n'), ('cli_input/design.json', design + '\n')]
ok = lambda s: '([%s], Ok tt)' % coq(s)
ex('readme_unsigned', IN, cmd1, ok(unsigned))
U = [('cli_output/tx_unsigned.json', unsigned + '\n'), ('../bitcoin_private_keys_test/private_key_1.txt', keyfile + '\n')]
ex('readme_validated', U, cmd2, ok('Unsigned transaction data validated.'))
ex('readme_signed', U, cmd3, ok(signed))
S = [('cli_output/tx_signed.json', signed + '\n')]
ex('readme_verified_json', S, cmd4, ok('Valid signature.'))
ex('readme_hexed', S, cmd5, '([%s], Err NameError)' % coq(txhex))
H = [('cli_output/tx_signed.txt', txhex + '\n')]
ex('readme_verified_hex', H, cmd6, ok('Valid signature.'))
ex('readme_decoded', H, cmd7, ok(decoded))
ex('readme_whole', IN + [('../bitcoin_private_keys_test/private_key_1.txt', keyfile + '\n')],
   ['--task', 'create_transaction', '--private-key-file', '../bitcoin_private_keys_test/private_key_1.txt', '--input-file', 'cli_input/inputs.json', '--design-file', 'cli_input/design.json'], ok(txhex))

def table(d): return '; '.join('(%s)' % ', '.join(coq(x) for x in (k if isinstance(k, tuple) else (k,)) + ((v,) if not isinstance(v, bool) else ())) for k, v in d.items())
head = r'''(** The sessions printed in the README of the repository, run in the model of the whole program.  Generated by tools/readme.py from README.md
    (%s).  These are tests of the model, not proofs of properties. *)
From Coq Require Import String Floats.SpecFloat.
From Verif Require Import PyBase Env PyNum Validate Basic TxInput TxOutput Tx Create Logger Cli Files Json Demo DemoTx DemoCreate.
From Verif Require Import Args.
From Verif Require RealHash.

Definition find2 {A : Type} (l : list (pystr * pystr * A)) (a b : pystr) : option A :=
  option_map snd (List.find (fun '(x, y, _) => str_eqb x a && str_eqb y b) l).
Definition readme_public_keys : list (pystr * pystr) := [%s].
Definition readme_signatures : list (pystr * pystr * pystr) := [%s].
Definition readme_digest_signatures : list (pystr * pystr * pystr) := [%s].
Definition readme_valid : list (pystr * pystr * pystr) := [%s].
Definition readme_sign (l : list (pystr * pystr * pystr)) (k d : pystr) : res pystr :=
  k <- toy_format k ;; match find2 l k d with Some s => Ok s | None => Err LibraryError end.
Definition readme_verify (p d s : pystr) : res bool := Ok (existsb (fun '(x, y, z) => str_eqb x p && str_eqb y d && str_eqb z s) readme_valid).
(** Real hashes and JSON, recorded curve operations. *)
Definition readme_env : Env := with_json (fun _ => []) {|
  uni_isdigit := demo_isdigit; uni_decimal := demo_decimal; uni_isspace := demo_isspace;
  sha256 := RealHash.demo_sha256; ripemd160 := RealHash.demo_ripemd160;
  ec_format_private_key_hex := toy_format;
  ec_validate_private_key_hex := toy_validate;
  ec_public_key := fun k => match map_find k readme_public_keys with Some p => Ok p | None => Err LibraryError end;
  ec_sign := readme_sign readme_signatures;
  ec_sign_digest := readme_sign readme_digest_signatures;
  ec_sign_digest_k := fun _ _ _ => Err LibraryError;
  ec_verify := readme_verify;
  ec_verify_digest := readme_verify;
  ec_split := fun s => if Nat.eqb (length s) 128 then Ok (firstn 64 s, skipn 64 s) else Err LibraryError;
  der_encode := demo_der_encode; der_decode := demo_der_decode;
  json_dumps := ser; json_loads := demo_loads
|}.

'''
body = head % ('all of them' if full else 'a selection; tools/readme.py --full checks all', table(pubs), table(signs), table(sigs), table(oks)) + '\n'.join(out)
if full:
    d = tempfile.mkdtemp()
    open(d + '/Full.v', 'w').write(body)
    r = subprocess.run(['coqc', '-Q', HERE + '/rocq/theories', 'Verif', d + '/Full.v'], capture_output=True, text=True)
    print(body.count('\nExample '), 'examples:', 'all hold' if r.returncode == 0 else (r.stdout + r.stderr)[:3000])
    print(d)
else:
    open(HERE + '/rocq/theories/FidelityReadme.v', 'w').write(body)
    print(body.count('\nExample '), 'examples in FidelityReadme.v')

#!/usr/bin/env python3
"""Generate rocq/theories/Prop_<X>.v from rocq/theories/C_<X>.v.

C_<X>.v proves lemmas named cNN_...; Prop_<X>.v restates each of them as a theorem CNN_... closed by
`exact` and followed by `Print Assumptions`.  Examples named exNN_... are copied with their proofs.
Only statements are copied: Coq re-checks every one of them."""
import re, glob, os, sys
root = os.path.join(os.path.dirname(os.path.abspath(__file__)), '..', 'rocq', 'theories')
os.chdir(root)
tok = re.compile(r'(?P<c>\(\*\*(?:(?!\*\)).)*\*\)\s*)?(?P<k>Lemma|Example) (?P<n>(c|ex)\d\d+_\w+)\s*:(?P<s>.*?\.)\nProof\.(?P<p>.*?)(?P<q>Qed|Defined)\.', re.S)
for f in sorted(glob.glob('C_*.v')):
    src = open(f).read()
    name = f[2:-2]
    m = re.search(r'^(From .*?\n)+', src, re.M)
    out = ['(** Property theorems: generated by tools/genprops.py from %s, which holds the proofs. *)\n' % f]
    head = re.findall(r'^(?:From|Import|Open Scope|Local Open Scope)[^\n]*\n', src, re.M)
    def flt(h):
        if not h.startswith('From Verif Require Import'): return h
        mods = [x for x in h.strip().rstrip('.').split()[4:] if not re.search(r'(Proofs|Lemmas)$|^C_', x)]
        return 'From Verif Require Import ' + ' '.join(mods) + '.\n' if mods else ''
    out += [flt(h) for h in head]
    out.append('From Verif Require C_%s.\n\n' % name)
    seen = set()
    for m in tok.finditer(src):
        n = m.group('n'); s = m.group('s').strip(); c = (m.group('c') or '')
        if n in seen: sys.exit('duplicate %s' % n)
        seen.add(n)
        if m.group('k') == 'Lemma' and n.startswith('c'):
            N = 'C' + n[1:]
            s1 = s[:-1]
            out.append('%sTheorem %s : forall E : Env,\n  %s.\nProof. exact (fun E => C_%s.%s). Qed.\nPrint Assumptions %s.\n\n'
                       % (c, N, s1, name, n, N))
        elif m.group('k') == 'Example':
            out.append('%sExample %s : forall E : Env,\n  %s\nProof. exact (fun E => C_%s.%s). Qed.\n\n' % (c, n, s, name, n))
    open('Prop_%s.v' % name, 'w').write(''.join(out))

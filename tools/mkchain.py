#!/usr/bin/env python3
"""Write the chain of doublings and additions that shows N G = O on a curve (CurveSub.run).

usage: mkchain.py p a b gx gy n   (integers, hexadecimal with 0x); prints a list of steps
       mkchain.py p a b gx gy n NAME CURVE SHIFTS   prints theories/Chain<NAME>.v for CURVE of Curves.v;
       SHIFTS is p as a sum of powers of two, as in +256-224+192+96-0"""
import sys
p, a, b, gx, gy, n = [int(s, 0) for s in sys.argv[1:7]]
assert (gy * gy - (gx**3 + a * gx + b)) % p == 0
k = n - 1
naf = []
while k:
    if k & 1:
        d = 2 - (k & 3); naf.append(d); k -= d
    else:
        naf.append(0)
    k >>= 1
naf.reverse()
def h(z): return ('(-0x%x)' % -z) if z < 0 else '0x%x' % z
steps = []
x, y = gx, gy
for d in naf[1:]:
    l = (3 * x * x + a) * pow(2 * y, -1, p) % p
    q1 = (l * 2 * y - 3 * x * x - a) // p; assert l * 2 * y == 3 * x * x + a + q1 * p
    x2 = (l * l - 2 * x) % p; q2 = (l * l - 2 * x - x2) // p
    y2 = (l * (x - x2) - y) % p; q3 = (l * (x - x2) - y - y2) // p
    steps.append('Dbl %s %s %s %s' % tuple(map(h, (l, q1, q2, q3))))
    x, y = x2, y2
    if d:
        l = (d * gy - y) * pow(gx - x, -1, p) % p
        q1 = (l * (gx - x) - d * gy + y) // p; assert l * (gx - x) == d * gy - y + q1 * p
        x2 = (l * l - x - gx) % p; q2 = (l * l - x - gx - x2) // p
        y2 = (l * (x - x2) - y) % p; q3 = (l * (x - x2) - y - y2) // p
        steps.append('Add %s %s %s %s %s' % tuple(map(h, (d, l, q1, q2, q3))))
        x, y = x2, y2
assert (x, y) == (gx, p - gy)
body = '  [ ' + ';\n    '.join(steps) + ' ].'
if len(sys.argv) == 7:
    print(body)
    sys.exit()
import re
NAME, CURVE, SH = sys.argv[7:10]
terms = [(t[0], int(t[1:])) for t in re.findall(r'[+-][0-9]+', SH)]
assert sum((1 if g == '+' else -1) * 2**e for g, e in terms) == p
def term(e, f): return f(e) if e else ('q' if f('x')[0] == 'Z' else '1')
def expr(f): return ''.join((' %s ' % g if i else '') + term(e, f) for i, (g, e) in enumerate(terms))
sh = expr(lambda e: 'Z.shiftl q %s' % e)
pw = expr(lambda e: '2 ^ %s' % e)
txt = '''(** * Chain@: N times the base point of the curve C@ is infinity, step by step

    Written by tools/mkchain.py: each doubling or addition of the base point comes with its slope and
    the quotients of its three equations modulo p; [run] only multiplies and compares. *)
From Coq Require Import ZArith List Bool Lia.
From Verif Require Import Curves CurveSub.
Import ListNotations.
Open Scope Z_scope.

(** q p for p = PW *)
Definition mulp_@ (q : Z) : Z := SH.
Lemma mulp_@_ok : forall q, mulp_@ q = q * c_P C@.
Proof.
  intros q. unfold mulp_@. rewrite !Z.shiftl_mul_pow2 by discriminate.
  change (c_P C@) with (PW). ring.
Qed.
Definition chain_@ : list step :=
BODY
Lemma chain_@_ok :
  run (c_P C@) (A@) mulp_@ (c_Gx C@) (c_Gy C@) (1, c_Gx C@, c_Gy C@) chain_@ =
  Some (c_N C@ - 1, c_Gx C@, c_P C@ - c_Gy C@).
Proof. vm_cast_no_check (eq_refl (Some (c_N C@ - 1, c_Gx C@, c_P C@ - c_Gy C@))). Qed.'''
print(txt.replace('BODY', body).replace('A@', str(a)).replace('SH', sh).replace('PW', pw).replace('C@', CURVE).replace('@', NAME))

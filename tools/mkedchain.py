#!/usr/bin/env python3
"""Write theories/ChainEd.v: doublings and additions that show L B = O on edwards25519 (EdZ.erun)."""
p = 2**255 - 19
L = 2**252 + 27742317777372353535851937790883648493
d = -121665 * pow(121666, -1, p) % p
gy = 4 * pow(5, -1, p) % p
gx = 15112221349535400772501151409588531511454012693041857206046113283949847762202
assert (gy * gy - gx * gx - 1 - d * gx * gx * gy * gy) % p == 0
ones, n = 2**255 - 1, 255
def red(x):
    for _ in range(3):
        x = 19 * (x >> n) + (x & ones)
    return x
def h(z): return ('(-0x%x)' % -z) if z < 0 else '0x%x' % z
k = L
naf = []
while k:
    if k & 1:
        e = 2 - (k & 3); naf.append(e); k -= e
    else:
        naf.append(0)
    k >>= 1
naf.reverse()
x, y = gx, gy
dgx = d * gx % p
steps = []
for e in naf[1:]:
    s, t = x * x, y * y; m = red(t - s)
    x2 = 2 * x * y * pow(m, -1, p) % p; y2 = (t + s) * pow(2 - m, -1, p) % p
    q1, r1 = divmod(x2 * m - 2 * x * y, p); q2, r2 = divmod(y2 * (2 - m) - t - s, p); assert r1 == r2 == 0
    steps.append('EDbl %s %s %s %s' % tuple(map(h, (x2, y2, q1, q2)))); x, y = x2, y2
    if e:
        v = y * gy; w = red(red(x * dgx) * red(v))
        if e == 1:
            a, b, n1, n2 = 1 + w, 1 - w, x * gy + y * gx, v + x * gx
        else:
            a, b, n1, n2 = 1 - w, 1 + w, x * gy - y * gx, v - x * gx
        x2 = n1 * pow(a, -1, p) % p; y2 = n2 * pow(b, -1, p) % p
        q1, r1 = divmod(x2 * a - n1, p); q2, r2 = divmod(y2 * b - n2, p); assert r1 == r2 == 0
        steps.append('EAdd %s %s %s %s %s' % tuple(map(h, (e, x2, y2, q1, q2)))); x, y = x2, y2
assert (x, y) == (0, 1)
print('''(** * ChainEd: L times the base point of edwards25519 is the neutral element, step by step

    Written by tools/mkedchain.py: each doubling or addition of the base point comes with its result and the two
    quotients modulo p; [erun] only multiplies, folds and compares. *)
From Coq Require Import ZArith List Bool Lia.
From Verif Require Import Pocklington Ed25519 EdZ.
Import ListNotations.
Open Scope Z_scope.

Definition ed_mulp (q : Z) : Z := Z.shiftl q 255 - 19 * q.
Lemma ed_mulp_ok : forall q, ed_mulp q = q * edP.
Proof. intros q. unfold ed_mulp, edP. rewrite Z.shiftl_mul_pow2 by discriminate. ring. Qed.
Definition ed_red : Z -> Z := red_fold 3 255 %d [(true, 4); (true, 1); (true, 0)].
Lemma ed_red_ok : red_ok edP ed_red.
Proof. apply red_fold_ok. vm_compute. reflexivity. Qed.
Definition ed_dgx : Z := %s.
Definition chain_ed : list estep :=
  [ %s ].
Lemma chain_ed_ok : erun ed_mulp ed_red edBx edBy ed_dgx (1, edBx, edBy) chain_ed = Some (edL, 0, 1).
Proof. vm_cast_no_check (eq_refl (Some (edL, 0, 1))). Qed.''' % (ones, h(dgx), ';\n    '.join(steps)))

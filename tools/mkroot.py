#!/usr/bin/env python3
"""Write rocq/theories/Root<NAME>.v: x^p modulo x^3 - 3x + b over F_p, with the quotients of each step,
and the Bezout coefficients showing that x^p - x and x^3 - 3x + b have no common root.

usage: mkroot.py NAME CURVE p b   (NAME of the file, CURVE in Curves.v; p and b may be Python expressions)"""
import sys
NAME, CURVE = sys.argv[1:3]
p, b = [eval(s) for s in sys.argv[3:5]]

def hx(z): return hex(z) if z >= 0 else "(-%s)" % hex(-z)
c0, c1, c2 = 0, 1, 0
steps = []
for bit in bin(p)[3:]:
    q3, d3 = divmod(2*c1*c2, p)
    q4, d4 = divmod(c2*c2, p)
    q0, s0 = divmod(c0*c0 - b*d3, p)
    q1, s1 = divmod(2*c0*c1 + 3*d3 - b*d4, p)
    q2, s2 = divmod(2*c0*c2 + c1*c1 + 3*d4, p)
    q5 = q6 = 0
    if bit == "1":
        q5, t0 = divmod(-b*s2, p)
        q6, t1 = divmod(s0 + 3*s2, p)
        s0, s1, s2 = t0, t1, s1
    c0, c1, c2 = s0, s1, s2
    steps.append((bit, q3, q4, q0, q1, q2, q5, q6))
c = [c0, c1, c2]

# Bezout over F_p
def pmul(f, g):
    r = [0]*(len(f)+len(g)-1)
    for i, x in enumerate(f):
        for j, y in enumerate(g): r[i+j] += x*y
    return r
def strip(f):
    f = [x % p for x in f]
    while f and f[-1] == 0: f.pop()
    return f
def divmod_(f, g):
    f = strip(f); q = [0]*max(1, len(f)-len(g)+1); i = pow(g[-1], p-2, p)
    while len(f) >= len(g):
        k = f[-1]*i % p; s = len(f)-len(g); q[s] = k
        for j, y in enumerate(g): f[s+j] -= k*y
        f = strip(f)
    return q, f
def sub(f, g):
    n = max(len(f), len(g)); f = f+[0]*(n-len(f)); g = g+[0]*(n-len(g))
    return [x-y for x, y in zip(f, g)]
u = strip([c[0], c[1]-1, c[2]]); f = [b, p-3, 0, 1]
r0, r1, s0, s1, t0, t1 = f, u, [0], [1], [1], [0]
while len(r1) > 1:
    q, r = divmod_(r0, r1)
    r0, r1 = r1, r
    s0, s1 = s1, strip(sub(s0, pmul(q, s1)))
    t0, t1 = t1, strip(sub(t0, pmul(q, t1)))
if not r1: sys.exit("there is a root")
i = pow(r1[0], p-2, p)
A = strip([x*i for x in s1]); B = strip([x*i for x in t1])
A += [0]*(3-len(A)); B += [0]*(2-len(B))
lhs = [x for x in pmul(A, [c[0], c[1]-1, c[2]])]
rhs = pmul(B, [b, -3, 0, 1])
Q = []
for k in range(5):
    v = lhs[k] + rhs[k] - (1 if k == 0 else 0)
    assert v % p == 0
    Q.append(v // p)
out = []
out.append('''(** * Root@: x^3 - 3x + b has no root modulo p on the curve C@, step by step

    Written by tools/mkroot.py: x^p modulo x^3 - 3x + b by squarings, each with quotients by p
    (CurveRoot.rrun1), and the coefficients of 1 = A (x^p - x) + B (x^3 - 3x + b). *)
From Coq Require Import ZArith List Bool Lia.
From Verif Require Import Curves Chain@ CurveRoot.
Import ListNotations.
Open Scope Z_scope.
''')
out.append("Definition root_@ : list rstep :=\n  [ " + ";\n    ".join(
    "(%s, %s)" % ("true" if q[0] == "1" else "false", ", ".join(map(hx, q[1:]))) for q in steps) + " ].")
for n, v in (("u0", c[0]), ("u1", c[1]), ("u2", c[2]), ("a0", A[0]), ("a1", A[1]), ("a2", A[2]), ("b0", B[0]), ("b1", B[1]),
             ("k0", Q[0]), ("k1", Q[1]), ("k2", Q[2]), ("k3", Q[3]), ("k4", Q[4])):
    out.append("Definition r%s_@ : Z := %s." % (n, hx(v)))
out.append('''Lemma root_@_ok : rcheck (c_P C@) (c_B C@) mulp_@ root_@ ru0_@ ru1_@ ru2_@ = true.
Proof. vm_cast_no_check (eq_refl true). Qed.
Lemma bezout_@ : 
  ra0_@ * ru0_@ + rb0_@ * c_B C@ = 1 + mulp_@ rk0_@ /\\
  ra0_@ * (ru1_@ - 1) + ra1_@ * ru0_@ + rb1_@ * c_B C@ - 3 * rb0_@ = mulp_@ rk1_@ /\\
  ra0_@ * ru2_@ + ra1_@ * (ru1_@ - 1) + ra2_@ * ru0_@ - 3 * rb1_@ = mulp_@ rk2_@ /\\
  ra1_@ * ru2_@ + ra2_@ * (ru1_@ - 1) + rb0_@ = mulp_@ rk3_@ /\\
  ra2_@ * ru2_@ + rb1_@ = mulp_@ rk4_@.
Proof. split; [|split; [|split; [|split]]]; vm_compute; reflexivity. Qed.
''')
print("\n".join(out).replace("C@", CURVE).replace("@", NAME), end="")

#!/usr/bin/env python3
"""Write rocq/theories/GroupData.v: certificates that L times the basepoint is the
neutral element and that the table entries are the odd multiples of the basepoint.
The file is only data; GroupCheck.v proves what a successful check means."""
import os, re
root = os.path.dirname(os.path.dirname(os.path.abspath(__file__)))
p = 2**252 + 27742317777372353535851937790883648493
L = 2**249 + 14490550575682688738086195780655237219
d = -126296 * pow(126297, -1, p) % p
B = (5543765830694772891887215782191909494666954494493566203295350876317221014088,
     4342203346399357328383911937825796544514269815627944563601170562971272550594)

def add(P, Q):
    (x1, y1), (x2, y2) = P, Q
    t = d * x1 * x2 * y1 * y2 % p
    return ((x1*y2 + y1*x2) * pow(1 + t, -1, p) % p, (y1*y2 + x1*x2) * pow(1 - t, -1, p) % p)

def quo(a):
    assert a % p == 0
    return a // p

def z(a): return hex(a) if a >= 0 else '(%s)' % hex(a)

def dbl_cert(P):
    x0, y0 = P
    x, y = R = add(P, P)
    w = (y0 - x0) * (y0 + x0)
    q1 = quo(x * w - 2 * x0 * y0)
    q2 = quo(y * (2 - w) - (x0*x0 + y0*y0))
    return R, 'Dbl %s %s %s %s' % tuple(map(z, (x, y, q1, q2)))

def add_cert(P, Q):
    (x1, y1), (x2, y2) = P, Q
    x, y = R = add(P, Q)
    m, n = x1 * y2, y1 * x2
    t = m * n % p
    q0 = quo(m * n - t)
    q1 = quo(x * (126297 - 126296 * t) - 126297 * (m + n))
    q2 = quo(y * (126297 + 126296 * t) - 126297 * (y1*y2 + x1*x2))
    return R, tuple(map(z, (x, y, t, q0, q1, q2)))

steps = []
n, D, A, an, dn = L, B, (0, 1), 0, 1
while n:
    if n & 1:
        k = 2 - (n & 3)
        Q = D if k == 1 else (-D[0], D[1])
        A, c = add_cert(A, Q)
        steps.append('AddD %s %s %s %s %s %s %s' % (('false' if k == 1 else 'true',) + c))
        an += k * dn
        n -= k
    n >>= 1
    if n:
        D, c = dbl_cert(D); dn *= 2
        steps.append(c)
assert an == L and A == (0, 1), (an == L, A)

table = []
src = open(os.path.join(root, 'rocq/theories/TableModel.v')).read()
fes = [sum(int(v) << (52 * i) for i, v in enumerate(m.split())) for m in re.findall(r'\(FE ([0-9 ]+)\)', src)]
ent = [fes[i:i+4] for i in range(0, len(fes), 4)]
assert len(ent) == 126
B2 = add(B, B)
cur = (-B[0] % p, B[1])
for X, Y, Z, T in ent[1:]:
    cur, c = add_cert(cur, B2)
    x, y = cur
    table.append('TE %s %s %s %s %s %s %s %s %s' % (c + tuple(map(z, (quo(x * Z - X), quo(y * Z - Y), quo(X * y - T))))))
out = '''(** * Certificates for multiples of the basepoint

    Generated by tools/gengroup.py.  See GroupCheck.v for their meaning.      *)

From Coq Require Import ZArith List.
Import ListNotations.
Open Scope Z_scope.

(** Doubling of the running power and addition of it to the accumulator (negated
    if the flag is set): new coordinates and quotients by p. *)
Inductive step : Set :=
| Dbl (x y q1 q2 : Z)
| AddD (neg : bool) (x y t q0 q1 q2 : Z).

(** Affine coordinates of a table entry as the sum of the previous one and 2B. *)
Inductive tentry : Set := TE (x y t q0 q1 q2 qx qy qt : Z).

Definition order_cert : list step := [
  %s
].

Definition double_base : Z * Z := (%s, %s).

Definition table_cert : list tentry := [
  %s
].
''' % (';\n  '.join(steps), hex(B2[0]), hex(B2[1]), ';\n  '.join(table))
open(os.path.join(root, 'rocq/theories/GroupData.v'), 'w').write(out)
print(len(steps), len(table))

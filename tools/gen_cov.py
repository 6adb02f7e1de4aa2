#!/usr/bin/env python3
"""Transcribes the auto-generated part of Ekf::predictCovariance
(/repo/EKF/covariance.cpp) into rocq/theories/CovPredGen.v.  Only syntax is
changed: P(i,j) -> P i j, ecl::powf(x, 2) -> pow2 x, literals -> slit n d.
usage: gen_cov.py /repo/EKF/covariance.cpp > CovPredGen.v"""
import re, sys
from fractions import Fraction
src = open(sys.argv[1]).read().split('\n')

def lit(tok):
    f = Fraction(tok.rstrip('Ff'))
    return '(slit %d %d)' % (f.numerator, f.denominator)

def conv(e):
    out = []; pos = 0
    toks = re.findall(r'P\(\d+,\d+\)|ecl::powf|[A-Za-z_][A-Za-z_0-9]*|\d+\.?\d*[Ff]?|[-+*/(),]|\s+', e)
    assert ''.join(toks) == e, (e, toks)
    # rebuild, handling powf(x, 2)
    s = ''
    i = 0
    while i < len(toks):
        t = toks[i]
        m = re.fullmatch(r'P\((\d+),(\d+)\)', t)
        if m: s += '(P %s %s)' % m.groups()
        elif t == 'ecl::powf':
            j = i + 1; assert toks[j] == '('
            depth = 0; arg = []
            while True:
                if toks[j] == '(':
                    depth += 1
                    if depth > 1: arg.append(toks[j])
                elif toks[j] == ')':
                    depth -= 1
                    if depth == 0: break
                    arg.append(toks[j])
                else: arg.append(toks[j])
                j += 1
            a = ''.join(arg); x, n = a.rsplit(',', 1); assert n.strip() == '2', a
            s += '(pow2 (%s))' % conv(x)
            i = j
        elif re.match(r'\d', t): s += lit(t)
        else: s += t
        i += 1
    return s

print('''(** * The generated part of [Ekf::predictCovariance]
    GENERATED by tools/gen_cov.py from /repo/EKF/covariance.cpp: do not edit.
    Each [PSk] is the C++ local of the same name, [N_i_j] the right-hand side
    assigned to nextP(i,j); the source line is in the comment above it. *)
From Verif Require Import Scalar.
Section Gen.
Context {T : Type} {S : Scalar T}.
Open Scope scal_scope.
(** inputs: l.103-131, 256-290: quaternion, IMU delta angles/velocities, their
    bias states, update period, IMU noise variances; the covariance matrix *)
Variables (q0 q1 q2 q3 dax day daz dvx dvy dvz dax_b day_b daz_b dvx_b dvy_b dvz_b dt : T).
Variables (daxVar dayVar dazVar dvxVar dvyVar dvzVar : T).
Variable P : nat -> nat -> T.
''')
nx = {}
for n, l in enumerate(src, 1):
    m = re.match(r'\s*const float (PS\d+) = (.*);$', l)
    if m:
        print('(** covariance.cpp l.%d *)' % n)
        print('Definition %s : T := %s.' % (m.group(1), conv(m.group(2))))
        continue
    m = re.match(r'\s*nextP\((\d+),(\d+)\) = (.*);$', l)
    if m and 'kahan' not in m.group(3):
        i, j = int(m.group(1)), int(m.group(2))
        assert (i, j) not in nx; nx[i, j] = n
        print('(** covariance.cpp l.%d *)' % n)
        print('Definition N_%d_%d : T := %s.' % (i, j, conv(m.group(3))))
assert len(nx) == 300 and all((i, j) in nx for j in range(24) for i in range(j + 1))
for j in range(24):
    print('(** column %d of the upper triangle, rows 0..%d *)' % (j, j))
    print('Definition gcol%d : list T := [%s].' % (j, '; '.join('N_%d_%d' % (i, j) for i in range(j + 1))))
print('''(** all columns *)
Definition gcols : list (list T) := [%s].
(** right-hand side assigned to nextP(i,j), i <= j *)
Definition gen (i j : nat) : T := nth i (nth j gcols []) szero.
End Gen.''' % '; '.join('gcol%d' % j for j in range(24)))

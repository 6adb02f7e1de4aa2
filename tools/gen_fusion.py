#!/usr/bin/env python3
"""Transcribes the auto-generated innovation variances, observation Jacobians
and Kalman gains of the EKF measurement fusions (/repo/EKF/*_fusion.cpp) into
rocq/theories/FusionGen.v.  Only syntax is changed: P(i,j) -> P i j,
ecl::powf(x, n) -> pow2/pow3/powm2, literals -> slit n d, local names get a
prefix, `for row` loops and update_all_states / update_wind_only branches
become a case distinction on the row.
usage: gen_fusion.py /repo/EKF > FusionGen.v"""
import re, sys
from fractions import Fraction
root = sys.argv[1]

def lit(tok):
    f = Fraction(tok.rstrip('Ff'))
    return '(slit %d %d)' % (f.numerator, f.denominator)

def conv(e, ren, pv='P'):
    e = e.strip()
    toks = re.findall(r'P\(\w+,\w+\)|Tbs\(\d,\d\)|_\w+\(\d\)|sinf\(_gps_yaw_offset\)|cosf\(_gps_yaw_offset\)|ecl::powf|[A-Za-z_][A-Za-z_0-9]*|\d+\.?\d*[Ff]?|[-+*/(),]|\s+', e)
    assert ''.join(toks) == e, (e, toks)
    s = ''; i = 0
    while i < len(toks):
        t = toks[i]
        m = re.fullmatch(r'P\((\w+),(\w+)\)', t)
        m2 = re.fullmatch(r'Tbs\((\d),(\d)\)', t)
        if m: s += '(%s %s %s)' % ((pv,) + m.groups())
        elif m2: s += '(tbs %s %s)' % m2.groups()
        elif t.startswith('sinf('): s += 'sinOff'
        elif t.startswith('cosf('): s += 'cosOff'
        elif t in ('ecl::powf', 'sqrtf'):
            j = i + 1; assert toks[j] == '('
            depth = 0; arg = []
            while True:
                if toks[j] == '(':
                    depth += 1
                    if depth > 1: arg.append(toks[j])
                elif toks[j] == ')':
                    depth -= 1
                    if depth == 0: break
                    arg.append(toks[j])
                else: arg.append(toks[j])
                j += 1
            a = ''.join(arg)
            if t == 'sqrtf': s += '(ssqrt %s)' % conv(a, ren, pv)
            else:
                x, n = a.rsplit(',', 1)
                f = {'2': 'pow2', '3': 'pow3', '-2': 'powm2'}[n.strip()]
                s += '(%s (%s))' % (f, conv(x, ren, pv))
            i = j
        elif re.match(r'\d', t): s += lit(t)
        elif re.match(r'[A-Za-z_]', t):
            s += 'row' if t == 'row' else ren[t]
        else: s += t
        i += 1
    return s

STATES = {'q0': 0, 'q1': 1, 'q2': 2, 'q3': 3, 'vn': 4, 've': 5, 'vd': 6, 'magN': 16, 'magE': 17, 'magD': 18, 'vwn': 22, 'vwe': 23}

print('''(** * Innovation variances, observation Jacobians and Kalman gains
    GENERATED by tools/gen_fusion.py from /repo/EKF/*_fusion.cpp: do not edit.
    The C++ local NAME of a fusion becomes [pre_NAME], with a prefix per fusion
    (mx my mz: magnetometer axes; iv: variances of the Y and Z axes before the X
    axis is fused; de: declination; ga: GPS yaw; as: airspeed; ss: sideslip;
    dx dy: drag; ox oy: optical flow).  [pre_S] is the innovation variance,
    [pre_H] the observation Jacobian as (state index, value) pairs, [pre_K] the
    Kalman gain.  The source line is in the comment above each definition. *)
From Verif Require Import Scalar.
Section Gen.
Context {T : Type} {S : Scalar T}.
Open Scope nat_scope.
Open Scope scal_scope.
(** ecl::powf(x, 3), ecl::powf(x, -2): utils.hpp l.44-57 *)
Definition pow3 (x : T) : T := x * x * x.
Definition powm2 (x : T) : T := sone / (x * x).
(** the rotation from body to sensor frame, optflow_fusion.cpp l.117: identity *)
Definition tbs (i j : nat) : T := if Nat.eqb i j then sone else szero.
(** the state vector and the covariance matrix *)
Variables (x : nat -> T) (P : nat -> nat -> T).
(** the covariance matrix at the time the gain loop of the second optical flow
    axis runs (after the first axis was fused) *)
Variable Pl : nat -> nat -> T.
(** the observation noise variance *)
Variable Rn : T.
(** gps_yaw_fusion.cpp: sinf and cosf of _gps_yaw_offset *)
Variables sinOff cosOff : T.
(** drag_fusion.cpp: Kacc; optflow_fusion.cpp: range *)
Variables Kacc range : T.
(** update_all_states / !update_wind_only *)
Variable all : bool.
''')
for n, k in STATES.items():
    print('(** state %d *)\nDefinition s_%s : T := x %d.' % (k, n, k))

def block(pre, fname, ranges, rname, svar, inherit={}, lname=None, idx=None):
    src = open(root + '/' + fname).read().split('\n')
    ren = {n: 's_' + n for n in STATES}
    ren.update({'Kacc': 'Kacc', 'range': 'range', rname: 'Rn'})
    ren.update(inherit)
    H = []; K = []
    print('\n(** ** %s: %s *)' % (pre, fname))
    cond = None; loop = None
    hasS = False
    for a, b in ranges:
        for n in range(a, b + 1):
            l = src[n - 1]; l = l.split('//')[0].rstrip()
            if not l.strip(): continue
            cite = '(** %s l.%d *)' % (fname, n)
            m = re.match(r'\s*const float (HK\w*|IV\w*|v_tas_pred) = (.*);$', l)
            if m:
                nm = pre + '_' + m.group(1)
                print(cite); print('Definition %s : T := %s.' % (nm, conv(m.group(2), ren)))
                ren[m.group(1)] = nm
                continue
            m = re.match(r'\s*(?:const float )?(_\w+(?:\(\d\))?|innovation_variance) = (.*);$', l)
            if m and m.group(1) in svar:
                nm = pre + '_' + svar[m.group(1)]
                print(cite); print('Definition %s : T := %s.' % (nm, conv(m.group(2), ren)))
                ren[m.group(1)] = nm; hasS = True
                continue
            m = re.match(r'\s*(HK9) = (.*);$', l)
            if m:
                nm = pre + '_' + m.group(1)
                print(cite); print('Definition %s : T := %s.' % (nm, conv(m.group(2), ren)))
                ren[m.group(1)] = nm
                continue
            m = re.match(r'\s*Hfusion\.at<(\d+)>\(\) = (.*);$', l)
            if m:
                nm = '%s_H%s' % (pre, m.group(1))
                print(cite); print('Definition %s : T := %s.' % (nm, conv(m.group(2), ren)))
                H.append((int(m.group(1)), nm)); continue
            m = re.match(r'\s*if \((update_all_states|!update_wind_only)\) \{$', l)
            if m: cond = len(l) - len(l.lstrip()); continue
            m = re.match(r'\s*for \(unsigned row = (\d+); row <= (\d+); row\+\+\) \{$', l)
            if m: loop = (int(m.group(1)), int(m.group(2)), len(l) - len(l.lstrip())); continue
            if l.strip() == '}':
                ind = len(l) - len(l.lstrip())
                if loop and ind == loop[2]: loop = None
                elif cond is not None and ind == cond: cond = None
                continue
            m = re.match(r'\s*Kfusion\((\w+)\) = (.*);$', l)
            if m:
                if m.group(1) == 'row':
                    assert loop
                    nm = '%s_K%d_%d' % (pre, loop[0], loop[1])
                    print(cite + '  (* rows %d..%d *)' % loop[:2])
                    print('Definition %s (row : nat) : T := %s.' % (nm, conv(m.group(2), ren, lname or 'P')))
                    K.append((loop[0], loop[1], nm + ' row', cond is not None))
                else:
                    r = int(m.group(1)); nm = '%s_K%d' % (pre, r)
                    print(cite); print('Definition %s : T := %s.' % (nm, conv(m.group(2), ren)))
                    K.append((r, r, nm, cond is not None))
                continue
    assert hasS
    print(pre, 'H', [i for i, _ in H], 'K', [k for k in sorted(K)], file=sys.stderr)
    if H:
        if idx:  # indices of the SparseVector24f not assigned: zero
            assert 'SparseVector24f<%s>' % ','.join(map(str, idx)) in '\n'.join(src)
            H = [(i, dict(H).get(i, 'szero')) for i in idx]
        print('(** the observation Jacobian of %s *)' % pre)
        print('Definition %s_H : list (nat * T) := [%s].' % (pre, '; '.join('(%d%%nat, %s)' % h for h in H)))
        assert len(set(r for a, b, _, _ in K for r in range(a, b + 1))) == sum(b - a + 1 for a, b, _, _ in K)
        print('(** the Kalman gain of %s; rows not assigned are 0 (zero-initialised vector) *)' % pre)
        s = ''
        for a, b, nm, c in sorted(K):
            test = '(row =? %d)%%nat' % a if a == b else '((%d <=? row) && (row <=? %d))%%nat' % (a, b)
            s += '\n  if %s then %s else' % (test, '(if all then %s else szero)' % nm if c else nm)
        print('Definition %s_K (row : nat) : T :=%s szero.' % (pre, s))
    return ren

M = 'mag_fusion.cpp'
MI = [0, 1, 2, 3, 16, 17, 18, 19, 20, 21]
block('mx', M, [(65, 104), (206, 241)], 'R_MAG', {'_mag_innov_var(0)': 'S'}, idx=MI)
block('iv', M, [(109, 130)], 'R_MAG', {'_mag_innov_var(1)': 'S1', '_mag_innov_var(2)': 'S2'})
block('my', M, [(243, 316)], 'R_MAG', {'_mag_innov_var(1)': 'S'}, idx=MI)
block('mz', M, [(318, 400)], 'R_MAG', {'_mag_innov_var(2)': 'S'}, idx=MI)
block('de', M, [(847, 883)], 'R_DECL', {'innovation_variance': 'S'})
block('ga', 'gps_yaw_fusion.cpp', [(77, 187)], 'R_YAW', {'_heading_innov_var': 'S'})
block('as', 'airspeed_fusion.cpp', [(64, 138)], 'R_TAS', {'_airspeed_innov_var': 'S'})
block('ss', 'sideslip_fusion.cpp', [(78, 204)], 'R_BETA', {'_beta_innov_var': 'S'})
D = 'drag_fusion.cpp'
block('dx', D, [(95, 172)], 'R_ACC', {'_drag_innov_var(0)': 'S'})
block('dy', D, [(177, 254)], 'R_ACC', {'_drag_innov_var(1)': 'S'})
O = 'optflow_fusion.cpp'
rx = block('ox', O, [(120, 181), (268, 290)], 'R_LOS', {'_flow_innov_var(0)': 'S'})
inh = {k: v for k, v in rx.items() if re.fullmatch(r'HK\d+', k) and int(k[2:]) <= 49}
block('oy', O, [(182, 238), (291, 313)], 'R_LOS', {'_flow_innov_var(1)': 'S'}, inh, 'Pl')
print('End Gen.')

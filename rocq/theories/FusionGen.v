(** * Innovation variances, observation Jacobians and Kalman gains
    GENERATED by tools/gen_fusion.py from /repo/EKF/*_fusion.cpp: do not edit.
    The C++ local NAME of a fusion becomes [pre_NAME], with a prefix per fusion
    (mx my mz: magnetometer axes; iv: variances of the Y and Z axes before the X
    axis is fused; de: declination; ga: GPS yaw; as: airspeed; ss: sideslip;
    dx dy: drag; ox oy: optical flow).  [pre_S] is the innovation variance,
    [pre_H] the observation Jacobian as (state index, value) pairs, [pre_K] the
    Kalman gain.  The source line is in the comment above each definition. *)
From Verif Require Import Scalar.
Section Gen.
Context {T : Type} {S : Scalar T}.
Open Scope nat_scope.
Open Scope scal_scope.
(** ecl::powf(x, 3), ecl::powf(x, -2): utils.hpp l.44-57 *)
Definition pow3 (x : T) : T := x * x * x.
Definition powm2 (x : T) : T := sone / (x * x).
(** the rotation from body to sensor frame, optflow_fusion.cpp l.117: identity *)
Definition tbs (i j : nat) : T := if Nat.eqb i j then sone else szero.
(** the state vector and the covariance matrix *)
Variables (x : nat -> T) (P : nat -> nat -> T).
(** the covariance matrix at the time the gain loop of the second optical flow
    axis runs (after the first axis was fused) *)
Variable Pl : nat -> nat -> T.
(** the observation noise variance *)
Variable Rn : T.
(** gps_yaw_fusion.cpp: sinf and cosf of _gps_yaw_offset *)
Variables sinOff cosOff : T.
(** drag_fusion.cpp: Kacc; optflow_fusion.cpp: range *)
Variables Kacc range : T.
(** update_all_states / !update_wind_only *)
Variable all : bool.

(** state 0 *)
Definition s_q0 : T := x 0.
(** state 1 *)
Definition s_q1 : T := x 1.
(** state 2 *)
Definition s_q2 : T := x 2.
(** state 3 *)
Definition s_q3 : T := x 3.
(** state 4 *)
Definition s_vn : T := x 4.
(** state 5 *)
Definition s_ve : T := x 5.
(** state 6 *)
Definition s_vd : T := x 6.
(** state 16 *)
Definition s_magN : T := x 16.
(** state 17 *)
Definition s_magE : T := x 17.
(** state 18 *)
Definition s_magD : T := x 18.
(** state 22 *)
Definition s_vwn : T := x 22.
(** state 23 *)
Definition s_vwe : T := x 23.

(** ** mx: mag_fusion.cpp *)
(** mag_fusion.cpp l.65 *)
Definition mx_HKX0 : T := -s_magD*s_q2 + s_magE*s_q3 + s_magN*s_q0.
(** mag_fusion.cpp l.66 *)
Definition mx_HKX1 : T := s_magD*s_q3 + s_magE*s_q2 + s_magN*s_q1.
(** mag_fusion.cpp l.67 *)
Definition mx_HKX2 : T := s_magE*s_q1.
(** mag_fusion.cpp l.68 *)
Definition mx_HKX3 : T := s_magD*s_q0.
(** mag_fusion.cpp l.69 *)
Definition mx_HKX4 : T := s_magN*s_q2.
(** mag_fusion.cpp l.70 *)
Definition mx_HKX5 : T := s_magD*s_q1 + s_magE*s_q0 - s_magN*s_q3.
(** mag_fusion.cpp l.71 *)
Definition mx_HKX6 : T := (pow2 (s_q0)) + (pow2 (s_q1)) - (pow2 (s_q2)) - (pow2 (s_q3)).
(** mag_fusion.cpp l.72 *)
Definition mx_HKX7 : T := s_q0*s_q3 + s_q1*s_q2.
(** mag_fusion.cpp l.73 *)
Definition mx_HKX8 : T := s_q1*s_q3.
(** mag_fusion.cpp l.74 *)
Definition mx_HKX9 : T := s_q0*s_q2.
(** mag_fusion.cpp l.75 *)
Definition mx_HKX10 : T := (slit 2 1)*mx_HKX7.
(** mag_fusion.cpp l.76 *)
Definition mx_HKX11 : T := -(slit 2 1)*mx_HKX8 + (slit 2 1)*mx_HKX9.
(** mag_fusion.cpp l.77 *)
Definition mx_HKX12 : T := (slit 2 1)*mx_HKX1.
(** mag_fusion.cpp l.78 *)
Definition mx_HKX13 : T := (slit 2 1)*mx_HKX0.
(** mag_fusion.cpp l.79 *)
Definition mx_HKX14 : T := -(slit 2 1)*mx_HKX2 + (slit 2 1)*mx_HKX3 + (slit 2 1)*mx_HKX4.
(** mag_fusion.cpp l.80 *)
Definition mx_HKX15 : T := (slit 2 1)*mx_HKX5.
(** mag_fusion.cpp l.81 *)
Definition mx_HKX16 : T := mx_HKX10*(P 0 17) - mx_HKX11*(P 0 18) + mx_HKX12*(P 0 1) + mx_HKX13*(P 0 0) - mx_HKX14*(P 0 2) + mx_HKX15*(P 0 3) + mx_HKX6*(P 0 16) + (P 0 19).
(** mag_fusion.cpp l.82 *)
Definition mx_HKX17 : T := mx_HKX10*(P 16 17) - mx_HKX11*(P 16 18) + mx_HKX12*(P 1 16) + mx_HKX13*(P 0 16) - mx_HKX14*(P 2 16) + mx_HKX15*(P 3 16) + mx_HKX6*(P 16 16) + (P 16 19).
(** mag_fusion.cpp l.83 *)
Definition mx_HKX18 : T := mx_HKX10*(P 17 18) - mx_HKX11*(P 18 18) + mx_HKX12*(P 1 18) + mx_HKX13*(P 0 18) - mx_HKX14*(P 2 18) + mx_HKX15*(P 3 18) + mx_HKX6*(P 16 18) + (P 18 19).
(** mag_fusion.cpp l.84 *)
Definition mx_HKX19 : T := mx_HKX10*(P 2 17) - mx_HKX11*(P 2 18) + mx_HKX12*(P 1 2) + mx_HKX13*(P 0 2) - mx_HKX14*(P 2 2) + mx_HKX15*(P 2 3) + mx_HKX6*(P 2 16) + (P 2 19).
(** mag_fusion.cpp l.85 *)
Definition mx_HKX20 : T := mx_HKX10*(P 17 17) - mx_HKX11*(P 17 18) + mx_HKX12*(P 1 17) + mx_HKX13*(P 0 17) - mx_HKX14*(P 2 17) + mx_HKX15*(P 3 17) + mx_HKX6*(P 16 17) + (P 17 19).
(** mag_fusion.cpp l.86 *)
Definition mx_HKX21 : T := mx_HKX10*(P 3 17) - mx_HKX11*(P 3 18) + mx_HKX12*(P 1 3) + mx_HKX13*(P 0 3) - mx_HKX14*(P 2 3) + mx_HKX15*(P 3 3) + mx_HKX6*(P 3 16) + (P 3 19).
(** mag_fusion.cpp l.87 *)
Definition mx_HKX22 : T := mx_HKX10*(P 1 17) - mx_HKX11*(P 1 18) + mx_HKX12*(P 1 1) + mx_HKX13*(P 0 1) - mx_HKX14*(P 1 2) + mx_HKX15*(P 1 3) + mx_HKX6*(P 1 16) + (P 1 19).
(** mag_fusion.cpp l.88 *)
Definition mx_HKX23 : T := mx_HKX10*(P 17 19) - mx_HKX11*(P 18 19) + mx_HKX12*(P 1 19) + mx_HKX13*(P 0 19) - mx_HKX14*(P 2 19) + mx_HKX15*(P 3 19) + mx_HKX6*(P 16 19) + (P 19 19).
(** mag_fusion.cpp l.90 *)
Definition mx_S : T := mx_HKX10*mx_HKX20 - mx_HKX11*mx_HKX18 + mx_HKX12*mx_HKX22 + mx_HKX13*mx_HKX16 - mx_HKX14*mx_HKX19 + mx_HKX15*mx_HKX21 + mx_HKX17*mx_HKX6 + mx_HKX23 + Rn.
(** mag_fusion.cpp l.104 *)
Definition mx_HKX24 : T := (slit 1 1)/mx_S.
(** mag_fusion.cpp l.208 *)
Definition mx_H0 : T := (slit 2 1)*mx_HKX0.
(** mag_fusion.cpp l.209 *)
Definition mx_H1 : T := (slit 2 1)*mx_HKX1.
(** mag_fusion.cpp l.210 *)
Definition mx_H2 : T := (slit 2 1)*mx_HKX2 - (slit 2 1)*mx_HKX3 - (slit 2 1)*mx_HKX4.
(** mag_fusion.cpp l.211 *)
Definition mx_H3 : T := (slit 2 1)*mx_HKX5.
(** mag_fusion.cpp l.212 *)
Definition mx_H16 : T := mx_HKX6.
(** mag_fusion.cpp l.213 *)
Definition mx_H17 : T := (slit 2 1)*mx_HKX7.
(** mag_fusion.cpp l.214 *)
Definition mx_H18 : T := (slit 2 1)*mx_HKX8 - (slit 2 1)*mx_HKX9.
(** mag_fusion.cpp l.215 *)
Definition mx_H19 : T := (slit 1 1).
(** mag_fusion.cpp l.219 *)
Definition mx_K0 : T := mx_HKX16*mx_HKX24.
(** mag_fusion.cpp l.220 *)
Definition mx_K1 : T := mx_HKX22*mx_HKX24.
(** mag_fusion.cpp l.221 *)
Definition mx_K2 : T := mx_HKX19*mx_HKX24.
(** mag_fusion.cpp l.222 *)
Definition mx_K3 : T := mx_HKX21*mx_HKX24.
(** mag_fusion.cpp l.225 *)  (* rows 4..15 *)
Definition mx_K4_15 (row : nat) : T := mx_HKX24*(mx_HKX10*(P row 17) - mx_HKX11*(P row 18) + mx_HKX12*(P 1 row) + mx_HKX13*(P 0 row) - mx_HKX14*(P 2 row) + mx_HKX15*(P 3 row) + mx_HKX6*(P row 16) + (P row 19)).
(** mag_fusion.cpp l.229 *)  (* rows 22..23 *)
Definition mx_K22_23 (row : nat) : T := mx_HKX24*(mx_HKX10*(P 17 row) - mx_HKX11*(P 18 row) + mx_HKX12*(P 1 row) + mx_HKX13*(P 0 row) - mx_HKX14*(P 2 row) + mx_HKX15*(P 3 row) + mx_HKX6*(P 16 row) + (P 19 row)).
(** mag_fusion.cpp l.233 *)
Definition mx_K16 : T := mx_HKX17*mx_HKX24.
(** mag_fusion.cpp l.234 *)
Definition mx_K17 : T := mx_HKX20*mx_HKX24.
(** mag_fusion.cpp l.235 *)
Definition mx_K18 : T := mx_HKX18*mx_HKX24.
(** mag_fusion.cpp l.236 *)
Definition mx_K19 : T := mx_HKX23*mx_HKX24.
(** mag_fusion.cpp l.239 *)  (* rows 20..21 *)
Definition mx_K20_21 (row : nat) : T := mx_HKX24*(mx_HKX10*(P 17 row) - mx_HKX11*(P 18 row) + mx_HKX12*(P 1 row) + mx_HKX13*(P 0 row) - mx_HKX14*(P 2 row) + mx_HKX15*(P 3 row) + mx_HKX6*(P 16 row) + (P 19 row)).
(** the observation Jacobian of mx *)
Definition mx_H : list (nat * T) := [(0%nat, mx_H0); (1%nat, mx_H1); (2%nat, mx_H2); (3%nat, mx_H3); (16%nat, mx_H16); (17%nat, mx_H17); (18%nat, mx_H18); (19%nat, mx_H19); (20%nat, szero); (21%nat, szero)].
(** the Kalman gain of mx; rows not assigned are 0 (zero-initialised vector) *)
Definition mx_K (row : nat) : T :=
  if (row =? 0)%nat then (if all then mx_K0 else szero) else
  if (row =? 1)%nat then (if all then mx_K1 else szero) else
  if (row =? 2)%nat then (if all then mx_K2 else szero) else
  if (row =? 3)%nat then (if all then mx_K3 else szero) else
  if ((4 <=? row) && (row <=? 15))%nat then (if all then mx_K4_15 row else szero) else
  if (row =? 16)%nat then mx_K16 else
  if (row =? 17)%nat then mx_K17 else
  if (row =? 18)%nat then mx_K18 else
  if (row =? 19)%nat then mx_K19 else
  if ((20 <=? row) && (row <=? 21))%nat then mx_K20_21 row else
  if ((22 <=? row) && (row <=? 23))%nat then (if all then mx_K22_23 row else szero) else szero.

(** ** iv: mag_fusion.cpp *)
(** mag_fusion.cpp l.109 *)
Definition iv_IV0 : T := s_q0*s_q1.
(** mag_fusion.cpp l.110 *)
Definition iv_IV1 : T := s_q2*s_q3.
(** mag_fusion.cpp l.111 *)
Definition iv_IV2 : T := (slit 2 1)*iv_IV0 + (slit 2 1)*iv_IV1.
(** mag_fusion.cpp l.112 *)
Definition iv_IV3 : T := (slit 2 1)*s_q0*s_q3 - (slit 2 1)*s_q1*s_q2.
(** mag_fusion.cpp l.113 *)
Definition iv_IV4 : T := (slit 2 1)*s_magD*s_q3 + (slit 2 1)*s_magE*s_q2 + (slit 2 1)*s_magN*s_q1.
(** mag_fusion.cpp l.114 *)
Definition iv_IV5 : T := (slit 2 1)*s_magD*s_q1 + (slit 2 1)*s_magE*s_q0 - (slit 2 1)*s_magN*s_q3.
(** mag_fusion.cpp l.115 *)
Definition iv_IV6 : T := (slit 2 1)*s_magD*s_q0 - (slit 2 1)*s_magE*s_q1 + (slit 2 1)*s_magN*s_q2.
(** mag_fusion.cpp l.116 *)
Definition iv_IV7 : T := -(slit 2 1)*s_magD*s_q2 + (slit 2 1)*s_magE*s_q3 + (slit 2 1)*s_magN*s_q0.
(** mag_fusion.cpp l.117 *)
Definition iv_IV8 : T := (pow2 (s_q2)).
(** mag_fusion.cpp l.118 *)
Definition iv_IV9 : T := (pow2 (s_q3)).
(** mag_fusion.cpp l.119 *)
Definition iv_IV10 : T := (pow2 (s_q0)) - (pow2 (s_q1)).
(** mag_fusion.cpp l.120 *)
Definition iv_IV11 : T := iv_IV10 + iv_IV8 - iv_IV9.
(** mag_fusion.cpp l.121 *)
Definition iv_IV12 : T := iv_IV7*(P 2 3).
(** mag_fusion.cpp l.122 *)
Definition iv_IV13 : T := iv_IV5*(P 0 1).
(** mag_fusion.cpp l.123 *)
Definition iv_IV14 : T := iv_IV6*(P 0 1).
(** mag_fusion.cpp l.124 *)
Definition iv_IV15 : T := iv_IV4*(P 2 3).
(** mag_fusion.cpp l.125 *)
Definition iv_IV16 : T := (slit 2 1)*s_q0*s_q2 + (slit 2 1)*s_q1*s_q3.
(** mag_fusion.cpp l.126 *)
Definition iv_IV17 : T := (slit 2 1)*iv_IV0 - (slit 2 1)*iv_IV1.
(** mag_fusion.cpp l.127 *)
Definition iv_IV18 : T := iv_IV10 - iv_IV8 + iv_IV9.
(** mag_fusion.cpp l.129 *)
Definition iv_S1 : T := iv_IV11*(P 17 20) + iv_IV11*(iv_IV11*(P 17 17) + iv_IV2*(P 17 18) - iv_IV3*(P 16 17) + iv_IV4*(P 2 17) + iv_IV5*(P 0 17) + iv_IV6*(P 1 17) - iv_IV7*(P 3 17) + (P 17 20)) + iv_IV2*(P 18 20) + iv_IV2*(iv_IV11*(P 17 18) + iv_IV2*(P 18 18) - iv_IV3*(P 16 18) + iv_IV4*(P 2 18) + iv_IV5*(P 0 18) + iv_IV6*(P 1 18) - iv_IV7*(P 3 18) + (P 18 20)) - iv_IV3*(P 16 20) - iv_IV3*(iv_IV11*(P 16 17) + iv_IV2*(P 16 18) - iv_IV3*(P 16 16) + iv_IV4*(P 2 16) + iv_IV5*(P 0 16) + iv_IV6*(P 1 16) - iv_IV7*(P 3 16) + (P 16 20)) + iv_IV4*(P 2 20) + iv_IV4*(iv_IV11*(P 2 17) - iv_IV12 + iv_IV2*(P 2 18) - iv_IV3*(P 2 16) + iv_IV4*(P 2 2) + iv_IV5*(P 0 2) + iv_IV6*(P 1 2) + (P 2 20)) + iv_IV5*(P 0 20) + iv_IV5*(iv_IV11*(P 0 17) + iv_IV14 + iv_IV2*(P 0 18) - iv_IV3*(P 0 16) + iv_IV4*(P 0 2) + iv_IV5*(P 0 0) - iv_IV7*(P 0 3) + (P 0 20)) + iv_IV6*(P 1 20) + iv_IV6*(iv_IV11*(P 1 17) + iv_IV13 + iv_IV2*(P 1 18) - iv_IV3*(P 1 16) + iv_IV4*(P 1 2) + iv_IV6*(P 1 1) - iv_IV7*(P 1 3) + (P 1 20)) - iv_IV7*(P 3 20) - iv_IV7*(iv_IV11*(P 3 17) + iv_IV15 + iv_IV2*(P 3 18) - iv_IV3*(P 3 16) + iv_IV5*(P 0 3) + iv_IV6*(P 1 3) - iv_IV7*(P 3 3) + (P 3 20)) + (P 20 20) + Rn.
(** mag_fusion.cpp l.130 *)
Definition iv_S2 : T := iv_IV16*(P 16 21) + iv_IV16*(iv_IV16*(P 16 16) - iv_IV17*(P 16 17) + iv_IV18*(P 16 18) + iv_IV4*(P 3 16) - iv_IV5*(P 1 16) + iv_IV6*(P 0 16) + iv_IV7*(P 2 16) + (P 16 21)) - iv_IV17*(P 17 21) - iv_IV17*(iv_IV16*(P 16 17) - iv_IV17*(P 17 17) + iv_IV18*(P 17 18) + iv_IV4*(P 3 17) - iv_IV5*(P 1 17) + iv_IV6*(P 0 17) + iv_IV7*(P 2 17) + (P 17 21)) + iv_IV18*(P 18 21) + iv_IV18*(iv_IV16*(P 16 18) - iv_IV17*(P 17 18) + iv_IV18*(P 18 18) + iv_IV4*(P 3 18) - iv_IV5*(P 1 18) + iv_IV6*(P 0 18) + iv_IV7*(P 2 18) + (P 18 21)) + iv_IV4*(P 3 21) + iv_IV4*(iv_IV12 + iv_IV16*(P 3 16) - iv_IV17*(P 3 17) + iv_IV18*(P 3 18) + iv_IV4*(P 3 3) - iv_IV5*(P 1 3) + iv_IV6*(P 0 3) + (P 3 21)) - iv_IV5*(P 1 21) - iv_IV5*(iv_IV14 + iv_IV16*(P 1 16) - iv_IV17*(P 1 17) + iv_IV18*(P 1 18) + iv_IV4*(P 1 3) - iv_IV5*(P 1 1) + iv_IV7*(P 1 2) + (P 1 21)) + iv_IV6*(P 0 21) + iv_IV6*(-iv_IV13 + iv_IV16*(P 0 16) - iv_IV17*(P 0 17) + iv_IV18*(P 0 18) + iv_IV4*(P 0 3) + iv_IV6*(P 0 0) + iv_IV7*(P 0 2) + (P 0 21)) + iv_IV7*(P 2 21) + iv_IV7*(iv_IV15 + iv_IV16*(P 2 16) - iv_IV17*(P 2 17) + iv_IV18*(P 2 18) - iv_IV5*(P 1 2) + iv_IV6*(P 0 2) + iv_IV7*(P 2 2) + (P 2 21)) + (P 21 21) + Rn.

(** ** my: mag_fusion.cpp *)
(** mag_fusion.cpp l.245 *)
Definition my_HKY0 : T := s_magD*s_q1 + s_magE*s_q0 - s_magN*s_q3.
(** mag_fusion.cpp l.246 *)
Definition my_HKY1 : T := s_magD*s_q0 - s_magE*s_q1 + s_magN*s_q2.
(** mag_fusion.cpp l.247 *)
Definition my_HKY2 : T := s_magD*s_q3 + s_magE*s_q2 + s_magN*s_q1.
(** mag_fusion.cpp l.248 *)
Definition my_HKY3 : T := s_magD*s_q2.
(** mag_fusion.cpp l.249 *)
Definition my_HKY4 : T := s_magE*s_q3.
(** mag_fusion.cpp l.250 *)
Definition my_HKY5 : T := s_magN*s_q0.
(** mag_fusion.cpp l.251 *)
Definition my_HKY6 : T := s_q1*s_q2.
(** mag_fusion.cpp l.252 *)
Definition my_HKY7 : T := s_q0*s_q3.
(** mag_fusion.cpp l.253 *)
Definition my_HKY8 : T := (pow2 (s_q0)) - (pow2 (s_q1)) + (pow2 (s_q2)) - (pow2 (s_q3)).
(** mag_fusion.cpp l.254 *)
Definition my_HKY9 : T := s_q0*s_q1 + s_q2*s_q3.
(** mag_fusion.cpp l.255 *)
Definition my_HKY10 : T := (slit 2 1)*my_HKY9.
(** mag_fusion.cpp l.256 *)
Definition my_HKY11 : T := -(slit 2 1)*my_HKY6 + (slit 2 1)*my_HKY7.
(** mag_fusion.cpp l.257 *)
Definition my_HKY12 : T := (slit 2 1)*my_HKY2.
(** mag_fusion.cpp l.258 *)
Definition my_HKY13 : T := (slit 2 1)*my_HKY0.
(** mag_fusion.cpp l.259 *)
Definition my_HKY14 : T := (slit 2 1)*my_HKY1.
(** mag_fusion.cpp l.260 *)
Definition my_HKY15 : T := -(slit 2 1)*my_HKY3 + (slit 2 1)*my_HKY4 + (slit 2 1)*my_HKY5.
(** mag_fusion.cpp l.261 *)
Definition my_HKY16 : T := my_HKY10*(P 0 18) - my_HKY11*(P 0 16) + my_HKY12*(P 0 2) + my_HKY13*(P 0 0) + my_HKY14*(P 0 1) - my_HKY15*(P 0 3) + my_HKY8*(P 0 17) + (P 0 20).
(** mag_fusion.cpp l.262 *)
Definition my_HKY17 : T := my_HKY10*(P 17 18) - my_HKY11*(P 16 17) + my_HKY12*(P 2 17) + my_HKY13*(P 0 17) + my_HKY14*(P 1 17) - my_HKY15*(P 3 17) + my_HKY8*(P 17 17) + (P 17 20).
(** mag_fusion.cpp l.263 *)
Definition my_HKY18 : T := my_HKY10*(P 16 18) - my_HKY11*(P 16 16) + my_HKY12*(P 2 16) + my_HKY13*(P 0 16) + my_HKY14*(P 1 16) - my_HKY15*(P 3 16) + my_HKY8*(P 16 17) + (P 16 20).
(** mag_fusion.cpp l.264 *)
Definition my_HKY19 : T := my_HKY10*(P 3 18) - my_HKY11*(P 3 16) + my_HKY12*(P 2 3) + my_HKY13*(P 0 3) + my_HKY14*(P 1 3) - my_HKY15*(P 3 3) + my_HKY8*(P 3 17) + (P 3 20).
(** mag_fusion.cpp l.265 *)
Definition my_HKY20 : T := my_HKY10*(P 18 18) - my_HKY11*(P 16 18) + my_HKY12*(P 2 18) + my_HKY13*(P 0 18) + my_HKY14*(P 1 18) - my_HKY15*(P 3 18) + my_HKY8*(P 17 18) + (P 18 20).
(** mag_fusion.cpp l.266 *)
Definition my_HKY21 : T := my_HKY10*(P 1 18) - my_HKY11*(P 1 16) + my_HKY12*(P 1 2) + my_HKY13*(P 0 1) + my_HKY14*(P 1 1) - my_HKY15*(P 1 3) + my_HKY8*(P 1 17) + (P 1 20).
(** mag_fusion.cpp l.267 *)
Definition my_HKY22 : T := my_HKY10*(P 2 18) - my_HKY11*(P 2 16) + my_HKY12*(P 2 2) + my_HKY13*(P 0 2) + my_HKY14*(P 1 2) - my_HKY15*(P 2 3) + my_HKY8*(P 2 17) + (P 2 20).
(** mag_fusion.cpp l.268 *)
Definition my_HKY23 : T := my_HKY10*(P 18 20) - my_HKY11*(P 16 20) + my_HKY12*(P 2 20) + my_HKY13*(P 0 20) + my_HKY14*(P 1 20) - my_HKY15*(P 3 20) + my_HKY8*(P 17 20) + (P 20 20).
(** mag_fusion.cpp l.270 *)
Definition my_S : T := (my_HKY10*my_HKY20 - my_HKY11*my_HKY18 + my_HKY12*my_HKY22 + my_HKY13*my_HKY16 + my_HKY14*my_HKY21 - my_HKY15*my_HKY19 + my_HKY17*my_HKY8 + my_HKY23 + Rn).
(** mag_fusion.cpp l.281 *)
Definition my_HKY24 : T := (slit 1 1)/my_S.
(** mag_fusion.cpp l.285 *)
Definition my_H0 : T := (slit 2 1)*my_HKY0.
(** mag_fusion.cpp l.286 *)
Definition my_H1 : T := (slit 2 1)*my_HKY1.
(** mag_fusion.cpp l.287 *)
Definition my_H2 : T := (slit 2 1)*my_HKY2.
(** mag_fusion.cpp l.288 *)
Definition my_H3 : T := (slit 2 1)*my_HKY3 - (slit 2 1)*my_HKY4 - (slit 2 1)*my_HKY5.
(** mag_fusion.cpp l.289 *)
Definition my_H16 : T := (slit 2 1)*my_HKY6 - (slit 2 1)*my_HKY7.
(** mag_fusion.cpp l.290 *)
Definition my_H17 : T := my_HKY8.
(** mag_fusion.cpp l.291 *)
Definition my_H18 : T := (slit 2 1)*my_HKY9.
(** mag_fusion.cpp l.292 *)
Definition my_H20 : T := (slit 1 1).
(** mag_fusion.cpp l.296 *)
Definition my_K0 : T := my_HKY16*my_HKY24.
(** mag_fusion.cpp l.297 *)
Definition my_K1 : T := my_HKY21*my_HKY24.
(** mag_fusion.cpp l.298 *)
Definition my_K2 : T := my_HKY22*my_HKY24.
(** mag_fusion.cpp l.299 *)
Definition my_K3 : T := my_HKY19*my_HKY24.
(** mag_fusion.cpp l.302 *)  (* rows 4..15 *)
Definition my_K4_15 (row : nat) : T := my_HKY24*(my_HKY10*(P row 18) - my_HKY11*(P row 16) + my_HKY12*(P 2 row) + my_HKY13*(P 0 row) + my_HKY14*(P 1 row) - my_HKY15*(P 3 row) + my_HKY8*(P row 17) + (P row 20)).
(** mag_fusion.cpp l.306 *)  (* rows 22..23 *)
Definition my_K22_23 (row : nat) : T := my_HKY24*(my_HKY10*(P 18 row) - my_HKY11*(P 16 row) + my_HKY12*(P 2 row) + my_HKY13*(P 0 row) + my_HKY14*(P 1 row) - my_HKY15*(P 3 row) + my_HKY8*(P 17 row) + (P 20 row)).
(** mag_fusion.cpp l.310 *)
Definition my_K16 : T := my_HKY18*my_HKY24.
(** mag_fusion.cpp l.311 *)
Definition my_K17 : T := my_HKY17*my_HKY24.
(** mag_fusion.cpp l.312 *)
Definition my_K18 : T := my_HKY20*my_HKY24.
(** mag_fusion.cpp l.313 *)
Definition my_K19 : T := my_HKY24*(my_HKY10*(P 18 19) - my_HKY11*(P 16 19) + my_HKY12*(P 2 19) + my_HKY13*(P 0 19) + my_HKY14*(P 1 19) - my_HKY15*(P 3 19) + my_HKY8*(P 17 19) + (P 19 20)).
(** mag_fusion.cpp l.314 *)
Definition my_K20 : T := my_HKY23*my_HKY24.
(** mag_fusion.cpp l.315 *)
Definition my_K21 : T := my_HKY24*(my_HKY10*(P 18 21) - my_HKY11*(P 16 21) + my_HKY12*(P 2 21) + my_HKY13*(P 0 21) + my_HKY14*(P 1 21) - my_HKY15*(P 3 21) + my_HKY8*(P 17 21) + (P 20 21)).
(** the observation Jacobian of my *)
Definition my_H : list (nat * T) := [(0%nat, my_H0); (1%nat, my_H1); (2%nat, my_H2); (3%nat, my_H3); (16%nat, my_H16); (17%nat, my_H17); (18%nat, my_H18); (19%nat, szero); (20%nat, my_H20); (21%nat, szero)].
(** the Kalman gain of my; rows not assigned are 0 (zero-initialised vector) *)
Definition my_K (row : nat) : T :=
  if (row =? 0)%nat then (if all then my_K0 else szero) else
  if (row =? 1)%nat then (if all then my_K1 else szero) else
  if (row =? 2)%nat then (if all then my_K2 else szero) else
  if (row =? 3)%nat then (if all then my_K3 else szero) else
  if ((4 <=? row) && (row <=? 15))%nat then (if all then my_K4_15 row else szero) else
  if (row =? 16)%nat then my_K16 else
  if (row =? 17)%nat then my_K17 else
  if (row =? 18)%nat then my_K18 else
  if (row =? 19)%nat then my_K19 else
  if (row =? 20)%nat then my_K20 else
  if (row =? 21)%nat then my_K21 else
  if ((22 <=? row) && (row <=? 23))%nat then (if all then my_K22_23 row else szero) else szero.

(** ** mz: mag_fusion.cpp *)
(** mag_fusion.cpp l.325 *)
Definition mz_HKZ0 : T := s_magD*s_q0 - s_magE*s_q1 + s_magN*s_q2.
(** mag_fusion.cpp l.326 *)
Definition mz_HKZ1 : T := s_magN*s_q3.
(** mag_fusion.cpp l.327 *)
Definition mz_HKZ2 : T := s_magD*s_q1.
(** mag_fusion.cpp l.328 *)
Definition mz_HKZ3 : T := s_magE*s_q0.
(** mag_fusion.cpp l.329 *)
Definition mz_HKZ4 : T := -s_magD*s_q2 + s_magE*s_q3 + s_magN*s_q0.
(** mag_fusion.cpp l.330 *)
Definition mz_HKZ5 : T := s_magD*s_q3 + s_magE*s_q2 + s_magN*s_q1.
(** mag_fusion.cpp l.331 *)
Definition mz_HKZ6 : T := s_q0*s_q2 + s_q1*s_q3.
(** mag_fusion.cpp l.332 *)
Definition mz_HKZ7 : T := s_q2*s_q3.
(** mag_fusion.cpp l.333 *)
Definition mz_HKZ8 : T := s_q0*s_q1.
(** mag_fusion.cpp l.334 *)
Definition mz_HKZ9 : T := (pow2 (s_q0)) - (pow2 (s_q1)) - (pow2 (s_q2)) + (pow2 (s_q3)).
(** mag_fusion.cpp l.335 *)
Definition mz_HKZ10 : T := (slit 2 1)*mz_HKZ6.
(** mag_fusion.cpp l.336 *)
Definition mz_HKZ11 : T := -(slit 2 1)*mz_HKZ7 + (slit 2 1)*mz_HKZ8.
(** mag_fusion.cpp l.337 *)
Definition mz_HKZ12 : T := (slit 2 1)*mz_HKZ5.
(** mag_fusion.cpp l.338 *)
Definition mz_HKZ13 : T := (slit 2 1)*mz_HKZ0.
(** mag_fusion.cpp l.339 *)
Definition mz_HKZ14 : T := -(slit 2 1)*mz_HKZ1 + (slit 2 1)*mz_HKZ2 + (slit 2 1)*mz_HKZ3.
(** mag_fusion.cpp l.340 *)
Definition mz_HKZ15 : T := (slit 2 1)*mz_HKZ4.
(** mag_fusion.cpp l.341 *)
Definition mz_HKZ16 : T := mz_HKZ10*(P 0 16) - mz_HKZ11*(P 0 17) + mz_HKZ12*(P 0 3) + mz_HKZ13*(P 0 0) - mz_HKZ14*(P 0 1) + mz_HKZ15*(P 0 2) + mz_HKZ9*(P 0 18) + (P 0 21).
(** mag_fusion.cpp l.342 *)
Definition mz_HKZ17 : T := mz_HKZ10*(P 16 18) - mz_HKZ11*(P 17 18) + mz_HKZ12*(P 3 18) + mz_HKZ13*(P 0 18) - mz_HKZ14*(P 1 18) + mz_HKZ15*(P 2 18) + mz_HKZ9*(P 18 18) + (P 18 21).
(** mag_fusion.cpp l.343 *)
Definition mz_HKZ18 : T := mz_HKZ10*(P 16 17) - mz_HKZ11*(P 17 17) + mz_HKZ12*(P 3 17) + mz_HKZ13*(P 0 17) - mz_HKZ14*(P 1 17) + mz_HKZ15*(P 2 17) + mz_HKZ9*(P 17 18) + (P 17 21).
(** mag_fusion.cpp l.344 *)
Definition mz_HKZ19 : T := mz_HKZ10*(P 1 16) - mz_HKZ11*(P 1 17) + mz_HKZ12*(P 1 3) + mz_HKZ13*(P 0 1) - mz_HKZ14*(P 1 1) + mz_HKZ15*(P 1 2) + mz_HKZ9*(P 1 18) + (P 1 21).
(** mag_fusion.cpp l.345 *)
Definition mz_HKZ20 : T := mz_HKZ10*(P 16 16) - mz_HKZ11*(P 16 17) + mz_HKZ12*(P 3 16) + mz_HKZ13*(P 0 16) - mz_HKZ14*(P 1 16) + mz_HKZ15*(P 2 16) + mz_HKZ9*(P 16 18) + (P 16 21).
(** mag_fusion.cpp l.346 *)
Definition mz_HKZ21 : T := mz_HKZ10*(P 3 16) - mz_HKZ11*(P 3 17) + mz_HKZ12*(P 3 3) + mz_HKZ13*(P 0 3) - mz_HKZ14*(P 1 3) + mz_HKZ15*(P 2 3) + mz_HKZ9*(P 3 18) + (P 3 21).
(** mag_fusion.cpp l.347 *)
Definition mz_HKZ22 : T := mz_HKZ10*(P 2 16) - mz_HKZ11*(P 2 17) + mz_HKZ12*(P 2 3) + mz_HKZ13*(P 0 2) - mz_HKZ14*(P 1 2) + mz_HKZ15*(P 2 2) + mz_HKZ9*(P 2 18) + (P 2 21).
(** mag_fusion.cpp l.348 *)
Definition mz_HKZ23 : T := mz_HKZ10*(P 16 21) - mz_HKZ11*(P 17 21) + mz_HKZ12*(P 3 21) + mz_HKZ13*(P 0 21) - mz_HKZ14*(P 1 21) + mz_HKZ15*(P 2 21) + mz_HKZ9*(P 18 21) + (P 21 21).
(** mag_fusion.cpp l.350 *)
Definition mz_S : T := (mz_HKZ10*mz_HKZ20 - mz_HKZ11*mz_HKZ18 + mz_HKZ12*mz_HKZ21 + mz_HKZ13*mz_HKZ16 - mz_HKZ14*mz_HKZ19 + mz_HKZ15*mz_HKZ22 + mz_HKZ17*mz_HKZ9 + mz_HKZ23 + Rn).
(** mag_fusion.cpp l.362 *)
Definition mz_HKZ24 : T := (slit 1 1)/mz_S.
(** mag_fusion.cpp l.366 *)
Definition mz_H0 : T := (slit 2 1)*mz_HKZ0.
(** mag_fusion.cpp l.367 *)
Definition mz_H1 : T := (slit 2 1)*mz_HKZ1 - (slit 2 1)*mz_HKZ2 - (slit 2 1)*mz_HKZ3.
(** mag_fusion.cpp l.368 *)
Definition mz_H2 : T := (slit 2 1)*mz_HKZ4.
(** mag_fusion.cpp l.369 *)
Definition mz_H3 : T := (slit 2 1)*mz_HKZ5.
(** mag_fusion.cpp l.370 *)
Definition mz_H16 : T := (slit 2 1)*mz_HKZ6.
(** mag_fusion.cpp l.371 *)
Definition mz_H17 : T := (slit 2 1)*mz_HKZ7 - (slit 2 1)*mz_HKZ8.
(** mag_fusion.cpp l.372 *)
Definition mz_H18 : T := mz_HKZ9.
(** mag_fusion.cpp l.373 *)
Definition mz_H21 : T := (slit 1 1).
(** mag_fusion.cpp l.377 *)
Definition mz_K0 : T := mz_HKZ16*mz_HKZ24.
(** mag_fusion.cpp l.378 *)
Definition mz_K1 : T := mz_HKZ19*mz_HKZ24.
(** mag_fusion.cpp l.379 *)
Definition mz_K2 : T := mz_HKZ22*mz_HKZ24.
(** mag_fusion.cpp l.380 *)
Definition mz_K3 : T := mz_HKZ21*mz_HKZ24.
(** mag_fusion.cpp l.383 *)  (* rows 4..15 *)
Definition mz_K4_15 (row : nat) : T := mz_HKZ24*(mz_HKZ10*(P row 16) - mz_HKZ11*(P row 17) + mz_HKZ12*(P 3 row) + mz_HKZ13*(P 0 row) - mz_HKZ14*(P 1 row) + mz_HKZ15*(P 2 row) + mz_HKZ9*(P row 18) + (P row 21)).
(** mag_fusion.cpp l.387 *)  (* rows 22..23 *)
Definition mz_K22_23 (row : nat) : T := mz_HKZ24*(mz_HKZ10*(P 16 row) - mz_HKZ11*(P 17 row) + mz_HKZ12*(P 3 row) + mz_HKZ13*(P 0 row) - mz_HKZ14*(P 1 row) + mz_HKZ15*(P 2 row) + mz_HKZ9*(P 18 row) + (P 21 row)).
(** mag_fusion.cpp l.391 *)
Definition mz_K16 : T := mz_HKZ20*mz_HKZ24.
(** mag_fusion.cpp l.392 *)
Definition mz_K17 : T := mz_HKZ18*mz_HKZ24.
(** mag_fusion.cpp l.393 *)
Definition mz_K18 : T := mz_HKZ17*mz_HKZ24.
(** mag_fusion.cpp l.396 *)  (* rows 19..20 *)
Definition mz_K19_20 (row : nat) : T := mz_HKZ24*(mz_HKZ10*(P 16 row) - mz_HKZ11*(P 17 row) + mz_HKZ12*(P 3 row) + mz_HKZ13*(P 0 row) - mz_HKZ14*(P 1 row) + mz_HKZ15*(P 2 row) + mz_HKZ9*(P 18 row) + (P row 21)).
(** mag_fusion.cpp l.399 *)
Definition mz_K21 : T := mz_HKZ23*mz_HKZ24.
(** the observation Jacobian of mz *)
Definition mz_H : list (nat * T) := [(0%nat, mz_H0); (1%nat, mz_H1); (2%nat, mz_H2); (3%nat, mz_H3); (16%nat, mz_H16); (17%nat, mz_H17); (18%nat, mz_H18); (19%nat, szero); (20%nat, szero); (21%nat, mz_H21)].
(** the Kalman gain of mz; rows not assigned are 0 (zero-initialised vector) *)
Definition mz_K (row : nat) : T :=
  if (row =? 0)%nat then (if all then mz_K0 else szero) else
  if (row =? 1)%nat then (if all then mz_K1 else szero) else
  if (row =? 2)%nat then (if all then mz_K2 else szero) else
  if (row =? 3)%nat then (if all then mz_K3 else szero) else
  if ((4 <=? row) && (row <=? 15))%nat then (if all then mz_K4_15 row else szero) else
  if (row =? 16)%nat then mz_K16 else
  if (row =? 17)%nat then mz_K17 else
  if (row =? 18)%nat then mz_K18 else
  if ((19 <=? row) && (row <=? 20))%nat then mz_K19_20 row else
  if (row =? 21)%nat then mz_K21 else
  if ((22 <=? row) && (row <=? 23))%nat then (if all then mz_K22_23 row else szero) else szero.

(** ** de: mag_fusion.cpp *)
(** mag_fusion.cpp l.847 *)
Definition de_HK0 : T := (powm2 (s_magN)).
(** mag_fusion.cpp l.848 *)
Definition de_HK1 : T := de_HK0*(pow2 (s_magE)) + (slit 1 1).
(** mag_fusion.cpp l.849 *)
Definition de_HK2 : T := (slit 1 1)/de_HK1.
(** mag_fusion.cpp l.850 *)
Definition de_HK3 : T := (slit 1 1)/s_magN.
(** mag_fusion.cpp l.851 *)
Definition de_HK4 : T := de_HK2*de_HK3.
(** mag_fusion.cpp l.852 *)
Definition de_HK5 : T := de_HK3*s_magE.
(** mag_fusion.cpp l.853 *)
Definition de_HK6 : T := de_HK5*(P 16 17) - (P 17 17).
(** mag_fusion.cpp l.854 *)
Definition de_HK7 : T := (powm2 (de_HK1)).
(** mag_fusion.cpp l.855 *)
Definition de_HK8 : T := de_HK5*(P 16 16) - (P 16 17).
(** mag_fusion.cpp l.856 *)
Definition de_S : T := -de_HK0*de_HK6*de_HK7 + de_HK7*de_HK8*s_magE/(pow3 (s_magN)) + Rn.
(** mag_fusion.cpp l.859 *)
Definition de_HK9 : T := de_HK4/de_S.
(** mag_fusion.cpp l.869 *)
Definition de_H16 : T := -de_HK0*de_HK2*s_magE.
(** mag_fusion.cpp l.870 *)
Definition de_H17 : T := de_HK4.
(** mag_fusion.cpp l.875 *)  (* rows 0..15 *)
Definition de_K0_15 (row : nat) : T := -de_HK9*(de_HK5*(P row 16) - (P row 17)).
(** mag_fusion.cpp l.878 *)
Definition de_K16 : T := -de_HK8*de_HK9.
(** mag_fusion.cpp l.879 *)
Definition de_K17 : T := -de_HK6*de_HK9.
(** mag_fusion.cpp l.882 *)  (* rows 18..23 *)
Definition de_K18_23 (row : nat) : T := -de_HK9*(de_HK5*(P 16 row) - (P 17 row)).
(** the observation Jacobian of de *)
Definition de_H : list (nat * T) := [(16%nat, de_H16); (17%nat, de_H17)].
(** the Kalman gain of de; rows not assigned are 0 (zero-initialised vector) *)
Definition de_K (row : nat) : T :=
  if ((0 <=? row) && (row <=? 15))%nat then de_K0_15 row else
  if (row =? 16)%nat then de_K16 else
  if (row =? 17)%nat then de_K17 else
  if ((18 <=? row) && (row <=? 23))%nat then de_K18_23 row else szero.

(** ** ga: gps_yaw_fusion.cpp *)
(** gps_yaw_fusion.cpp l.77 *)
Definition ga_HK0 : T := sinOff.
(** gps_yaw_fusion.cpp l.78 *)
Definition ga_HK1 : T := s_q0*s_q3.
(** gps_yaw_fusion.cpp l.79 *)
Definition ga_HK2 : T := s_q1*s_q2.
(** gps_yaw_fusion.cpp l.80 *)
Definition ga_HK3 : T := (slit 2 1)*ga_HK0*(ga_HK1 - ga_HK2).
(** gps_yaw_fusion.cpp l.81 *)
Definition ga_HK4 : T := cosOff.
(** gps_yaw_fusion.cpp l.82 *)
Definition ga_HK5 : T := (pow2 (s_q1)).
(** gps_yaw_fusion.cpp l.83 *)
Definition ga_HK6 : T := (pow2 (s_q2)).
(** gps_yaw_fusion.cpp l.84 *)
Definition ga_HK7 : T := (pow2 (s_q0)) - (pow2 (s_q3)).
(** gps_yaw_fusion.cpp l.85 *)
Definition ga_HK8 : T := ga_HK4*(ga_HK5 - ga_HK6 + ga_HK7).
(** gps_yaw_fusion.cpp l.86 *)
Definition ga_HK9 : T := ga_HK3 - ga_HK8.
(** gps_yaw_fusion.cpp l.90 *)
Definition ga_HK10 : T := (slit 1 1)/ga_HK9.
(** gps_yaw_fusion.cpp l.91 *)
Definition ga_HK11 : T := ga_HK4*s_q0.
(** gps_yaw_fusion.cpp l.92 *)
Definition ga_HK12 : T := ga_HK0*s_q3.
(** gps_yaw_fusion.cpp l.93 *)
Definition ga_HK13 : T := ga_HK0*(-ga_HK5 + ga_HK6 + ga_HK7) + (slit 2 1)*ga_HK4*(ga_HK1 + ga_HK2).
(** gps_yaw_fusion.cpp l.94 *)
Definition ga_HK14 : T := ga_HK10*ga_HK13.
(** gps_yaw_fusion.cpp l.95 *)
Definition ga_HK15 : T := ga_HK0*s_q0 + ga_HK4*s_q3.
(** gps_yaw_fusion.cpp l.96 *)
Definition ga_HK16 : T := ga_HK10*(ga_HK14*(ga_HK11 - ga_HK12) + ga_HK15).
(** gps_yaw_fusion.cpp l.97 *)
Definition ga_HK17 : T := (pow2 (ga_HK13))/(pow2 (ga_HK9)) + (slit 1 1).
(** gps_yaw_fusion.cpp l.101 *)
Definition ga_HK18 : T := (slit 2 1)/ga_HK17.
(** gps_yaw_fusion.cpp l.103 *)
Definition ga_HK19_inverse : T := -ga_HK3 + ga_HK8.
(** gps_yaw_fusion.cpp l.107 *)
Definition ga_HK19 : T := (slit 1 1)/ga_HK19_inverse.
(** gps_yaw_fusion.cpp l.108 *)
Definition ga_HK20 : T := ga_HK4*s_q1.
(** gps_yaw_fusion.cpp l.109 *)
Definition ga_HK21 : T := ga_HK0*s_q2.
(** gps_yaw_fusion.cpp l.110 *)
Definition ga_HK22 : T := ga_HK13*ga_HK19.
(** gps_yaw_fusion.cpp l.111 *)
Definition ga_HK23 : T := ga_HK0*s_q1 - ga_HK4*s_q2.
(** gps_yaw_fusion.cpp l.112 *)
Definition ga_HK24 : T := ga_HK19*(ga_HK22*(ga_HK20 + ga_HK21) + ga_HK23).
(** gps_yaw_fusion.cpp l.113 *)
Definition ga_HK25 : T := ga_HK19*(-ga_HK20 - ga_HK21 + ga_HK22*ga_HK23).
(** gps_yaw_fusion.cpp l.114 *)
Definition ga_HK26 : T := ga_HK10*(-ga_HK11 + ga_HK12 + ga_HK14*ga_HK15).
(** gps_yaw_fusion.cpp l.115 *)
Definition ga_HK27 : T := -ga_HK16*(P 0 0) - ga_HK24*(P 0 1) - ga_HK25*(P 0 2) + ga_HK26*(P 0 3).
(** gps_yaw_fusion.cpp l.116 *)
Definition ga_HK28 : T := -ga_HK16*(P 0 1) - ga_HK24*(P 1 1) - ga_HK25*(P 1 2) + ga_HK26*(P 1 3).
(** gps_yaw_fusion.cpp l.117 *)
Definition ga_HK29 : T := (slit 4 1)/(pow2 (ga_HK17)).
(** gps_yaw_fusion.cpp l.118 *)
Definition ga_HK30 : T := -ga_HK16*(P 0 2) - ga_HK24*(P 1 2) - ga_HK25*(P 2 2) + ga_HK26*(P 2 3).
(** gps_yaw_fusion.cpp l.119 *)
Definition ga_HK31 : T := -ga_HK16*(P 0 3) - ga_HK24*(P 1 3) - ga_HK25*(P 2 3) + ga_HK26*(P 3 3).
(** gps_yaw_fusion.cpp l.123 *)
Definition ga_S : T := (-ga_HK16*ga_HK27*ga_HK29 - ga_HK24*ga_HK28*ga_HK29 - ga_HK25*ga_HK29*ga_HK30 + ga_HK26*ga_HK29*ga_HK31 + Rn).
(** gps_yaw_fusion.cpp l.136 *)
Definition ga_HK32 : T := ga_HK18/ga_S.
(** gps_yaw_fusion.cpp l.173 *)
Definition ga_H0 : T := -ga_HK16*ga_HK18.
(** gps_yaw_fusion.cpp l.174 *)
Definition ga_H1 : T := -ga_HK18*ga_HK24.
(** gps_yaw_fusion.cpp l.175 *)
Definition ga_H2 : T := -ga_HK18*ga_HK25.
(** gps_yaw_fusion.cpp l.176 *)
Definition ga_H3 : T := ga_HK18*ga_HK26.
(** gps_yaw_fusion.cpp l.181 *)
Definition ga_K0 : T := ga_HK27*ga_HK32.
(** gps_yaw_fusion.cpp l.182 *)
Definition ga_K1 : T := ga_HK28*ga_HK32.
(** gps_yaw_fusion.cpp l.183 *)
Definition ga_K2 : T := ga_HK30*ga_HK32.
(** gps_yaw_fusion.cpp l.184 *)
Definition ga_K3 : T := ga_HK31*ga_HK32.
(** gps_yaw_fusion.cpp l.186 *)  (* rows 4..23 *)
Definition ga_K4_23 (row : nat) : T := ga_HK32*(-ga_HK16*(P 0 row) - ga_HK24*(P 1 row) - ga_HK25*(P 2 row) + ga_HK26*(P 3 row)).
(** the observation Jacobian of ga *)
Definition ga_H : list (nat * T) := [(0%nat, ga_H0); (1%nat, ga_H1); (2%nat, ga_H2); (3%nat, ga_H3)].
(** the Kalman gain of ga; rows not assigned are 0 (zero-initialised vector) *)
Definition ga_K (row : nat) : T :=
  if (row =? 0)%nat then ga_K0 else
  if (row =? 1)%nat then ga_K1 else
  if (row =? 2)%nat then ga_K2 else
  if (row =? 3)%nat then ga_K3 else
  if ((4 <=? row) && (row <=? 23))%nat then ga_K4_23 row else szero.

(** ** as: airspeed_fusion.cpp *)
(** airspeed_fusion.cpp l.64 *)
Definition as_HK0 : T := s_vn - s_vwn.
(** airspeed_fusion.cpp l.65 *)
Definition as_HK1 : T := s_ve - s_vwe.
(** airspeed_fusion.cpp l.66 *)
Definition as_HK2 : T := (pow2 (as_HK0)) + (pow2 (as_HK1)) + (pow2 (s_vd)).
(** airspeed_fusion.cpp l.67 *)
Definition as_v_tas_pred : T := (ssqrt as_HK2).
(** airspeed_fusion.cpp l.73 *)
Definition as_HK3 : T := (slit 1 1) / as_v_tas_pred.
(** airspeed_fusion.cpp l.74 *)
Definition as_HK4 : T := as_HK0*as_HK3.
(** airspeed_fusion.cpp l.75 *)
Definition as_HK5 : T := as_HK1*as_HK3.
(** airspeed_fusion.cpp l.76 *)
Definition as_HK6 : T := (slit 1 1)/as_HK2.
(** airspeed_fusion.cpp l.77 *)
Definition as_HK7 : T := as_HK0*(P 4 6) - as_HK0*(P 6 22) + as_HK1*(P 5 6) - as_HK1*(P 6 23) + (P 6 6)*s_vd.
(** airspeed_fusion.cpp l.78 *)
Definition as_HK8 : T := as_HK1*(P 5 23).
(** airspeed_fusion.cpp l.79 *)
Definition as_HK9 : T := as_HK0*(P 4 5) - as_HK0*(P 5 22) + as_HK1*(P 5 5) - as_HK8 + (P 5 6)*s_vd.
(** airspeed_fusion.cpp l.80 *)
Definition as_HK10 : T := as_HK1*as_HK6.
(** airspeed_fusion.cpp l.81 *)
Definition as_HK11 : T := as_HK0*(P 4 22).
(** airspeed_fusion.cpp l.82 *)
Definition as_HK12 : T := as_HK0*(P 4 4) - as_HK1*(P 4 23) + as_HK1*(P 4 5) - as_HK11 + (P 4 6)*s_vd.
(** airspeed_fusion.cpp l.83 *)
Definition as_HK13 : T := as_HK0*as_HK6.
(** airspeed_fusion.cpp l.84 *)
Definition as_HK14 : T := -as_HK0*(P 22 23) + as_HK0*(P 4 23) - as_HK1*(P 23 23) + as_HK8 + (P 6 23)*s_vd.
(** airspeed_fusion.cpp l.85 *)
Definition as_HK15 : T := -as_HK0*(P 22 22) - as_HK1*(P 22 23) + as_HK1*(P 5 22) + as_HK11 + (P 6 22)*s_vd.
(** airspeed_fusion.cpp l.89 *)
Definition as_S : T := (-as_HK10*as_HK14 + as_HK10*as_HK9 + as_HK12*as_HK13 - as_HK13*as_HK15 + as_HK6*as_HK7*s_vd + Rn).
(** airspeed_fusion.cpp l.110 *)
Definition as_HK16 : T := as_HK3 / as_S.
(** airspeed_fusion.cpp l.115 *)
Definition as_H4 : T := as_HK4.
(** airspeed_fusion.cpp l.116 *)
Definition as_H5 : T := as_HK5.
(** airspeed_fusion.cpp l.117 *)
Definition as_H6 : T := as_HK3*s_vd.
(** airspeed_fusion.cpp l.118 *)
Definition as_H22 : T := -as_HK4.
(** airspeed_fusion.cpp l.119 *)
Definition as_H23 : T := -as_HK5.
(** airspeed_fusion.cpp l.125 *)  (* rows 0..3 *)
Definition as_K0_3 (row : nat) : T := as_HK16*(as_HK0*(P 4 row) - as_HK0*(P row 22) + as_HK1*(P 5 row) - as_HK1*(P row 23) + (P 6 row)*s_vd).
(** airspeed_fusion.cpp l.128 *)
Definition as_K4 : T := as_HK12*as_HK16.
(** airspeed_fusion.cpp l.129 *)
Definition as_K5 : T := as_HK16*as_HK9.
(** airspeed_fusion.cpp l.130 *)
Definition as_K6 : T := as_HK16*as_HK7.
(** airspeed_fusion.cpp l.133 *)  (* rows 7..21 *)
Definition as_K7_21 (row : nat) : T := as_HK16*(as_HK0*(P 4 row) - as_HK0*(P row 22) + as_HK1*(P 5 row) - as_HK1*(P row 23) + (P 6 row)*s_vd).
(** airspeed_fusion.cpp l.137 *)
Definition as_K22 : T := as_HK15*as_HK16.
(** airspeed_fusion.cpp l.138 *)
Definition as_K23 : T := as_HK14*as_HK16.
(** the observation Jacobian of as *)
Definition as_H : list (nat * T) := [(4%nat, as_H4); (5%nat, as_H5); (6%nat, as_H6); (22%nat, as_H22); (23%nat, as_H23)].
(** the Kalman gain of as; rows not assigned are 0 (zero-initialised vector) *)
Definition as_K (row : nat) : T :=
  if ((0 <=? row) && (row <=? 3))%nat then (if all then as_K0_3 row else szero) else
  if (row =? 4)%nat then (if all then as_K4 else szero) else
  if (row =? 5)%nat then (if all then as_K5 else szero) else
  if (row =? 6)%nat then (if all then as_K6 else szero) else
  if ((7 <=? row) && (row <=? 21))%nat then (if all then as_K7_21 row else szero) else
  if (row =? 22)%nat then as_K22 else
  if (row =? 23)%nat then as_K23 else szero.

(** ** ss: sideslip_fusion.cpp *)
(** sideslip_fusion.cpp l.78 *)
Definition ss_HK0 : T := s_vn - s_vwn.
(** sideslip_fusion.cpp l.79 *)
Definition ss_HK1 : T := s_ve - s_vwe.
(** sideslip_fusion.cpp l.80 *)
Definition ss_HK2 : T := ss_HK0*s_q0 + ss_HK1*s_q3 - s_q2*s_vd.
(** sideslip_fusion.cpp l.81 *)
Definition ss_HK3 : T := s_q0*s_q2 - s_q1*s_q3.
(** sideslip_fusion.cpp l.82 *)
Definition ss_HK4 : T := (slit 2 1)*s_vd.
(** sideslip_fusion.cpp l.83 *)
Definition ss_HK5 : T := s_q0*s_q3.
(** sideslip_fusion.cpp l.84 *)
Definition ss_HK6 : T := s_q1*s_q2.
(** sideslip_fusion.cpp l.85 *)
Definition ss_HK7 : T := (slit 2 1)*ss_HK5 + (slit 2 1)*ss_HK6.
(** sideslip_fusion.cpp l.86 *)
Definition ss_HK8 : T := (pow2 (s_q0)).
(** sideslip_fusion.cpp l.87 *)
Definition ss_HK9 : T := (pow2 (s_q3)).
(** sideslip_fusion.cpp l.88 *)
Definition ss_HK10 : T := ss_HK8 - ss_HK9.
(** sideslip_fusion.cpp l.89 *)
Definition ss_HK11 : T := (pow2 (s_q1)).
(** sideslip_fusion.cpp l.90 *)
Definition ss_HK12 : T := (pow2 (s_q2)).
(** sideslip_fusion.cpp l.91 *)
Definition ss_HK13 : T := ss_HK11 - ss_HK12.
(** sideslip_fusion.cpp l.92 *)
Definition ss_HK14 : T := ss_HK10 + ss_HK13.
(** sideslip_fusion.cpp l.93 *)
Definition ss_HK15 : T := ss_HK0*ss_HK14 + ss_HK1*ss_HK7 - ss_HK3*ss_HK4.
(** sideslip_fusion.cpp l.94 *)
Definition ss_HK16 : T := (slit 1 1)/ss_HK15.
(** sideslip_fusion.cpp l.95 *)
Definition ss_HK17 : T := s_q0*s_q1 + s_q2*s_q3.
(** sideslip_fusion.cpp l.96 *)
Definition ss_HK18 : T := ss_HK10 - ss_HK11 + ss_HK12.
(** sideslip_fusion.cpp l.97 *)
Definition ss_HK19 : T := ss_HK16*(-(slit 2 1)*ss_HK0*(ss_HK5 - ss_HK6) + ss_HK1*ss_HK18 + ss_HK17*ss_HK4).
(** sideslip_fusion.cpp l.98 *)
Definition ss_HK20 : T := -ss_HK0*s_q3 + ss_HK1*s_q0 + s_q1*s_vd.
(** sideslip_fusion.cpp l.99 *)
Definition ss_HK21 : T := -ss_HK19*ss_HK2 + ss_HK20.
(** sideslip_fusion.cpp l.100 *)
Definition ss_HK22 : T := (slit 2 1)*ss_HK16.
(** sideslip_fusion.cpp l.101 *)
Definition ss_HK23 : T := ss_HK0*s_q1 + ss_HK1*s_q2 + s_q3*s_vd.
(** sideslip_fusion.cpp l.102 *)
Definition ss_HK24 : T := ss_HK0*s_q2 - ss_HK1*s_q1 + s_q0*s_vd.
(** sideslip_fusion.cpp l.103 *)
Definition ss_HK25 : T := -ss_HK19*ss_HK23 + ss_HK24.
(** sideslip_fusion.cpp l.104 *)
Definition ss_HK26 : T := ss_HK19*ss_HK24 + ss_HK23.
(** sideslip_fusion.cpp l.105 *)
Definition ss_HK27 : T := ss_HK19*ss_HK20 + ss_HK2.
(** sideslip_fusion.cpp l.106 *)
Definition ss_HK28 : T := ss_HK14*ss_HK19 + (slit 2 1)*ss_HK5 - (slit 2 1)*ss_HK6.
(** sideslip_fusion.cpp l.107 *)
Definition ss_HK29 : T := ss_HK16*ss_HK28.
(** sideslip_fusion.cpp l.108 *)
Definition ss_HK30 : T := ss_HK19*ss_HK7.
(** sideslip_fusion.cpp l.109 *)
Definition ss_HK31 : T := ss_HK17 + ss_HK19*ss_HK3.
(** sideslip_fusion.cpp l.110 *)
Definition ss_HK32 : T := ss_HK13 + ss_HK30 - ss_HK8 + ss_HK9.
(** sideslip_fusion.cpp l.111 *)
Definition ss_HK33 : T := (slit 2 1)*ss_HK31.
(** sideslip_fusion.cpp l.112 *)
Definition ss_HK34 : T := (slit 2 1)*ss_HK26.
(** sideslip_fusion.cpp l.113 *)
Definition ss_HK35 : T := (slit 2 1)*ss_HK25.
(** sideslip_fusion.cpp l.114 *)
Definition ss_HK36 : T := (slit 2 1)*ss_HK27.
(** sideslip_fusion.cpp l.115 *)
Definition ss_HK37 : T := (slit 2 1)*ss_HK21.
(** sideslip_fusion.cpp l.116 *)
Definition ss_HK38 : T := ss_HK28*(P 0 22) - ss_HK28*(P 0 4) + ss_HK32*(P 0 23) - ss_HK32*(P 0 5) + ss_HK33*(P 0 6) + ss_HK34*(P 0 2) + ss_HK35*(P 0 1) - ss_HK36*(P 0 3) + ss_HK37*(P 0 0).
(** sideslip_fusion.cpp l.117 *)
Definition ss_HK39 : T := (powm2 (ss_HK15)).
(** sideslip_fusion.cpp l.118 *)
Definition ss_HK40 : T := -ss_HK28*(P 4 6) + ss_HK28*(P 6 22) - ss_HK32*(P 5 6) + ss_HK32*(P 6 23) + ss_HK33*(P 6 6) + ss_HK34*(P 2 6) + ss_HK35*(P 1 6) - ss_HK36*(P 3 6) + ss_HK37*(P 0 6).
(** sideslip_fusion.cpp l.119 *)
Definition ss_HK41 : T := ss_HK32*(P 5 23).
(** sideslip_fusion.cpp l.120 *)
Definition ss_HK42 : T := ss_HK28*(P 22 23) - ss_HK28*(P 4 23) + ss_HK32*(P 23 23) + ss_HK33*(P 6 23) + ss_HK34*(P 2 23) + ss_HK35*(P 1 23) - ss_HK36*(P 3 23) + ss_HK37*(P 0 23) - ss_HK41.
(** sideslip_fusion.cpp l.121 *)
Definition ss_HK43 : T := ss_HK32*ss_HK39.
(** sideslip_fusion.cpp l.122 *)
Definition ss_HK44 : T := ss_HK28*(P 4 22).
(** sideslip_fusion.cpp l.123 *)
Definition ss_HK45 : T := ss_HK28*(P 22 22) + ss_HK32*(P 22 23) - ss_HK32*(P 5 22) + ss_HK33*(P 6 22) + ss_HK34*(P 2 22) + ss_HK35*(P 1 22) - ss_HK36*(P 3 22) + ss_HK37*(P 0 22) - ss_HK44.
(** sideslip_fusion.cpp l.124 *)
Definition ss_HK46 : T := ss_HK28*ss_HK39.
(** sideslip_fusion.cpp l.125 *)
Definition ss_HK47 : T := -ss_HK28*(P 4 5) + ss_HK28*(P 5 22) - ss_HK32*(P 5 5) + ss_HK33*(P 5 6) + ss_HK34*(P 2 5) + ss_HK35*(P 1 5) - ss_HK36*(P 3 5) + ss_HK37*(P 0 5) + ss_HK41.
(** sideslip_fusion.cpp l.126 *)
Definition ss_HK48 : T := -ss_HK28*(P 4 4) + ss_HK32*(P 4 23) - ss_HK32*(P 4 5) + ss_HK33*(P 4 6) + ss_HK34*(P 2 4) + ss_HK35*(P 1 4) - ss_HK36*(P 3 4) + ss_HK37*(P 0 4) + ss_HK44.
(** sideslip_fusion.cpp l.127 *)
Definition ss_HK49 : T := ss_HK28*(P 2 22) - ss_HK28*(P 2 4) + ss_HK32*(P 2 23) - ss_HK32*(P 2 5) + ss_HK33*(P 2 6) + ss_HK34*(P 2 2) + ss_HK35*(P 1 2) - ss_HK36*(P 2 3) + ss_HK37*(P 0 2).
(** sideslip_fusion.cpp l.128 *)
Definition ss_HK50 : T := ss_HK28*(P 1 22) - ss_HK28*(P 1 4) + ss_HK32*(P 1 23) - ss_HK32*(P 1 5) + ss_HK33*(P 1 6) + ss_HK34*(P 1 2) + ss_HK35*(P 1 1) - ss_HK36*(P 1 3) + ss_HK37*(P 0 1).
(** sideslip_fusion.cpp l.129 *)
Definition ss_HK51 : T := ss_HK28*(P 3 22) - ss_HK28*(P 3 4) + ss_HK32*(P 3 23) - ss_HK32*(P 3 5) + ss_HK33*(P 3 6) + ss_HK34*(P 2 3) + ss_HK35*(P 1 3) - ss_HK36*(P 3 3) + ss_HK37*(P 0 3).
(** sideslip_fusion.cpp l.133 *)
Definition ss_S : T := (ss_HK33*ss_HK39*ss_HK40 + ss_HK34*ss_HK39*ss_HK49 + ss_HK35*ss_HK39*ss_HK50 - ss_HK36*ss_HK39*ss_HK51 + ss_HK37*ss_HK38*ss_HK39 + ss_HK42*ss_HK43 - ss_HK43*ss_HK47 + ss_HK45*ss_HK46 - ss_HK46*ss_HK48 + Rn).
(** sideslip_fusion.cpp l.156 *)
Definition ss_HK52 : T := ss_HK16/ss_S.
(** sideslip_fusion.cpp l.175 *)
Definition ss_H0 : T := ss_HK21*ss_HK22.
(** sideslip_fusion.cpp l.176 *)
Definition ss_H1 : T := ss_HK22*ss_HK25.
(** sideslip_fusion.cpp l.177 *)
Definition ss_H2 : T := ss_HK22*ss_HK26.
(** sideslip_fusion.cpp l.178 *)
Definition ss_H3 : T := -ss_HK22*ss_HK27.
(** sideslip_fusion.cpp l.179 *)
Definition ss_H4 : T := -ss_HK29.
(** sideslip_fusion.cpp l.180 *)
Definition ss_H5 : T := ss_HK16*(ss_HK18 - ss_HK30).
(** sideslip_fusion.cpp l.181 *)
Definition ss_H6 : T := ss_HK22*ss_HK31.
(** sideslip_fusion.cpp l.182 *)
Definition ss_H22 : T := ss_HK29.
(** sideslip_fusion.cpp l.183 *)
Definition ss_H23 : T := ss_HK16*ss_HK32.
(** sideslip_fusion.cpp l.189 *)
Definition ss_K0 : T := ss_HK38*ss_HK52.
(** sideslip_fusion.cpp l.190 *)
Definition ss_K1 : T := ss_HK50*ss_HK52.
(** sideslip_fusion.cpp l.191 *)
Definition ss_K2 : T := ss_HK49*ss_HK52.
(** sideslip_fusion.cpp l.192 *)
Definition ss_K3 : T := ss_HK51*ss_HK52.
(** sideslip_fusion.cpp l.193 *)
Definition ss_K4 : T := ss_HK48*ss_HK52.
(** sideslip_fusion.cpp l.194 *)
Definition ss_K5 : T := ss_HK47*ss_HK52.
(** sideslip_fusion.cpp l.195 *)
Definition ss_K6 : T := ss_HK40*ss_HK52.
(** sideslip_fusion.cpp l.198 *)  (* rows 7..21 *)
Definition ss_K7_21 (row : nat) : T := ss_HK52*(ss_HK28*(P row 22) - ss_HK28*(P 4 row) + ss_HK32*(P row 23) - ss_HK32*(P 5 row) + ss_HK33*(P 6 row) + ss_HK34*(P 2 row) + ss_HK35*(P 1 row) - ss_HK36*(P 3 row) + ss_HK37*(P 0 row)).
(** sideslip_fusion.cpp l.203 *)
Definition ss_K22 : T := ss_HK45*ss_HK52.
(** sideslip_fusion.cpp l.204 *)
Definition ss_K23 : T := ss_HK42*ss_HK52.
(** the observation Jacobian of ss *)
Definition ss_H : list (nat * T) := [(0%nat, ss_H0); (1%nat, ss_H1); (2%nat, ss_H2); (3%nat, ss_H3); (4%nat, ss_H4); (5%nat, ss_H5); (6%nat, ss_H6); (22%nat, ss_H22); (23%nat, ss_H23)].
(** the Kalman gain of ss; rows not assigned are 0 (zero-initialised vector) *)
Definition ss_K (row : nat) : T :=
  if (row =? 0)%nat then (if all then ss_K0 else szero) else
  if (row =? 1)%nat then (if all then ss_K1 else szero) else
  if (row =? 2)%nat then (if all then ss_K2 else szero) else
  if (row =? 3)%nat then (if all then ss_K3 else szero) else
  if (row =? 4)%nat then (if all then ss_K4 else szero) else
  if (row =? 5)%nat then (if all then ss_K5 else szero) else
  if (row =? 6)%nat then (if all then ss_K6 else szero) else
  if ((7 <=? row) && (row <=? 21))%nat then (if all then ss_K7_21 row else szero) else
  if (row =? 22)%nat then ss_K22 else
  if (row =? 23)%nat then ss_K23 else szero.

(** ** dx: drag_fusion.cpp *)
(** drag_fusion.cpp l.95 *)
Definition dx_HK0 : T := s_vn - s_vwn.
(** drag_fusion.cpp l.96 *)
Definition dx_HK1 : T := s_ve - s_vwe.
(** drag_fusion.cpp l.97 *)
Definition dx_HK2 : T := dx_HK0*s_q0 + dx_HK1*s_q3 - s_q2*s_vd.
(** drag_fusion.cpp l.98 *)
Definition dx_HK3 : T := (slit 2 1)*Kacc.
(** drag_fusion.cpp l.99 *)
Definition dx_HK4 : T := dx_HK0*s_q1 + dx_HK1*s_q2 + s_q3*s_vd.
(** drag_fusion.cpp l.100 *)
Definition dx_HK5 : T := dx_HK0*s_q2 - dx_HK1*s_q1 + s_q0*s_vd.
(** drag_fusion.cpp l.101 *)
Definition dx_HK6 : T := -dx_HK0*s_q3 + dx_HK1*s_q0 + s_q1*s_vd.
(** drag_fusion.cpp l.102 *)
Definition dx_HK7 : T := (pow2 (s_q0)) + (pow2 (s_q1)) - (pow2 (s_q2)) - (pow2 (s_q3)).
(** drag_fusion.cpp l.103 *)
Definition dx_HK8 : T := dx_HK7*Kacc.
(** drag_fusion.cpp l.104 *)
Definition dx_HK9 : T := s_q0*s_q3 + s_q1*s_q2.
(** drag_fusion.cpp l.105 *)
Definition dx_HK10 : T := dx_HK3*dx_HK9.
(** drag_fusion.cpp l.106 *)
Definition dx_HK11 : T := s_q0*s_q2 - s_q1*s_q3.
(** drag_fusion.cpp l.107 *)
Definition dx_HK12 : T := (slit 2 1)*dx_HK9.
(** drag_fusion.cpp l.108 *)
Definition dx_HK13 : T := (slit 2 1)*dx_HK11.
(** drag_fusion.cpp l.109 *)
Definition dx_HK14 : T := (slit 2 1)*dx_HK4.
(** drag_fusion.cpp l.110 *)
Definition dx_HK15 : T := (slit 2 1)*dx_HK2.
(** drag_fusion.cpp l.111 *)
Definition dx_HK16 : T := (slit 2 1)*dx_HK5.
(** drag_fusion.cpp l.112 *)
Definition dx_HK17 : T := (slit 2 1)*dx_HK6.
(** drag_fusion.cpp l.113 *)
Definition dx_HK18 : T := -dx_HK12*(P 0 23) + dx_HK12*(P 0 5) - dx_HK13*(P 0 6) + dx_HK14*(P 0 1) + dx_HK15*(P 0 0) - dx_HK16*(P 0 2) + dx_HK17*(P 0 3) - dx_HK7*(P 0 22) + dx_HK7*(P 0 4).
(** drag_fusion.cpp l.114 *)
Definition dx_HK19 : T := dx_HK12*(P 5 23).
(** drag_fusion.cpp l.115 *)
Definition dx_HK20 : T := -dx_HK12*(P 23 23) - dx_HK13*(P 6 23) + dx_HK14*(P 1 23) + dx_HK15*(P 0 23) - dx_HK16*(P 2 23) + dx_HK17*(P 3 23) + dx_HK19 - dx_HK7*(P 22 23) + dx_HK7*(P 4 23).
(** drag_fusion.cpp l.116 *)
Definition dx_HK21 : T := (pow2 (Kacc)).
(** drag_fusion.cpp l.117 *)
Definition dx_HK22 : T := dx_HK12*dx_HK21.
(** drag_fusion.cpp l.118 *)
Definition dx_HK23 : T := dx_HK12*(P 5 5) - dx_HK13*(P 5 6) + dx_HK14*(P 1 5) + dx_HK15*(P 0 5) - dx_HK16*(P 2 5) + dx_HK17*(P 3 5) - dx_HK19 + dx_HK7*(P 4 5) - dx_HK7*(P 5 22).
(** drag_fusion.cpp l.119 *)
Definition dx_HK24 : T := dx_HK12*(P 5 6) - dx_HK12*(P 6 23) - dx_HK13*(P 6 6) + dx_HK14*(P 1 6) + dx_HK15*(P 0 6) - dx_HK16*(P 2 6) + dx_HK17*(P 3 6) + dx_HK7*(P 4 6) - dx_HK7*(P 6 22).
(** drag_fusion.cpp l.120 *)
Definition dx_HK25 : T := dx_HK7*(P 4 22).
(** drag_fusion.cpp l.121 *)
Definition dx_HK26 : T := -dx_HK12*(P 4 23) + dx_HK12*(P 4 5) - dx_HK13*(P 4 6) + dx_HK14*(P 1 4) + dx_HK15*(P 0 4) - dx_HK16*(P 2 4) + dx_HK17*(P 3 4) - dx_HK25 + dx_HK7*(P 4 4).
(** drag_fusion.cpp l.122 *)
Definition dx_HK27 : T := dx_HK21*dx_HK7.
(** drag_fusion.cpp l.123 *)
Definition dx_HK28 : T := -dx_HK12*(P 22 23) + dx_HK12*(P 5 22) - dx_HK13*(P 6 22) + dx_HK14*(P 1 22) + dx_HK15*(P 0 22) - dx_HK16*(P 2 22) + dx_HK17*(P 3 22) + dx_HK25 - dx_HK7*(P 22 22).
(** drag_fusion.cpp l.124 *)
Definition dx_HK29 : T := -dx_HK12*(P 1 23) + dx_HK12*(P 1 5) - dx_HK13*(P 1 6) + dx_HK14*(P 1 1) + dx_HK15*(P 0 1) - dx_HK16*(P 1 2) + dx_HK17*(P 1 3) - dx_HK7*(P 1 22) + dx_HK7*(P 1 4).
(** drag_fusion.cpp l.125 *)
Definition dx_HK30 : T := -dx_HK12*(P 2 23) + dx_HK12*(P 2 5) - dx_HK13*(P 2 6) + dx_HK14*(P 1 2) + dx_HK15*(P 0 2) - dx_HK16*(P 2 2) + dx_HK17*(P 2 3) - dx_HK7*(P 2 22) + dx_HK7*(P 2 4).
(** drag_fusion.cpp l.126 *)
Definition dx_HK31 : T := -dx_HK12*(P 3 23) + dx_HK12*(P 3 5) - dx_HK13*(P 3 6) + dx_HK14*(P 1 3) + dx_HK15*(P 0 3) - dx_HK16*(P 2 3) + dx_HK17*(P 3 3) - dx_HK7*(P 3 22) + dx_HK7*(P 3 4).
(** drag_fusion.cpp l.130 *)
Definition dx_S : T := (-dx_HK13*dx_HK21*dx_HK24 + dx_HK14*dx_HK21*dx_HK29 + dx_HK15*dx_HK18*dx_HK21 - dx_HK16*dx_HK21*dx_HK30 + dx_HK17*dx_HK21*dx_HK31 - dx_HK20*dx_HK22 + dx_HK22*dx_HK23 + dx_HK26*dx_HK27 - dx_HK27*dx_HK28 + Rn).
(** drag_fusion.cpp l.134 *)
Definition dx_HK32 : T := Kacc / dx_S.
(** drag_fusion.cpp l.137 *)
Definition dx_H0 : T := -dx_HK2*dx_HK3.
(** drag_fusion.cpp l.138 *)
Definition dx_H1 : T := -dx_HK3*dx_HK4.
(** drag_fusion.cpp l.139 *)
Definition dx_H2 : T := dx_HK3*dx_HK5.
(** drag_fusion.cpp l.140 *)
Definition dx_H3 : T := -dx_HK3*dx_HK6.
(** drag_fusion.cpp l.141 *)
Definition dx_H4 : T := -dx_HK8.
(** drag_fusion.cpp l.142 *)
Definition dx_H5 : T := -dx_HK10.
(** drag_fusion.cpp l.143 *)
Definition dx_H6 : T := dx_HK11*dx_HK3.
(** drag_fusion.cpp l.144 *)
Definition dx_H22 : T := dx_HK8.
(** drag_fusion.cpp l.145 *)
Definition dx_H23 : T := dx_HK10.
(** drag_fusion.cpp l.171 *)
Definition dx_K22 : T := -dx_HK28*dx_HK32.
(** drag_fusion.cpp l.172 *)
Definition dx_K23 : T := -dx_HK20*dx_HK32.
(** the observation Jacobian of dx *)
Definition dx_H : list (nat * T) := [(0%nat, dx_H0); (1%nat, dx_H1); (2%nat, dx_H2); (3%nat, dx_H3); (4%nat, dx_H4); (5%nat, dx_H5); (6%nat, dx_H6); (22%nat, dx_H22); (23%nat, dx_H23)].
(** the Kalman gain of dx; rows not assigned are 0 (zero-initialised vector) *)
Definition dx_K (row : nat) : T :=
  if (row =? 22)%nat then dx_K22 else
  if (row =? 23)%nat then dx_K23 else szero.

(** ** dy: drag_fusion.cpp *)
(** drag_fusion.cpp l.177 *)
Definition dy_HK0 : T := s_ve - s_vwe.
(** drag_fusion.cpp l.178 *)
Definition dy_HK1 : T := s_vn - s_vwn.
(** drag_fusion.cpp l.179 *)
Definition dy_HK2 : T := dy_HK0*s_q0 - dy_HK1*s_q3 + s_q1*s_vd.
(** drag_fusion.cpp l.180 *)
Definition dy_HK3 : T := (slit 2 1)*Kacc.
(** drag_fusion.cpp l.181 *)
Definition dy_HK4 : T := -dy_HK0*s_q1 + dy_HK1*s_q2 + s_q0*s_vd.
(** drag_fusion.cpp l.182 *)
Definition dy_HK5 : T := dy_HK0*s_q2 + dy_HK1*s_q1 + s_q3*s_vd.
(** drag_fusion.cpp l.183 *)
Definition dy_HK6 : T := dy_HK0*s_q3 + dy_HK1*s_q0 - s_q2*s_vd.
(** drag_fusion.cpp l.184 *)
Definition dy_HK7 : T := s_q0*s_q3 - s_q1*s_q2.
(** drag_fusion.cpp l.185 *)
Definition dy_HK8 : T := dy_HK3*dy_HK7.
(** drag_fusion.cpp l.186 *)
Definition dy_HK9 : T := (pow2 (s_q0)) - (pow2 (s_q1)) + (pow2 (s_q2)) - (pow2 (s_q3)).
(** drag_fusion.cpp l.187 *)
Definition dy_HK10 : T := dy_HK9*Kacc.
(** drag_fusion.cpp l.188 *)
Definition dy_HK11 : T := s_q0*s_q1 + s_q2*s_q3.
(** drag_fusion.cpp l.189 *)
Definition dy_HK12 : T := (slit 2 1)*dy_HK11.
(** drag_fusion.cpp l.190 *)
Definition dy_HK13 : T := (slit 2 1)*dy_HK7.
(** drag_fusion.cpp l.191 *)
Definition dy_HK14 : T := (slit 2 1)*dy_HK5.
(** drag_fusion.cpp l.192 *)
Definition dy_HK15 : T := (slit 2 1)*dy_HK2.
(** drag_fusion.cpp l.193 *)
Definition dy_HK16 : T := (slit 2 1)*dy_HK4.
(** drag_fusion.cpp l.194 *)
Definition dy_HK17 : T := (slit 2 1)*dy_HK6.
(** drag_fusion.cpp l.195 *)
Definition dy_HK18 : T := dy_HK12*(P 0 6) + dy_HK13*(P 0 22) - dy_HK13*(P 0 4) + dy_HK14*(P 0 2) + dy_HK15*(P 0 0) + dy_HK16*(P 0 1) - dy_HK17*(P 0 3) - dy_HK9*(P 0 23) + dy_HK9*(P 0 5).
(** drag_fusion.cpp l.196 *)
Definition dy_HK19 : T := (pow2 (Kacc)).
(** drag_fusion.cpp l.197 *)
Definition dy_HK20 : T := dy_HK12*(P 6 6) - dy_HK13*(P 4 6) + dy_HK13*(P 6 22) + dy_HK14*(P 2 6) + dy_HK15*(P 0 6) + dy_HK16*(P 1 6) - dy_HK17*(P 3 6) + dy_HK9*(P 5 6) - dy_HK9*(P 6 23).
(** drag_fusion.cpp l.198 *)
Definition dy_HK21 : T := dy_HK13*(P 4 22).
(** drag_fusion.cpp l.199 *)
Definition dy_HK22 : T := dy_HK12*(P 6 22) + dy_HK13*(P 22 22) + dy_HK14*(P 2 22) + dy_HK15*(P 0 22) + dy_HK16*(P 1 22) - dy_HK17*(P 3 22) - dy_HK21 - dy_HK9*(P 22 23) + dy_HK9*(P 5 22).
(** drag_fusion.cpp l.200 *)
Definition dy_HK23 : T := dy_HK13*dy_HK19.
(** drag_fusion.cpp l.201 *)
Definition dy_HK24 : T := dy_HK12*(P 4 6) - dy_HK13*(P 4 4) + dy_HK14*(P 2 4) + dy_HK15*(P 0 4) + dy_HK16*(P 1 4) - dy_HK17*(P 3 4) + dy_HK21 - dy_HK9*(P 4 23) + dy_HK9*(P 4 5).
(** drag_fusion.cpp l.202 *)
Definition dy_HK25 : T := dy_HK9*(P 5 23).
(** drag_fusion.cpp l.203 *)
Definition dy_HK26 : T := dy_HK12*(P 5 6) - dy_HK13*(P 4 5) + dy_HK13*(P 5 22) + dy_HK14*(P 2 5) + dy_HK15*(P 0 5) + dy_HK16*(P 1 5) - dy_HK17*(P 3 5) - dy_HK25 + dy_HK9*(P 5 5).
(** drag_fusion.cpp l.204 *)
Definition dy_HK27 : T := dy_HK19*dy_HK9.
(** drag_fusion.cpp l.205 *)
Definition dy_HK28 : T := dy_HK12*(P 6 23) + dy_HK13*(P 22 23) - dy_HK13*(P 4 23) + dy_HK14*(P 2 23) + dy_HK15*(P 0 23) + dy_HK16*(P 1 23) - dy_HK17*(P 3 23) + dy_HK25 - dy_HK9*(P 23 23).
(** drag_fusion.cpp l.206 *)
Definition dy_HK29 : T := dy_HK12*(P 2 6) + dy_HK13*(P 2 22) - dy_HK13*(P 2 4) + dy_HK14*(P 2 2) + dy_HK15*(P 0 2) + dy_HK16*(P 1 2) - dy_HK17*(P 2 3) - dy_HK9*(P 2 23) + dy_HK9*(P 2 5).
(** drag_fusion.cpp l.207 *)
Definition dy_HK30 : T := dy_HK12*(P 1 6) + dy_HK13*(P 1 22) - dy_HK13*(P 1 4) + dy_HK14*(P 1 2) + dy_HK15*(P 0 1) + dy_HK16*(P 1 1) - dy_HK17*(P 1 3) - dy_HK9*(P 1 23) + dy_HK9*(P 1 5).
(** drag_fusion.cpp l.208 *)
Definition dy_HK31 : T := dy_HK12*(P 3 6) + dy_HK13*(P 3 22) - dy_HK13*(P 3 4) + dy_HK14*(P 2 3) + dy_HK15*(P 0 3) + dy_HK16*(P 1 3) - dy_HK17*(P 3 3) - dy_HK9*(P 3 23) + dy_HK9*(P 3 5).
(** drag_fusion.cpp l.211 *)
Definition dy_S : T := (dy_HK12*dy_HK19*dy_HK20 + dy_HK14*dy_HK19*dy_HK29 + dy_HK15*dy_HK18*dy_HK19 + dy_HK16*dy_HK19*dy_HK30 - dy_HK17*dy_HK19*dy_HK31 + dy_HK22*dy_HK23 - dy_HK23*dy_HK24 + dy_HK26*dy_HK27 - dy_HK27*dy_HK28 + Rn).
(** drag_fusion.cpp l.216 *)
Definition dy_HK32 : T := Kacc / dy_S.
(** drag_fusion.cpp l.219 *)
Definition dy_H0 : T := -dy_HK2*dy_HK3.
(** drag_fusion.cpp l.220 *)
Definition dy_H1 : T := -dy_HK3*dy_HK4.
(** drag_fusion.cpp l.221 *)
Definition dy_H2 : T := -dy_HK3*dy_HK5.
(** drag_fusion.cpp l.222 *)
Definition dy_H3 : T := dy_HK3*dy_HK6.
(** drag_fusion.cpp l.223 *)
Definition dy_H4 : T := dy_HK8.
(** drag_fusion.cpp l.224 *)
Definition dy_H5 : T := -dy_HK10.
(** drag_fusion.cpp l.225 *)
Definition dy_H6 : T := -dy_HK11*dy_HK3.
(** drag_fusion.cpp l.226 *)
Definition dy_H22 : T := -dy_HK8.
(** drag_fusion.cpp l.227 *)
Definition dy_H23 : T := dy_HK10.
(** drag_fusion.cpp l.253 *)
Definition dy_K22 : T := -dy_HK22*dy_HK32.
(** drag_fusion.cpp l.254 *)
Definition dy_K23 : T := -dy_HK28*dy_HK32.
(** the observation Jacobian of dy *)
Definition dy_H : list (nat * T) := [(0%nat, dy_H0); (1%nat, dy_H1); (2%nat, dy_H2); (3%nat, dy_H3); (4%nat, dy_H4); (5%nat, dy_H5); (6%nat, dy_H6); (22%nat, dy_H22); (23%nat, dy_H23)].
(** the Kalman gain of dy; rows not assigned are 0 (zero-initialised vector) *)
Definition dy_K (row : nat) : T :=
  if (row =? 22)%nat then dy_K22 else
  if (row =? 23)%nat then dy_K23 else szero.

(** ** ox: optflow_fusion.cpp *)
(** optflow_fusion.cpp l.120 *)
Definition ox_HK0 : T := -(tbs 1 0)*s_q2 + (tbs 1 1)*s_q1 + (tbs 1 2)*s_q0.
(** optflow_fusion.cpp l.121 *)
Definition ox_HK1 : T := (tbs 1 0)*s_q3 + (tbs 1 1)*s_q0 - (tbs 1 2)*s_q1.
(** optflow_fusion.cpp l.122 *)
Definition ox_HK2 : T := (tbs 1 0)*s_q0 - (tbs 1 1)*s_q3 + (tbs 1 2)*s_q2.
(** optflow_fusion.cpp l.123 *)
Definition ox_HK3 : T := ox_HK0*s_vd + ox_HK1*s_ve + ox_HK2*s_vn.
(** optflow_fusion.cpp l.124 *)
Definition ox_HK4 : T := (slit 1 1)/range.
(** optflow_fusion.cpp l.125 *)
Definition ox_HK5 : T := (slit 2 1)*ox_HK4.
(** optflow_fusion.cpp l.126 *)
Definition ox_HK6 : T := (tbs 1 0)*s_q1 + (tbs 1 1)*s_q2 + (tbs 1 2)*s_q3.
(** optflow_fusion.cpp l.127 *)
Definition ox_HK7 : T := -ox_HK0*s_ve + ox_HK1*s_vd + ox_HK6*s_vn.
(** optflow_fusion.cpp l.128 *)
Definition ox_HK8 : T := ox_HK0*s_vn - ox_HK2*s_vd + ox_HK6*s_ve.
(** optflow_fusion.cpp l.129 *)
Definition ox_HK9 : T := -ox_HK1*s_vn + ox_HK2*s_ve + ox_HK6*s_vd.
(** optflow_fusion.cpp l.130 *)
Definition ox_HK10 : T := s_q0*s_q2.
(** optflow_fusion.cpp l.131 *)
Definition ox_HK11 : T := s_q1*s_q3.
(** optflow_fusion.cpp l.132 *)
Definition ox_HK12 : T := ox_HK10 + ox_HK11.
(** optflow_fusion.cpp l.133 *)
Definition ox_HK13 : T := (slit 2 1)*(tbs 1 2).
(** optflow_fusion.cpp l.134 *)
Definition ox_HK14 : T := s_q0*s_q3.
(** optflow_fusion.cpp l.135 *)
Definition ox_HK15 : T := s_q1*s_q2.
(** optflow_fusion.cpp l.136 *)
Definition ox_HK16 : T := ox_HK14 - ox_HK15.
(** optflow_fusion.cpp l.137 *)
Definition ox_HK17 : T := (slit 2 1)*(tbs 1 1).
(** optflow_fusion.cpp l.138 *)
Definition ox_HK18 : T := (pow2 (s_q1)).
(** optflow_fusion.cpp l.139 *)
Definition ox_HK19 : T := (pow2 (s_q2)).
(** optflow_fusion.cpp l.140 *)
Definition ox_HK20 : T := -ox_HK19.
(** optflow_fusion.cpp l.141 *)
Definition ox_HK21 : T := (pow2 (s_q0)).
(** optflow_fusion.cpp l.142 *)
Definition ox_HK22 : T := (pow2 (s_q3)).
(** optflow_fusion.cpp l.143 *)
Definition ox_HK23 : T := ox_HK21 - ox_HK22.
(** optflow_fusion.cpp l.144 *)
Definition ox_HK24 : T := ox_HK18 + ox_HK20 + ox_HK23.
(** optflow_fusion.cpp l.145 *)
Definition ox_HK25 : T := ox_HK12*ox_HK13 - ox_HK16*ox_HK17 + ox_HK24*(tbs 1 0).
(** optflow_fusion.cpp l.146 *)
Definition ox_HK26 : T := ox_HK14 + ox_HK15.
(** optflow_fusion.cpp l.147 *)
Definition ox_HK27 : T := (slit 2 1)*(tbs 1 0).
(** optflow_fusion.cpp l.148 *)
Definition ox_HK28 : T := s_q0*s_q1.
(** optflow_fusion.cpp l.149 *)
Definition ox_HK29 : T := s_q2*s_q3.
(** optflow_fusion.cpp l.150 *)
Definition ox_HK30 : T := ox_HK28 - ox_HK29.
(** optflow_fusion.cpp l.151 *)
Definition ox_HK31 : T := -ox_HK18.
(** optflow_fusion.cpp l.152 *)
Definition ox_HK32 : T := ox_HK19 + ox_HK23 + ox_HK31.
(** optflow_fusion.cpp l.153 *)
Definition ox_HK33 : T := -ox_HK13*ox_HK30 + ox_HK26*ox_HK27 + ox_HK32*(tbs 1 1).
(** optflow_fusion.cpp l.154 *)
Definition ox_HK34 : T := ox_HK28 + ox_HK29.
(** optflow_fusion.cpp l.155 *)
Definition ox_HK35 : T := ox_HK10 - ox_HK11.
(** optflow_fusion.cpp l.156 *)
Definition ox_HK36 : T := ox_HK20 + ox_HK21 + ox_HK22 + ox_HK31.
(** optflow_fusion.cpp l.157 *)
Definition ox_HK37 : T := ox_HK17*ox_HK34 - ox_HK27*ox_HK35 + ox_HK36*(tbs 1 2).
(** optflow_fusion.cpp l.158 *)
Definition ox_HK38 : T := (slit 2 1)*ox_HK3.
(** optflow_fusion.cpp l.159 *)
Definition ox_HK39 : T := (slit 2 1)*ox_HK7.
(** optflow_fusion.cpp l.160 *)
Definition ox_HK40 : T := (slit 2 1)*ox_HK8.
(** optflow_fusion.cpp l.161 *)
Definition ox_HK41 : T := (slit 2 1)*ox_HK9.
(** optflow_fusion.cpp l.162 *)
Definition ox_HK42 : T := ox_HK25*(P 0 4) + ox_HK33*(P 0 5) + ox_HK37*(P 0 6) + ox_HK38*(P 0 0) + ox_HK39*(P 0 1) + ox_HK40*(P 0 2) + ox_HK41*(P 0 3).
(** optflow_fusion.cpp l.163 *)
Definition ox_HK43 : T := (powm2 (range)).
(** optflow_fusion.cpp l.164 *)
Definition ox_HK44 : T := ox_HK25*(P 4 6) + ox_HK33*(P 5 6) + ox_HK37*(P 6 6) + ox_HK38*(P 0 6) + ox_HK39*(P 1 6) + ox_HK40*(P 2 6) + ox_HK41*(P 3 6).
(** optflow_fusion.cpp l.165 *)
Definition ox_HK45 : T := ox_HK25*(P 4 5) + ox_HK33*(P 5 5) + ox_HK37*(P 5 6) + ox_HK38*(P 0 5) + ox_HK39*(P 1 5) + ox_HK40*(P 2 5) + ox_HK41*(P 3 5).
(** optflow_fusion.cpp l.166 *)
Definition ox_HK46 : T := ox_HK25*(P 4 4) + ox_HK33*(P 4 5) + ox_HK37*(P 4 6) + ox_HK38*(P 0 4) + ox_HK39*(P 1 4) + ox_HK40*(P 2 4) + ox_HK41*(P 3 4).
(** optflow_fusion.cpp l.167 *)
Definition ox_HK47 : T := ox_HK25*(P 2 4) + ox_HK33*(P 2 5) + ox_HK37*(P 2 6) + ox_HK38*(P 0 2) + ox_HK39*(P 1 2) + ox_HK40*(P 2 2) + ox_HK41*(P 2 3).
(** optflow_fusion.cpp l.168 *)
Definition ox_HK48 : T := ox_HK25*(P 3 4) + ox_HK33*(P 3 5) + ox_HK37*(P 3 6) + ox_HK38*(P 0 3) + ox_HK39*(P 1 3) + ox_HK40*(P 2 3) + ox_HK41*(P 3 3).
(** optflow_fusion.cpp l.169 *)
Definition ox_HK49 : T := ox_HK25*(P 1 4) + ox_HK33*(P 1 5) + ox_HK37*(P 1 6) + ox_HK38*(P 0 1) + ox_HK39*(P 1 1) + ox_HK40*(P 1 2) + ox_HK41*(P 1 3).
(** optflow_fusion.cpp l.173 *)
Definition ox_S : T := (ox_HK25*ox_HK43*ox_HK46 + ox_HK33*ox_HK43*ox_HK45 + ox_HK37*ox_HK43*ox_HK44 + ox_HK38*ox_HK42*ox_HK43 + ox_HK39*ox_HK43*ox_HK49 + ox_HK40*ox_HK43*ox_HK47 + ox_HK41*ox_HK43*ox_HK48 + Rn).
(** optflow_fusion.cpp l.180 *)
Definition ox_HK50 : T := ox_HK4/ox_S.
(** optflow_fusion.cpp l.270 *)
Definition ox_H0 : T := ox_HK3*ox_HK5.
(** optflow_fusion.cpp l.271 *)
Definition ox_H1 : T := ox_HK5*ox_HK7.
(** optflow_fusion.cpp l.272 *)
Definition ox_H2 : T := ox_HK5*ox_HK8.
(** optflow_fusion.cpp l.273 *)
Definition ox_H3 : T := ox_HK5*ox_HK9.
(** optflow_fusion.cpp l.274 *)
Definition ox_H4 : T := ox_HK25*ox_HK4.
(** optflow_fusion.cpp l.275 *)
Definition ox_H5 : T := ox_HK33*ox_HK4.
(** optflow_fusion.cpp l.276 *)
Definition ox_H6 : T := ox_HK37*ox_HK4.
(** optflow_fusion.cpp l.279 *)
Definition ox_K0 : T := ox_HK42*ox_HK50.
(** optflow_fusion.cpp l.280 *)
Definition ox_K1 : T := ox_HK49*ox_HK50.
(** optflow_fusion.cpp l.281 *)
Definition ox_K2 : T := ox_HK47*ox_HK50.
(** optflow_fusion.cpp l.282 *)
Definition ox_K3 : T := ox_HK48*ox_HK50.
(** optflow_fusion.cpp l.283 *)
Definition ox_K4 : T := ox_HK46*ox_HK50.
(** optflow_fusion.cpp l.284 *)
Definition ox_K5 : T := ox_HK45*ox_HK50.
(** optflow_fusion.cpp l.285 *)
Definition ox_K6 : T := ox_HK44*ox_HK50.
(** optflow_fusion.cpp l.288 *)  (* rows 7..23 *)
Definition ox_K7_23 (row : nat) : T := ox_HK50*(ox_HK25*(P 4 row) + ox_HK33*(P 5 row) + ox_HK37*(P 6 row) + ox_HK38*(P 0 row) + ox_HK39*(P 1 row) + ox_HK40*(P 2 row) + ox_HK41*(P 3 row)).
(** the observation Jacobian of ox *)
Definition ox_H : list (nat * T) := [(0%nat, ox_H0); (1%nat, ox_H1); (2%nat, ox_H2); (3%nat, ox_H3); (4%nat, ox_H4); (5%nat, ox_H5); (6%nat, ox_H6)].
(** the Kalman gain of ox; rows not assigned are 0 (zero-initialised vector) *)
Definition ox_K (row : nat) : T :=
  if (row =? 0)%nat then ox_K0 else
  if (row =? 1)%nat then ox_K1 else
  if (row =? 2)%nat then ox_K2 else
  if (row =? 3)%nat then ox_K3 else
  if (row =? 4)%nat then ox_K4 else
  if (row =? 5)%nat then ox_K5 else
  if (row =? 6)%nat then ox_K6 else
  if ((7 <=? row) && (row <=? 23))%nat then ox_K7_23 row else szero.

(** ** oy: optflow_fusion.cpp *)
(** optflow_fusion.cpp l.182 *)
Definition oy_HK51 : T := (tbs 0 1)*s_q1.
(** optflow_fusion.cpp l.183 *)
Definition oy_HK52 : T := (tbs 0 2)*s_q0.
(** optflow_fusion.cpp l.184 *)
Definition oy_HK53 : T := (tbs 0 0)*s_q2.
(** optflow_fusion.cpp l.185 *)
Definition oy_HK54 : T := oy_HK51 + oy_HK52 - oy_HK53.
(** optflow_fusion.cpp l.186 *)
Definition oy_HK55 : T := (tbs 0 0)*s_q3.
(** optflow_fusion.cpp l.187 *)
Definition oy_HK56 : T := (tbs 0 1)*s_q0.
(** optflow_fusion.cpp l.188 *)
Definition oy_HK57 : T := (tbs 0 2)*s_q1.
(** optflow_fusion.cpp l.189 *)
Definition oy_HK58 : T := oy_HK55 + oy_HK56 - oy_HK57.
(** optflow_fusion.cpp l.190 *)
Definition oy_HK59 : T := (tbs 0 0)*s_q0.
(** optflow_fusion.cpp l.191 *)
Definition oy_HK60 : T := (tbs 0 2)*s_q2.
(** optflow_fusion.cpp l.192 *)
Definition oy_HK61 : T := (tbs 0 1)*s_q3.
(** optflow_fusion.cpp l.193 *)
Definition oy_HK62 : T := oy_HK59 + oy_HK60 - oy_HK61.
(** optflow_fusion.cpp l.194 *)
Definition oy_HK63 : T := oy_HK54*s_vd + oy_HK58*s_ve + oy_HK62*s_vn.
(** optflow_fusion.cpp l.195 *)
Definition oy_HK64 : T := (tbs 0 0)*s_q1 + (tbs 0 1)*s_q2 + (tbs 0 2)*s_q3.
(** optflow_fusion.cpp l.196 *)
Definition oy_HK65 : T := oy_HK58*s_vd + oy_HK64*s_vn.
(** optflow_fusion.cpp l.197 *)
Definition oy_HK66 : T := -oy_HK54*s_ve + oy_HK65.
(** optflow_fusion.cpp l.198 *)
Definition oy_HK67 : T := oy_HK54*s_vn + oy_HK64*s_ve.
(** optflow_fusion.cpp l.199 *)
Definition oy_HK68 : T := -oy_HK62*s_vd + oy_HK67.
(** optflow_fusion.cpp l.200 *)
Definition oy_HK69 : T := oy_HK62*s_ve + oy_HK64*s_vd.
(** optflow_fusion.cpp l.201 *)
Definition oy_HK70 : T := -oy_HK58*s_vn + oy_HK69.
(** optflow_fusion.cpp l.202 *)
Definition oy_HK71 : T := (slit 2 1)*(tbs 0 1).
(** optflow_fusion.cpp l.203 *)
Definition oy_HK72 : T := (slit 2 1)*(tbs 0 2).
(** optflow_fusion.cpp l.204 *)
Definition oy_HK73 : T := ox_HK12*oy_HK72 + ox_HK24*(tbs 0 0).
(** optflow_fusion.cpp l.205 *)
Definition oy_HK74 : T := -ox_HK16*oy_HK71 + oy_HK73.
(** optflow_fusion.cpp l.206 *)
Definition oy_HK75 : T := (slit 2 1)*(tbs 0 0).
(** optflow_fusion.cpp l.207 *)
Definition oy_HK76 : T := ox_HK26*oy_HK75 + ox_HK32*(tbs 0 1).
(** optflow_fusion.cpp l.208 *)
Definition oy_HK77 : T := -ox_HK30*oy_HK72 + oy_HK76.
(** optflow_fusion.cpp l.209 *)
Definition oy_HK78 : T := ox_HK34*oy_HK71 + ox_HK36*(tbs 0 2).
(** optflow_fusion.cpp l.210 *)
Definition oy_HK79 : T := -ox_HK35*oy_HK75 + oy_HK78.
(** optflow_fusion.cpp l.211 *)
Definition oy_HK80 : T := (slit 2 1)*oy_HK63.
(** optflow_fusion.cpp l.212 *)
Definition oy_HK81 : T := (slit 2 1)*oy_HK65 + (slit 2 1)*s_ve*(-oy_HK51 - oy_HK52 + oy_HK53).
(** optflow_fusion.cpp l.213 *)
Definition oy_HK82 : T := (slit 2 1)*oy_HK67 + (slit 2 1)*s_vd*(-oy_HK59 - oy_HK60 + oy_HK61).
(** optflow_fusion.cpp l.214 *)
Definition oy_HK83 : T := (slit 2 1)*oy_HK69 + (slit 2 1)*s_vn*(-oy_HK55 - oy_HK56 + oy_HK57).
(** optflow_fusion.cpp l.215 *)
Definition oy_HK84 : T := oy_HK71*(-ox_HK14 + ox_HK15) + oy_HK73.
(** optflow_fusion.cpp l.216 *)
Definition oy_HK85 : T := oy_HK72*(-ox_HK28 + ox_HK29) + oy_HK76.
(** optflow_fusion.cpp l.217 *)
Definition oy_HK86 : T := oy_HK75*(-ox_HK10 + ox_HK11) + oy_HK78.
(** optflow_fusion.cpp l.218 *)
Definition oy_HK87 : T := oy_HK80*(P 0 0) + oy_HK81*(P 0 1) + oy_HK82*(P 0 2) + oy_HK83*(P 0 3) + oy_HK84*(P 0 4) + oy_HK85*(P 0 5) + oy_HK86*(P 0 6).
(** optflow_fusion.cpp l.219 *)
Definition oy_HK88 : T := oy_HK80*(P 0 6) + oy_HK81*(P 1 6) + oy_HK82*(P 2 6) + oy_HK83*(P 3 6) + oy_HK84*(P 4 6) + oy_HK85*(P 5 6) + oy_HK86*(P 6 6).
(** optflow_fusion.cpp l.220 *)
Definition oy_HK89 : T := oy_HK80*(P 0 5) + oy_HK81*(P 1 5) + oy_HK82*(P 2 5) + oy_HK83*(P 3 5) + oy_HK84*(P 4 5) + oy_HK85*(P 5 5) + oy_HK86*(P 5 6).
(** optflow_fusion.cpp l.221 *)
Definition oy_HK90 : T := oy_HK80*(P 0 4) + oy_HK81*(P 1 4) + oy_HK82*(P 2 4) + oy_HK83*(P 3 4) + oy_HK84*(P 4 4) + oy_HK85*(P 4 5) + oy_HK86*(P 4 6).
(** optflow_fusion.cpp l.222 *)
Definition oy_HK91 : T := oy_HK80*(P 0 2) + oy_HK81*(P 1 2) + oy_HK82*(P 2 2) + oy_HK83*(P 2 3) + oy_HK84*(P 2 4) + oy_HK85*(P 2 5) + oy_HK86*(P 2 6).
(** optflow_fusion.cpp l.223 *)
Definition oy_HK92 : T := (slit 2 1)*ox_HK43.
(** optflow_fusion.cpp l.224 *)
Definition oy_HK93 : T := oy_HK80*(P 0 3) + oy_HK81*(P 1 3) + oy_HK82*(P 2 3) + oy_HK83*(P 3 3) + oy_HK84*(P 3 4) + oy_HK85*(P 3 5) + oy_HK86*(P 3 6).
(** optflow_fusion.cpp l.225 *)
Definition oy_HK94 : T := oy_HK80*(P 0 1) + oy_HK81*(P 1 1) + oy_HK82*(P 1 2) + oy_HK83*(P 1 3) + oy_HK84*(P 1 4) + oy_HK85*(P 1 5) + oy_HK86*(P 1 6).
(** optflow_fusion.cpp l.229 *)
Definition oy_S : T := (ox_HK43*oy_HK74*oy_HK90 + ox_HK43*oy_HK77*oy_HK89 + ox_HK43*oy_HK79*oy_HK88 + ox_HK43*oy_HK80*oy_HK87 + oy_HK66*oy_HK92*oy_HK94 + oy_HK68*oy_HK91*oy_HK92 + oy_HK70*oy_HK92*oy_HK93 + Rn).
(** optflow_fusion.cpp l.235 *)
Definition oy_HK95 : T := ox_HK4/oy_S.
(** optflow_fusion.cpp l.293 *)
Definition oy_H0 : T := -ox_HK5*oy_HK63.
(** optflow_fusion.cpp l.294 *)
Definition oy_H1 : T := -ox_HK5*oy_HK66.
(** optflow_fusion.cpp l.295 *)
Definition oy_H2 : T := -ox_HK5*oy_HK68.
(** optflow_fusion.cpp l.296 *)
Definition oy_H3 : T := -ox_HK5*oy_HK70.
(** optflow_fusion.cpp l.297 *)
Definition oy_H4 : T := -ox_HK4*oy_HK74.
(** optflow_fusion.cpp l.298 *)
Definition oy_H5 : T := -ox_HK4*oy_HK77.
(** optflow_fusion.cpp l.299 *)
Definition oy_H6 : T := -ox_HK4*oy_HK79.
(** optflow_fusion.cpp l.302 *)
Definition oy_K0 : T := -oy_HK87*oy_HK95.
(** optflow_fusion.cpp l.303 *)
Definition oy_K1 : T := -oy_HK94*oy_HK95.
(** optflow_fusion.cpp l.304 *)
Definition oy_K2 : T := -oy_HK91*oy_HK95.
(** optflow_fusion.cpp l.305 *)
Definition oy_K3 : T := -oy_HK93*oy_HK95.
(** optflow_fusion.cpp l.306 *)
Definition oy_K4 : T := -oy_HK90*oy_HK95.
(** optflow_fusion.cpp l.307 *)
Definition oy_K5 : T := -oy_HK89*oy_HK95.
(** optflow_fusion.cpp l.308 *)
Definition oy_K6 : T := -oy_HK88*oy_HK95.
(** optflow_fusion.cpp l.311 *)  (* rows 7..23 *)
Definition oy_K7_23 (row : nat) : T := -oy_HK95*(oy_HK80*(Pl 0 row) + oy_HK81*(Pl 1 row) + oy_HK82*(Pl 2 row) + oy_HK83*(Pl 3 row) + oy_HK84*(Pl 4 row) + oy_HK85*(Pl 5 row) + oy_HK86*(Pl 6 row)).
(** the observation Jacobian of oy *)
Definition oy_H : list (nat * T) := [(0%nat, oy_H0); (1%nat, oy_H1); (2%nat, oy_H2); (3%nat, oy_H3); (4%nat, oy_H4); (5%nat, oy_H5); (6%nat, oy_H6)].
(** the Kalman gain of oy; rows not assigned are 0 (zero-initialised vector) *)
Definition oy_K (row : nat) : T :=
  if (row =? 0)%nat then oy_K0 else
  if (row =? 1)%nat then oy_K1 else
  if (row =? 2)%nat then oy_K2 else
  if (row =? 3)%nat then oy_K3 else
  if (row =? 4)%nat then oy_K4 else
  if (row =? 5)%nat then oy_K5 else
  if (row =? 6)%nat then oy_K6 else
  if ((7 <=? row) && (row <=? 23))%nat then oy_K7_23 row else szero.
End Gen.

(** * State prediction, state limits and start-up of the filter

    EKF/ekf.cpp l.144-308 (initialiseFilter, initialiseTilt, predictState) and
    EKF/ekf_helper.cpp l.550-565 (constrainStates).  Exact reals; sinf, cosf,
    asinf, atan2f, sqrtf are the real functions, vector, quaternion and matrix
    operations those of RealGeom.v (PX4-Matrix is not part of /repo). *)
From Coq Require Import Reals Lra ZArith List.
From Verif Require Import RealGeom RotModel.
Import ListNotations.
Open Scope R_scope.

(** stateSample, common.h: attitude, velocity, position, delta angle bias, delta
    velocity bias, earth and body magnetic field, wind (north, east) *)
Record pstate := PState { s_q : Q4; s_v : V3; s_p : V3; s_ab : V3; s_vb : V3; s_mi : V3; s_mb : V3; s_wn : R; s_we : R }.
(** predictState also keeps _R_to_earth, _accel_lpf_NE, _dt_ekf_avg and _ang_rate_delayed_raw *)
Record pred := Pred { p_s : pstate; p_R : M3; p_lpn : R; p_lpe : R; p_dt : R; p_rate : V3 }.
(** the delayed IMU sample *)
Record pimu := Pimu { pi_da : V3; pi_dv : V3; pi_dadt : R; pi_dvdt : R }.

Definition gravity : R := 980665 / 100000.
(** math::constrain, mathlib.h l.72-77 *)
Definition rcon (lo hi x : R) : R := if Rlt_dec x lo then lo else if Rlt_dec hi x then hi else x.
(** matrix::constrain of a vector to [-b, b], for b >= 0 (PX4-Matrix returns NaN for b < 0: not modelled) *)
Definition vcon (b : R) (v : V3) : V3 := mkV (rcon (- b) b (vx v)) (rcon (- b) b (vy v)) (rcon (- b) b (vz v)).
Definition qcon (q : Q4) : Q4 := mkQ (rcon (-1) 1 (q0 q)) (rcon (-1) 1 (q1 q)) (rcon (-1) 1 (q2 q)) (rcon (-1) 1 (q3 q)).

(** constrainStates, ekf_helper.cpp l.550-565; math::radians(20) = 20 pi / 180 *)
Definition constrainStates (acc_bias_lim dt : R) (s : pstate) : pstate :=
  PState (qcon (s_q s)) (vcon 1000 (s_v s)) (vcon 1000000 (s_p s))
    (vcon (20 * PI / 180 * dt) (s_ab s)) (vcon (acc_bias_lim * dt) (s_vb s))
    (vcon 1 (s_mi s)) (vcon (1 / 2) (s_mb s)) (rcon (-100) 100 (s_wn s)) (rcon (-100) 100 (s_we s)).

(** predictState, ekf.cpp l.257-308; [earth]: _earth_rate_NED *)
Definition corrected_da (earth : V3) (i : pimu) (s : pred) : V3 :=
  vsub (vsub (pi_da i) (s_ab (p_s s))) (vscale (pi_dadt i) (mapp (mtr (p_R s)) earth)).
Definition predictState (acc_bias_lim : R) (earth : V3) (i : pimu) (s : pred) : pred :=
  let x := p_s s in
  let q := qnormalize (qmul (s_q x) (qexp (corrected_da earth i s))) in
  let R := dcm q in
  let dve := mapp R (vsub (pi_dv i) (s_vb x)) in
  let alpha := 1 - pi_dvdt i in
  let v1 := vadd (s_v x) dve in
  let v2 := mkV (vx v1) (vy v1) (vz v1 + gravity * pi_dvdt i) in
  let p := vadd (s_p x) (vscale (1 / 2) (vscale (pi_dvdt i) (vadd (s_v x) v2))) in
  let y := constrainStates acc_bias_lim (p_dt s) (PState q v2 p (s_ab x) (s_vb x) (s_mi x) (s_mb x) (s_wn x) (s_we x)) in
  let input := rcon (1 / 200) (2 / 100) (1 / 2 * (pi_dvdt i + pi_dadt i)) in
  Pred y R (p_lpn s * alpha + vx dve) (p_lpe s * alpha + vy dve) (99 / 100 * p_dt s + 1 / 100 * input)
    (if Rlt_dec (1 / 400) (pi_dadt i) then vscale (/ pi_dadt i) (pi_da i) else p_rate s).
Fixpoint predictAll (acc_bias_lim : R) (earth : V3) (l : list pimu) (s : pred) : pred :=
  match l with [] => s | i :: r => predictAll acc_bias_lim earth r (predictState acc_bias_lim earth i s) end.

(** ** Start-up: initialiseFilter, ekf.cpp l.144-216 (the remaining part is in ControlModel.v and CovModel.v) *)
(** AlphaFilter<Vector3f>{0.1f}: reset and update (FilterModel.v), over the reals *)
Definition lpf (x u : V3) : V3 := vadd (vscale (9 / 10) x) (vscale (1 / 10) u).
(** what an update delivers: newest IMU sample, popped magnetometer and barometer samples with time stamps *)
Record startin := StartIn { st_imu : pimu; st_mag : option (Z * V3); st_baro : option (Z * R) }.
(** _is_first_imu_sample, _accel_lpf, _gyro_lpf, _mag_lpf, _mag_counter, _baro_counter (uint32_t), _baro_hgt_offset *)
Record startst := StartSt { u_first : bool; u_acc : V3; u_gyr : V3; u_mag : V3; u_magc : Z; u_baroc : Z; u_off : R }.
Definition start0 : startst := StartSt true vzero vzero vzero 0 0 0.
Definition vnorm (v : V3) : R := sqrt (vnorm2 v).
(** initialiseTilt l.235-242: conditions *)
Definition tiltOk (s : startst) : bool :=
  if Rlt_dec (vnorm (u_acc s)) (8 / 10 * gravity) then false else if Rlt_dec (12 / 10 * gravity) (vnorm (u_acc s)) then false
  else if Rlt_dec (15 * PI / 180) (vnorm (u_gyr s)) then false else true.
(** Quatf(Eulerf), PX4-Matrix *)
Definition quatOfEuler (roll pitch yaw : R) : Q4 :=
  let c1 := cos (roll / 2) in let s1 := sin (roll / 2) in let c2 := cos (pitch / 2) in let s2 := sin (pitch / 2) in
  let c3 := cos (yaw / 2) in let s3 := sin (yaw / 2) in
  mkQ (c1 * c2 * c3 + s1 * s2 * s3) (s1 * c2 * c3 - c1 * s2 * s3) (c1 * s2 * c3 + s1 * c2 * s3) (c1 * c2 * s3 - s1 * s2 * c3).
(** initialiseTilt l.245-252 *)
Definition tiltQuat (acc : V3) : Q4 :=
  let g := vscale (/ vnorm acc) acc in
  quatOfEuler (atan2 (- vy g) (- vz g)) (asin (vx g)) 0.
(** one call of initialiseFilter: the new state, and the initial attitude if initialisation completes.
    [use_mag]: mag_fusion_type <= MAG_FUSE_TYPE_3D; [obs_len]: _obs_buffer_length *)
Definition startStep (use_mag : bool) (obs_len : Z) (i : startin) (s : startst) : startst * option Q4 :=
  let m := st_imu i in
  if Rlt_dec (pi_dvdt m) (1 / 10000) then (s, None) else if Rlt_dec (pi_dadt m) (1 / 10000) then (s, None) else
  let a := vscale (/ pi_dvdt m) (pi_dv m) in let w := vscale (/ pi_dadt m) (pi_da m) in
  let acc := if u_first s then a else lpf (u_acc s) a in
  let gyr := if u_first s then w else lpf (u_gyr s) w in
  let '(mag, magc) := match st_mag i with
    | Some (t, b) => if (t =? 0)%Z then (u_mag s, u_magc s) else (if (u_magc s =? 0)%Z then b else lpf (u_mag s) b, ((u_magc s + 1) mod 2 ^ 32)%Z)
    | None => (u_mag s, u_magc s) end in
  let '(off, baroc) := match st_baro i with
    | Some (t, h) => if (t =? 0)%Z then (u_off s, u_baroc s) else (if (u_baroc s =? 0)%Z then h else 9 / 10 * u_off s + 1 / 10 * h, ((u_baroc s + 1) mod 2 ^ 32)%Z)
    | None => (u_off s, u_baroc s) end in
  let s' := StartSt false acc gyr mag magc baroc off in
  if (use_mag && (magc <? obs_len)%Z)%bool then (s', None)
  else if (baroc <? obs_len)%Z then (s', None)
  else if tiltOk s' then (s', Some (tiltQuat acc)) else (s', None).
(** calls until initialisation completes: state and attitude *)
Fixpoint startRun (use_mag : bool) (obs_len : Z) (l : list startin) (s : startst) : startst * option Q4 :=
  match l with
  | [] => (s, None)
  | i :: r => match startStep use_mag obs_len i s with (s', Some q) => (s', Some q) | (s', None) => startRun use_mag obs_len r s' end
  end.

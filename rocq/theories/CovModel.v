(** * Covariance prediction, repair, reset and measurement update

    EKF/covariance.cpp, EKF/vel_pos_fusion.cpp, ekf.h l.688-747,
    ekf_helper.cpp l.876-915, 983-1000.  Parametric in the scalar.  The 24x24
    matrix P is a function of two indices below 24. *)
From Verif Require Import CBase Scalar CovPredGen.
Open Scope nat_scope.

(** the fault flags touched here *)
Record covst (T : Type) := mkCov {
  cP : Mat T;
  (** _accel_bias_inhibit, _prev_dvel_bias_var *)
  c_inhibit : nat -> bool; c_prev_var : Vec T;
  (** _ang_rate_magnitude_filt, _accel_magnitude_filt, _accel_vec_filt, _height_rate_lpf *)
  c_ang_filt : T; c_acc_filt : T; c_acc_vec : Vec T; c_hrate : T;
  (** _delta_angle_bias_var_accum, _delta_vel_bias_var_accum *)
  c_acc_ang : Vec T; c_acc_vel : Vec T;
  (** _fault_status.flags.bad_acc_clipping / bad_acc_bias, _time_acc_bias_check,
      _warning_events.flags.invalid_accel_bias_cov_reset *)
  c_bad_clip : bool; c_bad_acc_bias : bool; c_time_acc_bias : Z; c_warn_acc_bias : bool }.
Arguments mkCov {T}. Arguments cP {T}. Arguments c_inhibit {T}. Arguments c_prev_var {T}.
Arguments c_ang_filt {T}. Arguments c_acc_filt {T}. Arguments c_acc_vec {T}. Arguments c_hrate {T}.
Arguments c_acc_ang {T}. Arguments c_acc_vel {T}. Arguments c_bad_clip {T}. Arguments c_bad_acc_bias {T}.
Arguments c_time_acc_bias {T}. Arguments c_warn_acc_bias {T}.

(** everything the functions read and do not write *)
Record covctx (T : Type) := mkCtx {
  (** the 24 states: quaternion, velocity, position, delta angle bias, delta
      velocity bias, earth field, body field, wind *)
  x_st : Vec T;
  (** _imu_sample_delayed: delta_ang, delta_vel, delta_vel_clipping *)
  x_da : Vec T; x_dv : Vec T; x_clip : nat -> bool;
  (** row 2 of _R_to_earth *)
  x_R2 : Vec T;
  (** parameters *)
  p_gyro_bias_p_noise : T; p_accel_bias_p_noise : T; p_acc_bias_learn_tc : T;
  p_acc_bias_learn_gyr_lim : T; p_acc_bias_learn_acc_lim : T; p_mage_p_noise : T; p_magb_p_noise : T;
  p_wind_vel_p_noise : T; p_wind_vel_p_noise_scaler : T; p_initial_wind_uncertainty : T;
  p_gyro_noise : T; p_accel_noise : T; p_acc_bias_lim : T;
  (** fusion_mode & MASK_INHIBIT_ACC_BIAS *)
  p_inhibit_acc_bias : bool;
  (** flags *)
  f_bad_acc_vertical : bool; f_in_air : bool; f_mag_3D : bool; f_wind : bool;
  f_gps : bool; f_ev_vel : bool; f_gps_hgt : bool; f_baro_hgt : bool; f_rng_hgt : bool; f_ev_hgt : bool;
  (** vertical innovations: gps_vel, ev_vel, gps_pos, baro_hgt, rng_hgt, ev_pos *)
  i_gps_vel : T; i_ev_vel : T; i_gps_pos : T; i_baro : T; i_rng : T; i_ev_pos : T;
  x_dt_ekf_avg : T; x_time_last_imu : Z }.
Arguments mkCtx {T}.
Arguments x_st {T}. Arguments x_da {T}. Arguments x_dv {T}. Arguments x_clip {T}. Arguments x_R2 {T}.
Arguments p_gyro_bias_p_noise {T}. Arguments p_accel_bias_p_noise {T}. Arguments p_acc_bias_learn_tc {T}.
Arguments p_acc_bias_learn_gyr_lim {T}. Arguments p_acc_bias_learn_acc_lim {T}. Arguments p_mage_p_noise {T}.
Arguments p_magb_p_noise {T}. Arguments p_wind_vel_p_noise {T}. Arguments p_wind_vel_p_noise_scaler {T}.
Arguments p_initial_wind_uncertainty {T}. Arguments p_gyro_noise {T}. Arguments p_accel_noise {T}.
Arguments p_acc_bias_lim {T}. Arguments p_inhibit_acc_bias {T}. Arguments f_bad_acc_vertical {T}.
Arguments f_in_air {T}. Arguments f_mag_3D {T}. Arguments f_wind {T}. Arguments f_gps {T}. Arguments f_ev_vel {T}.
Arguments f_gps_hgt {T}. Arguments f_baro_hgt {T}. Arguments f_rng_hgt {T}. Arguments f_ev_hgt {T}.
Arguments i_gps_vel {T}. Arguments i_ev_vel {T}. Arguments i_gps_pos {T}. Arguments i_baro {T}. Arguments i_rng {T}.
Arguments i_ev_pos {T}. Arguments x_dt_ekf_avg {T}. Arguments x_time_last_imu {T}.

Section Cov.
Context {T : Type} {S : Scalar T}.
Open Scope scal_scope.

(** a > b *)
Definition sgt (a b : T) : bool := slt b a.
(** vector dot product and norm of PX4-Matrix for 3-vectors: res = 0; res += a(i)*b(i) *)
Definition dot3 (a b : Vec T) : T := szero + a 0 * b 0 + a 1 * b 1 + a 2 * b 2.
Definition norm3 (a : Vec T) : T := ssqrt (dot3 a a).

(** FILTER_UPDATE_PERIOD_S = 10 * 0.001f, estimator_interface.h l.245-246 *)
Definition dt_ekf : T := slit 10 1 * slit 1 1000.
(** CONSTANTS_ONE_G, geo.h l.51; BADACC_BIAS_PNOISE, common.h l.210 *)
Definition one_g : T := slit 980665 100000.
Definition BADACC_BIAS_PNOISE : T := slit 49 10.

Definition setP (M : Mat T) (s : covst T) : covst T :=
  mkCov M (c_inhibit s) (c_prev_var s) (c_ang_filt s) (c_acc_filt s) (c_acc_vec s) (c_hrate s)
    (c_acc_ang s) (c_acc_vel s) (c_bad_clip s) (c_bad_acc_bias s) (c_time_acc_bias s) (c_warn_acc_bias s).

(** P(i,i) = constrain(P(i,i), lo, hi) for i in first..first+w-1 *)
Definition clampDiag (first w : nat) (lo hi : T) (M : Mat T) : Mat T :=
  fun i j => if (i =? j) && inb first w i then sconstrain (M i i) lo hi else M i j.

(** ** fixCovarianceErrors, covariance.cpp l.859-1020 *)

(** l.905-917: maximum variance of the non-inhibited axes and reset request *)
Definition accMaxStep (inh : nat -> bool) (M : Mat T) (acc : T * bool) (k : nat) : T * bool :=
  let '(mx, rr) := acc in
  let v := M (13 + k)%nat (13 + k)%nat in
  if inh k then (mx, rr)
  else if sgt v mx then (v, rr)
  else if slt v (slit 1 1000000000) then (mx, true) else (mx, rr).
Definition accMax (inh : nat -> bool) (M : Mat T) : T * bool :=
  accMaxStep inh M (accMaxStep inh M (accMaxStep inh M (slit 1 1000000000, false) 0) 1) 2.
(** l.923-933: limits for the non-inhibited axes *)
Definition accLo (mx : T) : T := sfmax (slit 1 100 * mx) (slit 5 100000000).
Definition accHi (c : covctx T) : T := sq (slit 1 10 * one_g * x_dt_ekf_avg c).
Definition accClamp (inh : nat -> bool) (lo hi : T) (M : Mat T) : Mat T :=
  fun i j => if (i =? j) && inb 13 3 i && negb (inh (i - 13)%nat) then sconstrain (M i i) lo hi else M i j.
(** l.940-953: bias of the vertical acceleration inconsistent with innovations *)
Definition bad_acc_bias (c : covctx T) : bool :=
  let lim := slit 9 10 * p_acc_bias_lim c * x_dt_ekf_avg c in
  let down := dot3 (fun k => x_st c (13 + k)%nat) (x_R2 c) in
  sgt (sabs down) lim
  && ((slt (down * i_gps_vel c) szero && f_gps c) || (slt (down * i_ev_vel c) szero && f_ev_vel c))
  && ((slt (down * i_gps_pos c) szero && f_gps_hgt c) || (slt (down * i_baro c) szero && f_baro_hgt c)
      || (slt (down * i_rng c) szero && f_rng_hgt c) || (slt (down * i_ev_pos c) szero && f_ev_hgt c)).
(** l.898-986: accelerometer bias block *)
Definition fixAccel (force : bool) (c : covctx T) (s : covst T) : covst T :=
  let inh := c_inhibit s in
  if inh 0 && inh 1 && inh 2 then s else
  let '(mx, rr) := accMax inh (cP s) in
  let M1 := accClamp inh (accLo mx) (accHi c) (cP s) in
  let M2 := if rr then uncorrelate 3 13 M1 else M1 in
  let bad := bad_acc_bias c in
  let tchk := if bad then c_time_acc_bias s else x_time_last_imu c in
  (* isTimedOut, ekf.h l.924-927 *)
  let tout := (add64 tchk 7000000 <? x_time_last_imu c)%Z in
  let M3 := if tout then uncorrelate 3 13 M2 else if force then makeRowColSymmetric 3 13 M2 else M2 in
  mkCov M3 (c_inhibit s) (c_prev_var s) (c_ang_filt s) (c_acc_filt s) (c_acc_vec s) (c_hrate s)
    (c_acc_ang s) (c_acc_vel s) (c_bad_clip s)
    (if tout then false else bad) (if tout then x_time_last_imu c else tchk) (if tout then true else c_warn_acc_bias s).
(** zeroMagCov, l.1081-1085 *)
Definition zeroMagCov (M : Mat T) : Mat T :=
  uncorrelateSet 3 19 (fun _ => szero) (uncorrelateSet 3 16 (fun _ => szero) M).
(** l.988-1006 *)
Definition fixMag (force : bool) (c : covctx T) (M : Mat T) : Mat T :=
  if negb (f_mag_3D c) then zeroMagCov M
  else let M1 := clampDiag 19 3 szero (slit 1 1) (clampDiag 16 3 szero (slit 1 1) M) in
       if force then makeRowColSymmetric 3 19 (makeRowColSymmetric 3 16 M1) else M1.
(** l.1008-1019 *)
Definition fixWind (force : bool) (c : covctx T) (M : Mat T) : Mat T :=
  if negb (f_wind c) then uncorrelateSet 2 22 (fun _ => szero) M
  else let M1 := clampDiag 22 2 szero (slit 1000000 1) M in
       if force then makeRowColSymmetric 2 22 M1 else M1.
(** l.864-896: quaternion, velocity, position, gyro bias limits *)
Definition fixKin (force : bool) (M : Mat T) : Mat T :=
  let M1 := clampDiag 10 3 szero (slit 1 1)
             (clampDiag 7 3 (slit 1 1000000) (slit 1000000 1)
               (clampDiag 4 3 (slit 1 1000000) (slit 1000000 1)
                 (clampDiag 0 4 szero (slit 1 1) M))) in
  if force then makeRowColSymmetric 13 0 M1 else M1.
Definition fixCovarianceErrors (force : bool) (c : covctx T) (s : covst T) : covst T :=
  let s1 := fixAccel force c (setP (fixKin force (cP s)) s) in
  setP (fixWind force c (fixMag force c (cP s1))) s1.

(** ** predictCovariance, covariance.cpp l.100-857 *)

(** kahanSummation, utils.cpp l.27-33: (sum, new accumulator) *)
Definition kahan (prev input acc : T) : T * T :=
  let y := input - acc in
  let t := prev + y in
  (t, (t - prev) - y).

Definition vset (k : nat) (v : T) (f : Vec T) : Vec T := fun i => if i =? k then v else f i.
Definition bset (k : nat) (v : bool) (f : nat -> bool) : nat -> bool := fun i => if i =? k then v else f i.

(** l.138-144 *)
Definition alpha (c : covctx T) : T := sconstrain (dt_ekf / p_acc_bias_learn_tc c) szero (slit 1 1).
Definition beta (c : covctx T) : T := slit 1 1 - alpha c.
Definition dt_inv : T := slit 1 1 / dt_ekf.
Definition filtStep (c : covctx T) (s : covst T) : covst T :=
  mkCov (cP s) (c_inhibit s) (c_prev_var s)
    (sfmax (dt_inv * norm3 (x_da c)) (beta c * c_ang_filt s))
    (sfmax (dt_inv * norm3 (x_dv c)) (beta c * c_acc_filt s))
    (fun k => alpha c * dt_inv * x_dv c k + beta c * c_acc_vec s k)
    (c_hrate s) (c_acc_ang s) (c_acc_vel s) (c_bad_clip s) (c_bad_acc_bias s) (c_time_acc_bias s) (c_warn_acc_bias s).
(** l.146-152 *)
Definition inhibit_all (c : covctx T) (s : covst T) : bool :=
  p_inhibit_acc_bias c
  || (sgt (c_ang_filt s) (p_acc_bias_learn_gyr_lim c) || sgt (c_acc_filt s) (p_acc_bias_learn_acc_lim c))
  || f_bad_acc_vertical c.
(** l.154-176, one axis *)
Definition inhibit_axis (c : covctx T) (s : covst T) (k : nat) : bool :=
  inhibit_all c s || negb (sgt (sabs (x_R2 c k)) (slit 8 10) || f_in_air c) || x_clip c k.
Definition inhibitStep (c : covctx T) (k : nat) (s : covst T) : covst T :=
  let M := cP s in
  if inhibit_axis c s k then
    if negb (c_inhibit s k) then
      mkCov M (bset k true (c_inhibit s)) (vset k (M (13 + k)%nat (13 + k)%nat) (c_prev_var s))
        (c_ang_filt s) (c_acc_filt s) (c_acc_vec s) (c_hrate s) (c_acc_ang s) (c_acc_vel s)
        (c_bad_clip s) (c_bad_acc_bias s) (c_time_acc_bias s) (c_warn_acc_bias s)
    else s
  else
    if c_inhibit s k then
      mkCov (mset (13 + k)%nat (13 + k)%nat (c_prev_var s k) M) (bset k false (c_inhibit s)) (c_prev_var s)
        (c_ang_filt s) (c_acc_filt s) (c_acc_vec s) (c_hrate s) (c_acc_ang s) (c_acc_vel s)
        (c_bad_clip s) (c_bad_acc_bias s) (c_time_acc_bias s) (c_warn_acc_bias s)
    else s.
(** l.130-176 *)
Definition predInhibit (c : covctx T) (s : covst T) : covst T :=
  inhibitStep c 2 (inhibitStep c 1 (inhibitStep c 0 (filtStep c s))).

(** l.178-214: process noise standard deviations, low-pass height rate *)
Definition d_ang_bias_sig (c : covctx T) : T := dt_ekf * dt_ekf * sconstrain (p_gyro_bias_p_noise c) szero (slit 1 1).
Definition d_vel_bias_sig (c : covctx T) : T := dt_ekf * dt_ekf * sconstrain (p_accel_bias_p_noise c) szero (slit 1 1).
Definition mag_I_sig (c : covctx T) (M : Mat T) : T :=
  if f_mag_3D c && slt (M 16 16 + M 17 17 + M 18 18) (slit 1 10)
  then dt_ekf * sconstrain (p_mage_p_noise c) szero (slit 1 1) else szero.
Definition mag_B_sig (c : covctx T) (M : Mat T) : T :=
  if f_mag_3D c && slt (M 19 19 + M 20 20 + M 21 21) (slit 1 10)
  then dt_ekf * sconstrain (p_magb_p_noise c) szero (slit 1 1) else szero.
Definition hrate_next (c : covctx T) (s : covst T) : T :=
  let a := slit 1 10 * dt_ekf in c_hrate s * (slit 1 1 - a) + x_st c 6 * a.
Definition wind_vel_sig (c : covctx T) (M : Mat T) (hr : T) : T :=
  if f_wind c && slt (M 22 22 + M 23 23) (sq (p_initial_wind_uncertainty c))
  then dt_ekf * sconstrain (p_wind_vel_p_noise c) szero (slit 1 1) * (slit 1 1 + p_wind_vel_p_noise_scaler c * sabs hr)
  else szero.
(** l.216-232 *)
Definition process_noise (c : covctx T) (M : Mat T) (hr : T) (i : nat) : T :=
  if inb 10 3 i then sq (d_ang_bias_sig c)
  else if inb 13 3 i then sq (d_vel_bias_sig c)
  else if inb 16 3 i then sq (mag_I_sig c M)
  else if inb 19 3 i then sq (mag_B_sig c M)
  else if inb 22 2 i then sq (wind_vel_sig c M hr)
  else szero.
(** l.234-271: IMU noise variances *)
Definition daVar (c : covctx T) : T := sq (dt_ekf * sconstrain (p_gyro_noise c) szero (slit 1 1)).
Definition dvVar (c : covctx T) (k : nat) : T :=
  if x_clip c k then sq (dt_ekf * BADACC_BIAS_PNOISE)
  else sq (dt_ekf * (if f_bad_acc_vertical c then BADACC_BIAS_PNOISE else sconstrain (p_accel_noise c) szero (slit 1 1))).
Definition clipping (c : covctx T) : bool := x_clip c 0 || x_clip c 1 || x_clip c 2.

(** the generated columns at this state *)
Definition col (c : covctx T) (M : Mat T) (j : nat) : list T :=
  let x := x_st c in let u := x_da c in let w := x_dv c in
  nth j (gcols (x 0) (x 1) (x 2) (x 3) (u 0) (u 1) (u 2) (w 0) (w 1) (w 2)
           (x 10) (x 11) (x 12) (x 13) (x 14) (x 15) dt_ekf
           (daVar c) (daVar c) (daVar c) (dvVar c 0) (dvVar c 1) (dvVar c 2) M) [].
(** nextP(0..j, j) = column *)
Definition wcol (c : covctx T) (M : Mat T) (j : nat) (N : Mat T) : Mat T :=
  fun r k => if (k =? j) && (r <=? j) then nth r (col c M j) szero else N r k.
(** l.461-591: quaternion, velocity, position, gyro bias columns *)
Fixpoint wcols (c : covctx T) (M : Mat T) (first n : nat) (N : Mat T) : Mat T :=
  match n with
  | O => N
  | Datatypes.S m => wcol c M (first + m)%nat (wcols c M first m N)
  end.

(** nextP and the two Kahan accumulators *)
Definition bld : Type := (Mat T * Vec T * Vec T)%type.
(** l.593-598 *)
Definition kahanAng (pn : nat -> T) (k : nat) (b : bld) : bld :=
  let '(N, aa, av) := b in
  let '(t, a') := kahan (N (10 + k)%nat (10 + k)%nat) (pn (10 + k)%nat) (aa k) in
  (mset (10 + k)%nat (10 + k)%nat t N, vset k a' aa, av).
(** l.600-684, one axis *)
Definition accelAxis (c : covctx T) (M : Mat T) (inh : nat -> bool) (pv : Vec T) (pn : nat -> T) (k : nat) (b : bld) : bld :=
  let '(N, aa, av) := b in
  if negb (inh k) then
    let N1 := wcol c M (13 + k)%nat N in
    let '(t, a') := kahan (N1 (13 + k)%nat (13 + k)%nat) (pn (13 + k)%nat) (av k) in
    (mset (13 + k)%nat (13 + k)%nat t N1, aa, vset k a' av)
  else (uncorrelateSet 1 (13 + k)%nat (fun _ => pv k) N, aa, vset k szero av).
(** nextP(i,i) += process_noise(i) for i in first..first+n-1 *)
Definition addDiag (pn : nat -> T) (first n : nat) (N : Mat T) : Mat T :=
  fun i j => if (i =? j) && inb first n i then N i i + pn i else N i j.
(** l.829-838 *)
Definition posStop (M : Mat T) (N : Mat T) : Mat T :=
  if sgt (M 7 7 + M 8 8) (slit 10000 1)
  then fun i j => if inb 7 2 i || inb 7 2 j then M i j else N i j else N.
Definition buildNext (c : covctx T) (s : covst T) (pn : nat -> T) : bld :=
  let M := cP s in
  let b0 : bld := (wcols c M 0 13 (fun _ _ => szero), c_acc_ang s, c_acc_vel s) in
  let b1 := kahanAng pn 2 (kahanAng pn 1 (kahanAng pn 0 b0)) in
  let ax := accelAxis c M (c_inhibit s) (c_prev_var s) pn in
  let '(N, aa, av) := ax 2 (ax 1 (ax 0 b1)) in
  let N1 := if f_mag_3D c then addDiag pn 16 6 (wcols c M 16 6 N) else N in
  let N2 := if f_wind c then addDiag pn 22 2 (wcols c M 22 2 N1) else N1 in
  (posStop M N2, aa, av).
(** l.840-850: copy the upper triangle of nextP to both halves of P *)
Definition copyUpper (N : Mat T) : Mat T := fun i j => if j <? i then N j i else N i j.

Definition predictCovariance (c : covctx T) (s0 : covst T) : covst T :=
  let s := predInhibit c s0 in
  let hr := hrate_next c s in
  let '(N, aa, av) := buildNext c s (process_noise c (cP s) hr) in
  fixCovarianceErrors false c
    (mkCov (copyUpper N) (c_inhibit s) (c_prev_var s) (c_ang_filt s) (c_acc_filt s) (c_acc_vec s) hr
       aa av (clipping c) (c_bad_acc_bias s) (c_time_acc_bias s) (c_warn_acc_bias s)).

(** ** Measurement update *)

(** checkAndFixCovarianceUpdate, l.1025-1034 (and vel_pos_fusion.cpp l.203-212):
    loop over i = 0..23; rows repaired so far are reflected in P *)
Fixpoint checkAndFix (n : nat) (KHP : Mat T) (M : Mat T) : Mat T * bool :=
  match n with
  | O => (M, true)
  | Datatypes.S m =>
      let '(M1, ok) := checkAndFix m KHP M in
      if slt (M1 m m) (KHP m m) then (uncorrelateSet 1 m (fun _ => szero) M1, false) else (M1, ok)
  end.
(** computeKHP, ekf.h l.692-716; H is the list of (index, value) *)
Definition computeKHP (M : Mat T) (K : Vec T) (H : list (nat * T)) : Mat T :=
  fun row column => fold_left (fun tmp (h : nat * T) => tmp + (K row * snd h) * M (fst h) column) H szero.
(** P -= KHP *)
Definition msub (M N : Mat T) : Mat T := fun i j => M i j - N i j.
(** Ekf::fuse, ekf_helper.cpp l.983-994, before the quaternion is normalised *)
Definition fuseRaw (K : Vec T) (innov : T) (x : Vec T) : Vec T := fun i => x i - K i * innov.
(** quat_nominal.normalize() *)
Definition normQuat (x : Vec T) : Vec T :=
  let n := ssqrt (szero + x 0 * x 0 + x 1 * x 1 + x 2 * x 2 + x 3 * x 3) in
  fun i => if i <? 4 then x i / n else x i.
Definition fuse (K : Vec T) (innov : T) (x : Vec T) : Vec T := normQuat (fuseRaw K innov x).

Definition setState (x : Vec T) (c : covctx T) : covctx T :=
  mkCtx x (x_da c) (x_dv c) (x_clip c) (x_R2 c)
    (p_gyro_bias_p_noise c) (p_accel_bias_p_noise c) (p_acc_bias_learn_tc c) (p_acc_bias_learn_gyr_lim c)
    (p_acc_bias_learn_acc_lim c) (p_mage_p_noise c) (p_magb_p_noise c) (p_wind_vel_p_noise c)
    (p_wind_vel_p_noise_scaler c) (p_initial_wind_uncertainty c) (p_gyro_noise c) (p_accel_noise c) (p_acc_bias_lim c)
    (p_inhibit_acc_bias c) (f_bad_acc_vertical c) (f_in_air c) (f_mag_3D c) (f_wind c) (f_gps c) (f_ev_vel c)
    (f_gps_hgt c) (f_baro_hgt c) (f_rng_hgt c) (f_ev_hgt c) (i_gps_vel c) (i_ev_vel c) (i_gps_pos c) (i_baro c)
    (i_rng c) (i_ev_pos c) (x_dt_ekf_avg c) (x_time_last_imu c).

(** common tail of both update functions: (context with new state, covariance
    state, healthy) *)
Definition applyUpdate (KHP : Mat T) (K : Vec T) (innov : T) (c : covctx T) (s : covst T) : covctx T * covst T * bool :=
  let '(M1, healthy) := checkAndFix 24 KHP (cP s) in
  if healthy then
    (setState (fuse K innov (x_st c)) c, fixCovarianceErrors true c (setP (msub M1 KHP) s), true)
  else (c, setP M1 s, false).
(** measurementUpdate, ekf.h l.721-747 *)
Definition measurementUpdate (K : Vec T) (H : list (nat * T)) (innov : T) (c : covctx T) (s : covst T) : covctx T * covst T * bool :=
  let K' := fun i => if inb 13 3 i && c_inhibit s (i - 13)%nat then szero else K i in
  applyUpdate (computeKHP (cP s) K' H) K' innov c s.
(** fuseVelPosHeight, vel_pos_fusion.cpp l.181-225; obs_index 0..5.  The result
    flag is the negation of the fault status set by setVelPosFaultStatus *)
Definition fuseVelPosHeight (innov innov_var : T) (obs_index : nat) (c : covctx T) (s : covst T) : covctx T * covst T * bool :=
  let si := (obs_index + 4)%nat in
  let K := fun row => cP s row si / innov_var in
  let KHP := fun row column => K row * cP s si column in
  applyUpdate KHP K innov c s.

(** ** Resets *)
(** resetMagCov, l.1058-1073 (covariance part) *)
Definition resetMagCov (mag_noise : T) (M : Mat T) : Mat T :=
  uncorrelateSet 3 19 (fun _ => sq mag_noise) (uncorrelateSet 3 16 (fun _ => sq mag_noise) (zeroMagCov M)).
(** zeroQuatCov, l.1052-1056 *)
Definition zeroQuatCov (M : Mat T) : Mat T :=
  uncorrelateSet 2 2 (fun _ => szero) (uncorrelateSet 2 0 (fun _ => szero) M).
(** uncorrelateQuatFromOtherStates, ekf_helper.cpp l.996-1000 *)
Definition uncorrelateQuat (M : Mat T) : Mat T :=
  fun i j => if negb (Bool.eqb (i <? 4) (j <? 4)) then szero else M i j.
(** resetWindCovariance, covariance.cpp l.1087-1121; cy, sy: cosine and sine of
    the 321 yaw; var_y: initial_wind_var_body_y; ryaw: sq(radians(10)) *)
Definition resetWindCovariance (tas_recent : bool) (eas_noise eas2tas var_y ryaw cy sy wn we : T) (init_unc : T) (M : Mat T) : Mat T :=
  if tas_recent then
    let rtas := sq (sconstrain eas_noise (slit 1 2) (slit 5 1) * sconstrain eas2tas (slit 9 10) (slit 10 1)) in
    let Wx := wn * cy + we * sy in
    let Wy := - wn * sy + we * cy in
    let M0 := uncorrelateSet 2 22 (fun _ => szero) M in
    let a := - Wx * sy - Wy * cy in
    let b := Wx * cy - Wy * sy in
    let p22 := rtas * sq cy + ryaw * sq a + var_y * sq sy in
    let p23 := rtas * sy * cy + ryaw * a * b - var_y * sy * cy in
    let p33 := rtas * sq sy + ryaw * sq b + var_y * sq cy in
    let M1 := mset 23 23 p33 (mset 23 22 p23 (mset 22 23 p23 (mset 22 22 p22 M0))) in
    let M2 := mset 22 22 (M1 22 22 + M1 4 4) M1 in
    mset 23 23 (M2 23 23 + M2 5 5) M2
  else uncorrelateSet 2 22 (fun _ => init_unc) M.
End Cov.

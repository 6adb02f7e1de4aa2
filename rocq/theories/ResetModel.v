(** * Resets of the filter to a source: velocity, position, height, heading, biases

    EKF/ekf_helper.cpp l.49-120, 163-216, 257-331, 360-525, 876-917, 1296-1350,
    1394-1425, 1485-1503, 1549-1634; EKF/covariance.cpp l.1058-1085;
    EKF/airspeed_fusion.cpp l.174-187.  Exact reals.  The effect of a reset on
    the outputs is OutputModel.v (resetVelocityTo, resetHorizontalPositionTo,
    resetVerticalPositionTo) and Props_Rot.v (resetQuatStateYaw); the
    decisions when to reset are ControlModel.v.  Event flags are not modelled. *)
From Coq Require Import Reals ZArith List Bool.
From Verif Require Import CBase Scalar RealGeom RotModel GeoModel OutputModel OutputReset Props_Rot CovModel CovQuat FusionModel.
Open Scope R_scope.

Definition vec3 (v : V3) : Vec R := fun k => match k with O => vx v | 1%nat => vy v | _ => vz v end.
Definition fromV (v : Vec R) : V3 := mkV (v 0%nat) (v 1%nat) (v 2%nat).

(** states, outputs, covariance, _R_to_earth, magnetic field states (earth, body), wind, _baro_hgt_offset, _flt_mag_align_start_time,
    _prev_dvel_bias_var, _saved_mag_bf_variance, _saved_mag_ef_covmat, _mag_decl_cov_reset, _hpos_prev_available,
    mag_aligned_in_flight, mag_fault, yaw_align flags, _num_bad_flight_yaw_events (uint8_t), _velpos_reset_request *)
Record rs := RS { r_o : ost R; r_P : Mat R; r_R : M3; r_mi : V3; r_mb : V3; r_wn : R; r_we : R; r_boff : R; r_align : Z;
  r_prevb : V3; r_savb : Vec R; r_savef : Mat R; r_declreset : bool; r_hprev : bool;
  r_inflight : bool; r_fault : bool; r_yaw_align : bool; r_bad : Z; r_request : bool }.
Definition setO (o : ost R) (s : rs) := RS o (r_P s) (r_R s) (r_mi s) (r_mb s) (r_wn s) (r_we s) (r_boff s) (r_align s) (r_prevb s) (r_savb s) (r_savef s) (r_declreset s) (r_hprev s) (r_inflight s) (r_fault s) (r_yaw_align s) (r_bad s) (r_request s).
Definition setPm (P : Mat R) (s : rs) := RS (r_o s) P (r_R s) (r_mi s) (r_mb s) (r_wn s) (r_we s) (r_boff s) (r_align s) (r_prevb s) (r_savb s) (r_savef s) (r_declreset s) (r_hprev s) (r_inflight s) (r_fault s) (r_yaw_align s) (r_bad s) (r_request s).
Definition setRm (m : M3) (s : rs) := RS (r_o s) (r_P s) m (r_mi s) (r_mb s) (r_wn s) (r_we s) (r_boff s) (r_align s) (r_prevb s) (r_savb s) (r_savef s) (r_declreset s) (r_hprev s) (r_inflight s) (r_fault s) (r_yaw_align s) (r_bad s) (r_request s).
Definition setMag (mi mb : V3) (s : rs) := RS (r_o s) (r_P s) (r_R s) mi mb (r_wn s) (r_we s) (r_boff s) (r_align s) (r_prevb s) (r_savb s) (r_savef s) (r_declreset s) (r_hprev s) (r_inflight s) (r_fault s) (r_yaw_align s) (r_bad s) (r_request s).
Definition setWind (wn we : R) (s : rs) := RS (r_o s) (r_P s) (r_R s) (r_mi s) (r_mb s) wn we (r_boff s) (r_align s) (r_prevb s) (r_savb s) (r_savef s) (r_declreset s) (r_hprev s) (r_inflight s) (r_fault s) (r_yaw_align s) (r_bad s) (r_request s).
Definition setBoff (b : R) (s : rs) := RS (r_o s) (r_P s) (r_R s) (r_mi s) (r_mb s) (r_wn s) (r_we s) b (r_align s) (r_prevb s) (r_savb s) (r_savef s) (r_declreset s) (r_hprev s) (r_inflight s) (r_fault s) (r_yaw_align s) (r_bad s) (r_request s).
Definition setAlign (t : Z) (s : rs) := RS (r_o s) (r_P s) (r_R s) (r_mi s) (r_mb s) (r_wn s) (r_we s) (r_boff s) t (r_prevb s) (r_savb s) (r_savef s) (r_declreset s) (r_hprev s) (r_inflight s) (r_fault s) (r_yaw_align s) (r_bad s) (r_request s).
Definition setPrevb (v : V3) (s : rs) := RS (r_o s) (r_P s) (r_R s) (r_mi s) (r_mb s) (r_wn s) (r_we s) (r_boff s) (r_align s) v (r_savb s) (r_savef s) (r_declreset s) (r_hprev s) (r_inflight s) (r_fault s) (r_yaw_align s) (r_bad s) (r_request s).
Definition setSaved (b : Vec R) (e : Mat R) (s : rs) := RS (r_o s) (r_P s) (r_R s) (r_mi s) (r_mb s) (r_wn s) (r_we s) (r_boff s) (r_align s) (r_prevb s) b e (r_declreset s) (r_hprev s) (r_inflight s) (r_fault s) (r_yaw_align s) (r_bad s) (r_request s).
Definition setDecl (b : bool) (s : rs) := RS (r_o s) (r_P s) (r_R s) (r_mi s) (r_mb s) (r_wn s) (r_we s) (r_boff s) (r_align s) (r_prevb s) (r_savb s) (r_savef s) b (r_hprev s) (r_inflight s) (r_fault s) (r_yaw_align s) (r_bad s) (r_request s).
Definition setHprev (b : bool) (s : rs) := RS (r_o s) (r_P s) (r_R s) (r_mi s) (r_mb s) (r_wn s) (r_we s) (r_boff s) (r_align s) (r_prevb s) (r_savb s) (r_savef s) (r_declreset s) b (r_inflight s) (r_fault s) (r_yaw_align s) (r_bad s) (r_request s).
Definition setFlags (inflight fault yaw_align : bool) (bad : Z) (request : bool) (s : rs) := RS (r_o s) (r_P s) (r_R s) (r_mi s) (r_mb s) (r_wn s) (r_we s) (r_boff s) (r_align s) (r_prevb s) (r_savb s) (r_savef s) (r_declreset s) (r_hprev s) inflight fault yaw_align bad request.
Definition cov (w f : nat) (v : nat -> R) (s : rs) : rs := setPm (uncorrelateSet w f v (r_P s)) s.
Definition sqr (x : R) : R := x * x.

(** what a reset can use; every field is named after the variable of the code *)
Record rin := RIn {
  (** _gps_sample_delayed: vel, pos, sacc, hacc *)
  gps_vel : V3; gps_pos : V3; gps_sacc : R; gps_hacc : R;
  (** newest GPS sample: vel(2), hgt, vacc, sacc; _gps_alt_ref; _gps_hgt_intermittent; GPS has not failed for the minimum time *)
  gn_vz : R; gn_hgt : R; gn_vacc : R; gn_sacc : R; gps_alt_ref : R; gps_intermittent : bool; gps_healthy : bool;
  (** newest baro height, _baro_hgt_faulty, _hgt_sensor_offset, range finder getDistBottom(), getCosTilt() *)
  bn_hgt : R; baro_faulty : bool; hgt_offset : R; dist_bottom : R; cos_tilt : R;
  (** newest vision sample: time, pos(2); delayed one: time, pos, posVar, vel, velCov, in body frame?, quat, angVar; _R_ev_to_ekf, MASK_ROTATE_EV, ev_pos_body - imu_pos_body, _ang_rate_delayed_raw *)
  en_t : Z; en_z : R; ev_t : Z; ev_pos : V3; ev_posvar : V3; ev_vel : V3; ev_cov : M3; ev_body : bool; ev_quat : Q4; ev_angvar : R; ev_R : M3; ev_rotate : bool; ev_lever : V3; raw_rate : V3;
  (** _flow_compensated_XY_rad, flow dt, calcOptFlowMeasVar(), _terrain_vpos, rng_gnd_clearance *)
  flow_x : R; flow_y : R; flow_dt : R; flow_var : R; terrain : R; clearance : R;
  (** _last_known_posNE *)
  last_known : V3;
  (** _mag_sample_delayed.mag, _mag_lpf, horizontal GPS velocity test ratio > 1, time of the delayed IMU sample *)
  mag_delayed : V3; mag_filtered : V3; bad_innov : bool; horizon : Z;
  (** airspeed recent (_tas_data_ready, younger than 0.5 s), true_airspeed *)
  tas_recent : bool; tas : R }.
(** parameters *)
Record rpar := RPar { range_noise : R; baro_noise : R; pos_noaid_noise : R; mag_noise : R; mag_heading_noise : R; gyro_bias_unc : R; accel_bias_unc : R;
  (** mag_fusion_type >= NONE; <= 3D; == INDOOR and _is_yaw_fusion_inhibited *)
  mag_none : bool; mag_usable : bool; indoor_inhibited : bool;
  (** geographic declination in use, its value, declination parameter (radians); EKFGSF_yaw_err_max *)
  geo_decl : bool; decl_gps : R; decl_param : R; gsf_err_max : R }.
(** the control flags the resets branch on *)
Record rflag := RFlag { c_gps : bool; c_flow : bool; c_ev_vel : bool; c_ev_pos : bool; c_rng_hgt : bool; c_baro_hgt : bool; c_gps_hgt : bool; c_ev_hgt : bool; c_air : bool; c_ev_yaw : bool; c_wind : bool; c_mag_3D : bool }.

(** ** Velocity *)
(** resetVelocityToGps, ekf_helper.cpp l.66-72 *)
Definition resetVelocityToGps (i : rin) (s : rs) : rs :=
  cov 3 4 (fun _ => sqr (gps_sacc i)) (setO (resetVelocityTo (vec3 (gps_vel i)) (r_o s)) s).
(** resetHorizontalVelocityToOpticalFlow, l.74-102 *)
Definition flowRange (i : rin) (s : rs) : R := Rmax (terrain i - e_p (r_o s) 2%nat) (clearance i) / cos_tilt i.
Definition flowVelocity (i : rin) (s : rs) : V3 :=
  if Rlt_dec (3 / 10) (flowRange i s - clearance i)
  then mapp (r_R s) (mkV (- flowRange i s * flow_y i / flow_dt i) (flowRange i s * flow_x i / flow_dt i) 0) else mkV 0 0 0.
Definition resetVelocityToFlow (i : rin) (s : rs) : rs :=
  cov 2 4 (fun _ => sqr (flowRange i s) * flow_var i) (setO (resetHorizontalVelocityTo (vec3 (flowVelocity i s)) (r_o s)) s).
(** getVisionVelocityInEkfFrame l.1296-1320, getVisionVelocityVarianceInEkfFrame l.1322-1341 *)
Definition visionVelocity (i : rin) (r : M3) : V3 :=
  let off := cross (raw_rate i) (ev_lever i) in
  if ev_body i then mapp r (vsub (ev_vel i) off)
  else if ev_rotate i then vsub (mapp (ev_R i) (ev_vel i)) (mapp r off) else vsub (ev_vel i) (mapp r off).
Definition visionCov (i : rin) (r : M3) : M3 :=
  if ev_body i then mmul (mmul r (ev_cov i)) (mtr r) else if ev_rotate i then mmul (mmul (ev_R i) (ev_cov i)) (mtr (ev_R i)) else ev_cov i.
Definition diag3 (m : M3) : nat -> R := fun k => match k with O => m00 m | 1%nat => m11 m | _ => m22 m end.
(** resetVelocityToVision, l.104-110 *)
Definition resetVelocityToVision (i : rin) (s : rs) : rs :=
  cov 3 4 (diag3 (visionCov i (r_R s))) (setO (resetVelocityTo (vec3 (visionVelocity i (r_R s))) (r_o s)) s).
(** resetHorizontalVelocityToZero, l.112-119 *)
Definition resetVelocityToZero (s : rs) : rs := cov 2 4 (fun _ => 25) (setO (resetHorizontalVelocityTo (vec3 vzero) (r_o s)) s).
(** resetVelocity, l.49-64 *)
Definition resetVelocity (i : rin) (c : rflag) (s : rs) : rs :=
  if c_gps c && gps_healthy i then resetVelocityToGps i s else if c_flow c then resetVelocityToFlow i s
  else if c_ev_vel c then resetVelocityToVision i s else resetVelocityToZero s.

(** ** Horizontal position *)
(** resetHorizontalPositionToGps, l.196-202; ToVision l.204-216; resetHorizontalPosition l.160-194 *)
Definition resetPositionToGps (i : rin) (s : rs) : rs :=
  cov 2 7 (fun _ => sqr (gps_hacc i)) (setO (resetHorizontalPositionTo (vec3 (gps_pos i)) (r_o s)) s).
Definition resetPositionToVision (i : rin) (s : rs) : rs :=
  cov 2 7 (vec3 (ev_posvar i)) (setO (resetHorizontalPositionTo (vec3 (if ev_rotate i then mapp (ev_R i) (ev_pos i) else ev_pos i)) (r_o s)) s).
Definition resetHorizontalPosition (i : rin) (p : rpar) (c : rflag) (s0 : rs) : rs :=
  let s := setHprev false s0 in
  if c_gps c then resetPositionToGps i s else if c_ev_pos c then resetPositionToVision i s
  else if c_flow c then cov 2 7 (fun _ => 0) (setO (resetHorizontalPositionTo (vec3 (if c_air c then last_known i else vzero)) (r_o s)) s)
  else cov 2 7 (fun _ => sqr (pos_noaid_noise p)) (setO (resetHorizontalPositionTo (vec3 (last_known i)) (r_o s)) s).

(** ** Height: resetHeight, l.257-331 *)
Definition height_to (new : R) (s : rs) : rs := setO (resetVerticalPositionTo new (r_o s)) s.
Definition rebaro (i : rin) (s : rs) : rs := setBoff (bn_hgt i + e_p (r_o s) 2%nat) s.
Definition resetHeightPos (i : rin) (p : rpar) (c : rflag) (s : rs) : rs :=
  if c_rng_hgt c then rebaro i (cov 1 9 (fun _ => sqr (range_noise p)) (height_to (hgt_offset i - dist_bottom i) s))
  else if c_baro_hgt c then (if baro_faulty i then s else cov 1 9 (fun _ => sqr (baro_noise p)) (height_to (- bn_hgt i + r_boff s) s))
  else if c_gps_hgt c then (if gps_intermittent i then s else rebaro i (cov 1 9 (fun _ => sqr (gn_vacc i)) (height_to (hgt_offset i - gn_hgt i + gps_alt_ref i) s)))
  else if c_ev_hgt c then height_to (if (ev_t i <=? en_t i)%Z then en_z i else vz (ev_pos i)) s
  else s.
Definition resetHeightVel (i : rin) (c : rflag) (s : rs) : rs :=
  if c_gps c && negb (gps_intermittent i) then cov 1 6 (fun _ => sqr (15 / 10 * gn_sacc i)) (setO (resetVerticalVelocityTo (gn_vz i) (r_o s)) s)
  else cov 1 6 (fun _ => 10) (setO (resetVerticalVelocityTo 0 (r_o s)) s).
Definition resetHeight (i : rin) (p : rpar) (c : rflag) (s : rs) : rs := resetHeightVel i c (resetHeightPos i p c s).

(** ** Heading *)
(** resetQuatStateYaw, l.1549-1592: attitude, outputs, matrix and covariance; FLT_EPSILON = 2^-23 *)
Definition yawReset (yaw var : R) (upd : bool) (s : rs) : rs :=
  let q := toQ (e_q (r_o s)) in
  let P1 := uncorrelateQuat (r_P s) in
  let P2 := if Rlt_dec (1 / 2 ^ 23) var then increaseYawVar (ofQ (yawResetQuat yaw q)) var P1 else P1 in
  setRm (updateYawInRotMat yaw (dcm q)) (setPm P2 (setO (resetQuatStateYaw yaw upd (r_o s)) s)).
(** saveMagCovData l.1394-1404; loadMagCovData l.1406-1415 *)
Definition saveMagCov (s : rs) : rs := setSaved (fun k => r_P s (k + 18)%nat (k + 18)%nat) (fun a b => r_P s (a + 16)%nat (b + 16)%nat) s.
Definition loadMagCov (s : rs) : rs :=
  setPm (fun a b => if inb 16 2 a && inb 16 2 b then r_savef s (a - 16)%nat (b - 16)%nat
                    else if (a =? b)%nat && inb 18 4 a then r_savb s (a - 18)%nat else r_P s a b) s.
(** resetMagCov, covariance.cpp l.1058-1073; clearMagCov l.1075-1079 *)
Definition magCovReset (p : rpar) (c : rflag) (s : rs) : rs :=
  let s1 := setDecl false (setPm (resetMagCov (mag_noise p) (r_P s)) s) in if c_mag_3D c then s1 else saveMagCov s1.
(** getMagDeclination, l.528-548 *)
Definition declination (p : rpar) (s : rs) : R :=
  getMagDeclination atan2 (r_inflight s) (geo_decl p) (decl_gps p) (decl_param p) (fun k => match k with 16%nat => vx (r_mi s) | _ => vy (r_mi s) end).
(** resetMagHeading, l.462-525; [stopMagFusion] (type NONE) changes no variable of this model *)
Definition magReset (i : rin) (p : rpar) (c : rflag) (mag : V3) (incr upd : bool) (s : rs) : bool * rs :=
  if (horizon i =? r_align s)%Z then (true, s)
  else if mag_none p then (false, s)
  else
    let finish := fun yaw var => let s1 := yawReset yaw var upd s in
      (true, setAlign (horizon i) (magCovReset p c (setMag (mapp (r_R s1) mag) (r_mb s1) s1))) in
    if c_ev_yaw c then finish (yaw312_q (ev_quat i)) (if incr then Rmax (ev_angvar i) (sqr (1 / 100)) else 0)
    else if mag_usable p then
      let e := mapp (updateYawInRotMat 0 (r_R s)) mag in
      finish (- atan2 (vy e) (vx e) + declination p s) (if incr then sqr (Rmax (mag_heading_noise p) (1 / 100)) else 0)
    else if indoor_inhibited p then (true, s) else (false, s).
(** realignYawGPS, l.360-459 *)
Definition gpsSpeed (i : rin) : R := sqrt (sqr (vx (gps_vel i)) + sqr (vy (gps_vel i))).
Definition courseError (i : rin) (s : rs) : R := wrap_pi (atan2 (vy (gps_vel i)) (vx (gps_vel i)) - atan2 (e_v (r_o s) 1%nat) (e_v (r_o s) 0%nat)).
Definition realign (i : rin) (p : rpar) (c : rflag) (s : rs) : bool * rs :=
  let speed := gpsSpeed i in
  let possible := (if Rlt_dec 5 speed then true else false) && (if Rlt_dec (gps_sacc i) (15 / 100 * speed) then true else false) in
  if negb possible then magReset i p c (mag_filtered i) true true s
  else
    let bad := (if Rlt_dec (1 / 2) (Rabs (courseError i s)) then true else false) && (bad_innov i && c_gps c) in
    let nbad := if bad then ((r_bad s + 1) mod 256)%Z else r_bad s in
    if bad || negb (r_yaw_align s) then
      let fault := if r_inflight s && (2 <=? nbad)%Z && negb (r_fault s) then true else r_fault s in
      let yaw := if negb (r_inflight s) then yaw321_q (toQ (e_q (r_o s))) + courseError i s
                 else if c_wind c then atan2 (vy (gps_vel i) - r_we s) (vx (gps_vel i) - r_wn s)
                 else atan2 (vy (gps_vel i)) (vx (gps_vel i)) in
      let spd := sqr (gps_sacc i) + r_P s 4%nat 4%nat + r_P s 5%nat 5%nat in
      let sine := Rmin 1 (Rmax 0 (sqrt spd / speed)) in
      let s1 := yawReset yaw (sqr (asin sine)) true s in
      let s2 := setRm (dcm (toQ (e_q (r_o s1)))) s1 in
      let s3 := setMag (mapp (r_R s2) (mag_delayed i)) vzero s2 in
      (true, setFlags true fault (r_yaw_align s) nbad bad (setAlign (horizon i) (magCovReset p c s3)))
    else
      (true, setFlags (r_inflight s) (r_fault s) (r_yaw_align s) nbad (r_request s)
               (setAlign (horizon i) (magCovReset p c (setMag (mapp (r_R s) (mag_delayed i)) (r_mb s) s)))).
(** startEvYawFusion, l.1485-1503: the reset *)
Definition evYawReset (i : rin) (s : rs) : rs := yawReset (yaw321_q (ev_quat i)) (Rmax (ev_angvar i) (sqr (1 / 100))) true s.
(** resetYawToEKFGSF, l.1595-1634; [g]: yaw and variance of the yaw estimator, if it has any *)
Definition gsfReset (i : rin) (p : rpar) (c : rflag) (g : option (R * R)) (s : rs) : bool * rs :=
  match g with
  | None => (false, s)
  | Some (yaw, var) =>
    if Rlt_dec var (sqr (gsf_err_max p)) then
      let s1 := setAlign (horizon i) (resetHorizontalPosition i p c (resetVelocity i c (yawReset yaw var true s))) in
      (true, setFlags (r_inflight s1) (if mag_none p then r_fault s1 else true) true (r_bad s1) (r_request s1) s1)
    else (false, s)
  end.

(** ** Biases, wind *)
Definition zeroGyro (o : ost R) : ost R := mkO (e_q o) (e_v o) (e_p o) (fun _ => 0) (e_vb o) (o_new o) (w_new o) (o_buf o) (w_buf o) (o_rst o) (o_Rq o) (o_dacorr o) (o_vint o) (o_pint o) (o_track o) (o_yaw_delta o).
Definition zeroAccel (o : ost R) : ost R := mkO (e_q o) (e_v o) (e_p o) (e_ab o) (fun _ => 0) (o_new o) (w_new o) (o_buf o) (w_buf o) (o_rst o) (o_Rq o) (o_dacorr o) (o_vint o) (o_pint o) (o_track o) (o_yaw_delta o).
(** resetGyroBias l.882-890, resetAccelBias l.892-903, resetImuBias l.876-880; FILTER_UPDATE_PERIOD_S = 0.01 *)
Definition resetGyroBias (p : rpar) (s : rs) : rs := cov 3 10 (fun _ => sqr (gyro_bias_unc p * (1 / 100))) (setO (zeroGyro (r_o s)) s).
Definition resetAccelBias (p : rpar) (s : rs) : rs :=
  let s1 := cov 3 13 (fun _ => sqr (accel_bias_unc p * (1 / 100))) (setO (zeroAccel (r_o s)) s) in
  setPrevb (mkV (r_P s1 13%nat 13%nat) (r_P s1 14%nat 14%nat) (r_P s1 15%nat 15%nat)) s1.
Definition resetImuBias (p : rpar) (s : rs) : rs := resetAccelBias p (resetGyroBias p s).
(** resetMagBias l.905-917 *)
Definition resetMagBias (p : rpar) (s : rs) : rs :=
  let s1 := cov 3 19 (fun _ => sqr (mag_noise p)) (setMag (r_mi s) vzero s) in
  setSaved (fun k => if (1 <=? k)%nat && (k <=? 3)%nat then 0 else r_savb s1 k) (r_savef s1) s1.
(** resetWindStates, airspeed_fusion.cpp l.174-187 *)
Definition resetWindStates (i : rin) (s : rs) : rs :=
  let yaw := yaw321_q (toQ (e_q (r_o s))) in
  if tas_recent i then setWind (e_v (r_o s) 0%nat - tas i * cos yaw) (e_v (r_o s) 1%nat - tas i * sin yaw) s else setWind 0 0 s.

(** resetYawToGps, gps_yaw_fusion.cpp l.198-220; cos30 = cosf(radians(30)), off: _gps_yaw_offset, yaw: _gps_sample_delayed.yaw;
    the time of the last GPS yaw fusion is not a variable of this model *)
Definition antenna (r : M3) (off : R) : V3 := mapp r (mkV (cos off) (sin off) 0).
Definition gpsYawReset (cos30 yaw off noise : R) (s : rs) : bool * rs :=
  if Rlt_dec cos30 (Rabs (vz (antenna (r_R s) off))) then (false, s)
  else (true, yawReset yaw (sqr (Rmax noise (1 / 100))) true s).

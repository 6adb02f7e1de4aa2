(** * Numerical tests behind the decisions of the control logic

    EKF/mag_control.cpp l.122-133, 189-217, 268-299; EKF/control.cpp l.355-395,
    478-505, 612-640, 840-846, 1172-1204; EKF/optflow_fusion.cpp l.333-371.
    Parametric in the scalar.  ControlModel.v
    takes the outcomes of these tests as inputs. *)
From Coq Require Import ZArith.
From Verif Require Import CBase Scalar CovPredGen CovModel FusionModel.
Open Scope nat_scope.

Section Sense.
Context {T : Type} {S : Scalar T}.
Open Scope scal_scope.

(** PX4-Matrix Vector2f::norm_squared() and norm(), Vector::longerThan(v) *)
Definition dot2 (a b : Vec T) : T := szero + a 0 * b 0 + a 1 * b 1.
Definition norm2 (a : Vec T) : T := ssqrt (dot2 a a).
Definition longer2 (a : Vec T) (v : T) : bool := slt (v * v) (dot2 a a).

(** ** Magnetometer *)
(** isMeasuredMatchingExpected, mag_control.cpp l.295-299 *)
Definition fieldMatches (measured expected gate : T) : bool := sle (expected - gate) measured && sle measured (expected + gate).
(** checkMagFieldStrength l.268-293: mag_field_disturbed; origin: _NED_origin_initialised; strength: _mag_strength_gps; mag: _mag_sample_delayed.mag *)
Definition magDisturbed (check origin : bool) (strength : T) (mag : Vec T) : bool :=
  if check then negb (if origin then fieldMatches (norm3 mag) strength (slit 2 10) else fieldMatches (norm3 mag) (slit 45 100) (slit 40 100))
  else false.
(** checkHaglYawResetReq l.126-131 *)
Definition aboveAnomalies (terrain posD : T) : bool := slt (slit 15 10) (terrain - posD).
(** checkYawAngleObservability l.189-199; acc: _accel_lpf_NE *)
Definition yawObservable (prev gps ev_pos : bool) (gate : T) (acc : Vec T) : bool :=
  (if prev then slt gate (norm2 acc) else slt (slit 2 1 * gate) (norm2 acc)) && (gps || ev_pos).
(** checkMagBiasObservability l.201-217; rate: _yaw_rate_lpf_ef, delta: _yaw_delta_ef, dt: 1e-6f * (float)(now - _time_yaw_started) *)
Definition magBiasObservable (prev : bool) (gate rate delta dt : T) : bool :=
  if negb prev && slt gate (sabs rate) then true
  else if prev then slt (slit 1 2 * gate * dt) (sabs delta) else prev.
(** calculateOutputStates, ekf.cpp l.331-337: spin: yaw change of an IMU sample of period dt; result: (_yaw_delta_ef, _yaw_rate_lpf_ef) *)
Definition yawMotion (spin dt delta rate : T) : T * T := (delta + spin, slit 95 100 * rate + slit 5 100 * spin / dt).

(** ** Motion on the ground: updateOnGroundMotionForOpticalFlowChecks, control.cpp l.483-492; acc: _accel_vec_filt,
    rate: _ang_rate_magnitude_filt, tilt: _R_to_earth(2,2), cos30 = cosf(radians(30)) *)
Definition oneG : T := slit 980665 100000.
Definition motionExcessive (cos30 max_rate : T) (acc : Vec T) (rate tilt : T) : bool :=
  slt (oneG * slit 15 10) (norm3 acc) || slt (norm3 acc) (oneG * slit 1 2) || slt max_rate rate || slt tilt cos30.

(** ** Optical flow *)
(** the accumulators, l.354-356: _imu_del_ang_of, _delta_time_of *)
Record flowacc := FlowAcc { a_ang : Vec T; a_dt : T }.
Definition flowAccumulate (da bias : Vec T) (dt : T) (a : flowacc) : flowacc :=
  FlowAcc (fun k => a_ang a k + (da k - bias k)) (a_dt a + dt).
Record flowS := FlowS { fl_xy : Vec T; fl_gyro : Vec T; fl_dt : T; fl_qual : Z }.
(** calcOptFlowBodyRateComp, optflow_fusion.cpp l.333-371: (available, accumulators, gyro of the sample, _flow_gyro_bias);
    finite: the three gyro values are finite; eps: FLT_EPSILON = 2^-23 *)
Definition bodyRateComp (finite : bool) (s : flowS) (a : flowacc) (bias : Vec T) : bool * flowacc * Vec T * Vec T :=
  let a0 := FlowAcc (fun _ => szero) szero in
  let eps := slit 1 8388608 in
  if slt (slit 1 1) (a_dt a) then (false, a0, fl_gyro s, bias)
  else if finite then
    (true, a0, fl_gyro s,
     if slt eps (a_dt a) && slt eps (fl_dt s) && slt (sabs (a_dt a - fl_dt s)) (slit 1 10)
     then fun k => bias k * slit 99 100 +
            sconstrain (fl_gyro s k * (slit 1 1 / fl_dt s) - a_ang a k * (slit 1 1 / a_dt a)) (- slit 1 10) (slit 1 10) * slit 1 100
     else bias)
  else (true, a0, (fun k => - a_ang a k), (fun _ => szero)).
(** fminf *)
Definition sfmin (a b : T) : T := if negb (sle a a) then b else if negb (sle b b) then a else if slt b a then b else a.
(** control.cpp l.358-395.  Result: (compensated flow, period used), or None when the sample is discarded.  tilt: _R_to_earth(2,2);
    delta_time_of is the accumulated time before calcOptFlowBodyRateComp clears it; gyro: result of calcOptFlowBodyRateComp *)
Definition flowChecks (comp : bool) (qual_min : Z) (max_rate cos_max tilt delta_time_of : T) (s : flowS) : bool :=
  let lo := sfmax (slit 8 10 * delta_time_of) (slit 1 1000) in
  let hi := sfmin (slit 12 10 * delta_time_of) (slit 2 10) in
  (qual_min <=? fl_qual s)%Z && negb (longer2 (fl_xy s) (fl_dt s * max_rate)) && slt cos_max tilt && comp
  && (sle lo (fl_dt s) && sle (fl_dt s) hi).
Definition flowProcess (in_air comp : bool) (qual_min : Z) (max_rate cos_max tilt delta_time_of : T) (gyro : Vec T) (s : flowS) : option (Vec T * T) :=
  let lo := sfmax (slit 8 10 * delta_time_of) (slit 1 1000) in
  let hi := sfmin (slit 12 10 * delta_time_of) (slit 2 10) in
  if flowChecks comp qual_min max_rate cos_max tilt delta_time_of s then Some ((fun k => fl_xy s k - gyro k), fl_dt s)
  else if negb in_air && comp then Some ((fun _ => szero), if sle lo (fl_dt s) && sle (fl_dt s) hi then fl_dt s else lo)
  else None.
(** the flow rate handed to the fusion, optflow_fusion.cpp l.103 *)
Definition flowRate (comp : Vec T) (dt : T) (bias : Vec T) : Vec T := fun k => comp k / dt + bias k.

(** ** Range aid: checkRangeAidSuitability, control.cpp l.1172-1204; ok: in air, range finder healthy, terrain valid *)
Definition rangeAid (ok aiding prev : bool) (terrain posD max_hagl innov gate var max_vel : T) (vel : Vec T) : bool :=
  if ok then
    let hagl := terrain - posD in
    let hmax := if prev then max_hagl else max_hagl * slit 7 10 in
    let rt := innov * innov / (sq gate * var) in
    let stable := if prev then slt rt (slit 1 1) else slt rt (slit 1 100) in
    let vmax := if prev then max_vel else max_vel * slit 7 10 in
    slt hagl hmax && stable && (if aiding then negb (longer2 vel vmax) else true)
  else false.

(** ** Barometer consistency before a switch from GPS height, control.cpp l.840-842; off: _hgt_sensor_offset, boff: _baro_hgt_offset *)
Definition baroConsistent (posD off baro boff noise P99 gate : T) : bool :=
  slt (sabs (posD - (off - baro + boff))) ((sq noise + P99) * sq gate).

(** ** Is the heading to blame for a loss of GPS velocity?  control.cpp l.614-634; cos25 = cosf(radians(25)) *)
Definition yawFailure (cos25 : T) (obs obs_var vel : Vec T) (p44 p55 : T) : bool :=
  let no := dot2 obs obs in let nv := dot2 vel vel in
  let to := sfmax (sq (slit 4 1) * (obs_var 0 + obs_var 1)) (slit 1 1) in
  let tv := sfmax (sq (slit 4 1) * (p44 + p55)) (slit 1 1) in
  if slt to no && slt tv nv then
    let d := dot2 obs vel in
    slt (sq d / (nv * no)) (sq cos25) || slt d szero
  else false.
End Sense.
Arguments flowacc : clear implicits. Arguments flowS : clear implicits.

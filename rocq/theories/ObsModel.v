(** * Construction of the observations fused by the main filter

    EKF/control.cpp l.227-303 (vision), 674-720 (GPS), 1094-1170 (height), 1277-1360
    (synthetic position, auxiliary velocity); EKF/ekf_helper.cpp l.568-595 (static
    pressure correction), 1272-1294, 1296-1350.  Parametric in the scalar.  Which
    source is fused when is ControlModel.v; the fusion itself is VelPosModel.v.
    Event flags and console messages are not modelled. *)
From Coq Require Import Reals.
From Verif Require Import RealGeom CBase Scalar CovPredGen CovModel VelPosModel FusionModel.
Open Scope nat_scope.

Section Obs.
Context {T : Type} {S : Scalar T}.
Open Scope scal_scope.

(** ** Vector and matrix helpers of PX4-Matrix (sums start at 0) *)
Definition vsubT (a b : Vec T) : Vec T := fun k => a k - b k.
Definition crossT (a b : Vec T) : Vec T := fun k => match k with
  | 0 => a 1 * b 2 - a 2 * b 1 | 1 => a 2 * b 0 - a 0 * b 2 | _ => a 0 * b 1 - a 1 * b 0 end.
Definition mprod (A B : Mat T) : Mat T := fun i k => szero + A i 0 * B 0 k + A i 1 * B 1 k + A i 2 * B 2 k.
Definition mtrT (A : Mat T) : Mat T := fun i j => A j i.
Definition mdiag (d : Vec T) : Mat T := fun i j => if i =? j then d i else szero.
(** velocity and position states of the filter *)
Definition xv (v : vpst T) : Vec T := fun k => x_st (v_c v) (4 + k)%nat.
Definition xp (v : vpst T) : Vec T := fun k => x_st (v_c v) (7 + k)%nat.

(** ** GPS velocity and position *)
(** the fields of _gps_sample_delayed that are used *)
Record gpsS := GpsS { s_vel : Vec T; s_pos : Vec T; s_hgt : T; s_hacc : T; s_vacc : T; s_sacc : T }.
(** control.cpp l.680-690; Re: _R_to_earth, w: _ang_rate_delayed_raw, off: gps_pos_body - imu_pos_body *)
Definition gpsCorrect (Re : Mat T) (w off : Vec T) (g : gpsS) : gpsS :=
  GpsS (vsubT (s_vel g) (mvec Re (crossT w off))) (fun k => s_pos g k - mvec Re off k)
       (s_hgt g + mvec Re off 2) (s_hacc g) (s_vacc g) (s_sacc g).
(** l.692-703; other: another source of horizontal aiding is active *)
Definition gpsPosVar (other : bool) (pos_noise noaid hacc : T) : T :=
  let lower := sfmax pos_noise (slit 1 100) in
  if other then sq (sfmax hacc lower) else sq (sconstrain hacc lower (sfmax noaid lower)).
(** l.705-706 *)
Definition gpsVelVar (vel_noise sacc : T) : Vec T :=
  let v := sq (sfmax sacc vel_noise) in fun k => match k with 2 => v * sq (slit 15 10) | _ => v end.
(** the variables written by the observation code: _last_vel_obs, _last_vel_obs_var, the innovations and their variances *)
Record vobs := VObs { o_v : vpst T; o_obs : Vec T; o_obsvar : Vec T; o_innov : Vec T; o_var : Vec T }.
(** controlGpsFusion, l.672-720: (corrected sample, velocity result, position innovations, state) *)
Definition gpsFuse (bad_vert other : bool) (pos_noise noaid vel_noise pos_gate vel_gate : T)
    (Re : Mat T) (w off : Vec T) (g0 : gpsS) (v : vpst T) : gpsS * vobs * (T * T) :=
  let g := gpsCorrect Re w off g0 in
  let pv := gpsPosVar other pos_noise noaid (s_hacc g) in
  let vv := gpsVelVar vel_noise (s_sacc g) in
  let vi := vsubT (xv v) (s_vel g) in
  let p0 := xp v 0 - s_pos g 0 in let p1 := xp v 1 - s_pos g 1 in
  let pg := sfmax pos_gate (slit 1 1) in let vg := sfmax vel_gate (slit 1 1) in
  let r1 := fuseHorizontalVelocity (vi 0) (vi 1) vg (vv 0) (vv 1) v in
  let r2 := fuseVerticalVelocity bad_vert (vi 2) vg (vv 2) (r_v r1) in
  let r3 := fuseHorizontalPosition false p0 p1 pg pv pv (r_v r2) in
  (g, VObs (r_v r3) (s_vel g) vv vi (fun k => match k with 0 => r_var0 r1 | 1 => r_var1 r1 | _ => r_var0 r2 end), (p0, p1)).

(** ** Height *)
(** getGpsHeightVariance, ekf_helper.cpp l.1286-1294 *)
Definition gpsHgtVar (pos_noise noaid vacc : T) : T :=
  let lower := sfmax (slit 15 10 * pos_noise) (slit 1 100) in
  sq (sconstrain vacc lower (sfmax (slit 15 10 * noaid) lower)).
(** control.cpp l.1108-1124; dz: gnd_effect_deadzone; deadzone_start = 0 *)
Definition deadzone (on : bool) (dz innov : T) : T :=
  let e := szero + dz in
  if on then (if slt innov (- szero) then (if sle innov (- e) then innov + e else - szero) else innov) else innov.
Inductive hgtsrc := HBaro | HGps | HRange | HVision.
Record hgtin := HgtIn {
  (** baro sample (compensated) and offset; _gps_sample_delayed.hgt (after l.690), vacc, _gps_alt_ref; _hgt_sensor_offset;
      getDistBottom(); _ev_sample_delayed.pos(2), posVar(2) *)
  h_baro : T; h_boff : T; h_gps : T; h_vacc : T; h_ref : T; h_off : T; h_dist : T; h_ev : T; h_evvar : T; h_gnd : bool }.
Record hgtpar := HgtPar { hp_baro_noise : T; hp_baro_gate : T; hp_dz : T; hp_gps_noise : T; hp_noaid : T;
  hp_clear : T; hp_rng_noise : T; hp_rng_scale : T; hp_rng_gate : T; hp_ev_gate : T }.
(** l.1094-1170: innovation, observation variance and gate of the active source; posD: _state.pos(2) *)
Definition hgtObs (src : hgtsrc) (p : hgtpar) (i : hgtin) (posD : T) : T * T * T :=
  match src with
  | HBaro => (deadzone (h_gnd i) (hp_dz p) (posD + h_baro i - h_boff i), sq (sfmax (hp_baro_noise p) (slit 1 100)), sfmax (hp_baro_gate p) (slit 1 1))
  | HGps => (posD + h_gps i - h_ref i - h_off i, gpsHgtVar (hp_gps_noise p) (hp_noaid p) (h_vacc i), sfmax (hp_baro_gate p) (slit 1 1))
  | HRange => (posD - (- smaxi (h_dist i) (hp_clear p)) - h_off i,
               sfmax (sq (hp_rng_noise p) + sq (hp_rng_scale p * h_dist i)) (slit 1 100), sfmax (hp_rng_gate p) (slit 1 1))
  | HVision => (posD - h_ev i, sfmax (h_evvar i) (sq (slit 1 100)), sfmax (hp_ev_gate p) (slit 1 1))
  end.
Definition hgtFuse (bad_vert : bool) (src : hgtsrc) (p : hgtpar) (i : hgtin) (v : vpst T) : vpres T :=
  let '(innov, var, gate) := hgtObs src p i (xp v 2) in fuseVerticalPosition bad_vert innov gate var v.

(** correction of a range measurement for the sensor position, control.cpp l.135-141; off: rng_pos_body - imu_pos_body,
    cosT: getCosTilt(); getDistBottom, sensor_range_finder.hpp l.96 *)
Definition rangeCorrect (Re : Mat T) (off : Vec T) (cosT rng : T) : T := rng + mvec Re off 2 / cosT.
Definition distBottom (cosT rng : T) : T := rng * cosT.
(** _hgt_sensor_offset set when a height source is started: ekf_helper.cpp l.1247-1270 (GPS; zero for baro); control.cpp l.973-975,
    l.988-990, l.1001-1013, l.1030-1035 (range; always_terrain: the baro and GPS modes) *)
Definition offsetGps (hgt ref posD : T) : T := hgt - ref + posD.
Definition offsetRange (always_terrain in_air terrain_valid : bool) (terrain dist clearance posD : T) : T :=
  if always_terrain then terrain else if in_air && terrain_valid then terrain else if in_air then dist + posD else clearance.

(** ** External vision *)
(** memory of the incremental position observations: _hpos_prev_available, _pos_meas_prev, _hpos_pred_prev; horizontal
    _ev_pos_innov *)
Record evmem := EvMem { e_avail : bool; e_meas : Vec T; e_pred : Vec T; e_innov : Vec T }.
Record evS := EvS { ev_p : Vec T; ev_pvar : Vec T; ev_v : Vec T; ev_vcov : Mat T; ev_bodyframe : bool }.
(** control.cpp l.227-297.  use_gps: MASK_USE_GPS; rot: MASK_ROTATE_EV; E: _R_ev_to_ekf; t_pos, t_vel: time-outs of
    l.285-291 (position for reset_timeout_max; flow and velocity for 1 s); resetVel, resetPos: resetVelocity() and
    resetHorizontalPosition(), which read the corrected sample.  Result: corrected sample, memory, position of the vehicle
    after the fusion, innovation variances and result of fuseHorizontalPosition *)
Definition evPosCorrect (Re : Mat T) (off : Vec T) (s : evS) : evS :=
  EvS (vsubT (ev_p s) (mvec Re off)) (ev_pvar s) (ev_v s) (ev_vcov s) (ev_bodyframe s).
Definition setOdom (b : bool) (v : vpst T) : vpst T :=
  mkVp (v_c v) (v_s v) (v_rej_hvel v) (v_rej_vvel v) (v_rej_hpos v) (v_rej_vpos v) (v_t_hvel v) (v_t_vvel v) (v_t_hpos v)
    (v_t_delpos v) (v_t_hgt v) (v_bad v) (v_fail0 v) (v_fail1 v) (v_vvel_ratio v) (v_vpos_ratio v) (v_vvel_time v) (v_vpos_time v) b.
(** R * diag(var) * R' *)
Definition rotVar (E : Mat T) (d : Vec T) : Mat T := mprod (mprod E (mdiag d)) (mtrT E).
(** (innovations, observation variances, memory) of the incremental observation, l.243-270 *)
Definition evOdomObs (E : Mat T) (s : evS) (m : evmem) (pos : Vec T) : Vec T * Vec T * evmem :=
  let '(i, o) :=
    if e_avail m then
      let d := mvec E (vsubT (ev_p s) (e_meas m)) in
      let V := rotVar E (ev_pvar s) in
      ((fun k => pos k - e_pred m k - d k), (fun k => sfmax (V k k) (sq (slit 1 2))))
    else (e_innov m, (fun _ => szero)) in
  (i, o, EvMem true (ev_p s) pos i).
(** absolute observation, l.272-282 *)
Definition evAbsObs (rot : bool) (E : Mat T) (s : evS) (m : evmem) (pos : Vec T) : Vec T * Vec T * evmem :=
  let q := if rot then mvec E (ev_p s) else ev_p s in
  let V := if rot then rotVar E (ev_pvar s) else mdiag (ev_pvar s) in
  let i := fun k => pos k - q k in
  (i, (fun k => sfmax (V k k) (sq (slit 1 100))), EvMem (e_avail m) (e_meas m) (e_pred m) i).
Definition evPosFuse (use_gps rot t_pos t_vel : bool) (resetVel resetPos : evS -> vpst T -> vpst T) (pos_gate : T)
    (E Re : Mat T) (off : Vec T) (s0 : evS) (m : evmem) (v0 : vpst T) : evS * evmem * vpres T :=
  let s := evPosCorrect Re off s0 in
  let v := setOdom use_gps v0 in
  let '(i, o, m', v1) :=
    if use_gps then (evOdomObs E s m (xp v), v)
    else (evAbsObs rot E s m (xp v),
          if t_pos then resetPos s (if t_vel then resetVel s v else v) else v) in
  (s, m', fuseHorizontalPosition false (i 0) (i 1) (sfmax pos_gate (slit 1 1)) (o 0) (o 1) v1).
(** getVisionVelocityInEkfFrame, getVisionVelocityVarianceInEkfFrame, ekf_helper.cpp l.1296-1341 *)
Definition evVelocity (rot : bool) (E Re : Mat T) (w off : Vec T) (s : evS) : Vec T :=
  let vo := crossT w off in
  if ev_bodyframe s then mvec Re (vsubT (ev_v s) vo)
  else if rot then vsubT (mvec E (ev_v s)) (mvec Re vo) else vsubT (ev_v s) (mvec Re vo).
Definition evVelVar (rot : bool) (E Re : Mat T) (s : evS) : Vec T := fun k =>
  (if ev_bodyframe s then mprod (mprod Re (ev_vcov s)) (mtrT Re)
   else if rot then mprod (mprod E (ev_vcov s)) (mtrT E) else ev_vcov s) k k.
(** control.cpp l.300-324; matrix::max (PX4-Matrix, not in /repo) takes the number when one argument is NaN, like fmaxf; t_reset: both time-outs of l.309-313 *)
Definition evVelFuse (bad_vert rot t_reset : bool) (resetVel : evS -> vpst T -> vpst T) (vel_gate : T)
    (E Re : Mat T) (w off : Vec T) (s : evS) (v : vpst T) : vobs :=
  let obs := evVelocity rot E Re w off s in
  let i := vsubT (xv v) obs in
  let v1 := if t_reset then resetVel s v else v in
  let o := fun k => sfmax (evVelVar rot E Re s k) (sq (slit 5 100)) in
  let g := sfmax vel_gate (slit 1 1) in
  let r1 := fuseHorizontalVelocity (i 0) (i 1) g (o 0) (o 1) v1 in
  let r2 := fuseVerticalVelocity bad_vert (i 2) g (o 2) (r_v r1) in
  VObs (r_v r2) obs o i (fun k => match k with 0 => r_var0 r1 | 1 => r_var1 r1 | _ => r_var0 r2 end).

(** ** Auxiliary velocity: controlAuxVelFusion, control.cpp l.1336-1360.  var_prev: _aux_vel_innov_var left by the previous
    call.  The gate is not limited below *)
Definition auxFuse (gate : T) (vel var var_prev : Vec T) (v : vpst T) : vobs :=
  let i := vsubT (xv v) vel in
  let r := fuseHorizontalVelocity (i 0) (i 1) gate (var 0) (var 1) v in
  VObs (r_v r) vel var_prev i (fun k => match k with 0 => r_var0 r | 1 => r_var1 r | _ => var_prev 2 end).

(** ** Synthetic position: controlFakePosFusion, l.1303-1325 *)
Definition fakeVar (in_air tilt at_rest : bool) (noaid gps_noise : T) : T :=
  if in_air && tilt then sq (sfmax noaid gps_noise) else if at_rest then sq (slit 1 10) else sq (slit 1 2).
Definition fakeFuse (in_air tilt at_rest : bool) (noaid gps_noise : T) (last : Vec T) (v : vpst T) : vpres T :=
  let o := fakeVar in_air tilt at_rest noaid gps_noise in
  fuseHorizontalPosition true (xp v 0 - last 0) (xp v 1 - last 1) (slit 3 1) o o v.

(** ** Barometer *)
(** updateBaroHgtOffset, ekf_helper.cpp l.1272-1284; dt: 1e-6f * _delta_time_baro_us *)
Definition baroOffset (baro_hgt ready : bool) (dt hgt posD off : T) : T :=
  if negb baro_hgt && ready
  then off + sconstrain dt szero (slit 1 1) * sconstrain (slit 1 10 * (hgt + posD - off)) (- slit 1 10) (slit 1 10)
  else off.
(** compensateBaroForDynamicPressure, l.568-595; Rb: rotation to the body frame, vel: velocity of the vehicle, wind;
    coefficients xp xn yp yn z, maximum airspeed, air density; matrix::min (PX4-Matrix) takes
    the number when one argument is NaN *)
Record pscoef := PsCoef { k_xp : T; k_xn : T; k_yp : T; k_yn : T; k_z : T; k_max : T }.
Definition smini (a b : T) : T := if negb (sle a a) then b else if slt b a then b else a.
Definition bodyAirspeed (Rb : Mat T) (vel : Vec T) (wn we : T) : Vec T :=
  mvec Rb (fun k => match k with 0 => vel 0 - wn | 1 => vel 1 - we | _ => vel 2 - szero end).
Definition pstatic (c : pscoef) (rho : T) (a : Vec T) : T :=
  let k := fun j => match j with 0 => if sle szero (a 0) then k_xp c else k_xn c
                           | 1 => if sle szero (a 1) then k_yp c else k_yn c | _ => k_z c end in
  let q := fun j => smini (a j * a j) (sq (k_max c)) in
  slit 1 2 * rho * (szero + q 0 * k 0 + q 1 * k 1 + q 2 * k 2).
Definition baroCompensate (c : pscoef) (rho : T) (Rb : Mat T) (vel : Vec T) (wn we alt : T) : T :=
  alt + pstatic c rho (bodyAirspeed Rb vel wn we) / (rho * slit 980665 100000).
End Obs.
Arguments gpsS : clear implicits. Arguments vobs : clear implicits. Arguments hgtin : clear implicits. Arguments hgtpar : clear implicits.
Arguments evmem : clear implicits. Arguments evS : clear implicits. Arguments pscoef : clear implicits.

(** calcExtVisRotMat, ekf_helper.cpp l.1343-1349 (exact reals): rotation from the vision to the filter axes *)
Definition extVisRotMat (q ev : Q4) : M3 := dcm (qnormalize (qmul q (qinv ev))).

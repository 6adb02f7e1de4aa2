(** Model of the fusion-mode state machine: [Ekf::controlFusionModes] (EKF/control.cpp), [Ekf::controlMagFusion]
    (EKF/mag_control.cpp) and the start/stop/set helpers of EKF/ekf_helper.cpp.

    Scope and simplifications.  The model carries every flag of [_control_status] that the code reads or writes, every
    latched private boolean, counter and time stamp that feeds a decision, and executes the functions in the order of the
    code.  What is *not* modelled here is floating point: each comparison of floating-point quantities (innovation
    ratios, variances, speeds, heights), the sensor-buffer reads and the results of the GPS and range-finder checks are
    fields of the per-cycle input [inp], universally quantified in the theorems, so that the theorems hold whatever the
    numeric part of the filter computes.  Numeric side effects (state and covariance resets, console messages, event
    flags) are omitted; the vel_pos/mag/GPS-yaw fusion functions are reduced to their effect on time stamps and flags. *)
Require Import ZArith Bool List.
Require Import Verif.CBase Verif.GpsModel.
Import ListNotations.
Local Open Scope Z_scope.

(** Flags and latched booleans.  F_: bits of filter_control_status_u (EKF/common.h 440-473).
    L_: private booleans of Ekf (EKF/ekf.h 333-540).  L_prev_*: the two bits of _control_status_prev that are read. *)
Inductive bk : Set :=
| F_tilt_align | F_yaw_align | F_gps | F_opt_flow | F_mag_hdg | F_mag_3D | F_mag_dec | F_in_air | F_wind
| F_baro_hgt | F_rng_hgt | F_gps_hgt | F_ev_pos | F_ev_yaw | F_ev_hgt | F_fuse_beta | F_mag_field_disturbed
| F_fixed_wing | F_mag_fault | F_fuse_aspd | F_gnd_effect | F_gps_yaw | F_mag_aligned_in_flight | F_ev_vel
| F_synthetic_mag_z | F_vehicle_at_rest | F_bad_acc_vertical
| L_prev_rng_hgt | L_prev_gps_hgt
| L_baro_hgt_faulty | L_gps_hgt_intermittent | L_is_gps_yaw_faulty | L_using_synthetic_position
| L_is_range_aid_suitable | L_mag_yaw_reset_req | L_mag_inhibit_yaw_reset_req | L_velpos_reset_request
| L_is_yaw_fusion_inhibited | L_non_mag_yaw_aiding_running_prev | L_mag_decl_cov_reset
| L_yaw_angle_observable | L_mag_bias_observable | L_fuse_hpos_as_odom | L_hpos_prev_available
| L_do_ekfgsf_yaw_reset | L_inhibit_flow_use | L_is_dead_reckoning | L_is_wind_dead_reckoning
| L_deadreckon_time_exceeded | L_flow_data_ready | L_flow_for_terrain_data_ready.

(** Time stamps (T_) and counters (N_) of Ekf / EstimatorInterface (EKF/ekf.h 352-536, 900; estimator_interface.h 343-344). *)
Inductive zk : Set :=
| T_hor_pos_fuse | T_hgt_fuse | T_hor_vel_fuse | T_ver_vel_fuse | T_delpos_fuse | T_of_fuse | T_arsp_fuse | T_beta_fuse
| T_fake_pos | T_gps_yaw_fuse | T_last_aiding | T_bad_vert_accel | T_good_vert_accel | T_flt_mag_align
| T_mov_3d_mag_suitable | T_mag_use_not_inhibit | T_good_motion | T_bad_motion | T_ekfgsf_yaw_reset
| T_vert_pos_attempt | T_vert_vel_fuse | T_prev_gps | T_gps_sample | T_flow_sample | T_on_ground | T_in_air
| T_gnd_effect_on
| N_bad_flight_yaw_events | N_ekfgsf_yaw_reset_count | N_clip_counter.

Definition bk_eq_dec (a b : bk) : {a = b} + {a <> b}.
Proof. decide equality. Defined.
Definition zk_eq_dec (a b : zk) : {a = b} + {a <> b}.
Proof. decide equality. Defined.
Definition bk_eqb (a b : bk) : bool := if bk_eq_dec a b then true else false.
Definition zk_eqb (a b : zk) : bool := if zk_eq_dec a b then true else false.

(** The estimator's control state.  [gsf] is a ghost log, newest first, of the EKF-GSF yaw resets that were performed:
    the time ([_time_last_imu]) and whether GPS aiding was in use.  No function reads it. *)
Record st := mkst { gb : bk -> bool; gz : zk -> Z; gsf : list (Z * bool) }.
Definition setb (k : bk) (v : bool) (s : st) : st :=
  mkst (fun j => if bk_eqb k j then v else gb s j) (gz s) (gsf s).
Definition setz (k : zk) (v : Z) (s : st) : st :=
  mkst (gb s) (fun j => if zk_eqb k j then v else gz s j) (gsf s).
Definition logr (e : Z * bool) (s : st) : st := mkst (gb s) (gz s) (e :: gsf s).

Declare Scope ctl_scope.
Delimit Scope ctl_scope with ctl.
Notation "s |> f" := (f s) (at level 64, left associativity, only parsing) : ctl_scope.
Local Open Scope ctl_scope.

(** The parameters read by the control logic (EKF/common.h 178-366). *)
Record params := {
  p_fusion_mode : Z; p_vdist : Z; p_mag_type : Z; p_range_aid : Z; p_mag_decl_source : Z;
  p_reset_timeout : Z; p_no_aid_timeout : Z; p_valid_timeout : Z; p_gsf_delay : Z; p_gsf_limit : Z;
  p_bad_acc_delay : Z; p_beta_avg_us : Z; p_check_mag_strength : bool; p_synth_mag_z : bool }.
(** EKF/common.h 165-169, 171-174, 176-187, 194-200. *)
Definition VDIST_GPS := 1.  Definition VDIST_RANGE := 2.  Definition VDIST_EV := 3.
Definition MAG_AUTO := 0. Definition MAG_HEADING := 1. Definition MAG_3D := 2. Definition MAG_INDOOR := 4. Definition MAG_NONE := 5.
Definition use_gps p := Z.testbit (p_fusion_mode p) 0.
Definition use_of p := Z.testbit (p_fusion_mode p) 1.
Definition use_evpos p := Z.testbit (p_fusion_mode p) 3.
Definition use_evyaw p := Z.testbit (p_fusion_mode p) 4.
Definition use_drag p := Z.testbit (p_fusion_mode p) 5.
Definition rotate_ev p := Z.testbit (p_fusion_mode p) 6.
Definition use_gpsyaw p := Z.testbit (p_fusion_mode p) 7.
Definition use_evvel p := Z.testbit (p_fusion_mode p) 8.

(** Per-cycle inputs: what the sensor buffers deliver and the outcome of every floating-point test. *)
Inductive ik : Set :=
| I_tilt_var_ok            (* control.cpp 58: tilt variance sum below (3 deg)^2 *)
| I_gps_ready | I_mag_ready | I_baro_ready | I_ev_ready | I_tas_ready | I_flow_pop | I_drag_ready | I_aux_ready
| I_rng_data_healthy | I_rng_healthy | I_rng_regular   (* results of SensorRangeFinder, see RangeModel.v *)
| I_ned_origin             (* _NED_origin_initialised *)
| I_decl_finite            (* ISFINITE(_mag_declination_gps) *)
| I_gps_checks_passed      (* _gps_checks_passed *)
| I_terrain_valid          (* isTerrainEstimateValid() *)
| I_gps_vacc_ok            (* gps_init.vacc < req_vacc *)
| I_baro_consistent        (* control.cpp 842 *)
| I_vvel_gt_lim | I_vpos_gt_lim | I_vvel_pos | I_vpos_pos   (* control.cpp 919-923 *)
| I_clipping               (* control.cpp 929-931 *)
| I_mag_match              (* mag_control.cpp 271-273 *)
| I_above_anomalies        (* mag_control.cpp 126 *)
| I_accel_gt_gate | I_accel_gt_2gate | I_yaw_rate_gt_gate | I_yaw_sustained  (* mag_control.cpp 190-212 *)
| I_gps_speed_ok           (* ekf_helper.cpp 368: gps_yaw_alignment_possible *)
| I_bad_yaw_err | I_gps_vel_ratio_bad  (* ekf_helper.cpp 376-389 *)
| I_motion_excessive       (* control.cpp 478-481 *)
| I_flow_all_good | I_flow_body_comp | I_gps_err_norm_07 | I_gps_err_norm_10   (* control.cpp 359-408 *)
| I_gps_yaw_finite | I_gps_ant_ok | I_gps_yaw_fused      (* gps_yaw_fusion.cpp *)
| I_gsf_ok                 (* resetYawToEKFGSF: estimate available and converged *)
| I_yaw_vec_bad            (* control.cpp 620-633 *)
| I_pass_gps_hvel | I_pass_gps_vvel | I_pass_gps_hpos | I_pass_hgt | I_pass_ev_hpos | I_pass_ev_hvel | I_pass_ev_vvel
| I_pass_aux | I_pass_fake | I_pass_flow | I_fused_tas | I_fused_beta
| I_range_in_range_lo | I_range_in_range_hi | I_hagl_stable_lo | I_hagl_stable_hi | I_slow_lo | I_slow_hi.
Inductive jk : Set :=
| J_now                    (* _time_last_imu *)
| J_imu                    (* _imu_sample_delayed.time_us, the fusion time horizon *)
| J_baro_newest | J_gps_newest | J_ev_newest   (* get_newest().time_us *)
| J_gps_time | J_flow_time | J_flow_half_dt
| J_hagl_fuse              (* _time_last_hagl_fuse, owned by the terrain estimator *)
| J_ext_vision             (* _time_last_ext_vision *)
| J_gps_fail | J_gps_pass. (* _last_gps_fail_us, _last_gps_pass_us *)
Record inp := mkinp { ib : ik -> bool; iz : jk -> Z }.

Definition timed_out (i : inp) (ts per : Z) : bool := is_timed_out (iz i J_now) ts per.
Definition recent (i : inp) (ts per : Z) : bool := is_recent (iz i J_now) ts per.
Notation now i := (iz i J_now) (only parsing).
Notation hor i := (iz i J_imu) (only parsing).

Definition if_ (b : bool) (f : st -> st) (s : st) : st := if b then f s else s.

(** EstimatorInterface::getNumberOfActiveHorizontalAidingSources and friends (estimator_interface.cpp 534-559). *)
Definition n_sources (s : st) : Z :=
  Z.b2z (gb s F_gps) + Z.b2z (gb s F_opt_flow) + Z.b2z (gb s F_ev_pos) + Z.b2z (gb s F_ev_vel)
  + Z.b2z (gb s F_fuse_aspd && gb s F_fuse_beta).
Definition other_than (flag : bool) (s : st) : bool := if flag then n_sources s >? 1 else n_sources s >? 0.
Definition only_source (flag : bool) (s : st) : bool := flag && negb (other_than flag s).
Definition aiding_active (s : st) : bool := n_sources s >? 0.

(** *** ekf_helper.cpp *)
(** setControlBaroHeight 1171-1178, setControlRangeHeight 1180-1187, setControlGPSHeight 1189-1196, setControlEVHeight 1198-1205 *)
Definition setControlBaroHeight s :=
  s |> setb F_baro_hgt true |> setb F_gps_hgt false |> setb F_rng_hgt false |> setb F_ev_hgt false.
Definition setControlRangeHeight s :=
  s |> setb F_rng_hgt true |> setb F_baro_hgt false |> setb F_gps_hgt false |> setb F_ev_hgt false.
Definition setControlGPSHeight s :=
  s |> setb F_gps_hgt true |> setb F_baro_hgt false |> setb F_rng_hgt false |> setb F_ev_hgt false.
Definition setControlEVHeight s :=
  s |> setb F_ev_hgt true |> setb F_baro_hgt false |> setb F_gps_hgt false |> setb F_rng_hgt false.
(** stopMag3DFusion 1214-1221 (covariance save omitted), stopMagHdgFusion 1223-1226, stopMagFusion 1207-1212 with
    clearMagCov (covariance.cpp 1066-1070) reduced to the _mag_decl_cov_reset flag *)
Definition stopMag3DFusion s := if_ (gb s F_mag_3D) (setb F_mag_3D false) s.
Definition stopMagHdgFusion s := s |> setb F_mag_hdg false.
Definition stopMagFusion s := s |> stopMag3DFusion |> stopMagHdgFusion |> setb L_mag_decl_cov_reset false.
(** startMagHdgFusion 1228-1232, startMag3DFusion 1234-1242 *)
Definition startMagHdgFusion s := s |> stopMag3DFusion |> setb F_mag_hdg true.
Definition startMag3DFusion s :=
  if_ (negb (gb s F_mag_3D)) (fun s => s |> stopMagHdgFusion |> setb F_mag_3D true) s.
(** startBaroHgtFusion 1244-1259 (GNDEFFECT_TIMEOUT = 10 s), startGpsHgtFusion 1261-1270; offsets omitted *)
Definition startBaroHgtFusion (i : inp) s :=
  let s := setControlBaroHeight s in
  if_ (gb s F_gnd_effect && timed_out i (gz s T_gnd_effect_on) 10000000) (setb F_gnd_effect false) s.
Definition startGpsHgtFusion s := setControlGPSHeight s.
(** startGpsFusion 1416-1429; stopGpsPosFusion 1438-1445, stopGpsYawFusion 1463-1466, stopGpsFusion 1431-1436
    (stopGpsVelFusion only clears reported innovations) *)
Definition startGpsFusion s := s |> setb F_gps true.
Definition stopGpsPosFusion s := s |> setb F_gps false |> setb F_gps_hgt false.
Definition stopGpsYawFusion s := s |> setb F_gps_yaw false.
Definition stopGpsFusion s := s |> stopGpsPosFusion |> stopGpsYawFusion.
(** stopEvYawFusion 1529-1532, startGpsYawFusion 1454-1461 *)
Definition stopEvYawFusion s := s |> setb F_ev_yaw false.
Definition startGpsYawFusion s :=
  s |> setb F_mag_dec false |> stopEvYawFusion |> stopMagHdgFusion |> stopMag3DFusion |> setb F_gps_yaw true.
(** resetHorizontalPosition 163-203: only the latch _hpos_prev_available is a control variable *)
Definition resetHorizontalPosition s := s |> setb L_hpos_prev_available false.
(** startEvPosFusion 1468-1474, startEvVelFusion 1476-1482, startEvYawFusion 1484-1505, stopEvFusion 1507-1512 *)
Definition startEvPosFusion s := s |> setb F_ev_pos true |> resetHorizontalPosition.
Definition startEvVelFusion s := s |> setb F_ev_vel true.
Definition startEvYawFusion s :=
  s |> setb F_yaw_align true |> setb F_ev_yaw true |> setb F_mag_dec false |> stopMagHdgFusion |> stopMag3DFusion.
Definition stopEvFusion s := s |> setb F_ev_pos false |> setb F_ev_vel false |> stopEvYawFusion.
(** stopFlowFusion 1541-1547 *)
Definition stopFlowFusion s := s |> setb F_opt_flow false.

(** resetMagHeading 462-520: result and effect on control variables *)
Definition resetMagHeading (p : params) (i : inp) (s : st) : bool * st :=
  if hor i =? gz s T_flt_mag_align then (true, s)
  else if p_mag_type p >=? MAG_NONE then (false, stopMagFusion s)
  else
    let done s := (true, s |> setb L_mag_decl_cov_reset false |> setz T_flt_mag_align (hor i)) in
    if gb s F_ev_yaw then done s
    else if p_mag_type p <=? MAG_3D then done s
    else if (p_mag_type p =? MAG_INDOOR) && gb s L_is_yaw_fusion_inhibited then (true, s)
    else (false, s).
(** [_control_status.flags.yaw_align = resetMagHeading(...)] *)
Definition alignYawToMag (p : params) (i : inp) (s : st) : st :=
  let r := resetMagHeading p i s in setb F_yaw_align (fst r) (snd r).

(** realignYawGPS 362-459 *)
Definition realignYawGPS (p : params) (i : inp) (s : st) : bool * st :=
  if negb (ib i I_gps_speed_ok) then resetMagHeading p i s
  else
    let bad_mag_yaw := ib i I_bad_yaw_err && (ib i I_gps_vel_ratio_bad && gb s F_gps) in
    let s := if_ bad_mag_yaw (setz N_bad_flight_yaw_events (u8 (gz s N_bad_flight_yaw_events + 1))) s in
    let fin s := s |> setb L_mag_decl_cov_reset false |> setz T_flt_mag_align (hor i) in
    if bad_mag_yaw || negb (gb s F_yaw_align) then
      let s := if_ (gb s F_mag_aligned_in_flight && (gz s N_bad_flight_yaw_events >=? 2) && negb (gb s F_mag_fault))
                   (setb F_mag_fault true) s in
      let s := if_ (negb (gb s F_mag_aligned_in_flight)) (setb F_mag_aligned_in_flight true) s in
      (true, s |> fin |> setb L_velpos_reset_request bad_mag_yaw)
    else (true, s |> fin).

(** resetYawToEKFGSF 1593-1636; records the reset in the ghost log *)
Definition resetYawToEKFGSF (p : params) (i : inp) (s : st) : bool * st :=
  if negb (ib i I_gsf_ok) then (false, s)
  else
    let s := logr (now i, gb s F_gps) s in
    let s := s |> resetHorizontalPosition |> setz T_flt_mag_align (hor i) |> setb F_yaw_align true in
    let s := if_ (negb (p_mag_type p =? MAG_NONE)) (setb F_mag_fault true) s in
    (true, s).

(** *** vel_pos_fusion.cpp reduced to time stamps: fuseHorizontalVelocity 48-74, fuseVerticalVelocity 76-108,
    fuseHorizontalPosition 110-144, fuseVerticalPosition 146-177 ([pass] = the innovation gate let the sample through) *)
Definition fuseHorVel (i : inp) (pass : bool) s := if_ pass (setz T_hor_vel_fuse (now i)) s.
Definition fuseVertVel (i : inp) (pass : bool) s :=
  s |> setz T_vert_vel_fuse (now i) |> if_ pass (setz T_ver_vel_fuse (now i)).
Definition fuseHorPos (i : inp) (pass : bool) s :=
  if_ pass (if gb s L_fuse_hpos_as_odom then setz T_delpos_fuse (now i) else setz T_hor_pos_fuse (now i)) s.
Definition fuseVertPos (i : inp) (pass : bool) s :=
  s |> setz T_vert_pos_attempt (now i) |> if_ pass (setz T_hgt_fuse (now i)).

(** *** control.cpp *)
(** controlFusionModes 48-84: status copy and tilt alignment *)
Definition cfm_tilt (p : params) (i : inp) (s : st) : st :=
  let s := s |> setb L_prev_rng_hgt (gb s F_rng_hgt) |> setb L_prev_gps_hgt (gb s F_gps_hgt) in
  if_ (negb (gb s F_tilt_align) && ib i I_tilt_var_ok) (fun s => s |> setb F_tilt_align true |> alignYawToMag p i) s.
(** controlFusionModes 86-163: intermittent-data checks and data arrival *)
Definition cfm_data (p : params) (i : inp) (s : st) : st :=
  let s := s |> setb L_baro_hgt_faulty (negb (recent i (iz i J_baro_newest) 400000))
             |> setb L_gps_hgt_intermittent (negb (recent i (iz i J_gps_newest) 1000000))
             |> setz T_prev_gps (gz s T_gps_sample) in
  let s := if_ (ib i I_gps_ready) (setz T_gps_sample (iz i J_gps_time)) s in
  let s := if_ (ib i I_mag_ready)
               (setb F_synthetic_mag_z (p_synth_mag_z p && Z.testbit (p_mag_decl_source p) 0
                                        && (ib i I_ned_origin || ib i I_decl_finite))) s in
  let s := if negb (gb s L_flow_data_ready) || negb (gb s F_opt_flow)
           then s |> setb L_flow_data_ready (ib i I_flow_pop) |> if_ (ib i I_flow_pop) (setz T_flow_sample (iz i J_flow_time))
           else s in
  if_ (negb (gb s L_flow_for_terrain_data_ready) && gb s L_flow_data_ready && gb s F_in_air)
      (setb L_flow_for_terrain_data_ready
            (timed_out i (iz i J_hagl_fuse) 5000000 && (negb (gb s F_opt_flow) && gb s F_gps))) s.

(** checkVerticalAccelerationHealth 900-956; BADACC_PROBATION = 10 s, clip_count_limit = 1000/FILTER_UPDATE_PERIOD_MS
    = 100 (estimator_interface.h: FILTER_UPDATE_PERIOD_MS 10) *)
Definition vertAccelBad (i : inp) (s : st) (clip : Z) : bool :=
  let posr := recent i (gz s T_vert_pos_attempt) 1000000 in
  let velr := recent i (gz s T_vert_vel_fuse) 1000000 in
  let falling := posr &&
    (if velr then (ib i I_vvel_gt_lim && ib i I_vpos_pos) || (ib i I_vpos_gt_lim && ib i I_vvel_pos)
     else ib i I_vpos_gt_lim) in
  let indep := posr && velr && negb ((gb s F_gps_hgt && gb s F_gps) || (gb s F_ev_hgt && gb s F_ev_vel)) in
  (indep || (clip >? 0)) && falling.
Definition clipNext (clipping : bool) (c : Z) : Z :=
  if clipping && (c <? 100) then u16 (c + 1) else if c >? 0 then u16 (c - 1) else c.
Definition checkVerticalAccelerationHealth (i : inp) (s : st) : st :=
  let c := clipNext (ib i I_clipping) (gz s N_clip_counter) in
  let bad := vertAccelBad i s c in
  let s := s |> setz N_clip_counter c |> setz (if bad then T_bad_vert_accel else T_good_vert_accel) (now i) in
  if gb s F_bad_acc_vertical then s |> setb F_bad_acc_vertical (recent i (gz s T_bad_vert_accel) 10000000)
  else s |> setb F_bad_acc_vertical bad.

(** controlHeightSensorTimeouts 777-898: the source switch; the boolean says whether a height reset is requested *)
Definition heightTimeoutSwitch (i : inp) (s : st) : bool * st :=
  if gb s F_baro_hgt then
    let prev_bad := recent i (gz s T_bad_vert_accel) 10000000 in
    if negb (gb s L_gps_hgt_intermittent) && ((ib i I_gps_vacc_ok && negb prev_bad) || gb s L_baro_hgt_faulty)
    then (true, s |> setb L_baro_hgt_faulty true |> startGpsHgtFusion)
    else (negb (gb s L_baro_hgt_faulty), s)
  else if gb s F_gps_hgt then
    if negb (gb s L_baro_hgt_faulty) && ((ib i I_baro_consistent && negb (ib i I_gps_vacc_ok)) || gb s L_gps_hgt_intermittent)
    then (true, s |> startBaroHgtFusion i)
    else (negb (gb s L_gps_hgt_intermittent), s)
  else if gb s F_rng_hgt then
    if ib i I_rng_healthy then (true, s)
    else if negb (gb s L_baro_hgt_faulty) then (true, s |> startBaroHgtFusion i) else (false, s)
  else if gb s F_ev_hgt then
    if recent i (iz i J_ev_newest) 400000 then (true, s)
    else if negb (gb s L_baro_hgt_faulty) then (true, s |> startBaroHgtFusion i) else (false, s)
  else (false, s).
Definition controlHeightSensorTimeouts (p : params) (i : inp) (s : st) : st :=
  let s := checkVerticalAccelerationHealth i s in
  if timed_out i (gz s T_hgt_fuse) 5000000 || timed_out i (gz s T_good_vert_accel) (p_bad_acc_delay p) then
    let r := heightTimeoutSwitch i s in
    if_ (fst r) (setz T_hgt_fuse (now i)) (snd r)
  else s.

(** *** mag_control.cpp *)
Definition noOtherYaw (s : st) : bool := negb (gb s F_ev_yaw) && negb (gb s F_gps_yaw).   (* 114-118 *)
(** checkMagFieldStrength 268-278 *)
Definition checkMagFieldStrength (p : params) (i : inp) s :=
  s |> setb F_mag_field_disturbed (p_check_mag_strength p && negb (ib i I_mag_match)).
(** canResetMagHeading 144-147, isYawResetAuthorized ekf.h *)
Definition canResetMagHeading (p : params) s := negb (gb s F_mag_field_disturbed) && negb (p_mag_type p =? MAG_NONE).
(** checkHaglYawResetReq 120-131 *)
Definition checkHaglYawResetReq (i : inp) s :=
  if_ (negb (gb s F_mag_aligned_in_flight)) (setb L_mag_yaw_reset_req (gb s L_mag_yaw_reset_req || ib i I_above_anomalies)) s.
(** runOnGroundYawReset 133-142 *)
Definition runOnGroundYawReset (p : params) (i : inp) s :=
  if gb s L_mag_yaw_reset_req && negb (gb s L_is_yaw_fusion_inhibited) then
    let r := if canResetMagHeading p s then resetMagHeading p i s else (false, s) in
    snd r |> setb L_mag_yaw_reset_req (negb (fst r))
  else s.
(** runInAirYawReset 149-162 *)
Definition runInAirYawReset (p : params) (i : inp) s :=
  if gb s L_mag_yaw_reset_req && negb (gb s L_is_yaw_fusion_inhibited) then
    let r := if gb s F_fixed_wing then realignYawGPS p i s
             else if canResetMagHeading p s then resetMagHeading p i s else (false, s) in
    snd r |> setb L_mag_yaw_reset_req (negb (fst r)) |> setb F_mag_aligned_in_flight (fst r)
  else s.
(** runVelPosReset 164-171 *)
Definition runVelPosReset s :=
  if_ (gb s L_velpos_reset_request) (fun s => s |> resetHorizontalPosition |> setb L_velpos_reset_request false) s.
(** checkYawAngleObservability 189-199, checkMagBiasObservability 201-217, check3DMagFusionSuitability 179-187 *)
Definition check3DMagFusionSuitability (i : inp) s :=
  let s := s |> setb L_yaw_angle_observable
     ((if gb s L_yaw_angle_observable then ib i I_accel_gt_gate else ib i I_accel_gt_2gate) && (gb s F_gps || gb s F_ev_pos)) in
  let s := s |> setb L_mag_bias_observable
     (if gb s L_mag_bias_observable then ib i I_yaw_sustained else ib i I_yaw_rate_gt_gate) in
  if_ (gb s L_mag_bias_observable || gb s L_yaw_angle_observable) (setz T_mov_3d_mag_suitable (hor i)) s.
(** canUse3DMagFusion 219-225, selectMagAuto 173-177 *)
Definition canUse3DMagFusion (i : inp) s :=
  gb s F_mag_aligned_in_flight && (sub64 (hor i) (gz s T_mov_3d_mag_suitable) <? 2000000).
Definition selectMagAuto (i : inp) s :=
  let s := check3DMagFusionSuitability i s in
  if canUse3DMagFusion i s then startMag3DFusion s else startMagHdgFusion s.
(** mode selection switch 89-106 *)
Definition selectMagMode (p : params) (i : inp) s :=
  if p_mag_type p =? MAG_AUTO then selectMagAuto i s
  else if (p_mag_type p =? MAG_INDOOR) || (p_mag_type p =? MAG_HEADING) then startMagHdgFusion s
  else if p_mag_type p =? MAG_3D then startMag3DFusion s
  else selectMagAuto i s.
(** checkMagDeclRequired 227-236 *)
Definition checkMagDeclRequired (p : params) s :=
  s |> setb F_mag_dec (gb s F_mag_3D && (negb (gb s F_gps) || Z.testbit (p_mag_decl_source p) 2)).
(** shouldInhibitMag 251-266, checkMagInhibition 238-249 *)
Definition shouldInhibitMag (p : params) s :=
  ((p_mag_type p =? MAG_INDOOR) && (negb (gb s F_gps) && negb (gb s F_ev_pos) && negb (gb s F_ev_vel)))
  || gb s F_mag_field_disturbed.
Definition checkMagInhibition (p : params) (i : inp) s :=
  let s := s |> setb L_is_yaw_fusion_inhibited (shouldInhibitMag p s) in
  let s := if_ (negb (gb s L_is_yaw_fusion_inhibited)) (setz T_mag_use_not_inhibit (hor i)) s in
  if_ (u32 (hor i - gz s T_mag_use_not_inhibit) >? 5000000) (setb L_mag_inhibit_yaw_reset_req true) s.
(** runMagAndMagDeclFusions 306-313, run3DMagAndDeclFusions 315-335: only _mag_decl_cov_reset is a control variable *)
Definition runMagAndMagDeclFusions s := if_ (gb s F_mag_3D) (setb L_mag_decl_cov_reset true) s.
(** otherHeadingSourcesHaveStopped 337-345 and its use in controlMagFusion 74 *)
Definition otherHeadingStopped s :=
  let r := noOtherYaw s && gb s L_non_mag_yaw_aiding_running_prev in
  s |> setb L_non_mag_yaw_aiding_running_prev (negb (noOtherYaw s))
    |> setb L_mag_yaw_reset_req (gb s L_mag_yaw_reset_req || r).
(** controlMagFusion 62-68 *)
Definition magOnGround s :=
  if_ (negb (gb s F_in_air)) (fun s => s |> setb F_mag_aligned_in_flight false |> setz N_bad_flight_yaw_events 0) s.
(** controlMagFusion 76-110 *)
Definition magAid (p : params) (i : inp) s :=
  let s := if gb s F_in_air then s |> checkHaglYawResetReq i |> runInAirYawReset p i |> runVelPosReset
           else s |> runOnGroundYawReset p i in
  s |> selectMagMode p i |> checkMagDeclRequired p |> checkMagInhibition p i |> runMagAndMagDeclFusions.
(** controlMagFusion 41-112 *)
Definition controlMagFusion (p : params) (i : inp) s :=
  if p_mag_type p >? MAG_NONE then s
  else if p_mag_type p =? MAG_NONE then if_ (noOtherYaw s) (setb L_is_yaw_fusion_inhibited true) s
  else
    let s := s |> checkMagFieldStrength p i |> magOnGround in
    if gb s F_mag_fault || negb (gb s F_yaw_align) then stopMagFusion s
    else
      let s := otherHeadingStopped s in
      if_ (noOtherYaw s && ib i I_mag_ready) (magAid p i) s.

(** *** controlOpticalFlowFusion, control.cpp 345-472 *)
(** 347-353, 474-496 *)
Definition flowMotion (i : inp) s :=
  if negb (gb s F_in_air) then
    (if ib i I_motion_excessive then setz T_bad_motion (hor i) s else setz T_good_motion (hor i) s)
  else s |> setz T_bad_motion 0 |> setz T_good_motion (hor i).
(** 359-398: data quality *)
Definition flowQuality (i : inp) s :=
  if_ (gb s L_flow_data_ready && negb (ib i I_flow_all_good) && negb (negb (gb s F_in_air) && ib i I_flow_body_comp))
      (fun s => s |> setb L_flow_data_ready false |> setb L_flow_for_terrain_data_ready false) s.
(** 402-423 *)
Definition flowInhibit (i : inp) s : bool :=
  let required := gb s F_in_air &&
     (gb s L_is_dead_reckoning || only_source (gb s F_opt_flow) s
      || (gb s F_gps && (if gb s F_opt_flow then ib i I_gps_err_norm_07 else ib i I_gps_err_norm_10))) in
  let preflight_bad := negb (gb s F_in_air) &&
     ((hor i >? add64 (gz s T_good_motion) 100000) || (hor i <? add64 (gz s T_bad_motion) 5000000)) in
  let flight_bad := gb s F_in_air && negb (ib i I_terrain_valid) in
  ((preflight_bad || flight_bad) && negb required) || negb (gb s F_tilt_align).
(** 434-457: start of flow aiding *)
Definition flowStart (p : params) (i : inp) s :=
  let s := if_ (negb (gb s F_yaw_align)) (alignYawToMag p i) s in
  if_ (gb s F_yaw_align)
      (fun s => let s := s |> setb F_opt_flow true |> setz T_of_fuse (now i) in
                if_ (negb (other_than (gb s F_opt_flow) s)) resetHorizontalPosition s) s.
(** 459-467 *)
Definition flowFuse (p : params) (i : inp) s :=
  let s := if_ (hor i >? sub64 (gz s T_flow_sample) (iz i J_flow_half_dt))
               (fun s => s |> if_ (recent i (iz i J_hagl_fuse) 10000000 && ib i I_pass_flow) (setz T_of_fuse (now i))
                           |> setb L_flow_data_ready false) s in
  if_ (timed_out i (gz s T_of_fuse) (p_reset_timeout p) && negb (other_than (gb s F_opt_flow) s)) resetHorizontalPosition s.
(** 400-472 *)
Definition flowUse (p : params) (i : inp) s :=
  let s := s |> setb L_inhibit_flow_use (flowInhibit i s) in
  if gb s F_opt_flow && (negb (use_of p) || gb s L_inhibit_flow_use) then stopFlowFusion s
  else
    let s := if_ (use_of p && negb (gb s F_opt_flow) && negb (gb s L_inhibit_flow_use)) (flowStart p i) s in
    if_ (gb s F_opt_flow) (flowFuse p i) s.
Definition controlOpticalFlowFusion (p : params) (i : inp) s :=
  let s := s |> flowMotion i |> flowQuality i in
  if gb s L_flow_data_ready then flowUse p i s
  else if_ (gb s F_opt_flow && (hor i >? add64 (gz s T_flow_sample) 10000000)) stopFlowFusion s.

(** *** controlGpsFusion, control.cpp 498-736 *)
(** controlGpsYawFusion 738-775 *)
Definition controlGpsYawFusion (p : params) (i : inp) s :=
  if negb (use_gpsyaw p) || gb s L_is_gps_yaw_faulty then stopGpsYawFusion s
  else
    let s := if_ (ib i I_gps_yaw_finite)
      (fun s => if gb s F_gps_yaw then if_ (ib i I_gps_yaw_fused) (setz T_gps_yaw_fuse (now i)) s
                else if_ (gb s F_tilt_align && negb (gb s L_gps_hgt_intermittent) && ib i I_gps_ant_ok)
                         (fun s => s |> setz T_gps_yaw_fuse (now i) |> setb F_yaw_align true |> startGpsYawFusion) s) s in
    if_ (gb s F_gps_yaw && timed_out i (gz s T_gps_yaw_fuse) 5000000)
        (fun s => s |> setb L_is_gps_yaw_faulty true |> stopGpsYawFusion) s.
(** 509-541: starting GPS aiding *)
Definition gpsTryStart (p : params) (i : inp) s :=
  let want := negb (gb s F_yaw_align) || gb s F_ev_yaw || gb s L_mag_inhibit_yaw_reset_req in
  let s := if_ (want && canResetMagHeading p s)
               (fun s => s |> setb F_ev_yaw false |> alignYawToMag p i |> setb L_mag_inhibit_yaw_reset_req false) s in
  if_ (gb s F_yaw_align) startGpsFusion s.
Definition gpsSelect (p : params) (i : inp) s :=
  if use_gps p && negb (gb s F_gps) then
    if_ (gb s F_tilt_align && ib i I_ned_origin && timed_out i (iz i J_gps_fail) 5000000) (gpsTryStart p i) s
  else if_ (negb (use_gps p)) (setb F_gps false) s.
(** 549-557 *)
Definition gpsQualityStop (p : params) (i : inp) s :=
  if_ (gb s F_gps && timed_out i (iz i J_gps_pass) 5000000 && other_than (gb s F_gps) s)
      (fun s => s |> stopGpsFusion |> if_ (gb s F_ev_pos && negb (rotate_ev p)) resetHorizontalPosition) s.
(** 559-567: yaw alignment by the EKF-GSF before GPS aiding *)
Definition gsfAlign (p : params) (i : inp) s :=
  if negb (gb s F_gps) && gb s L_do_ekfgsf_yaw_reset && timed_out i (gz s T_ekfgsf_yaw_reset) 5000000 then
    let r := resetYawToEKFGSF p i s in
    if_ (fst r) (fun s => s |> setz T_ekfgsf_yaw_reset (now i) |> setb L_do_ekfgsf_yaw_reset false) (snd r)
  else s.
(** 572-580 *)
Definition doVelPosReset (p : params) (i : inp) s : bool :=
  (timed_out i (gz s T_hor_pos_fuse) (p_reset_timeout p) && timed_out i (gz s T_delpos_fuse) (p_reset_timeout p)
   && timed_out i (gz s T_hor_vel_fuse) (p_reset_timeout p) && timed_out i (gz s T_of_fuse) (p_reset_timeout p))
  || timed_out i (gz s T_hor_pos_fuse) (u32 (2 * p_reset_timeout p)).
(** 602-634 *)
Definition isYawFailure (p : params) (i : inp) s : bool :=
  let takeoff := gb s F_in_air && negb (timed_out i (gz s T_on_ground) 30000000)
     && timed_out i (gz s T_hor_vel_fuse) (p_gsf_delay p) && (gz s T_hor_vel_fuse >? gz s T_on_ground) in
  let inflight := gb s F_in_air && doVelPosReset p i s && (gz s T_hor_vel_fuse >? gz s T_on_ground)
     && (gz s T_hor_pos_fuse >? gz s T_on_ground) in
  (takeoff || inflight) && (gz s T_hor_vel_fuse >? 0) && ib i I_yaw_vec_bad.
(** 636-671 *)
Definition gpsRecover (p : params) (i : inp) s :=
  if (gb s L_do_ekfgsf_yaw_reset || isYawFailure p i s) && (gz s N_ekfgsf_yaw_reset_count <? p_gsf_limit p)
     && timed_out i (gz s T_ekfgsf_yaw_reset) 5000000 && negb (timed_out i (gz s T_prev_gps) 1000000) then
    let r := resetYawToEKFGSF p i s in
    if_ (fst r)
        (fun s => s |> setz T_ekfgsf_yaw_reset (now i) |> setb L_do_ekfgsf_yaw_reset false
                    |> setz N_ekfgsf_yaw_reset_count (u8 (gz s N_ekfgsf_yaw_reset_count + 1))
                    |> setz T_hor_pos_fuse (now i) |> setz T_delpos_fuse (now i)
                    |> setz T_hor_vel_fuse (now i) |> setz T_of_fuse (now i)) (snd r)
  else if doVelPosReset p i s then
    let s := if gb s F_fixed_wing && gb s F_in_air
             then let r := realignYawGPS p i s in setb F_mag_aligned_in_flight (fst r) (snd r) else s in
    s |> resetHorizontalPosition |> setb L_velpos_reset_request false
      |> setz T_hor_pos_fuse (now i) |> setz T_hor_vel_fuse (now i)
  else s.
(** 674-721 *)
Definition gpsFuse (i : inp) s :=
  s |> fuseHorVel i (ib i I_pass_gps_hvel) |> fuseVertVel i (ib i I_pass_gps_vvel) |> fuseHorPos i (ib i I_pass_gps_hpos).
Definition gpsNew (p : params) (i : inp) s :=
  let s := s |> controlGpsYawFusion p i |> gpsSelect p i |> gpsQualityStop p i |> gsfAlign p i in
  let s := if_ (gb s F_gps) (gpsRecover p i) s in
  if_ (gb s F_gps) (gpsFuse i) s.
Definition controlGpsFusion (p : params) (i : inp) s :=
  if ib i I_gps_ready then gpsNew p i s
  else if gb s F_gps && (sub64 (hor i) (gz s T_gps_sample) >? 10000000) then stopGpsFusion s
  else if_ (gb s F_gps && (sub64 (hor i) (gz s T_gps_sample) >? 1000000) && other_than (gb s F_gps) s) stopGpsFusion s.

(** *** air data: controlAirDataFusion 1201-1233, controlBetaFusion 1235-1258, controlDragFusion 1260-1279 *)
Definition controlAirDataFusion (p : params) (i : inp) s :=
  let tas_to := timed_out i (gz s T_arsp_fuse) 10000000 in
  let beta_to := timed_out i (gz s T_beta_fuse) 10000000 in
  let s := if_ (gb s F_wind && (gb s L_using_synthetic_position || (tas_to && beta_to && negb (use_drag p))))
               (setb F_wind false) s in
  let s := if_ (gb s F_fuse_aspd && tas_to) (setb F_fuse_aspd false) s in
  if_ (negb (gb s L_using_synthetic_position) && ib i I_tas_ready && gb s F_in_air)
      (fun s => s |> if_ (negb (gb s F_wind)) (fun s => s |> setb F_wind true |> setz T_arsp_fuse (now i))
                  |> if_ (ib i I_fused_tas) (fun s => s |> setz T_arsp_fuse (now i) |> setb F_fuse_aspd true)) s.
Definition controlBetaFusion (p : params) (i : inp) s :=
  if_ (negb (gb s L_using_synthetic_position) && timed_out i (gz s T_beta_fuse) (p_beta_avg_us p)
       && gb s F_fuse_beta && gb s F_in_air)
      (fun s => s |> if_ (negb (gb s F_wind)) (fun s => s |> setb F_wind true |> setz T_beta_fuse (now i))
                  |> if_ (ib i I_fused_beta) (setz T_beta_fuse (now i))) s.
Definition controlDragFusion (p : params) (i : inp) s :=
  if_ (use_drag p && negb (gb s L_using_synthetic_position) && gb s F_in_air
       && negb (gb s L_mag_inhibit_yaw_reset_req) && negb (gb s F_wind)) (setb F_wind true) s.

(** *** controlHeightFusion 958-1171 *)
(** checkRangeAidSuitability 1173-1199 *)
Definition checkRangeAidSuitability (i : inp) s :=
  let hys := gb s L_is_range_aid_suitable in
  s |> setb L_is_range_aid_suitable
    (gb s F_in_air && ib i I_rng_healthy && ib i I_terrain_valid
     && (if hys then ib i I_range_in_range_hi else ib i I_range_in_range_lo)
     && (if hys then ib i I_hagl_stable_hi else ib i I_hagl_stable_lo)
     && (if aiding_active s then (if hys then ib i I_slow_hi else ib i I_slow_lo) else true)).
(** 964-1080: the source selection; the boolean is fuse_height *)
Definition hgtBaroMode (i : inp) (aid : bool) s : bool * st :=
  if aid && ib i I_rng_data_healthy then (true, setControlRangeHeight s)
  else if negb aid && ib i I_baro_ready && negb (gb s L_baro_hgt_faulty) then (true, startBaroHgtFusion i s)
  else (gb s F_gps_hgt && ib i I_gps_ready && negb (gb s L_gps_hgt_intermittent), s).
Definition hgtRangeMode (i : inp) s : bool * st :=
  if ib i I_rng_data_healthy then (true, setControlRangeHeight s)
  else (gb s F_baro_hgt && ib i I_baro_ready && negb (gb s L_baro_hgt_faulty), s).
Definition hgtGpsMode (i : inp) (aid : bool) s : bool * st :=
  let s :=
    if negb (gb s L_prev_rng_hgt) && aid && ib i I_rng_data_healthy then setControlRangeHeight s
    else if gb s L_prev_rng_hgt && negb aid then
      if negb (gb s L_gps_hgt_intermittent) && ib i I_gps_checks_passed then startGpsHgtFusion s
      else if negb (gb s L_baro_hgt_faulty) then startBaroHgtFusion i s else s
    else if gb s F_baro_hgt && negb aid && negb (gb s L_gps_hgt_intermittent) && ib i I_gps_checks_passed
    then startGpsHgtFusion s else s in
  ((gb s F_gps_hgt && ib i I_gps_ready) || (gb s F_rng_hgt && ib i I_rng_data_healthy)
   || (gb s F_baro_hgt && ib i I_baro_ready && negb (gb s L_baro_hgt_faulty)), s).
Definition hgtEvMode (i : inp) s : bool * st :=
  let start := negb (gb s F_ev_hgt) && recent i (iz i J_ext_vision) 400000 in
  let s := if_ start setControlEVHeight s in
  (start || (gb s F_baro_hgt && ib i I_baro_ready && negb (gb s L_baro_hgt_faulty)) || gb s F_ev_hgt, s).
Definition hgtSelect (p : params) (i : inp) s : bool * st :=
  let aid := (p_range_aid p =? 1) && gb s L_is_range_aid_suitable in
  if p_vdist p =? VDIST_RANGE then hgtRangeMode i s
  else if p_vdist p =? VDIST_GPS then hgtGpsMode i aid s
  else if p_vdist p =? VDIST_EV then hgtEvMode i s
  else hgtBaroMode i aid s.
(** 1084-1171 *)
Definition controlHeightFusion (p : params) (i : inp) s :=
  let s := checkRangeAidSuitability i s in
  let r := hgtSelect p i s in
  let s := snd r in
  let ground_bypass := gb s F_rng_hgt && timed_out i (gz s T_hgt_fuse) 400000 && negb (ib i I_rng_data_healthy)
                       && ib i I_rng_regular && negb (gb s F_in_air) in
  if_ ((fst r || ground_bypass) && (gb s F_baro_hgt || gb s F_gps_hgt || gb s F_rng_hgt || gb s F_ev_hgt))
      (fuseVertPos i (ib i I_pass_hgt)) s.

(** *** controlExternalVisionFusion 183-343 *)
(** 201-226: mode selection *)
Definition evSelect (p : params) (i : inp) s :=
  let rec_ := recent i (iz i J_ext_vision) 400000 in
  let s := if_ (gb s F_tilt_align && gb s F_yaw_align && rec_)
     (fun s => s |> if_ (use_evpos p && negb (gb s F_ev_pos)) startEvPosFusion
                 |> if_ (use_evvel p && negb (gb s F_ev_vel)) startEvVelFusion) s in
  if_ (negb (gb s F_gps) && use_evyaw p && negb (gb s F_ev_yaw) && gb s F_tilt_align && rec_) startEvYawFusion s.
(** 231-300: position *)
Definition evPos (p : params) (i : inp) s :=
  let s := s |> setb L_fuse_hpos_as_odom (use_gps p) in
  let s := if gb s L_fuse_hpos_as_odom then s |> setb L_hpos_prev_available true
           else if_ (timed_out i (gz s T_hor_pos_fuse) (p_reset_timeout p)) resetHorizontalPosition s in
  fuseHorPos i (ib i I_pass_ev_hpos) s.
(** 303-327: velocity *)
Definition evVel (i : inp) s := s |> fuseHorVel i (ib i I_pass_ev_hvel) |> fuseVertVel i (ib i I_pass_ev_vvel).
Definition controlExternalVisionFusion (p : params) (i : inp) s :=
  if ib i I_ev_ready then
    let s := evSelect p i s in
    let s := if_ (gb s F_ev_pos) (evPos p i) s in
    if_ (gb s F_ev_vel) (evVel i) s
  else if_ ((gb s F_ev_pos || gb s F_ev_vel || gb s F_ev_yaw) && timed_out i (iz i J_ext_vision) (p_reset_timeout p))
           stopEvFusion s.

(** controlAuxVelFusion 1337-1357 *)
Definition controlAuxVelFusion (i : inp) s :=
  if_ (ib i I_aux_ready && aiding_active s) (fuseHorVel i (ib i I_pass_aux)) s.

(** controlFakePosFusion 1281-1335 *)
Definition fakePos (i : inp) s :=
  let s := if_ (timed_out i (gz s T_fake_pos) 400000)
               (fun s => s |> resetHorizontalPosition |> setb L_fuse_hpos_as_odom false) s in
  s |> setz T_fake_pos (now i) |> fuseHorPos i (ib i I_pass_fake).
Definition controlFakePosFusion (i : inp) s :=
  if negb (aiding_active s) && negb (gb s F_fuse_aspd && gb s F_fuse_beta) then
    let s := s |> setb L_using_synthetic_position true in
    if_ (timed_out i (gz s T_fake_pos) 200000) (fakePos i) s
  else s |> setb L_using_synthetic_position false.

(** update_deadreckoning_status, ekf_helper.cpp 1003-1026 *)
Definition velPosAiding (p : params) (i : inp) s : bool :=
  (gb s F_gps || gb s F_ev_pos || gb s F_ev_vel)
  && (recent i (gz s T_hor_pos_fuse) (p_no_aid_timeout p) || recent i (gz s T_hor_vel_fuse) (p_no_aid_timeout p)
      || recent i (gz s T_delpos_fuse) (p_no_aid_timeout p)).
Definition optFlowAiding (p : params) (i : inp) s : bool :=
  gb s F_opt_flow && recent i (gz s T_of_fuse) (p_no_aid_timeout p).
Definition airDataAiding (p : params) (i : inp) s : bool :=
  gb s F_wind && recent i (gz s T_arsp_fuse) (p_no_aid_timeout p) && recent i (gz s T_beta_fuse) (p_no_aid_timeout p).
Definition update_deadreckoning_status (p : params) (i : inp) s :=
  let v := velPosAiding p i s in let o := optFlowAiding p i s in let a := airDataAiding p i s in
  let s := s |> setb L_is_wind_dead_reckoning (negb v && negb o && a) |> setb L_is_dead_reckoning (negb v && negb o && negb a) in
  let s := if_ (negb (gb s L_is_dead_reckoning)) (setz T_last_aiding (sub64 (now i) (p_no_aid_timeout p))) s in
  s |> setb L_deadreckon_time_exceeded
         ((gz s T_last_aiding =? 0) || timed_out i (gz s T_last_aiding) (u64 (p_valid_timeout p))).

(** controlFusionModes 46-181 *)
Definition controlFusionModes (p : params) (i : inp) (s : st) : st :=
  s |> cfm_tilt p i |> cfm_data p i
    |> controlHeightSensorTimeouts p i |> controlMagFusion p i |> controlOpticalFlowFusion p i |> controlGpsFusion p i
    |> controlAirDataFusion p i |> controlBetaFusion p i |> controlDragFusion p i |> controlHeightFusion p i
    |> controlExternalVisionFusion p i |> controlAuxVelFusion i |> controlFakePosFusion i
    |> update_deadreckoning_status p i.

(** *** Life cycle and API *)
(** Default member initialisers (ekf.h 333-540) and [Ekf::reset] (ekf.cpp 83-84: both status words are zero).  The fields
    without initialiser in ekf.h (_vert_pos_fuse_attempt_time_us, _vert_vel_fuse_time_us) are taken as zero. *)
Definition st0 : st := mkst (fun _ => false) (fun _ => 0) [].
(** Ekf::initialiseFilter 187-232: last part, executed once when enough samples were accumulated and the tilt is
    initialised; [setControlBaroHeight] (line 198) may already have been executed by an earlier failing attempt *)
Definition initAttempt (s : st) : st := setControlBaroHeight s.
Definition initialiseFilter (p : params) (i : inp) (s : st) : st :=
  s |> setControlBaroHeight |> alignYawToMag p i
    |> setz T_hgt_fuse (now i) |> setz T_hor_pos_fuse (now i) |> setz T_delpos_fuse (now i)
    |> setz T_hor_vel_fuse (now i) |> setz T_of_fuse (now i).
(** Calls of the interface between two updates (estimator_interface.h 96-131, estimator_interface.cpp 68, ekf.h
    requestEmergencyNavReset) *)
Inductive api :=
| SetInAir (v : bool) (t : Z) | SetFixedWing (v : bool) | SetFuseBeta (v : bool) | SetGndEffect (v : bool) (t : Z)
| SetAtRest (v : bool) | RequestYawReset.
Definition api_step (a : api) (s : st) : st :=
  match a with
  | SetInAir v t => s |> setz (if v then T_in_air else T_on_ground) t |> setb F_in_air v
  | SetFixedWing v => s |> setb F_fixed_wing v
  | SetFuseBeta v => s |> setb F_fuse_beta (v && gb s F_in_air)
  | SetGndEffect v t => s |> setb F_gnd_effect v |> setz T_gnd_effect_on t
  | SetAtRest v => s |> setb F_vehicle_at_rest v
  | RequestYawReset => s |> setb L_do_ekfgsf_yaw_reset true
  end.

(** the bits of the status word (common.h 440-473) *)
Definition status_bit (k : bk) : bool :=
  match k with
  | F_tilt_align | F_yaw_align | F_gps | F_opt_flow | F_mag_hdg | F_mag_3D | F_mag_dec | F_in_air | F_wind
  | F_baro_hgt | F_rng_hgt | F_gps_hgt | F_ev_pos | F_ev_yaw | F_ev_hgt | F_fuse_beta | F_mag_field_disturbed
  | F_fixed_wing | F_mag_fault | F_fuse_aspd | F_gnd_effect | F_gps_yaw | F_mag_aligned_in_flight | F_ev_vel
  | F_synthetic_mag_z | F_vehicle_at_rest | F_bad_acc_vertical | L_prev_rng_hgt | L_prev_gps_hgt => true
  | _ => false
  end.
(** Ekf::init called again: Ekf::reset, ekf.cpp 54-99.  Of the members of this model it clears the two status words
    (83-84); every latched boolean, time stamp and counter keeps its value.  The members _NED_origin_initialised,
    _gps_speed_valid, _filter_initialised are inputs or steps of this model. *)
Definition reinit (s : st) : st := mkst (fun k => if status_bit k then false else gb s k) (gz s) (gsf s).
(** One step of an execution: an interface call, a failing initialisation attempt, the initialisation, a filter
    update, or a re-initialisation; parameters and inputs may be different at every step. *)
Inductive step := Api (a : api) | InitTry | Init (p : params) (i : inp) | Update (p : params) (i : inp) | Reinit.
Definition do_step (e : step) (s : st) : st :=
  match e with
  | Api a => api_step a s
  | InitTry => initAttempt s
  | Init p i => initialiseFilter p i s
  | Update p i => controlFusionModes p i s
  | Reinit => reinit s
  end.
Fixpoint run (l : list step) (s : st) : st := match l with [] => s | e :: l => run l (do_step e s) end.
Definition reachable (s : st) : Prop := exists l, s = run l st0.

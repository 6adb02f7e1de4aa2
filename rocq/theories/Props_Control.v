(** * Properties C04, C14-C17, C25, C27-C29, C42-C47: the fusion-mode state machine *)
Require Import ZArith Bool List Lia.
Require Import Verif.CBase Verif.GpsModel Verif.RingBufferModel Verif.RingBufferSpec Verif.RingBufferProofs Verif.RingBufferHistory.
Require Import Verif.ControlModel Verif.ControlSpec Verif.ControlTac Verif.ControlProofs Verif.ControlProofs2 Verif.ControlProofs3 Verif.ControlProofs4.
Import ListNotations.
Local Open Scope Z_scope.

(** *** Concrete executions used as witnesses *)
Definition ik_eq_dec (a b : ik) : {a = b} + {a <> b}. Proof. decide equality. Defined.
Definition jk_eq_dec (a b : jk) : {a = b} + {a <> b}. Proof. decide equality. Defined.
(** the inputs that are true, and the non-zero times *)
Definition mk (bs : list ik) (zs : list (jk * Z)) : inp :=
  mkinp (fun k => existsb (fun j => if ik_eq_dec j k then true else false) bs)
        (fun k => fold_right (fun e z => if jk_eq_dec (fst e) k then snd e else z) 0 zs).
(** defaults of EKF/common.h: GPS + optical flow + EV + GPS yaw as given by [mode], height source [vd], mag type [mt] *)
Definition par (mode vd mt : Z) : params :=
  {| p_fusion_mode := mode; p_vdist := vd; p_mag_type := mt; p_range_aid := 0; p_mag_decl_source := 7;
     p_reset_timeout := 7000000; p_no_aid_timeout := 1000000; p_valid_timeout := 5000000; p_gsf_delay := 1000000; p_gsf_limit := 3;
     p_bad_acc_delay := 4500000; p_beta_avg_us := 100000; p_check_mag_strength := false; p_synth_mag_z := false |}.
Definition sec (t : Z) : Z := t * 1000000.
(** all time stamps equal to [t] seconds unless overridden *)
Definition at_ (t : Z) (bs : list ik) (over : list (jk * Z)) : inp :=
  mk bs (over ++ [(J_now, sec t); (J_imu, sec t); (J_baro_newest, sec t); (J_gps_newest, sec t); (J_gps_time, sec t);
                  (J_flow_time, sec t); (J_hagl_fuse, sec t); (J_gps_pass, sec t); (J_gps_fail, sec 1)]).
Definition good : list ik :=
  [I_tilt_var_ok; I_gps_ready; I_mag_ready; I_baro_ready; I_flow_pop; I_flow_all_good; I_pass_flow; I_ned_origin;
   I_gps_checks_passed; I_terrain_valid; I_pass_gps_hvel; I_pass_gps_vvel; I_pass_gps_hpos; I_pass_hgt].
(** GPS (bit 0) and flow (bit 1) aiding, GPS height *)
Definition flight : list step :=
  [Init (par 3 VDIST_GPS MAG_AUTO) (at_ 10 good []); Api (SetInAir true (sec 10))]
  ++ map (fun t => Update (par 3 VDIST_GPS MAG_AUTO) (at_ t good [])) [11; 12; 13].

(** ** C14 *)
Theorem C14_at_most_one_height_source : forall s, reachable s -> count (height_sources s) <= 1.
Proof. exact one_height_source. Qed.
Example C14_nontrivial : height_sources (run (firstn 1 flight) st0) = [true; false; false; false]
  /\ height_sources (run flight st0) = [false; true; false; false].
Proof. vm_compute. auto. Qed.

(** ** C15: the full property fails.  With GPS as primary height source and range aid off, once no source is active no
    update can activate one, whatever the sensors deliver ... *)
Theorem C15_gps_mode_never_restores_refuted : forall l s,
  Forall (fun e => match e with Init _ _ | InitTry => False | _ => True end) l ->
  updates (fun p _ => p_vdist p = VDIST_GPS /\ p_range_aid p <> 1) l ->
  count (height_sources s) = 0 -> count (height_sources (run l s)) = 0.
Proof. exact gps_mode_stuck. Qed.
(** ... and such a state is reached by a gap of more than one second in the GPS data during a flow-aided flight. *)
Definition gap : list step := [Update (par 3 VDIST_GPS MAG_AUTO) (at_ 15 (remove ik_eq_dec I_gps_ready good) [])].
Theorem C15_no_height_source_reachable_refuted :
  let s := run (flight ++ gap) st0 in
  reachable s /\ count (height_sources s) = 0 /\ gb s F_opt_flow = true /\
  (** baro and GPS good again: still no height source *)
  forall t : Z, count (height_sources (run [Update (par 3 VDIST_GPS MAG_AUTO) (at_ t good [])] s)) = 0.
Proof.
  cbv zeta. split; [exists (flight ++ gap); reflexivity|]. split; [vm_compute; reflexivity|]. split; [vm_compute; reflexivity|].
  intros t. apply gps_mode_stuck; [repeat constructor| |vm_compute; reflexivity].
  constructor; [|constructor]. split; [reflexivity|discriminate].
Qed.
(** In the other modes the source is restored in one update. *)
Theorem C15_baro_mode_restores : forall p i s, (p_vdist p = 0 \/ p_vdist p > 3) -> p_range_aid p <> 1 ->
  is_recent (iz i J_now) (iz i J_baro_newest) 400000 = true -> ib i I_baro_ready = true ->
  count (height_sources s) = 0 -> gb (controlFusionModes p i s) F_baro_hgt = true.
Proof. exact baro_mode_restores. Qed.
Theorem C15_range_mode_restores : forall p i s, p_vdist p = VDIST_RANGE -> ib i I_rng_data_healthy = true ->
  gb (controlFusionModes p i s) F_rng_hgt = true.
Proof. exact range_mode_restores. Qed.
Theorem C15_ev_mode_restores : forall p i s, p_vdist p = VDIST_EV ->
  is_recent (iz i J_now) (iz i J_ext_vision) 400000 = true -> gb (controlFusionModes p i s) F_ev_hgt = true.
Proof. exact ev_mode_restores. Qed.
Example C15_restores_nontrivial :
  let s := run (flight ++ gap) st0 in
  height_sources (controlFusionModes (par 3 0 MAG_AUTO) (at_ 16 good []) s) = [true; false; false; false] /\
  height_sources (controlFusionModes (par 3 2 MAG_AUTO) (at_ 16 (I_rng_data_healthy :: good) []) s) = [false; false; true; false].
Proof. vm_compute. auto. Qed.

(** ** C16 *)
Theorem C16_mag_modes_exclusive : forall s, reachable s ->
  count [gb s F_mag_hdg; gb s F_mag_3D] <= 1 /\ (other_yaw_on s = true -> mag_on s = false).
Proof. exact yaw_source_invariant. Qed.
(** all four exclusive unless both external-vision yaw and GPS yaw are enabled *)
Theorem C16_at_most_one_yaw_source : forall l,
  updates (fun p _ => use_evyaw p = false) l \/ updates (fun p _ => use_gpsyaw p = false) l ->
  let s := run l st0 in count [gb s F_mag_hdg; gb s F_mag_3D; gb s F_gps_yaw; gb s F_ev_yaw] <= 1.
Proof. exact one_yaw_source. Qed.
(** with both enabled (bits 4 and 7) and no GPS position aiding the two run together *)
Definition two_yaw : list step :=
  [Init (par 144 0 MAG_AUTO) (at_ 10 good []);
   Update (par 144 0 MAG_AUTO) (at_ 11 ([I_gps_yaw_finite; I_gps_ant_ok; I_ev_ready] ++ good) [(J_ext_vision, sec 11)])].
Theorem C16_two_yaw_sources_refuted : exists s, reachable s /\ gb s F_gps_yaw = true /\ gb s F_ev_yaw = true.
Proof. exists (run two_yaw st0). split; [exists two_yaw; reflexivity|]. vm_compute. auto. Qed.
Example C16_nontrivial : mag_on (run flight st0) = true. Proof. vm_compute. reflexivity. Qed.

(** ** C17 *)
Theorem C17_fault_stops_mag : forall p i s, p_mag_type p < MAG_NONE -> gb s F_mag_fault = true ->
  mag_on (controlFusionModes p i s) = false.
Proof. exact mag_fault_stops. Qed.
Theorem C17_fault_latched : forall l s, no_reinit l -> gb s F_mag_fault = true -> gb (run l s) F_mag_fault = true.
Proof. exact mag_fault_latched. Qed.
Theorem C17_disabled_never_starts : forall l, updates (fun p _ => p_mag_type p >= MAG_NONE) l -> mag_on (run l st0) = false.
Proof. exact mag_disabled_never_starts. Qed.
Theorem C17_start_conditions : forall p i s, mag_on s = false ->
  (p_mag_type p >= MAG_NONE \/ ib i I_mag_ready = false \/ gb s F_mag_fault = true) ->
  mag_on (controlFusionModes p i s) = false.
Proof. exact nomag_stays. Qed.
Theorem C17_auto_3d_conditions : forall p i s, (p_mag_type p = MAG_AUTO \/ p_mag_type p = 3) ->
  ib i I_mag_ready = true -> noOtherYaw s = true ->
  let s' := controlMagFusion p i s in
  gb s' F_mag_3D = true ->
  gb s F_in_air = true /\ gb s' F_mag_aligned_in_flight = true /\
  0 <= sub64 (iz i J_imu) (gz s' T_mov_3d_mag_suitable) < 2000000 /\ gb s F_mag_fault = false /\ gb s F_yaw_align = true.
Proof. exact auto_3d_conditions. Qed.
(** 3D fusion is really entered: above the anomalies, with sufficient yaw rate *)
Definition flight3d : list step := flight ++
  [Update (par 3 VDIST_GPS MAG_AUTO) (at_ 14 ([I_above_anomalies; I_yaw_rate_gt_gate; I_accel_gt_gate; I_accel_gt_2gate] ++ good) [])].
Example C17_nontrivial : gb (run flight3d st0) F_mag_3D = true /\ gb (run flight3d st0) F_mag_fault = false.
Proof. vm_compute. auto. Qed.
(** the magnetometer is not switched off when its use is disabled by parameter in flight *)
Theorem C17_disabled_in_flight_refuted : exists l p i,
  p_mag_type p = MAG_NONE /\ gb (run l st0) F_mag_3D = true /\ gb (controlFusionModes p i (run l st0)) F_mag_3D = true.
Proof. exists flight3d, (par 3 VDIST_GPS MAG_NONE), (at_ 15 good []). vm_compute. auto. Qed.
(** the declination-fusion status bit survives the end of 3D fusion *)
Theorem C17_mag_dec_without_3d_refuted : exists l, gb (run l st0) F_mag_dec = true /\ mag_on (run l st0) = false.
Proof.
  exists (flight3d ++ [Api RequestYawReset; Update (par 3 VDIST_GPS MAG_AUTO) (at_ 15 (I_gsf_ok :: good) []);
                       Update (par 3 VDIST_GPS MAG_AUTO) (at_ 16 good [])]).
  vm_compute. auto.
Qed.

(** ** C27 *)
Theorem C27_clip_counter_range : forall s, reachable s -> 0 <= gz s N_clip_counter <= 100.
Proof. exact clip_counter_range. Qed.
Theorem C27_bad_acceleration_persists : forall p i s l, 0 <= iz i J_now -> iz i J_now + 20000000 < 2 ^ 64 ->
  gb s F_bad_acc_vertical = false -> gb (controlFusionModes p i s) F_bad_acc_vertical = true ->
  no_reinit l -> timed (iz i J_now) (iz i J_now + 10000000) l ->
  gb (run l (controlFusionModes p i s)) F_bad_acc_vertical = true.
Proof. exact bad_acc_persists. Qed.
(** the same from the time of the last of several detections ([T_bad_vert_accel], C27_detection_time) *)
Theorem C27_bad_acceleration_persists_from_last : forall l s t t1, 0 <= t -> t + 20000000 < 2 ^ 64 ->
  gb s F_bad_acc_vertical = true -> t <= gz s T_bad_vert_accel <= t1 -> t1 < t + 10000000 ->
  no_reinit l -> timed t1 (t + 10000000) l -> gb (run l s) F_bad_acc_vertical = true.
Proof. exact bad_acc_persists_from. Qed.
Theorem C27_cleared_only_after_ten_seconds : forall p i s,
  0 <= gz s T_bad_vert_accel -> 0 <= iz i J_now -> gz s T_bad_vert_accel + 10000000 < 2 ^ 64 -> iz i J_now + 10000000 < 2 ^ 64 ->
  gb s F_bad_acc_vertical = true -> gb (controlFusionModes p i s) F_bad_acc_vertical = false ->
  gz (controlFusionModes p i s) T_bad_vert_accel = gz s T_bad_vert_accel /\ gz s T_bad_vert_accel + 10000000 <= iz i J_now.
Proof. exact bad_acc_cleared. Qed.
(** baro height and GPS velocity both falling: detected; still reported 9 s later, cleared after 10 s *)
Definition baro_flight : list step :=
  [Init (par 3 0 MAG_AUTO) (at_ 10 good []); Api (SetInAir true (sec 10))]
  ++ map (fun t => Update (par 3 0 MAG_AUTO) (at_ t good [])) [11; 12; 13].
Definition falling : step := Update (par 3 0 MAG_AUTO) (at_ 13 ([I_vvel_gt_lim; I_vpos_pos] ++ good) []).
Example C27_nontrivial :
  let f t := gb (run (baro_flight ++ [falling; Update (par 3 0 MAG_AUTO) (at_ t good [])]) st0) F_bad_acc_vertical in
  gb (run baro_flight st0) F_bad_acc_vertical = false /\ f 22 = true /\ f 23 = false.
Proof. vm_compute. auto. Qed.

(** ** C28: resets to the EKF-GSF yaw are more than five seconds apart, and those performed while GPS aiding is active
    (emergency resets) number at most the configured limit (8-bit counter, hence limit <= 255). *)
Theorem C28_yaw_resets_limited : forall lim l, 0 <= lim <= 255 ->
  updates (fun p i => 0 <= iz i J_now < horizon /\ p_gsf_limit p <= lim) l ->
  spaced (gsf (run l st0)) /\ resets_in_gps_mode (run l st0) <= lim.
Proof. exact gsf_resets_limited. Qed.
Theorem C28_reset_needs_gps_and_convergence : forall p i s,
  ib i I_gps_ready = false \/ ib i I_gsf_ok = false -> gsf (controlFusionModes p i s) = gsf s.
Proof. exact gsf_frame. Qed.
(** eight requests, one per 6 s: three resets; a request 4 s after a reset is deferred *)
Definition req (t : Z) : list step :=
  [Update (par 3 0 MAG_AUTO) (at_ (t - 1) good []); Api RequestYawReset; Update (par 3 0 MAG_AUTO) (at_ t (I_gsf_ok :: good) [])].
Example C28_nontrivial :
  let ts l := map (fun e => (fst e / 1000000, snd e)) (gsf (run (baro_flight ++ flat_map req l) st0)) in
  ts [20; 24; 26; 32; 38; 44; 50; 56] = [(32, true); (26, true); (20, true)].
Proof. vm_compute. reflexivity. Qed.
(** before GPS aiding (alignment) the resets are not counted: the total is not bounded by the limit *)
Theorem C28_total_not_limited_refuted : exists l, updates (fun p i => 0 <= iz i J_now < horizon /\ p_gsf_limit p <= 3) l /\
  Z.of_nat (length (gsf (run l st0))) = 5.
Proof.
  exists (Init (par 3 0 MAG_NONE) (at_ 10 [] []) ::
    flat_map (fun t => [Api RequestYawReset; Update (par 3 0 MAG_NONE) (at_ t [I_gps_ready; I_gsf_ok] [])]) [20; 30; 40; 50; 60]).
  split; [|vm_compute; reflexivity]. repeat constructor; vm_compute; congruence.
Qed.

(** ** C29 *)
Theorem C29_dead_reckoning_flags : forall p i s, let s' := controlFusionModes p i s in
  let fresh k := is_recent (iz i J_now) (gz s' k) (p_no_aid_timeout p) in
  let velpos := (gb s' F_gps || gb s' F_ev_pos || gb s' F_ev_vel) && (fresh T_hor_pos_fuse || fresh T_hor_vel_fuse || fresh T_delpos_fuse) in
  let flow := gb s' F_opt_flow && fresh T_of_fuse in
  let air := gb s' F_wind && fresh T_arsp_fuse && fresh T_beta_fuse in
  gb s' L_is_wind_dead_reckoning = negb velpos && negb flow && air /\
  gb s' L_is_dead_reckoning = negb velpos && negb flow && negb air.
Proof. exact dead_reckoning_exact. Qed.
Theorem C29_dead_reckoning_timeout : forall p0 i0 s0 l p i, let s1 := controlFusionModes p0 i0 s0 in
  let s2 := controlFusionModes p i (run l s1) in
  gb s1 L_is_dead_reckoning = false -> always (fun s => gb s L_is_dead_reckoning = true) (l ++ [Update p i]) s1 ->
  0 <= p_no_aid_timeout p0 < iz i0 J_now -> iz i0 J_now < horizon -> 0 <= p_valid_timeout p < two32 ->
  gb s2 L_deadreckon_time_exceeded = (iz i0 J_now - p_no_aid_timeout p0 + p_valid_timeout p <? iz i J_now).
Proof. exact dead_reckoning_timeout. Qed.
Definition lost (t : Z) : step := Update (par 3 0 MAG_AUTO) (at_ t [I_baro_ready; I_pass_hgt] []).
Example C29_nontrivial :
  let f t := let s := run (baro_flight ++ map lost [15; 16; t]) st0 in (gb s L_is_dead_reckoning, gb s L_deadreckon_time_exceeded) in
  gb (run baro_flight st0) L_is_dead_reckoning = false /\ f 17 = (true, false) /\ f 18 = (true, true).
Proof. vm_compute. auto. Qed.

(** ** C42: GPS aiding starts only when its preconditions hold *)
Theorem C42_gps_start_conditions : forall p i s, let s' := controlFusionModes p i s in
  gb s F_gps = false -> gb s' F_gps = true ->
  ib i I_gps_ready = true /\ use_gps p = true /\ gb s' F_tilt_align = true /\ gb s' F_yaw_align = true /\
  ib i I_ned_origin = true /\ is_timed_out (iz i J_now) (iz i J_gps_fail) 5000000 = true.
Proof. exact gps_start_conditions. Qed.
Example C42_nontrivial : gb (run (firstn 2 flight) st0) F_gps = false /\ gb (run (firstn 3 flight) st0) F_gps = true.
Proof. vm_compute. auto. Qed.
Theorem C42_ev_yaw_start_conditions : forall p i s, let s' := controlFusionModes p i s in
  gb s F_ev_yaw = false -> gb s' F_ev_yaw = true ->
  ib i I_ev_ready = true /\ use_evyaw p = true /\ gb s' F_gps = false /\ gb s' F_tilt_align = true /\
  is_recent (iz i J_now) (iz i J_ext_vision) 400000 = true.
Proof. exact ev_yaw_start_conditions. Qed.

(** ** C43: sources that stop delivering are dropped *)
Theorem C43_gps_lost : forall p i s, let s' := controlFusionModes p i s in
  ib i I_gps_ready = false -> sub64 (iz i J_imu) (gz s T_gps_sample) > 10000000 -> gb s' F_gps = false.
Proof. exact gps_lost_stops. Qed.
Theorem C43_gps_lost_other_source : forall p i s, let s' := controlFusionModes p i s in
  ib i I_gps_ready = false -> sub64 (iz i J_imu) (gz s T_gps_sample) > 1000000 ->
  (gb s F_ev_pos = true \/ gb s F_ev_vel = true \/ (gb s F_fuse_aspd = true /\ gb s F_fuse_beta = true)) -> gb s' F_gps = false.
Proof. exact gps_lost_other_source_stops. Qed.
Theorem C43_gps_quality_lost_other_source : forall p i s, let s' := controlFusionModes p i s in
  ib i I_gps_ready = true -> is_timed_out (iz i J_now) (iz i J_gps_pass) 5000000 = true ->
  (gb s F_ev_pos = true \/ gb s F_ev_vel = true \/ (gb s F_fuse_aspd = true /\ gb s F_fuse_beta = true)) -> gb s' F_gps = false.
Proof. exact gps_quality_lost_stops. Qed.
Theorem C43_ev_lost : forall p i s, let s' := controlFusionModes p i s in
  ib i I_ev_ready = false -> is_timed_out (iz i J_now) (iz i J_ext_vision) (p_reset_timeout p) = true ->
  gb s' F_ev_pos = false /\ gb s' F_ev_vel = false /\ gb s' F_ev_yaw = false.
Proof. exact ev_lost_stops. Qed.
Theorem C43_flow_lost : forall p i s, let s' := controlFusionModes p i s in
  gb s L_flow_data_ready = false -> ib i I_flow_pop = false ->
  iz i J_imu > add64 (gz s T_flow_sample) 10000000 -> gb s' F_opt_flow = false.
Proof. exact flow_lost_stops. Qed.
Theorem C43_airspeed_recent : forall p i s, let s' := controlFusionModes p i s in
  0 <= iz i J_now < horizon -> gb s' F_fuse_aspd = true -> is_timed_out (iz i J_now) (gz s' T_arsp_fuse) 10000000 = false.
Proof. exact aspd_recent. Qed.
(** but GPS yaw without GPS aiding is never dropped: it stays the yaw source without any data *)
Theorem C43_gps_yaw_never_dropped_refuted : forall l s, no_reinit l -> updates (fun p i => ib i I_gps_ready = false) l ->
  gb s F_gps = false -> gb s F_gps_yaw = true -> gb (run l s) F_gps_yaw = true.
Proof. exact gps_yaw_stale. Qed.
Example C43_gps_yaw_witness : let s := run (firstn 1 two_yaw ++ [Update (par 128 0 MAG_AUTO) (at_ 11 ([I_gps_yaw_finite; I_gps_ant_ok] ++ good) [])]) st0 in
  gb s F_gps = false /\ gb s F_gps_yaw = true /\ mag_on s = false.
Proof. vm_compute. auto. Qed.
Example C43_nontrivial : let s := run flight st0 in
  gb s F_gps = true /\ gz s T_gps_sample = sec 13 /\
  gb (controlFusionModes (par 1 0 MAG_AUTO) (at_ 24 [] []) s) F_gps = false.
Proof. vm_compute. auto. Qed.

(** ** C44: a synthetic position is used exactly when there is no horizontal aiding, at most every 200 ms *)
Theorem C44_synthetic_position_iff_no_aiding : forall p i s, let s' := controlFusionModes p i s in
  gb s' L_using_synthetic_position = negb (horizontal_aiding s').
Proof. exact synthetic_iff_no_aiding. Qed.
Theorem C44_synthetic_position_rate : forall p i s, let s' := controlFusionModes p i s in
  gz s' T_fake_pos <> gz s T_fake_pos ->
  gz s' T_fake_pos = iz i J_now /\ is_timed_out (iz i J_now) (gz s T_fake_pos) 200000 = true /\ horizontal_aiding s' = false.
Proof. exact fake_pos_rate. Qed.
Example C44_nontrivial :
  gb (run flight st0) L_using_synthetic_position = false /\
  let s := run [Init (par 3 0 MAG_AUTO) (at_ 10 [] []); Update (par 3 0 MAG_AUTO) (at_ 11 [] [])] st0 in
  gb s L_using_synthetic_position = true /\ gz s T_fake_pos = sec 11.
Proof. vm_compute. auto. Qed.

(** ** C45: disabling a source by parameter stops it *)
Theorem C45_gps_disabled : forall p i s, ib i I_gps_ready = true -> use_gps p = false -> gb (controlFusionModes p i s) F_gps = false.
Proof. exact gps_disabled_stops. Qed.
Theorem C45_flow_disabled : forall p i s, use_of p = false -> gb (controlFusionModes p i s) F_opt_flow = true ->
  gb s F_opt_flow = true /\ gb (controlFusionModes p i s) L_flow_data_ready = false.
Proof. exact flow_disabled_stops. Qed.
(** not so for external vision position *)
Theorem C45_ev_disabled_refuted : forall p i s, ib i I_ev_ready = true -> gb s F_ev_pos = true ->
  gb (controlFusionModes p i s) F_ev_pos = true.
Proof. exact ev_disabled_not_stopped. Qed.
Example C45_ev_witness : gb (run [Init (par 8 0 MAG_AUTO) (at_ 10 good []);
   Update (par 8 0 MAG_AUTO) (at_ 11 (I_ev_ready :: good) [(J_ext_vision, sec 11)]);
   Update (par 0 0 MAG_AUTO) (at_ 12 (I_ev_ready :: good) [(J_ext_vision, sec 12)])] st0) F_ev_pos = true.
Proof. vm_compute. reflexivity. Qed.

(** ** C46: alignment and vehicle status *)
Theorem C46_tilt_alignment_kept : forall l s, no_reinit l -> gb s F_tilt_align = true -> gb (run l s) F_tilt_align = true.
Proof. exact tilt_align_stays. Qed.
Theorem C46_yaw_alignment_kept : forall l s, no_reinit l -> updates (fun p _ => 0 <= p_mag_type p <= 2) l ->
  gb s F_yaw_align = true -> gb (run l s) F_yaw_align = true.
Proof. exact yaw_align_stays. Qed.
(** with the indoor magnetometer setting an aligned yaw is un-aligned by the attempt to start GPS aiding *)
Theorem C46_yaw_alignment_lost_indoor_refuted : exists l p i, p_mag_type p = MAG_INDOOR /\
  gb (run l st0) F_yaw_align = true /\ gb (controlFusionModes p i (run l st0)) F_yaw_align = false.
Proof.
  exists [Init (par 19 0 MAG_INDOOR) (at_ 10 [] []);
          Update (par 16 0 MAG_INDOOR) (at_ 11 [I_tilt_var_ok; I_ev_ready] [(J_ext_vision, sec 11)])].
  exists (par 19 0 MAG_INDOOR), (at_ 12 good []). vm_compute. auto.
Qed.
Theorem C46_vehicle_flags_only_by_interface : forall p i s, let s' := controlFusionModes p i s in
  gb s' F_in_air = gb s F_in_air /\ gb s' F_fixed_wing = gb s F_fixed_wing /\ gb s' F_fuse_beta = gb s F_fuse_beta /\
  gb s' F_vehicle_at_rest = gb s F_vehicle_at_rest.
Proof. exact vehicle_flags_kept. Qed.
(** the GPS yaw fault survives even a re-initialisation *)
Theorem C46_gps_yaw_fault_latched : forall l s, gb s L_is_gps_yaw_faulty = true -> gb (run l s) L_is_gps_yaw_faulty = true.
Proof. exact gps_yaw_fault_latched. Qed.

(** ** C25 *)
Theorem C25_recent_timed_out_exclusive : forall now ts d, is_recent now ts d = true -> is_timed_out now ts d = false.
Proof. intros now ts d. unfold is_recent, is_timed_out. rewrite Z.gtb_lt. intros H. apply Z.ltb_ge. lia. Qed.
Theorem C25_trichotomy : forall now ts d, 0 <= ts -> 0 <= d -> ts + d < 2 ^ 64 ->
  (is_recent now ts d = true <-> now - ts < d) /\ (is_timed_out now ts d = true <-> now - ts > d) /\
  (is_recent now ts d = false /\ is_timed_out now ts d = false <-> now - ts = d).
Proof.
  intros now ts d H1 H2 H3. unfold is_recent, is_timed_out. rewrite add64_small by lia.
  rewrite <- !not_true_iff_false, Z.gtb_lt, Z.ltb_lt. lia.
Qed.
Theorem C25_monotone : forall now now' ts d, now <= now' ->
  (is_timed_out now ts d = true -> is_timed_out now' ts d = true) /\ (is_recent now' ts d = true -> is_recent now ts d = true).
Proof. intros now now' ts d H. unfold is_recent, is_timed_out. rewrite !Z.gtb_lt, !Z.ltb_lt. lia. Qed.
(** close to the wrap-around a time stamp in the future is reported as timed out: the hypothesis is needed *)
Example C25_wrap : is_timed_out 5 (2 ^ 64 - 2) 2 = true /\ is_timed_out 5 (2 ^ 64 - 3) 2 = false.
Proof. vm_compute. auto. Qed.

(** ** C04: the intermittent-height test reads the newest slot of the delay buffer. *)
Section C04.
Context {A : Type} (z : A).
(** positive part: as long as some delivered sample has not been consumed, the time stamp that is tested is that of the
    newest delivered sample, so recent data are never flagged *)
Theorem C04_unconsumed_data_not_flagged : forall n (b : ring A) os p i s x, (n < 256)%nat -> allocate z n = Some b -> Forall op_ok os ->
  hd_error (fst (q_run n [] os)) = Some x ->
  iz i J_baro_newest = time_us (get_newest z (fst (RingBufferModel.run z b os))) ->
  is_recent (iz i J_now) (time_us x) 400000 = true ->
  gb (cfm_data p i s) L_baro_hgt_faulty = false.
Proof.
  intros n b os p i s x Hn Hb Ho Hx Hi Hr.
  destruct (ends_of_queue z n b os Hn Hb Ho) as (_ & _ & H).
  destruct H as [H _]. { intros E. rewrite E in Hx. discriminate. }
  rewrite Hx in H. injection H as H.
  assert (E : is_recent (iz i J_now) (iz i J_baro_newest) 400000 = true) by (rewrite Hi, <- H; exact Hr).
  unfold cfm_data, recent. rewrite E. cbv zeta.
  match goal with |- context [setz T_prev_gps ?v ?x] => assert (X : bis L_baro_hgt_faulty false (setz T_prev_gps v x)) by reflexivity;
    generalize dependent (setz T_prev_gps v x) end. intros s1 X.
  match goal with |- gb ?x ?k = false => change (bis k false x) end. pres (D_bis L_baro_hgt_faulty false).
Qed.
End C04.
(** violation: a sample 20 ms old that has just been consumed is reported as missing data, although the next one is not
    due yet: at time 1.02 s with a sample pushed at 1.0 s and consumed at 1.01 s *)
Definition c04_buf : ring Z := {| buffer := [{| time_us := 0; payload := 0 |}]; head := 0; tail := 0; size := 1; first_write := true |}.
Theorem C04_consumed_sample_flagged_refuted :
  let os := [Push {| time_us := 1000000; payload := 7 |}; Pop 1010000] in
  let t := time_us (get_newest 0 (fst (RingBufferModel.run 0 c04_buf os))) in
  allocate 0 1 = Some c04_buf /\ snd (RingBufferModel.run 0 c04_buf os) = [ODone; OPopped {| time_us := 1000000; payload := 7 |}] /\
  t = 0 /\ forall p s, gb (cfm_data p (mk [] [(J_now, 1020000); (J_imu, 1020000); (J_baro_newest, t)]) s) L_baro_hgt_faulty = true.
Proof.
  cbv zeta. split; [reflexivity|]. split; [reflexivity|]. split; [reflexivity|]. intros p s.
  match goal with |- context [(J_baro_newest, ?t)] => change t with 0 end.
  match goal with |- gb ?x ?k = true => change (bis k true x) end. unfold cfm_data. cbv zeta.
  match goal with |- context [setz T_prev_gps ?v ?x] => assert (X : bis L_baro_hgt_faulty true (setz T_prev_gps v x)) by reflexivity;
    generalize dependent (setz T_prev_gps v x) end. intros s1 X. pres (D_bis L_baro_hgt_faulty true).
Qed.
(** and then the baro is not used as height source in that cycle even if it delivers: C15's hypothesis on the time stamp *)

Print Assumptions C14_at_most_one_height_source.
Print Assumptions C16_at_most_one_yaw_source.
Print Assumptions C28_yaw_resets_limited.
Print Assumptions C29_dead_reckoning_timeout.

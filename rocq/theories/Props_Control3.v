(** * Properties C17, C44 (continued), C66 (vision velocity), C67 (range aid) and C68 (optical flow) *)
Require Import ZArith Bool List Lia.
Require Import Verif.CBase Verif.GpsModel Verif.ControlModel Verif.ControlSpec Verif.ControlTac Verif.ControlProofs Verif.ControlProofs2 Verif.ControlProofs3 Verif.ControlProofs4
  Verif.ControlProofs5 Verif.ControlProofs6 Verif.ControlProofs7 Verif.ControlProofs8 Verif.ControlProofs9 Verif.ControlProofs10 Verif.ControlProofs11 Verif.ControlProofs12 Verif.Props_Control Verif.Props_Control2.
Import ListNotations.
Local Open Scope Z_scope.

(** ** C17: a magnetometer fault also forces the declination covariances to be reset before the magnetometer could be used again *)
Theorem C17_fault_resets_declination : forall p i s, p_mag_type p < MAG_NONE -> gb s F_mag_fault = true -> gb (controlFusionModes p i s) L_mag_decl_cov_reset = false.
Proof. exact mag_fault_decl. Qed.

(** ** C44: synthetic position *)
Theorem C44_synthetic_position_applied : forall p i s, let s' := controlFusionModes p i s in
  gb s' L_using_synthetic_position = true -> is_timed_out (iz i J_now) (gz s T_fake_pos) 200000 = true ->
  gz s' T_fake_pos = iz i J_now /\
  (is_timed_out (iz i J_now) (gz s T_fake_pos) 400000 = true -> gb s' L_fuse_hpos_as_odom = false /\ gb s' L_hpos_prev_available = false).
Proof. exact fake_exact. Qed.
Theorem C44_synthetic_position_keeps_mode : forall p i s, let s' := controlFusionModes p i s in ib i I_ev_ready = false -> ib i I_gps_ready = false ->
  is_timed_out (iz i J_now) (gz s T_fake_pos) 400000 = false -> gb s' L_fuse_hpos_as_odom = gb s L_fuse_hpos_as_odom.
Proof. exact fake_keeps. Qed.
Example C44_applied_nontrivial : let s := run [Init (par 1 0 MAG_AUTO) (at_ 10 [] [])] st0 in let s' := controlFusionModes (par 1 0 MAG_AUTO) (at_ 12 [] []) s in
  gb s' L_using_synthetic_position = true /\ is_timed_out (sec 12) (gz s T_fake_pos) 200000 = true /\ gz s' T_fake_pos = sec 12.
Proof. vm_compute. repeat split; reflexivity. Qed.

(** ** C66: a usable vision velocity sample starts vision velocity aiding and, if it passes its gate, is fused *)
Theorem C66_vision_velocity : forall p i s, let s' := controlFusionModes p i s in 0 <= p_mag_type p <= 2 ->
  ib i I_ev_ready = true -> use_evvel p = true -> gb s F_tilt_align = true -> gb s F_yaw_align = true ->
  is_recent (iz i J_now) (iz i J_ext_vision) 400000 = true ->
  gb s' F_ev_vel = true /\ (ib i I_pass_ev_hvel = true -> gz s' T_hor_vel_fuse = iz i J_now).
Proof. intros p i s s' M R U T Y C. apply ev_vel_start; try assumption. apply preEv_yaw; assumption. Qed.
Example C66_velocity_nontrivial : let p := par 256 0 MAG_AUTO in let s := run [Init p (at_ 10 good []); Update p (at_ 11 good [])] st0 in
  let i := at_ 12 ([I_ev_ready; I_pass_ev_hvel] ++ good) [(J_ext_vision, sec 12); (J_ev_newest, sec 12)] in
  use_evvel p = true /\ gb s F_tilt_align = true /\ gb s F_yaw_align = true /\ is_recent (iz i J_now) (iz i J_ext_vision) 400000 = true /\
  gb s F_ev_vel = false /\ gb (controlFusionModes p i s) F_ev_vel = true.
Proof. vm_compute. repeat split; reflexivity. Qed.

(** ** C67: range aid *)
(** suitability: in the air, healthy range finder, valid terrain estimate, range, height uncertainty and (while aided) speed below limits
    that are wider once range aid is in use *)
Theorem C67_range_aid_suitable : forall p i s, let s' := controlFusionModes p i s in let used := gb s L_is_range_aid_suitable in
  let slow := if used then ib i I_slow_hi else ib i I_slow_lo in
  gb s' F_gps = true \/ slow = true ->
  gb s' L_is_range_aid_suitable =
    gb s F_in_air && ib i I_rng_healthy && ib i I_terrain_valid && (if used then ib i I_range_in_range_hi else ib i I_range_in_range_lo)
    && (if used then ib i I_hagl_stable_hi else ib i I_hagl_stable_lo) && slow.
Proof. exact aid_exact. Qed.
(** with the barometer as configured height source the range finder takes over exactly while range aid is enabled and suitable and it has data *)
Theorem C67_range_aid_selects_range : forall p i s, let s' := controlFusionModes p i s in (p_vdist p = 0 \/ p_vdist p > 3) ->
  let aid := (p_range_aid p =? 1) && gb s' L_is_range_aid_suitable in
  (gb s F_rng_hgt = false -> gb s' F_rng_hgt = true -> aid = true /\ ib i I_rng_data_healthy = true) /\
  (aid = true -> ib i I_rng_data_healthy = true -> gb s' F_rng_hgt = true) /\
  (aid = false -> ib i I_baro_ready = true -> gb s' L_baro_hgt_faulty = false -> gb s' F_baro_hgt = true).
Proof. exact aid_baro_mode. Qed.
Definition aid_par : params :=
  {| p_fusion_mode := 1; p_vdist := 0; p_mag_type := MAG_AUTO; p_range_aid := 1; p_mag_decl_source := 7;
     p_reset_timeout := 7000000; p_no_aid_timeout := 1000000; p_valid_timeout := 5000000; p_gsf_delay := 1000000; p_gsf_limit := 3;
     p_bad_acc_delay := 4500000; p_beta_avg_us := 100000; p_check_mag_strength := false; p_synth_mag_z := false |}.
Example C67_nontrivial : let s := run (gps_flight ++ []) st0 in
  let near := [I_rng_healthy; I_rng_data_healthy; I_terrain_valid; I_range_in_range_lo; I_range_in_range_hi; I_hagl_stable_lo; I_hagl_stable_hi; I_slow_lo; I_slow_hi; I_pass_hgt] in
  let mid := [I_rng_healthy; I_rng_data_healthy; I_terrain_valid; I_range_in_range_hi; I_hagl_stable_hi; I_slow_hi; I_pass_hgt] in
  let f t l := controlFusionModes aid_par (at_ t l []) in
  gb (f 14 mid s) F_rng_hgt = false /\ gb (f 14 near s) F_rng_hgt = true /\ gb (f 15 mid (f 14 near s)) F_rng_hgt = true /\
  gb (f 16 [I_baro_ready] (f 15 mid (f 14 near s))) F_baro_hgt = true.
Proof. vm_compute. repeat split; reflexivity. Qed.

(** ** C68: optical flow *)
(** a flow sample can be used: one is pending or new, and it passes all checks, or on the ground at least has its rotation compensated *)
Definition flow_usable (i : inp) (s : st) : bool :=
  (if gb s L_flow_data_ready && gb s F_opt_flow then true else ib i I_flow_pop)
  && (ib i I_flow_all_good || (negb (gb s F_in_air) && ib i I_flow_body_comp)).
(** without flow the position would drift *)
Definition flow_needed (i : inp) (s : st) : bool :=
  gb s L_is_dead_reckoning
  || (gb s F_opt_flow && negb (gb s F_gps || gb s F_ev_pos || gb s F_ev_vel || (gb s F_fuse_aspd && gb s F_fuse_beta)))
  || (gb s F_gps && (if gb s F_opt_flow then ib i I_gps_err_norm_07 else ib i I_gps_err_norm_10)).
(** flow must not be used: in the air over unknown terrain without need, on the ground with excessive motion in the last five seconds *)
Definition flow_unsuitable (i : inp) (s : st) : bool :=
  if gb s F_in_air then negb (ib i I_terrain_valid) && negb (flow_needed i s)
  else ib i I_motion_excessive || (iz i J_imu <? add64 (gz s T_bad_motion) 5000000).
Theorem C68_flow_aiding_exact : forall p i s, 0 <= iz i J_imu < horizon -> 0 <= p_mag_type p <= 2 ->
  gb s F_tilt_align = true -> gb s F_yaw_align = true -> flow_usable i s = true ->
  gb (controlFusionModes p i s) F_opt_flow = use_of p && negb (flow_unsuitable i s).
Proof.
  intros p i s H M T Y U. rewrite flow_flag; [|exact H|apply preFlow_tilt; exact T|apply preFlow_yaw; assumption|exact U].
  unfold flow_inhibited, flow_unsuitable, flow_required, flow_needed. destruct (gb s F_in_air); reflexivity.
Qed.
(** flow was fused only from a usable sample, with flow configured and active and (if it was active before) the terrain height updated in the last ten seconds and the gate passed *)
Theorem C68_flow_fused_only_if : forall p i s, let s' := controlFusionModes p i s in ib i I_gps_ready = false ->
  gz s' T_of_fuse <> gz s T_of_fuse ->
  gz s' T_of_fuse = iz i J_now /\ use_of p = true /\ gb s' F_opt_flow = true /\ flow_usable i s = true /\
  (gb s F_opt_flow = true -> is_recent (iz i J_now) (iz i J_hagl_fuse) 10000000 = true /\ ib i I_pass_flow = true).
Proof. exact flow_fused_fwd. Qed.
(** and a pending or new sample whose mid-point is behind the fusion horizon is fused under these conditions *)
Theorem C68_flow_fused_if : forall p i s, let s' := controlFusionModes p i s in ib i I_gps_ready = false ->
  gb s F_opt_flow = true -> gb s' F_opt_flow = true -> flow_usable i s = true ->
  iz i J_imu > sub64 (if gb s L_flow_data_ready then gz s T_flow_sample else iz i J_flow_time) (iz i J_flow_half_dt) -> is_recent (iz i J_now) (iz i J_hagl_fuse) 10000000 = true -> ib i I_pass_flow = true ->
  gz s' T_of_fuse = iz i J_now.
Proof. exact flow_fused_conv. Qed.
Definition flow_par : params := par 2 0 MAG_AUTO.
Definition flow_in : list ik := [I_tilt_var_ok; I_mag_ready; I_baro_ready; I_flow_pop; I_flow_all_good; I_pass_flow; I_terrain_valid; I_pass_hgt].
Definition flow_flight : list step := [Init flow_par (at_ 10 good []); Update flow_par (at_ 11 flow_in []); Api (SetInAir true (sec 12)); Update flow_par (at_ 12 flow_in [(J_flow_time, sec 12); (J_hagl_fuse, sec 12)])].
Example C68_nontrivial : let s := run flow_flight st0 in let i l := at_ 14 l [(J_flow_time, sec 13); (J_hagl_fuse, sec 13)] in
  gb s F_tilt_align = true /\ gb s F_yaw_align = true /\ gb s F_opt_flow = true /\ flow_usable (i flow_in) s = true /\
  gz s T_of_fuse = sec 12 /\ gz (controlFusionModes flow_par (i flow_in) s) T_of_fuse = sec 14 /\
  flow_unsuitable (i [I_flow_pop; I_flow_all_good]) s = false /\ flow_unsuitable (i [I_flow_pop; I_flow_all_good]) (setb F_opt_flow false s) = true.
Proof. vm_compute. repeat split; reflexivity. Qed.

(** ** C64: without a magnetometer (fusion type NONE) magnetometer fusion counts as inhibited as soon as no vision or GPS yaw is used, and stays so *)
Theorem C64_no_magnetometer : forall p i s, p_mag_type p = MAG_NONE ->
  gb (controlFusionModes p i s) L_is_yaw_fusion_inhibited = gb s L_is_yaw_fusion_inhibited || negb (gb s F_ev_yaw || gb s F_gps_yaw).
Proof. exact no_mag. Qed.
Example C64_no_magnetometer_nontrivial : let p := par 1 0 MAG_NONE in gb (run [Init p (at_ 10 [] [])] st0) L_is_yaw_fusion_inhibited = false /\
  gb (run [Init p (at_ 10 [] []); Update p (at_ 11 [] [])] st0) L_is_yaw_fusion_inhibited = true.
Proof. vm_compute. split; reflexivity. Qed.

(** ** C66: an auxiliary velocity sample is fused exactly when some horizontal aiding is active and it passes its gate; without GPS and vision samples nothing else
    counts as horizontal velocity fusion *)
Theorem C66_auxiliary_velocity : forall p i s, let s' := controlFusionModes p i s in ib i I_gps_ready = false -> ib i I_ev_ready = false ->
  gz s' T_hor_vel_fuse = if ib i I_aux_ready && ib i I_pass_aux && horizontal_aiding s' then iz i J_now else gz s T_hor_vel_fuse.
Proof. exact aux_vel. Qed.
Example C66_auxiliary_nontrivial : let s := run gps_flight st0 in let i := at_ 14 [I_aux_ready; I_pass_aux; I_mag_ready; I_baro_ready] [] in
  gz s T_hor_vel_fuse <> sec 14 /\ gz (controlFusionModes (par 1 0 MAG_AUTO) i s) T_hor_vel_fuse = sec 14.
Proof. vm_compute. split; [discriminate|reflexivity]. Qed.

Print Assumptions C17_fault_resets_declination.
Print Assumptions C44_synthetic_position_applied.
Print Assumptions C44_synthetic_position_keeps_mode.
Print Assumptions C66_vision_velocity.
Print Assumptions C67_range_aid_suitable.
Print Assumptions C67_range_aid_selects_range.
Print Assumptions C68_flow_aiding_exact.
Print Assumptions C68_flow_fused_only_if.
Print Assumptions C68_flow_fused_if.
Print Assumptions C64_no_magnetometer.
Print Assumptions C66_auxiliary_velocity.

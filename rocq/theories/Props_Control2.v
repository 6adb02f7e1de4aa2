(** * Properties C46 (interface time stamps) and C62-C66: more decisions of the fusion-mode state machine *)
Require Import ZArith Bool List Lia.
Require Import Verif.CBase Verif.GpsModel Verif.ControlModel Verif.ControlSpec Verif.ControlTac Verif.ControlProofs Verif.ControlProofs2 Verif.ControlProofs3 Verif.ControlProofs4
  Verif.ControlProofs5 Verif.ControlProofs6 Verif.ControlProofs7 Verif.ControlProofs8 Verif.Props_Control.
Import ListNotations.
Local Open Scope Z_scope.

(** ** C46: the times used as "last on the ground" and "last in the air" are those of the last interface call that said so *)
Definition last_time (v : bool) (l : list step) : Z :=
  fold_left (fun acc e => match e with Api (SetInAir w t) => if eqb v w then t else acc | _ => acc end) l 0.
Theorem C46_in_air_times : forall l, gz (run l st0) T_in_air = last_time true l /\ gz (run l st0) T_on_ground = last_time false l.
Proof. exact in_air_history. Qed.
Example C46_in_air_times_nontrivial : let l := [Api (SetInAir false 3); Api (SetInAir true 5); Api (SetInAir false 7); Api (SetInAir true 9)] in
  last_time true l = 9 /\ last_time false l = 7.
Proof. split; reflexivity. Qed.

(** ** C62: height fusion *)
(** the active source delivered a new sample in this update (external vision: no new sample is needed) *)
Definition height_data (p : params) (i : inp) (s : st) : bool :=
  let baro := gb s F_baro_hgt && ib i I_baro_ready && negb (gb s L_baro_hgt_faulty) in
  let rng := gb s F_rng_hgt && ib i I_rng_data_healthy in
  let gps := gb s F_gps_hgt && ib i I_gps_ready in
  if p_vdist p =? VDIST_RANGE then rng || baro
  else if p_vdist p =? VDIST_GPS then gps || rng || baro
  else if p_vdist p =? VDIST_EV then gb s F_ev_hgt || baro
  else rng || baro || (gps && negb (gb s L_gps_hgt_intermittent)).
Definition Phf (v n : Z) (s : st) : Prop := gz s T_hgt_fuse = v \/ gz s T_hgt_fuse = n.
Lemma D_phf : forall v n, dep nob (zk_eqb T_hgt_fuse) false (Phf v n).
Proof. intros v n s s' _ H _. unfold Phf. rewrite H by reflexivity. auto. Qed.
Lemma preHeight_hf : forall p i s, Phf (gz s T_hgt_fuse) (iz i J_now) (preHeight p i s).
Proof.
  intros p i s. assert (Phf (gz s T_hgt_fuse) (iz i J_now) s) by (left; reflexivity).
  presh (D_phf (gz s T_hgt_fuse) (iz i J_now)) ltac:(idtac; match goal with |- Phf _ _ (setz T_hgt_fuse (iz i J_now) _) => right; reflexivity end).
Qed.
Lemma not_to : forall n d, 0 <= n < horizon -> 0 <= d -> d < horizon -> is_timed_out n n d = false.
Proof. intros n d A B C. unfold is_timed_out. apply Z.ltb_ge. unfold add64, u64. rewrite two64_val. unfold horizon in *. rewrite Z.mod_small; lia. Qed.
Theorem C62_height_fusion_needs_data : forall p i s, let s' := controlFusionModes p i s in 0 <= iz i J_now < horizon ->
  gz s' T_vert_pos_attempt <> gz s T_vert_pos_attempt ->
  gz s' T_vert_pos_attempt = iz i J_now /\
  (height_data p i s' = true \/
   (gb s' F_rng_hgt = true /\ gb s F_in_air = false /\ ib i I_rng_data_healthy = false /\ ib i I_rng_regular = true /\
    is_timed_out (iz i J_now) (gz s T_hgt_fuse) 400000 = true)).
Proof.
  intros p i s s' HN H. destruct (height_fused_fwd p i s H) as (A & B). split; [exact A|]. destruct B as [B|(B1 & B2 & B3 & B4 & B5)]; [left; exact B|right].
  repeat split; try assumption. destruct (preHeight_hf p i s) as [E|E]; rewrite E in B5; [exact B5|]. exfalso.
  rewrite not_to in B5; [discriminate B5|exact HN|lia|reflexivity].
Qed.
Theorem C62_height_data_is_fused : forall p i s, let s' := controlFusionModes p i s in
  p_range_aid p <> 1 -> height_data p i s' = true -> (p_vdist p = VDIST_RANGE \/ p_vdist p = VDIST_GPS \/ p_vdist p = VDIST_EV \/ gb s' F_rng_hgt = false) ->
  gz s' T_vert_pos_attempt = iz i J_now.
Proof. exact height_fused_conv. Qed.
(** external vision height (a defect): without any new vision sample, whatever the age of the last one, every update fuses it again *)
Theorem C62_stale_vision_height_refuted : forall p i s, let s' := controlFusionModes p i s in
  p_vdist p = VDIST_EV -> gb s F_ev_hgt = true -> gb s F_baro_hgt = false -> gb s F_gps_hgt = false -> gb s F_rng_hgt = false ->
  ib i I_ev_ready = false -> ib i I_pass_hgt = true -> ib i I_vvel_gt_lim = false -> ib i I_vpos_gt_lim = false ->
  0 <= iz i J_now < horizon -> 0 <= p_bad_acc_delay p < horizon -> is_timed_out (iz i J_now) (gz s T_hgt_fuse) 5000000 = false ->
  gb s' F_ev_hgt = true /\ gb s' F_baro_hgt = false /\ gb s' F_gps_hgt = false /\ gb s' F_rng_hgt = false /\
  gz s' T_hgt_fuse = iz i J_now /\ gz s' T_vert_pos_attempt = iz i J_now.
Proof.
  intros p i s s' V E B G R _ Hp L1 L2 HN HD T1. apply ev_height_stale; try assumption.
  set (x := cfm_data p i (cfm_tilt p i s)). clearbody x.
  replace (gz (checkVerticalAccelerationHealth i x) T_good_vert_accel) with (iz i J_now).
  - apply not_to; lia.
  - assert (VB : forall c, vertAccelBad i x c = false).
    { intros c. unfold vertAccelBad. rewrite L1, L2. cbn [andb orb]. destruct (recent i (gz x T_vert_vel_fuse) 1000000); rewrite !andb_false_r; reflexivity. }
    unfold checkVerticalAccelerationHealth. cbv zeta. rewrite VB. match goal with |- context [if gb ?t F_bad_acc_vertical then _ else _] => destruct (gb t F_bad_acc_vertical) end; reflexivity.
Qed.
(** vision only: height mode entered at 11 s, last sample at 11 s, still fused at 13 s with no sample *)
Definition ev_par : params := par 8 VDIST_EV MAG_AUTO.
Definition ev_flight : list step := [Init ev_par (at_ 10 good []);
  Update ev_par (at_ 11 ([I_ev_ready; I_pass_ev_hpos] ++ good) [(J_ext_vision, sec 11); (J_ev_newest, sec 11)])].
Example C62_stale_vision_height_witness : let s := run ev_flight st0 in
  let i t := at_ t [I_pass_hgt] [(J_ext_vision, sec 11); (J_ev_newest, sec 11)] in
  gb s F_ev_hgt = true /\ gb s F_baro_hgt = false /\
  let s1 := controlFusionModes ev_par (i 13) s in let s2 := controlFusionModes ev_par (i 16) s1 in let s3 := controlFusionModes ev_par (i 20) s2 in
  gb s3 F_ev_hgt = true /\ gz s3 T_hgt_fuse = sec 20 /\ gb s3 F_ev_pos = false.
Proof. vm_compute. repeat split; reflexivity. Qed.
Example C62_nontrivial : let s := run baro_flight st0 in let s' := controlFusionModes (par 3 0 MAG_AUTO) (at_ 14 good []) s in
  height_data (par 3 0 MAG_AUTO) (at_ 14 good []) s' = true /\ gz s T_vert_pos_attempt = sec 13 /\ gz s' T_vert_pos_attempt = sec 14.
Proof. vm_compute. repeat split; reflexivity. Qed.

(** ** C63: emergency yaw reset requests and the reset to GPS *)
(** a pending request is cleared exactly by a performed yaw reset *)
Theorem C63_request_kept_until_reset : forall p i s, let s' := controlFusionModes p i s in
  (length (gsf s') = length (gsf s) /\ gb s' L_do_ekfgsf_yaw_reset = gb s L_do_ekfgsf_yaw_reset) \/
  ((length (gsf s') > length (gsf s))%nat /\ gb s' L_do_ekfgsf_yaw_reset = false).
Proof. exact request_consumed. Qed.
(** the situation: GPS aiding active, a new sample that fails its gate, GPS quality recently good, no flow or vision sample *)
Definition gps_rejected (p : params) (i : inp) (s : st) : Prop :=
  ib i I_gps_ready = true /\ use_gps p = true /\ gb s F_gps = true /\ is_timed_out (iz i J_now) (iz i J_gps_pass) 5000000 = false /\
  gb s L_flow_data_ready = false /\ ib i I_flow_pop = false /\ ib i I_ev_ready = false /\ ib i I_pass_gps_hpos = false.
(** horizontal aiding lost for [reset_timeout_max], or position for twice that *)
Definition gps_lost (p : params) (i : inp) (s : st) : bool :=
  let to k := is_timed_out (iz i J_now) (gz s k) (p_reset_timeout p) in
  (to T_hor_pos_fuse && to T_delpos_fuse && to T_hor_vel_fuse && to T_of_fuse) || is_timed_out (iz i J_now) (gz s T_hor_pos_fuse) (u32 (2 * p_reset_timeout p)).
(** emergency yaw resets are allowed now *)
Definition yaw_reset_permitted (p : params) (i : inp) (s : st) : bool :=
  (gz s N_ekfgsf_yaw_reset_count <? p_gsf_limit p) && is_timed_out (iz i J_now) (gz s T_ekfgsf_yaw_reset) 5000000
  && negb (is_timed_out (iz i J_now) (gz s T_gps_sample) 1000000).
(** the heading is the likely cause of rejected GPS velocities: in the air, velocity fusion timed out soon after takeoff or
    aiding lost, after having been fused in flight, and a large disagreement with the independent yaw estimate *)
Definition yaw_failure (p : params) (i : inp) (s : st) : bool :=
  gb s F_in_air && ((negb (is_timed_out (iz i J_now) (gz s T_on_ground) 30000000) && is_timed_out (iz i J_now) (gz s T_hor_vel_fuse) (p_gsf_delay p) && (gz s T_hor_vel_fuse >? gz s T_on_ground))
    || (gps_lost p i s && (gz s T_hor_vel_fuse >? gz s T_on_ground) && (gz s T_hor_pos_fuse >? gz s T_on_ground))) && (gz s T_hor_vel_fuse >? 0) && ib i I_yaw_vec_bad.
(** exactly: a requested or needed yaw reset, if permitted, is done when the yaw estimator has converged, and blocks the reset to GPS until then;
    otherwise position and velocity are reset to GPS exactly when aiding is lost *)
Theorem C63_reset_to_gps_exact : forall p i s, let s' := controlFusionModes p i s in gps_rejected p i s ->
  let yaw := (gb s L_do_ekfgsf_yaw_reset || yaw_failure p i s) && yaw_reset_permitted p i s in
  gz s' T_hor_pos_fuse = (if yaw then (if ib i I_gsf_ok then iz i J_now else gz s T_hor_pos_fuse) else if gps_lost p i s then iz i J_now else gz s T_hor_pos_fuse) /\
  length (gsf s') = (if yaw && ib i I_gsf_ok then S (length (gsf s)) else length (gsf s)).
Proof. intros p i s s' (A & B & C & D & E & F & G & H). apply gps_timeout_cases; assumption. Qed.
Theorem C63_reset_to_gps_after_timeout : forall p i s, let s' := controlFusionModes p i s in gps_rejected p i s ->
  (gb s L_do_ekfgsf_yaw_reset = false /\ yaw_failure p i s = false) \/ yaw_reset_permitted p i s = false -> gps_lost p i s = true ->
  gz s' T_hor_pos_fuse = iz i J_now.
Proof.
  intros p i s. cbv zeta. intros H N L. destruct (C63_reset_to_gps_exact p i s H) as [E _]. rewrite E, L.
  destruct N as [[N1 N2]|N]; [rewrite N1, N2|rewrite N, andb_false_r]; reflexivity.
Qed.
(** (a defect) while a permitted yaw reset request waits for the yaw estimator to converge, no reset to GPS is done however long aiding is lost *)
Theorem C63_reset_blocked_by_request_refuted : forall p i s, let s' := controlFusionModes p i s in gps_rejected p i s ->
  gb s L_do_ekfgsf_yaw_reset = true -> yaw_reset_permitted p i s = true -> ib i I_gsf_ok = false -> gz s' T_hor_pos_fuse = gz s T_hor_pos_fuse.
Proof. intros p i s. cbv zeta. intros H A B C. destruct (C63_reset_to_gps_exact p i s H) as [E _]. rewrite E, A, B, C. reflexivity. Qed.
Definition rejected : list ik := [I_gps_ready; I_mag_ready; I_baro_ready; I_ned_origin; I_gps_checks_passed; I_pass_hgt].
Definition gps_flight : list step :=
  [Init (par 1 0 MAG_AUTO) (at_ 10 good []); Api (SetInAir true (sec 10))]
  ++ map (fun t => Update (par 1 0 MAG_AUTO) (at_ t [I_tilt_var_ok; I_gps_ready; I_mag_ready; I_baro_ready; I_ned_origin; I_pass_gps_hvel; I_pass_gps_vvel; I_pass_gps_hpos; I_pass_hgt] [])) [11; 12; 13].
(** GPS accepted until 13 s, rejected from then on: reset at 21 s; with a pending request no reset at 21 or 25 s *)
Example C63_nontrivial : let u t := Update (par 1 0 MAG_AUTO) (at_ t rejected []) in
  let rej n := map (fun k => u (Z.of_nat k)) (seq 14 n) in
  gps_rejected (par 1 0 MAG_AUTO) (at_ 21 rejected []) (run (gps_flight ++ rej 7%nat) st0) /\
  gz (run (gps_flight ++ rej 7%nat) st0) T_hor_pos_fuse = sec 13 /\ gz (run (gps_flight ++ rej 8%nat) st0) T_hor_pos_fuse = sec 21 /\
  (let s := run (gps_flight ++ [Api RequestYawReset] ++ rej 12%nat) st0 in gz s T_hor_pos_fuse = sec 13 /\ gps_rejected (par 1 0 MAG_AUTO) (at_ 26 rejected []) s /\
     gps_lost (par 1 0 MAG_AUTO) (at_ 26 rejected []) s = true /\ yaw_reset_permitted (par 1 0 MAG_AUTO) (at_ 26 rejected []) s = true).
Proof. unfold gps_rejected. vm_compute. repeat split; reflexivity. Qed.

(** ** C64: magnetometer inhibition and heading reset requests *)
(** the magnetometer is in charge of heading: aligned, no magnetometer fault, no other heading source *)
Definition mag_in_charge (s : st) : Prop :=
  gb s F_tilt_align = true /\ gb s F_yaw_align = true /\ gb s F_mag_fault = false /\ gb s F_ev_yaw = false /\ gb s F_gps_yaw = false.
(** heading fusion is inhibited exactly if the field strength check fails, or in the indoor mode without GPS or vision;
    after more than five seconds of inhibition a heading reset is requested before GPS aiding may start *)
Theorem C64_mag_inhibition : forall p i s, 0 <= p_mag_type p < MAG_NONE -> ib i I_mag_ready = true -> mag_in_charge s -> let s' := controlFusionModes p i s in
  let inh := ((p_mag_type p =? MAG_INDOOR) && negb (gb s F_gps || gb s F_ev_pos || gb s F_ev_vel)) || (p_check_mag_strength p && negb (ib i I_mag_match)) in
  gb s' L_is_yaw_fusion_inhibited = inh /\
  gz s' T_mag_use_not_inhibit = (if inh then gz s T_mag_use_not_inhibit else iz i J_imu) /\
  (ib i I_gps_ready = false -> gb s' L_mag_inhibit_yaw_reset_req =
     gb s L_mag_inhibit_yaw_reset_req || (inh && (u32 (iz i J_imu - gz s T_mag_use_not_inhibit) >? 5000000))).
Proof. intros p i s A B C. exact (mag_inhibition p i A B s C). Qed.
(** in the air, a heading reset is done as soon as it is requested, not inhibited, and the field is undisturbed or the
    vehicle is a fixed wing; the request is kept otherwise.  (a defect: a fixed wing does it although the field is disturbed,
    and with a low GPS speed to the magnetic heading) *)
Theorem C64_in_air_heading_reset : forall p i s, 0 <= p_mag_type p <= 2 -> ib i I_mag_ready = true -> mag_in_charge s -> gb s F_in_air = true -> let s' := controlFusionModes p i s in
  let req := gb s L_mag_yaw_reset_req || gb s L_non_mag_yaw_aiding_running_prev || (negb (gb s F_mag_aligned_in_flight) && ib i I_above_anomalies) in
  let disturbed := p_check_mag_strength p && negb (ib i I_mag_match) in
  (req && negb (gb s L_is_yaw_fusion_inhibited) = false -> ib i I_gps_ready = false ->
     gb s' L_mag_yaw_reset_req = req /\ gb s' F_mag_aligned_in_flight = gb s F_mag_aligned_in_flight) /\
  (req && negb (gb s L_is_yaw_fusion_inhibited) = true -> gb s F_fixed_wing = true \/ disturbed = false ->
     gb s' L_mag_yaw_reset_req = false /\ gz s' T_flt_mag_align = iz i J_imu /\ (ib i I_gps_ready = false -> gb s' F_mag_aligned_in_flight = true)) /\
  (req && negb (gb s L_is_yaw_fusion_inhibited) = true -> gb s F_fixed_wing = false -> disturbed = true ->
     gb s' L_mag_yaw_reset_req = true /\ (ib i I_gps_ready = false -> gb s' F_mag_aligned_in_flight = false)).
Proof. intros p i s A B C. exact (air_yaw_reset p i A B s C). Qed.
(** the synthetic magnetometer Z observation *)
Theorem C64_synthetic_mag_z : forall p i s, gb (controlFusionModes p i s) F_synthetic_mag_z =
  if ib i I_mag_ready then p_synth_mag_z p && Z.testbit (p_mag_decl_source p) 0 && (ib i I_ned_origin || ib i I_decl_finite) else gb s F_synthetic_mag_z.
Proof. exact synth_flag. Qed.
Example C64_nontrivial : let s := run gps_flight st0 in let i := at_ 14 [I_mag_ready; I_baro_ready; I_above_anomalies] [] in
  mag_in_charge s /\ gb s F_in_air = true /\ gb s L_is_yaw_fusion_inhibited = false /\ gb s F_mag_aligned_in_flight = false /\
  gb (controlFusionModes (par 1 0 MAG_AUTO) i s) F_mag_aligned_in_flight = true.
Proof. unfold mag_in_charge. vm_compute. repeat split; reflexivity. Qed.

(** ** C65: airspeed, sideslip and wind *)
Theorem C65_airspeed_fusion : forall p i s, let s' := controlFusionModes p i s in
  let go := negb (gb s L_using_synthetic_position) && ib i I_tas_ready && gb s F_in_air in
  (go = false -> gz s' T_arsp_fuse = gz s T_arsp_fuse) /\
  (go = true -> ib i I_fused_tas = true -> gz s' T_arsp_fuse = iz i J_now /\ gb s' F_fuse_aspd = true) /\
  (gz s' T_arsp_fuse = gz s T_arsp_fuse \/ gz s' T_arsp_fuse = iz i J_now) /\
  (gb s' F_fuse_aspd = true -> (go && ib i I_fused_tas) = true \/ (gb s F_fuse_aspd = true /\ is_timed_out (iz i J_now) (gz s T_arsp_fuse) 10000000 = false)).
Proof. exact air_time. Qed.
Theorem C65_sideslip_fusion : forall p i s, let s' := controlFusionModes p i s in
  let go := negb (gb s L_using_synthetic_position) && is_timed_out (iz i J_now) (gz s T_beta_fuse) (p_beta_avg_us p) && gb s F_fuse_beta && gb s F_in_air in
  (go = false -> gz s' T_beta_fuse = gz s T_beta_fuse) /\
  (go = true -> ib i I_fused_beta = true -> gz s' T_beta_fuse = iz i J_now) /\
  (gz s' T_beta_fuse = gz s T_beta_fuse \/ gz s' T_beta_fuse = iz i J_now).
Proof. exact beta_time. Qed.
Theorem C65_wind_estimation : forall p i s, let s' := controlFusionModes p i s in
  let ok := negb (gb s L_using_synthetic_position) && gb s F_in_air in
  let beta := gb s F_fuse_beta && is_timed_out (iz i J_now) (gz s T_beta_fuse) (p_beta_avg_us p) in
  let stale := is_timed_out (iz i J_now) (gz s T_arsp_fuse) 10000000 && is_timed_out (iz i J_now) (gz s T_beta_fuse) 10000000 && negb (use_drag p) in
  let kept := gb s F_wind && negb (gb s L_using_synthetic_position || stale) in
  (gb s' F_wind = true -> kept = true \/ (ok = true /\ (ib i I_tas_ready = true \/ beta = true \/ use_drag p = true))) /\
  (kept = true \/ (ok = true /\ (ib i I_tas_ready = true \/ beta = true)) -> gb s' F_wind = true).
Proof. exact wind_flag. Qed.
Example C65_nontrivial : let s := run (gps_flight ++ [Api (SetFuseBeta true)]) st0 in let i := at_ 14 ([I_tas_ready; I_fused_tas] ++ good) [] in
  let s' := controlFusionModes (par 1 0 MAG_AUTO) i s in
  gb s L_using_synthetic_position = false /\ gb s F_fuse_beta = true /\ gb s F_wind = false /\ gb s' F_wind = true /\ gz s' T_arsp_fuse = sec 14 /\ gb s' F_fuse_aspd = true.
Proof. vm_compute. repeat split; reflexivity. Qed.

(** ** C66: external vision position is fused as odometry exactly when GPS use is configured *)
Theorem C66_vision_position_mode : forall p i s, let s' := controlFusionModes p i s in
  ib i I_ev_ready = true -> gb s' F_ev_pos = true ->
  gb s' L_fuse_hpos_as_odom = use_gps p /\
  (use_gps p = true -> gb s' L_hpos_prev_available = true) /\
  (ib i I_pass_ev_hpos = true -> gz s' (if use_gps p then T_delpos_fuse else T_hor_pos_fuse) = iz i J_now).
Proof. exact ev_odometry. Qed.
Example C66_nontrivial : gb (run ev_flight st0) F_ev_pos = true /\ gz (run ev_flight st0) T_hor_pos_fuse = sec 11.
Proof. vm_compute. split; reflexivity. Qed.

Print Assumptions C46_in_air_times.
Print Assumptions C62_height_fusion_needs_data.
Print Assumptions C62_height_data_is_fused.
Print Assumptions C62_stale_vision_height_refuted.
Print Assumptions C63_request_kept_until_reset.
Print Assumptions C63_reset_to_gps_exact.
Print Assumptions C63_reset_to_gps_after_timeout.
Print Assumptions C63_reset_blocked_by_request_refuted.
Print Assumptions C64_mag_inhibition.
Print Assumptions C64_in_air_heading_reset.
Print Assumptions C64_synthetic_mag_z.
Print Assumptions C65_airspeed_fusion.
Print Assumptions C65_sideslip_fusion.
Print Assumptions C65_wind_estimation.
Print Assumptions C66_vision_position_mode.

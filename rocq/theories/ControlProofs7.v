(** Proofs for further control decisions: interface time stamps, external vision position, magnetometer inhibition,
    in-flight heading reset and the reset to GPS after a timeout. *)
Require Import ZArith Bool List Lia.
Require Import Verif.CBase Verif.GpsModel Verif.ControlModel Verif.ControlSpec Verif.ControlTac Verif.ControlProofs Verif.ControlProofs2 Verif.ControlProofs3 Verif.ControlProofs4 Verif.ControlProofs5 Verif.ControlProofs6.
Import ListNotations.
Local Open Scope Z_scope.
Local Open Scope ctl_scope.

(** *** setters *)
Definition last_set_in_air (v : bool) (l : list step) : Z :=
  fold_left (fun acc e => match e with Api (SetInAir w t) => if eqb v w then t else acc | _ => acc end) l 0.
Lemma cfm_inair_z : forall p i s, gz (controlFusionModes p i s) T_in_air = gz s T_in_air /\ gz (controlFusionModes p i s) T_on_ground = gz s T_on_ground.
Proof. intros. split; fz. Qed.
Lemma init_inair_z : forall p i s, gz (initialiseFilter p i s) T_in_air = gz s T_in_air /\ gz (initialiseFilter p i s) T_on_ground = gz s T_on_ground.
Proof. intros. split; fz. Qed.
Lemma in_air_history : forall l, gz (run l st0) T_in_air = last_set_in_air true l /\ gz (run l st0) T_on_ground = last_set_in_air false l.
Proof.
  intros l. unfold last_set_in_air.
  assert (G : forall l s a b, gz s T_in_air = a -> gz s T_on_ground = b ->
    gz (run l s) T_in_air = fold_left (fun acc e => match e with Api (SetInAir w t) => if eqb true w then t else acc | _ => acc end) l a /\
    gz (run l s) T_on_ground = fold_left (fun acc e => match e with Api (SetInAir w t) => if eqb false w then t else acc | _ => acc end) l b).
  { clear l. induction l as [|e l IH]; intros s a b A B; cbn [run fold_left]; [auto|]. apply IH.
    - destruct e as [[v t| | | | |]| |p i|p i|]; cbn [do_step api_step]; try exact A.
      + destruct v; [reflexivity|exact A].
      + rewrite (proj1 (init_inair_z p i s)). exact A.
      + rewrite (proj1 (cfm_inair_z p i s)). exact A.
    - destruct e as [[v t| | | | |]| |p i|p i|]; cbn [do_step api_step]; try exact B.
      + destruct v; [exact B|reflexivity].
      + rewrite (proj2 (init_inair_z p i s)). exact B.
      + rewrite (proj2 (cfm_inair_z p i s)). exact B. }
  apply G; reflexivity.
Qed.

(** *** external vision position *)
Lemma evVel_frame : forall i s, gb (controlAuxVelFusion i (if_ (gb s F_ev_vel) (evVel i) s)) L_fuse_hpos_as_odom = gb s L_fuse_hpos_as_odom /\
  gb (controlAuxVelFusion i (if_ (gb s F_ev_vel) (evVel i) s)) L_hpos_prev_available = gb s L_hpos_prev_available /\
  gb (controlAuxVelFusion i (if_ (gb s F_ev_vel) (evVel i) s)) F_ev_pos = gb s F_ev_pos /\
  gz (controlAuxVelFusion i (if_ (gb s F_ev_vel) (evVel i) s)) T_delpos_fuse = gz s T_delpos_fuse /\
  gz (controlAuxVelFusion i (if_ (gb s F_ev_vel) (evVel i) s)) T_hor_pos_fuse = gz s T_hor_pos_fuse.
Proof. intros. repeat split; try fb; fz. Qed.
Lemma dr_f : forall p i s, gb (update_deadreckoning_status p i s) L_fuse_hpos_as_odom = gb s L_fuse_hpos_as_odom /\
  gb (update_deadreckoning_status p i s) L_hpos_prev_available = gb s L_hpos_prev_available /\
  gb (update_deadreckoning_status p i s) F_ev_pos = gb s F_ev_pos /\
  gz (update_deadreckoning_status p i s) T_delpos_fuse = gz s T_delpos_fuse /\
  gz (update_deadreckoning_status p i s) T_hor_pos_fuse = gz s T_hor_pos_fuse.
Proof. intros. repeat split; try fb; fz. Qed.
Lemma ev_odometry : forall p i s, let s' := controlFusionModes p i s in
  ib i I_ev_ready = true -> gb s' F_ev_pos = true ->
  gb s' L_fuse_hpos_as_odom = use_gps p /\
  (use_gps p = true -> gb s' L_hpos_prev_available = true) /\
  (ib i I_pass_ev_hpos = true -> gz s' (if use_gps p then T_delpos_fuse else T_hor_pos_fuse) = iz i J_now).
Proof.
  intros p i s. cbv zeta. intros R. rewrite cfm_splite, postEv_pos. generalize (preEv p i s). clear s. intros s.
  unfold controlExternalVisionFusion. rewrite R. cbv zeta. generalize (evSelect p i s). clear s. intros s H.
  assert (E : gb s F_ev_pos = true).
  { destruct (gb s F_ev_pos) eqn:E; [reflexivity|]. cbn [if_] in H. rewrite <- H. rewrite <- E.
    destruct (gb s F_ev_vel); cbn [if_]; [|reflexivity]. unfold evVel, fuseHorVel, fuseVertVel. destruct (ib i I_pass_ev_hvel), (ib i I_pass_ev_vvel); reflexivity. }
  rewrite E in *. cbn [if_] in *. unfold postEv.
  set (x := evPos p i s) in *.
  assert (X1 : gb x L_fuse_hpos_as_odom = use_gps p).
  { unfold x, evPos. cbv zeta. destruct (use_gps p); cbn [if_].
    - unfold fuseHorPos. destruct (ib i I_pass_ev_hpos); reflexivity.
    - change (gb (setb L_fuse_hpos_as_odom false s) L_fuse_hpos_as_odom) with false. cbn iota. unfold fuseHorPos.
      destruct (ib i I_pass_ev_hpos), (timed_out i (gz (setb L_fuse_hpos_as_odom false s) T_hor_pos_fuse) (p_reset_timeout p)); reflexivity. }
  assert (X2 : use_gps p = true -> gb x L_hpos_prev_available = true).
  { intros U. unfold x, evPos. cbv zeta. rewrite U. change (gb (setb L_fuse_hpos_as_odom true s) L_fuse_hpos_as_odom) with true. cbn iota.
    unfold fuseHorPos. destruct (ib i I_pass_ev_hpos); cbn [if_]; reflexivity. }
  assert (X3 : ib i I_pass_ev_hpos = true -> gz x (if use_gps p then T_delpos_fuse else T_hor_pos_fuse) = iz i J_now).
  { intros U. unfold x, evPos. cbv zeta. unfold fuseHorPos. rewrite U. cbn [if_]. destruct (use_gps p); cbn iota.
    - reflexivity.
    - change (gb (setb L_fuse_hpos_as_odom false s) L_fuse_hpos_as_odom) with false. cbn iota.
      destruct (timed_out i _ _); cbn [if_]; reflexivity. }
  assert (X4 : gb x F_ev_pos = true).
  { destruct (evVel_frame i x) as (_ & _ & V & _). rewrite <- V. unfold controlAuxVelFusion.
    assert (Y : forall c y, gb (if_ c (fuseHorVel i (ib i I_pass_aux)) y) F_ev_pos = gb y F_ev_pos) by (intros [] y; [unfold fuseHorVel; destruct (ib i I_pass_aux)|]; reflexivity).
    rewrite Y. exact H. }
  clearbody x. clear H. destruct (evVel_frame i x) as (V1 & V2 & V3 & V4 & V5). set (y := controlAuxVelFusion i _) in *. clearbody y.
  assert (Q : controlFakePosFusion i y = setb L_using_synthetic_position false y).
  { unfold controlFakePosFusion. rewrite aiding_spec. unfold horizontal_aiding. rewrite V3, X4. rewrite ?orb_true_r. cbn [orb negb andb]. rewrite ?orb_true_r. reflexivity. }
  rewrite Q. destruct (dr_f p i (setb L_using_synthetic_position false y)) as (D1 & D2 & _ & D4 & D5). rewrite D1, D2.
  cbn [gb setb bk_eqb]. change (gb (setb L_using_synthetic_position false y) L_fuse_hpos_as_odom) with (gb y L_fuse_hpos_as_odom).
  change (gb (setb L_using_synthetic_position false y) L_hpos_prev_available) with (gb y L_hpos_prev_available). rewrite V1, V2.
  split; [exact X1|]. split; [exact X2|]. intros P. specialize (X3 P). destruct (use_gps p); [rewrite D4|rewrite D5]; cbn [gz setb]; [rewrite V4|rewrite V5]; exact X3.
Qed.

(** *** magnetometer inhibition and heading reset requests *)
Section Mag.
Variable (p : params) (i : inp).
Hypothesis MT : 0 <= p_mag_type p < MAG_NONE.
Hypothesis MR : ib i I_mag_ready = true.
Definition mag_usable (s : st) : Prop :=
  gb s F_tilt_align = true /\ gb s F_yaw_align = true /\ gb s F_mag_fault = false /\ gb s F_ev_yaw = false /\ gb s F_gps_yaw = false.
Definition Kmag (k : bk) : bool := match k with
  | F_tilt_align | F_yaw_align | F_mag_fault | F_ev_yaw | F_gps_yaw | F_gps | F_ev_pos | F_ev_vel | F_in_air | F_fixed_wing | F_mag_aligned_in_flight
  | L_mag_yaw_reset_req | L_mag_inhibit_yaw_reset_req | L_is_yaw_fusion_inhibited | L_non_mag_yaw_aiding_running_prev => true | _ => false end.
Definition Kmagz (k : zk) : bool := match k with T_mag_use_not_inhibit | T_flt_mag_align => true | _ => false end.
Lemma preMag_aligned : forall s, gb s F_tilt_align = true -> preMag p i s = controlHeightSensorTimeouts p i (cfm_data p i (s |> setb L_prev_rng_hgt (gb s F_rng_hgt) |> setb L_prev_gps_hgt (gb s F_gps_hgt))).
Proof. intros s H. unfold preMag, cfm_tilt. cbv zeta. cbn [gb setb bk_eqb]. 
  change (gb (setb L_prev_gps_hgt (gb s F_gps_hgt) (setb L_prev_rng_hgt (gb s F_rng_hgt) s)) F_tilt_align) with (gb s F_tilt_align). rewrite H. reflexivity. Qed.
Lemma preMag_b : forall s k, Kmag k = true -> gb s F_tilt_align = true -> gb (preMag p i s) k = gb s k.
Proof. intros s k Hk H. rewrite preMag_aligned by exact H. destruct k; try discriminate Hk; fb. Qed.
Lemma preMag_z : forall s k, Kmagz k = true -> gb s F_tilt_align = true -> gz (preMag p i s) k = gz s k.
Proof. intros s k Hk H. rewrite preMag_aligned by exact H. destruct k; try discriminate Hk; fz. Qed.
(** the state in which [magAid] runs *)
Definition magPre (s : st) : st := otherHeadingStopped (magOnGround (checkMagFieldStrength p i s)).
Lemma magRun : forall s, mag_usable s -> controlMagFusion p i s = magAid p i (magPre s).
Proof.
  intros s (_ & Y & F & E & G). unfold controlMagFusion.
  replace (p_mag_type p >? MAG_NONE) with false by (symmetry; rewrite Z.gtb_ltb; apply Z.ltb_ge; lia).
  replace (p_mag_type p =? MAG_NONE) with false by (symmetry; apply Z.eqb_neq; lia). cbv zeta.
  rewrite !cmf_head_frame by discriminate. rewrite F, Y. cbn [orb negb].
  change (otherHeadingStopped (magOnGround (checkMagFieldStrength p i s))) with (magPre s).
  assert (N : noOtherYaw (magPre s) = true).
  { unfold noOtherYaw. assert (A : forall k, k = F_ev_yaw \/ k = F_gps_yaw -> gb (magPre s) k = gb (magOnGround (checkMagFieldStrength p i s)) k).
    { intros k [->| ->]; unfold magPre; generalize (magOnGround (checkMagFieldStrength p i s)); intros t; reflexivity. }
    rewrite !A by auto. rewrite !cmf_head_frame by discriminate. rewrite E, G. reflexivity. }
  rewrite N, MR. reflexivity.
Qed.
Lemma magPre_frame : forall s k, Kmag k = true -> k <> L_mag_yaw_reset_req -> k <> L_non_mag_yaw_aiding_running_prev -> k <> F_mag_aligned_in_flight -> gb (magPre s) k = gb s k.
Proof. intros s k A B C D. destruct k; try discriminate A; try congruence; fb. Qed.
Lemma magPre_z : forall s k, Kmagz k = true -> gz (magPre s) k = gz s k.
Proof. intros s k A. destruct k; try discriminate A; fz. Qed.
Lemma magPre_dist : forall s, gb (magPre s) F_mag_field_disturbed = p_check_mag_strength p && negb (ib i I_mag_match).
Proof. intros s. unfold magPre. match goal with |- gb (otherHeadingStopped ?x) _ = _ => transitivity (gb x F_mag_field_disturbed); [reflexivity|] end.
  unfold magOnGround. destruct (negb _); reflexivity. Qed.
Lemma magPre_aligned : forall s, gb (magPre s) F_mag_aligned_in_flight = gb s F_in_air && gb s F_mag_aligned_in_flight.
Proof. intros s. unfold magPre. match goal with |- gb (otherHeadingStopped ?x) _ = _ => transitivity (gb x F_mag_aligned_in_flight); [reflexivity|] end.
  unfold magOnGround. change (gb (checkMagFieldStrength p i s) F_in_air) with (gb s F_in_air). destruct (gb s F_in_air); reflexivity. Qed.
Lemma magPre_req : forall s, mag_usable s -> gb (magPre s) L_mag_yaw_reset_req = gb s L_mag_yaw_reset_req || gb s L_non_mag_yaw_aiding_running_prev.
Proof.
  intros s (_ & _ & _ & E & G). unfold magPre, otherHeadingStopped.
  assert (N : noOtherYaw (magOnGround (checkMagFieldStrength p i s)) = true). { unfold noOtherYaw. rewrite !cmf_head_frame by discriminate. rewrite E, G. reflexivity. }
  rewrite N. rewrite !cmf_head_frame by discriminate. reflexivity.
Qed.
(** what runs after the heading reset *)
Definition magTail (s : st) : st := s |> selectMagMode p i |> checkMagDeclRequired p |> checkMagInhibition p i |> runMagAndMagDeclFusions.
Lemma magTail_inh : forall s, let inh := ((p_mag_type p =? MAG_INDOOR) && (negb (gb s F_gps) && negb (gb s F_ev_pos) && negb (gb s F_ev_vel))) || gb s F_mag_field_disturbed in
  gb (magTail s) L_is_yaw_fusion_inhibited = inh /\
  gz (magTail s) T_mag_use_not_inhibit = (if inh then gz s T_mag_use_not_inhibit else iz i J_imu) /\
  gb (magTail s) L_mag_inhibit_yaw_reset_req = gb s L_mag_inhibit_yaw_reset_req || (inh && (u32 (iz i J_imu - gz s T_mag_use_not_inhibit) >? 5000000)).
Proof.
  intros s. cbv zeta. unfold magTail.
  assert (F : forall t k, (k = L_is_yaw_fusion_inhibited \/ k = L_mag_inhibit_yaw_reset_req) -> gb (runMagAndMagDeclFusions t) k = gb t k).
  { intros t k [->| ->]; fb. }
  assert (FZ : forall t, gz (runMagAndMagDeclFusions t) T_mag_use_not_inhibit = gz t T_mag_use_not_inhibit) by fz.
  rewrite !F, FZ by auto.
  assert (A : forall k, k = F_gps \/ k = F_ev_pos \/ k = F_ev_vel \/ k = F_mag_field_disturbed \/ k = L_mag_inhibit_yaw_reset_req -> gb (checkMagDeclRequired p (selectMagMode p i s)) k = gb s k).
  { intros k K. decompose [or] K; subst k; fb. }
  assert (AZ : gz (checkMagDeclRequired p (selectMagMode p i s)) T_mag_use_not_inhibit = gz s T_mag_use_not_inhibit) by fz.
  rewrite <- AZ. rewrite <- !(A F_gps), <- !(A F_ev_pos), <- !(A F_ev_vel), <- !(A F_mag_field_disturbed), <- !(A L_mag_inhibit_yaw_reset_req) by auto 10.
  clear A AZ F FZ. generalize (checkMagDeclRequired p (selectMagMode p i s)). clear s. intros s.
  unfold checkMagInhibition. cbv zeta. change (gb (setb L_is_yaw_fusion_inhibited ?v s) L_is_yaw_fusion_inhibited) with v.
  fold (shouldInhibitMag p s). destruct (shouldInhibitMag p s); cbn [negb if_ andb].
  - change (gz (setb L_is_yaw_fusion_inhibited true s) T_mag_use_not_inhibit) with (gz s T_mag_use_not_inhibit).
    destruct (_ >? _); cbn [if_]; rewrite ?orb_true_r, ?orb_false_r; repeat split; reflexivity.
  - change (gz (setz T_mag_use_not_inhibit (iz i J_imu) (setb L_is_yaw_fusion_inhibited false s)) T_mag_use_not_inhibit) with (iz i J_imu).
    rewrite Z.sub_diag. change (u32 0 >? 5000000) with false. cbn [if_]. rewrite orb_false_r. repeat split; reflexivity.
Qed.
Definition magReset (s : st) : st :=
  if gb s F_in_air then s |> checkHaglYawResetReq i |> runInAirYawReset p i |> runVelPosReset else s |> runOnGroundYawReset p i.
Lemma magAid_split : forall s, magAid p i s = magTail (magReset s). Proof. reflexivity. Qed.
Definition Kr (k : bk) : bool := match k with F_gps | F_ev_pos | F_ev_vel | F_mag_field_disturbed | L_mag_inhibit_yaw_reset_req => true | _ => false end.
Lemma magReset_b : forall s k, Kr k = true -> gb (magReset s) k = gb s k.
Proof. intros s k K. destruct k; try discriminate K; fb. Qed.
Lemma magReset_z : forall s, gz (magReset s) T_mag_use_not_inhibit = gz s T_mag_use_not_inhibit.
Proof. fz. Qed.
Lemma postMag_inh : forall s, gb (postMag p i s) L_is_yaw_fusion_inhibited = gb s L_is_yaw_fusion_inhibited. Proof. fb. Qed.
Lemma postMag_tinh : forall s, gz (postMag p i s) T_mag_use_not_inhibit = gz s T_mag_use_not_inhibit. Proof. fz. Qed.
Lemma postMag_req : forall s, ib i I_gps_ready = false -> gb (postMag p i s) L_mag_inhibit_yaw_reset_req = gb s L_mag_inhibit_yaw_reset_req.
Proof.
  intros s G. match goal with |- gb ?x ?k = ?v => change (bis k v x) end.
  assert (bis L_mag_inhibit_yaw_reset_req (gb s L_mag_inhibit_yaw_reset_req) s) by reflexivity.
  presh (D_bis L_mag_inhibit_yaw_reset_req (gb s L_mag_inhibit_yaw_reset_req)) ltac:(idtac; match goal with |- bis _ _ (controlGpsFusion p i ?s) => unfold controlGpsFusion; rewrite G end).
Qed.
Theorem mag_inhibition : forall s, mag_usable s -> let s' := controlFusionModes p i s in
  let inh := ((p_mag_type p =? MAG_INDOOR) && negb (gb s F_gps || gb s F_ev_pos || gb s F_ev_vel)) || (p_check_mag_strength p && negb (ib i I_mag_match)) in
  gb s' L_is_yaw_fusion_inhibited = inh /\
  gz s' T_mag_use_not_inhibit = (if inh then gz s T_mag_use_not_inhibit else iz i J_imu) /\
  (ib i I_gps_ready = false -> gb s' L_mag_inhibit_yaw_reset_req =
     gb s L_mag_inhibit_yaw_reset_req || (inh && (u32 (iz i J_imu - gz s T_mag_use_not_inhibit) >? 5000000))).
Proof.
  intros s (T & Y & F & E & G). cbv zeta. rewrite cfm_splitm.
  assert (U : mag_usable (preMag p i s)) by (unfold mag_usable; rewrite !preMag_b by (reflexivity || exact T); repeat split; assumption).
  rewrite (magRun _ U), magAid_split, postMag_inh, postMag_tinh.
  set (x := magReset (magPre (preMag p i s))). destruct (magTail_inh x) as (H1 & H2 & H3). rewrite H1, H2.
  assert (B : forall k, Kmag k = true -> Kr k = true -> gb x k = gb s k).
  { intros k A C. unfold x. rewrite magReset_b by exact C. rewrite magPre_frame by (exact A || (destruct k; discriminate)). apply preMag_b; assumption. }
  rewrite !(B F_gps), !(B F_ev_pos), !(B F_ev_vel) by reflexivity.
  assert (D : gb x F_mag_field_disturbed = p_check_mag_strength p && negb (ib i I_mag_match)) by (unfold x; rewrite magReset_b by reflexivity; apply magPre_dist).
  assert (Z1 : gz x T_mag_use_not_inhibit = gz s T_mag_use_not_inhibit) by (unfold x; rewrite magReset_z, magPre_z by reflexivity; apply preMag_z; [reflexivity|exact T]).
  rewrite D, Z1, !negb_orb. repeat split. intros GR. rewrite postMag_req by exact GR. rewrite H3.
  rewrite !(B F_gps), !(B F_ev_pos), !(B F_ev_vel), !(B L_mag_inhibit_yaw_reset_req) by reflexivity. rewrite D, Z1. reflexivity.
Qed.
End Mag.

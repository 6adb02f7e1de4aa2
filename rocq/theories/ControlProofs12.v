(** Proofs: yaw without a magnetometer (mag_control.cpp l.50-62) and auxiliary velocity (control.cpp l.1337-1357). *)
Require Import ZArith Bool List Lia.
Require Import Verif.CBase Verif.GpsModel Verif.ControlModel Verif.ControlSpec Verif.ControlTac Verif.ControlProofs Verif.ControlProofs2 Verif.ControlProofs3 Verif.ControlProofs4
  Verif.ControlProofs5 Verif.ControlProofs6 Verif.ControlProofs7 Verif.ControlProofs8 Verif.ControlProofs9 Verif.ControlProofs10 Verif.ControlProofs11.
Import ListNotations.
Local Open Scope Z_scope.
Lemma no_mag : forall p i s, p_mag_type p = MAG_NONE -> gb (controlFusionModes p i s) L_is_yaw_fusion_inhibited = gb s L_is_yaw_fusion_inhibited || negb (gb s F_ev_yaw || gb s F_gps_yaw).
Proof.
  intros p i s M. rewrite cfm_splitm, postMag_inh. 
  assert (A : gb (preMag p i s) L_is_yaw_fusion_inhibited = gb s L_is_yaw_fusion_inhibited) by fb.
  assert (B : gb (preMag p i s) F_ev_yaw = gb s F_ev_yaw) by fb.
  assert (C : gb (preMag p i s) F_gps_yaw = gb s F_gps_yaw) by fb.
  rewrite <- A, <- B, <- C. generalize (preMag p i s). intros t. unfold controlMagFusion. rewrite M. change (MAG_NONE >? MAG_NONE) with false. change (MAG_NONE =? MAG_NONE) with true.
  cbn iota. unfold noOtherYaw. destruct (gb t F_ev_yaw), (gb t F_gps_yaw); cbn [orb negb andb if_]; rewrite ?orb_false_r, ?orb_true_r; reflexivity.
Qed.
Lemma aux_vel : forall p i s, let s' := controlFusionModes p i s in ib i I_gps_ready = false -> ib i I_ev_ready = false ->
  gz s' T_hor_vel_fuse = if ib i I_aux_ready && ib i I_pass_aux && horizontal_aiding s' then iz i J_now else gz s T_hor_vel_fuse.
Proof.
  intros p i s. cbv zeta. intros G V. unfold controlFusionModes.
  set (a := controlHeightFusion p i _).
  assert (A : gz a T_hor_vel_fuse = gz s T_hor_vel_fuse).
  { assert (G1 : forall t, gz (controlGpsFusion p i t) T_hor_vel_fuse = gz t T_hor_vel_fuse) by (intros t; unfold controlGpsFusion; rewrite G; fz).
    assert (G2 : forall t, gz (controlHeightFusion p i (controlDragFusion p i (controlBetaFusion p i (controlAirDataFusion p i t)))) T_hor_vel_fuse = gz t T_hor_vel_fuse) by fz.
    assert (G3 : forall t, gz (controlOpticalFlowFusion p i (controlMagFusion p i (controlHeightSensorTimeouts p i (cfm_data p i (cfm_tilt p i t))))) T_hor_vel_fuse = gz t T_hor_vel_fuse) by fz.
    unfold a. rewrite G2, G1, G3. reflexivity. }
  rewrite <- A. clearbody a. set (e := controlExternalVisionFusion p i a).
  assert (E : gz e T_hor_vel_fuse = gz a T_hor_vel_fuse) by (unfold e, controlExternalVisionFusion; rewrite V; fz).
  rewrite <- E. clearbody e.
  assert (H : forall t, horizontal_aiding (update_deadreckoning_status p i (controlFakePosFusion i t)) = horizontal_aiding t).
  { intros t. set (u := update_deadreckoning_status p i (controlFakePosFusion i t)). assert (K : forall k, k = F_gps \/ k = F_opt_flow \/ k = F_ev_pos \/ k = F_ev_vel \/ k = F_fuse_aspd \/ k = F_fuse_beta -> gb u k = gb t k).
    { unfold u. intros k [->|[->|[->|[->|[->| ->]]]]]; fb. }
    unfold horizontal_aiding. rewrite !K by tauto. reflexivity. }
  rewrite H. assert (Q : forall t, gz (update_deadreckoning_status p i (controlFakePosFusion i t)) T_hor_vel_fuse = gz t T_hor_vel_fuse) by fz.
  rewrite Q. unfold controlAuxVelFusion, fuseHorVel. rewrite aiding_spec. destruct (ib i I_aux_ready), (ib i I_pass_aux); cbn [andb if_]; try reflexivity.
  all: destruct (horizontal_aiding e) eqn:K; cbn [if_]; try (change (horizontal_aiding (setz T_hor_vel_fuse (iz i J_now) e)) with (horizontal_aiding e)); rewrite ?K; reflexivity.
Qed.

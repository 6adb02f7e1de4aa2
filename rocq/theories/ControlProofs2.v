(** Yaw sources and magnetometer modes (C16, C17), alignment flags. *)
Require Import ZArith Bool List Lia.
Require Import Verif.CBase Verif.GpsModel Verif.ControlModel Verif.ControlTac Verif.ControlSpec Verif.ControlProofs.
Import ListNotations.
Local Open Scope Z_scope.

(** *** C16 *)
Definition P16 (s : st) : Prop :=
  count [gb s F_mag_hdg; gb s F_mag_3D] <= 1 /\ (other_yaw_on s = true -> mag_on s = false).
Definition K16 (k : bk) := match k with F_mag_hdg | F_mag_3D | F_ev_yaw | F_gps_yaw => true | _ => false end.
Lemma D16 : dep K16 noz false P16.
Proof. intros s s' H _ _. unfold P16, other_yaw_on, mag_on. rewrite !H by reflexivity. auto. Qed.
Ltac cases16 := unfold P16, other_yaw_on, mag_on, count in *; cbn in *;
  repeat match goal with |- context [gb ?s ?k] => destruct (gb s k) end; cbn in *; intuition (try lia; try discriminate).
Lemma stop3_16 : forall s, P16 s -> P16 (stopMag3DFusion s).
Proof. intros s. unfold stopMag3DFusion. destruct (gb s F_mag_3D) eqn:E; cbn [if_]; auto. cases16. Qed.
Lemma stoph_16 : forall s, P16 s -> P16 (setb F_mag_hdg false s).
Proof. intros s. cases16. Qed.
Lemma evoff_16 : forall s, P16 s -> P16 (setb F_ev_yaw false s).
Proof. intros s. cases16. Qed.
Lemma gpsoff_16 : forall s, P16 s -> P16 (setb F_gps_yaw false s).
Proof. intros s. cases16. Qed.
Lemma startEv_16 : forall s, P16 (startEvYawFusion s).
Proof.
  intros s. unfold startEvYawFusion, stopMagHdgFusion, stopMag3DFusion, P16, other_yaw_on, mag_on. cbn.
  destruct (gb s F_mag_3D) eqn:E; cbn; rewrite ?E; cbn; split; try lia; auto.
Qed.
Lemma startGps_16 : forall s, P16 (startGpsYawFusion s).
Proof.
  intros s. unfold startGpsYawFusion, stopEvYawFusion, stopMagHdgFusion, stopMag3DFusion, P16, other_yaw_on, mag_on. cbn.
  destruct (gb s F_mag_3D) eqn:E; cbn; rewrite ?E; cbn; split; try lia; auto.
Qed.
Definition P16n (s : st) : Prop := count [gb s F_mag_hdg; gb s F_mag_3D] <= 1 /\ other_yaw_on s = false.
Lemma D16n : dep K16 noz false P16n.
Proof. intros s s' H _ _. unfold P16n, other_yaw_on, mag_on. rewrite !H by reflexivity. auto. Qed.
Lemma stopMag3_16n : forall s, P16n s -> P16n (stopMag3DFusion s).
Proof.
  intros s. unfold stopMag3DFusion, P16n, other_yaw_on. destruct (gb s F_mag_3D) eqn:E; cbn; [|rewrite E; auto].
  destruct (gb s F_mag_hdg); cbn; intuition lia.
Qed.
Lemma stopMagH_16n : forall s, P16n s -> P16n (setb F_mag_hdg false s).
Proof. intros s. unfold P16n, other_yaw_on. cbn. destruct (gb s F_mag_hdg), (gb s F_mag_3D); cbn; intuition lia. Qed.
Lemma startH_16n : forall s, P16n s -> P16n (startMagHdgFusion s).
Proof.
  intros s. unfold startMagHdgFusion, stopMag3DFusion, P16n, other_yaw_on.
  destruct (gb s F_mag_3D) eqn:E; cbn; rewrite ?E; cbn; intuition lia.
Qed.
Lemma start3_16n : forall s, P16n s -> P16n (startMag3DFusion s).
Proof.
  intros s. unfold startMag3DFusion, stopMagHdgFusion, P16n, other_yaw_on.
  destruct (gb s F_mag_3D) eqn:E; cbn; rewrite ?E; cbn; intuition lia.
Qed.
Ltac h16n := idtac; match goal with
  | |- P16n (startMagHdgFusion _) => apply startH_16n | |- P16n (startMag3DFusion _) => apply start3_16n
  | |- P16n (stopMag3DFusion _) => apply stopMag3_16n | |- P16n (setb F_mag_hdg false _) => apply stopMagH_16n end.
Lemma magAid_16n : forall p i s, P16n s -> P16n (magAid p i s).
Proof. presh D16n h16n. Qed.
Lemma P16n_16 : forall s, P16n s -> P16 s.
Proof. intros s [A B]. split; auto. intros H. congruence. Qed.
Lemma P16_16n : forall s, P16 s -> noOtherYaw s = true -> P16n s.
Proof.
  intros s [A B] H. split; auto. unfold noOtherYaw in H. unfold other_yaw_on.
  destruct (gb s F_ev_yaw), (gb s F_gps_yaw); cbn in *; congruence.
Qed.
Lemma magAidif_16 : forall p i b s, P16 s -> P16 (if_ (noOtherYaw s && b) (magAid p i) s).
Proof.
  intros p i b s H. destruct (noOtherYaw s) eqn:E; cbn; auto. destruct b; cbn; auto.
  apply P16n_16, magAid_16n, P16_16n; auto.
Qed.
Ltac h16 := idtac; match goal with
  | |- P16 (if_ (noOtherYaw ?s && _) (magAid _ _) ?s) => apply magAidif_16
  | |- P16 (startEvYawFusion _) => apply startEv_16 | |- P16 (startGpsYawFusion _) => apply startGps_16
  | |- P16 (setb F_ev_yaw false _) => apply evoff_16 | |- P16 (setb F_gps_yaw false _) => apply gpsoff_16
  | |- P16 (stopMag3DFusion _) => apply stop3_16 | |- P16 (setb F_mag_hdg false _) => apply stoph_16 end.
Theorem yaw_source_invariant : forall s, reachable s ->
  count [gb s F_mag_hdg; gb s F_mag_3D] <= 1 /\ (other_yaw_on s = true -> mag_on s = false).
Proof.
  intros s [l ->]. apply (run_inv4 P16).
  - papi D16.
  - presh D16 h16.
  - presh D16 h16.
  - presh D16 h16.
  - intros s _. split; [vm_compute; discriminate|reflexivity].
  - split; [vm_compute; discriminate|reflexivity].
Qed.

(** Without external-vision yaw in the fusion mode mask, at most one of the four. *)
Definition Pnev (s : st) : Prop := gb s F_ev_yaw = false.
Lemma evyaw_never : forall l s, updates (fun p _ => use_evyaw p = false) l -> bis F_ev_yaw false s -> bis F_ev_yaw false (run l s).
Proof.
  apply run_inv_u.
  - papi (D_bis F_ev_yaw false).
  - pres (D_bis F_ev_yaw false).
  - intros p i s H. pres (D_bis F_ev_yaw false).
  - intros p i s H. presh (D_bis F_ev_yaw false) ltac:(idtac; match goal with
      | |- bis F_ev_yaw false (evSelect p i ?s) => unfold evSelect; rewrite H; rewrite !andb_false_r; cbn [andb if_]
      | |- bis F_ev_yaw false (setb F_ev_yaw false _) => reflexivity end).
  - reflexivity.
Qed.
Lemma gpsyaw_never : forall l s, updates (fun p _ => use_gpsyaw p = false) l -> bis F_gps_yaw false s -> bis F_gps_yaw false (run l s).
Proof.
  apply run_inv_u.
  - papi (D_bis F_gps_yaw false).
  - pres (D_bis F_gps_yaw false).
  - intros p i s H. pres (D_bis F_gps_yaw false).
  - intros p i s H. presh (D_bis F_gps_yaw false) ltac:(idtac; match goal with
      | |- bis F_gps_yaw false (controlGpsYawFusion p i ?s) => unfold controlGpsYawFusion; rewrite H; cbn [negb orb]
      | |- bis F_gps_yaw false (setb F_gps_yaw false _) => reflexivity end).
  - reflexivity.
Qed.
Theorem one_yaw_source : forall l, updates (fun p _ => use_evyaw p = false) l \/ updates (fun p _ => use_gpsyaw p = false) l ->
  let s := run l st0 in count [gb s F_mag_hdg; gb s F_mag_3D; gb s F_gps_yaw; gb s F_ev_yaw] <= 1.
Proof.
  intros l H. cbv zeta. pose proof (yaw_source_invariant (run l st0) (ex_intro _ l eq_refl)) as [A B].
  revert A B. unfold other_yaw_on, mag_on.
  destruct H as [H|H].
  - pose proof (evyaw_never l st0 H eq_refl) as E. unfold bis in E. rewrite E.
    destruct (gb _ F_mag_hdg), (gb _ F_mag_3D), (gb _ F_gps_yaw); cbn; intuition (lia || discriminate).
  - pose proof (gpsyaw_never l st0 H eq_refl) as E. unfold bis in E. rewrite E.
    destruct (gb _ F_mag_hdg), (gb _ F_mag_3D), (gb _ F_ev_yaw); cbn; intuition (lia || discriminate).
Qed.

(** *** C17 *)
Definition nomag (s : st) : Prop := mag_on s = false.
Definition Km (k : bk) := match k with F_mag_hdg | F_mag_3D => true | _ => false end.
Lemma D_nomag : dep Km noz false nomag.
Proof. intros s s' H _ _. unfold nomag, mag_on. rewrite !H by reflexivity. auto. Qed.
Lemma nomag_h : forall s, nomag s -> nomag (setb F_mag_hdg false s).
Proof. intros s. unfold nomag, mag_on. cbn. destruct (gb s F_mag_hdg), (gb s F_mag_3D); cbn; congruence. Qed.
Lemma nomag_3 : forall s, nomag s -> nomag (setb F_mag_3D false s).
Proof. intros s. unfold nomag, mag_on. cbn. destruct (gb s F_mag_hdg), (gb s F_mag_3D); cbn; congruence. Qed.
Lemma stopMag_off : forall s, nomag (stopMagFusion s).
Proof.
  intros s. unfold stopMagFusion, stopMagHdgFusion, stopMag3DFusion, nomag, mag_on. destruct (gb s F_mag_3D) eqn:E; cbn; auto.
Qed.
Ltac hm := idtac; match goal with |- nomag (setb F_mag_hdg false _) => apply nomag_h | |- nomag (setb F_mag_3D false _) => apply nomag_3
  | |- nomag (stopMagFusion _) => apply stopMag_off end.
Definition preMag (p : params) (i : inp) (s : st) : st := controlHeightSensorTimeouts p i (cfm_data p i (cfm_tilt p i s)).
Definition postMag (p : params) (i : inp) (s : st) : st :=
  postHeight p i (controlHeightFusion p i (controlDragFusion p i (controlBetaFusion p i (controlAirDataFusion p i
    (controlGpsFusion p i (controlOpticalFlowFusion p i s)))))).
Lemma cfm_splitm : forall p i s, controlFusionModes p i s = postMag p i (controlMagFusion p i (preMag p i s)).
Proof. intros p i s. unfold postMag, preMag, postHeight, controlFusionModes. reflexivity. Qed.
Lemma postMag_nomag : forall p i s, nomag s -> nomag (postMag p i s).
Proof. presh D_nomag hm. Qed.
Lemma mag_fault_pre : forall p i s, gb (preMag p i s) F_mag_fault = gb s F_mag_fault.
Proof. fb. Qed.
Lemma in_air_pre : forall p i s, gb (preMag p i s) F_in_air = gb s F_in_air.
Proof. fb. Qed.
Lemma cmf_head_frame : forall k p i s, k <> F_mag_field_disturbed -> k <> F_mag_aligned_in_flight ->
  gb (magOnGround (checkMagFieldStrength p i s)) k = gb s k.
Proof.
  intros k p i s A B. unfold magOnGround, checkMagFieldStrength. destruct (gb _ F_in_air); cbn;
  repeat match goal with |- context [bk_eqb ?x ?y] => let E := fresh in destruct (bk_eqb x y) eqn:E;
    [apply bk_eqb_true in E; congruence|] end; auto.
Qed.
Theorem mag_fault_stops : forall p i s, p_mag_type p < MAG_NONE -> gb s F_mag_fault = true ->
  mag_on (controlFusionModes p i s) = false.
Proof.
  intros p i s Hp Hf. rewrite cfm_splitm. apply postMag_nomag.
  rewrite <- (mag_fault_pre p i) in Hf. revert Hf. generalize (preMag p i s). clear s. intros s Hf.
  unfold controlMagFusion.
  replace (p_mag_type p >? MAG_NONE) with false by (symmetry; rewrite Z.gtb_ltb; apply Z.ltb_ge; lia).
  replace (p_mag_type p =? MAG_NONE) with false by (symmetry; apply Z.eqb_neq; lia).
  cbv zeta. rewrite cmf_head_frame by discriminate. rewrite Hf. cbn [orb]. apply stopMag_off.
Qed.
Theorem mag_disabled_never_starts : forall l, updates (fun p _ => p_mag_type p >= MAG_NONE) l -> mag_on (run l st0) = false.
Proof.
  intros l H. apply (run_inv_u (fun p _ => p_mag_type p >= MAG_NONE) nomag); [clear|clear|clear|clear|reflexivity|exact H|reflexivity].
  - papi D_nomag.
  - pres D_nomag.
  - intros p i s _. presh D_nomag hm.
  - intros p i s H Hs. rewrite cfm_splitm. apply postMag_nomag.
    assert (X : nomag (preMag p i s)) by (presh D_nomag hm). revert X. generalize (preMag p i s). clear s Hs. intros s X.
    unfold controlMagFusion. destruct (Z.gtb_spec (p_mag_type p) MAG_NONE); auto.
    replace (p_mag_type p =? MAG_NONE) with true by (symmetry; apply Z.eqb_eq; lia). presh D_nomag hm.
Qed.
(** a magnetometer mode that was off can only be on after an update if ... *)
Lemma nomag_stays : forall p i s, mag_on s = false ->
  (p_mag_type p >= MAG_NONE \/ ib i I_mag_ready = false \/ gb s F_mag_fault = true) ->
  mag_on (controlFusionModes p i s) = false.
Proof.
  intros p i s Hs H. change (nomag s) in Hs. rewrite cfm_splitm. apply postMag_nomag.
  assert (X : nomag (preMag p i s)) by (presh D_nomag hm). rewrite <- (mag_fault_pre p i s) in H.
  revert X H. generalize (preMag p i s). clear s Hs. intros s X H.
  unfold controlMagFusion.
  destruct (Z.gtb_spec (p_mag_type p) MAG_NONE); auto.
  destruct (Z.eqb_spec (p_mag_type p) MAG_NONE). { presh D_nomag hm. }
  destruct H as [H|[H|H]]; [lia| |].
  - rewrite H. cbv zeta. rewrite andb_false_r. cbn [if_].
    match goal with |- nomag (if ?b then _ else _) => destruct b end; [apply stopMag_off|]. presh D_nomag hm.
  - cbv zeta. rewrite cmf_head_frame by discriminate. rewrite H. cbn [orb]. apply stopMag_off.
Qed.
(** AUTO mode: 3D fusion is selected only when aligned in flight and after recent suitable movement *)
Lemma magAid_tail3 : forall p i s, gb (magAid p i s) F_mag_3D =
  gb (selectMagMode p i (if gb s F_in_air then runVelPosReset (runInAirYawReset p i (checkHaglYawResetReq i s)) else runOnGroundYawReset p i s)) F_mag_3D.
Proof.
  intros p i s. unfold magAid. cbv zeta. generalize (if gb s F_in_air then runVelPosReset (runInAirYawReset p i (checkHaglYawResetReq i s)) else runOnGroundYawReset p i s).
  intros s1. generalize (selectMagMode p i s1). clear. intros s. fb.
Qed.
Definition Pauto (i : inp) (s : st) : Prop :=
  gb s F_mag_3D = true -> gb s F_mag_aligned_in_flight = true /\ sub64 (iz i J_imu) (gz s T_mov_3d_mag_suitable) < 2000000.
Lemma D_auto : forall i, dep (fun k => match k with F_mag_3D | F_mag_aligned_in_flight => true | _ => false end)
  (fun k => match k with T_mov_3d_mag_suitable => true | _ => false end) false (Pauto i).
Proof. intros i s s' H G _. unfold Pauto. rewrite !H, !G by reflexivity. auto. Qed.
Lemma selectMagAuto_ok : forall i s, Pauto i (selectMagAuto i s).
Proof.
  intros i s. unfold selectMagAuto. cbv zeta. generalize (check3DMagFusionSuitability i s). clear s. intros s.
  unfold canUse3DMagFusion. destruct (gb s F_mag_aligned_in_flight) eqn:A; cbn [andb].
  - destruct (Z.ltb_spec (sub64 (iz i J_imu) (gz s T_mov_3d_mag_suitable)) 2000000).
    + unfold startMag3DFusion, stopMagHdgFusion. destruct (gb s F_mag_3D) eqn:E; cbn [negb if_]; intros _; cbn; auto.
    + intros E. exfalso. revert E. unfold startMagHdgFusion, stopMag3DFusion. destruct (gb s F_mag_3D) eqn:E3; cbn; congruence.
  - intros E. exfalso. revert E. unfold startMagHdgFusion, stopMag3DFusion. destruct (gb s F_mag_3D) eqn:E3; cbn; congruence.
Qed.
Theorem auto_3d_conditions : forall p i s, (p_mag_type p = MAG_AUTO \/ p_mag_type p = 3) ->
  ib i I_mag_ready = true -> noOtherYaw s = true ->
  let s' := controlMagFusion p i s in
  gb s' F_mag_3D = true ->
  gb s F_in_air = true /\ gb s' F_mag_aligned_in_flight = true /\
  0 <= sub64 (iz i J_imu) (gz s' T_mov_3d_mag_suitable) < 2000000 /\ gb s F_mag_fault = false /\ gb s F_yaw_align = true.
Proof.
  intros p i s Hp Hm Hy. cbv zeta. unfold controlMagFusion.
  replace (p_mag_type p >? MAG_NONE) with false by (symmetry; rewrite Z.gtb_ltb; apply Z.ltb_ge; unfold MAG_NONE, MAG_AUTO in *; lia).
  replace (p_mag_type p =? MAG_NONE) with false by (symmetry; apply Z.eqb_neq; unfold MAG_NONE, MAG_AUTO in *; lia).
  cbv zeta. rewrite !cmf_head_frame by discriminate.
  destruct (gb s F_mag_fault || negb (gb s F_yaw_align)) eqn:E.
  { intros H. pose proof (stopMag_off (magOnGround (checkMagFieldStrength p i s))) as X. unfold nomag, mag_on in X.
    rewrite H in X. rewrite orb_true_r in X. discriminate. }
  apply orb_false_iff in E. destruct E as [E1 E2]. apply negb_false_iff in E2.
  assert (Hs : noOtherYaw (otherHeadingStopped (magOnGround (checkMagFieldStrength p i s))) = true).
  { unfold noOtherYaw, otherHeadingStopped. cbn. fold (magOnGround (checkMagFieldStrength p i s)).
    change (negb (gb (magOnGround (checkMagFieldStrength p i s)) F_ev_yaw) && negb (gb (magOnGround (checkMagFieldStrength p i s)) F_gps_yaw) = true).
    rewrite !cmf_head_frame by discriminate. exact Hy. }
  rewrite Hs, Hm. cbn [andb if_].
  set (s1 := otherHeadingStopped (magOnGround (checkMagFieldStrength p i s))) in *.
  assert (Ha : gb s1 F_in_air = gb s F_in_air) by (unfold s1, otherHeadingStopped; cbn; apply cmf_head_frame; discriminate).
  assert (Hng : gb s F_in_air = false -> gb s1 F_mag_aligned_in_flight = false).
  { intros G. unfold s1, otherHeadingStopped, magOnGround, checkMagFieldStrength. cbn. rewrite G. reflexivity. }
  clearbody s1.
  assert (PA : Pauto i (magAid p i s1)).
  { unfold magAid. cbv zeta. generalize (if gb s1 F_in_air then runVelPosReset (runInAirYawReset p i (checkHaglYawResetReq i s1)) else runOnGroundYawReset p i s1).
    intros s2. assert (X : Pauto i (selectMagMode p i s2)).
    { unfold selectMagMode. destruct Hp as [Hp|Hp]; rewrite Hp; cbn; apply selectMagAuto_ok. }
    revert X. generalize (selectMagMode p i s2). clear. intros s X. pres (D_auto i). }
  intros H3. pose proof (PA H3) as [A B].
  assert (IA : gb s F_in_air = true).
  { destruct (gb s F_in_air) eqn:G; auto. specialize (Hng eq_refl).
    assert (X : bis F_mag_aligned_in_flight false (magAid p i s1)).
    { unfold magAid. rewrite Ha. cbv zeta. assert (Y : bis F_mag_aligned_in_flight false s1) by exact Hng.
      revert Y. clear. intros Y. pres (D_bis F_mag_aligned_in_flight false). }
    unfold bis in X. congruence. }
  repeat split; auto. unfold sub64, u64. apply Z.mod_pos_bound. reflexivity.
Qed.

(** *** Alignment flags *)
Lemma tilt_align_stays : forall l s, no_reinit l -> gb s F_tilt_align = true -> gb (run l s) F_tilt_align = true.
Proof.
  intros l s N H. change (bis F_tilt_align true (run l s)). revert l s N H. apply (run_inv4n (bis F_tilt_align true)).
  - papi (D_bis F_tilt_align true).
  - pres (D_bis F_tilt_align true).
  - pres (D_bis F_tilt_align true).
  - presh (D_bis F_tilt_align true) ltac:(idtac; match goal with |- bis F_tilt_align true (setb F_tilt_align true _) => reflexivity end).
Qed.
(** Latched faults *)
Lemma mag_fault_latched : forall l s, no_reinit l -> gb s F_mag_fault = true -> gb (run l s) F_mag_fault = true.
Proof.
  intros l s N H. change (bis F_mag_fault true (run l s)). revert l s N H. apply (run_inv4n (bis F_mag_fault true)).
  - papi (D_bis F_mag_fault true).
  - pres (D_bis F_mag_fault true).
  - pres (D_bis F_mag_fault true).
  - presh (D_bis F_mag_fault true) ltac:(idtac; match goal with |- bis F_mag_fault true (setb F_mag_fault true _) => reflexivity end).
Qed.
Lemma gps_yaw_fault_latched : forall l s, gb s L_is_gps_yaw_faulty = true -> gb (run l s) L_is_gps_yaw_faulty = true.
Proof.
  intros l s H. change (bis L_is_gps_yaw_faulty true (run l s)). revert l s H. apply (run_inv4 (bis L_is_gps_yaw_faulty true)).
  - papi (D_bis L_is_gps_yaw_faulty true).
  - pres (D_bis L_is_gps_yaw_faulty true).
  - pres (D_bis L_is_gps_yaw_faulty true).
  - presh (D_bis L_is_gps_yaw_faulty true) ltac:(idtac; match goal with |- bis L_is_gps_yaw_faulty true (setb L_is_gps_yaw_faulty true _) => reflexivity end).
  - intros s H. exact H.
Qed.
(** Yaw alignment is kept as long as the magnetometer type is one of automatic, heading, 3D (0..2) or none (5). *)
Lemma resetMag_ok : forall p i s, 0 <= p_mag_type p <= 2 -> fst (resetMagHeading p i s) = true.
Proof.
  intros p i s H. unfold resetMagHeading. destruct (_ =? _); auto.
  destruct (Z.geb_spec (p_mag_type p) MAG_NONE); [unfold MAG_NONE in *; lia|]. cbv zeta.
  destruct (gb s F_ev_yaw); auto. destruct (Z.leb_spec (p_mag_type p) MAG_3D); auto. unfold MAG_3D in *; lia.
Qed.
Lemma alignYaw_ok : forall p i s, 0 <= p_mag_type p <= 2 -> bis F_yaw_align true (alignYawToMag p i s).
Proof. intros p i s H. unfold alignYawToMag. cbv zeta. rewrite resetMag_ok by auto. reflexivity. Qed.
Lemma yaw_align_stays : forall l s, no_reinit l -> updates (fun p _ => 0 <= p_mag_type p <= 2) l -> gb s F_yaw_align = true -> gb (run l s) F_yaw_align = true.
Proof.
  intros l s N U H. change (bis F_yaw_align true (run l s)). revert l s N U H. apply (run_inv_un _ (bis F_yaw_align true)).
  - papi (D_bis F_yaw_align true).
  - pres (D_bis F_yaw_align true).
  - intros p i s U. presh (D_bis F_yaw_align true) ltac:(idtac; match goal with |- bis F_yaw_align true (alignYawToMag _ _ _) => apply alignYaw_ok; exact U end).
  - intros p i s U. presh (D_bis F_yaw_align true) ltac:(idtac; match goal with |- bis F_yaw_align true (alignYawToMag _ _ _) => apply alignYaw_ok; exact U
     | |- bis F_yaw_align true (setb F_yaw_align true _) => reflexivity end).
Qed.

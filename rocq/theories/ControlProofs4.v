(** Starting, stopping and time-outs of the aiding sources (C42 ff.). *)
Require Import ZArith Bool List Lia.
Require Import Verif.CBase Verif.GpsModel Verif.ControlModel Verif.ControlTac Verif.ControlSpec Verif.ControlProofs Verif.ControlProofs2 Verif.ControlProofs3.
Import ListNotations.
Local Open Scope Z_scope.

Definition preGps (p : params) (i : inp) (s : st) : st := controlOpticalFlowFusion p i (controlMagFusion p i (preMag p i s)).
Definition postGps (p : params) (i : inp) (s : st) : st :=
  postHeight p i (controlHeightFusion p i (controlDragFusion p i (controlBetaFusion p i (controlAirDataFusion p i s)))).
Lemma cfm_splitg : forall p i s, controlFusionModes p i s = postGps p i (controlGpsFusion p i (preGps p i s)).
Proof. intros p i s. unfold postGps, preGps, preMag, postHeight, controlFusionModes. reflexivity. Qed.
Lemma postGps_gps : forall p i s, gb (postGps p i s) F_gps = gb s F_gps. Proof. fb. Qed.
Lemma preGps_gps : forall p i s, gb (preGps p i s) F_gps = gb s F_gps. Proof. fb. Qed.
Lemma postGps_tilt : forall p i s, gb (postGps p i s) F_tilt_align = gb s F_tilt_align. Proof. fb. Qed.
Lemma postGps_yaw : forall p i s, gb s F_yaw_align = true -> gb (postGps p i s) F_yaw_align = true.
Proof.
  intros p i s H. change (bis F_yaw_align true s) in H. change (bis F_yaw_align true (postGps p i s)).
  presh (D_bis F_yaw_align true) ltac:(idtac; match goal with |- bis F_yaw_align true (setb F_yaw_align true _) => reflexivity end).
Qed.
(** GPS aiding can only be started ... *)
Theorem gps_start_conditions : forall p i s, let s' := controlFusionModes p i s in
  gb s F_gps = false -> gb s' F_gps = true ->
  ib i I_gps_ready = true /\ use_gps p = true /\ gb s' F_tilt_align = true /\ gb s' F_yaw_align = true /\
  ib i I_ned_origin = true /\ is_timed_out (iz i J_now) (iz i J_gps_fail) 5000000 = true.
Proof.
  intros p i s. cbv zeta. rewrite cfm_splitg. rewrite postGps_gps, postGps_tilt. rewrite <- (preGps_gps p i s).
  generalize (preGps p i s). clear s. intros s H0.
  unfold controlGpsFusion. destruct (ib i I_gps_ready) eqn:R.
  2: { rewrite H0. cbn [andb if_]. rewrite H0. discriminate. }
  intros H1.
  assert (G : let s1 := gpsSelect p i (controlGpsYawFusion p i s) in gb s1 F_gps = true ->
     use_gps p = true /\ gb s1 F_tilt_align = true /\ gb s1 F_yaw_align = true /\
     ib i I_ned_origin = true /\ is_timed_out (iz i J_now) (iz i J_gps_fail) 5000000 = true).
  { assert (X : gb (controlGpsYawFusion p i s) F_gps = false) by (rewrite <- H0; fb).
    revert X. generalize (controlGpsYawFusion p i s). clear. intros s H0. cbv zeta. unfold gpsSelect. rewrite H0. cbn [negb].
    rewrite andb_true_r. destruct (use_gps p); cbn [negb if_]; [|cbn; discriminate].
    destruct (gb s F_tilt_align) eqn:T; cbn [andb if_]; [|rewrite H0; discriminate].
    destruct (ib i I_ned_origin); cbn [andb if_]; [|rewrite H0; discriminate].
    unfold timed_out. destruct (is_timed_out _ _ _); cbn [if_]; [|rewrite H0; discriminate].
    unfold gpsTryStart. cbv zeta.
    match goal with |- gb (if_ _ _ ?x) _ = true -> _ => set (s1 := x);
      assert (X1 : gb s1 F_gps = false) by (unfold s1; rewrite <- H0; fb);
      assert (X2 : gb s1 F_tilt_align = true) by (unfold s1; rewrite <- T; fb) end.
    clearbody s1. destruct (gb s1 F_yaw_align) eqn:Y; cbn [if_]; [|rewrite X1; discriminate].
    intros _. cbn. rewrite Y. auto. }
  cbv zeta in G. revert H1. unfold gpsNew.
  revert G. generalize (gpsSelect p i (controlGpsYawFusion p i s)). clear s H0. intros s G. cbv zeta.
  assert (Q : bis F_tilt_align (gb s F_tilt_align) (if_ (gb (if_ (gb (gsfAlign p i (gpsQualityStop p i s)) F_gps) (gpsRecover p i) (gsfAlign p i (gpsQualityStop p i s))) F_gps) (gpsFuse i)
     (if_ (gb (gsfAlign p i (gpsQualityStop p i s)) F_gps) (gpsRecover p i) (gsfAlign p i (gpsQualityStop p i s))))).
  { assert (bis F_tilt_align (gb s F_tilt_align) s) by reflexivity. pres (D_bis F_tilt_align (gb s F_tilt_align)). }
  intros H1.
  assert (Q2 : gb s F_gps = true).
  { destruct (gb s F_gps) eqn:E; auto. exfalso.
    assert (W : bis F_gps false (if_ (gb (if_ (gb (gsfAlign p i (gpsQualityStop p i s)) F_gps) (gpsRecover p i) (gsfAlign p i (gpsQualityStop p i s))) F_gps) (gpsFuse i)
     (if_ (gb (gsfAlign p i (gpsQualityStop p i s)) F_gps) (gpsRecover p i) (gsfAlign p i (gpsQualityStop p i s))))).
    { assert (bis F_gps false s) by exact E. presh (D_bis F_gps false) ltac:(idtac; match goal with |- bis F_gps false (setb F_gps false _) => reflexivity end). }
    unfold bis in W. congruence. }
  destruct (G Q2) as (A & B & C & D & E). unfold bis in Q. split; [reflexivity|]. split; [exact A|].
  split; [rewrite Q; exact B|]. split; [|auto].
  apply postGps_yaw.
  match goal with |- gb ?x _ = true => change (bis F_yaw_align true x) end. assert (bis F_yaw_align true s) by exact C.
  presh (D_bis F_yaw_align true) ltac:(idtac; match goal with |- bis F_yaw_align true (setb F_yaw_align true _) => reflexivity end).
Qed.

(** GPS samples missing *)
Lemma preGps_sample : forall p i s, ib i I_gps_ready = false -> gz (preGps p i s) T_gps_sample = gz s T_gps_sample.
Proof.
  intros p i s H. change (zis T_gps_sample (gz s T_gps_sample) (preGps p i s)). assert (zis T_gps_sample (gz s T_gps_sample) s) by reflexivity.
  presh (D_zis T_gps_sample (gz s T_gps_sample)) ltac:(idtac; match goal with
    | |- zis T_gps_sample _ (if_ (ib i I_gps_ready) _ ?s) => rewrite H; cbn [if_] end).
Qed.
Theorem gps_lost_stops : forall p i s, let s' := controlFusionModes p i s in
  ib i I_gps_ready = false -> sub64 (iz i J_imu) (gz s T_gps_sample) > 10000000 -> gb s' F_gps = false.
Proof.
  intros p i s. cbv zeta. intros R Hs. rewrite <- (preGps_sample p i s R) in Hs. rewrite cfm_splitg, postGps_gps.
  revert Hs. generalize (preGps p i s). clear s. intros s Hs. unfold controlGpsFusion. rewrite R.
  replace (sub64 (iz i J_imu) (gz s T_gps_sample) >? 10000000) with true by (symmetry; apply Z.gtb_lt; lia).
  destruct (gb s F_gps) eqn:E; cbn [andb if_]; [reflexivity|exact E].
Qed.
(** the other-source flag as seen at this point of the cycle *)
Theorem gps_lost_other_source_stops : forall p i s, let s' := controlFusionModes p i s in
  ib i I_gps_ready = false -> sub64 (iz i J_imu) (gz s T_gps_sample) > 1000000 ->
  (gb s F_ev_pos = true \/ gb s F_ev_vel = true \/ (gb s F_fuse_aspd = true /\ gb s F_fuse_beta = true)) -> gb s' F_gps = false.
Proof.
  intros p i s. cbv zeta. intros R Hs Ho. rewrite <- (preGps_sample p i s R) in Hs. rewrite cfm_splitg, postGps_gps.
  assert (Ho' : let s := preGps p i s in (gb s F_ev_pos = true \/ gb s F_ev_vel = true \/ (gb s F_fuse_aspd = true /\ gb s F_fuse_beta = true))).
  { cbv zeta. replace (gb (preGps p i s) F_ev_pos) with (gb s F_ev_pos) by (symmetry; fb).
    replace (gb (preGps p i s) F_ev_vel) with (gb s F_ev_vel) by (symmetry; fb).
    replace (gb (preGps p i s) F_fuse_aspd) with (gb s F_fuse_aspd) by (symmetry; fb).
    replace (gb (preGps p i s) F_fuse_beta) with (gb s F_fuse_beta) by (symmetry; fb). exact Ho. }
  revert Hs Ho'. generalize (preGps p i s). clear s Ho. intros s Hs Ho. cbv zeta in Ho. unfold controlGpsFusion. rewrite R.
  destruct (gb s F_gps) eqn:E; cbn [andb if_].
  2: { exact E. }
  destruct (sub64 (iz i J_imu) (gz s T_gps_sample) >? 10000000); [reflexivity|].
  replace (sub64 (iz i J_imu) (gz s T_gps_sample) >? 1000000) with true by (symmetry; apply Z.gtb_lt; lia).
  assert (O : other_than true s = true).
  { unfold other_than, n_sources. rewrite E. destruct Ho as [H|[H|[H H']]]; rewrite ?H, ?H'; cbn;
    repeat match goal with |- context [gb s ?k] => destruct (gb s k) end; reflexivity. }
  rewrite O. reflexivity.
Qed.
(** GPS quality lost while another source is available *)
Theorem gps_quality_lost_stops : forall p i s, let s' := controlFusionModes p i s in
  ib i I_gps_ready = true -> is_timed_out (iz i J_now) (iz i J_gps_pass) 5000000 = true ->
  (gb s F_ev_pos = true \/ gb s F_ev_vel = true \/ (gb s F_fuse_aspd = true /\ gb s F_fuse_beta = true)) -> gb s' F_gps = false.
Proof.
  intros p i s. cbv zeta. intros R Hs Ho. rewrite cfm_splitg, postGps_gps.
  assert (Ho' : let s := gpsSelect p i (controlGpsYawFusion p i (preGps p i s)) in
     (gb s F_ev_pos = true \/ gb s F_ev_vel = true \/ (gb s F_fuse_aspd = true /\ gb s F_fuse_beta = true))).
  { cbv zeta. set (s1 := gpsSelect p i (controlGpsYawFusion p i (preGps p i s))).
    replace (gb s1 F_ev_pos) with (gb s F_ev_pos) by (symmetry; unfold s1; fb).
    replace (gb s1 F_ev_vel) with (gb s F_ev_vel) by (symmetry; unfold s1; fb).
    replace (gb s1 F_fuse_aspd) with (gb s F_fuse_aspd) by (symmetry; unfold s1; fb).
    replace (gb s1 F_fuse_beta) with (gb s F_fuse_beta) by (symmetry; unfold s1; fb). exact Ho. }
  unfold controlGpsFusion. rewrite R. unfold gpsNew.
  revert Ho'. cbv zeta. generalize (gpsSelect p i (controlGpsYawFusion p i (preGps p i s))). clear s Ho. intros s Ho.
  assert (X : bis F_gps false (gpsQualityStop p i s)).
  { unfold gpsQualityStop. unfold timed_out. rewrite Hs. rewrite andb_true_r.
    destruct (gb s F_gps) eqn:E; cbn [andb]; [|exact E].
    assert (O : other_than true s = true).
    { unfold other_than, n_sources. rewrite E. destruct Ho as [H|[H|[H H']]]; rewrite ?H, ?H'; cbn;
      repeat match goal with |- context [gb s ?k] => destruct (gb s k) end; reflexivity. }
    rewrite O. cbn [if_]. destruct (_ && _); reflexivity. }
  revert X. generalize (gpsQualityStop p i s). clear s Ho. intros s X.
  match goal with |- gb ?x F_gps = false => change (bis F_gps false x) end.
  pres (D_bis F_gps false).
Qed.
(** disabled by parameter *)
Theorem gps_disabled_stops : forall p i s, ib i I_gps_ready = true -> use_gps p = false -> gb (controlFusionModes p i s) F_gps = false.
Proof.
  intros p i s R U. rewrite cfm_splitg, postGps_gps. unfold controlGpsFusion. rewrite R. unfold gpsNew.
  generalize (preGps p i s). clear s. intros s. cbv zeta.
  assert (X : bis F_gps false (gpsSelect p i (controlGpsYawFusion p i s))).
  { unfold gpsSelect. rewrite U. reflexivity. }
  revert X. generalize (gpsSelect p i (controlGpsYawFusion p i s)). clear s. intros s X.
  match goal with |- gb ?x F_gps = false => change (bis F_gps false x) end.
  presh (D_bis F_gps false) ltac:(idtac; match goal with |- bis F_gps false (setb F_gps false _) => reflexivity end).
Qed.
(** GPS yaw without GPS aiding is never stopped when GPS data stop *)
Lemma gps_yaw_stale1 : forall p i s, ib i I_gps_ready = false ->
  gb s F_gps = false -> gb s F_gps_yaw = true ->
  gb (controlFusionModes p i s) F_gps = false /\ gb (controlFusionModes p i s) F_gps_yaw = true.
Proof.
  intros p i s R H0 H1. rewrite cfm_splitg, postGps_gps.
  assert (X : bis F_gps_yaw true (preGps p i s)).
  { assert (bis F_gps_yaw true s) by exact H1. pres (D_bis F_gps_yaw true). }
  rewrite <- (preGps_gps p i s) in H0. revert H0 X. generalize (preGps p i s). clear s H1. intros s H0 H1.
  unfold controlGpsFusion. rewrite R, H0. cbn [andb if_]. split; [exact H0|].
  match goal with |- gb ?x F_gps_yaw = true => change (bis F_gps_yaw true x) end. pres (D_bis F_gps_yaw true).
Qed.
Theorem gps_yaw_stale : forall l s, no_reinit l -> updates (fun p i => ib i I_gps_ready = false) l ->
  gb s F_gps = false -> gb s F_gps_yaw = true -> gb (run l s) F_gps_yaw = true.
Proof.
  intros l s N U H0 H1.
  refine (proj2 (run_inv_un (fun p i => ib i I_gps_ready = false) (fun s => bis F_gps false s /\ bis F_gps_yaw true s) _ _ _ _ l s N U (conj H0 H1))).
  - intros a s1 [A B]. split; destruct a; try (exact A); exact B.
  - intros s1 [A B]. split; assumption.
  - intros p i s1 R [A B]. split; [pres (D_bis F_gps false)|pres (D_bis F_gps_yaw true)].
  - intros p i s1 R [A B]. apply (gps_yaw_stale1 p i s1); auto.
Qed.

(** External vision *)
Definition preEv (p : params) (i : inp) (s : st) : st := controlHeightFusion p i (preHeight p i s).
Definition postEv (p : params) (i : inp) (s : st) : st :=
  update_deadreckoning_status p i (controlFakePosFusion i (controlAuxVelFusion i s)).
Lemma cfm_splite : forall p i s, controlFusionModes p i s = postEv p i (controlExternalVisionFusion p i (preEv p i s)).
Proof. intros p i s. unfold postEv, preEv, preHeight, controlFusionModes. reflexivity. Qed.
Lemma postEv_pos : forall p i s, gb (postEv p i s) F_ev_pos = gb s F_ev_pos. Proof. fb. Qed.
Lemma postEv_vel : forall p i s, gb (postEv p i s) F_ev_vel = gb s F_ev_vel. Proof. fb. Qed.
Lemma postEv_yaw : forall p i s, gb (postEv p i s) F_ev_yaw = gb s F_ev_yaw. Proof. fb. Qed.
Theorem ev_lost_stops : forall p i s, let s' := controlFusionModes p i s in
  ib i I_ev_ready = false -> is_timed_out (iz i J_now) (iz i J_ext_vision) (p_reset_timeout p) = true ->
  gb s' F_ev_pos = false /\ gb s' F_ev_vel = false /\ gb s' F_ev_yaw = false.
Proof.
  intros p i s. cbv zeta. intros R T. rewrite cfm_splite, postEv_pos, postEv_vel, postEv_yaw. generalize (preEv p i s). clear s. intros s.
  unfold controlExternalVisionFusion. rewrite R. unfold timed_out. rewrite T. rewrite andb_true_r.
  destruct (gb s F_ev_pos) eqn:A, (gb s F_ev_vel) eqn:B, (gb s F_ev_yaw) eqn:C; cbn [orb if_]; rewrite ?A, ?B, ?C; auto.
Qed.
(** clearing the external-vision bits of the fusion mode at run time does not stop the fusion while data arrive *)
Theorem ev_disabled_not_stopped : forall p i s, ib i I_ev_ready = true -> gb s F_ev_pos = true ->
  gb (controlFusionModes p i s) F_ev_pos = true.
Proof.
  intros p i s R H. rewrite cfm_splite, postEv_pos.
  assert (X : bis F_ev_pos true (preEv p i s)). { assert (bis F_ev_pos true s) by exact H. pres (D_bis F_ev_pos true). }
  revert X. generalize (preEv p i s). clear s H. intros s X. unfold controlExternalVisionFusion. rewrite R.
  match goal with |- gb ?x F_ev_pos = true => change (bis F_ev_pos true x) end.
  presh (D_bis F_ev_pos true) ltac:(idtac; match goal with |- bis F_ev_pos true (setb F_ev_pos true _) => reflexivity end).
Qed.
Lemma ev_start1 : forall p i s, ib i I_ev_ready = true -> gb s F_tilt_align = true -> gb s F_yaw_align = true ->
  is_recent (iz i J_now) (iz i J_ext_vision) 400000 = true -> use_evpos p = true ->
  gb (evSelect p i s) F_ev_pos = true.
Proof.
  intros p i s R T Y Rc U. unfold evSelect, recent. rewrite Rc, T, Y, U. cbv zeta. cbn [andb if_].
  assert (X : bis F_ev_pos true (if_ (negb (gb s F_ev_pos)) startEvPosFusion s)).
  { destruct (gb s F_ev_pos) eqn:E; cbn [negb if_]; [exact E|reflexivity]. }
  revert X. generalize (if_ (negb (gb s F_ev_pos)) startEvPosFusion s). intros s1 X.
  match goal with |- gb ?x F_ev_pos = true => change (bis F_ev_pos true x) end.
  pres (D_bis F_ev_pos true).
Qed.
Lemma evpost_gps : forall p i s, gb (postEv p i (controlExternalVisionFusion p i s)) F_gps = gb s F_gps. Proof. fb. Qed.
Lemma evpost_tilt : forall p i s, gb (postEv p i (controlExternalVisionFusion p i s)) F_tilt_align = gb s F_tilt_align. Proof. fb. Qed.
(** external vision yaw is never started while GPS aiding is active *)
Theorem ev_yaw_start_conditions : forall p i s, let s' := controlFusionModes p i s in
  gb s F_ev_yaw = false -> gb s' F_ev_yaw = true ->
  ib i I_ev_ready = true /\ use_evyaw p = true /\ gb s' F_gps = false /\ gb s' F_tilt_align = true /\
  is_recent (iz i J_now) (iz i J_ext_vision) 400000 = true.
Proof.
  intros p i s. cbv zeta. intros H0. rewrite cfm_splite, postEv_yaw.
  rewrite evpost_gps, evpost_tilt.
  assert (X : bis F_ev_yaw false (preEv p i s)).
  { assert (bis F_ev_yaw false s) by exact H0. presh (D_bis F_ev_yaw false) ltac:(idtac; match goal with |- bis F_ev_yaw false (setb F_ev_yaw false _) => reflexivity end). }
  revert X. generalize (preEv p i s). clear s H0. intros s X.
  unfold controlExternalVisionFusion. destruct (ib i I_ev_ready) eqn:R.
  2: { intros H. exfalso. assert (Y : bis F_ev_yaw false (if_ ((gb s F_ev_pos || gb s F_ev_vel || gb s F_ev_yaw) && timed_out i (iz i J_ext_vision) (p_reset_timeout p)) stopEvFusion s)).
       { presh (D_bis F_ev_yaw false) ltac:(idtac; match goal with |- bis F_ev_yaw false (setb F_ev_yaw false _) => reflexivity end). }
       unfold bis in Y. congruence. }
  intros H. assert (H' : gb (evSelect p i s) F_ev_yaw = true).
  { rewrite <- H. symmetry. generalize (evSelect p i s). clear. intros s. fb. }
  clear H. revert H'. unfold evSelect. cbv zeta. unfold recent.
  destruct (is_recent _ _ _) eqn:Rc.
  2: { rewrite !andb_false_r. cbn [if_]. unfold bis in X. rewrite X. discriminate. }
  rewrite !andb_true_r.
  set (s1 := if_ (gb s F_tilt_align && gb s F_yaw_align) _ s).
  assert (A : gb s1 F_gps = gb s F_gps) by (unfold s1; fb).
  assert (B : gb s1 F_tilt_align = gb s F_tilt_align) by (unfold s1; fb).
  assert (C : gb s1 F_ev_yaw = false) by (unfold bis in X; rewrite <- X; unfold s1; fb).
  clearbody s1. rewrite A, B, C. cbn [negb]. rewrite andb_true_r.
  destruct (gb s F_gps), (use_evyaw p), (gb s F_tilt_align); cbn [negb andb if_]; try (rewrite C; discriminate). auto.
Qed.

(** Optical flow *)
Lemma postFlow_flow : forall p i s, gb (postGps p i (controlGpsFusion p i s)) F_opt_flow = gb s F_opt_flow. Proof. fb. Qed.
Lemma postFlow_ready : forall p i s, gb (postGps p i (controlGpsFusion p i s)) L_flow_data_ready = gb s L_flow_data_ready. Proof. fb. Qed.
Lemma cfm_splitf : forall p i s, controlFusionModes p i s =
  postGps p i (controlGpsFusion p i (controlOpticalFlowFusion p i (controlMagFusion p i (preMag p i s)))).
Proof. intros p i s. rewrite cfm_splitg. unfold preGps. reflexivity. Qed.
Theorem flow_disabled_stops : forall p i s, use_of p = false ->
  gb (controlFusionModes p i s) F_opt_flow = true ->
  gb s F_opt_flow = true /\ gb (controlFusionModes p i s) L_flow_data_ready = false.
Proof.
  intros p i s U H. rewrite cfm_splitf in *. rewrite postFlow_flow in H.
  rewrite postFlow_ready.
  assert (E : gb (controlMagFusion p i (preMag p i s)) F_opt_flow = gb s F_opt_flow) by fb.
  rewrite <- E. revert H. generalize (controlMagFusion p i (preMag p i s)). clear s E. intros s.
  unfold controlOpticalFlowFusion.
  assert (E : gb (flowQuality i (flowMotion i s)) F_opt_flow = gb s F_opt_flow) by fb. rewrite <- E. clear E.
  generalize (flowQuality i (flowMotion i s)). clear s. intros s. cbv zeta.
  destruct (gb s L_flow_data_ready) eqn:R.
  - unfold flowUse. rewrite U. cbn [negb orb andb]. rewrite andb_true_r. cbv zeta.
    cbn. destruct (gb s F_opt_flow) eqn:E; cbn; [discriminate|]. rewrite E. discriminate.
  - destruct (gb s F_opt_flow) eqn:E; cbn [andb]; [|cbn; congruence]. destruct (_ >? _); cbn; auto.
Qed.
Theorem flow_lost_stops : forall p i s, let s' := controlFusionModes p i s in
  gb s L_flow_data_ready = false -> ib i I_flow_pop = false ->
  iz i J_imu > add64 (gz s T_flow_sample) 10000000 -> gb s' F_opt_flow = false.
Proof.
  intros p i s. cbv zeta. intros Hr Hp Ht. rewrite cfm_splitf, postFlow_flow.
  assert (A : bis L_flow_data_ready false (flowQuality i (flowMotion i (controlMagFusion p i (preMag p i s))))).
  { assert (bis L_flow_data_ready false s) by exact Hr.
    presh (D_bis L_flow_data_ready false) ltac:(idtac; match goal with
      | |- bis L_flow_data_ready false (setb L_flow_data_ready (ib i I_flow_pop) _) => rewrite Hp; reflexivity
      | |- bis L_flow_data_ready false (setb L_flow_data_ready false _) => reflexivity end). }
  assert (B : zis T_flow_sample (gz s T_flow_sample) (flowQuality i (flowMotion i (controlMagFusion p i (preMag p i s))))).
  { assert (zis T_flow_sample (gz s T_flow_sample) s) by reflexivity.
    presh (D_zis T_flow_sample (gz s T_flow_sample)) ltac:(idtac; match goal with
      | |- zis T_flow_sample _ (if_ (ib i I_flow_pop) _ _) => rewrite Hp; cbn [if_] end). }
  unfold controlOpticalFlowFusion. revert A B. generalize (flowQuality i (flowMotion i (controlMagFusion p i (preMag p i s)))).
  intros s1 A B. cbv zeta. rewrite A, B. destruct (gb s1 F_opt_flow) eqn:E; cbn [andb if_]; [|exact E].
  replace (iz i J_imu >? add64 (gz s T_flow_sample) 10000000) with true by (symmetry; apply Z.gtb_lt; lia). reflexivity.
Qed.

(** Synthetic position *)
Definition preFake (p : params) (i : inp) (s : st) : st := controlAuxVelFusion i (controlExternalVisionFusion p i (preEv p i s)).
Lemma cfm_splitk : forall p i s, controlFusionModes p i s = update_deadreckoning_status p i (controlFakePosFusion i (preFake p i s)).
Proof. intros p i s. unfold preFake, preEv, preHeight, controlFusionModes. reflexivity. Qed.
Lemma aiding_spec : forall s, aiding_active s = horizontal_aiding s.
Proof.
  intros s. unfold aiding_active, n_sources, horizontal_aiding.
  destruct (gb s F_gps), (gb s F_opt_flow), (gb s F_ev_pos), (gb s F_ev_vel), (gb s F_fuse_aspd), (gb s F_fuse_beta); reflexivity.
Qed.
Theorem synthetic_iff_no_aiding : forall p i s, let s' := controlFusionModes p i s in
  gb s' L_using_synthetic_position = negb (horizontal_aiding s').
Proof.
  intros p i s. cbv zeta. rewrite cfm_splitk. generalize (preFake p i s). clear s. intros s.
  unfold horizontal_aiding. rewrite !dr_frame_b by reflexivity.
  set (s' := controlFakePosFusion i s).
  assert (E : horizontal_aiding s' = horizontal_aiding s).
  { unfold horizontal_aiding.
    replace (gb s' F_gps) with (gb s F_gps) by (symmetry; unfold s'; fb).
    replace (gb s' F_opt_flow) with (gb s F_opt_flow) by (symmetry; unfold s'; fb).
    replace (gb s' F_ev_pos) with (gb s F_ev_pos) by (symmetry; unfold s'; fb).
    replace (gb s' F_ev_vel) with (gb s F_ev_vel) by (symmetry; unfold s'; fb).
    replace (gb s' F_fuse_aspd) with (gb s F_fuse_aspd) by (symmetry; unfold s'; fb).
    replace (gb s' F_fuse_beta) with (gb s F_fuse_beta) by (symmetry; unfold s'; fb). reflexivity. }
  change (gb s' L_using_synthetic_position = negb (horizontal_aiding s')). rewrite E. unfold s', controlFakePosFusion.
  rewrite aiding_spec. destruct (horizontal_aiding s) eqn:H; cbn [negb andb].
  - reflexivity.
  - unfold horizontal_aiding in H. destruct (gb s F_fuse_aspd && gb s F_fuse_beta) eqn:Q; cbn [negb andb].
    + rewrite orb_true_r in H. discriminate.
    + cbv zeta. match goal with |- gb ?x _ = _ => change (bis L_using_synthetic_position true x) end.
      assert (X : bis L_using_synthetic_position true (setb L_using_synthetic_position true s)) by reflexivity.
      revert X. generalize (setb L_using_synthetic_position true s). clear. intros s X. pres (D_bis L_using_synthetic_position true).
Qed.
(** The fake position is fused at most every 200 ms and only without aiding. *)
Lemma preFake_t : forall p i s, gz (preFake p i s) T_fake_pos = gz s T_fake_pos. Proof. fz. Qed.
Theorem fake_pos_rate : forall p i s, let s' := controlFusionModes p i s in
  gz s' T_fake_pos <> gz s T_fake_pos ->
  gz s' T_fake_pos = iz i J_now /\ is_timed_out (iz i J_now) (gz s T_fake_pos) 200000 = true /\ horizontal_aiding s' = false.
Proof.
  intros p i s. cbv zeta. intros H. pose proof (synthetic_iff_no_aiding p i s) as S. cbv zeta in S.
  revert H S. rewrite <- (preFake_t p i s). rewrite cfm_splitk. generalize (preFake p i s). clear s. intros s.
  rewrite !dr_frame_z by discriminate. rewrite dr_frame_b by reflexivity. intros H S.
  revert H S. unfold controlFakePosFusion.
  destruct (negb (aiding_active s) && _) eqn:A; [|intros H; exfalso; apply H; reflexivity]. cbv zeta. unfold timed_out.
  change (gz (setb L_using_synthetic_position true s) T_fake_pos) with (gz s T_fake_pos).
  destruct (is_timed_out (iz i J_now) (gz s T_fake_pos) 200000) eqn:T; [|intros H; exfalso; apply H; reflexivity].
  cbn [if_]. intros H S.
  assert (X : bis L_using_synthetic_position true (fakePos i (setb L_using_synthetic_position true s))).
  { assert (X : bis L_using_synthetic_position true (setb L_using_synthetic_position true s)) by reflexivity.
    revert X. generalize (setb L_using_synthetic_position true s). clear. intros s X. pres (D_bis L_using_synthetic_position true). }
  unfold bis in X. rewrite X in S. split; [|split; [reflexivity|destruct (horizontal_aiding _); [discriminate|reflexivity]]].
  unfold fakePos. cbv zeta. match goal with |- gz (fuseHorPos i ?b (setz T_fake_pos ?v ?x)) _ = _ =>
    assert (Y : zis T_fake_pos v (setz T_fake_pos v x)) by reflexivity; generalize dependent (setz T_fake_pos v x) end.
  intros s1 Y. match goal with |- gz ?x ?k = ?v => change (zis k v x) end. pres (D_zis T_fake_pos (iz i J_now)).
Qed.

(** Vehicle state flags are only changed by the interface calls. *)
Theorem vehicle_flags_kept : forall p i s, let s' := controlFusionModes p i s in
  gb s' F_in_air = gb s F_in_air /\ gb s' F_fixed_wing = gb s F_fixed_wing /\ gb s' F_fuse_beta = gb s F_fuse_beta /\
  gb s' F_vehicle_at_rest = gb s F_vehicle_at_rest.
Proof. intros p i s. cbv zeta. split; [fb|split; [fb|split; fb]]. Qed.
Definition Paspd (i : inp) (s : st) : Prop := gb s F_fuse_aspd = true -> is_timed_out (iz i J_now) (gz s T_arsp_fuse) 10000000 = false.
Lemma D_aspd : forall i, dep (bk_eqb F_fuse_aspd) (zk_eqb T_arsp_fuse) false (Paspd i).
Proof. intros i s s' H G _. unfold Paspd. rewrite H, G by reflexivity. auto. Qed.
(** Airspeed fusion is reported only with a fusion in the last ten seconds. *)
Theorem aspd_recent : forall p i s, let s' := controlFusionModes p i s in
  0 <= iz i J_now < horizon -> gb s' F_fuse_aspd = true -> is_timed_out (iz i J_now) (gz s' T_arsp_fuse) 10000000 = false.
Proof.
  intros p i s. cbv zeta. intros Hn.
  assert (E : forall s, gb (postHeight p i (controlHeightFusion p i (controlDragFusion p i (controlBetaFusion p i s)))) F_fuse_aspd = gb s F_fuse_aspd) by fb.
  assert (F : forall s, gz (postHeight p i (controlHeightFusion p i (controlDragFusion p i (controlBetaFusion p i s)))) T_arsp_fuse = gz s T_arsp_fuse) by fz.
  rewrite cfm_splitg. unfold postGps. rewrite E, F. generalize (controlGpsFusion p i (preGps p i s)). clear - Hn. intros s.
  assert (Z0 : is_timed_out (iz i J_now) (iz i J_now) 10000000 = false).
  { unfold is_timed_out. unfold horizon in Hn. rewrite add64_small by lia. apply Z.ltb_ge. lia. }
  change (Paspd i (controlAirDataFusion p i s)).
  unfold controlAirDataFusion. cbv zeta. unfold timed_out.
  set (b := is_timed_out (iz i J_now) (gz s T_beta_fuse) 10000000). clearbody b.
  match goal with |- context [if_ (gb s F_wind && ?x) ?f s] => set (s1 := if_ (gb s F_wind && x) f s);
    assert (E1 : gz s1 T_arsp_fuse = gz s T_arsp_fuse) by (unfold s1; fz) end. clearbody s1. rewrite <- E1.
  match goal with |- Paspd i (if_ _ _ ?x) => assert (X : Paspd i x) end.
  { unfold Paspd. destruct (gb s1 F_fuse_aspd) eqn:A, (is_timed_out (iz i J_now) (gz s1 T_arsp_fuse) 10000000) eqn:T; cbn; auto; try congruence. }
  revert X. match goal with |- Paspd i ?x -> _ => generalize x end. intros s2 X.
  presh (D_aspd i) ltac:(idtac; match goal with
    | |- Paspd i (setb F_fuse_aspd true (setz T_arsp_fuse (iz i J_now) _)) => intros _; exact Z0
    | |- Paspd i (setz T_arsp_fuse (iz i J_now) _) => intros _; exact Z0 end).
Qed.

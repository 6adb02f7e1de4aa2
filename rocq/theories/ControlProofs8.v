(** Proofs: in-flight heading reset and the reset to GPS after a timeout. *)
Require Import ZArith Bool List Lia.
Require Import Verif.CBase Verif.GpsModel Verif.ControlModel Verif.ControlSpec Verif.ControlTac Verif.ControlProofs Verif.ControlProofs2 Verif.ControlProofs3 Verif.ControlProofs4 Verif.ControlProofs5 Verif.ControlProofs6 Verif.ControlProofs7.
Import ListNotations.
Local Open Scope Z_scope.
Local Open Scope ctl_scope.

Section Yaw.
Variable (p : params) (i : inp).
Hypothesis MT : 0 <= p_mag_type p <= 2.
Lemma not_none : (p_mag_type p >=? MAG_NONE) = false. Proof. rewrite Z.geb_leb. apply Z.leb_gt. unfold MAG_NONE. lia. Qed.
Lemma not_none2 : (p_mag_type p =? MAG_NONE) = false. Proof. apply Z.eqb_neq. unfold MAG_NONE. lia. Qed.
Lemma reset_head : forall s, fst (resetMagHeading p i s) = true /\ gz (snd (resetMagHeading p i s)) T_flt_mag_align = iz i J_imu.
Proof.
  intros s. unfold resetMagHeading. destruct (Z.eqb_spec (iz i J_imu) (gz s T_flt_mag_align)) as [E|E]; [split; [reflexivity|symmetry; exact E]|].
  rewrite not_none. cbv zeta. replace (p_mag_type p <=? MAG_3D) with true by (symmetry; apply Z.leb_le; unfold MAG_3D; lia).
  destruct (gb s F_ev_yaw); split; reflexivity.
Qed.
Lemma realign_head : forall s, fst (realignYawGPS p i s) = true /\ gz (snd (realignYawGPS p i s)) T_flt_mag_align = iz i J_imu.
Proof.
  intros s. unfold realignYawGPS. destruct (negb (ib i I_gps_speed_ok)); [apply reset_head|]. cbv zeta.
  destruct (_ || _); split; reflexivity.
Qed.
Lemma tail_req : forall s, gb (magTail p i s) L_mag_yaw_reset_req = gb s L_mag_yaw_reset_req. Proof. fb. Qed.
Lemma tail_al : forall s, gb (magTail p i s) F_mag_aligned_in_flight = gb s F_mag_aligned_in_flight. Proof. fb. Qed.
Lemma tail_z : forall s, gz (magTail p i s) T_flt_mag_align = gz s T_flt_mag_align. Proof. fz. Qed.
Lemma vp_req : forall s, gb (runVelPosReset s) L_mag_yaw_reset_req = gb s L_mag_yaw_reset_req. Proof. fb. Qed.
Lemma vp_al : forall s, gb (runVelPosReset s) F_mag_aligned_in_flight = gb s F_mag_aligned_in_flight. Proof. fb. Qed.
Lemma vp_z : forall s, gz (runVelPosReset s) T_flt_mag_align = gz s T_flt_mag_align. Proof. fz. Qed.
(** after the magnetometer step, without new GPS data and with an aligned heading *)
Lemma post_req : forall s, ib i I_gps_ready = false -> gb (postMag p i s) L_mag_yaw_reset_req = gb s L_mag_yaw_reset_req.
Proof. intros s G. fb. Qed.
Lemma post_al : forall s, ib i I_gps_ready = false -> gb (postMag p i s) F_mag_aligned_in_flight = gb s F_mag_aligned_in_flight.
Proof.
  intros s G. match goal with |- gb ?x ?k = ?v => change (bis k v x) end.
  assert (bis F_mag_aligned_in_flight (gb s F_mag_aligned_in_flight) s) by reflexivity.
  presh (D_bis F_mag_aligned_in_flight (gb s F_mag_aligned_in_flight)) ltac:(idtac; match goal with |- bis _ _ (controlGpsFusion p i ?s) => unfold controlGpsFusion; rewrite G end).
Qed.
Lemma post_z : forall s, gz s T_flt_mag_align = iz i J_imu -> gz (postMag p i s) T_flt_mag_align = iz i J_imu.
Proof.
  intros s H. match goal with |- gz ?x ?k = ?v => change (zis k v x) end. assert (zis T_flt_mag_align (iz i J_imu) s) by exact H.
  presh (D_zis T_flt_mag_align (iz i J_imu)) ltac:(idtac; match goal with |- zis _ _ (setz T_flt_mag_align (iz i J_imu) _) => reflexivity end).
Qed.
Hypothesis MR : ib i I_mag_ready = true.
Theorem air_yaw_reset : forall s, mag_usable s -> gb s F_in_air = true -> let s' := controlFusionModes p i s in
  let req := gb s L_mag_yaw_reset_req || gb s L_non_mag_yaw_aiding_running_prev || (negb (gb s F_mag_aligned_in_flight) && ib i I_above_anomalies) in
  let disturbed := p_check_mag_strength p && negb (ib i I_mag_match) in
  (req && negb (gb s L_is_yaw_fusion_inhibited) = false -> ib i I_gps_ready = false ->
     gb s' L_mag_yaw_reset_req = req /\ gb s' F_mag_aligned_in_flight = gb s F_mag_aligned_in_flight) /\
  (req && negb (gb s L_is_yaw_fusion_inhibited) = true -> gb s F_fixed_wing = true \/ disturbed = false ->
     gb s' L_mag_yaw_reset_req = false /\ gz s' T_flt_mag_align = iz i J_imu /\ (ib i I_gps_ready = false -> gb s' F_mag_aligned_in_flight = true)) /\
  (req && negb (gb s L_is_yaw_fusion_inhibited) = true -> gb s F_fixed_wing = false -> disturbed = true ->
     gb s' L_mag_yaw_reset_req = true /\ (ib i I_gps_ready = false -> gb s' F_mag_aligned_in_flight = false)).
Proof.
  intros s U A. cbv zeta. destruct U as (T & Y & F & E & G). rewrite cfm_splitm.
  assert (U : mag_usable (preMag p i s)) by (unfold mag_usable; rewrite !preMag_b by (reflexivity || exact T); repeat split; assumption).
  assert (MT' : 0 <= p_mag_type p < MAG_NONE) by (unfold MAG_NONE; lia).
  rewrite (magRun p i MT' MR _ U), magAid_split.
  pose proof (magPre_req p i _ U) as RQ. pose proof (magPre_dist p i (preMag p i s)) as DI. pose proof (magPre_aligned p i (preMag p i s)) as AL.
  rewrite !preMag_b in RQ, AL by (reflexivity || exact T). rewrite A in AL. cbn [andb] in AL.
  assert (FR : forall k, Kmag k = true -> k <> L_mag_yaw_reset_req -> k <> L_non_mag_yaw_aiding_running_prev -> k <> F_mag_aligned_in_flight -> gb (magPre p i (preMag p i s)) k = gb s k).
  { intros k K1 K2 K3 K4. rewrite magPre_frame by assumption. apply preMag_b; assumption. }
  set (x := magPre p i (preMag p i s)) in *. clearbody x.
  rewrite <- RQ, <- DI, <- AL. rewrite <- !(FR L_is_yaw_fusion_inhibited), <- !(FR F_fixed_wing) by (reflexivity || discriminate).
  assert (XA : gb x F_in_air = true) by (rewrite FR by (reflexivity || discriminate); exact A).
  unfold magReset. rewrite XA. set (y := checkHaglYawResetReq i x).
  assert (YR : gb y L_mag_yaw_reset_req = gb x L_mag_yaw_reset_req || (negb (gb x F_mag_aligned_in_flight) && ib i I_above_anomalies)).
  { unfold y, checkHaglYawResetReq. destruct (negb (gb x F_mag_aligned_in_flight)); cbn [if_ andb]; [reflexivity|rewrite orb_false_r; reflexivity]. }
  assert (YF : forall k, k <> L_mag_yaw_reset_req -> gb y k = gb x k).
  { intros k Hk. unfold y, checkHaglYawResetReq. destruct (negb (gb x F_mag_aligned_in_flight)); cbn [if_]; [|reflexivity].
    cbn [gb setb]. destruct (bk_eqb L_mag_yaw_reset_req k) eqn:B; [apply bk_eqb_true in B; congruence|reflexivity]. }
  rewrite <- YR. rewrite <- !(YF L_is_yaw_fusion_inhibited), <- !(YF F_fixed_wing), <- !(YF F_mag_field_disturbed), <- !(YF F_mag_aligned_in_flight) by discriminate.
  clearbody y. clear x RQ DI AL FR XA YR YF U T Y F E G A s.
  assert (PR : forall z, gb (postMag p i (magTail p i (runVelPosReset z))) L_mag_yaw_reset_req = gb z L_mag_yaw_reset_req).
  { intros z. rewrite <- (vp_req z), <- (tail_req (runVelPosReset z)). generalize (magTail p i (runVelPosReset z)). intros w. fb. }
  assert (PA : forall z, ib i I_gps_ready = false -> gb (postMag p i (magTail p i (runVelPosReset z))) F_mag_aligned_in_flight = gb z F_mag_aligned_in_flight).
  { intros z GR. rewrite post_al by exact GR. rewrite tail_al, vp_al. reflexivity. }
  assert (PZ : forall z, gz z T_flt_mag_align = iz i J_imu -> gz (postMag p i (magTail p i (runVelPosReset z))) T_flt_mag_align = iz i J_imu).
  { intros z H. apply post_z. rewrite tail_z, vp_z. exact H. }
  rewrite !PR. unfold runInAirYawReset. destruct (gb y L_mag_yaw_reset_req && negb (gb y L_is_yaw_fusion_inhibited)) eqn:Q.
  - split; [discriminate|]. cbv zeta.
    assert (FL : gb y F_fixed_wing = true \/ gb y F_mag_field_disturbed = false ->
      let r := if gb y F_fixed_wing then realignYawGPS p i y else if canResetMagHeading p y then resetMagHeading p i y else (false, y) in
      fst r = true /\ gz (snd r) T_flt_mag_align = iz i J_imu).
    { intros H. cbv zeta. destruct (gb y F_fixed_wing) eqn:W; [apply realign_head|]. destruct H as [H|H]; [discriminate H|].
      unfold canResetMagHeading. rewrite H, not_none2. cbn [negb andb]. apply reset_head. }
    split.
    + intros _ H. specialize (FL H). cbv zeta in FL. set (r := if gb y F_fixed_wing then _ else _) in *. destruct FL as [F1 F2]. clearbody r. rewrite F1.
      split; [reflexivity|]. split; [apply PZ; exact F2|]. intros GR. rewrite PA by exact GR. reflexivity.
    + intros _ H1 H2. rewrite H1. unfold canResetMagHeading. rewrite H2. cbn [negb andb]. cbn [fst snd]. split; [reflexivity|]. intros GR. rewrite PA by exact GR. reflexivity.
  - split; [|split; discriminate]. intros _ GR. rewrite PA by exact GR. split; reflexivity.
Qed.
End Yaw.

(** *** GPS timeout *)
Lemma data_noflow : forall p i s, gb s L_flow_data_ready = false -> ib i I_flow_pop = false -> gb (cfm_data p i s) L_flow_data_ready = false.
Proof.
  intros p i s H F. match goal with |- gb ?x ?k = ?v => change (bis k v x) end. assert (bis L_flow_data_ready false s) by exact H.
  presh (D_bis L_flow_data_ready false) ltac:(idtac; match goal with |- bis _ _ (setb L_flow_data_ready (ib i I_flow_pop) _) => rewrite F; reflexivity end).
Qed.
Lemma noflow_pre : forall p i s, gb s L_flow_data_ready = false -> ib i I_flow_pop = false ->
  exists y, preGps p i s = if_ (gb y F_opt_flow && (iz i J_imu >? add64 (gz y T_flow_sample) 10000000)) stopFlowFusion y /\
    (forall k, k = T_hor_pos_fuse \/ k = T_delpos_fuse \/ k = T_hor_vel_fuse \/ k = T_of_fuse -> gz y k = gz s k) /\ gsf y = gsf s /\ gb y F_gps = gb s F_gps /\
    gb y L_do_ekfgsf_yaw_reset = gb s L_do_ekfgsf_yaw_reset /\ gb y F_in_air = gb s F_in_air /\ gz y N_ekfgsf_yaw_reset_count = gz s N_ekfgsf_yaw_reset_count /\ gz y T_ekfgsf_yaw_reset = gz s T_ekfgsf_yaw_reset /\ gz y T_prev_gps = gz s T_gps_sample /\ gz y T_on_ground = gz s T_on_ground.
Proof.
  intros p i s H F. set (y := flowQuality i (flowMotion i (controlMagFusion p i (preMag p i s)))). exists y.
  assert (Y : gb y L_flow_data_ready = false).
  { change (bis L_flow_data_ready false y). unfold y.
    assert (Z0 : bis L_flow_data_ready false (preMag p i s)).
    { unfold preMag. assert (Z1 : bis L_flow_data_ready false (cfm_data p i (cfm_tilt p i s))).
      { apply data_noflow; [|exact F]. rewrite <- H. fb. }
      revert Z1. generalize (cfm_data p i (cfm_tilt p i s)). intros w Z1. pres (D_bis L_flow_data_ready false). }
    revert Z0. generalize (preMag p i s). intros w Z0.
    presh (D_bis L_flow_data_ready false) ltac:(idtac; match goal with |- bis _ _ (setb L_flow_data_ready false _) => reflexivity end). }
  split.
  - unfold preGps, controlOpticalFlowFusion. cbv zeta. fold y. rewrite Y. reflexivity.
  - unfold y. split; [|split].
    + intros k K. decompose [or] K; subst k; fz.
    + match goal with |- gsf ?x = ?l => change (lis l x) end. assert (lis (gsf s) s) by reflexivity. pres (D_lis (gsf s)).
    + split; [fb|]. split; [fb|]. split; [fb|]. split; [fz|]. split; [fz|]. split; [|fz].
      assert (B : gz (cfm_data p i (cfm_tilt p i s)) T_prev_gps = gz s T_gps_sample).
      { replace (gz s T_gps_sample) with (gz (cfm_tilt p i s) T_gps_sample) by fz. generalize (cfm_tilt p i s). intros w.
        match goal with |- gz ?x ?k = ?v => change (zis k v x) end.
        presh (D_zis T_prev_gps (gz w T_gps_sample)) ltac:(idtac; match goal with |- zis _ _ (setz T_prev_gps _ _) => reflexivity end). }
      rewrite <- B. unfold preMag. generalize (cfm_data p i (cfm_tilt p i s)). intros w. fz.
Qed.
Definition Pg (v : Z) (l : list (Z * bool)) (s : st) : Prop := gb s F_gps = true /\ gz s T_hor_pos_fuse = v /\ gsf s = l.
Lemma D_pg : forall v l, dep (bk_eqb F_gps) (zk_eqb T_hor_pos_fuse) true (Pg v l).
Proof. intros v l s s' H Hz Hl. unfold Pg. rewrite H, Hz, Hl by reflexivity. auto. Qed.
Lemma fake_gps : forall i s, gb s F_gps = true -> controlFakePosFusion i s = setb L_using_synthetic_position false s.
Proof. intros i s H. unfold controlFakePosFusion. rewrite aiding_spec. unfold horizontal_aiding. rewrite H. reflexivity. Qed.
Lemma postGps_pg : forall p i v l s, ib i I_ev_ready = false -> Pg v l s -> Pg v l (postGps p i s).
Proof.
  intros p i v l s E H. presh (D_pg v l) ltac:(idtac; match goal with
   | |- Pg _ _ (controlExternalVisionFusion p i ?s) => unfold controlExternalVisionFusion; rewrite E
   | H : Pg v l ?s |- Pg _ _ (controlFakePosFusion i ?s) => rewrite (fake_gps i s (proj1 H)) end).
Qed.
Lemma gpsFuse_pg : forall i v l s, ib i I_pass_gps_hpos = false -> Pg v l s -> Pg v l (gpsFuse i s).
Proof. intros i v l s E H. presh (D_pg v l) ltac:(idtac; match goal with |- Pg _ _ (fuseHorPos _ _ _) => unfold fuseHorPos; rewrite E; cbn [if_] end). Qed.

Section GpsTimeout.
Variable (p : params) (i : inp) (s : st).
Let s' := controlFusionModes p i s.
Let now := iz i J_now.
Hypothesis R : ib i I_gps_ready = true.
Hypothesis UG : use_gps p = true.
Hypothesis G : gb s F_gps = true.
Hypothesis Q : is_timed_out now (iz i J_gps_pass) 5000000 = false.
Hypothesis FD : gb s L_flow_data_ready = false.
Hypothesis FP : ib i I_flow_pop = false.
Hypothesis EV : ib i I_ev_ready = false.
Hypothesis PS : ib i I_pass_gps_hpos = false.
Let to k := is_timed_out now (gz s k) (p_reset_timeout p).
Let lost := (to T_hor_pos_fuse && to T_delpos_fuse && to T_hor_vel_fuse && to T_of_fuse) || is_timed_out now (gz s T_hor_pos_fuse) (u32 (2 * p_reset_timeout p)).
Let failure := gb s F_in_air && ((negb (is_timed_out now (gz s T_on_ground) 30000000) && is_timed_out now (gz s T_hor_vel_fuse) (p_gsf_delay p) && (gz s T_hor_vel_fuse >? gz s T_on_ground))
    || (lost && (gz s T_hor_vel_fuse >? gz s T_on_ground) && (gz s T_hor_pos_fuse >? gz s T_on_ground))) && (gz s T_hor_vel_fuse >? 0) && ib i I_yaw_vec_bad.
Let permitted := (gz s N_ekfgsf_yaw_reset_count <? p_gsf_limit p) && is_timed_out now (gz s T_ekfgsf_yaw_reset) 5000000 && negb (is_timed_out now (gz s T_gps_sample) 1000000).
Let pend := gb s L_do_ekfgsf_yaw_reset || failure.
Lemma gps_timeout_cases :
  gz s' T_hor_pos_fuse = (if pend && permitted then (if ib i I_gsf_ok then now else gz s T_hor_pos_fuse) else if lost then now else gz s T_hor_pos_fuse) /\
  length (gsf s') = (if pend && permitted && ib i I_gsf_ok then S (length (gsf s)) else length (gsf s)).
Proof.
  unfold s'. rewrite cfm_splitg.
  destruct (noflow_pre p i s FD FP) as (y & Ey & Yz & Yl & Yg & Yq & Ya & Yn & Yt & Yp & Yo). rewrite Ey.
  set (w := if_ (gb y F_opt_flow && (iz i J_imu >? add64 (gz y T_flow_sample) 10000000)) stopFlowFusion y).
  set (x := controlGpsYawFusion p i w).
  assert (W : forall k, k <> F_opt_flow -> gb w k = gb y k). { intros k K. unfold w. match goal with |- context [if_ ?c _ _] => destruct c end; cbn [if_]; [|reflexivity]. cbn [gb setb stopFlowFusion]. unfold stopFlowFusion. cbn [gb setb]. destruct (bk_eqb F_opt_flow k) eqn:B; [apply bk_eqb_true in B; congruence|reflexivity]. }
  assert (Wz : forall k, gz w k = gz y k). { intros k. unfold w. match goal with |- context [if_ ?c _ _] => destruct c end; reflexivity. }
  assert (Wl : gsf w = gsf y). { unfold w. match goal with |- context [if_ ?c _ _] => destruct c end; reflexivity. }
  assert (Xz : forall k, k = T_hor_pos_fuse \/ k = T_delpos_fuse \/ k = T_hor_vel_fuse \/ k = T_of_fuse -> gz x k = gz s k).
  { intros k K. rewrite <- Yz, <- Wz by exact K. unfold x. clearbody w. decompose [or] K; subst k; fz. }
  assert (Xn : gz x N_ekfgsf_yaw_reset_count = gz s N_ekfgsf_yaw_reset_count). { rewrite <- Yn, <- Wz. unfold x. clearbody w. fz. }
  assert (Xt : gz x T_ekfgsf_yaw_reset = gz s T_ekfgsf_yaw_reset). { rewrite <- Yt, <- Wz. unfold x. clearbody w. fz. }
  assert (Xo : gz x T_on_ground = gz s T_on_ground). { rewrite <- Yo, <- Wz. unfold x. clearbody w. fz. }
  assert (Xp : gz x T_prev_gps = gz s T_gps_sample). { rewrite <- Yp, <- Wz. unfold x. clearbody w. fz. }
  assert (Xg : gb x F_gps = true). { rewrite <- G, <- Yg, <- W by discriminate. unfold x. clearbody w. fb. }
  assert (Xq : gb x L_do_ekfgsf_yaw_reset = gb s L_do_ekfgsf_yaw_reset). { rewrite <- Yq, <- W by discriminate. unfold x. clearbody w. fb. }
  assert (Xa : gb x F_in_air = gb s F_in_air). { rewrite <- Ya, <- W by discriminate. unfold x. clearbody w. fb. }
  assert (Xl : gsf x = gsf s). { rewrite <- Yl, <- Wl. unfold x. clear. clearbody w. match goal with |- gsf ?x = ?l => change (lis l x) end. assert (lis (gsf w) w) by reflexivity. pres (D_lis (gsf w)). }
  assert (EG : controlGpsFusion p i w = if_ (gb (gpsRecover p i x) F_gps) (gpsFuse i) (gpsRecover p i x)).
  { unfold controlGpsFusion. rewrite R. unfold gpsNew. fold x. clearbody x. cbv zeta. unfold gpsSelect. rewrite Xg, UG. cbn [andb negb if_].
    unfold gpsQualityStop. unfold timed_out. fold now. rewrite Q, Xg. cbn [andb if_]. unfold gsfAlign. rewrite Xg. cbn [negb andb]. rewrite Xg. reflexivity. }
  rewrite EG. clear EG Ey. clearbody x. clear w W Wz Wl y Yz Yl Yg Yq Ya Yn Yt Yp Yo.
  assert (RG : gb (gpsRecover p i x) F_gps = true). { rewrite <- Xg. fb. }
  rewrite RG. cbn [if_].
  set (l := gsf (gpsRecover p i x)). set (v := gz (gpsRecover p i x) T_hor_pos_fuse).
  destruct (postGps_pg p i v l (gpsFuse i (gpsRecover p i x)) EV) as (_ & E2 & E3).
  { apply gpsFuse_pg; [exact PS|]. repeat split. exact RG. }
  rewrite E2, E3.
  assert (LX : lost = doVelPosReset p i x) by (unfold lost, to, doVelPosReset, timed_out; rewrite !Xz by auto; reflexivity).
  assert (PX : pend = gb x L_do_ekfgsf_yaw_reset || isYawFailure p i x).
  { unfold pend, failure, isYawFailure, timed_out. rewrite Xq, LX, Xa, Xo. rewrite !Xz by auto. fold now. destruct (gb s F_in_air); reflexivity. }
  rewrite PX.
  rewrite <- Xl. rewrite <- (Xz T_hor_pos_fuse) by auto.
  rewrite LX. unfold permitted. rewrite <- Xn, <- Xt, <- Xp. unfold v, l. clear v l E2 E3 RG LX PX. unfold gpsRecover, timed_out. fold now. rewrite !andb_assoc.
  destruct ((gb x L_do_ekfgsf_yaw_reset || isYawFailure p i x) && (gz x N_ekfgsf_yaw_reset_count <? p_gsf_limit p) && is_timed_out now (gz x T_ekfgsf_yaw_reset) 5000000 && negb (is_timed_out now (gz x T_prev_gps) 1000000)) eqn:C.
  - cbv zeta. assert (L := reset_len p i x). rewrite reset_fst. destruct (ib i I_gsf_ok) eqn:O; cbn [if_ andb].
    + split; [reflexivity|exact L].
    + rewrite reset_no by exact O. split; reflexivity.
  - cbn [andb]. destruct (doVelPosReset p i x); [|split; reflexivity]. cbv zeta. split; [reflexivity|].
    assert (A : forall t, length (gsf (snd (realignYawGPS p i t))) = length (gsf t)).
    { intros t. match goal with |- length (gsf ?x) = _ => assert (B : lis (gsf t) x) end. { assert (lis (gsf t) t) by reflexivity. pres (D_lis (gsf t)). } unfold lis in B. rewrite B. reflexivity. }
    destruct (gb x F_fixed_wing && gb x F_in_air); [|reflexivity]. exact (A x).
Qed.
End GpsTimeout.

(** Proofs: range aid, optical flow, vision velocity, synthetic position. *)
Require Import ZArith Bool List Lia.
Require Import Verif.CBase Verif.GpsModel Verif.ControlModel Verif.ControlSpec Verif.ControlTac Verif.ControlProofs Verif.ControlProofs2 Verif.ControlProofs3 Verif.ControlProofs4 Verif.ControlProofs5 Verif.ControlProofs6 Verif.ControlProofs7 Verif.ControlProofs8.
Import ListNotations.
Local Open Scope Z_scope.
Local Open Scope ctl_scope.

(** *** range aid *)
Lemma aid_pre : forall p i s, gb (preHeight p i s) L_is_range_aid_suitable = gb s L_is_range_aid_suitable. Proof. fb. Qed.
Lemma aid_post : forall p i s, gb (postHeight p i s) L_is_range_aid_suitable = gb s L_is_range_aid_suitable. Proof. fb. Qed.
Lemma gps_post : forall p i s, gb (postHeight p i s) F_gps = gb s F_gps. Proof. fb. Qed.
Lemma chf_b : forall p i s k, K14 k = false -> k <> F_gnd_effect -> gb (controlHeightFusion p i s) k = gb (checkRangeAidSuitability i s) k.
Proof.
  intros p i s k A B. rewrite chf_eq. cbv zeta. match goal with |- gb (if_ ?c ?f ?t) k = _ => transitivity (gb t k); [destruct c; cbn [if_]; [apply fvp_gb|reflexivity]|] end.
  apply sel_frame; assumption.
Qed.
Lemma aid_exact : forall p i s, let s' := controlFusionModes p i s in let hys := gb s L_is_range_aid_suitable in
  let slow := if hys then ib i I_slow_hi else ib i I_slow_lo in
  gb s' F_gps = true \/ slow = true ->
  gb s' L_is_range_aid_suitable =
    gb s F_in_air && ib i I_rng_healthy && ib i I_terrain_valid && (if hys then ib i I_range_in_range_hi else ib i I_range_in_range_lo)
    && (if hys then ib i I_hagl_stable_hi else ib i I_hagl_stable_lo) && slow.
Proof.
  intros p i s. cbv zeta. rewrite cfm_split, aid_post, gps_post. rewrite !chf_b by (reflexivity || discriminate).
  rewrite <- (aid_pre p i s), <- (preHeight_air p i s). generalize (preHeight p i s). clear s. intros s.
  change (gb (checkRangeAidSuitability i s) F_gps) with (gb s F_gps). intros H. unfold checkRangeAidSuitability. cbv zeta.
  match goal with |- gb (setb ?k ?v s) ?k = _ => change (gb (setb k v s) k) with v end.
  rewrite aiding_spec. unfold horizontal_aiding. set (sl := if gb s L_is_range_aid_suitable then ib i I_slow_hi else ib i I_slow_lo) in *. clearbody sl.
  destruct H as [H|H]; rewrite H; [reflexivity|]. destruct (_ || _ || _ || _ || _); reflexivity.
Qed.
(** use of the range finder as height source in the barometer mode *)
Lemma aid_baro_mode : forall p i s, let s' := controlFusionModes p i s in (p_vdist p = 0 \/ p_vdist p > 3) ->
  let aid := (p_range_aid p =? 1) && gb s' L_is_range_aid_suitable in
  (gb s F_rng_hgt = false -> gb s' F_rng_hgt = true -> aid = true /\ ib i I_rng_data_healthy = true) /\
  (aid = true -> ib i I_rng_data_healthy = true -> gb s' F_rng_hgt = true) /\
  (aid = false -> ib i I_baro_ready = true -> gb s' L_baro_hgt_faulty = false -> gb s' F_baro_hgt = true).
Proof.
  intros p i s. cbv zeta. intros V. rewrite cfm_split, aid_post, postHeight_bf, !hgt_frame by reflexivity.
  assert (RP : gb s F_rng_hgt = false -> gb (preHeight p i s) F_rng_hgt = false).
  { intros H. match goal with |- gb ?x ?k = ?v => change (bis k v x) end. assert (bis F_rng_hgt false s) by exact H.
    presh (D_bis F_rng_hgt false) ltac:(idtac; match goal with |- bis _ _ (setb F_rng_hgt false _) => reflexivity end). }
  revert RP. generalize (preHeight p i s). intros x RP. rewrite !(chf_b p i x L_is_range_aid_suitable), !(chf_b p i x L_baro_hgt_faulty) by (reflexivity || discriminate).
  rewrite chf_eq. cbv zeta. set (y := checkRangeAidSuitability i x). assert (YR : gb y F_rng_hgt = gb x F_rng_hgt) by reflexivity.
  rewrite <- YR in RP. clearbody y. clear x YR.
  assert (SEL : hgtSelect p i y = hgtBaroMode i ((p_range_aid p =? 1) && gb y L_is_range_aid_suitable) y).
  { unfold hgtSelect. replace (p_vdist p =? VDIST_RANGE) with false by (symmetry; apply Z.eqb_neq; unfold VDIST_RANGE; lia).
    replace (p_vdist p =? VDIST_GPS) with false by (symmetry; apply Z.eqb_neq; unfold VDIST_GPS; lia).
    replace (p_vdist p =? VDIST_EV) with false by (symmetry; apply Z.eqb_neq; unfold VDIST_EV; lia). reflexivity. }
  rewrite SEL. set (aid := (p_range_aid p =? 1) && gb y L_is_range_aid_suitable). clearbody aid.
  assert (G : forall c t k, gb (if_ c (fuseVertPos i (ib i I_pass_hgt)) t) k = gb t k) by (intros c t k; destruct c; cbn [if_]; [apply fvp_gb|reflexivity]).
  rewrite !G. unfold hgtBaroMode. destruct aid; cbn [andb negb].
  - destruct (ib i I_rng_data_healthy); cbn [snd].
    + split; [auto|]. split; [reflexivity|discriminate].
    + split; [|split; discriminate]. intros A B. rewrite (RP A) in B. discriminate B.
  - destruct (ib i I_baro_ready); cbn [andb].
    + destruct (gb y L_baro_hgt_faulty) eqn:F; cbn [negb snd].
      * split; [|split; discriminate]. intros A B. rewrite (RP A) in B. discriminate B.
      * rewrite !startBaro_gb by discriminate. split; [intros _ B; discriminate B|]. split; [discriminate|reflexivity].
    + cbn [snd]. split; [|split; discriminate]. intros A B. rewrite (RP A) in B. discriminate B.
Qed.

(** *** synthetic position *)
Lemma fake_exact : forall p i s, let s' := controlFusionModes p i s in
  gb s' L_using_synthetic_position = true -> is_timed_out (iz i J_now) (gz s T_fake_pos) 200000 = true ->
  gz s' T_fake_pos = iz i J_now /\
  (is_timed_out (iz i J_now) (gz s T_fake_pos) 400000 = true -> gb s' L_fuse_hpos_as_odom = false /\ gb s' L_hpos_prev_available = false).
Proof.
  intros p i s. cbv zeta. rewrite cfm_splite. unfold postEv.
  set (x := controlAuxVelFusion i _). assert (T : gz x T_fake_pos = gz s T_fake_pos) by (unfold x; fz). rewrite <- T. clearbody x. clear T s.
  destruct (dr_f p i (controlFakePosFusion i x)) as (D1 & D2 & _ & _ & _). rewrite D1, D2.
  assert (D3 : forall t, gb (update_deadreckoning_status p i t) L_using_synthetic_position = gb t L_using_synthetic_position) by fb.
  assert (D4 : forall t, gz (update_deadreckoning_status p i t) T_fake_pos = gz t T_fake_pos) by fz.
  rewrite D3, D4. unfold controlFakePosFusion. destruct (_ && _); [|discriminate]. intros _ H. cbv zeta. unfold timed_out.
  change (gz (setb L_using_synthetic_position true x) T_fake_pos) with (gz x T_fake_pos). rewrite H. cbn [if_]. unfold fakePos, timed_out. cbv zeta.
  change (gz (setb L_using_synthetic_position true x) T_fake_pos) with (gz x T_fake_pos).
  split.
  - unfold fuseHorPos. destruct (ib i I_pass_fake); cbn [if_]; [|reflexivity].
    match goal with |- gz ((if ?c then _ else _) _) _ = _ => destruct c; reflexivity end.
  - intros E. rewrite E. cbn [if_]. unfold fuseHorPos. destruct (ib i I_pass_fake); cbn [if_]; [|split; reflexivity].
    match goal with |- gb ((if ?c then _ else _) _) _ = _ /\ _ => destruct c; split; reflexivity end.
Qed.
Lemma fake_keeps : forall p i s, let s' := controlFusionModes p i s in ib i I_ev_ready = false -> ib i I_gps_ready = false ->
  is_timed_out (iz i J_now) (gz s T_fake_pos) 400000 = false -> gb s' L_fuse_hpos_as_odom = gb s L_fuse_hpos_as_odom.
Proof.
  intros p i s. cbv zeta. intros EV GR. rewrite cfm_splite. unfold postEv.
  set (x := controlAuxVelFusion i _). assert (T : gz x T_fake_pos = gz s T_fake_pos) by (unfold x; fz). rewrite <- T.
  assert (O : gb x L_fuse_hpos_as_odom = gb s L_fuse_hpos_as_odom).
  { unfold x. match goal with |- gb ?x ?k = ?v => change (bis k v x) end. assert (bis L_fuse_hpos_as_odom (gb s L_fuse_hpos_as_odom) s) by reflexivity.
    presh (D_bis L_fuse_hpos_as_odom (gb s L_fuse_hpos_as_odom)) ltac:(idtac; match goal with |- bis _ _ (controlExternalVisionFusion p i ?s) => unfold controlExternalVisionFusion; rewrite EV end). }
  rewrite <- O. clearbody x. clear T O s. intros H. destruct (dr_f p i (controlFakePosFusion i x)) as (D1 & _). rewrite D1.
  unfold controlFakePosFusion. destruct (_ && _); [|reflexivity]. cbv zeta. destruct (timed_out i _ _) eqn:T2; cbn [if_]; [|reflexivity].
  unfold fakePos, timed_out. cbv zeta. change (gz (setb L_using_synthetic_position true x) T_fake_pos) with (gz x T_fake_pos). rewrite H. cbn [if_].
  unfold fuseHorPos. destruct (ib i I_pass_fake); cbn [if_]; [|reflexivity]. match goal with |- gb ((if ?c then _ else _) _) _ = _ => destruct c; reflexivity end.
Qed.

(** *** declination covariance reset after a magnetometer fault *)
Lemma mag_fault_decl : forall p i s, p_mag_type p < MAG_NONE -> gb s F_mag_fault = true -> gb (controlFusionModes p i s) L_mag_decl_cov_reset = false.
Proof.
  intros p i s Hm Hf. rewrite cfm_splitm.
  rewrite <- (mag_fault_pre p i) in Hf. revert Hf. generalize (preMag p i s). clear s. intros s Hf.
  assert (A : bis L_mag_decl_cov_reset false (controlMagFusion p i s)).
  { unfold controlMagFusion.
    replace (p_mag_type p >? MAG_NONE) with false by (symmetry; rewrite Z.gtb_ltb; apply Z.ltb_ge; lia).
    replace (p_mag_type p =? MAG_NONE) with false by (symmetry; apply Z.eqb_neq; lia).
    cbv zeta. rewrite cmf_head_frame by discriminate. rewrite Hf. cbn [orb]. reflexivity. }
  revert A. generalize (controlMagFusion p i s). intros t A. match goal with |- gb ?x ?k = ?v => change (bis k v x) end.
  presh (D_bis L_mag_decl_cov_reset false) ltac:(idtac; match goal with |- bis _ _ (setb L_mag_decl_cov_reset false _) => reflexivity end).
Qed.

(** *** vision velocity *)
Lemma ev_vel_start : forall p i s, let s' := controlFusionModes p i s in
  ib i I_ev_ready = true -> use_evvel p = true -> gb s F_tilt_align = true -> gb (preEv p i s) F_yaw_align = true ->
  is_recent (iz i J_now) (iz i J_ext_vision) 400000 = true ->
  gb s' F_ev_vel = true /\ (ib i I_pass_ev_hvel = true -> gz s' T_hor_vel_fuse = iz i J_now).
Proof.
  intros p i s. cbv zeta. intros R U T Y C. rewrite cfm_splite, postEv_vel.
  assert (T' : gb (preEv p i s) F_tilt_align = true).
  { match goal with |- gb ?x ?k = ?v => change (bis k v x) end. assert (bis F_tilt_align true s) by exact T.
    presh (D_bis F_tilt_align true) ltac:(idtac; match goal with |- bis _ _ (setb F_tilt_align true _) => reflexivity end). }
  revert T' Y. generalize (preEv p i s). clear s T. intros s T Y. unfold controlExternalVisionFusion. rewrite R. cbv zeta.
  assert (V : gb (evSelect p i s) F_ev_vel = true).
  { unfold evSelect. cbv zeta. unfold recent. rewrite T, Y, C, U. cbn [andb if_].
    set (a := if_ (use_evpos p && negb (gb s F_ev_pos)) startEvPosFusion s).
    assert (AV : gb a F_ev_vel = gb s F_ev_vel) by (unfold a; destruct (_ && _); reflexivity). clearbody a.
    match goal with |- gb (if_ _ _ ?b) _ = _ => assert (B : bis F_ev_vel true b) end.
    { unfold bis. destruct (gb s F_ev_vel) eqn:E; cbn [negb if_]; [exact AV|reflexivity]. }
    revert B. generalize (if_ (negb (gb s F_ev_vel)) startEvVelFusion a). intros b B.
    match goal with |- gb ?x ?k = ?v => change (bis k v x) end. pres (D_bis F_ev_vel true). }
  set (a := evSelect p i s) in *. clearbody a. set (b := if_ (gb a F_ev_pos) (evPos p i) a).
  assert (B : gb b F_ev_vel = true) by (rewrite <- V; unfold b; fb). clearbody b. rewrite B. cbn [if_].
  split; [rewrite <- B; fb|]. intros P. assert (Z0 : gz (evVel i b) T_hor_vel_fuse = iz i J_now).
  { unfold evVel, fuseHorVel, fuseVertVel. rewrite P. destruct (ib i I_pass_ev_vvel); reflexivity. }
  revert Z0. generalize (evVel i b). intros t Z0. match goal with |- gz ?x ?k = ?v => change (zis k v x) end.
  assert (zis T_hor_vel_fuse (iz i J_now) t) by exact Z0.
  presh (D_zis T_hor_vel_fuse (iz i J_now)) ltac:(idtac; match goal with |- zis _ _ (setz T_hor_vel_fuse (iz i J_now) _) => reflexivity end).
Qed.

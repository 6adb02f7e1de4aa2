(** Proofs: optical flow decisions. *)
Require Import ZArith Bool List Lia.
Require Import Verif.CBase Verif.GpsModel Verif.ControlModel Verif.ControlSpec Verif.ControlTac Verif.ControlProofs Verif.ControlProofs2 Verif.ControlProofs3 Verif.ControlProofs4 Verif.ControlProofs5 Verif.ControlProofs6 Verif.ControlProofs7 Verif.ControlProofs8.
Import ListNotations.
Local Open Scope Z_scope.
Local Open Scope ctl_scope.

Definition preFlow (p : params) (i : inp) (s : st) : st := controlMagFusion p i (preMag p i s).
Definition postFlow (p : params) (i : inp) (s : st) : st := postGps p i (controlGpsFusion p i s).
Lemma cfm_splitf : forall p i s, controlFusionModes p i s = postFlow p i (controlOpticalFlowFusion p i (preFlow p i s)).
Proof. intros. unfold postFlow, preFlow. rewrite cfm_splitg. unfold preGps. reflexivity. Qed.
Lemma postFlow_f : forall p i s, gb (postFlow p i s) F_opt_flow = gb s F_opt_flow. Proof. fb. Qed.
Lemma postFlow_t : forall p i s, ib i I_gps_ready = false -> gz (postFlow p i s) T_of_fuse = gz s T_of_fuse.
Proof.
  intros p i s G. match goal with |- gz ?x ?k = ?v => change (zis k v x) end. assert (zis T_of_fuse (gz s T_of_fuse) s) by reflexivity.
  presh (D_zis T_of_fuse (gz s T_of_fuse)) ltac:(idtac; match goal with |- zis _ _ (controlGpsFusion p i ?s) => unfold controlGpsFusion; rewrite G end).
Qed.
Definition Kfl (k : bk) : bool := match k with F_opt_flow | F_in_air | L_is_dead_reckoning | F_gps | F_ev_pos | F_ev_vel | F_fuse_aspd | F_fuse_beta => true | _ => false end.
Lemma preFlow_b : forall p i s k, Kfl k = true -> gb (preFlow p i s) k = gb s k.
Proof. intros p i s k H. destruct k; try discriminate H; fb. Qed.
Lemma preFlow_z : forall p i s k, k = T_of_fuse \/ k = T_bad_motion \/ k = T_good_motion -> gz (preFlow p i s) k = gz s k.
Proof. intros p i s k H. decompose [or] H; subst k; fz. Qed.
Definition flow_ready (i : inp) (s : st) : bool := if gb s L_flow_data_ready && gb s F_opt_flow then true else ib i I_flow_pop.
Lemma preFlow_ready : forall p i s, gb (preFlow p i s) L_flow_data_ready = flow_ready i s.
Proof.
  intros p i s. unfold preFlow. transitivity (gb (cfm_data p i (cfm_tilt p i s)) L_flow_data_ready).
  { unfold preMag. generalize (cfm_data p i (cfm_tilt p i s)). intros w. fb. }
  assert (A : gb (cfm_tilt p i s) L_flow_data_ready = gb s L_flow_data_ready) by fb. assert (B : gb (cfm_tilt p i s) F_opt_flow = gb s F_opt_flow) by fb.
  unfold flow_ready. rewrite <- A, <- B. generalize (cfm_tilt p i s). intros w. unfold cfm_data. cbv zeta.
  set (a := if_ (ib i I_mag_ready) _ _).
  assert (E1 : gb a L_flow_data_ready = gb w L_flow_data_ready) by (unfold a; destruct (ib i I_mag_ready), (ib i I_gps_ready); reflexivity).
  assert (E2 : gb a F_opt_flow = gb w F_opt_flow) by (unfold a; destruct (ib i I_mag_ready), (ib i I_gps_ready); reflexivity).
  clearbody a. set (b := if negb (gb a L_flow_data_ready) || negb (gb a F_opt_flow) then _ else a).
  assert (E3 : gb b L_flow_data_ready = if gb w L_flow_data_ready && gb w F_opt_flow then true else ib i I_flow_pop).
  { unfold b. rewrite E1, E2. destruct (gb w L_flow_data_ready); [|destruct (ib i I_flow_pop); reflexivity].
    destruct (gb w F_opt_flow); cbn [negb orb andb]; [exact E1|destruct (ib i I_flow_pop); reflexivity]. }
  clearbody b. rewrite <- E3. destruct (_ && _ && _); reflexivity.
Qed.
(** usable sample *)
Definition flow_ok (i : inp) (s : st) : bool := flow_ready i s && (ib i I_flow_all_good || (negb (gb s F_in_air) && ib i I_flow_body_comp)).
Definition flow_required (i : inp) (s : st) : bool :=
  gb s F_in_air && (gb s L_is_dead_reckoning
    || (gb s F_opt_flow && negb (gb s F_gps || gb s F_ev_pos || gb s F_ev_vel || (gb s F_fuse_aspd && gb s F_fuse_beta)))
    || (gb s F_gps && (if gb s F_opt_flow then ib i I_gps_err_norm_07 else ib i I_gps_err_norm_10))).
Definition flow_inhibited (i : inp) (s : st) : bool :=
  (if gb s F_in_air then negb (ib i I_terrain_valid) && negb (flow_required i s)
   else ib i I_motion_excessive || (iz i J_imu <? add64 (gz s T_bad_motion) 5000000)).
Lemma only_spec : forall s, only_source (gb s F_opt_flow) s = gb s F_opt_flow && negb (gb s F_gps || gb s F_ev_pos || gb s F_ev_vel || (gb s F_fuse_aspd && gb s F_fuse_beta)).
Proof.
  intros s. unfold only_source, other_than, n_sources. destruct (gb s F_opt_flow); [|reflexivity].
  destruct (gb s F_gps), (gb s F_ev_pos), (gb s F_ev_vel), (gb s F_fuse_aspd), (gb s F_fuse_beta); reflexivity.
Qed.
Definition flowIn (i : inp) (x : st) : st := flowQuality i (flowMotion i x).
Lemma flowIn_b : forall i x k, k <> L_flow_data_ready -> k <> L_flow_for_terrain_data_ready -> gb (flowIn i x) k = gb x k.
Proof.
  intros i x k A B. unfold flowIn. transitivity (gb (flowMotion i x) k).
  - unfold flowQuality. destruct (_ && _ && _); cbn [if_]; [|reflexivity]. cbn [gb setb].
    destruct (bk_eqb L_flow_for_terrain_data_ready k) eqn:E; [apply bk_eqb_true in E; congruence|]. destruct (bk_eqb L_flow_data_ready k) eqn:E2; [apply bk_eqb_true in E2; congruence|reflexivity].
  - unfold flowMotion. destruct (negb _); [destruct (ib i I_motion_excessive)|]; reflexivity.
Qed.
Lemma flowIn_ready : forall i x, gb (flowIn i x) L_flow_data_ready = gb x L_flow_data_ready && (ib i I_flow_all_good || (negb (gb x F_in_air) && ib i I_flow_body_comp)).
Proof.
  intros i x. unfold flowIn. assert (A : gb (flowMotion i x) L_flow_data_ready = gb x L_flow_data_ready) by (unfold flowMotion; destruct (negb _); [destruct (ib i I_motion_excessive)|]; reflexivity).
  assert (B : gb (flowMotion i x) F_in_air = gb x F_in_air) by (unfold flowMotion; destruct (negb _); [destruct (ib i I_motion_excessive)|]; reflexivity).
  rewrite <- A, <- B. generalize (flowMotion i x). intros y. unfold flowQuality. destruct (gb y L_flow_data_ready) eqn:E; cbn [andb]; [|exact E].
  destruct (ib i I_flow_all_good); cbn [negb andb orb]; [exact E|]. destruct (negb (gb y F_in_air) && ib i I_flow_body_comp); cbn [negb if_]; [exact E|reflexivity].
Qed.
Lemma flowIn_t : forall i x, gz (flowIn i x) T_of_fuse = gz x T_of_fuse. Proof. fz. Qed.
Lemma flowInhibit_spec : forall i x, 0 <= iz i J_imu < horizon -> gb x F_tilt_align = true ->
  flowInhibit i (flowIn i x) = flow_inhibited i x.
Proof.
  intros i x H T. unfold flowInhibit, flow_inhibited. cbv zeta. rewrite only_spec. rewrite !flowIn_b by discriminate. rewrite T. cbn [negb]. rewrite orb_false_r.
  assert (Z1 : gz (flowIn i x) T_good_motion = if negb (gb x F_in_air) && ib i I_motion_excessive then gz x T_good_motion else iz i J_imu).
  { unfold flowIn, flowQuality. match goal with |- gz (if_ ?c _ ?t) _ = _ => transitivity (gz t T_good_motion); [destruct c; reflexivity|] end.
    unfold flowMotion. destruct (negb (gb x F_in_air)); [destruct (ib i I_motion_excessive)|]; reflexivity. }
  assert (Z2 : gb x F_in_air = false -> gz (flowIn i x) T_bad_motion = if ib i I_motion_excessive then iz i J_imu else gz x T_bad_motion).
  { intros A. unfold flowIn, flowQuality. match goal with |- gz (if_ ?c _ ?t) _ = _ => transitivity (gz t T_bad_motion); [destruct c; reflexivity|] end.
    unfold flowMotion. rewrite A. cbn [negb]. destruct (ib i I_motion_excessive); reflexivity. }
  rewrite Z1. destruct (gb x F_in_air) eqn:A; cbn [negb andb orb].
  - unfold flow_required. rewrite A. cbn [andb]. reflexivity.
  - rewrite Z2 by reflexivity. rewrite andb_true_r, orb_false_r. destruct (ib i I_motion_excessive); cbn [orb].
    + replace (iz i J_imu <? add64 (iz i J_imu) 5000000) with true; [apply orb_true_r|]. symmetry. apply Z.ltb_lt. unfold add64, u64. rewrite two64_val. unfold horizon in H. rewrite Z.mod_small; lia.
    + replace (iz i J_imu >? add64 (iz i J_imu) 100000) with false; [reflexivity|]. symmetry. rewrite Z.gtb_ltb. apply Z.ltb_ge. unfold add64, u64. rewrite two64_val. unfold horizon in H. rewrite Z.mod_small; lia.
Qed.
Lemma flowUse_flag : forall p i x, gb x F_yaw_align = true ->
  gb (flowUse p i x) F_opt_flow = use_of p && negb (flowInhibit i x).
Proof.
  intros p i x Y. unfold flowUse. cbv zeta.
  set (y := setb L_inhibit_flow_use (flowInhibit i x) x). assert (YI : gb y L_inhibit_flow_use = flowInhibit i x) by reflexivity.
  assert (YF : gb y F_opt_flow = gb x F_opt_flow) by reflexivity. assert (YY : gb y F_yaw_align = true) by exact Y. clearbody y. rewrite YI.
  generalize (flowInhibit i x). intros h. clear YI YF Y x. destruct (gb y F_opt_flow) eqn:F; cbn [andb negb].
  - destruct (use_of p); cbn [negb orb andb]; [|reflexivity]. destruct h; cbn [negb orb andb if_]; [reflexivity|]. rewrite F. cbn [if_]. rewrite <- F. fb.
  - rewrite andb_true_r. destruct (use_of p && negb h); cbn [if_]; [|rewrite F; exact F].
    assert (B : gb (flowStart p i y) F_opt_flow = true).
    { unfold flowStart. rewrite YY. cbn [negb if_]. rewrite YY. cbn [if_]. cbv zeta. match goal with |- gb (if_ ?c _ _) _ = _ => destruct c; reflexivity end. }
    rewrite B. cbn [if_]. transitivity (gb (flowStart p i y) F_opt_flow); [|exact B]. generalize (flowStart p i y). intros t. fb.
Qed.
Lemma flow_flag : forall p i s, 0 <= iz i J_imu < horizon -> gb (preFlow p i s) F_tilt_align = true -> gb (preFlow p i s) F_yaw_align = true -> flow_ok i s = true ->
  gb (controlFusionModes p i s) F_opt_flow = use_of p && negb (flow_inhibited i s).
Proof.
  intros p i s H T Y Q. rewrite cfm_splitf, postFlow_f. unfold controlOpticalFlowFusion. cbv zeta. fold (flowIn i (preFlow p i s)).
  rewrite flowIn_ready. rewrite preFlow_ready, (preFlow_b p i s F_in_air) by reflexivity. fold (flow_ok i s). rewrite Q.
  rewrite flowUse_flag by (rewrite flowIn_b by discriminate; exact Y). rewrite flowInhibit_spec by assumption.
  unfold flow_inhibited, flow_required. rewrite !preFlow_b by reflexivity. rewrite preFlow_z by auto. reflexivity.
Qed.
(** fusion times *)
Lemma resetpos_t : forall c t, gz (if_ c resetHorizontalPosition t) T_of_fuse = gz t T_of_fuse. Proof. intros [] t; reflexivity. Qed.
Lemma flowFuse_t : forall p i y, gz (flowFuse p i y) T_of_fuse =
  if (iz i J_imu >? sub64 (gz y T_flow_sample) (iz i J_flow_half_dt)) && is_recent (iz i J_now) (iz i J_hagl_fuse) 10000000 && ib i I_pass_flow then iz i J_now else gz y T_of_fuse.
Proof.
  intros p i y. unfold flowFuse. cbv zeta. rewrite resetpos_t. unfold recent. destruct (_ >? _); cbn [if_ andb]; [|reflexivity].
  destruct (_ && _); reflexivity.
Qed.
Lemma flow_fused_fwd : forall p i s, let s' := controlFusionModes p i s in ib i I_gps_ready = false ->
  gz s' T_of_fuse <> gz s T_of_fuse ->
  gz s' T_of_fuse = iz i J_now /\ use_of p = true /\ gb s' F_opt_flow = true /\ flow_ok i s = true /\
  (gb s F_opt_flow = true -> is_recent (iz i J_now) (iz i J_hagl_fuse) 10000000 = true /\ ib i I_pass_flow = true).
Proof.
  intros p i s. cbv zeta. intros G. rewrite cfm_splitf, postFlow_t by exact G. rewrite postFlow_f. rewrite <- (preFlow_z p i s T_of_fuse) by auto.
  unfold controlOpticalFlowFusion. cbv zeta. fold (flowIn i (preFlow p i s)). rewrite flowIn_ready. rewrite preFlow_ready, (preFlow_b p i s F_in_air) by reflexivity. fold (flow_ok i s).
  rewrite <- (preFlow_b p i s F_opt_flow) by reflexivity.
  destruct (flow_ok i s); [|intros H; exfalso; apply H; destruct (_ && _); cbn [if_]; apply flowIn_t].
  rewrite <- (flowIn_t i (preFlow p i s)). rewrite <- (flowIn_b i (preFlow p i s) F_opt_flow) by discriminate. generalize (flowIn i (preFlow p i s)). clear. intros x.
  unfold flowUse. cbv zeta. set (y := setb L_inhibit_flow_use (flowInhibit i x) x).
  change (gb x F_opt_flow) with (gb y F_opt_flow). change (gz x T_of_fuse) with (gz y T_of_fuse). clearbody y. clear x.
  destruct (gb y F_opt_flow && (negb (use_of p) || gb y L_inhibit_flow_use)) eqn:C1; [intros H; exfalso; apply H; reflexivity|].
  destruct (gb y F_opt_flow) eqn:F; cbn [andb negb] in *.
  - rewrite andb_false_r. cbn [if_ andb]. rewrite F. cbn [if_]. rewrite flowFuse_t. destruct (_ && _ && _) eqn:Q; [|intros H; exfalso; apply H; reflexivity]. intros _.
    apply andb_prop in Q. destruct Q as [Q Q3]. apply andb_prop in Q. destruct Q as [_ Q2].
    split; [reflexivity|]. split; [destruct (use_of p); [reflexivity|discriminate C1]|]. split; [rewrite <- F; fb|]. split; [reflexivity|auto].
  - rewrite andb_true_r. destruct (use_of p) eqn:U; cbn [andb].
    2: { cbn [if_]. rewrite F. cbn [if_]. intros H. exfalso. apply H. reflexivity. }
    destruct (negb (gb y L_inhibit_flow_use)); cbn [if_].
    2: { rewrite F. cbn [if_]. intros H. exfalso. apply H. reflexivity. }
    unfold flowStart. cbv zeta. set (z := if_ (negb (gb y F_yaw_align)) (alignYawToMag p i) y).
    assert (ZF : gb z F_opt_flow = false) by (rewrite <- F; unfold z; fb). assert (ZT : gz z T_of_fuse = gz y T_of_fuse) by (unfold z; fz). clearbody z.
    destruct (gb z F_yaw_align); cbn [if_]; [|rewrite ZF; cbn [if_]; intros H; exfalso; apply H; exact ZT].
    set (w := if_ _ resetHorizontalPosition _). assert (WF : gb w F_opt_flow = true) by (unfold w; match goal with |- gb (if_ ?c _ _) _ = _ => destruct c; reflexivity end).
    assert (WT : gz w T_of_fuse = iz i J_now) by (unfold w; match goal with |- gz (if_ ?c _ _) _ = _ => destruct c; reflexivity end). clearbody w. rewrite WF. cbn [if_].
    intros _. rewrite flowFuse_t, WT. split; [destruct (_ && _ && _); reflexivity|]. split; [reflexivity|]. split; [rewrite <- WF; fb|]. split; [reflexivity|discriminate].
Qed.
Lemma flow_fused_conv : forall p i s, let s' := controlFusionModes p i s in ib i I_gps_ready = false ->
  gb s F_opt_flow = true -> gb s' F_opt_flow = true -> flow_ok i s = true ->
  iz i J_imu > sub64 (if gb s L_flow_data_ready then gz s T_flow_sample else iz i J_flow_time) (iz i J_flow_half_dt) -> is_recent (iz i J_now) (iz i J_hagl_fuse) 10000000 = true -> ib i I_pass_flow = true ->
  gz s' T_of_fuse = iz i J_now.
Proof.
  intros p i s. cbv zeta. intros G F F' Q T HR P. rewrite cfm_splitf, postFlow_f in F'. rewrite cfm_splitf, postFlow_t by exact G.
  revert F'. unfold controlOpticalFlowFusion. cbv zeta. fold (flowIn i (preFlow p i s)). rewrite flowIn_ready. rewrite preFlow_ready, (preFlow_b p i s F_in_air) by reflexivity. fold (flow_ok i s). rewrite Q.
  assert (PO : gb s L_flow_data_ready = false -> ib i I_flow_pop = true) by (intros H; unfold flow_ok, flow_ready in Q; rewrite H in Q; cbn [andb] in Q; apply andb_prop in Q; tauto).
  assert (TS : gz (flowIn i (preFlow p i s)) T_flow_sample = if gb s L_flow_data_ready then gz s T_flow_sample else iz i J_flow_time).
  { assert (A : forall x, gz (flowIn i x) T_flow_sample = gz x T_flow_sample) by fz. rewrite A. unfold preFlow, preMag.
    assert (B : gz (cfm_data p i (cfm_tilt p i s)) T_flow_sample = if gb s L_flow_data_ready then gz s T_flow_sample else iz i J_flow_time).
    { replace (gz s T_flow_sample) with (gz (cfm_tilt p i s) T_flow_sample) by fz.
      assert (R' : gb (cfm_tilt p i s) L_flow_data_ready = gb s L_flow_data_ready) by fb. assert (F2 : gb (cfm_tilt p i s) F_opt_flow = true) by (rewrite <- F; fb).
      rewrite <- R' in *. clear R'. revert PO F2. generalize (cfm_tilt p i s). intros w PO F2. unfold cfm_data. cbv zeta. set (a := if_ (ib i I_mag_ready) _ _).
      assert (E1 : gb a L_flow_data_ready = gb w L_flow_data_ready) by (unfold a; destruct (ib i I_mag_ready), (ib i I_gps_ready); reflexivity).
      assert (E2 : gb a F_opt_flow = true) by (rewrite <- F2; unfold a; destruct (ib i I_mag_ready), (ib i I_gps_ready); reflexivity).
      assert (E3 : gz a T_flow_sample = gz w T_flow_sample) by (unfold a; destruct (ib i I_mag_ready), (ib i I_gps_ready); reflexivity).
      clearbody a. rewrite E1, E2. rewrite <- E3. destruct (gb w L_flow_data_ready); cbn [negb orb].
      - match goal with |- gz (if_ ?c _ _) _ = _ => destruct c; reflexivity end.
      - rewrite (PO eq_refl). cbn [if_]. match goal with |- gz (if_ ?c _ _) _ = _ => destruct c; reflexivity end. }
    rewrite <- B. generalize (cfm_data p i (cfm_tilt p i s)). intros w. fz. }
  assert (XF : gb (flowIn i (preFlow p i s)) F_opt_flow = true) by (rewrite flowIn_b by discriminate; rewrite preFlow_b by reflexivity; exact F).
  rewrite <- TS in T. revert T XF. generalize (flowIn i (preFlow p i s)). clear - HR P. intros x T XF. unfold flowUse. cbv zeta.
  set (y := setb L_inhibit_flow_use (flowInhibit i x) x). change (gz x T_flow_sample) with (gz y T_flow_sample) in T. assert (YF : gb y F_opt_flow = true) by exact XF. clearbody y. clear x XF.
  rewrite YF. cbn [andb negb]. destruct (negb (use_of p) || gb y L_inhibit_flow_use); [discriminate|]. rewrite andb_false_r. cbn [if_ andb]. rewrite YF. cbn [if_]. intros _. rewrite flowFuse_t, HR, P.
  replace (iz i J_imu >? sub64 (gz y T_flow_sample) (iz i J_flow_half_dt)) with true by (symmetry; rewrite Z.gtb_ltb; apply Z.ltb_lt; lia). reflexivity.
Qed.

(** Vertical acceleration health (C27), emergency yaw resets (C28), dead reckoning (C29). *)
Require Import ZArith Bool List Lia.
Require Import Verif.CBase Verif.GpsModel Verif.ControlModel Verif.ControlTac Verif.ControlSpec Verif.ControlProofs Verif.ControlProofs2.
Import ListNotations.
Local Open Scope Z_scope.

Lemma u64_small : forall x, 0 <= x < 2 ^ 64 -> u64 x = x.
Proof. intros x H. unfold u64. apply Z.mod_small. exact H. Qed.
Lemma add64_small : forall a b, 0 <= a + b < 2 ^ 64 -> add64 a b = a + b.
Proof. intros a b H. unfold add64. apply u64_small. exact H. Qed.

(** *** C27 *)
Definition Pclip (s : st) : Prop := 0 <= gz s N_clip_counter <= 100.
Lemma D_clip : dep nob (zk_eqb N_clip_counter) false Pclip.
Proof. intros s s' _ H _. unfold Pclip. rewrite H; auto. Qed.
Lemma clipNext_range : forall b c, 0 <= c <= 100 -> 0 <= clipNext b c <= 100.
Proof.
  intros b c H. unfold clipNext. destruct (b && (c <? 100)) eqn:E.
  - apply andb_true_iff in E. destruct E as [_ E]. apply Z.ltb_lt in E. unfold u16. rewrite Z.mod_small; unfold two16; lia.
  - destruct (Z.gtb_spec c 0); auto. unfold u16. rewrite Z.mod_small; unfold two16; lia.
Qed.
Lemma cvah_clip : forall i s, Pclip s -> Pclip (checkVerticalAccelerationHealth i s).
Proof.
  intros i s H. unfold checkVerticalAccelerationHealth. cbv zeta.
  match goal with |- context [setz N_clip_counter ?v s] => assert (X : Pclip (setz N_clip_counter v s)) by (apply clipNext_range; exact H);
    generalize dependent (setz N_clip_counter v s) end.
  intros s1 X. destruct (vertAccelBad _ _ _);
  match goal with |- Pclip (if ?b then _ else _) => destruct b end; pres D_clip.
Qed.
Theorem clip_counter_range : forall s, reachable s -> 0 <= gz s N_clip_counter <= 100.
Proof.
  intros s [l ->]. apply (run_inv4 Pclip).
  - papi D_clip.
  - pres D_clip.
  - pres D_clip.
  - presh D_clip ltac:(idtac; match goal with |- Pclip (checkVerticalAccelerationHealth _ _) => apply cvah_clip end).
  - intros s H. exact H.
  - split; discriminate.
Qed.

(** Effect of one update on the flag and the time of the last detection. *)
Definition Kba (k : bk) := match k with F_bad_acc_vertical => true | _ => false end.
Definition Kta (k : zk) := match k with T_bad_vert_accel => true | _ => false end.
Definition Pba v t (s : st) : Prop := gb s F_bad_acc_vertical = v /\ gz s T_bad_vert_accel = t.
Lemma D_ba : forall v t, dep Kba Kta false (Pba v t).
Proof. intros v t s s' H G _. unfold Pba. rewrite H, G by reflexivity. auto. Qed.
Lemma cvah_eff : forall i s, exists d : bool,
  let s' := checkVerticalAccelerationHealth i s in
  gz s' T_bad_vert_accel = (if d then iz i J_now else gz s T_bad_vert_accel) /\
  gb s' F_bad_acc_vertical = (if gb s F_bad_acc_vertical then is_recent (iz i J_now) (gz s' T_bad_vert_accel) 10000000 else d).
Proof.
  intros i s. exists (vertAccelBad i s (clipNext (ib i I_clipping) (gz s N_clip_counter))).
  unfold checkVerticalAccelerationHealth. cbv zeta.
  destruct (vertAccelBad i s _); cbn; destruct (gb s F_bad_acc_vertical); cbn; auto.
Qed.
Lemma upd_bad : forall p i s, exists d : bool,
  let s' := controlFusionModes p i s in
  gz s' T_bad_vert_accel = (if d then iz i J_now else gz s T_bad_vert_accel) /\
  gb s' F_bad_acc_vertical = (if gb s F_bad_acc_vertical then is_recent (iz i J_now) (gz s' T_bad_vert_accel) 10000000 else d).
Proof.
  intros p i s. cbv zeta.
  destruct (cvah_eff i (cfm_data p i (cfm_tilt p i s))) as [d [A B]]. exists d.
  assert (X : Pba (gb s F_bad_acc_vertical) (gz s T_bad_vert_accel) (cfm_data p i (cfm_tilt p i s))).
  { assert (Pba (gb s F_bad_acc_vertical) (gz s T_bad_vert_accel) s) by (split; reflexivity).
    pres (D_ba (gb s F_bad_acc_vertical) (gz s T_bad_vert_accel)). }
  destruct X as [X1 X2]. rewrite X1, X2 in *. 
  assert (Y : Pba (gb (checkVerticalAccelerationHealth i (cfm_data p i (cfm_tilt p i s))) F_bad_acc_vertical)
                  (gz (checkVerticalAccelerationHealth i (cfm_data p i (cfm_tilt p i s))) T_bad_vert_accel)
                  (controlFusionModes p i s)).
  { unfold controlFusionModes, controlHeightSensorTimeouts.
    match goal with |- Pba ?v ?t _ => assert (Pba v t (checkVerticalAccelerationHealth i (cfm_data p i (cfm_tilt p i s)))) by (split; reflexivity);
      pose proof (D_ba v t) as DD end.
    set (s1 := checkVerticalAccelerationHealth i (cfm_data p i (cfm_tilt p i s))) in *. clearbody s1.
    presh DD idtac. }
  destruct Y as [Y1 Y2]. rewrite Y1, Y2. auto.
Qed.
Lemma init_bad : forall p i s, Pba (gb s F_bad_acc_vertical) (gz s T_bad_vert_accel) (initialiseFilter p i s).
Proof. intros p i s. assert (Pba (gb s F_bad_acc_vertical) (gz s T_bad_vert_accel) s) by (split; reflexivity). pres (D_ba (gb s F_bad_acc_vertical) (gz s T_bad_vert_accel)). Qed.
Lemma api_bad : forall a s, Pba (gb s F_bad_acc_vertical) (gz s T_bad_vert_accel) (api_step a s).
Proof. intros a s. assert (Pba (gb s F_bad_acc_vertical) (gz s T_bad_vert_accel) s) by (split; reflexivity). destruct a; pres (D_ba (gb s F_bad_acc_vertical) (gz s T_bad_vert_accel)). Qed.
Theorem bad_acc_persists_from : forall l s t t1, 0 <= t -> t + 20000000 < 2 ^ 64 ->
  gb s F_bad_acc_vertical = true -> t <= gz s T_bad_vert_accel <= t1 -> t1 < t + 10000000 ->
  no_reinit l -> timed t1 (t + 10000000) l -> gb (run l s) F_bad_acc_vertical = true.
Proof.
  induction l as [|e l IH]; intros s t t1 Ht Hw Hf Hb Ht1 NR Htm; [exact Hf|].
  apply Forall_cons_iff in NR as [NE NR]. fold (no_reinit l) in NR. cbn [run]. destruct e as [a| |p i|p i|]; cbn [timed] in Htm.
  - destruct (api_bad a s) as [A B]. apply (IH _ t t1); auto; cbn [do_step]; [rewrite A|rewrite B]; auto.
  - apply (IH _ t t1); auto.
  - destruct (init_bad p i s) as [A B]. apply (IH _ t t1); auto; cbn [do_step]; [rewrite A|rewrite B]; auto.
  - destruct Htm as [Hn Htm]. destruct (upd_bad p i s) as [d [A B]]. cbv zeta in *. cbn [do_step].
    assert (E : t <= gz (controlFusionModes p i s) T_bad_vert_accel <= iz i J_now).
    { rewrite A. destruct d; lia. }
    apply (IH _ t (iz i J_now)); auto; try lia.
    rewrite B, Hf. unfold is_recent. rewrite add64_small by lia. apply Z.gtb_lt. lia.
  - contradiction.
Qed.
Theorem bad_acc_persists : forall p i s l, 0 <= iz i J_now -> iz i J_now + 20000000 < 2 ^ 64 ->
  gb s F_bad_acc_vertical = false -> gb (controlFusionModes p i s) F_bad_acc_vertical = true ->
  no_reinit l -> timed (iz i J_now) (iz i J_now + 10000000) l ->
  gb (run l (controlFusionModes p i s)) F_bad_acc_vertical = true.
Proof.
  intros p i s l H0 H1 Hf Ht NR Hl. destruct (upd_bad p i s) as [d [A B]]. cbv zeta in *. rewrite Hf in B. rewrite Ht in B. subst d.
  apply (bad_acc_persists_from _ _ (iz i J_now) (iz i J_now)); auto; lia.
Qed.
(** ... and it is cleared only if the last detection is at least ten seconds old *)
Theorem bad_acc_cleared : forall p i s, 0 <= gz s T_bad_vert_accel -> 0 <= iz i J_now -> gz s T_bad_vert_accel + 10000000 < 2 ^ 64 -> iz i J_now + 10000000 < 2 ^ 64 ->
  gb s F_bad_acc_vertical = true -> gb (controlFusionModes p i s) F_bad_acc_vertical = false ->
  gz (controlFusionModes p i s) T_bad_vert_accel = gz s T_bad_vert_accel /\ gz s T_bad_vert_accel + 10000000 <= iz i J_now.
Proof.
  intros p i s H0 H1 H2 H3 Hf Hc. destruct (upd_bad p i s) as [d [A B]]. cbv zeta in *. rewrite Hf, Hc in B. symmetry in B.
  unfold is_recent in B. rewrite A in B. rewrite add64_small in B by (destruct d; lia).
  apply not_true_iff_false in B. rewrite Z.gtb_lt in B. rewrite A. destruct d; split; auto; lia.
Qed.

(** *** C28 *)
Definition Pgap (s : st) : Prop :=
  spaced (gsf s) /\ (match gsf s with [] => True | (t, _) :: _ => gz s T_ekfgsf_yaw_reset = t end)
  /\ 0 <= gz s T_ekfgsf_yaw_reset < horizon.
Definition Pgsf (lim : Z) (s : st) : Prop :=
  Pgap s /\ gz s N_ekfgsf_yaw_reset_count = resets_in_gps_mode s /\ resets_in_gps_mode s <= lim.
Definition Kgsf (k : zk) := match k with T_ekfgsf_yaw_reset | N_ekfgsf_yaw_reset_count => true | _ => false end.
Lemma D_gsf : forall lim, dep nob Kgsf true (Pgsf lim).
Proof. intros lim s s' _ H G. unfold Pgsf, Pgap, resets_in_gps_mode. rewrite !H, G by reflexivity. auto. Qed.
Lemma timed_out_gt : forall now ts d, 0 <= ts < horizon -> 0 <= d < horizon -> is_timed_out now ts d = true -> now > ts + d.
Proof.
  intros now ts d H H0. unfold is_timed_out, horizon in *. rewrite add64_small by lia. intros E. apply Z.ltb_lt in E. lia.
Qed.
Lemma spaced_cons : forall t b l T, (match l with [] => True | (t', _) :: _ => T = t' end) -> spaced l -> t > T + 5000000 -> spaced ((t, b) :: l).
Proof. intros t b [|[t' b'] l] T H1 H2 H3; cbn in *; auto. subst. split; auto. Qed.
(** the state after a reset, whatever the other fields *)
Lemma reset_log : forall p i s, ib i I_gsf_ok = true ->
  gsf (snd (resetYawToEKFGSF p i s)) = (iz i J_now, gb s F_gps) :: gsf s.
Proof. intros p i s H. unfold resetYawToEKFGSF. rewrite H. cbn [negb]. cbv zeta. cbn [snd]. destruct (negb _); reflexivity. Qed.
Lemma reset_fst : forall p i s, fst (resetYawToEKFGSF p i s) = ib i I_gsf_ok.
Proof. intros p i s. unfold resetYawToEKFGSF. destruct (ib i I_gsf_ok); reflexivity. Qed.
Lemma reset_no : forall p i s, ib i I_gsf_ok = false -> snd (resetYawToEKFGSF p i s) = s.
Proof. intros p i s H. unfold resetYawToEKFGSF. rewrite H. reflexivity. Qed.
Lemma reset_gz : forall p i s k, k <> T_flt_mag_align -> gz (snd (resetYawToEKFGSF p i s)) k = gz s k.
Proof.
  intros p i s k H. unfold resetYawToEKFGSF. destruct (negb (ib i I_gsf_ok)); cbv zeta; cbn [snd]; auto.
  destruct (negb _); cbn; destruct (zk_eqb _ k) eqn:E; auto; apply zk_eqb_true in E; congruence.
Qed.
Lemma align_gsf : forall lim p i s, 0 <= iz i J_now < horizon -> Pgsf lim s -> Pgsf lim (gsfAlign p i s).
Proof.
  intros lim p i s Hn [(A & B & C) [D E]]. unfold gsfAlign.
  destruct (negb (gb s F_gps) && _ && _) eqn:Q; [|exact (conj (conj A (conj B C)) (conj D E))].
  apply andb_true_iff in Q. destruct Q as [Q1 Q3]. apply andb_true_iff in Q1. destruct Q1 as [Q1 Q2].
  cbv zeta. rewrite reset_fst. destruct (ib i I_gsf_ok) eqn:G; cbn [if_].
  2: { rewrite reset_no by auto. exact (conj (conj A (conj B C)) (conj D E)). }
  apply timed_out_gt in Q3; [|auto|unfold horizon; lia].
  unfold Pgsf, Pgap, resets_in_gps_mode. cbn. rewrite reset_log by auto. rewrite reset_gz by discriminate.
  apply negb_true_iff in Q1. rewrite Q1. cbn [filter snd].
  split; [split; [|split; auto]|auto].
  apply (spaced_cons _ _ _ (gz s T_ekfgsf_yaw_reset)); auto.
Qed.
Lemma recover_gsf : forall lim p i s, 0 <= iz i J_now < horizon -> p_gsf_limit p <= lim -> lim <= 255 -> gb s F_gps = true ->
  Pgsf lim s -> Pgsf lim (gpsRecover p i s).
Proof.
  intros lim p i s Hn Hl Hl2 Hg PP. unfold gpsRecover.
  destruct ((gb s L_do_ekfgsf_yaw_reset || _) && _ && _ && _) eqn:Q.
  - destruct PP as [(A & B & C) [D E]].
    apply andb_true_iff in Q. destruct Q as [Q _]. apply andb_true_iff in Q. destruct Q as [Q Q3].
    apply andb_true_iff in Q. destruct Q as [_ Q2]. apply Z.ltb_lt in Q2.
    cbv zeta. rewrite reset_fst. destruct (ib i I_gsf_ok) eqn:G; cbn [if_].
    2: { rewrite reset_no by auto. exact (conj (conj A (conj B C)) (conj D E)). }
    apply timed_out_gt in Q3; [|auto|unfold horizon; lia].
    unfold Pgsf, Pgap, resets_in_gps_mode. cbn. rewrite reset_log by auto. rewrite !reset_gz by discriminate. rewrite Hg.
    cbn [filter snd length].
    split; [split; [|split; auto]|].
    + apply (spaced_cons _ _ _ (gz s T_ekfgsf_yaw_reset)); auto.
    + rewrite D. unfold resets_in_gps_mode in *. rewrite D in Q2.
      assert (0 <= Z.of_nat (length (filter (fun e : Z * bool => snd e) (gsf s)))) by lia.
      unfold u8, two8. rewrite Z.mod_small by lia. rewrite Nat2Z.inj_succ. lia.
  - pres (D_gsf lim).
Qed.
Lemma gpsNew_gsf : forall lim p i s, 0 <= iz i J_now < horizon -> p_gsf_limit p <= lim -> lim <= 255 ->
  Pgsf lim s -> Pgsf lim (gpsNew p i s).
Proof.
  intros lim p i s Hn Hl Hl2 H. unfold gpsNew.
  assert (X : Pgsf lim (gsfAlign p i (gpsQualityStop p i (gpsSelect p i (controlGpsYawFusion p i s))))).
  { apply align_gsf; auto. pres (D_gsf lim). }
  revert X. generalize (gsfAlign p i (gpsQualityStop p i (gpsSelect p i (controlGpsYawFusion p i s)))). clear s H. intros s H. cbv zeta.
  assert (X : Pgsf lim (if_ (gb s F_gps) (gpsRecover p i) s)).
  { destruct (gb s F_gps) eqn:E; cbn [if_]; auto. apply recover_gsf; auto. }
  revert X. generalize (if_ (gb s F_gps) (gpsRecover p i) s). clear s H. intros s H. pres (D_gsf lim).
Qed.
Lemma run_gsf : forall lim l s, lim <= 255 ->
  updates (fun p i => 0 <= iz i J_now < horizon /\ p_gsf_limit p <= lim) l -> Pgsf lim s -> Pgsf lim (run l s).
Proof.
  intros lim l s Hl. apply (run_inv_u _ (Pgsf lim)).
  - papi (D_gsf lim).
  - pres (D_gsf lim).
  - intros p i s1 _. pres (D_gsf lim).
  - intros p i s1 [Hn Hp]. presh (D_gsf lim) ltac:(idtac; match goal with |- Pgsf lim (gpsNew _ _ _) => apply gpsNew_gsf; [exact Hn|exact Hp|exact Hl|] end).
  - intros s1 H. exact H.
Qed.
Theorem gsf_resets_limited : forall lim l, 0 <= lim <= 255 ->
  updates (fun p i => 0 <= iz i J_now < horizon /\ p_gsf_limit p <= lim) l ->
  spaced (gsf (run l st0)) /\ resets_in_gps_mode (run l st0) <= lim.
Proof.
  intros lim l Hl U. assert (X : Pgsf lim (run l st0)).
  { apply run_gsf; auto; try lia. unfold Pgsf, Pgap, resets_in_gps_mode, horizon. cbn. lia. }
  destruct X as [(A & B & C) [D E]]. auto.
Qed.
(** a reset happens only in an update with new GPS data and a converged yaw estimator *)
Lemma gsf_frame : forall p i s, ib i I_gps_ready = false \/ ib i I_gsf_ok = false -> gsf (controlFusionModes p i s) = gsf s.
Proof.
  intros p i s H. change (lis (gsf s) (controlFusionModes p i s)). assert (lis (gsf s) s) by reflexivity.
  presh (D_lis (gsf s)) ltac:(idtac; match goal with
    | |- lis _ (controlGpsFusion p i ?s) => destruct H as [H|H]; [unfold controlGpsFusion; rewrite H|]
    | H : ib i I_gsf_ok = false |- lis _ (snd (resetYawToEKFGSF p i ?s)) => rewrite (reset_no p i s H) end).
Qed.

(** *** C29 *)
Definition preDR (p : params) (i : inp) (s : st) : st :=
  controlFakePosFusion i (controlAuxVelFusion i (controlExternalVisionFusion p i (controlHeightFusion p i (preHeight p i s)))).
Lemma cfm_splitd : forall p i s, controlFusionModes p i s = update_deadreckoning_status p i (preDR p i s).
Proof. intros p i s. unfold preDR, preHeight, controlFusionModes. reflexivity. Qed.
Definition Kdr (k : bk) := match k with L_is_dead_reckoning | L_is_wind_dead_reckoning | L_deadreckon_time_exceeded => false | _ => true end.
Lemma dr_frame_b : forall p i s k, Kdr k = true -> gb (update_deadreckoning_status p i s) k = gb s k.
Proof. intros p i s k H. destruct k; try discriminate H; unfold update_deadreckoning_status; cbv zeta; destruct (negb _ && negb _ && negb _); reflexivity. Qed.
Lemma dr_frame_z : forall p i s k, k <> T_last_aiding -> gz (update_deadreckoning_status p i s) k = gz s k.
Proof. intros p i s k H. destruct k; try congruence; unfold update_deadreckoning_status; cbv zeta; destruct (negb _ && negb _ && negb _); reflexivity. Qed.
Theorem dead_reckoning_exact : forall p i s, let s' := controlFusionModes p i s in
  let fresh k := is_recent (iz i J_now) (gz s' k) (p_no_aid_timeout p) in
  let velpos := (gb s' F_gps || gb s' F_ev_pos || gb s' F_ev_vel) && (fresh T_hor_pos_fuse || fresh T_hor_vel_fuse || fresh T_delpos_fuse) in
  let flow := gb s' F_opt_flow && fresh T_of_fuse in
  let air := gb s' F_wind && fresh T_arsp_fuse && fresh T_beta_fuse in
  gb s' L_is_wind_dead_reckoning = negb velpos && negb flow && air /\
  gb s' L_is_dead_reckoning = negb velpos && negb flow && negb air.
Proof.
  intros p i s. cbv zeta. rewrite cfm_splitd. generalize (preDR p i s). clear s. intros s.
  rewrite !dr_frame_z by discriminate.
  rewrite (dr_frame_b p i s F_gps), (dr_frame_b p i s F_ev_pos), (dr_frame_b p i s F_ev_vel), (dr_frame_b p i s F_opt_flow),
    (dr_frame_b p i s F_wind) by reflexivity.
  unfold update_deadreckoning_status. cbv zeta.
  unfold velPosAiding, optFlowAiding, airDataAiding, recent.
  match goal with |- context [if_ ?b _ _] => destruct b end; split; reflexivity.
Qed.
(** time-out of dead reckoning *)
Lemma preDR_last : forall p i s, gz (preDR p i s) T_last_aiding = gz s T_last_aiding.
Proof. fz. Qed.
Lemma dr_last : forall p i s, let s' := controlFusionModes p i s in
  gz s' T_last_aiding = (if gb s' L_is_dead_reckoning then gz s T_last_aiding else sub64 (iz i J_now) (p_no_aid_timeout p)) /\
  gb s' L_deadreckon_time_exceeded = (gz s' T_last_aiding =? 0) || is_timed_out (iz i J_now) (gz s' T_last_aiding) (u64 (p_valid_timeout p)).
Proof.
  intros p i s. cbv zeta. rewrite <- (preDR_last p i s). rewrite cfm_splitd. generalize (preDR p i s). clear s. intros s.
  unfold update_deadreckoning_status, timed_out. cbv zeta.
  destruct (negb (velPosAiding p i s) && negb (optFlowAiding p i s) && negb (airDataAiding p i s)); split; reflexivity.
Qed.
Lemma last_keep : forall l s, always (fun s => gb s L_is_dead_reckoning = true) l s -> gz (run l s) T_last_aiding = gz s T_last_aiding.
Proof.
  induction l as [|e l IH]; intros s H; [reflexivity|]. cbn [always run] in *. destruct H as [H1 H2]. rewrite IH by exact H2.
  destruct e as [a| |p i|p i|]; cbn [do_step] in *.
  - destruct a as [v t|v|v|v t|v|]; try reflexivity. destruct v; reflexivity.
  - reflexivity.
  - fz.
  - destruct (dr_last p i s) as [A _]. rewrite A, H1. reflexivity.
  - reflexivity.
Qed.
(** [t]: time of the last update with aiding; [n]: time of the current one, all updates after [t] being dead reckoning *)
Theorem dead_reckoning_timeout : forall p0 i0 s0 l p i, let s1 := controlFusionModes p0 i0 s0 in
  let s2 := controlFusionModes p i (run l s1) in
  gb s1 L_is_dead_reckoning = false -> always (fun s => gb s L_is_dead_reckoning = true) (l ++ [Update p i]) s1 ->
  0 <= p_no_aid_timeout p0 < iz i0 J_now -> iz i0 J_now < horizon -> 0 <= p_valid_timeout p < two32 ->
  gb s2 L_deadreckon_time_exceeded = (iz i0 J_now - p_no_aid_timeout p0 + p_valid_timeout p <? iz i J_now).
Proof.
  intros p0 i0 s0 l p i. cbv zeta. intros Hs Ha Hn Hh Hv.
  pose proof (last_keep _ _ Ha) as K. rewrite run_app in K. cbn [run do_step] in K.
  destruct (dr_last p i (run l (controlFusionModes p0 i0 s0))) as [_ B]. rewrite B. clear B. rewrite K.
  destruct (dr_last p0 i0 s0) as [A _]. rewrite A, Hs. unfold horizon, two32 in *.
  unfold sub64. rewrite u64_small by lia.
  replace (iz i0 J_now - p_no_aid_timeout p0 =? 0) with false by (symmetry; apply Z.eqb_neq; lia). cbn [orb].
  unfold is_timed_out. rewrite u64_small by lia. rewrite add64_small by lia. reflexivity.
Qed.

(** Invariants of the control state machine: height and yaw sources (C14, C15, C16, C17). *)
Require Import ZArith Bool List Lia.
Require Import Verif.CBase Verif.GpsModel Verif.ControlModel Verif.ControlTac Verif.ControlSpec.
Import ListNotations.
Local Open Scope Z_scope.

Lemma run_app : forall l1 l2 s, run (l1 ++ l2) s = run l2 (run l1 s).
Proof. induction l1; simpl; auto. Qed.
(** Invariant induction *)
Lemma run_inv : forall (P : st -> Prop), (forall e s, P s -> P (do_step e s)) -> forall l s, P s -> P (run l s).
Proof. intros P H l. induction l; simpl; auto. Qed.
Lemma run_inv_u : forall (Q : params -> inp -> Prop) (P : st -> Prop),
  (forall a s, P s -> P (api_step a s)) -> (forall s, P s -> P (initAttempt s)) ->
  (forall p i s, Q p i -> P s -> P (initialiseFilter p i s)) ->
  (forall p i s, Q p i -> P s -> P (controlFusionModes p i s)) -> (forall s, P s -> P (reinit s)) ->
  forall l s, updates Q l -> P s -> P (run l s).
Proof.
  intros Q P HA HT HI HU HR l. unfold updates. induction l as [|e l IH]; intros s F Hs; simpl; auto.
  inversion F; subst. apply IH; auto. destruct e; simpl; auto.
Qed.
Lemma run_inv4 : forall (P : st -> Prop),
  (forall a s, P s -> P (api_step a s)) -> (forall s, P s -> P (initAttempt s)) ->
  (forall p i s, P s -> P (initialiseFilter p i s)) ->
  (forall p i s, P s -> P (controlFusionModes p i s)) -> (forall s, P s -> P (reinit s)) -> forall l s, P s -> P (run l s).
Proof. intros P HA HT HI HU HR. apply run_inv. intros [a| |p i|p i|] s Hs; simpl; auto. Qed.
(** the same for executions without re-initialisation *)
Lemma run_inv_un : forall (Q : params -> inp -> Prop) (P : st -> Prop),
  (forall a s, P s -> P (api_step a s)) -> (forall s, P s -> P (initAttempt s)) ->
  (forall p i s, Q p i -> P s -> P (initialiseFilter p i s)) ->
  (forall p i s, Q p i -> P s -> P (controlFusionModes p i s)) ->
  forall l s, no_reinit l -> updates Q l -> P s -> P (run l s).
Proof.
  intros Q P HA HT HI HU l. unfold updates, no_reinit. induction l as [|e l IH]; intros s N F Hs; simpl; auto.
  inversion F; subst. inversion N; subst. apply IH; auto. destruct e; simpl; auto. contradiction.
Qed.
Lemma run_inv4n : forall (P : st -> Prop),
  (forall a s, P s -> P (api_step a s)) -> (forall s, P s -> P (initAttempt s)) ->
  (forall p i s, P s -> P (initialiseFilter p i s)) ->
  (forall p i s, P s -> P (controlFusionModes p i s)) -> forall l s, no_reinit l -> P s -> P (run l s).
Proof.
  intros P HA HT HI HU l s N. apply (run_inv_un (fun _ _ => True)); auto. unfold updates. clear. induction l as [|e l IH]; constructor; auto. destruct e; auto.
Qed.
Ltac papi D := let a := fresh in intros a; destruct a; pres D.

(** *** C14 *)
Definition P14 (s : st) : Prop := count (height_sources s) <= 1.
Definition K14 (k : bk) := match k with F_baro_hgt | F_gps_hgt | F_rng_hgt | F_ev_hgt => true | _ => false end.
Lemma D14 : dep K14 noz false P14.
Proof. intros s s' H _ _. unfold P14, height_sources. rewrite !H by reflexivity. auto. Qed.
Lemma set_baro14 : forall s, P14 (setControlBaroHeight s). Proof. intros s. vm_compute. discriminate. Qed.
Lemma set_rng14 : forall s, P14 (setControlRangeHeight s). Proof. intros s. vm_compute. discriminate. Qed.
Lemma set_gps14 : forall s, P14 (setControlGPSHeight s). Proof. intros s. vm_compute. discriminate. Qed.
Lemma set_ev14 : forall s, P14 (setControlEVHeight s). Proof. intros s. vm_compute. discriminate. Qed.
Lemma clr_gps14 : forall s, P14 s -> P14 (setb F_gps_hgt false s).
Proof.
  intros s. unfold P14, height_sources. cbn.
  destruct (gb s F_baro_hgt), (gb s F_gps_hgt), (gb s F_rng_hgt), (gb s F_ev_hgt); simpl; lia.
Qed.
Ltac h14 := idtac; match goal with
  | |- P14 (setControlBaroHeight _) => apply set_baro14 | |- P14 (setControlRangeHeight _) => apply set_rng14
  | |- P14 (setControlGPSHeight _) => apply set_gps14 | |- P14 (setControlEVHeight _) => apply set_ev14
  | |- P14 (setb F_gps_hgt false _) => apply clr_gps14 end.
Lemma inv14 : forall l s, P14 s -> P14 (run l s).
Proof.
  apply run_inv4.
  - papi D14.
  - presh D14 h14.
  - presh D14 h14.
  - presh D14 h14.
  - intros s _. vm_compute. discriminate.
Qed.
Theorem one_height_source : forall s, reachable s -> count (height_sources s) <= 1.
Proof. intros s [l ->]. apply inv14. vm_compute. discriminate. Qed.

(** *** C15 *)
Definition no_hgt (s : st) : Prop := count (height_sources s) = 0.
Lemma no_hgt_eq : forall s, no_hgt s <->
  gb s F_baro_hgt = false /\ gb s F_gps_hgt = false /\ gb s F_rng_hgt = false /\ gb s F_ev_hgt = false.
Proof.
  intros s. unfold no_hgt, height_sources, count. cbn.
  destruct (gb s F_baro_hgt), (gb s F_gps_hgt), (gb s F_rng_hgt), (gb s F_ev_hgt); simpl; intuition (congruence || lia).
Qed.
Definition Pn (s : st) : Prop := no_hgt s /\ gb s L_prev_rng_hgt = false.
Definition Kn (k : bk) := match k with L_prev_rng_hgt => true | k => K14 k end.
Lemma D_no : dep K14 noz false no_hgt.
Proof. intros s s' H _ _. unfold no_hgt, height_sources. rewrite !H by reflexivity. auto. Qed.
Lemma Dn : dep Kn noz false Pn.
Proof. intros s s' H _ _. unfold Pn, no_hgt, height_sources. rewrite !H by reflexivity. auto. Qed.
Lemma clr_gps_no : forall s, no_hgt s -> no_hgt (setb F_gps_hgt false s).
Proof. intros s. rewrite !no_hgt_eq. cbn. tauto. Qed.
Lemma clr_gps_n : forall s, Pn s -> Pn (setb F_gps_hgt false s).
Proof. intros s [H G]. split; [apply clr_gps_no; exact H|exact G]. Qed.
Lemma switch_no : forall i s, no_hgt s -> heightTimeoutSwitch i s = (false, s).
Proof. intros i s H. apply no_hgt_eq in H. destruct H as (A & B & C & D). unfold heightTimeoutSwitch. rewrite A, B, C, D. reflexivity. Qed.
Lemma switch_n : forall i s, Pn s -> Pn (snd (heightTimeoutSwitch i s)).
Proof. intros i s [H G]. rewrite switch_no by exact H. split; assumption. Qed.
Lemma cfm_tilt_n : forall p i s, no_hgt s -> Pn (cfm_tilt p i s).
Proof.
  intros p i s H. unfold cfm_tilt. cbv zeta.
  match goal with |- Pn (if_ _ _ ?x) => assert (Pn x) end.
  { apply no_hgt_eq in H. split; [apply no_hgt_eq; cbn; tauto|cbn; tauto]. }
  presh Dn idtac.
Qed.
(** the part of the cycle before the height selection *)
Definition preHeight (p : params) (i : inp) (s : st) : st :=
  controlDragFusion p i (controlBetaFusion p i (controlAirDataFusion p i (controlGpsFusion p i
    (controlOpticalFlowFusion p i (controlMagFusion p i (controlHeightSensorTimeouts p i (cfm_data p i (cfm_tilt p i s)))))))).
Definition postHeight (p : params) (i : inp) (s : st) : st :=
  update_deadreckoning_status p i (controlFakePosFusion i (controlAuxVelFusion i (controlExternalVisionFusion p i s))).
Lemma cfm_split : forall p i s, controlFusionModes p i s = postHeight p i (controlHeightFusion p i (preHeight p i s)).
Proof. reflexivity. Qed.
Ltac hn := idtac; match goal with
  | |- Pn (cfm_tilt _ _ _) => apply cfm_tilt_n; assumption
  | |- Pn (setb F_gps_hgt false _) => apply clr_gps_n
  | |- Pn (snd (heightTimeoutSwitch _ _)) => apply switch_n end.
Lemma preHeight_n : forall p i s, no_hgt s -> Pn (preHeight p i s).
Proof. presh Dn hn. Qed.
Lemma hgt_frame : forall k, K14 k = true -> forall p i s, gb (postHeight p i s) k = gb s k.
Proof. intros k Hk; destruct k; try discriminate Hk; fb. Qed.
Lemma gps_mode_stuck1 : forall p i s, p_vdist p = VDIST_GPS -> p_range_aid p <> 1 -> no_hgt s -> no_hgt (controlFusionModes p i s).
Proof.
  intros p i s Hp Ha H. rewrite cfm_split. generalize (preHeight_n p i s H). generalize (preHeight p i s). clear s H.
  intros s H. assert (HH : no_hgt (controlHeightFusion p i s)).
  { unfold controlHeightFusion, hgtSelect. cbv zeta. rewrite Hp. replace (p_range_aid p =? 1) with false by (symmetry; apply Z.eqb_neq; auto).
    assert (G : Pn (checkRangeAidSuitability i s)) by presh Dn idtac.
    revert G. generalize (checkRangeAidSuitability i s). clear s H. intros s [H G].
    pose proof (proj1 (no_hgt_eq s) H) as (A & B & C & D).
    change (VDIST_GPS =? VDIST_RANGE) with false. change (VDIST_GPS =? VDIST_GPS) with true. cbn iota. cbn [andb].
    unfold hgtGpsMode. cbv zeta. rewrite G. rewrite A. rewrite andb_false_r. simpl andb. cbn iota. cbn [snd]. rewrite A, B, C, D, andb_false_r. exact H. }
  apply no_hgt_eq in HH. apply no_hgt_eq. rewrite !hgt_frame by reflexivity. exact HH.
Qed.
(** no height source, GPS selected, range aid not enabled: no later update activates one, whatever the sensors deliver *)
Theorem gps_mode_stuck : forall l s, Forall (fun e => match e with Init _ _ | InitTry => False | _ => True end) l ->
  updates (fun p _ => p_vdist p = VDIST_GPS /\ p_range_aid p <> 1) l -> no_hgt s -> no_hgt (run l s).
Proof.
  induction l as [|e l IH]; intros s F U H; simpl; auto.
  inversion F; subst. inversion U; subst. apply IH; auto. destruct e as [a| |p i|p i|]; simpl in *; try tauto.
  - destruct a; pres D_no.
  - destruct H4. apply gps_mode_stuck1; auto.
  - reflexivity.
Qed.

(** restoring in the other modes *)
Lemma faulty_pre : forall p i s, no_hgt s -> is_recent (iz i J_now) (iz i J_baro_newest) 400000 = true ->
  gb (preHeight p i s) L_baro_hgt_faulty = false.
Proof.
  intros p i s H R. change (bis L_baro_hgt_faulty false (preHeight p i s)). unfold preHeight.
  assert (X : Pn (cfm_tilt p i s)) by (apply cfm_tilt_n; exact H).
  assert (Y : Pn (cfm_data p i (cfm_tilt p i s)) /\ bis L_baro_hgt_faulty false (cfm_data p i (cfm_tilt p i s))).
  { revert X. generalize (cfm_tilt p i s). clear s H. intros s X. split. { pres Dn. }
    unfold cfm_data. unfold recent. rewrite R. cbv zeta.
    match goal with |- bis _ _ (if_ _ _ (if _ then _ |> if_ _ _ else ?y))%ctl => idtac | _ => idtac end.
    match goal with |- context [setz T_prev_gps ?v ?x] => assert (bis L_baro_hgt_faulty false (setz T_prev_gps v x)) by reflexivity;
      generalize dependent (setz T_prev_gps v x); intros s1 H1 end.
    pres (D_bis L_baro_hgt_faulty false). }
  revert Y. generalize (cfm_data p i (cfm_tilt p i s)). clear X s H. intros s [X Y].
  assert (Z : bis L_baro_hgt_faulty false (controlHeightSensorTimeouts p i s)).
  { unfold controlHeightSensorTimeouts.
    assert (X1 : Pn (checkVerticalAccelerationHealth i s)) by pres Dn.
    assert (Y1 : bis L_baro_hgt_faulty false (checkVerticalAccelerationHealth i s)) by (pres (D_bis L_baro_hgt_faulty false)).
    revert X1 Y1. generalize (checkVerticalAccelerationHealth i s). clear. intros s [X _] Y. cbv zeta.
    rewrite switch_no by exact X. cbn [fst snd if_]. destruct (_ || _); exact Y. }
  revert Z. generalize (controlHeightSensorTimeouts p i s). clear. intros s H. pres (D_bis L_baro_hgt_faulty false).
Qed.
Lemma cra_frame : forall k i s, k <> L_is_range_aid_suitable -> gb (checkRangeAidSuitability i s) k = gb s k.
Proof.
  intros k i s H. unfold checkRangeAidSuitability. cbv zeta. cbn [gb setb]. destruct (bk_eqb _ k) eqn:E; auto.
  apply bk_eqb_true in E. congruence.
Qed.
Lemma chf_flags : forall k p i s, gb (controlHeightFusion p i s) k = gb (snd (hgtSelect p i (checkRangeAidSuitability i s))) k.
Proof.
  intros k p i s. unfold controlHeightFusion. cbv zeta.
  match goal with |- gb (if_ ?b ?f ?x) _ = _ => destruct b; cbn [if_]; [|reflexivity] end.
  unfold fuseVertPos. destruct (ib i I_pass_hgt); reflexivity.
Qed.
Lemma gnd_frame : forall k i s, K14 k = true -> gb (startBaroHgtFusion i s) k = gb (setControlBaroHeight s) k.
Proof. intros k i s H. unfold startBaroHgtFusion. cbv zeta. destruct (_ && _); destruct k; try discriminate H; reflexivity. Qed.
Theorem baro_mode_restores : forall p i s,
  (p_vdist p = 0 \/ p_vdist p > 3) -> p_range_aid p <> 1 ->
  is_recent (iz i J_now) (iz i J_baro_newest) 400000 = true -> ib i I_baro_ready = true ->
  count (height_sources s) = 0 -> gb (controlFusionModes p i s) F_baro_hgt = true.
Proof.
  intros p i s Hv Ha R B H. rewrite cfm_split, hgt_frame, chf_flags by reflexivity.
  pose proof (faulty_pre p i s H R) as F. revert F. generalize (preHeight p i s). clear s H. intros s F.
  unfold hgtSelect. cbv zeta.
  replace (p_vdist p =? VDIST_RANGE) with false by (symmetry; apply Z.eqb_neq; unfold VDIST_RANGE; lia).
  replace (p_vdist p =? VDIST_GPS) with false by (symmetry; apply Z.eqb_neq; unfold VDIST_GPS; lia).
  replace (p_vdist p =? VDIST_EV) with false by (symmetry; apply Z.eqb_neq; unfold VDIST_EV; lia).
  replace (p_range_aid p =? 1) with false by (symmetry; apply Z.eqb_neq; auto).
  unfold hgtBaroMode. cbn [andb negb]. rewrite B, cra_frame, F by discriminate. cbn [andb negb]. cbn [snd].
  rewrite gnd_frame; reflexivity.
Qed.
Theorem range_mode_restores : forall p i s, p_vdist p = VDIST_RANGE -> ib i I_rng_data_healthy = true ->
  gb (controlFusionModes p i s) F_rng_hgt = true.
Proof.
  intros p i s Hv R. rewrite cfm_split, hgt_frame, chf_flags by reflexivity. generalize (preHeight p i s). clear s. intros s.
  unfold hgtSelect. cbv zeta. rewrite Hv. cbn [VDIST_RANGE Z.eqb]. change (VDIST_RANGE =? VDIST_RANGE) with true. cbn iota.
  unfold hgtRangeMode. rewrite R. reflexivity.
Qed.
Theorem ev_mode_restores : forall p i s, p_vdist p = VDIST_EV ->
  is_recent (iz i J_now) (iz i J_ext_vision) 400000 = true -> gb (controlFusionModes p i s) F_ev_hgt = true.
Proof.
  intros p i s Hv R. rewrite cfm_split, hgt_frame, chf_flags by reflexivity. generalize (preHeight p i s). clear s. intros s.
  unfold hgtSelect. cbv zeta. rewrite Hv. change (VDIST_EV =? VDIST_RANGE) with false.
  change (VDIST_EV =? VDIST_GPS) with false. change (VDIST_EV =? VDIST_EV) with true. cbn iota.
  unfold hgtEvMode. unfold recent. rewrite R. cbn [snd]. rewrite cra_frame by discriminate.
  destruct (gb s F_ev_hgt) eqn:E; cbn [negb andb if_]; [rewrite cra_frame by discriminate; exact E|reflexivity].
Qed.

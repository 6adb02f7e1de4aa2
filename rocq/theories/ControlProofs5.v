(** Proofs for the control decisions of C62-C66. *)
Require Import ZArith Bool List Lia.
Require Import Verif.CBase Verif.GpsModel Verif.ControlModel Verif.ControlSpec Verif.ControlTac Verif.ControlProofs Verif.ControlProofs2 Verif.ControlProofs3 Verif.ControlProofs4.
Import ListNotations.
Local Open Scope Z_scope.

(** *** Height fusion *)
Lemma postHeight_att : forall p i s, gz (postHeight p i s) T_vert_pos_attempt = gz s T_vert_pos_attempt. Proof. fz. Qed.
Lemma preHeight_att : forall p i s, gz (preHeight p i s) T_vert_pos_attempt = gz s T_vert_pos_attempt. Proof. fz. Qed.
Lemma postHeight_bf : forall p i s, gb (postHeight p i s) L_baro_hgt_faulty = gb s L_baro_hgt_faulty. Proof. fb. Qed.
Lemma postHeight_gi : forall p i s, gb (postHeight p i s) L_gps_hgt_intermittent = gb s L_gps_hgt_intermittent. Proof. fb. Qed.
Lemma postHeight_air : forall p i s, gb (postHeight p i s) F_in_air = gb s F_in_air. Proof. fb. Qed.
Lemma preHeight_air : forall p i s, gb (preHeight p i s) F_in_air = gb s F_in_air. Proof. fb. Qed.
Lemma startBaro_gb : forall i s k, k <> F_gnd_effect -> gb (startBaroHgtFusion i s) k = gb (setControlBaroHeight s) k.
Proof. intros i s k H. unfold startBaroHgtFusion. cbv zeta. destruct (_ && _); [|reflexivity]. simpl. unfold bk_eqb. destruct (bk_eq_dec F_gnd_effect k); [congruence|reflexivity]. Qed.
Lemma startBaro_gz : forall i s k, gz (startBaroHgtFusion i s) k = gz s k.
Proof. intros i s k. unfold startBaroHgtFusion. cbv zeta. destruct (_ && _); reflexivity. Qed.
Lemma hgtSelect_gz : forall p i s k, gz (snd (hgtSelect p i s)) k = gz s k.
Proof.
  intros p i s k. unfold hgtSelect, hgtRangeMode, hgtGpsMode, hgtEvMode, hgtBaroMode, startGpsHgtFusion. cbv zeta.
  repeat match goal with |- context [if ?b then _ else _] => destruct b end; cbn [snd if_]; rewrite ?startBaro_gz; try reflexivity;
  match goal with |- context [if_ ?b _ _] => destruct b; reflexivity end.
Qed.
Ltac sel := unfold hgtSelect, hgtRangeMode, hgtGpsMode, hgtEvMode, hgtBaroMode, startGpsHgtFusion; cbv zeta.
Lemma sel_frame : forall p i s k, K14 k = false -> k <> F_gnd_effect -> gb (snd (hgtSelect p i s)) k = gb s k.
Proof.
  intros p i s k HK HG. sel.
  repeat match goal with |- context [if ?b then _ else _] => destruct b end; cbn [snd if_]; rewrite ?startBaro_gb by exact HG; try reflexivity;
  try (match goal with |- context [if_ ?b _ _] => destruct b end); destruct k; try discriminate; reflexivity.
Qed.
Definition hgt_fresh (p : params) (i : inp) (s : st) : bool :=
  let baro := gb s F_baro_hgt && ib i I_baro_ready && negb (gb s L_baro_hgt_faulty) in
  let rng := gb s F_rng_hgt && ib i I_rng_data_healthy in
  if p_vdist p =? VDIST_RANGE then rng || baro
  else if p_vdist p =? VDIST_GPS then (gb s F_gps_hgt && ib i I_gps_ready) || rng || baro
  else if p_vdist p =? VDIST_EV then gb s F_ev_hgt || baro
  else rng || baro || (gb s F_gps_hgt && ib i I_gps_ready && negb (gb s L_gps_hgt_intermittent)).
Lemma sel_fresh : forall p i s, let r := hgtSelect p i s in fst r = true -> hgt_fresh p i (snd r) = true.
Proof.
  intros p i s. cbv zeta. unfold hgt_fresh, hgtSelect.
  destruct (p_vdist p =? VDIST_RANGE); [|destruct (p_vdist p =? VDIST_GPS); [|destruct (p_vdist p =? VDIST_EV)]].
  - unfold hgtRangeMode. destruct (ib i I_rng_data_healthy) eqn:E; cbn [fst snd]; [intros _; reflexivity|]. intros ->. apply orb_true_r.
  - unfold hgtGpsMode. cbv zeta. cbn [fst snd]. exact (fun H => H).
  - unfold hgtEvMode. cbv zeta. cbn [fst snd].
    destruct (negb (gb s F_ev_hgt) && recent i (iz i J_ext_vision) 400000) eqn:E; cbn [if_ orb]; [intros _; reflexivity|].
    destruct (gb s F_ev_hgt); [reflexivity|]. rewrite orb_false_r. cbn [orb]. exact (fun H => H).
  - unfold hgtBaroMode. set (a := (p_range_aid p =? 1) && gb s L_is_range_aid_suitable).
    destruct (a && ib i I_rng_data_healthy) eqn:E.
    + cbn [fst snd]. intros _. apply andb_true_iff in E. destruct E as [_ ->]. reflexivity.
    + destruct (negb a && ib i I_baro_ready && negb (gb s L_baro_hgt_faulty)) eqn:E2; cbn [fst snd].
      * intros _. rewrite !startBaro_gb by discriminate. apply andb_true_iff in E2. destruct E2 as [E2 E3]. apply andb_true_iff in E2. destruct E2 as [_ E2].
        rewrite E2. cbn [setControlBaroHeight setb gb]. simpl. rewrite E3. reflexivity.
      * intros ->. apply orb_true_r.
Qed.
(** conversely, without range aiding *)
Lemma sel_fresh_conv : forall p i s, (p_range_aid p =? 1) = false -> let r := hgtSelect p i s in
  hgt_fresh p i (snd r) = true -> (p_vdist p = VDIST_RANGE \/ p_vdist p = VDIST_GPS \/ p_vdist p = VDIST_EV \/ gb (snd r) F_rng_hgt = false) -> fst r = true.
Proof.
  intros p i s HA. cbv zeta. unfold hgt_fresh, hgtSelect. rewrite HA.
  destruct (p_vdist p =? VDIST_RANGE) eqn:V1; [|destruct (p_vdist p =? VDIST_GPS) eqn:V2; [|destruct (p_vdist p =? VDIST_EV) eqn:V3]].
  - unfold hgtRangeMode. destruct (ib i I_rng_data_healthy) eqn:E; cbn [fst snd]; [intros _ _; reflexivity|].
    rewrite andb_false_r. cbn [orb]. intros H _. exact H.
  - unfold hgtGpsMode. cbv zeta. cbn [fst snd]. intros H _. exact H.
  - unfold hgtEvMode. cbv zeta. cbn [fst snd].
    destruct (negb (gb s F_ev_hgt) && recent i (iz i J_ext_vision) 400000) eqn:E; cbn [if_ orb]; [reflexivity|].
    intros H _. rewrite orb_comm. exact H.
  - unfold hgtBaroMode. cbn [andb negb]. 
    destruct (ib i I_baro_ready && negb (gb s L_baro_hgt_faulty)) eqn:E2; cbn [fst snd]; [reflexivity|].
    intros H [C|[C|[C|C]]]; [rewrite C in V1; discriminate|rewrite C in V2; discriminate|rewrite C in V3; discriminate|].
    rewrite C in H. cbn [andb orb] in H. rewrite <- andb_assoc, E2, andb_false_r in H. exact H.
Qed.
Lemma hgt_fresh_on : forall p i s, hgt_fresh p i s = true -> gb s F_baro_hgt || gb s F_gps_hgt || gb s F_rng_hgt || gb s F_ev_hgt = true.
Proof.
  intros p i s. unfold hgt_fresh. destruct (p_vdist p =? VDIST_RANGE), (p_vdist p =? VDIST_GPS), (p_vdist p =? VDIST_EV), (gb s F_baro_hgt), (gb s F_gps_hgt), (gb s F_rng_hgt), (gb s F_ev_hgt); cbn; intros H; try reflexivity; discriminate.
Qed.
Definition bypass (i : inp) (s : st) : bool :=
  gb s F_rng_hgt && timed_out i (gz s T_hgt_fuse) 400000 && negb (ib i I_rng_data_healthy) && ib i I_rng_regular && negb (gb s F_in_air).
Lemma chf_eq : forall p i s, let s1 := snd (hgtSelect p i (checkRangeAidSuitability i s)) in
  controlHeightFusion p i s = if_ ((fst (hgtSelect p i (checkRangeAidSuitability i s)) || bypass i s1)
     && (gb s1 F_baro_hgt || gb s1 F_gps_hgt || gb s1 F_rng_hgt || gb s1 F_ev_hgt)) (fuseVertPos i (ib i I_pass_hgt)) s1.
Proof. reflexivity. Qed.
Lemma fresh_ext : forall p i s s', (forall k, K14 k = true -> gb s' k = gb s k) -> gb s' L_baro_hgt_faulty = gb s L_baro_hgt_faulty ->
  gb s' L_gps_hgt_intermittent = gb s L_gps_hgt_intermittent -> hgt_fresh p i s' = hgt_fresh p i s.
Proof. intros p i s s' A B C. unfold hgt_fresh. rewrite (A F_baro_hgt), (A F_gps_hgt), (A F_rng_hgt), (A F_ev_hgt), B, C by reflexivity. reflexivity. Qed.
Lemma fvp_gb : forall i b s k, gb (fuseVertPos i b s) k = gb s k.
Proof. intros i [] s k; reflexivity. Qed.
Lemma height_fused_fwd : forall p i s, let s' := controlFusionModes p i s in
  gz s' T_vert_pos_attempt <> gz s T_vert_pos_attempt ->
  gz s' T_vert_pos_attempt = iz i J_now /\
  (hgt_fresh p i s' = true \/
   (gb s' F_rng_hgt = true /\ gb s F_in_air = false /\ ib i I_rng_data_healthy = false /\ ib i I_rng_regular = true /\
    is_timed_out (iz i J_now) (gz (preHeight p i s) T_hgt_fuse) 400000 = true)).
Proof.
  intros p i s. cbv zeta. rewrite cfm_split, postHeight_att.
  pose proof (preHeight_att p i s) as PA. pose proof (preHeight_air p i s) as AIR. set (s0 := preHeight p i s) in *. rewrite (chf_eq p i s0). cbv zeta.
  set (r := hgtSelect p i (checkRangeAidSuitability i s0)). pose proof (sel_fresh p i (checkRangeAidSuitability i s0)) as FR. cbv zeta in FR. fold r in FR.
  assert (GZ : forall k, gz (snd r) k = gz s0 k) by (intros k; unfold r; rewrite hgtSelect_gz; reflexivity).
  assert (AIR2 : gb (snd r) F_in_air = gb s F_in_air) by (unfold r; rewrite sel_frame by (reflexivity || discriminate); exact AIR).
  match goal with |- context [if_ ?b _ _] => destruct b eqn:E end; cbn [if_].
  - intros _. split; [unfold fuseVertPos; destruct (ib i I_pass_hgt); reflexivity|].
    rewrite (fresh_ext p i (snd r)); [|intros k Hk; rewrite hgt_frame by exact Hk; apply fvp_gb|rewrite postHeight_bf; apply fvp_gb|rewrite postHeight_gi; apply fvp_gb].
    rewrite hgt_frame by reflexivity. rewrite fvp_gb. apply andb_true_iff in E. destruct E as [E _]. apply orb_true_iff in E. destruct E as [E|E]; [left; apply FR; exact E|right].
    unfold bypass in E. rewrite AIR2, GZ in E. repeat (apply andb_true_iff in E; destruct E as [E ?]).
    split; [exact E|]. split; [destruct (gb s F_in_air); [discriminate|reflexivity]|]. split; [destruct (ib i I_rng_data_healthy); [discriminate|reflexivity]|]. split; assumption.
  - rewrite GZ, PA. intros C. exfalso. apply C. reflexivity.
Qed.
Lemma height_fused_conv : forall p i s, let s' := controlFusionModes p i s in
  p_range_aid p <> 1 -> hgt_fresh p i s' = true -> (p_vdist p = VDIST_RANGE \/ p_vdist p = VDIST_GPS \/ p_vdist p = VDIST_EV \/ gb s' F_rng_hgt = false) ->
  gz s' T_vert_pos_attempt = iz i J_now.
Proof.
  intros p i s. cbv zeta. intros HA. rewrite cfm_split, postHeight_att. set (s0 := preHeight p i s). rewrite (chf_eq p i s0). cbv zeta.
  set (r := hgtSelect p i (checkRangeAidSuitability i s0)).
  pose proof (sel_fresh_conv p i (checkRangeAidSuitability i s0) (proj2 (Z.eqb_neq _ _) HA)) as FR. cbv zeta in FR. fold r in FR.
  assert (EXT : forall b, let s2 := postHeight p i (if_ b (fuseVertPos i (ib i I_pass_hgt)) (snd r)) in hgt_fresh p i s2 = hgt_fresh p i (snd r) /\ gb s2 F_rng_hgt = gb (snd r) F_rng_hgt).
  { intros b s2. assert (G : forall k, gb (if_ b (fuseVertPos i (ib i I_pass_hgt)) (snd r)) k = gb (snd r) k) by (intros k; destruct b; [apply fvp_gb|reflexivity]).
    split; [|unfold s2; rewrite hgt_frame by reflexivity; apply G].
    apply fresh_ext; [intros k Hk; unfold s2; rewrite hgt_frame by exact Hk; apply G|unfold s2; rewrite postHeight_bf; apply G|unfold s2; rewrite postHeight_gi; apply G]. }
  match goal with |- context [if_ ?b _ _] => destruct (EXT b) as [-> ->]; set (c := b) end. intros HF HM.
  replace c with true; [cbn [if_]; unfold fuseVertPos; destruct (ib i I_pass_hgt); reflexivity|].
  symmetry. unfold c. rewrite (FR HF HM), (hgt_fresh_on p i _ HF). reflexivity.
Qed.
(** external vision height: fused at every update without any new sample *)
Lemma ev_height_stale : forall p i s, let s' := controlFusionModes p i s in
  p_vdist p = VDIST_EV -> gb s F_ev_hgt = true -> gb s F_baro_hgt = false -> gb s F_gps_hgt = false -> gb s F_rng_hgt = false -> ib i I_pass_hgt = true ->
  is_timed_out (iz i J_now) (gz s T_hgt_fuse) 5000000 = false ->
  is_timed_out (iz i J_now) (gz (checkVerticalAccelerationHealth i (cfm_data p i (cfm_tilt p i s))) T_good_vert_accel) (p_bad_acc_delay p) = false ->
  gb s' F_ev_hgt = true /\ gb s' F_baro_hgt = false /\ gb s' F_gps_hgt = false /\ gb s' F_rng_hgt = false /\ gz s' T_hgt_fuse = iz i J_now /\ gz s' T_vert_pos_attempt = iz i J_now.
Proof.
  intros p i s s' V E B G R Hp T1 T2. unfold s'. rewrite cfm_split.
  assert (PM : preMag p i s = checkVerticalAccelerationHealth i (cfm_data p i (cfm_tilt p i s))).
  { unfold preMag, controlHeightSensorTimeouts. cbv zeta. unfold timed_out. rewrite T2.
    assert (TH : gz (checkVerticalAccelerationHealth i (cfm_data p i (cfm_tilt p i s))) T_hgt_fuse = gz s T_hgt_fuse) by fz. rewrite TH, T1. reflexivity. }
  assert (FRM : forall k, K14 k = true -> k <> F_gps_hgt -> gb (preHeight p i s) k = gb s k).
  { intros k Hk Hn. unfold preHeight. fold (preMag p i s). rewrite PM. destruct k; try discriminate; try congruence; fb. }
  assert (FG : gb (preHeight p i s) F_gps_hgt = false).
  { unfold preHeight. fold (preMag p i s). rewrite PM.
    match goal with |- gb ?x F_gps_hgt = false => change (bis F_gps_hgt false x) end.
    repeat match goal with |- bis _ _ (setb F_gps_hgt false _) => reflexivity | _ => pres_step (D_bis F_gps_hgt false) end; try reflexivity; exact G. }
  set (s0 := preHeight p i s) in *. rewrite (chf_eq p i s0). cbv zeta.
  assert (SEL : hgtSelect p i (checkRangeAidSuitability i s0) = (true, checkRangeAidSuitability i s0)).
  { unfold hgtSelect. rewrite V. cbn. unfold hgtEvMode. cbv zeta. rewrite !cra_frame by discriminate. rewrite (FRM F_ev_hgt), E by (reflexivity || discriminate). cbn [negb andb if_].
    rewrite !cra_frame by discriminate. rewrite (FRM F_ev_hgt), E by (reflexivity || discriminate). cbn [orb]. rewrite orb_true_r. reflexivity. }
  rewrite SEL. cbn [fst snd orb]. rewrite !cra_frame by discriminate. rewrite (FRM F_baro_hgt), (FRM F_rng_hgt), (FRM F_ev_hgt), FG, E by (reflexivity || discriminate). cbn [orb]. rewrite orb_true_r. cbn [andb if_].
  rewrite !hgt_frame by reflexivity. rewrite !fvp_gb, !cra_frame by discriminate. rewrite (FRM F_baro_hgt), (FRM F_rng_hgt), (FRM F_ev_hgt) by (reflexivity || discriminate). rewrite FG, E, B, R. rewrite Hp.
  assert (PH : forall x, gz (postHeight p i x) T_hgt_fuse = gz x T_hgt_fuse) by fz.
  rewrite PH, postHeight_att. repeat split.
Qed.

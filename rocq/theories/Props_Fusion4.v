(** * C37, ill-conditioned covariance, and concrete cases

    With rounding the covariance can lose definiteness.  When the innovation
    variance comes out smaller than the observation variance no state is
    corrected; the covariance is replaced by a reset one. *)
From Coq Require Import Reals Lra Lia.
From Coquelicot Require Import Coquelicot.
From Verif Require Import CBase F32 Scalar RealGeom RotModel CovSpec PsdLib CovModel CovProofsR CovUpdProofs CovWitness FusionGen FusionModel FusionSpec FusionProofs FusionProofs2 FusionProofs3 FusionProofs4 FusionProofs5 FusionUpd Props_Fusion Props_Fusion2 HeadingModel Props_Fusion3.
Open Scope R_scope.

(** only the covariance is replaced *)
Definition reset_only (reset : (nat -> R) -> (nat -> nat -> R) -> nat -> nat -> R) (f f' : fus R) : Prop :=
  fx f' = fx f /\ fP f' = reset (fx f) (fP f).
(** as above, and the wind states are zeroed *)
Definition reset_wind_zero (reset : (nat -> R) -> (nat -> nat -> R) -> nat -> nat -> R) (f f' : fus R) : Prop :=
  (forall i, fx f' i = if (i =? 22)%nat || (i =? 23)%nat then 0 else fx f i) /\ fP f' = reset (fx f) (fP f).
Lemma wind_zero (x : nat -> R) i : (if inb 22 2 i then szero else x i) = if (i =? 22)%nat || (i =? 23)%nat then 0 else x i.
Proof.
  rewrite szeroR. replace (inb 22 2 i) with ((i =? 22)%nat || (i =? 23)%nat)%bool; [reflexivity|].
  unfold inb. destruct (Nat.eqb_spec i 22), (Nat.eqb_spec i 23), (Nat.leb_spec 22 i), (Nat.ltb_spec i (22 + 2)); try lia; reflexivity.
Qed.

Theorem C37_airspeed_ill_conditioned : forall resetWind resetAll (full : bool) (noise gate tas eas2tas : R) (f : fus R),
  symmetric24 (fP f) -> 1 <= airspeed_model (fx f) ->
  let f' := fuseAirspeed resetWind resetAll full noise gate tas eas2tas f in
  exists h, gradient airspeed_model (fx f) h /\
  (quad h (fP f) < 0 -> fbad f' 4%nat = true /\
   (full = true -> reset_wind_zero resetAll f f' /\ ftime f' = ftime f /\ faspd f' = faspd f) /\
   (full = false -> exists g, same_estimate f g /\ fc f' = fc (resetWind g) /\ fs f' = fs (resetWind g))).
Proof.
  intros resetWind resetAll full noise gate tas eas2tas f Sy G f'. assert (Ap : 0 < airspeed_model (fx f)) by lra.
  exists (hvec (as_H (fx f))). split; [apply as_gradient; exact Ap|]. intros Q.
  unfold f', fuseAirspeed. rewrite (tasVarR noise eas2tas), (as_pred (fx f)). clear f'.
  assert (slt (airspeed_model (fx f)) (slit 1 1) = false) as -> by (apply sltR_false; rewrite slitR; lra). cbv zeta.
  rewrite (as_var (fx f) (fP f) _ Ap Sy).
  match goal with |- context [slt ?a ?b] => assert (slt a b = true) as -> by (apply sltR_true; lra) end.
  split; [reflexivity|]. destruct full.
  - split; [|discriminate]. intros _. split; [|split; reflexivity]. split; [intros i; exact (wind_zero (fx f) i)|reflexivity].
  - split; [discriminate|]. intros _. eexists. split; [|split; reflexivity]. split; reflexivity.
Qed.
Theorem C37_sideslip_ill_conditioned : forall resetWind resetAll (full : bool) (noise gate : R) (f : fus R),
  symmetric24 (fP f) -> let wind := to_body (fx f) (air_vel (fx f)) in 7 < sqrt (vnorm2 wind) -> RealGeom.vx wind <> 0 ->
  let f' := fuseSideslip resetWind resetAll full noise gate f in
  exists h, gradient sideslip_model (fx f) h /\
  (quad h (fP f) < 0 ->
   (full = true -> fbad f' 5%nat = true /\ reset_wind_zero resetAll f f' /\ ftime f' = ftime f) /\
   (full = false -> exists g, same_estimate f g /\ fbad g 5%nat = true /\ f' = resetWind g)).
Proof.
  intros resetWind resetAll full noise gate f Sy wind G NX f'.
  exists (hvec (ss_H (fx f))). split; [apply ss_gradient; exact NX|]. intros Q.
  unfold f', fuseSideslip. clear f'. cbv zeta. rewrite relWind_norm. fold wind.
  assert (slt (slit 7 1) (sqrt (vnorm2 wind)) = true) as -> by (apply sltR_true; rewrite slitR; lra).
  rewrite (ss_var (fx f) (fP f) _ NX Sy).
  match goal with |- context [slt ?a ?b] => assert (slt a b = true) as -> by (apply sltR_true; lra) end.
  destruct full.
  - split; [|discriminate]. intros _. split; [reflexivity|]. split; [|reflexivity]. split; [intros i; exact (wind_zero (fx f) i)|reflexivity].
  - split; [discriminate|]. intros _. match goal with |- exists g, _ /\ _ /\ resetWind ?a = _ => exists a end. split; [split; reflexivity|]. split; reflexivity.
Qed.
(** drag: neither state nor covariance changes, and no fault is reported *)
Theorem C37_drag_ill_conditioned : forall (noise rho bx b_y ax ay : R) (f : fus R), symmetric24 (fP f) -> 1 <= bx -> 1 <= b_y ->
  let f' := fuseDrag noise rho bx b_y ax ay f in
  exists k h, 1 / 10 <= k /\ gradient (drag_model_x k) (fx f) h /\ (quad h (fP f) < 0 -> same_estimate f f' /\ fbad f' = fbad f).
Proof.
  intros noise rho bx b_y ax ay f Sy Bx By f'. unfold f', fuseDrag. clear f'. cbv zeta.
  assert (slt bx (slit 1 1) = false) as -> by (apply sltR_false; rewrite slitR; lra).
  assert (slt b_y (slit 1 1) = false) as -> by (apply sltR_false; rewrite slitR; lra). cbn [orb].
  unfold dragAxis. cbv zeta. cbn [Nat.eqb].
  match goal with |- context [dx_S (fx f) (fP f) ?r ?k] => set (ka := k); set (rn := r) end.
  exists ka, (hvec (dx_H (fx f) ka)). split; [unfold ka, dragK; cbn [sfmax RScalar]; rewrite slitR; apply Rmax_l|]. split; [apply dx_gradient|].
  intros Q. rewrite (dx_var (fx f) (fP f) rn ka Sy).
  match goal with |- context [slt ?a ?b] => assert (slt a b = true) as -> by (apply sltR_true; lra) end.
  split; [split; reflexivity|reflexivity].
Qed.
(** optical flow: covariance reset, no fault reported, either axis *)
Theorem C37_flow_ill_conditioned : forall resetAll (rn gate gnd terrain dt : R) (Re : nat -> nat -> R) (gyro off comp bias : nat -> R) (f : fus R),
  symmetric24 (fP f) -> m22 (dcm (quat_of (fx f))) <> 0 ->
  let f' := fuseOptFlow resetAll rn gate gnd terrain dt Re gyro off comp bias f in
  let rg := flow_range gnd terrain Re (vec_of off) (fx f) in
  exists hx hy, gradient (flow_model_x rg) (fx f) hx /\ gradient (flow_model_y rg) (fx f) hy /\
  (quad hx (fP f) < 0 \/ quad hy (fP f) < 0 -> reset_only resetAll f f' /\ fbad f' = fbad f /\ ftime f' = ftime f /\ frej f' = frej f).
Proof.
  intros resetAll rn gate gnd terrain dt Re gyro off comp bias f Sy Nz f' rg.
  assert (Nr : rg <> 0).
  { unfold rg, flow_range. apply Rmult_integral_contrapositive. split; [|apply Rinv_neq_0_compat; exact Nz].
    match goal with |- Rmax ?a (Rmax ?b ?c) <> 0 => pose proof (Rmax_r a (Rmax b c)); pose proof (Rmax_r b c) end. lra. }
  pose proof (fuseOptFlow_apply resetAll rn gate gnd terrain dt Re gyro off comp bias f) as Ef. cbv zeta in Ef. fold rg in Ef. fold f' in Ef.
  rewrite Ef. clear Ef. clear f'. clearbody rg.
  exists (hvec (ox_H (fx f) rg)), (hvec (oy_H (fx f) rg)). split; [apply ox_gradient|]. split; [apply oy_gradient|]. intros Q.
  unfold flowApply. cbv zeta. rewrite (ox_var (fx f) (fP f) rn rg Nr Sy), (oy_var (fx f) (fP f) rn rg Nr Sy).
  match goal with |- context [slt ?a ?b] => destruct (slt a b) eqn:E0 end.
  - split; [split; reflexivity|]. split; [reflexivity|split; reflexivity].
  - apply sltR_false in E0. match goal with |- context [slt ?a ?b] => assert (slt a b = true) as -> by (apply sltR_true; lra) end.
    split; [split; reflexivity|]. split; [reflexivity|split; reflexivity].
Qed.
(** magnetometer: the first axis with a bad variance is reported, the field covariances are reset *)
Theorem C37_magnetometer_ill_conditioned : forall tcos tsin tatan2 resetMag (d : declin R) (all synth : bool) (noise gate : R) (meas : nat -> R) (f : fus R),
  symmetric24 (fP f) ->
  let f' := fuseMag tcos tsin tatan2 resetMag d all synth noise gate meas f in
  exists h, (forall k, (k < 3)%nat -> gradient (mag_axis k) (fx f) (h k)) /\
  (forall k, (k < 3)%nat -> quad (h k) (fP f) < 0 -> (forall j, (j < k)%nat -> 0 <= quad (h j) (fP f)) ->
    reset_only resetMag f f' /\ fbad f' k = true /\ (forall j, (j < k)%nat -> fbad f' j = false) /\ frej f' = frej f /\ fi f' = fi f).
Proof.
  intros tcos tsin tatan2 resetMag d all synth noise gate meas f Sy f'.
  exists (fun k => match k with 0%nat => hvec (mx_H (fx f)) | 1%nat => hvec (my_H (fx f)) | _ => hvec (mz_H (fx f)) end).
  split. { intros k Hk. destruct k as [|[|[|k]]]; [| | |lia]; [apply mx_gradient|apply my_gradient|apply mz_gradient]. }
  intros k Hk Q Pq. unfold f', fuseMag. clear f'. cbv zeta. set (rn := sq (sfmax noise szero)). clearbody rn.
  rewrite (iv1_var (fx f) (fP f) rn Sy), (iv2_var (fx f) (fP f) rn Sy), (mx_var (fx f) (fP f) rn Sy), (my_var (fx f) (fP f) rn Sy), (mz_var (fx f) (fP f) rn Sy).
  destruct k as [|[|[|k]]]; [| | |lia].
  - match goal with |- context [slt ?a ?b] => assert (slt a b = true) as -> by (apply sltR_true; lra) end.
    split; [split; reflexivity|]. split; [reflexivity|]. split; [intros j Hj; lia|]. split; reflexivity.
  - pose proof (Pq 0%nat ltac:(lia)) as P0. cbn iota in P0.
    match goal with |- context [slt ?a ?b] => assert (slt a b = false) as -> by (apply sltR_false; lra) end.
    match goal with |- context [slt ?a ?b] => assert (slt a b = true) as -> by (apply sltR_true; lra) end.
    split; [split; reflexivity|]. split; [reflexivity|]. split; [intros [|j] Hj; [reflexivity|lia]|]. split; reflexivity.
  - pose proof (Pq 0%nat ltac:(lia)) as P0. pose proof (Pq 1%nat ltac:(lia)) as P1. cbn iota in P0, P1.
    match goal with |- context [slt ?a ?b] => assert (slt a b = false) as -> by (apply sltR_false; lra) end.
    match goal with |- context [slt ?a ?b] => assert (slt a b = false) as -> by (apply sltR_false; lra) end.
    match goal with |- context [slt ?a ?b] => assert (slt a b = true) as -> by (apply sltR_true; lra) end.
    split; [split; reflexivity|]. split; [reflexivity|]. split; [intros [|[|j]] Hj; [reflexivity|reflexivity|lia]|]. split; reflexivity.
Qed.
(** GPS yaw and heading: covariance reset, fault reported; declination: nothing happens *)
Theorem C37_yaw_ill_conditioned : forall tcos tsin tatan2 twrap resetAll (use321 on_ground zero : bool) (cos30 pred yaw off noise variance gate sigma : R) (Re : nat -> nat -> R) (d : declin R) (f : fus R),
  symmetric24 (fP f) ->
  (let f' := fuseGpsYaw cos sin tatan2 twrap resetAll cos30 Re yaw off noise gate f in
   Rabs (RealGeom.vz (baseline Re off)) <= cos30 -> 1 / 1000 <= Rabs (fst (antenna_pair off (fx f))) ->
   exists h, direction_gradient (antenna_pair off) (fx f) h /\
   (quad h (fP f) < 0 -> reset_only resetAll f f' /\ fbad f' 3%nat = true /\ ftime f' = ftime f /\ frej f' = frej f)) /\
  (let f' := fuseYaw twrap resetAll on_ground (if use321 then H321 (fx f) else H312 (fx f)) pred yaw variance gate zero f in
   usable (fst (yaw_pair use321 (fx f))) (snd (yaw_pair use321 (fx f))) ->
   exists h, direction_gradient (yaw_pair use321) (fx f) h /\
   (quad h (fP f) < 0 -> reset_only resetAll f f' /\ fbad f' 3%nat = true /\ frej f' = frej f)) /\
  (1 / 1000000 <= Rabs (fx f 16%nat) -> exists h, direction_gradient decl_pair (fx f) h /\
   (quad h (fP f) < 0 -> fuseDeclination tcos tsin tatan2 d sigma f = f)).
Proof.
  intros tcos tsin tatan2 twrap resetAll use321 on_ground zero cos30 pred yaw off noise variance gate sigma Re d f Sy. split; [|split].
  - intros f' Hz Hx.
    assert (NX : aX (sin off) (cos off) (fx f) <> 0).
    { intros E. rewrite antenna_eq in Hx. cbn [fst] in Hx. rewrite E, Rabs_R0 in Hx. lra. }
    exists (hvec (ga_H (fx f) (sin off) (cos off))). split.
    { split; [apply ga_gradient; rewrite antenna_eq; exact NX|intros _; apply ga_gradient_atan; rewrite antenna_eq; exact NX]. }
    intros Q. unfold f', fuseGpsYaw. clear f'. cbv zeta. rewrite !antEfR by lia. cbv beta iota. rewrite ga_9, ga_19i.
    set (A := aX (sin off) (cos off) (fx f)) in *. rewrite antenna_eq in Hx. cbn [fst] in Hx. fold A in Hx. cbn [sabs RScalar]. rewrite Rabs_Ropp.
    assert (slt cos30 (Rabs (RealGeom.vz (baseline Re off))) = false) as -> by (apply sltR_false; exact Hz).
    assert (slt (Rabs A) (slit 1 1000) = false) as -> by (apply sltR_false; rewrite slitR; exact Hx).
    assert (H17 : 1 <= Rabs (ga_HK17 (fx f) (sin off) (cos off))).
    { rewrite (ga_17 (fx f) (sin off) (cos off) NX). fold A. generalize (aY (sin off) (cos off) (fx f)). intros B. clear - NX.
      assert (0 < A * A) by nra. replace ((A * A + B * B) / (A * A)) with (1 + B * B / (A * A)) by (field; exact NX).
      assert (0 <= B * B / (A * A)) by (apply Rmult_le_pos; [nra|left; apply Rinv_0_lt_compat; assumption]). rewrite Rabs_pos_eq; lra. }
    assert (slt (Rabs (ga_HK17 (fx f) (sin off) (cos off))) (slit 1 1000) = false) as -> by (apply sltR_false; rewrite slitR; lra).
    assert (slt (Rabs A) (slit 1 1000000) = false) as -> by (apply sltR_false; rewrite slitR; lra).
    rewrite (ga_var (fx f) (fP f) _ (sin off) (cos off) NX Sy).
    match goal with |- context [slt ?a ?b] => assert (slt a b = true) as -> by (apply sltR_true; lra) end.
    split; [split; reflexivity|]. split; [reflexivity|split; reflexivity].
  - intros f' Us. pose proof (yaw_none use321 (fx f)) as YN. pose proof (yaw_direction use321 (fx f)) as YD.
    unfold f', fuseYaw. clear f'. destruct (if use321 then H321 (fx f) else H312 (fx f)) as [h|]; [|exfalso; apply (proj1 YN); [reflexivity|exact Us]].
    exists (ext4 h). split; [apply YD; reflexivity|]. intros Q. unfold updateQuaternion. cbv zeta. rewrite yawVarR.
    match goal with |- context [sle ?a ?b] => assert (sle a b = false) as -> by (cbn [sle RScalar]; destruct (Rle_dec a b); [exfalso; lra|reflexivity]) end.
    split; [split; reflexivity|]. split; reflexivity.
  - intros Hn. assert (N : fx f 16%nat <> 0) by (intros E; rewrite E, Rabs_R0 in Hn; lra).
    exists (hvec (de_H (fx f))). split; [split; [apply de_gradient; exact N|intros _; apply de_gradient_atan; exact N]|]. intros Q.
    unfold fuseDeclination. cbv zeta. rewrite (de_var (fx f) (fP f) _ N Sy).
    assert (T : (sq (slit 1 1000) : R) = 1 / 1000000) by (unfold sq; rewrite slitR; cbn [smul RScalar]; lra). rewrite T.
    change (sabs (fx f 16%nat)) with (Rabs (fx f 16%nat)). assert (slt (Rabs (fx f 16%nat)) (1 / 1000000) = false) as -> by (apply sltR_false; exact Hn).
    match goal with |- context [slt ?a ?b] => assert (slt a b = false) as -> by (apply sltR_false; lra) end. reflexivity.
Qed.

(** ** A concrete case meeting the hypotheses: level flight at 20 m/s to the
    north, diagonal covariance, no accelerometer axis inhibited *)
Definition demoX : nat -> R := fun i => if (i =? 0)%nat then 1 else if (i =? 4)%nat then 20 else if (i =? 16)%nat then 1 / 5 else if (i =? 18)%nat then 2 / 5 else 0.
Definition demoF : fus R := mkFus (setState demoX (wctx 0 false false true)) (wst (fun i j => if (i =? j)%nat then 1 / 100000 else 0) false 0)
  (fun _ => 0) (fun _ => 0) (fun _ => 0) (fun _ => false) (fun _ => false) (fun _ => 0%Z) false.
Example C37_hypotheses_met : symmetric24 (fP demoF) /\ psd (fP demoF) /\ healthy_limits demoF /\ (forall i, c_inhibit (fs demoF) i = false) /\
  qnorm2 (quat_of (fx demoF)) = 1 /\ airspeed_model (fx demoF) = 20 /\ m22 (dcm (quat_of (fx demoF))) <> 0 /\
  (let wind := to_body (fx demoF) (air_vel (fx demoF)) in 7 < sqrt (vnorm2 wind) /\ RealGeom.vx wind <> 0) /\ 1 / 1000000 <= Rabs (fx demoF 16%nat) /\
  (forall rows, (forall i, rows i = true) -> covers rows (fP demoF)).
Proof.
  split; [intros i j _ _; cbn [fP demoF fs cP wst]; rewrite Nat.eqb_sym; reflexivity|]. split; [apply psd_diag; intros; lra|]. split.
  { split.
    - split; cbn [cP wst fs demoF].
      + intros i _ _. unfold var_hi. rewrite Nat.eqb_refl. destruct (_ || _); lra.
      + intros k _ _. rewrite Nat.eqb_refl. change (accHi (fc demoF)) with (accHi (wctx 0 false false true)). pose proof (wctx_accHi 0 false false true). lra.
    - unfold acc_limits_ok. change (accHi (fc demoF)) with (accHi (wctx 0 false false true)). pose proof (wctx_accHi 0 false false true). lra. }
  split; [reflexivity|]. assert (EX : fx demoF = demoX) by reflexivity. rewrite EX.
  split; [unfold qnorm2, quat_of, demoX; cbn [Nat.eqb RealGeom.q0 RealGeom.q1 RealGeom.q2 RealGeom.q3]; ring|].
  assert (AV : air_vel demoX = mkV 20 0 0) by (unfold air_vel, demoX; cbn [Nat.eqb]; f_equal; ring).
  assert (TB : to_body demoX (mkV 20 0 0) = mkV 20 0 0).
  { unfold to_body, mtr, mapp, dcm, quat_of, demoX. cbn [Nat.eqb RealGeom.q0 RealGeom.q1 RealGeom.q2 RealGeom.q3 m00 m01 m02 m10 m11 m12 m20 m21 m22 RealGeom.vx RealGeom.vy RealGeom.vz]. f_equal; ring. }
  assert (N2 : sqrt (vnorm2 (mkV 20 0 0)) = 20).
  { unfold vnorm2, vdot. cbn [RealGeom.vx RealGeom.vy RealGeom.vz]. replace (20 * 20 + 0 * 0 + 0 * 0) with (20 * 20) by ring. apply sqrt_square. lra. }
  split; [unfold airspeed_model; rewrite AV; exact N2|].
  split; [unfold dcm, quat_of, demoX; cbn [Nat.eqb RealGeom.q0 RealGeom.q1 RealGeom.q2 RealGeom.q3 m22]; lra|].
  split; [rewrite AV, TB; cbv zeta; rewrite N2; cbn [RealGeom.vx]; split; lra|].
  split; [unfold demoX; cbn [Nat.eqb]; rewrite Rabs_pos_eq; lra|].
  intros rows HR i _. left. apply HR.
Qed.
(** an indefinite symmetric covariance on which the airspeed fusion resets *)
Definition badF : fus R := mkFus (setState demoX (wctx 0 false false true)) (wst (fun i j => if (i =? j)%nat then (if (i =? 4)%nat then - 1 else 0) else 0) false 0)
  (fun _ => 0) (fun _ => 0) (fun _ => 0) (fun _ => false) (fun _ => false) (fun _ => 0%Z) false.
Example C37_ill_conditioned_exists : symmetric24 (fP badF) /\ exists h, gradient airspeed_model (fx badF) h /\ quad h (fP badF) < 0.
Proof.
  split.
  - intros i j _ _. unfold fP, badF. cbn [fs cP wst]. destruct (Nat.eqb_spec i j) as [->|N]; [rewrite Nat.eqb_refl; reflexivity|]. destruct (Nat.eqb_spec j i); [congruence|reflexivity].
  - assert (EX : fx badF = fx demoF) by reflexivity. destruct C37_hypotheses_met as (_ & _ & _ & _ & _ & A & _).
    exists (hvec (as_H (fx badF))). split; [apply as_gradient; rewrite EX, A; lra|].
    rewrite quad_hvec by (unfold as_H; dfields). unfold as_H, lsum. cbn [fold_right fst snd]. unfold fP, badF. cbn [fs cP wst Nat.eqb].
    assert (H4e : as_H4 (fx badF) = 1).
    { assert (K3 : as_v_tas_pred (fx badF) = 20) by (rewrite as_pred, EX; exact A).
      unfold as_H4, as_HK4, as_HK3. rewrite K3. unfold as_HK0. rewrite slitR, EX. unfold fx, demoF, setState, demoX. cbn [fc x_st Nat.eqb ssub smul sdiv RScalar]. unfold s_vn, s_vwn. cbn [Nat.eqb]. lra. }
    fold badF. rewrite H4e. nra.
Qed.
Print Assumptions C37_airspeed_ill_conditioned.
Print Assumptions C37_magnetometer_ill_conditioned.
Print Assumptions C37_yaw_ill_conditioned.
Print Assumptions C37_hypotheses_met.
Print Assumptions C61_heading_sources.

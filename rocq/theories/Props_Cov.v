(** * Properties C18-C22, C47-C51: state covariance *)
From Coq Require Import Reals Lra.
From Coquelicot Require Import Coquelicot.
From Verif Require Import CBase Scalar RealGeom F32 CovSpec CovPredGen CovPredProofs CovPredEntries PsdLib CovModel CovProofs CovProofsG CovProofsR CovProofsR2
  CovUpdProofs CovQuat CovQuat2 CovHist CovInhibit CovNoise CovWitness VelPosModel VelPosProofs.
Open Scope nat_scope.

(** ** C18 *)
(** symmetric after every prediction, from any matrix, in any arithmetic (in
    particular binary32, whatever is rounded, infinite or NaN) *)
Theorem C18_prediction_symmetric :
  forall (T : Type) (S : Scalar T) (c : covctx T) (s : covst T) i j, i < 24 -> j < 24 ->
  cP (predictCovariance c s) i j = cP (predictCovariance c s) j i.
Proof. intros T S c s. exact (predict_sym c s). Qed.
Theorem C18_unused_blocks_zero :
  forall (T : Type) (S : Scalar T) (c : covctx T) (s : covst T) i j,
  (f_mag_3D c = false -> 16 <= i < 22 \/ 16 <= j < 22 -> cP (predictCovariance c s) i j = szero) /\
  (f_wind c = false -> 22 <= i < 24 \/ 22 <= j < 24 -> cP (predictCovariance c s) i j = szero).
Proof.
  intros T S c s i j. rewrite predict_P. cbv zeta. split; intros H1 H2.
  - apply fix_mag_zero; [discriminate|exact H1|exact H2].
  - apply fix_wind_zero; assumption.
Qed.
(** after a measurement update the matrix is symmetric again although the
    correction itself is rounded asymmetrically *)
Theorem C18_update_symmetric :
  forall (T : Type) (S : Scalar T) (c : covctx T) (s : covst T),
  c_inhibit s 0 && c_inhibit s 1 && c_inhibit s 2 = false \/
  (forall i j, 13 <= i < 16 -> 13 <= j < 16 -> cP s i j = cP s j i) ->
  symmetric24 (cP (fixCovarianceErrors true c s)).
Proof. intros T S c s. exact (fix_force_sym c s). Qed.
(** defect: with all three accelerometer axes inhibited their block is skipped *)
Theorem C18_accel_block_not_symmetrised_refuted :
  exists (c : covctx R) (s : covst R), cP (fixCovarianceErrors true c s) 13 14 <> cP (fixCovarianceErrors true c s) 14 13.
Proof.
  exists (wctx 0 false true true), (wst (fun i j => if (i =? 13) && (j =? 14) then 1%R else 0%R) true 0%R).
  cbn -[IZR]. lra.
Qed.

Open Scope R_scope.
(** ** C19 *)
(** every one of the 300 generated expressions is the element of F P F' + G Q G' *)
Theorem C19_generated_expressions :
  forall dt g (x u : nat -> R) (Q : nat -> R) (P : Mat R) F G, symmetric24 P ->
  state_jacobian dt g x u F -> input_jacobian dt g x u G ->
  forall i j, (i <= j < 24)%nat ->
  nth i (nth j (gcols (x 0%nat) (x 1%nat) (x 2%nat) (x 3%nat) (u 0%nat) (u 1%nat) (u 2%nat) (u 3%nat) (u 4%nat) (u 5%nat)
      (x 10%nat) (x 11%nat) (x 12%nat) (x 13%nat) (x 14%nat) (x 15%nat) dt
      (Q 0%nat) (Q 1%nat) (Q 2%nat) (Q 3%nat) (Q 4%nat) (Q 5%nat) P) []) szero = FPFt_GQGt F G P Q i j.
Proof. exact gen_is_FPFt. Qed.
(** the prediction function: covariances *)
Theorem C19_predicted_covariances :
  forall (c : covctx R) (s : covst R) g F G, symmetric24 (cP s) ->
  state_jacobian dtR g (x_st c) (u_of c) F -> input_jacobian dtR g (x_st c) (u_of c) G ->
  let P := cP (predInhibit c s) in
  forall i j, i <> j -> (i < 24)%nat -> (j < 24)%nat -> estimated c i -> estimated c j ->
  ~ (13 <= i < 16)%nat -> ~ (13 <= j < 16)%nat -> (pos_capped P -> ~ horiz_pos i /\ ~ horiz_pos j) ->
  cP (predictCovariance c s) i j = FPFt_GQGt F G P (imu_noise c) i j.
Proof.
  intros c s g F G H1 H2 H3 P i j A B C D E A1 B1 K. rewrite (predict_offdiag c s g F G H1 H2 H3 i j) by assumption. apply FPFt_ext. apply Q_of_eq.
Qed.
(** variances: the same plus the process noise, then limited *)
Theorem C19_predicted_variances :
  forall (c : covctx R) (s : covst R) g F G, symmetric24 (cP s) ->
  state_jacobian dtR g (x_st c) (u_of c) F -> input_jacobian dtR g (x_st c) (u_of c) G ->
  (forall k, c_acc_ang s k = 0) ->
  let P := cP (predInhibit c s) in let pn := state_noise c P (height_rate (c_hrate s) (x_st c 6%nat)) in
  forall i, (i < 24)%nat -> estimated c i -> ~ (13 <= i < 16)%nat -> (pos_capped P -> ~ horiz_pos i) ->
  cP (predictCovariance c s) i i = Rmin (var_hi i) (Rmax (var_lo i) (FPFt_GQGt F G P (imu_noise c) i i + pn i)).
Proof.
  intros c s g F G H1 H2 H3 HA P pn i Hi Ei Ni Hc. rewrite (predict_diag c s g F G H1 H2 H3 i Hi Ei Ni Hc). fold P. do 2 f_equal.
  rewrite (FPFt_ext F G P (Q_of c) (imu_noise c)) by (apply Q_of_eq).
  assert (HH : c_hrate (predInhibit c s) = c_hrate s) by (unfold predInhibit; assert (A : forall k s0, c_hrate (inhibitStep c k s0) = c_hrate s0) by (intros k s0; unfold inhibitStep; cbv zeta; destruct (inhibit_axis c s0 k), (c_inhibit s0 k); reflexivity); rewrite !A; reflexivity).
  assert (PN : forall k, process_noise c P (hrate_next c (predInhibit c s)) k = pn k) by (intros k; rewrite process_noise_eq, height_rate_eq, HH; reflexivity).
  destruct (Nat.ltb_spec i 10). { unfold pn. do 10 (destruct i as [|i]; [cbn [state_noise]; ring|]). lia. }
  f_equal. destruct (predInhibit_acc c s) as [A1 A2]. rewrite A1, HA.
  replace (inb 13 3 i) with false by (symmetry; apply Bool.not_true_iff_false; rewrite inb_iff; lia). fold P. rewrite PN. destruct (inb 10 3 i); [ring|reflexivity].
Qed.
(** horizontal position growth is stopped above 100 m: rows and columns are kept *)
Theorem C19_position_growth_stopped :
  forall (c : covctx R) (s : covst R), symmetric24 (cP s) ->
  let P := cP (predInhibit c s) in pos_capped P ->
  forall i j, (i < 24)%nat -> (j < 24)%nat -> estimated c i -> estimated c j -> i <> j ->
  ~ (13 <= i < 16)%nat -> ~ (13 <= j < 16)%nat -> horiz_pos i \/ horiz_pos j ->
  cP (predictCovariance c s) i j = P i j.
Proof. intros c s H P Hc i j A B C D E F G K. apply (predict_capped c s (fun _ _ => 0) (fun _ _ => 0) H i j); assumption. Qed.
(** the Jacobians exist for all states and inputs *)
Example C19_jacobians_exist dt g x u : exists F G, state_jacobian dt g x u F /\ input_jacobian dt g x u G.
Proof. exists (Fx dt x u), (Gx x). split; [apply Fx_jacobian|apply Gx_jacobian]. Qed.

(** ** C20: direct velocity (0-2) and position (3-5) updates *)
Theorem C20_direct_update :
  forall (c : covctx R) (s : covst R) (innov r : R) idx,
  (idx < 6)%nat -> 0 < r -> symmetric24 (cP s) -> psd (cP s) -> below_limits c s -> acc_limits_ok c ->
  let k := (idx + 4)%nat in let P := cP s in let Sv := P k k + r in
  let '(c', s', healthy) := fuseVelPosHeight innov Sv idx c s in
  healthy = true /\ symmetric24 (cP s') /\ psd (cP s') /\ below_limits c s' /\
  (forall i, (i < 24)%nat -> estimated c i -> ~ (13 <= i < 16)%nat -> cP s' i i = Rmax (var_lo i) (P i i - P i k * P i k / Sv)) /\
  (forall i j, (i < 24)%nat -> (j < 24)%nat -> i <> j -> estimated c i -> estimated c j -> ~ (13 <= i < 16)%nat -> ~ (13 <= j < 16)%nat ->
     cP s' i j = P i j - P i k * P j k / Sv) /\
  (forall i, (4 <= i)%nat -> x_st c' i = x_st c i - P i k / Sv * innov) /\
  (forall i, (i < 4)%nat -> let q := fun m => x_st c m - P m k / Sv * innov in
     x_st c' i = q i / sqrt (q 0%nat * q 0%nat + q 1%nat * q 1%nat + q 2%nat * q 2%nat + q 3%nat * q 3%nat)).
Proof.
  intros c s innov r idx Hi Hr HS Hp Hb Hok k P Sv.
  assert (Hk : (k < 24)%nat) by (unfold k; lia).
  assert (Pk : 0 <= P k k) by (apply psd_diag_nonneg; assumption).
  assert (HSv : 0 < Sv) by (unfold Sv; lra).
  assert (HSq : quad (ev k) (cP s) <= Sv) by (rewrite quad_ev by exact Hk; fold P; unfold Sv; lra).
  assert (HH : forall j, hP (ev k) (cP s) j = P k j) by (intros j; apply hP_ev; exact Hk).
  unfold fuseVelPosHeight. cbv zeta. fold k. fold P. set (KHP := fun row column => _).
  assert (HK : forall i j, (i < 24)%nat -> (j < 24)%nat -> KHP i j = hP (ev k) (cP s) i / Sv * hP (ev k) (cP s) j).
  { intros i j A B. unfold KHP. rewrite !HH. unfold P. rewrite (HS i k) by assumption. reflexivity. }
  rewrite (applyUpdate_ok c s (ev k) Sv innov HS Hp HSv HSq KHP HK).
  split; [reflexivity|]. split; [eapply upd_sym; eassumption|]. split; [eapply upd_psd; eassumption|].
  split; [eapply upd_below; eassumption|]. split; [|split; [|split]].
  - intros i A E N. erewrite upd_var by eassumption. rewrite HH. unfold P. rewrite (HS k i) by assumption. reflexivity.
  - intros i j A B Ne Ei Ej Ni Nj. erewrite upd_cov by eassumption. rewrite !HH. unfold P. rewrite (HS k i), (HS k j) by assumption. reflexivity.
  - intros i A. cbn [x_st setState]. unfold fuse, normQuat, fuseRaw. cbv zeta. replace (i <? 4)%nat with false by (symmetry; apply Nat.ltb_ge; lia). reflexivity.
  - intros i A. cbn [x_st setState]. unfold fuse, normQuat, fuseRaw. cbv zeta. replace (i <? 4)%nat with true by (symmetry; apply Nat.ltb_lt; lia).
    rewrite szeroR. cbn [sadd ssub smul sdiv ssqrt RScalar]. rewrite Rplus_0_l. reflexivity.
Qed.
(** any other sensor with observation row h (sparse list H), gain P h / S, no inhibited axis *)
Theorem C20_sensor_update :
  forall (c : covctx R) (s : covst R) (innov r : R) (H : list (nat * R)),
  Forall (fun p => (fst p < 24)%nat) H -> 0 < r -> symmetric24 (cP s) -> psd (cP s) -> below_limits c s -> acc_limits_ok c ->
  (forall k, (k < 3)%nat -> c_inhibit s k = false) ->
  let P := cP s in let a := fun i => rsum 24 (fun k => hvec H k * P k i) in let Sv := quad (hvec H) P + r in
  let '(c', s', healthy) := measurementUpdate (fun i => a i / Sv) H innov c s in
  healthy = true /\ symmetric24 (cP s') /\ psd (cP s') /\ below_limits c s' /\
  (forall i, (i < 24)%nat -> estimated c i -> ~ (13 <= i < 16)%nat -> cP s' i i = Rmax (var_lo i) (P i i - a i * a i / Sv)) /\
  (forall i, (4 <= i < 24)%nat -> x_st c' i = x_st c i - a i / Sv * innov).
Proof.
  intros c s innov r H HF Hr HS Hp Hb Hok Hinh P a Sv.
  assert (Q0 : 0 <= quad (hvec H) P) by apply Hp.
  assert (HSv : 0 < Sv) by (unfold Sv; lra). assert (HSq : quad (hvec H) (cP s) <= Sv) by (unfold Sv; fold P; lra).
  unfold measurementUpdate. set (K' := fun i => if inb 13 3 i && c_inhibit s (i - 13)%nat then szero else _).
  assert (KV : forall i, K' i = a i / Sv).
  { intros i. unfold K'. destruct (inb 13 3 i) eqn:B; [|reflexivity]. apply inb_iff in B. rewrite Hinh by lia. reflexivity. }
  set (KHP := computeKHP (cP s) K' H).
  assert (HK : forall i j, (i < 24)%nat -> (j < 24)%nat -> KHP i j = hP (hvec H) (cP s) i / Sv * hP (hvec H) (cP s) j).
  { intros i j A B. unfold KHP. rewrite computeKHP_R by exact HF. rewrite KV. reflexivity. }
  rewrite (applyUpdate_ok c s (hvec H) Sv innov HS Hp HSv HSq KHP HK).
  split; [reflexivity|]. split; [eapply upd_sym; eassumption|]. split; [eapply upd_psd; eassumption|].
  split; [eapply upd_below; eassumption|]. split.
  - intros i A E N. eapply upd_var; eassumption.
  - intros i A. cbn [x_st setState]. unfold fuse, normQuat, fuseRaw. cbv zeta. replace (i <? 4)%nat with false by (symmetry; apply Nat.ltb_ge; lia).
    rewrite KV. reflexivity.
Qed.
(** an unhealthy update (any arithmetic) leaves the states alone, zeroes each
    offending row and column and reports the fault *)
Theorem C20_unhealthy_update :
  forall (T : Type) (S : Scalar T) (c : covctx T) (s : covst T) innov var idx c' s',
  fuseVelPosHeight innov var idx c s = (c', s', false) -> c' = c /\
  exists i, (i < 24)%nat /\ cP s' i i = szero.
Proof.
  intros T S c s innov var idx c' s'. unfold fuseVelPosHeight, applyUpdate. cbv zeta. set (KHP := fun _ _ => _).
  assert (G : forall n M1, checkAndFix n KHP (cP s) = (M1, false) -> exists i, (i < n)%nat /\ M1 i i = szero).
  { induction n as [|n IH]; cbn [checkAndFix]; intros M1; [discriminate|].
    destruct (checkAndFix n KHP (cP s)) as [M ok] eqn:E. destruct (slt _ _).
    - intros X. injection X as <-. exists n. split; [lia|]. unfold uncorrelateSet.
      replace (inb n 1 n) with true by (symmetry; apply inb_iff; lia). rewrite Nat.eqb_refl. reflexivity.
    - intros X. injection X as <- ->. destruct (IH M eq_refl) as (i & A & B). exists i. split; [lia|exact B]. }
  destruct (checkAndFix 24 KHP (cP s)) as [M1 h] eqn:E. destruct h; [discriminate|]. intros X. injection X as <- <-. split; [reflexivity|].
  exact (G 24%nat M1 E).
Qed.
(** defect: the gain of an inhibited accelerometer axis is zeroed without the
    matching covariance correction, which can make the covariance indefinite *)
Theorem C20_inhibited_axis_refuted :
  exists (c : covctx R) (s : covst R) H r, 0 < r /\ symmetric24 (cP s) /\ psd (cP s) /\ below_limits c s /\
  let K := fun i => hP (hvec H) (cP s) i / (quad (hvec H) (cP s) + r) in
  let '(_, s', healthy) := measurementUpdate K H 0 c s in healthy = true /\ ~ psd (cP s').
Proof. exists cc, sc, Hc, (1 / 10). split; [lra|]. exact update_inhibited_not_psd. Qed.

(** a concrete state meeting the hypotheses: diagonal covariance *)
Definition demoP : Mat R := fun i j => if (i =? j)%nat then 1 / 100000 else 0.
Example C20_hypotheses_met : let c := wctx 0 false false true in let s := wst demoP false 0 in
  symmetric24 (cP s) /\ psd (cP s) /\ below_limits c s /\ acc_limits_ok c.
Proof.
  cbv zeta. cbn [cP wst]. split; [intros i j _ _; unfold demoP; rewrite Nat.eqb_sym; reflexivity|]. split; [apply psd_diag; intros; lra|]. split.
  - split; cbn [cP wst].
    + intros i _ _. unfold demoP, var_hi. rewrite Nat.eqb_refl. destruct (_ || _); lra.
    + intros k _ _. unfold demoP. rewrite Nat.eqb_refl. pose proof (wctx_accHi 0 false false true). lra.
  - unfold acc_limits_ok. pose proof (wctx_accHi 0 false false true). lra.
Qed.

(** ** C21: binary32 limits after the repair, whatever the matrix *)
Theorem C21_variances_limited :
  forall force (c : covctx f32) (s : covst f32) i, (i < 24)%nat -> ~ (13 <= i < 16)%nat -> is_nan (cP s i i) = false ->
  let v := cP (fixCovarianceErrors force c s) i i in
  is_finite v = true /\
  (if (i <? 16)%nat || (i <? 22)%nat && f_mag_3D c || (22 <=? i)%nat && f_wind c
   then (if (4 <=? i)%nat && (i <? 10)%nat then R32 (flit 1 1000000) else 0) <= R32 v
        <= (if (4 <=? i)%nat && (i <? 10)%nat || (22 <=? i)%nat then 1000000 else 1)
   else R32 v = 0).
Proof. exact fix_limits_f32. Qed.
(** accelerometer bias: limited to [max(0.01 max, 5e-8), (0.1 g dt)^2] unless inhibited *)
Theorem C21_accel_variances :
  forall (T : Type) (S : Scalar T) force (c : covctx T) (s : covst T) k, (k < 3)%nat ->
  cP (fixCovarianceErrors force c s) (13 + k)%nat (13 + k)%nat =
  if c_inhibit s k then cP s (13 + k)%nat (13 + k)%nat
  else sconstrain (cP s (13 + k)%nat (13 + k)%nat)
         (sfmax (smul (slit 1 100) (fst (accMax (c_inhibit s) (cP s)))) (slit 5 100000000))
         (sq (smul (smul (slit 1 10) one_g) (x_dt_ekf_avg c))).
Proof. intros T S. exact fix_acc_g. Qed.
(** ... exact arithmetic: at most the ceiling if the variances were *)
Theorem C21_accel_below_ceiling :
  forall force (c : covctx R) (s : covst R), acc_limits_ok c -> symmetric24 (cP s) ->
  (forall k, (k < 3)%nat -> c_inhibit s k = false -> cP s (13 + k)%nat (13 + k)%nat <= accHi c) ->
  below_limits c (fixCovarianceErrors force c s).
Proof. exact fix_below. Qed.
(** defect: NaN passes the limits *)
Theorem C21_nan_refuted :
  forall force (c : covctx f32) (s : covst f32) i, (i < 24)%nat -> ~ (13 <= i < 16)%nat ->
  (i <? 16)%nat || (i <? 22)%nat && f_mag_3D c || (22 <=? i)%nat && f_wind c = true -> cP s i i = fnan ->
  cP (fixCovarianceErrors force c s) i i = fnan.
Proof. exact fix_nan_survives. Qed.
(** defect: the floor of one percent of the largest variance can exceed the ceiling *)
Definition bigP : Mat R := fun i j => if (i =? j)%nat && (i =? 13)%nat then 1 else if (i =? j)%nat then 1 / 1000000 else 0.
Theorem C21_accel_above_ceiling_refuted :
  exists (c : covctx R) (s : covst R), c_inhibit s 1%nat = false /\ cP s 14%nat 14%nat <= accHi c /\
    accHi c < cP (fixCovarianceErrors true c s) 14%nat 14%nat.
Proof.
  exists (wctx 0 false false true), (wst bigP false 0). split; [reflexivity|]. pose proof (wctx_accHi 0 false false true) as G.
  assert (U : accHi (wctx 0 false false true) < 1 / 1000) by (unfold accHi, one_g, sq; rewrite !slitR; cbn -[IZR]; lra).
  split; [change (cP (wst bigP false 0) 14%nat 14%nat) with (1 / 1000000); lra|].
  pose proof (fix_diag_acc true (wctx 0 false false true) (wst bigP false 0) 1 ltac:(lia)) as D. cbn [Nat.add] in D. rewrite D. clear D.
  cbn [c_inhibit wst cP].
  assert (AM : fst (accMax (fun _ => false) bigP) = 1).
  { unfold accMax, accMaxStep. cbn [Nat.add].
    change (bigP 13%nat 13%nat) with 1. change (bigP 14%nat 14%nat) with (1 / 1000000). change (bigP 15%nat 15%nat) with (1 / 1000000).
    replace (sgt 1 (slit 1 1000000000)) with true by (symmetry; unfold sgt; apply sltR_true; rewrite slitR; lra).
    replace (sgt (1 / 1000000) 1) with false by (symmetry; unfold sgt; apply sltR_false; lra).
    replace (slt (1 / 1000000) (slit 1 1000000000)) with false by (symmetry; apply sltR_false; rewrite slitR; lra). cbv iota beta.
    replace (sgt (1 / 1000000) 1) with false by (symmetry; unfold sgt; apply sltR_false; lra). reflexivity. }
  rewrite AM. change (bigP 14%nat 14%nat) with (1 / 1000000).
  rewrite sconstrainR. unfold accLo. rewrite !slitR. cbn [smul sfmax RScalar]. rewrite Rmax_left by lra.
  destruct (Rlt_dec _ _); lra.
Qed.

(** ** C22: innovation gates *)
(** a rejected observation changes no state, covariance, fusion time or fault bit (any arithmetic) *)
Theorem C22_rejected_changes_nothing :
  forall (T : Type) (S : Scalar T) b i0 i1 i2 gate o0 o1 o2 (v : vpst T),
  (let r := fuseHorizontalVelocity i0 i1 gate o0 o1 v in r_ok r = false -> vp_same v (r_v r) /\ v_rej_hvel (r_v r) = true) /\
  (let r := fuseVerticalVelocity b i2 gate o2 v in r_ok r = false -> vp_same v (r_v r) /\ v_rej_vvel (r_v r) = true) /\
  (let r := fuseHorizontalPosition b i0 i1 gate o0 o1 v in r_ok r = false -> vp_same v (r_v r) /\ (b = false -> v_rej_hpos (r_v r) = true)) /\
  (let r := fuseVerticalPosition b i2 gate o2 v in r_ok r = false -> vp_same v (r_v r) /\ v_rej_vpos (r_v r) = true).
Proof. intros. split; [apply hvel_rejected|split; [apply vvel_rejected|split; [apply hpos_rejected|apply vpos_rejected]]]. Qed.
(** an accepted one clears its rejection flag and stamps only its own fusion time *)
Theorem C22_accepted_stamps_time :
  forall (T : Type) (S : Scalar T) b i0 i1 i2 gate o0 o1 o2 (v : vpst T), let now := x_time_last_imu (v_c v) in
  (let r := fuseHorizontalVelocity i0 i1 gate o0 o1 v in r_ok r = true -> v_rej_hvel (r_v r) = false /\ v_t_hvel (r_v r) = now /\
     v_t_hpos (r_v r) = v_t_hpos v /\ v_t_vvel (r_v r) = v_t_vvel v /\ v_t_hgt (r_v r) = v_t_hgt v /\ v_t_delpos (r_v r) = v_t_delpos v) /\
  (let r := fuseVerticalVelocity b i2 gate o2 v in r_ok r = true -> v_rej_vvel (r_v r) = false /\ v_t_vvel (r_v r) = now /\
     v_t_hpos (r_v r) = v_t_hpos v /\ v_t_hvel (r_v r) = v_t_hvel v /\ v_t_hgt (r_v r) = v_t_hgt v /\ v_t_delpos (r_v r) = v_t_delpos v) /\
  (let r := fuseHorizontalPosition b i0 i1 gate o0 o1 v in r_ok r = true -> v_rej_hpos (r_v r) = false /\
     v_t_hpos (r_v r) = (if v_odom v then v_t_hpos v else now) /\ v_t_delpos (r_v r) = (if v_odom v then now else v_t_delpos v) /\
     v_t_hvel (r_v r) = v_t_hvel v /\ v_t_vvel (r_v r) = v_t_vvel v /\ v_t_hgt (r_v r) = v_t_hgt v) /\
  (let r := fuseVerticalPosition b i2 gate o2 v in r_ok r = true -> v_rej_vpos (r_v r) = false /\ v_t_hgt (r_v r) = now /\
     v_t_hpos (r_v r) = v_t_hpos v /\ v_t_hvel (r_v r) = v_t_hvel v /\ v_t_vvel (r_v r) = v_t_vvel v /\ v_t_delpos (r_v r) = v_t_delpos v).
Proof. intros. split; [apply hvel_accepted|split; [apply vvel_accepted|split; [apply hpos_accepted|apply vpos_accepted]]]. Qed.
(** exact arithmetic: accepted exactly when every axis is within gate standard
    deviations of the innovation (100 when the gate is disabled) *)
Theorem C22_horizontal_gate :
  forall ig i0 i1 gate o0 o1 (v : vpst R), 0 < gate ->
  (let S0 := cP (v_s v) 4%nat 4%nat + o0 in let S1 := cP (v_s v) 5%nat 5%nat + o1 in 0 < S0 -> 0 < S1 ->
   (r_ok (fuseHorizontalVelocity i0 i1 gate o0 o1 v) = true <-> Rabs i0 <= gate * sqrt S0 /\ Rabs i1 <= gate * sqrt S1)) /\
  (let S0 := cP (v_s v) 7%nat 7%nat + o0 in let S1 := cP (v_s v) 8%nat 8%nat + o1 in 0 < S0 -> 0 < S1 ->
   (r_ok (fuseHorizontalPosition ig i0 i1 gate o0 o1 v) = true <->
    let lim := if ig then 100 else gate in Rabs i0 <= lim * sqrt S0 /\ Rabs i1 <= lim * sqrt S1)).
Proof. intros. split; [apply hvel_gate; assumption|apply hpos_gate; assumption]. Qed.
Theorem C22_vertical_gate :
  forall b i2 gate o2 (v : vpst R), 0 < gate ->
  (let S2 := cP (v_s v) 6%nat 6%nat + o2 in 0 < S2 -> (r_ok (fuseVerticalVelocity b i2 gate o2 v) = true <-> b = true \/ Rabs i2 <= gate * sqrt S2)) /\
  (let S2 := cP (v_s v) 9%nat 9%nat + o2 in 0 < S2 -> (r_ok (fuseVerticalPosition b i2 gate o2 v) = true <-> b = true \/ Rabs i2 <= gate * sqrt S2)).
Proof. intros. split; [apply (vert_gate false)|apply (vert_gate true)]; assumption. Qed.
(** with bad vertical acceleration data the innovation used never exceeds the gate *)
Theorem C22_bad_vertical_accel_limited :
  forall b i gate var, 0 < gate -> 0 < var ->
  let u := usedInnov b (sle (ratio i gate var) 1) i gate var in
  (b = true -> Rabs u <= gate * sqrt var) /\ (Rabs i <= gate * sqrt var -> u = i).
Proof. exact usedInnov_bounded. Qed.
(** binary32: NaN on all axes is rejected *)
Theorem C22_nan_rejected :
  forall gate o0 o1 (v : vpst f32),
  r_ok (fuseHorizontalVelocity fnan fnan gate o0 o1 v) = false /\ r_ok (fuseVerticalVelocity false fnan gate o0 v) = false /\
  r_ok (fuseHorizontalPosition false fnan fnan gate o0 o1 v) = false /\ r_ok (fuseVerticalPosition false fnan gate o0 v) = false.
Proof. intros. split; [apply hvel_nan_both|split; [apply vvel_nan|split; [apply hpos_nan_both|apply vpos_nan]]]. Qed.
(** defect: NaN on the north axis alone is masked by fmaxf: accepted, and all 24 states become NaN *)
Theorem C22_nan_one_axis_refuted :
  forall i1 gate o0 o1 (v : vpst f32),
  (fle (ratio i1 gate (fadd (cP (v_s v) 5%nat 5%nat) o1)) (flit 1 1) = true -> r_ok (fuseHorizontalVelocity fnan i1 gate o0 o1 v) = true) /\
  (let r := fuseHorizontalVelocity fnan i1 gate o0 o1 v in r_ok r = true -> v_bad (r_v r) 0%nat = false -> forall i, x_st (v_c (r_v r)) i = fnan).
Proof. intros. split; [apply hvel_nan_masked|apply hvel_nan_poison]. Qed.
(** defect: with the gate disabled NaN is fused *)
Theorem C22_nan_gate_disabled_refuted :
  forall gate o0 o1 (v : vpst f32), r_ok (fuseHorizontalPosition true fnan fnan gate o0 o1 v) = true.
Proof. exact hpos_nan_ungated. Qed.

(** ** C47: inhibited accelerometer-bias axes *)
(** over any history of predictions that inhibit the axis, whatever happens to
    the matrix in between, the variance after a prediction is the one the axis
    had when inhibition began, and learning resumes from it *)
Theorem C47_variance_frozen :
  forall (T : Type) (S : Scalar T) k (l : list (covctx T * (Mat T -> Mat T))) (c : covctx T) (s : covst T), (k < 3)%nat ->
  inhibit_axis c (filtStep c s) k = true -> c_inhibit s k = false -> inh_all_run k l (predictCovariance c s) ->
  let e := inh_run l (predictCovariance c s) in
  cP e (13 + k)%nat (13 + k)%nat = cP s (13 + k)%nat (13 + k)%nat /\
  forall (c' : covctx T) (M : Mat T), inhibit_axis c' (filtStep c' (setP M e)) k = false ->
    cP (predInhibit c' (setP M e)) (13 + k)%nat (13 + k)%nat = cP s (13 + k)%nat (13 + k)%nat.
Proof.
  intros T S k l c s Hk HI Hs H e. destruct (inhibited_run k l Hk c s HI Hs H) as (A & B & C). split; [exact A|].
  intros c' M HR. rewrite released_variance by assumption. exact B.
Qed.
Theorem C47_decorrelated_from_earlier_states :
  forall (T : Type) (S : Scalar T) (c : covctx T) (s : covst T) k i, (k < 3)%nat ->
  inhibit_axis c (filtStep c s) k = true -> (i < 13 + k)%nat ->
  (i <> 7 /\ i <> 8)%nat \/ sgt (sadd (cP (predInhibit c s) 7%nat 7%nat) (cP (predInhibit c s) 8%nat 8%nat)) (slit 10000 1) = false ->
  cP (predictCovariance c s) i (13 + k)%nat = szero /\ cP (predictCovariance c s) (13 + k)%nat i = szero.
Proof. intros T S. exact inhibited_decorrelated. Qed.
(** defect: not from the later ones *)
Theorem C47_still_correlated_refuted :
  exists (c : covctx R) (s : covst R), inhibit_axis c (filtStep c s) 0 = true /\ cP (predictCovariance c s) 13%nat 14%nat = 1 / 100000 /\
    cP (predictCovariance c s) 13%nat 13%nat = 1 / 100000 /\ cP (predictCovariance c s) 14%nat 14%nat = 1 / 100000.
Proof. exists ca, sa. destruct wa_entries as (_ & _ & A & _ & B & C). split; [apply (sa_inh 0); lia|]. auto. Qed.

(** when an axis is inhibited: exactly by the parameter, by detected bad vertical
    acceleration, by clipping of that axis, on ground unless the axis is within the
    0.8 cone of gravity, or by a manoeuvre above the rate or acceleration limit *)
Theorem C47_inhibited_exactly_when :
  forall (c : covctx R) (s : covst R) k, (k < 3)%nat ->
  (c_inhibit (predictCovariance c s) k = true <-> learning_inhibited c s k).
Proof.
  intros c s k Hk. rewrite <- inhibit_axis_iff. destruct (predict_frame c s) as [-> _]. destruct (predInhibit_k c s k Hk) as (-> & _). reflexivity.
Qed.
(** the accelerometer clipping fault is reported exactly when the sample clipped *)
Theorem C47_clipping_fault :
  forall (T : Type) (S : Scalar T) (c : covctx T) (s : covst T),
  c_bad_clip (predictCovariance c s) = true <-> exists k, (k < 3)%nat /\ x_clip c k = true.
Proof.
  intros T S c s. assert (E : c_bad_clip (predictCovariance c s) = clipping c).
  { unfold predictCovariance. cbv zeta. destruct (buildNext _ _ _) as [[N aa] av]. unfold fixCovarianceErrors. cbn [c_bad_clip setP]. unfold fixAccel. cbv zeta.
    cbn [c_inhibit setP]. destruct (_ && _ && _); [reflexivity|]. destruct (accMax _ _). reflexivity. }
  rewrite E. unfold clipping. rewrite !orb_true_iff. split.
  - intros [[H|H]|H]; [exists 0%nat|exists 1%nat|exists 2%nat]; split; try lia; exact H.
  - intros (k & Hk & H). destruct k as [|[|[|k]]]; try lia; tauto.
Qed.
(** ** C48: positive semidefiniteness over histories *)
Theorem C48_prediction_psd :
  forall (c : covctx R) (s : covst R) g F G, symmetric24 (cP s) ->
  state_jacobian dtR g (x_st c) (u_of c) F -> input_jacobian dtR g (x_st c) (u_of c) G ->
  psd (cP (predInhibit c s)) ->
  (forall k j, (k < 3)%nat -> c_inhibit (predInhibit c s) k = true -> (13 + k < j < 24)%nat -> estimated c j -> cP (predInhibit c s) (13 + k)%nat j = 0) ->
  (forall k, (k < 3)%nat -> c_inhibit (predInhibit c s) k = true -> 0 <= c_prev_var (predInhibit c s) k) ->
  ~ pos_capped (cP (predInhibit c s)) ->
  (forall k, c_acc_ang (predInhibit c s) k = 0 /\ c_acc_vel (predInhibit c s) k = 0) ->
  within_limits c s F G -> psd (cP (predictCovariance c s)).
Proof. exact predict_psd. Qed.
(** any interleaving of predictions, sensor updates, block resets, yaw and attitude resets *)
Theorem C48_history_psd :
  forall ops s, covinv s -> covtrace_ok ops s ->
  let e := covrun ops s in symmetric24 (cP e) /\ psd (cP e) /\ forall i, (i < 24)%nat -> ~ (13 <= i < 16)%nat -> 0 <= cP e i i <= var_hi i.
Proof.
  intros ops s H1 H2 e. destruct (covinv_run ops s H1 H2) as [A B C _ _]. fold e in A, B, C. split; [exact A|]. split; [exact B|].
  intros i Hi Ni. split; [apply psd_diag_nonneg; assumption|apply C; assumption].
Qed.
Theorem C48_inhibited_prediction_refuted :
  exists (c : covctx R) (s : covst R), symmetric24 (cP s) /\ psd (cP s) /\ below_limits c s /\ ~ psd (cP (predictCovariance c s)).
Proof. exists ca, sa. exact predict_inhibited_not_psd. Qed.
Theorem C48_position_hold_refuted :
  exists (c : covctx R) (s : covst R), symmetric24 (cP s) /\ psd (cP s) /\ below_limits c s /\
    (forall k, (k < 3)%nat -> inhibit_axis c (filtStep c s) k = false) /\ ~ psd (cP (predictCovariance c s)).
Proof. exists cb, sb. destruct predict_capped_not_psd as (A & B & C & D). split; [exact A|]. split; [exact B|]. split; [exact C|]. split; [exact sb_inh|exact D]. Qed.

(** ** C49: attitude covariance *)
(** the attitude block is J diag(v) J' with J the derivative of the quaternion
    with respect to the rotation vector, evaluated at the rotation vector of the attitude *)
Theorem C49_attitude_covariance :
  forall (x : Vec R) v M J, unit_quat x -> posq x 0%nat < 1 ->
  1 / 1000000000 < rotvec x 0 * rotvec x 0 + rotvec x 1 * rotvec x 1 + rotvec x 2 * rotvec x 2 ->
  (forall i k, (i < 4)%nat -> (k < 3)%nat -> is_derive (fun t => qrot (upd (rotvec x) k t) i) (rotvec x k) (J i k)) ->
  (forall i, (i < 4)%nat -> qrot (rotvec x) i = posq x i) /\
  (forall i j, (i < 4)%nat -> (j < 4)%nat -> initQuatCov x v M i j = rsum 3 (fun k => J i k * v k * J j k)).
Proof.
  intros x v M J U HB HN HJ. split; [intros i Hi; apply qrot_rotvec; assumption|]. intros i j Hi Hj. rewrite initQuat_block by assumption.
  assert (E : forall i k, (i < 4)%nat -> (k < 3)%nat -> Jq (rotvec x) i k = J i k).
  { intros a k Ha Hk. pose proof (HJ a k Ha Hk) as D1. pose proof (Jq_ok (rotvec x) a k Ha Hk ltac:(lra)) as D2.
    apply is_derive_unique in D1. apply is_derive_unique in D2. rewrite <- D1, <- D2. reflexivity. }
  apply rsum_ext. intros k Hk. rewrite !E by assumption. reflexivity.
Qed.
Theorem C49_attitude_covariance_frame :
  forall (x : Vec R) v M i j,
  ((4 <= i)%nat -> (4 <= j)%nat -> initQuatCov x v M i j = M i j) /\
  ((i < 4)%nat -> (4 <= j)%nat -> initQuatCov x v M i j = 0 /\ initQuatCov x v M j i = 0).
Proof. intros. split; intros; [apply initQuat_other; assumption|apply initQuat_cross; assumption]. Qed.
(** reported rotation-vector variances: first-order propagation through the inverse map *)
Theorem C49_rotation_vector_variance :
  forall (x : Vec R) M k d0 di, unit_quat x -> 1 / 1000000000 < 1 - posq x 0%nat * posq x 0%nat ->
  is_derive (fun t => rvec t (posq x (S k))) (posq x 0%nat) d0 -> is_derive (fun t => rvec (posq x 0%nat) t) (posq x (S k)) di ->
  rotvec x k = rvec (posq x 0%nat) (posq x (S k)) /\
  rotVecVar x M k = d0 * d0 * M 0%nat 0%nat + d0 * di * (M 0%nat (S k) + M (S k) 0%nat) + di * di * M (S k) (S k).
Proof.
  intros x M k d0 di U HN D0 Di. split; [|apply rotVecVar_ok; assumption]. apply rotvec_rvec; [exact U|]. pose proof (posq_nonneg x). nra.
Qed.
Theorem C49_initial_covariance_psd :
  forall x te gv gp hv gb ab mn wu, 0 <= hv -> psd (initialiseCovariance x te gv gp hv gb ab mn wu).
Proof. exact init_psd. Qed.

(** ** C50: yaw uncertainty *)
Theorem C50_yaw_variance_increase :
  forall (x : Vec R) w M D, unit_quat x ->
  (forall i, (i < 4)%nat -> is_derive (fun t => qc i (yaw_rotated (mkQ (x 0%nat) (x 1%nat) (x 2%nat) (x 3%nat)) t)) 0 (D i)) ->
  (forall i, (4 <= i)%nat -> D i = 0) ->
  forall i j, increaseYawVar x w M i j = M i j + Rmin w (1 / 100) * D i * D j.
Proof. intros x w M D U H1 H2 i j. apply increaseYaw_ok; assumption. Qed.
Theorem C50_yaw_variance_psd :
  forall (x : Vec R) w M, unit_quat x -> 0 <= w -> psd M -> psd (increaseYawVar x w M).
Proof. exact increaseYaw_psd. Qed.
Example C50_derivative_exists x : exists D, (forall i, (i < 4)%nat -> is_derive (fun t => qc i (yaw_rotated (mkQ (x 0%nat) (x 1%nat) (x 2%nat) (x 3%nat)) t)) 0 (D i)) /\
  (forall i, (4 <= i)%nat -> D i = 0).
Proof. destruct (yaw_D x) as (D & A & B & _). exists D. auto. Qed.

(** ** C51: wind covariance reset *)
(** with recent airspeed: first-order propagation of airspeed, sideslip and yaw
    uncertainty through the wind solution, plus the velocity variances *)
Theorem C51_wind_covariance_reset :
  forall eas_noise eas2tas var_y ryaw psi wn we iu (M : Mat R) J,
  let rtas := (Rmin 5 (Rmax (1 / 2) eas_noise) * Rmin 10 (Rmax (9 / 10) eas2tas)) ^ 2 in
  (exists wx wy, wind_n wx wy psi = wn /\ wind_e wx wy psi = we /\
     is_derive (fun t => wind_n t wy psi) wx (J 0%nat 0%nat) /\ is_derive (fun t => wind_e t wy psi) wx (J 1%nat 0%nat) /\
     is_derive (fun t => wind_n wx t psi) wy (J 0%nat 1%nat) /\ is_derive (fun t => wind_e wx t psi) wy (J 1%nat 1%nat) /\
     is_derive (fun t => wind_n wx wy t) psi (J 0%nat 2%nat) /\ is_derive (fun t => wind_e wx wy t) psi (J 1%nat 2%nat)) ->
  let V := fun k => match k with 0%nat => rtas | 1%nat => var_y | _ => ryaw end in
  let M' := resetWindCovariance true eas_noise eas2tas var_y ryaw (cos psi) (sin psi) wn we iu M in
  (forall a b, (a < 2)%nat -> (b < 2)%nat ->
     M' (22 + a)%nat (22 + b)%nat = rsum 3 (fun k => J a k * V k * J b k) + (if (a =? b)%nat then M (4 + a)%nat (4 + a)%nat else 0)) /\
  (forall i j, (i < 24)%nat -> (j < 24)%nat -> ((22 <= i)%nat /\ (j < 22)%nat) \/ ((i < 22)%nat /\ (22 <= j)%nat) -> M' i j = 0) /\
  (forall i j, (i < 22)%nat -> (j < 22)%nat -> M' i j = M i j).
Proof. exact resetWind_ok. Qed.
(** defect: without recent airspeed the variance is set to the 1-sigma uncertainty, not to its square *)
Theorem C51_no_airspeed_refuted :
  forall eas_noise eas2tas var_y ryaw cy sy wn we iu (M : Mat R) k, (k < 2)%nat ->
  resetWindCovariance false eas_noise eas2tas var_y ryaw cy sy wn we iu M (22 + k)%nat (22 + k)%nat = iu /\ (iu <> 0 -> iu <> 1 -> iu <> iu * iu).
Proof.
  intros. split.
  - do 2 (destruct k as [|k]; [reflexivity|]). lia.
  - intros H0 H1 H2. apply H1. apply (Rmult_eq_reg_l iu); [lra|exact H0].
Qed.

Print Assumptions C18_prediction_symmetric.
Print Assumptions C19_generated_expressions.
Print Assumptions C20_direct_update.
Print Assumptions C21_variances_limited.
Print Assumptions C22_horizontal_gate.
Print Assumptions C47_variance_frozen.
Print Assumptions C48_history_psd.
Print Assumptions C49_attitude_covariance.
Print Assumptions C51_wind_covariance_reset.

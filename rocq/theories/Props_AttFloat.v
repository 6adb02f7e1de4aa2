(** * C95: attitude initialisation and yaw resets in single precision

    [near x r e] (F32Err.v): the float x is finite and within e of the real r.
    [accurate] (AttFloatProofs.v): what is assumed of sinf, cosf, asinf, atan2f:
    results within 3e-7 of the real functions of RotModel.v, for arguments up
    to 10, for asinf only on [-1, 1], for atan2f only when not both are
    zero.  [qr x]: the real numbers in the first four states.  [rnorm v]: the real
    length of a float vector.  [dcm]: the rotation matrix of a quaternion. *)
From Coq Require Import Reals Lra Psatz.
From Verif Require Import CBase Scalar RealGeom RotModel RotProofs F32 F32More F32Err OutputModel NanModel Props_Sense Props_Sense2 NanProofs AttFloatModel AttFloatProofs AttFloatProofs2.
From Verif Require PredictModel.
Open Scope R_scope.

Section Lib.
Variables (tsin tcos tasin : f32 -> f32) (tatan2 : f32 -> f32 -> f32) (pi2 : f32).
Hypothesis HA : accurate tsin tcos tasin tatan2 pi2.

(** a yaw reset: never NaN, a unit quaternion to 1/4000 whatever the error of the old one, tilt kept,
    heading set about the axis chosen by the larger tilt *)
Theorem C95_yaw_reset : forall (yaw : f32) (x : Vec f32) (s : R), is_finite yaw = true -> Rabs (R32 yaw) <= 9 ->
  (forall k, (k < 4)%nat -> is_finite (x k) = true) -> Rabs (qnorm2 (qr x) - 1) <= s -> s <= / 4000 ->
  let x' := yawResetG tsin tcos tasin tatan2 pi2 yaw x in let m := dcm (qr x) in let m' := dcm (qr x') in
  (forall k, (k < 4)%nat -> is_finite (x' k) = true) /\ (forall k, (4 <= k)%nat -> x' k = x k) /\ Rabs (qnorm2 (qr x') - 1) <= 1 / 4000 /\
  (Rabs (m20 m' - m20 m) <= 2 * s + 1 / 4000 /\ Rabs (m21 m' - m21 m) <= 2 * s + 1 / 4000 /\ Rabs (m22 m' - m22 m) <= 2 * s + 1 / 4000) /\
  exists c, 7 / 10 <= c <= 1 /\
    ((m20 m * m20 m <= m21 m * m21 m + 2 / 100000 /\ Rabs (m00 m' - c * cos (R32 yaw)) <= 1 / 4000 /\ Rabs (m10 m' - c * sin (R32 yaw)) <= 1 / 4000) \/
     (m21 m * m21 m <= m20 m * m20 m + 2 / 100000 /\ Rabs (m11 m' - c * cos (R32 yaw)) <= 1 / 4000 /\ Rabs (- m01 m' - c * sin (R32 yaw)) <= 1 / 4000)).
Proof.
  intros yaw x s A B C D E. cbv zeta. destruct (yawReset_float _ _ _ _ _ HA yaw x s A B C D E) as (P1 & P2 & P3 & P4).
  split; [exact P1|]. split; [|split; [exact P2|split; [exact P3|exact P4]]].
  intros k Hk. unfold yawResetG. cbv zeta. apply Nat.ltb_ge in Hk. rewrite Hk. reflexivity.
Qed.
(** any number of yaw resets in a row *)
Theorem C95_many_resets : forall (l : list f32) (x : Vec f32), (forall y, In y l -> is_finite y = true /\ Rabs (R32 y) <= 9) ->
  (forall k, (k < 4)%nat -> is_finite (x k) = true) -> Rabs (qnorm2 (qr x) - 1) <= 1 / 4000 ->
  let x' := fold_left (fun z yaw => yawResetG tsin tcos tasin tatan2 pi2 yaw z) l x in
  (forall k, (k < 4)%nat -> is_finite (x' k) = true) /\ Rabs (qnorm2 (qr x') - 1) <= 1 / 4000.
Proof.
  induction l as [|y l IH]; intros x Hl F N; [split; assumption|]. cbn [fold_left]. destruct (Hl y (or_introl eq_refl)) as [Fy By].
  destruct (yawReset_float _ _ _ _ _ HA y x (1 / 4000) Fy By F N ltac:(lra)) as (P1 & P2 & _).
  apply IH; [intros z Hz; apply Hl; right; exact Hz|exact P1|exact P2].
Qed.
(** start-up: the initial attitude is never NaN, and the measured specific force [acc], turned to earth, points up *)
Theorem C95_start : forall (rad15 : f32) (acc gyr q : Vec f32), (forall k, (k < 3)%nat -> is_finite (acc k) = true) ->
  tiltStartG tsin tcos tasin tatan2 rad15 acc gyr = Some q ->
  let m := dcm (qr q) in let N := rnorm acc in
  77 / 10 <= N <= 119 / 10 /\ (forall k, (k < 4)%nat -> is_finite (q k) = true) /\ Rabs (qnorm2 (qr q) - 1) <= 1 / 4000 /\
  let t := (if Rle_dec (Rabs (R32 (acc 0%nat) / N)) (98 / 100) then 13 / 10000 else 4 / 1000) in
  Rabs (m20 m + R32 (acc 0%nat) / N) <= t /\ Rabs (m21 m + R32 (acc 1%nat) / N) <= t /\ Rabs (m22 m + R32 (acc 2%nat) / N) <= t.
Proof.
  intros rad15 acc gyr q F H. cbv zeta. destruct (start_float _ _ _ _ _ HA rad15 acc gyr q F H) as (_ & A & B & C & D). split; [exact A|]. split; [exact B|]. split; [exact C|]. exact D.
Qed.
End Lib.
Section Any.
Variables (tsin tcos tasin : f32 -> f32) (tatan2 : f32 -> f32 -> f32).
(** whatever the library functions: the argument of asinf at start-up never leaves its domain *)
Theorem C95_arcsine_domain : forall (rad15 : f32) (acc gyr q : Vec f32), (forall k, (k < 3)%nat -> is_finite (acc k) = true) ->
  tiltStartG tsin tcos tasin tatan2 rad15 acc gyr = Some q ->
  forall k, (k < 3)%nat -> is_finite (fmul (acc k) (fdiv (flit 1 1) (nrm3 acc))) = true /\ -1 <= R32 (fmul (acc k) (fdiv (flit 1 1) (nrm3 acc))) <= 1.
Proof.
  intros rad15 acc gyr q F H k Hk. unfold tiltStartG in H. cbv zeta in H.
  change (@smul f32 FScalar (slit 8 10) oneG) with refused_low in H. change (@smul f32 FScalar (slit 12 10) oneG) with refused_high in H.
  destruct (slt (nrm3 acc) refused_low) eqn:L1; [discriminate|]. destruct (slt refused_high (nrm3 acc)) eqn:L2; [discriminate|]. clear H.
  destruct (gate_range acc F L1 L2) as [N B]. pose proof (nrm3_ge acc F N ltac:(lra) k Hk) as G.
  destruct (unit_le1 (acc k) (nrm3 acc) (F k Hk) N G ltac:(lra)) as (_ & _ & R3 & R4 & _). split; [exact R3|]. apply Rabs_le_inv in R4. lra.
Qed.
(** an infinite component (none NaN) is refused *)
Theorem C95_infinite_refused : forall (rad15 : f32) (acc gyr : Vec f32), (forall k, (k < 3)%nat -> is_nan (acc k) = false) ->
  (exists k, (k < 3)%nat /\ is_finite (acc k) = false) -> tiltStartG tsin tcos tasin tatan2 rad15 acc gyr = None.
Proof.
  intros rad15 acc gyr N I. unfold tiltStartG. rewrite (nrm3_inf acc N I). cbv zeta. change (@smul f32 FScalar (slit 8 10) oneG) with refused_low. change (@smul f32 FScalar (slit 12 10) oneG) with refused_high.
  change (@slt f32 FScalar) with flt. assert (E : flt refused_high finf = true) by (vm_compute; reflexivity). rewrite E, Bool.orb_true_r. reflexivity.
Qed.
(** a NaN component is not (a defect): the filter starts with an attitude of NaN *)
Theorem C95_nan_starts : forall (rad15 : f32) (acc gyr : Vec f32), nan_fun tsin -> nan_fun tcos -> (forall a b, is_nan a = true -> is_nan (tatan2 a b) = true) ->
  (exists k, (k < 3)%nat /\ is_nan (acc k) = true) -> flt rad15 (nrm3 gyr) = false ->
  exists q, tiltStartG tsin tcos tasin tatan2 rad15 acc gyr = Some q /\ forall k, (k < 4)%nat -> is_nan (q k) = true.
Proof.
  intros rad15 acc gyr Hs Hc Ha (k & Hk & N) G.
  assert (NN : is_nan (nrm3 acc) = true) by (unfold nrm3; fsc; apply nan_sqrt; destruct k as [|[|[|k]]]; [| | |lia]; auto 6 with nan).
  unfold tiltStartG. cbv zeta. change (@slt f32 FScalar) with flt. rewrite (nan_lt_l _ _ NN), (nan_lt_r _ _ NN), G. cbn [orb]. eexists. split; [reflexivity|].
  assert (NG : forall j, is_nan (unit3 acc j) = true) by (intros j; unfold unit3; cbv zeta; fsc; apply nan_mul_r, nan_div_r, NN).
  assert (NR : is_nan (tatan2 (sopp (unit3 acc 1%nat)) (sopp (unit3 acc 2%nat))) = true) by (apply Ha; fsc; auto with nan).
  set (r := tatan2 _ _) in *. clearbody r. intros j Hj. unfold quatEulerG. fsc.
  assert (NS : is_nan (tsin (fdiv r (slit 2 1))) = true) by (apply Hs; auto with nan). assert (NC : is_nan (tcos (fdiv r (slit 2 1))) = true) by (apply Hc; auto with nan).
  destruct j as [|[|[|[|j]]]]; [| | | |lia]; auto 8 with nan.
Qed.
End Any.
(** what the prediction and every fusion do to the attitude last (normalise, limit to [-1, 1]) makes it fit for a yaw reset *)
Theorem C95_normalised : forall (x : Vec f32), (forall k, (k < 4)%nat -> is_finite (x k) = true) -> 1 / 4 <= qnorm2 (qr x) <= 4 ->
  let y := fun k => sconstrain (qnormv x k) (fneg (flit 1 1)) (flit 1 1) in
  ((forall k, (k < 4)%nat -> is_finite (qnormv x k) = true) /\ Rabs (qnorm2 (qr (qnormv x)) - 1) <= 1 / 4000) /\
  ((forall k, (k < 4)%nat -> is_finite (y k) = true) /\ Rabs (qnorm2 (qr y) - 1) <= 1 / 4000).
Proof.
  intros x F N. cbv zeta. destruct (qnormv_near x F N) as (w & W1 & _ & NV).
  assert (Q1 : qscale 1 w = w) by (destruct w as [w0 w1 w2 w3]; unfold qscale; cbn [q0 q1 q2 q3]; rewrite !Rmult_1_l; reflexivity).
  assert (WK : forall (v : Vec f32), nearV v w (1 / 100000) -> nearV v (qscale 1 w) (4 / 100000)) by (intros v (H0 & H1 & H2 & H3); rewrite Q1; refine (conj _ (conj _ (conj _ _))); eapply near_weaken; try eassumption; lra).
  destruct (q_bounds w W1) as (B0 & B1 & B2 & B3).
  assert (NY : nearV (fun k => sconstrain (qnormv x k) (fneg (flit 1 1)) (flit 1 1)) w (1 / 100000)) by (destruct NV as (H0 & H1 & H2 & H3); refine (conj _ (conj _ (conj _ _))); apply near_constrain; assumption).
  destruct (near_unit _ w 1 W1 (or_introl eq_refl) (WK _ NV)) as (F1 & N1 & _). destruct (near_unit _ w 1 W1 (or_introl eq_refl) (WK _ NY)) as (F2 & N2 & _).
  split; (split; [assumption|lra]).
Qed.
(** the model used here, read over the reals, is the one of C71 *)
Definition v3 (a : V3) : Vec R := fun k => match k with 0%nat => vx a | 1%nat => vy a | _ => vz a end.
Theorem C95_same_start : forall (u : PredictModel.startst),
  match tiltStartG sin cos asin atan2 (15 * PI / 180) (v3 (PredictModel.u_acc u)) (v3 (PredictModel.u_gyr u)) with
  | Some q => PredictModel.tiltOk u = true /\ mkQ (q 0%nat) (q 1%nat) (q 2%nat) (q 3%nat) = PredictModel.tiltQuat (PredictModel.u_acc u)
  | None => PredictModel.tiltOk u = false
  end.
Proof.
  assert (NR : forall a : V3, nrm3 (v3 a) = PredictModel.vnorm a).
  { intros a. unfold nrm3, v3, PredictModel.vnorm, szero. cbn [ssqrt sadd smul slit RScalar]. f_equal. unfold vnorm2, vdot. field. }
  intros u. assert (U : forall k, unit3 (v3 (PredictModel.u_acc u)) k = v3 (vscale (/ PredictModel.vnorm (PredictModel.u_acc u)) (PredictModel.u_acc u)) k).
  { intros k. unfold unit3. rewrite NR. cbn [smul sdiv slit RScalar]. destruct k as [|[|k]]; cbn [v3 vx vy vz vscale]; unfold Rdiv; rewrite Rinv_1, !Rmult_1_l, ?Rmult_1_r; ring. }
  unfold tiltStartG, PredictModel.tiltOk, oneG, PredictModel.gravity. cbv zeta. rewrite !NR, !U. cbn [slt smul slit RScalar].
  destruct (Rlt_dec (PredictModel.vnorm (PredictModel.u_acc u)) (8 / 10 * (980665 / 100000))); [reflexivity|].
  destruct (Rlt_dec (12 / 10 * (980665 / 100000)) (PredictModel.vnorm (PredictModel.u_acc u))); [reflexivity|].
  destruct (Rlt_dec (15 * PI / 180) (PredictModel.vnorm (PredictModel.u_gyr u))); cbn [orb]; [reflexivity|]. split; [reflexivity|].
  unfold quatEulerG, PredictModel.tiltQuat, PredictModel.quatOfEuler, szero. cbv zeta. cbn [sadd ssub smul sdiv sopp slit RScalar v3 vx vy vz vscale].
  replace (0 / 1 / (2 / 1)) with (0 / 2) by lra. 
  replace (2 / 1) with 2 by lra. reflexivity.
Qed.

(** ** Non-vacuity *)
(** the float nearest to a real *)
Definition ofR (r : R) : f32 :=
  let y := rnd32 r in binary_normalize 24 128 prec24 prec_emax mode_NE (Ztrunc (scaled_mantissa radix2 (SpecFloat.fexp 24 128) y)) (cexp radix2 (SpecFloat.fexp 24 128) y) false.
Lemma ofR_near (r : R) : Rabs r <= 4 -> near (ofR r) r (3 / 10000000) /\ R32 (ofR r) = rnd32 r.
Proof.
  intros B. destruct (rnd_near r 4 B ltac:(unfold huge; lra)) as [E L]. unfold ofR. cbv zeta.
  assert (G : generic_format radix2 (SpecFloat.fexp 24 128) (rnd32 r)) by (apply generic_format_round; [apply fexp_correct; reflexivity|apply valid_rnd_N]).
  pose proof (binary_normalize_correct 24 128 prec24 prec_emax mode_NE (Ztrunc (scaled_mantissa radix2 (SpecFloat.fexp 24 128) (rnd32 r))) (cexp radix2 (SpecFloat.fexp 24 128) (rnd32 r)) false) as C.
  change (F2R (Float radix2 (Ztrunc (scaled_mantissa radix2 (SpecFloat.fexp 24 128) (rnd32 r))) (cexp radix2 (SpecFloat.fexp 24 128) (rnd32 r)))) with (F2R (Float radix2 (Ztrunc (scaled_mantissa radix2 (SpecFloat.fexp 24 128) (rnd32 r))) (cexp radix2 (SpecFloat.fexp 24 128) (rnd32 r)))) in C.
  cbv zeta in C. rewrite <- G in C. 
  rewrite (round_generic radix2 _ (round_mode mode_NE) (rnd32 r) G) in C.
  assert (LT : Rabs (rnd32 r) < bpow radix2 128).
  { assert (Rabs (rnd32 r) <= 5) by (apply Rabs_le_inv in B, E; unfold ulp1, tiny in E; apply Rabs_le; lra). eapply Rle_lt_trans; [eassumption|]. apply Rlt_le_trans with (bpow radix2 3); [cbn; lra|apply bpow_le; lia]. }
  apply Rlt_bool_true in LT. rewrite LT in C. destruct C as (C1 & C2 & _). split; [|exact C1].
  split; [exact C2|]. rewrite C1. eapply Rle_trans; [exact E|]. unfold ulp1, tiny. lra.
Qed.
Lemma atan2_le4 (a b : R) : Rabs (atan2 a b) <= 4.
Proof.
  unfold atan2. pose proof PI_4. pose proof (PI_RGT_0). apply Rabs_le.
  destruct (Rlt_dec 0 b); [pose proof (atan_bound (a / b)); lra|]. destruct (Rlt_dec b 0) as [N|N].
  - destruct (Rle_dec 0 a) as [P|P].
    + assert (a / b <= 0) by (unfold Rdiv; pose proof (Rinv_lt_0_compat b N); nra). assert (atan (a / b) <= 0) by (rewrite <- atan_0; destruct (Req_dec (a / b) 0) as [->|]; [lra|left; apply atan_increasing; lra]). pose proof (atan_bound (a / b)). lra.
    + assert (0 <= a / b) by (unfold Rdiv; pose proof (Rinv_lt_0_compat b N); nra). assert (0 <= atan (a / b)) by (rewrite <- atan_0; destruct (Req_dec (a / b) 0) as [->|]; [lra|left; apply atan_increasing; lra]). pose proof (atan_bound (a / b)). lra.
  - destruct (Rlt_dec 0 a); [lra|]. destruct (Rlt_dec a 0); lra.
Qed.
(** correctly rounded functions, giving NaN for NaN, meet both assumptions *)
Definition lift1 (f : R -> R) (a : f32) : f32 := if is_finite a then ofR (f (R32 a)) else fnan.
Definition lift2 (f : R -> R -> R) (a b : f32) : f32 := if is_finite a then if is_finite b then ofR (f (R32 a) (R32 b)) else f0 else fnan.
Example C95_library_exists : accurate (lift1 sin) (lift1 cos) (lift1 asin) (lift2 atan2) (ofR (PI / 2)) /\
  nan_fun (lift1 sin) /\ nan_fun (lift1 cos) /\ forall a b, is_nan a = true -> is_nan (lift2 atan2 a b) = true.
Proof.
  assert (NN : forall f, nan_fun (lift1 f)) by (intros f a H; unfold lift1; destruct a; try discriminate; reflexivity).
  refine (conj (conj _ (conj _ (conj _ _))) (conj (NN sin) (conj (NN cos) _))).
  - intros a F _. unfold lift1. rewrite F. pose proof (sin_1 (R32 a)). pose proof (cos_1 (R32 a)). split; apply ofR_near; lra.
  - intros a F _. unfold lift1. rewrite F. apply ofR_near. pose proof (asin_bound (R32 a)). pose proof PI_4. apply Rabs_le. lra.
  - intros a b Fa Fb. unfold lift2. rewrite Fa, Fb. pose proof (atan2_le4 (R32 a) (R32 b)) as L. destruct (ofR_near _ L) as [N E]. split; [apply N|]. split; [|intros _; exact N].
    rewrite E. apply Rabs_le_inv in L. apply Rabs_le. split; [apply (rnd32_ge_Z _ (-4))|apply (rnd32_le_Z _ 4)]; try lia; lra.
  - apply ofR_near. pose proof PI_4. pose proof PI_RGT_0. apply Rabs_le. lra.
  - intros a b H. destruct a; try discriminate. reflexivity.
Qed.
Definition level : Vec f32 := fun k => match k with 0%nat => flit 1 1 | _ => f0 end.
Example C95_level_meets : is_finite (flit 1 1) = true /\ Rabs (R32 (flit 1 1)) <= 9 /\ (forall k, (k < 4)%nat -> is_finite (level k) = true) /\ Rabs (qnorm2 (qr level) - 1) <= 1 / 4000.
Proof.
  pose proof (near_int 1 ltac:(lia)) as [F H]. apply Rabs_le_inv in H. assert (E : R32 (flit 1 1) = 1) by lra. rewrite E.
  split; [exact F|]. split; [rewrite Rabs_right; lra|]. split; [intros [|[|[|[|k]]]] Hk; [exact F|reflexivity|reflexivity|reflexivity|lia]|].
  unfold qnorm2, qr, level. cbn [q0 q1 q2 q3]. rewrite E. change (R32 f0) with 0. apply Rabs_le. lra.
Qed.
Definition atRest : Vec f32 := fun k => match k with 2%nat => flit (-98) 10 | _ => f0 end.
Example C95_rest_starts : forall (tsin tcos tasin : f32 -> f32) (tatan2 : f32 -> f32 -> f32),
  (forall k, (k < 3)%nat -> is_finite (atRest k) = true) /\ exists q, tiltStartG tsin tcos tasin tatan2 (flit 26 100) atRest (fun _ => f0) = Some q.
Proof.
  intros. split; [intros [|[|[|k]]] Hk; [reflexivity|reflexivity|vm_compute; reflexivity|lia]|].
  unfold tiltStartG. cbv zeta. change (@smul f32 FScalar (slit 8 10) oneG) with refused_low. change (@smul f32 FScalar (slit 12 10) oneG) with refused_high. change (@slt f32 FScalar) with flt.
  assert (E1 : flt (nrm3 atRest) refused_low = false) by (vm_compute; reflexivity). assert (E2 : flt refused_high (nrm3 atRest) = false) by (vm_compute; reflexivity).
  assert (E3 : flt (flit 26 100) (nrm3 (fun _ => f0)) = false) by (vm_compute; reflexivity). rewrite E1, E2, E3. cbn [orb]. eexists. reflexivity.
Qed.
Print Assumptions C95_yaw_reset.
Print Assumptions C95_many_resets.
Print Assumptions C95_start.
Print Assumptions C95_arcsine_domain.
Print Assumptions C95_infinite_refused.
Print Assumptions C95_nan_starts.
Print Assumptions C95_normalised.
Print Assumptions C95_same_start.

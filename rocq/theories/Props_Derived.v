(** * C91: observations computed rather than measured *)
From Coq Require Import Reals Lra Lia ZArith Bool.
From Verif Require Import CBase Scalar CovModel FusionGen FusionModel RealGeom.
Open Scope R_scope.

Lemma slitr n d : slit n d = IZR n / IZR d. Proof. reflexivity. Qed.
Ltac rsc := cbn [sadd ssub smul sdiv sopp sabs ssqrt slt sle slit sfmax RScalar].
Definition vec (v : V3) : Vec R := fun k => match k with O => vx v | 1%nat => vy v | _ => vz v end.
(** the body-frame components of an earth-frame vector for the attitude m (body to earth) *)
Definition in_body (m : M3) (e : V3) : V3 := mapp (mtr m) e.
(** third column of the attitude matrix: the body z axis in the earth frame *)
Definition z_axis (m : M3) : V3 := mkV (m02 m) (m12 m) (m22 m).

Lemma norm3_vec v : norm3 (vec v) * norm3 (vec v) = vnorm2 v.
Proof.
  unfold norm3, dot3, szero. rsc. cbn [vec]. rewrite sqrt_sqrt; [unfold vnorm2, vdot; field|]. nra.
Qed.
Lemma dot3_vec a b : dot3 (vec a) (vec b) = vdot a b.
Proof. unfold dot3, szero, vdot. rsc. cbn [vec]. field. Qed.
Lemma body_norm m e : is_rotation m -> vx (in_body m e) ^ 2 + vy (in_body m e) ^ 2 + vz (in_body m e) ^ 2 = vnorm2 e.
Proof.
  intros (A & B & C). assert (T : is_rotation (mtr m)).
  { unfold is_rotation. assert (M : mtr (mtr m) = m) by (destruct m; reflexivity). rewrite M. split; [exact B|]. split; [exact A|]. rewrite <- C. destruct m as [q0 q1 q2 q3 q4 q5 q6 q7 q8]; unfold mdet, mtr; cbn [m00 m01 m02 m10 m11 m12 m20 m21 m22]; ring. }
  rewrite <- (rotation_preserves_norm _ e T). unfold in_body, vnorm2, vdot. ring.
Qed.

(** the field predicted from the magnetic table: strength, inclination (down positive) and declination *)
Theorem C91_table_field : forall B i d, let e := tableField cos sin B i d in
  e 0%nat = B * cos i * cos d /\ e 1%nat = B * cos i * sin d /\ e 2%nat = B * sin i /\ e 0%nat ^ 2 + e 1%nat ^ 2 + e 2%nat ^ 2 = B ^ 2.
Proof.
  intros B i d. cbv zeta. unfold tableField. rsc. rewrite cos_neg, sin_neg. split; [ring|]. split; [ring|]. split; [ring|].
  pose proof (sin2_cos2 i) as A. pose proof (sin2_cos2 d) as D. unfold Rsqr in A, D.
  replace ((cos i * cos d * B) ^ 2 + (cos i * sin d * B) ^ 2 + (- - sin i * B) ^ 2) with (B ^ 2 * (cos i * cos i * (sin d * sin d + cos d * cos d) + sin i * sin i)) by ring.
  rewrite D. replace (cos i * cos i * 1 + sin i * sin i) with (sin i * sin i + cos i * cos i) by ring. rewrite A. ring.
Qed.
(** the synthesised z component completes the measured x and y to a vector of the predicted strength,
    or is zero when these are already longer; the measured z component has no influence *)
Theorem C91_synthetic_z_length : forall (meas meas' : Vec R) (e z : V3), meas' 0%nat = meas 0%nat -> meas' 1%nat = meas 1%nat ->
  let s := syntheticMagZ meas (vec e) (vec z) in
  meas 0%nat ^ 2 + meas 1%nat ^ 2 + s ^ 2 = Rmax (vnorm2 e) (meas 0%nat ^ 2 + meas 1%nat ^ 2) /\ syntheticMagZ meas' (vec e) (vec z) = s /\
  (vdot e z < 0 -> s <= 0) /\ (0 <= vdot e z -> 0 <= s).
Proof.
  intros meas meas' e z E0 E1. cbv zeta. unfold syntheticMagZ. rewrite E0, E1, dot3_vec. cbv zeta.
  unfold smaxi, sq, szero. rsc. rewrite norm3_vec. replace (IZR 0 / IZR 1) with 0 by lra.
  set (d := vnorm2 e - meas 0%nat * meas 0%nat - meas 1%nat * meas 1%nat).
  assert (Q : forall x, 0 <= x -> sqrt x ^ 2 = x) by (intros x H; cbn [pow]; rewrite Rmult_1_r; apply sqrt_sqrt, H).
  assert (L : meas 0%nat ^ 2 + meas 1%nat ^ 2 + sqrt (if if Rlt_dec 0 d then true else false then d else 0) ^ 2 = Rmax (vnorm2 e) (meas 0%nat ^ 2 + meas 1%nat ^ 2)).
  { destruct (Rlt_dec 0 d) as [H|H]; rewrite Q by lra; unfold d in *; [rewrite Rmax_left by lra|rewrite Rmax_right by lra]; ring. }
  pose proof (sqrt_pos (if if Rlt_dec 0 d then true else false then d else 0)) as P. set (a := sqrt _) in *. clearbody a.
  split; [|split; [reflexivity|]].
  - destruct (Rlt_dec (vdot e z) 0); [replace ((- a) ^ 2) with (a ^ 2) by ring|]; exact L.
  - destruct (Rlt_dec (vdot e z) 0); split; intros; lra.
Qed.
(** with exact x and y the synthesised component is the true one whenever the estimated attitude puts
    the field on the right side of the body xy plane, whatever else is wrong with it, and exactly the
    mirrored one when it does not (a defect near the magnetic equator or in steep banks) *)
Theorem C91_synthetic_z_exact : forall (e : V3) (m mest : M3) (meas : Vec R), is_rotation m ->
  meas 0%nat = vx (in_body m e) -> meas 1%nat = vy (in_body m e) -> vz (in_body m e) <> 0 ->
  let s := syntheticMagZ meas (vec e) (vec (z_axis mest)) in
  ((vdot e (z_axis mest) < 0 <-> vz (in_body m e) < 0) -> s = vz (in_body m e)) /\
  (~ (vdot e (z_axis mest) < 0 <-> vz (in_body m e) < 0) -> s = - vz (in_body m e)).
Proof.
  intros e m mest meas R E0 E1 NZ. cbv zeta. unfold syntheticMagZ. rewrite dot3_vec. cbv zeta. unfold smaxi, sq, szero. rsc. rewrite norm3_vec.
  pose proof (body_norm m e R) as N. rewrite E0, E1. set (x := vx (in_body m e)) in *. set (y := vy (in_body m e)) in *. set (w := vz (in_body m e)) in *. clearbody x y w.
  replace (vnorm2 e - x * x - y * y) with (w * w) by (rewrite <- N; ring).
  assert (W : 0 < w * w) by nra. replace (IZR 0 / IZR 1) with 0 by lra. destruct (Rlt_dec 0 (w * w)) as [_|H]; [|contradiction].
  change (w * w) with (Rsqr w). rewrite sqrt_Rsqr_abs. unfold Rabs.
  split; intros H; destruct (Rlt_dec (vdot e (z_axis mest)) 0) as [G|G]; destruct (Rcase_abs w) as [K|K]; try lra.
Qed.
(** the sign is that of the body z component of the predicted field for the estimated attitude *)
Theorem C91_synthetic_z_sign : forall (e : V3) (mest : M3), vdot e (z_axis mest) = vz (in_body mest e).
Proof. intros e m. unfold in_body, z_axis, vdot, mapp, mtr. cbn [vx vy vz m20 m21 m22]. cbn. ring. Qed.

(** optical flow noise: between the best and the worst configured noise (neither below 0.05 rad/s),
    linear in the reported quality; the best at quality 255, the worst at or below the required quality *)
Theorem C91_flow_noise : forall best worst (q qmin : Z), (0 <= q <= 255)%Z -> (qmin <= 255)%Z ->
  let b := Rmax best 0.05 in let w := Rmax worst 0.05 in
  let s q := sqrt (flowVar best worst (IZR q) (IZR qmin)) in
  flowVar best worst (IZR q) (IZR qmin) = s q ^ 2 /\ Rmin b w <= s q <= Rmax b w /\
  ((qmin <= q)%Z -> (qmin < 255)%Z -> s q = w + (b - w) * ((IZR q - IZR qmin) / (255 - IZR qmin))) /\
  ((q <= qmin)%Z -> s q = w) /\ ((qmin < 255)%Z -> s 255%Z = b) /\
  (forall q', (q <= q' <= 255)%Z -> b <= w -> s q' <= s q).
Proof.
  intros best worst q qmin Hq Hm. cbv zeta beta. set (b := Rmax best 0.05). set (w := Rmax worst 0.05).
  assert (Pb : 0.05 <= b) by apply Rmax_r. assert (Pw : 0.05 <= w) by apply Rmax_r.
  set (wt := fun q : Z => if (qmin <? 255)%Z then Rmin (Rmax 0 ((IZR q - IZR qmin) / (255 - IZR qmin))) 1 else 0).
  assert (WT : forall q, 0 <= wt q <= 1). { intros p. unfold wt. destruct (qmin <? 255)%Z; [|lra]. split; [apply Rmin_glb; [apply Rmax_l|lra]|apply Rmin_r]. }
  assert (F : forall p, flowVar best worst (IZR p) (IZR qmin) = (b * wt p + w * (1 - wt p)) * (b * wt p + w * (1 - wt p))).
  { intros p. unfold flowVar, sq, sconstrain, szero. rsc. cbv zeta. replace (IZR 5 / IZR 100) with 0.05 by lra. fold b. fold w.
    replace (IZR 1 / IZR 1) with 1 by lra. replace (IZR 255 / IZR 1) with 255 by lra. replace (IZR 0 / IZR 1) with 0 by lra.
    assert (E : (if (if Rle_dec 1 (255 - IZR qmin) then true else false) then (if (if Rlt_dec ((IZR p - IZR qmin) / (255 - IZR qmin)) 0 then true else false) then 0 else if (if Rlt_dec 1 ((IZR p - IZR qmin) / (255 - IZR qmin)) then true else false) then 1 else (IZR p - IZR qmin) / (255 - IZR qmin)) else 0) = wt p).
    { unfold wt. destruct (Rle_dec 1 (255 - IZR qmin)) as [H|H]; destruct (Z.ltb_spec qmin 255) as [G|G]; try reflexivity.
      - set (t := (IZR p - IZR qmin) / (255 - IZR qmin)). clearbody t. destruct (Rlt_dec t 0); [rewrite Rmax_left by lra; rewrite Rmin_left by lra; reflexivity|].
        rewrite Rmax_right by lra. destruct (Rlt_dec 1 t); [rewrite Rmin_right by lra; reflexivity|rewrite Rmin_left by lra; reflexivity].
      - exfalso. assert (qmin = 255%Z) by lia. subst qmin. lra.
      - exfalso. apply H. assert (qmin <= 254)%Z by lia. apply IZR_le in H0. lra. }
    rewrite E. reflexivity. }
  assert (P : forall p, 0 <= b * wt p + w * (1 - wt p)) by (intros p; pose proof (WT p); nra).
  assert (SQ : forall p, sqrt (flowVar best worst (IZR p) (IZR qmin)) = b * wt p + w * (1 - wt p)).
  { intros p. rewrite F. apply sqrt_square, P. }
  rewrite !SQ, F. pose proof (WT q) as W. split; [ring|]. split.
  { split; [unfold Rmin|unfold Rmax]; destruct (Rle_dec b w); nra. }
  split.
  { intros A B. unfold wt. rewrite (proj2 (Z.ltb_lt qmin 255) B). apply IZR_le in A. apply IZR_lt in B. assert (C : IZR q <= 255) by (apply (IZR_le q 255); lia).
    assert (T : 0 <= (IZR q - IZR qmin) / (255 - IZR qmin) <= 1). { split; [apply Rle_mult_inv_pos; lra|]. apply Rmult_le_reg_r with (255 - IZR qmin); [lra|]. unfold Rdiv. rewrite Rmult_assoc, Rinv_l by lra. lra. }
    rewrite Rmax_right by lra. rewrite Rmin_left by lra. ring. }
  split.
  { intros A. assert (E : wt q = 0). { unfold wt. destruct (Z.ltb_spec qmin 255) as [B|B]; [|reflexivity]. apply IZR_le in A. apply IZR_lt in B.
      assert (T : (IZR q - IZR qmin) / (255 - IZR qmin) <= 0). { apply Rmult_le_reg_r with (255 - IZR qmin); [lra|]. unfold Rdiv. rewrite Rmult_assoc, Rinv_l by lra. lra. }
      rewrite Rmax_left by lra. apply Rmin_left. lra. }
    rewrite E. ring. }
  split.
  { intros B. assert (E : wt 255%Z = 1). { unfold wt. rewrite (proj2 (Z.ltb_lt qmin 255) B). apply IZR_lt in B. replace ((255 - IZR qmin) / (255 - IZR qmin)) with 1 by (field; lra).
      rewrite Rmax_right by lra. apply Rmin_left. lra. }
    rewrite E. ring. }
  intros q' Hq' BW. rewrite SQ. assert (M : wt q <= wt q').
  { unfold wt. destruct (Z.ltb_spec qmin 255) as [B|B]; [|lra]. apply IZR_lt in B. assert (Q : IZR q <= IZR q') by (apply IZR_le; lia).
    apply Rle_min_compat_r, Rle_max_compat_l. unfold Rdiv. apply Rmult_le_compat_r; [left; apply Rinv_0_lt_compat; lra|lra]. }
  nra.
Qed.

(** the true airspeed reported is the length of the velocity relative to the wind, the same number the
    airspeed fusion compares the sensor with *)
Theorem C91_true_airspeed : forall x : Vec R, getTrueAirspeed x = sqrt (vnorm2 (vsub (mkV (x 4%nat) (x 5%nat) (x 6%nat)) (mkV (x 22%nat) (x 23%nat) 0))) /\
  as_v_tas_pred x = getTrueAirspeed x.
Proof.
  intros x. split.
  - unfold getTrueAirspeed, sq, vnorm2, vdot, vsub. rsc. cbn [vx vy vz]. f_equal. ring.
  - unfold as_v_tas_pred, getTrueAirspeed, sq, pow2. rsc. try (f_equal; ring); try reflexivity.
Qed.

(** ** Examples *)
Example C91_level : let e := mkV 0.2 0 0.45 in is_rotation mident /\ vz (in_body mident e) <> 0 /\ (vdot e (z_axis mident) < 0 <-> vz (in_body mident e) < 0).
Proof.
  cbv zeta. unfold is_rotation, vdot, z_axis, in_body, mident, mmul, mtr, mdet, mapp. cbn.
  split; [split; [f_equal; ring|split; [f_equal; ring|ring]]|]. split; [apply Rgt_not_eq; lra|]. split; intros H; exfalso; lra.
Qed.
Example C91_mirrored : let e := mkV 0.3 0 0.01 in exists m mest, is_rotation m /\ vz (in_body m e) <> 0 /\ ~ (vdot e (z_axis mest) < 0 <-> vz (in_body m e) < 0).
Proof.
  exists mident, (mkM (4 / 5) 0 (- (3 / 5)) 0 1 0 (3 / 5) 0 (4 / 5)). unfold is_rotation, vdot, z_axis, mident. cbn. unfold mmul, mtr, mdet. cbn.
  split; [repeat split; try (f_equal; ring); ring|]. split; [lra|]. intros [H _]. assert (0.3 * - (3 / 5) + 0 * 0 + 0.01 * (4 / 5) < 0) by lra. apply H in H0. lra.
Qed.
Print Assumptions C91_table_field. Print Assumptions C91_synthetic_z_length. Print Assumptions C91_synthetic_z_exact. Print Assumptions C91_synthetic_z_sign. Print Assumptions C91_flow_noise. Print Assumptions C91_true_airspeed.

(** * Rotation utilities: proofs *)
From Coq Require Import Reals Lra Bool.
From Verif Require Import RealGeom RotModel.
Open Scope R_scope.

(** ** atan2 *)
Lemma atan2_polar y x : x <> 0 \/ y <> 0 ->
  let r := sqrt (x * x + y * y) in 0 < r /\ r * cos (atan2 y x) = x /\ r * sin (atan2 y x) = y.
Proof.
  intros H. cbv zeta. set (r := sqrt (x * x + y * y)).
  assert (N : 0 < x * x + y * y) by (destruct H; nra).
  assert (Hr : 0 < r) by (apply sqrt_lt_R0; exact N). split; [exact Hr|].
  assert (C : forall z, cos (atan z) = / sqrt (1 + z * z)) by (intros z; rewrite cos_atan; unfold Rdiv, Rsqr; rewrite Rmult_1_l; reflexivity).
  assert (Sn : forall z, sin (atan z) = z / sqrt (1 + z * z)) by (intros z; rewrite sin_atan; reflexivity).
  assert (Q : x <> 0 -> sqrt (1 + y / x * (y / x)) = r / Rabs x).
  { intros Hx. replace (1 + y / x * (y / x)) with ((x * x + y * y) / (x * x)) by (field; exact Hx).
    rewrite sqrt_div by nra. f_equal. change (x * x) with (Rsqr x). apply sqrt_Rsqr_abs. }
  unfold atan2. destruct (Rlt_dec 0 x) as [Hx|Hx].
  - rewrite C, Sn, Q by lra. rewrite (Rabs_right x) by lra. split; field; split; lra.
  - destruct (Rlt_dec x 0) as [Hx2|Hx2].
    + assert (E1 : r * cos (atan (y / x)) = - x) by (rewrite C, Q by lra; rewrite (Rabs_left x) by lra; field; split; lra).
      assert (E2 : r * sin (atan (y / x)) = - y) by (rewrite Sn, Q by lra; rewrite (Rabs_left x) by lra; field; split; lra).
      destruct (Rle_dec 0 y).
      * rewrite neg_cos, neg_sin. split; lra.
      * unfold Rminus. rewrite cos_plus, sin_plus, cos_neg, sin_neg, cos_PI, sin_PI. split; nra.
    + assert (x = 0) by lra. subst x. assert (Er : r = Rabs y) by (unfold r; replace (0 * 0 + y * y) with (Rsqr y) by (unfold Rsqr; ring); apply sqrt_Rsqr_abs).
      rewrite Er. destruct (Rlt_dec 0 y); [|destruct (Rlt_dec y 0)].
      * rewrite cos_PI2, sin_PI2, Rabs_right by lra. split; ring.
      * rewrite cos_neg, sin_neg, cos_PI2, sin_PI2, Rabs_left by lra. split; ring.
      * exfalso. destruct H; lra.
Qed.
Lemma atan2_range y x : - PI < atan2 y x <= PI.
Proof.
  pose proof PI_RGT_0. unfold atan2. destruct (Rlt_dec 0 x); [|destruct (Rlt_dec x 0); [|destruct (Rlt_dec 0 y); [lra|destruct (Rlt_dec y 0); lra]]].
  - pose proof (atan_bound (y / x)). lra.
  - pose proof (atan_bound (y / x)). destruct (Rle_dec 0 y).
    + assert (atan (y / x) <= 0); [|lra]. rewrite <- atan_0. destruct (Req_dec y 0) as [->|]; [unfold Rdiv; rewrite Rmult_0_l; lra|]. left. apply atan_increasing.
      unfold Rdiv. assert (/ x < 0) by (apply Rinv_lt_0_compat; lra). nra.
    + assert (0 < atan (y / x)); [|lra]. rewrite <- atan_0. apply atan_increasing. unfold Rdiv. assert (/ x < 0) by (apply Rinv_lt_0_compat; lra). nra.
Qed.
(** two angles in (-pi, pi] with the same sine and cosine are equal *)
Lemma angle_unique a b : - PI < a <= PI -> - PI < b <= PI -> cos a = cos b -> sin a = sin b -> a = b.
Proof.
  intros Ha Hb Hc Hs.
  assert (E1 : cos (a - b) = 1) by (rewrite cos_minus, Hc, Hs; pose proof (sin2_cos2 b) as Z; unfold Rsqr in Z; lra).
  assert (E2 : sin (a - b) = 0) by (rewrite sin_minus, Hc, Hs; ring).
  pose proof PI_RGT_0.
  destruct (Rtotal_order (a - b) 0) as [L|[L|L]]; [exfalso| lra|exfalso].
  - (* -2PI < a-b < 0 *)
    assert (S : sin ((a - b) / 2) = 0).
    { assert (F : cos (2 * ((a - b) / 2)) = 1 - 2 * sin ((a - b) / 2) * sin ((a - b) / 2)) by apply cos_2a_sin.
      replace (2 * ((a - b) / 2)) with (a - b) in F by field. rewrite E1 in F. nra. }
    assert (0 < sin (- ((a - b) / 2))) by (apply sin_gt_0; lra). rewrite sin_neg in *. lra.
  - assert (S : sin ((a - b) / 2) = 0).
    { assert (F : cos (2 * ((a - b) / 2)) = 1 - 2 * sin ((a - b) / 2) * sin ((a - b) / 2)) by apply cos_2a_sin.
      replace (2 * ((a - b) / 2)) with (a - b) in F by field. rewrite E1 in F. nra. }
    assert (0 < sin ((a - b) / 2)) by (apply sin_gt_0; lra). lra.
Qed.
Lemma atan2_unique r a : 0 < r -> - PI < a <= PI -> atan2 (r * sin a) (r * cos a) = a.
Proof.
  intros Hr Ha. assert (N : r * cos a <> 0 \/ r * sin a <> 0).
  { destruct (Req_dec (cos a) 0) as [E|E]; [right|left; nra]. pose proof (sin2_cos2 a) as Z. unfold Rsqr in Z. rewrite E in Z. assert (sin a <> 0) by nra. nra. }
  destruct (atan2_polar _ _ N) as (P & C & S).
  assert (E : sqrt (r * cos a * (r * cos a) + r * sin a * (r * sin a)) = r).
  { pose proof (sin2_cos2 a) as Z. unfold Rsqr in Z.
    replace (r * cos a * (r * cos a) + r * sin a * (r * sin a)) with (r * r * (sin a * sin a + cos a * cos a)) by ring. rewrite Z, Rmult_1_r. apply sqrt_square. lra. }
  rewrite E in *. apply angle_unique; [apply atan2_range|exact Ha| |]; apply (Rmult_eq_reg_l r); lra.
Qed.

(** ** elementary rotations *)
Definition Rx (a : R) : M3 := mkM 1 0 0 0 (cos a) (- sin a) 0 (sin a) (cos a).
Definition Ry (a : R) : M3 := mkM (cos a) 0 (sin a) 0 1 0 (- sin a) 0 (cos a).
Definition Rz (a : R) : M3 := mkM (cos a) (- sin a) 0 (sin a) (cos a) 0 0 0 1.
Lemma sc a : sin a * sin a + cos a * cos a = 1. Proof. pose proof (sin2_cos2 a) as Z. unfold Rsqr in Z. exact Z. Qed.
Ltac mats := unfold is_rotation, mmul, mtr, mident, mdet; cbn [m00 m01 m02 m10 m11 m12 m20 m21 m22].
Lemma rot_Rx a : is_rotation (Rx a).
Proof. pose proof (sc a). unfold Rx. mats. split; [f_equal; lra|]. split; [f_equal; lra|lra]. Qed.
Lemma rot_Ry a : is_rotation (Ry a).
Proof. pose proof (sc a). unfold Ry. mats. split; [f_equal; lra|]. split; [f_equal; lra|lra]. Qed.
Lemma rot_Rz a : is_rotation (Rz a).
Proof. pose proof (sc a). unfold Rz. mats. split; [f_equal; lra|]. split; [f_equal; lra|lra]. Qed.
Lemma mmul_ident_l a : mmul mident a = a. Proof. georing. Qed.
Lemma mmul_ident_r a : mmul a mident = a. Proof. georing. Qed.
Lemma mdet_mmul a b : mdet (mmul a b) = mdet a * mdet b. Proof. georing. Qed.
Lemma rot_mul a b : is_rotation a -> is_rotation b -> is_rotation (mmul a b).
Proof.
  intros (A1 & A2 & A3) (B1 & B2 & B3). split; [|split].
  - rewrite mtr_mmul, mmul_assoc, <- (mmul_assoc a b), B1, mmul_ident_r. exact A1.
  - rewrite mtr_mmul, mmul_assoc, <- (mmul_assoc (mtr b)), A2, mmul_ident_r. exact B2.
  - rewrite mdet_mmul, A3, B3. ring.
Qed.
Lemma rot_tr a : is_rotation a -> is_rotation (mtr a).
Proof.
  intros (A1 & A2 & A3). assert (T : mtr (mtr a) = a) by georing. split; [rewrite T; exact A2|]. split; [rewrite T; exact A1|]. rewrite <- A3. georing.
Qed.
Lemma tb312_product yaw roll pitch : taitBryan312ToRotMat yaw roll pitch = mmul (Rz yaw) (mmul (Rx roll) (Ry pitch)).
Proof. unfold taitBryan312ToRotMat, Rz, Rx, Ry. mats. f_equal; ring. Qed.
Lemma dcm321_product roll pitch yaw : dcm321 roll pitch yaw = mmul (Rz yaw) (mmul (Ry pitch) (Rx roll)).
Proof. unfold dcm321, Rz, Rx, Ry. mats. f_equal; ring. Qed.
Lemma inv_rot q : quatToInverseRotMat q = mtr (dcm q). Proof. unfold quatToInverseRotMat. georing. Qed.

(** ** rows of a rotation matrix *)
Lemma rot_eqs r : is_rotation r ->
  (m20 r * m20 r + m21 r * m21 r + m22 r * m22 r = 1) /\
  (m00 r * m00 r + m10 r * m10 r + m20 r * m20 r = 1) /\ (m01 r * m01 r + m11 r * m11 r + m21 r * m21 r = 1).
Proof.
  intros (A & B & _). unfold mmul, mtr, mident in A, B. cbn [m00 m01 m02 m10 m11 m12 m20 m21 m22] in A, B. injection A; injection B; intros. repeat split; lra.
Qed.
Lemma cross_rows r : is_rotation r ->
  (* the first two rows are determined by each other and the third *)
  m00 r = m11 r * m22 r - m12 r * m21 r /\ m01 r = m12 r * m20 r - m10 r * m22 r /\ m02 r = m10 r * m21 r - m11 r * m20 r /\
  m10 r = m02 r * m21 r - m01 r * m22 r /\ m11 r = m00 r * m22 r - m02 r * m20 r /\ m12 r = m01 r * m20 r - m00 r * m21 r.
Proof.
  intros (A & B & D). destruct r as [a b c d e f g h i]. unfold mmul, mtr, mident, mdet in *. cbn [m00 m01 m02 m10 m11 m12 m20 m21 m22] in *.
  injection A as A1 A2 A3 A4 A5 A6 A7 A8 A9. injection B as B1 B2 B3 B4 B5 B6 B7 B8 B9.
  (* adj = transpose *)
  assert (X : forall p, p * 1 = p) by (intros; ring).
  repeat split.
  - assert (a * (a * (e * i - f * h) - b * (d * i - f * g) + c * (d * h - e * g)) = e * i - f * h) by (transitivity ((a*a+d*d+g*g)*(e*i-f*h) + (a*b+d*e+g*h)*(f*g-d*i) + (a*c+d*f+g*i)*(d*h-e*g)); [ring|rewrite B1; replace (a*b+d*e+g*h) with 0 by lra; replace (a*c+d*f+g*i) with 0 by lra; ring]). rewrite D in *. lra.
  - assert (b * (a * (e * i - f * h) - b * (d * i - f * g) + c * (d * h - e * g)) = f * g - d * i) by (transitivity ((a*b+d*e+g*h)*(e*i-f*h) + (b*b+e*e+h*h)*(f*g-d*i) + (b*c+e*f+h*i)*(d*h-e*g)); [ring|rewrite B5; replace (a*b+d*e+g*h) with 0 by lra; replace (b*c+e*f+h*i) with 0 by lra; ring]). rewrite D in *. lra.
  - assert (c * (a * (e * i - f * h) - b * (d * i - f * g) + c * (d * h - e * g)) = d * h - e * g) by (transitivity ((a*c+d*f+g*i)*(e*i-f*h) + (b*c+e*f+h*i)*(f*g-d*i) + (c*c+f*f+i*i)*(d*h-e*g)); [ring|rewrite B9; replace (a*c+d*f+g*i) with 0 by lra; replace (b*c+e*f+h*i) with 0 by lra; ring]). rewrite D in *. lra.
  - assert (d * (a * (e * i - f * h) - b * (d * i - f * g) + c * (d * h - e * g)) = c * h - b * i) by (transitivity ((a*a+d*d+g*g)*(c*h-b*i) + (a*b+d*e+g*h)*(a*i-c*g) + (a*c+d*f+g*i)*(b*g-a*h)); [ring|rewrite B1; replace (a*b+d*e+g*h) with 0 by lra; replace (a*c+d*f+g*i) with 0 by lra; ring]). rewrite D in *. lra.
  - assert (e * (a * (e * i - f * h) - b * (d * i - f * g) + c * (d * h - e * g)) = a * i - c * g) by (transitivity ((a*b+d*e+g*h)*(c*h-b*i) + (b*b+e*e+h*h)*(a*i-c*g) + (b*c+e*f+h*i)*(b*g-a*h)); [ring|rewrite B5; replace (a*b+d*e+g*h) with 0 by lra; replace (b*c+e*f+h*i) with 0 by lra; ring]). rewrite D in *. lra.
  - assert (f * (a * (e * i - f * h) - b * (d * i - f * g) + c * (d * h - e * g)) = b * g - a * h) by (transitivity ((a*c+d*f+g*i)*(c*h-b*i) + (b*c+e*f+h*i)*(a*i-c*g) + (c*c+f*f+i*i)*(b*g-a*h)); [ring|rewrite B9; replace (a*c+d*f+g*i) with 0 by lra; replace (b*c+e*f+h*i) with 0 by lra; ring]). rewrite D in *. lra.
Qed.
(** rotations with the same third row differ by a rotation about the vertical *)
Lemma same_tilt_Rz r r' : is_rotation r -> is_rotation r' -> m20 r' = m20 r -> m21 r' = m21 r -> m22 r' = m22 r ->
  exists d, - PI < d <= PI /\ r' = mmul (Rz d) r.
Proof.
  intros H H' E0 E1 E2.
  pose proof (rot_mul r' (mtr r) H' (rot_tr r H)) as HD. set (D := mmul r' (mtr r)) in *.
  assert (T2 : m20 D = 0 /\ m21 D = 0 /\ m22 D = 1).
  { destruct H as (A & _ & _). unfold D. unfold mmul, mtr, mident in *. cbn [m00 m01 m02 m10 m11 m12 m20 m21 m22] in *. injection A as A1 A2 A3 A4 A5 A6 A7 A8 A9.
    rewrite E0, E1, E2. repeat split; lra. }
  destruct T2 as (T0 & T1 & T2). destruct (cross_rows D HD) as (C1 & C2 & C3 & C4 & C5 & C6). rewrite T0, T1, T2 in *.
  destruct (rot_eqs D HD) as (_ & N & _). rewrite T0 in N.
  assert (NZ : m00 D <> 0 \/ m10 D <> 0) by (destruct (Req_dec (m00 D) 0) as [Z|Z]; [right; rewrite Z in N; nra|left; exact Z]).
  exists (atan2 (m10 D) (m00 D)). split; [apply atan2_range|].
  destruct (atan2_polar (m10 D) (m00 D) NZ) as (P & C & S).
  replace (m00 D * m00 D + m10 D * m10 D) with 1 in * by lra. rewrite sqrt_1 in *.
  assert (ED : D = Rz (atan2 (m10 D) (m00 D))).
  { destruct D as [a b c d e f g h i]. unfold Rz. cbn [m00 m01 m02 m10 m11 m12 m20 m21 m22] in *. f_equal; lra. }
  rewrite <- ED. unfold D. rewrite <- mmul_assoc. destruct H as (_ & B & _). rewrite B, mmul_ident_r. reflexivity.
Qed.
Lemma Rz_keeps_tilt d r : m20 (mmul (Rz d) r) = m20 r /\ m21 (mmul (Rz d) r) = m21 r /\ m22 (mmul (Rz d) r) = m22 r.
Proof. unfold Rz. mats. repeat split; ring. Qed.

(** ** choice of sequence *)
Lemma use321_bound r : is_rotation r -> shouldUse321 r = true -> m20 r * m20 r < 1 / 2.
Proof.
  intros H. unfold shouldUse321. destruct (Rlt_dec _ _) as [L|]; [intros _|discriminate].
  destruct (rot_eqs r H) as (N & _). assert (m20 r * m20 r < m21 r * m21 r).
  { apply Rsqr_lt_abs_1 in L. exact L. } nra.
Qed.
Lemma use312_bound r : is_rotation r -> shouldUse321 r = false -> m21 r * m21 r <= 1 / 2.
Proof.
  intros H. unfold shouldUse321. destruct (Rlt_dec _ _) as [|L]; [discriminate|intros _].
  destruct (rot_eqs r H) as (N & _). assert (m21 r * m21 r <= m20 r * m20 r).
  { apply Rnot_lt_le in L. apply Rsqr_le_abs_1 in L. exact L. } nra.
Qed.
(** gimbal-lock branch of the Euler conversion cannot be reached *)
Lemma euler321_regular r : is_rotation r -> shouldUse321 r = true ->
  euler321 r = mkV (atan2 (m21 r) (m22 r)) (asin (- m20 r)) (atan2 (m10 r) (m00 r)).
Proof.
  intros H HS. pose proof (use321_bound r H HS) as B.
  assert (X : -1 <= - m20 r <= 1) by nra.
  assert (C : cos (asin (- m20 r)) = sqrt (1 - (- m20 r)²)) by (apply cos_asin; exact X).
  assert (Q : 1 / 2 < cos (asin (- m20 r))).
  { rewrite C. unfold Rsqr. rewrite <- (sqrt_square (1 / 2)) by lra. apply sqrt_lt_1; nra. }
  assert (NB : forall s, s = 1 \/ s = -1 -> ~ Rabs (asin (- m20 r) - s * (PI / 2)) < 1 / 1000).
  { intros s Hs A. set (d := asin (- m20 r) - s * (PI / 2)) in *.
    assert (E : cos (asin (- m20 r)) = - s * sin d).
    { replace (asin (- m20 r)) with (d + s * (PI / 2)) by (unfold d; ring). destruct Hs as [-> | ->].
      - rewrite cos_plus. replace (1 * (PI / 2)) with (PI / 2) by ring. rewrite cos_PI2, sin_PI2. ring.
      - rewrite cos_plus. replace (-1 * (PI / 2)) with (- (PI / 2)) by ring. rewrite cos_neg, sin_neg, cos_PI2, sin_PI2. ring. }
    assert (SB : Rabs (sin d) <= 1 / 1000).
    { destruct (Req_dec d 0) as [Z|Z]; [rewrite Z, sin_0, Rabs_R0; lra|].
      assert (W : forall x, 0 < x -> x < 1 / 1000 -> 0 <= sin x <= 1 / 1000).
      { intros x H1 H2. pose proof (sin_lt_x x H1). pose proof PI2_1. assert (0 < sin x) by (apply sin_gt_0; lra). lra. }
      apply Rabs_def2 in A. destruct (Rlt_dec 0 d).
      - destruct (W d); [lra|lra|]. rewrite Rabs_right; lra.
      - destruct (W (- d)); [lra|lra|]. rewrite sin_neg in *. rewrite Rabs_left1; lra. }
    pose proof (Rle_abs (sin d)). pose proof (Rle_abs (- sin d)). rewrite Rabs_Ropp in *. destruct Hs as [-> | ->]; lra. }
  unfold euler321. destruct (Rlt_dec (Rabs (asin (- m20 r) - PI / 2)) (1 / 1000)) as [L|_].
  { exfalso. apply (NB 1 (or_introl eq_refl)). replace (1 * (PI / 2)) with (PI / 2) by ring. exact L. }
  destruct (Rlt_dec (Rabs (asin (- m20 r) + PI / 2)) (1 / 1000)) as [L|_]; [|reflexivity].
  exfalso. apply (NB (-1) (or_intror eq_refl)). replace (asin (- m20 r) - -1 * (PI / 2)) with (asin (- m20 r) + PI / 2) by ring. exact L.
Qed.

(** ** yaw update *)
Lemma rot_321 a b c : is_rotation (dcm321 a b c).
Proof. rewrite dcm321_product. apply rot_mul; [apply rot_Rz|apply rot_mul; [apply rot_Ry|apply rot_Rx]]. Qed.
Lemma rot_312 a b c : is_rotation (taitBryan312ToRotMat a b c).
Proof. rewrite tb312_product. apply rot_mul; [apply rot_Rz|apply rot_mul; [apply rot_Rx|apply rot_Ry]]. Qed.
Lemma upd321 yaw r : is_rotation r -> shouldUse321 r = true ->
  let r' := updateYaw321 yaw r in is_rotation r' /\ m20 r' = m20 r /\ m21 r' = m21 r /\ m22 r' = m22 r /\
  exists c, 0 < c /\ c * c = 1 - m20 r * m20 r /\ m00 r' = c * cos yaw /\ m10 r' = c * sin yaw.
Proof.
  intros H HS. cbv zeta. unfold updateYaw321. rewrite (euler321_regular r H HS). cbn [vx vy].
  pose proof (use321_bound r H HS) as B. assert (X : -1 <= - m20 r <= 1) by nra.
  split; [apply rot_321|]. unfold dcm321. cbn [m00 m10 m20 m21 m22].
  rewrite sin_asin, cos_asin by exact X. unfold Rsqr. replace (1 - - m20 r * - m20 r) with (1 - m20 r * m20 r) by ring.
  set (c := sqrt (1 - m20 r * m20 r)).
  assert (Hc : 0 < c) by (apply sqrt_lt_R0; lra). assert (Cc : c * c = 1 - m20 r * m20 r) by (apply sqrt_sqrt; lra).
  destruct (rot_eqs r H) as (N & _).
  assert (NZ : m22 r <> 0 \/ m21 r <> 0) by (destruct (Req_dec (m22 r) 0) as [Z|Z]; [right; rewrite Z in N; nra|left; exact Z]).
  destruct (atan2_polar (m21 r) (m22 r) NZ) as (P & C & S).
  assert (E : sqrt (m22 r * m22 r + m21 r * m21 r) = c) by (unfold c; f_equal; lra). rewrite E in *.
  split; [ring|]. split; [lra|]. split; [lra|]. exists c. split; [exact Hc|]. split; [exact Cc|]. split; reflexivity.
Qed.
Lemma upd312 yaw r : is_rotation r -> shouldUse321 r = false ->
  let r' := updateYaw312 yaw r in is_rotation r' /\ m20 r' = m20 r /\ m21 r' = m21 r /\ m22 r' = m22 r /\
  exists c, 0 < c /\ c * c = 1 - m21 r * m21 r /\ m11 r' = c * cos yaw /\ - m01 r' = c * sin yaw.
Proof.
  intros H HS. cbv zeta. unfold updateYaw312.
  pose proof (use312_bound r H HS) as B. assert (X : -1 <= m21 r <= 1) by nra.
  split; [apply rot_312|]. unfold taitBryan312ToRotMat. cbn [m00 m01 m10 m11 m20 m21 m22].
  rewrite sin_asin, cos_asin by exact X. unfold Rsqr.
  set (c := sqrt (1 - m21 r * m21 r)).
  assert (Hc : 0 < c) by (apply sqrt_lt_R0; lra). assert (Cc : c * c = 1 - m21 r * m21 r) by (apply sqrt_sqrt; lra).
  destruct (rot_eqs r H) as (N & _).
  assert (NZ : m22 r <> 0 \/ - m20 r <> 0) by (destruct (Req_dec (m22 r) 0) as [Z|Z]; [right; rewrite Z in N; nra|left; exact Z]).
  destruct (atan2_polar (- m20 r) (m22 r) NZ) as (P & C & S).
  assert (E : sqrt (m22 r * m22 r + - m20 r * - m20 r) = c) by (unfold c; f_equal; lra). rewrite E in *.
  split; [lra|]. split; [reflexivity|]. split; [lra|]. exists c. split; [exact Hc|]. split; [exact Cc|]. split; ring.
Qed.
Lemma upd_tilt yaw r : is_rotation r -> let r' := updateYawInRotMat yaw r in
  is_rotation r' /\ m20 r' = m20 r /\ m21 r' = m21 r /\ m22 r' = m22 r.
Proof.
  intros H. unfold updateYawInRotMat. destruct (shouldUse321 r) eqn:E; cbv zeta.
  - destruct (upd321 yaw r H E) as (A & B & C & D & _). repeat split; assumption || apply A.
  - destruct (upd312 yaw r H E) as (A & B & C & D & _). repeat split; assumption || apply A.
Qed.

(** ** quaternion from rotation matrix *)
Definition qneg (q : Q4) : Q4 := mkQ (- q0 q) (- q1 q) (- q2 q) (- q3 q).
Lemma sqrt4 x : sqrt (4 * (x * x)) = 2 * Rabs x.
Proof. replace (4 * (x * x)) with (Rsqr (2 * x)) by (unfold Rsqr; ring). rewrite sqrt_Rsqr_abs, Rabs_mult, (Rabs_right 2) by lra. reflexivity. Qed.
Lemma quatOfDcm_dcm q : qnorm2 q = 1 -> quatOfDcm (dcm q) = q \/ quatOfDcm (dcm q) = qneg q.
Proof.
  intros H. destruct q as [a b c d]. unfold qnorm2 in H. cbn [q0 q1 q2 q3] in H.
  unfold quatOfDcm, dcm, qneg. cbn [q0 q1 q2 q3 m00 m01 m02 m10 m11 m12 m20 m21 m22].
  assert (A1 : 1 + (a ^ 2 + b ^ 2 - c ^ 2 - d ^ 2 + (a ^ 2 - b ^ 2 + c ^ 2 - d ^ 2) + (a ^ 2 - b ^ 2 - c ^ 2 + d ^ 2)) = 4 * (a * a)) by (rewrite <- H; ring).
  assert (A2 : 1 + (a ^ 2 + b ^ 2 - c ^ 2 - d ^ 2) - (a ^ 2 - b ^ 2 + c ^ 2 - d ^ 2) - (a ^ 2 - b ^ 2 - c ^ 2 + d ^ 2) = 4 * (b * b)) by (rewrite <- H; ring).
  assert (A3 : 1 - (a ^ 2 + b ^ 2 - c ^ 2 - d ^ 2) + (a ^ 2 - b ^ 2 + c ^ 2 - d ^ 2) - (a ^ 2 - b ^ 2 - c ^ 2 + d ^ 2) = 4 * (c * c)) by (rewrite <- H; ring).
  assert (A4 : 1 - (a ^ 2 + b ^ 2 - c ^ 2 - d ^ 2) - (a ^ 2 - b ^ 2 + c ^ 2 - d ^ 2) + (a ^ 2 - b ^ 2 - c ^ 2 + d ^ 2) = 4 * (d * d)) by (rewrite <- H; ring).
  rewrite A1, A2, A3, A4, !sqrt4.
  assert (F : forall x y z w, x <> 0 -> 1 / 2 * (2 * Rabs x) = Rabs x /\ 4 * (x * y) * (1 / 2 / (2 * Rabs x)) = y * (x / Rabs x) /\ 4 * (x * z) * (1 / 2 / (2 * Rabs x)) = z * (x / Rabs x) /\ 4 * (x * w) * (1 / 2 / (2 * Rabs x)) = w * (x / Rabs x)).
  { intros x y z w Hx. assert (Rabs x <> 0) by (apply Rabs_no_R0; exact Hx). repeat split; field; assumption. }
  assert (Sg : forall x, x <> 0 -> (Rabs x = x /\ x / Rabs x = 1) \/ (Rabs x = - x /\ x / Rabs x = -1)).
  { intros x Hx. destruct (Rlt_dec 0 x).
    - left. rewrite Rabs_right by lra. split; [reflexivity|field; lra].
    - right. rewrite Rabs_left by lra. split; [reflexivity|field; lra]. }
  destruct (Rlt_dec 0 _) as [L|L].
  { assert (Ha : a <> 0) by nra. destruct (F a b c d Ha) as (F0 & F1 & F2 & F3).
    rewrite F0. replace (2 * (c * d + a * b) - 2 * (c * d - a * b)) with (4 * (a * b)) by ring. replace (2 * (b * d + a * c) - 2 * (b * d - a * c)) with (4 * (a * c)) by ring.
    replace (2 * (b * c + a * d) - 2 * (b * c - a * d)) with (4 * (a * d)) by ring. rewrite F1, F2, F3.
    destruct (Sg a Ha) as [[-> ->]|[-> ->]]; [left|right]; f_equal; ring. }
  assert (La : a ^ 2 <= 1 / 4) by nra.
  destruct (Rlt_dec _ (a ^ 2 + b ^ 2 - c ^ 2 - d ^ 2)) as [L1|L1]; [destruct (Rlt_dec _ (a ^ 2 + b ^ 2 - c ^ 2 - d ^ 2)) as [L2|L2]|]; cbn [andb].
  { assert (Hb : b <> 0) by (intros ->; nra). destruct (F b a c d Hb) as (F0 & F1 & F2 & F3).
    rewrite F0. replace (2 * (c * d + a * b) - 2 * (c * d - a * b)) with (4 * (b * a)) by ring. replace (2 * (b * c + a * d) + 2 * (b * c - a * d)) with (4 * (b * c)) by ring.
    replace (2 * (b * d + a * c) + 2 * (b * d - a * c)) with (4 * (b * d)) by ring. rewrite F1, F2, F3.
    destruct (Sg b Hb) as [[-> ->]|[-> ->]]; [left|right]; f_equal; ring. }
  all: destruct (Rlt_dec _ (a ^ 2 - b ^ 2 + c ^ 2 - d ^ 2)) as [L3|L3].
  all: try (assert (Hc : c <> 0) by (intros ->; nra); destruct (F c a b d Hc) as (F0 & F1 & F2 & F3);
    rewrite F0; replace (2 * (b * d + a * c) - 2 * (b * d - a * c)) with (4 * (c * a)) by ring; replace (2 * (b * c + a * d) + 2 * (b * c - a * d)) with (4 * (c * b)) by ring;
    replace (2 * (c * d + a * b) + 2 * (c * d - a * b)) with (4 * (c * d)) by ring; rewrite F1, F2, F3;
    destruct (Sg c Hc) as [[-> ->]|[-> ->]]; [left|right]; f_equal; ring).
  all: assert (Hd : d <> 0) by (intros ->; nra); destruct (F d a b c Hd) as (F0 & F1 & F2 & F3);
    rewrite F0; replace (2 * (b * c + a * d) - 2 * (b * c - a * d)) with (4 * (d * a)) by ring; replace (2 * (b * d + a * c) + 2 * (b * d - a * c)) with (4 * (d * b)) by ring;
    replace (2 * (c * d + a * b) + 2 * (c * d - a * b)) with (4 * (d * c)) by ring; rewrite F1, F2, F3;
    destruct (Sg d Hd) as [[-> ->]|[-> ->]]; [left|right]; f_equal; ring.
Qed.
Definition qz (a : R) : Q4 := mkQ (cos (a / 2)) 0 0 (sin (a / 2)).
Lemma dcm_qz a : dcm (qz a) = Rz a.
Proof.
  unfold dcm, qz, Rz. cbn [q0 q1 q2 q3]. pose proof (sc (a / 2)) as Z.
  assert (C : cos a = cos (a / 2) * cos (a / 2) - sin (a / 2) * sin (a / 2)) by (replace a with (2 * (a / 2)) at 1 by field; apply cos_2a).
  assert (S : sin a = 2 * sin (a / 2) * cos (a / 2)) by (replace a with (2 * (a / 2)) at 1 by field; apply sin_2a).
  rewrite C, S. f_equal; nra.
Qed.
Lemma qz_unit a : qnorm2 (qz a) = 1. Proof. unfold qnorm2, qz. cbn [q0 q1 q2 q3]. pose proof (sc (a / 2)). nra. Qed.
Lemma dcm_neg q : dcm (qneg q) = dcm q. Proof. unfold qneg. georing. Qed.
Lemma qneg_norm q : qnorm2 (qneg q) = qnorm2 q. Proof. unfold qneg. georing. Qed.

(** the attitude after a yaw reset is the old one premultiplied by a rotation
    about the vertical *)
Lemma yaw_reset yaw q : qnorm2 q = 1 ->
  exists d, - PI < d <= PI /\ (yawResetQuat yaw q = qmul (qz d) q \/ yawResetQuat yaw q = qneg (qmul (qz d) q)) /\
  updateYawInRotMat yaw (dcm q) = mmul (Rz d) (dcm q) /\ dcm (yawResetQuat yaw q) = updateYawInRotMat yaw (dcm q) /\ qnorm2 (yawResetQuat yaw q) = 1.
Proof.
  intros H. pose proof (dcm_rotation q H) as HR. destruct (upd_tilt yaw (dcm q) HR) as (A & B & C & D).
  destruct (same_tilt_Rz _ _ HR A B C D) as (d & Hd & E). exists d. split; [exact Hd|].
  assert (N : qnorm2 (qmul (qz d) q) = 1) by (rewrite qnorm2_mul, qz_unit, H; ring).
  unfold yawResetQuat. rewrite E. rewrite <- dcm_qz, <- dcm_mul.
  destruct (quatOfDcm_dcm _ N) as [-> | ->].
  - split; [left; reflexivity|]. split; [reflexivity|]. split; [reflexivity|exact N].
  - split; [right; reflexivity|]. split; [reflexivity|]. split; [apply dcm_neg|rewrite qneg_norm; exact N].
Qed.
(** a rotation with vertical quaternion change [c q] about z *)
Lemma change_is_vertical yaw q : qnorm2 q = 1 ->
  let c := qmul (yawResetQuat yaw q) (qconj q) in q1 c = 0 /\ q2 c = 0.
Proof.
  intros H. cbv zeta. destruct (yaw_reset yaw q H) as (d & _ & E & _).
  assert (Q : qmul q (qconj q) = qone) by (destruct q as [a b c e]; unfold qmul, qconj, qone, qnorm2 in *; cbn [q0 q1 q2 q3] in *; f_equal; [rewrite <- H|..]; ring).
  destruct E as [-> | ->].
  - rewrite <- qmul_assoc, Q, qmul_1_r. split; reflexivity.
  - assert (X : qmul (qneg (qmul (qz d) q)) (qconj q) = qneg (qmul (qmul (qz d) q) (qconj q))) by (unfold qneg; georing).
    rewrite X, <- qmul_assoc, Q, qmul_1_r. unfold qneg, qz. cbn. split; ring.
Qed.

(** ** heading after the update *)
Definition seq_yaw (r : M3) : R := if shouldUse321 r then yaw321 r else yaw312 r.
Lemma upd_heading yaw r : is_rotation r -> - PI < yaw <= PI ->
  shouldUse321 (updateYawInRotMat yaw r) = shouldUse321 r /\ seq_yaw (updateYawInRotMat yaw r) = yaw.
Proof.
  intros H Hy. destruct (upd_tilt yaw r H) as (_ & B & C & D).
  assert (E : shouldUse321 (updateYawInRotMat yaw r) = shouldUse321 r) by (unfold shouldUse321; rewrite B, C; reflexivity).
  split; [exact E|]. unfold seq_yaw. rewrite E. unfold updateYawInRotMat. destruct (shouldUse321 r) eqn:U.
  - destruct (upd321 yaw r H U) as (_ & _ & _ & _ & c & Hc & _ & M1 & M2). unfold yaw321. rewrite M1, M2. apply atan2_unique; assumption.
  - destruct (upd312 yaw r H U) as (_ & _ & _ & _ & c & Hc & _ & M1 & M2). unfold yaw312. rewrite M1, M2. apply atan2_unique; assumption.
Qed.
Lemma Rz_0_of d r : is_rotation r -> m20 r * m20 r < 1 -> m00 (mmul (Rz d) r) = m00 r -> m10 (mmul (Rz d) r) = m10 r -> Rz d = mident.
Proof.
  intros H L E1 E2. destruct (rot_eqs r H) as (_ & N & _). unfold Rz, mmul in E1, E2. cbn [m00 m01 m02 m10 m11 m12 m20 m21 m22] in E1, E2.
  set (x := m00 r) in *. set (y := m10 r) in *. assert (P : 0 < x * x + y * y) by lra.
  assert (X1 : (cos d - 1) * (x * x + y * y) = 0).
  { transitivity (x * (cos d * x + - sin d * y + 0 * m20 r - x) + y * (sin d * x + cos d * y + 0 * m20 r - y)); [ring|]. rewrite E1, E2. ring. }
  assert (X2 : sin d * (x * x + y * y) = 0).
  { transitivity (x * (sin d * x + cos d * y + 0 * m20 r - y) - y * (cos d * x + - sin d * y + 0 * m20 r - x)); [ring|]. rewrite E1, E2. ring. }
  assert (cos d = 1) by (apply Rmult_integral in X1; lra). assert (sin d = 0) by (apply Rmult_integral in X2; lra).
  unfold Rz, mident. f_equal; lra.
Qed.
Lemma Rz_0_of' d r : is_rotation r -> m21 r * m21 r < 1 -> m01 (mmul (Rz d) r) = m01 r -> m11 (mmul (Rz d) r) = m11 r -> Rz d = mident.
Proof.
  intros H L E1 E2. destruct (rot_eqs r H) as (_ & _ & N). unfold Rz, mmul in E1, E2. cbn [m00 m01 m02 m10 m11 m12 m20 m21 m22] in E1, E2.
  set (x := m01 r) in *. set (y := m11 r) in *. assert (P : 0 < x * x + y * y) by lra.
  assert (X1 : (cos d - 1) * (x * x + y * y) = 0).
  { transitivity (x * (cos d * x + - sin d * y + 0 * m21 r - x) + y * (sin d * x + cos d * y + 0 * m21 r - y)); [ring|]. rewrite E1, E2. ring. }
  assert (X2 : sin d * (x * x + y * y) = 0).
  { transitivity (x * (sin d * x + cos d * y + 0 * m21 r - y) - y * (cos d * x + - sin d * y + 0 * m21 r - x)); [ring|]. rewrite E1, E2. ring. }
  assert (cos d = 1) by (apply Rmult_integral in X1; lra). assert (sin d = 0) by (apply Rmult_integral in X2; lra).
  unfold Rz, mident. f_equal; lra.
Qed.
(** setting the yaw the matrix already has changes nothing *)
Lemma upd_same r : is_rotation r -> updateYawInRotMat (seq_yaw r) r = r.
Proof.
  intros H. destruct (upd_tilt (seq_yaw r) r H) as (A & B & C & D). destruct (same_tilt_Rz _ _ H A B C D) as (d & _ & E).
  assert (Z : Rz d = mident).
  { destruct (rot_eqs r H) as (N0 & N1 & N2). destruct (shouldUse321 r) eqn:U.
    - pose proof (use321_bound r H U). apply (Rz_0_of d r H); [lra| |].
      + rewrite <- E. unfold updateYawInRotMat, seq_yaw. rewrite U. destruct (upd321 (yaw321 r) r H U) as (_ & _ & _ & _ & c & Hc & Cc & M1 & M2). rewrite M1. unfold yaw321.
        assert (NZ : m00 r <> 0 \/ m10 r <> 0) by (destruct (Req_dec (m00 r) 0) as [Q|Q]; [right; rewrite Q in N1; nra|left; exact Q]).
        destruct (atan2_polar (m10 r) (m00 r) NZ) as (_ & P1 & P2). assert (W : sqrt (m00 r * m00 r + m10 r * m10 r) = c) by (rewrite <- (sqrt_square c) by lra; f_equal; lra). rewrite W in *. exact P1.
      + rewrite <- E. unfold updateYawInRotMat, seq_yaw. rewrite U. destruct (upd321 (yaw321 r) r H U) as (_ & _ & _ & _ & c & Hc & Cc & M1 & M2). rewrite M2. unfold yaw321.
        assert (NZ : m00 r <> 0 \/ m10 r <> 0) by (destruct (Req_dec (m00 r) 0) as [Q|Q]; [right; rewrite Q in N1; nra|left; exact Q]).
        destruct (atan2_polar (m10 r) (m00 r) NZ) as (_ & P1 & P2). assert (W : sqrt (m00 r * m00 r + m10 r * m10 r) = c) by (rewrite <- (sqrt_square c) by lra; f_equal; lra). rewrite W in *. exact P2.
    - pose proof (use312_bound r H U).
      assert (NZ : m11 r <> 0 \/ - m01 r <> 0) by (destruct (Req_dec (m11 r) 0) as [Q|Q]; [right; rewrite Q in N2; nra|left; exact Q]).
      destruct (upd312 (yaw312 r) r H U) as (_ & _ & _ & _ & c & Hc & Cc & M1 & M2).
      destruct (atan2_polar (- m01 r) (m11 r) NZ) as (_ & P1 & P2). assert (W : sqrt (m11 r * m11 r + - m01 r * - m01 r) = c) by (rewrite <- (sqrt_square c) by lra; f_equal; lra). rewrite W in *.
      apply (Rz_0_of' d r H); [lra| |]; rewrite <- E; unfold updateYawInRotMat, seq_yaw; rewrite U.
      + fold (yaw312 r) in P1, P2. lra.
      + fold (yaw312 r) in P1, P2. lra. }
  rewrite E, Z. apply mmul_ident_l.
Qed.
Lemma yaw_overloads q : yaw321_q q = yaw321 (dcm q) /\ yaw312_q q = yaw312 (dcm q).
Proof. unfold yaw321_q, yaw321, yaw312_q, yaw312, dcm. cbn [m00 m01 m10 m11]. split; f_equal; ring. Qed.

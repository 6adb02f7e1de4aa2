(** * Attitude covariance from rotation-vector variances, yaw variance, wind covariance

    ekf_helper.cpp l.1027-1170, 1353-1392; covariance.cpp l.46-98, 1042-1050.  Over the
    reals: the formulas use acos, sin, cos and powf(x, 1.5). *)
From Coq Require Import Reals Lra Psatz Ratan.
From Coquelicot Require Import Coquelicot.
From Verif Require Import CBase Scalar RealGeom CovSpec PsdLib CovModel CovProofs CovProofsR.
Open Scope R_scope.

(** powf(x, 1.5) *)
Definition pow15 (x : R) : R := Rpower x (3 / 2).
(** quaternion with non-negative real part, l.1032-1043, l.1077-1088 *)
Definition posq (x : Vec R) (i : nat) : R := if Rle_dec 0 (x 0%nat) then x i else - x i.
(** the rotation vector of the attitude, l.1089-1093 *)
Definition rotvec (x : Vec R) (k : nat) : R :=
  let q := posq x in
  let delta := 2 * acos (q 0%nat) in
  let scaler := delta / sin (delta * (1 / 2)) in
  scaler * q (S k).
(** initialiseQuatCovariances, l.1073-1170; v: rot_vec_var *)
Definition initQuatCov (x : Vec R) (v : nat -> R) (M : Mat R) : Mat R :=
  let rotX := rotvec x 0 in let rotY := rotvec x 1 in let rotZ := rotvec x 2 in
  let t2 := rotX * rotX in let t4 := rotY * rotY in let t5 := rotZ * rotZ in
  let t6 := t2 + t4 + t5 in
  if Rlt_dec (1 / 1000000000) t6 then
    let t7 := sqrt t6 in let t8 := t7 * (1 / 2) in let t3 := sin t8 in let t9 := t3 * t3 in
    let t10 := 1 / t6 in let t11 := 1 / sqrt t6 in let t12 := cos t8 in let t13 := 1 / pow15 t6 in
    let t14 := t3 * t11 in
    let t15 := rotX * rotY * t3 * t13 in let t16 := rotX * rotZ * t3 * t13 in let t17 := rotY * rotZ * t3 * t13 in
    let t18 := t2 * t10 * t12 * (1 / 2) in let t27 := t2 * t3 * t13 in let t19 := t14 + t18 - t27 in
    let t23 := rotX * rotY * t10 * t12 * (1 / 2) in let t28 := t15 - t23 in
    let t20 := rotY * v 1%nat * t3 * t11 * t28 * (1 / 2) in
    let t25 := rotX * rotZ * t10 * t12 * (1 / 2) in let t31 := t16 - t25 in
    let t21 := rotZ * v 2%nat * t3 * t11 * t31 * (1 / 2) in
    let t22 := t20 + t21 - rotX * v 0%nat * t3 * t11 * t19 * (1 / 2) in
    let t24 := t15 - t23 in let t26 := t16 - t25 in
    let t29 := t4 * t10 * t12 * (1 / 2) in let t34 := t3 * t4 * t13 in let t30 := t14 + t29 - t34 in
    let t32 := t5 * t10 * t12 * (1 / 2) in let t40 := t3 * t5 * t13 in let t33 := t14 + t32 - t40 in
    let t36 := rotY * rotZ * t10 * t12 * (1 / 2) in let t39 := t17 - t36 in
    let t35 := rotZ * v 2%nat * t3 * t11 * t39 * (1 / 2) in
    let t37 := t15 - t23 in let t38 := t17 - t36 in
    let t41 := v 0%nat * (t15 - t23) * (t16 - t25) in
    let t42 := t41 - v 1%nat * t30 * t39 - v 2%nat * t33 * t39 in
    let t43 := t16 - t25 in let t44 := t17 - t36 in
    let M0 := uncorrelateSet 2 2 (fun _ => 0) (uncorrelateSet 2 0 (fun _ => 0) M) in
    let B := [
      v 0%nat * t2 * t9 * t10 * (1 / 4) + v 1%nat * t4 * t9 * t10 * (1 / 4) + v 2%nat * t5 * t9 * t10 * (1 / 4);
      t22;
      t35 + rotX * v 0%nat * t3 * t11 * (t15 - rotX * rotY * t10 * t12 * (1 / 2)) * (1 / 2) - rotY * v 1%nat * t3 * t11 * t30 * (1 / 2);
      rotX * v 0%nat * t3 * t11 * (t16 - rotX * rotZ * t10 * t12 * (1 / 2)) * (1 / 2)
        + rotY * v 1%nat * t3 * t11 * (t17 - rotY * rotZ * t10 * t12 * (1 / 2)) * (1 / 2) - rotZ * v 2%nat * t3 * t11 * t33 * (1 / 2);
      t22;
      v 0%nat * (t19 * t19) + v 1%nat * (t24 * t24) + v 2%nat * (t26 * t26);
      v 2%nat * (t16 - t25) * (t17 - rotY * rotZ * t10 * t12 * (1 / 2)) - v 0%nat * t19 * t28 - v 1%nat * t28 * t30;
      v 1%nat * (t15 - t23) * (t17 - rotY * rotZ * t10 * t12 * (1 / 2)) - v 0%nat * t19 * t31 - v 2%nat * t31 * t33;
      t35 - rotY * v 1%nat * t3 * t11 * t30 * (1 / 2) + rotX * v 0%nat * t3 * t11 * (t15 - t23) * (1 / 2);
      v 2%nat * (t16 - t25) * (t17 - t36) - v 0%nat * t19 * t28 - v 1%nat * t28 * t30;
      v 1%nat * (t30 * t30) + v 0%nat * (t37 * t37) + v 2%nat * (t38 * t38);
      t42;
      rotZ * v 2%nat * t3 * t11 * t33 * (- (1 / 2)) + rotX * v 0%nat * t3 * t11 * (t16 - t25) * (1 / 2) + rotY * v 1%nat * t3 * t11 * (t17 - t36) * (1 / 2);
      v 1%nat * (t15 - t23) * (t17 - t36) - v 0%nat * t19 * t31 - v 2%nat * t31 * t33;
      t42;
      v 2%nat * (t33 * t33) + v 0%nat * (t43 * t43) + v 1%nat * (t44 * t44) ] in
    fun i j => if (i <? 4)%nat && (j <? 4)%nat then nth (4 * i + j) B 0 else M0 i j
  else uncorrelateSet 3 1 (fun k => 1 / 4 * v k) (uncorrelateSet 1 0 (fun _ => 0) M).

(** calcRotVecVariances, l.1027-1069, component k *)
Definition rotVecVar (x : Vec R) (M : Mat R) (k : nat) : R :=
  let q := posq x in
  let t2 := q 0%nat * q 0%nat in let t3 := acos (q 0%nat) in let t4 := - t2 + 1 in let t5 := t2 - 1 in
  let i := S k in
  if Rlt_dec (1 / 1000000000) t4 then if Rlt_dec t5 (- (1 / 1000000000)) then
    let t6 := 1 / t5 in let t8 := 1 / pow15 t4 in let t11 := 1 / sqrt t4 in
    let t10 := q i * t6 * 2 + q 0%nat * q i * t3 * t8 * 2 in
    t10 * (M 0%nat 0%nat * t10 + M i 0%nat * t3 * t11 * 2) + t3 * t11 * (M 0%nat i * t10 + M i i * t3 * t11 * 2) * 2
  else 4 * M i i else 4 * M i i.

(** increaseQuatYawErrVariance, l.1353-1392 *)
Section Y.
Context {T : Type} {S : Scalar T}.
Open Scope nat_scope.
Open Scope scal_scope.
Definition yawSQ (x : Vec T) (k : nat) : T :=
  let two := slit 2 1 in
  let SG0 := sq (x 0%nat) - sq (x 1%nat) - sq (x 2%nat) + sq (x 3%nat) in
  let SG1 := two * x 0%nat * x 2%nat - two * x 1%nat * x 3%nat in
  let SG2 := two * x 0%nat * x 1%nat + two * x 2%nat * x 3%nat in
  match k with
  | 0%nat => slit 1 2 * (x 1%nat * SG0 - x 0%nat * SG2 + x 3%nat * SG1)
  | 1%nat => slit 1 2 * (x 0%nat * SG1 - x 2%nat * SG0 + x 3%nat * SG2)
  | 2%nat => slit 1 2 * (x 3%nat * SG0 - x 1%nat * SG1 + x 2%nat * SG2)
  | _ => slit 1 2 * (x 0%nat * SG0 + x 1%nat * SG2 + x 2%nat * SG1)
  end.
(** fminf(yaw_variance, 1.0e-2f) is modelled as: the smaller of the two.  Each
    statement P(r,c) += v or -= v touches its own element once, so the
    sixteen statements are written as a table *)
Definition increaseYawVar (x : Vec T) (yaw_variance : T) (M : Mat T) : Mat T :=
  let w := if slt (slit 1 100) yaw_variance then slit 1 100 else yaw_variance in
  let Q := yawSQ x in
  fun r c => match r, c with
  | 0, 0 => M 0 0 + w * sq (Q 2)
  | 0, 1 => M 0 1 + w * Q 1 * Q 2
  | 1, 1 => M 1 1 + w * sq (Q 1)
  | 0, 2 => M 0 2 + w * Q 0 * Q 2
  | 1, 2 => M 1 2 + w * Q 0 * Q 1
  | 2, 2 => M 2 2 + w * sq (Q 0)
  | 0, 3 => M 0 3 - w * Q 2 * Q 3
  | 1, 3 => M 1 3 - w * Q 1 * Q 3
  | 2, 3 => M 2 3 - w * Q 0 * Q 3
  | 3, 3 => M 3 3 + w * sq (Q 3)
  | 1, 0 => M 1 0 + w * Q 1 * Q 2
  | 2, 0 => M 2 0 + w * Q 0 * Q 2
  | 2, 1 => M 2 1 + w * Q 0 * Q 1
  | 3, 0 => M 3 0 - w * Q 2 * Q 3
  | 3, 1 => M 3 1 - w * Q 1 * Q 3
  | 3, 2 => M 3 2 - w * Q 0 * Q 3
  | _, _ => M r c
  end.
End Y.

(** ** Specification *)
(** quaternion of a rotation vector *)
Definition qrot (r : nat -> R) (i : nat) : R :=
  let n := sqrt (r 0%nat * r 0%nat + r 1%nat * r 1%nat + r 2%nat * r 2%nat) in
  match i with O => cos (n / 2) | S k => r k * sin (n / 2) / n end.
(** rotation vector component k+1 of a unit quaternion (q0 >= 0), as a function of q0 and that component *)
Definition rvec (q0 qi : R) : R := 2 * acos q0 / sqrt (1 - q0 * q0) * qi.
(** attitude after a rotation by angle t about the earth vertical axis *)
Definition yaw_rotated (q : Q4) (t : R) : Q4 := qmul (mkQ (cos (t / 2)) 0 0 (sin (t / 2))) q.
Definition unit_quat (x : Vec R) : Prop := x 0%nat ^ 2 + x 1%nat ^ 2 + x 2%nat ^ 2 + x 3%nat ^ 2 = 1.

(** ** Proofs *)
Lemma pow15_eq x : 0 < x -> pow15 x = x * sqrt x.
Proof.
  intros H. unfold pow15. replace (3 / 2) with (1 + / 2) by lra. rewrite Rpower_plus, Rpower_1, Rpower_sqrt by exact H. reflexivity.
Qed.
Lemma posq_unit x : unit_quat x -> unit_quat (posq x).
Proof. unfold unit_quat, posq. intros H. destruct (Rle_dec _ _); [exact H|]. rewrite <- H. ring. Qed.
Lemma posq_nonneg x : 0 <= posq x 0%nat.
Proof. unfold posq. destruct (Rle_dec _ _); lra. Qed.

(** explicit Jacobian of qrot *)
Definition Jq (r : nat -> R) (i k : nat) : R :=
  let n := sqrt (r 0%nat * r 0%nat + r 1%nat * r 1%nat + r 2%nat * r 2%nat) in
  let s := sin (n / 2) in let c := cos (n / 2) in
  match i with
  | O => - r k * s * (/ n) / 2
  | S m => (if (m =? k)%nat then s * / n else 0) + r m * r k * (c * (/ n * / n) / 2 - s * (/ n * / n * / n))
  end.
Ltac der := auto_derive; [repeat split; auto; try lra; try (apply Rgt_not_eq; apply sqrt_lt_R0; lra) | ].
Section J.
Variables a b d : R.
Let n2 := a * a + b * b + d * d.
Hypothesis Hn : 0 < n2.
Lemma dn1 : is_derive (fun t => sqrt (t * t + b * b + d * d)) a (a * / sqrt n2).
Proof. auto_derive; [fold n2; auto|]. fold n2. assert (sqrt n2 <> 0) by (apply Rgt_not_eq, sqrt_lt_R0; exact Hn). field. assumption. Qed.
End J.
Lemma qrot_general (N : R -> R) (x dN s0 : R) : is_derive N x dN -> 0 < N x ->
  is_derive (fun t => cos (N t / 2)) x (- sin (N x / 2) * dN / 2) /\
  (is_derive (fun t => s0 * sin (N t / 2) / N t) x (s0 * (cos (N x / 2) * / N x / 2 - sin (N x / 2) * (/ N x * / N x)) * dN)) /\
  (is_derive (fun t => t * sin (N t / 2) / N t) x (sin (N x / 2) * / N x + x * (cos (N x / 2) * / N x / 2 - sin (N x / 2) * (/ N x * / N x)) * dN)).
Proof.
  intros HN Hp. assert (Ex : ex_derive N x) by (exists dN; exact HN). pose proof (is_derive_unique _ _ _ HN) as U. change (Derive (fun x : R => N x) x = dN) in U.
  split; [|split]; (auto_derive; [repeat split; auto; try lra|]; rewrite U; change (N x * / 2) with (N x / 2); field; lra).
Qed.
Lemma Jq_ok r i k : (i < 4)%nat -> (k < 3)%nat -> 0 < r 0%nat * r 0%nat + r 1%nat * r 1%nat + r 2%nat * r 2%nat ->
  is_derive (fun t => qrot (upd r k t) i) (r k) (Jq r i k).
Proof.
  intros Hi Hk Hn. unfold qrot, Jq. set (n := sqrt (r 0%nat * r 0%nat + r 1%nat * r 1%nat + r 2%nat * r 2%nat)).
  assert (Hs : 0 < n) by (apply sqrt_lt_R0; exact Hn).
  set (N := fun t => sqrt (upd r k t 0%nat * upd r k t 0%nat + upd r k t 1%nat * upd r k t 1%nat + upd r k t 2%nat * upd r k t 2%nat)).
  assert (Nx : N (r k) = n).
  { unfold N, n. do 3 (destruct k as [|k]; [reflexivity|]). lia. }
  assert (HN : is_derive N (r k) (r k * / n)).
  { unfold N, upd. destruct k as [|[|[|k]]]; cbn [Nat.eqb]; [| | |lia].
    - apply (dn1 (r 0%nat) (r 1%nat) (r 2%nat)). exact Hn.
    - apply (is_derive_ext (fun t => sqrt (t * t + r 0%nat * r 0%nat + r 2%nat * r 2%nat))); [intros t; f_equal; ring|].
      unfold n. replace (r 0%nat * r 0%nat + r 1%nat * r 1%nat + r 2%nat * r 2%nat) with (r 1%nat * r 1%nat + r 0%nat * r 0%nat + r 2%nat * r 2%nat) in * by ring.
      apply dn1. exact Hn.
    - apply (is_derive_ext (fun t => sqrt (t * t + r 0%nat * r 0%nat + r 1%nat * r 1%nat))); [intros t; f_equal; ring|].
      unfold n. replace (r 0%nat * r 0%nat + r 1%nat * r 1%nat + r 2%nat * r 2%nat) with (r 2%nat * r 2%nat + r 0%nat * r 0%nat + r 1%nat * r 1%nat) in * by ring.
      apply dn1. exact Hn. }
  destruct i as [|m].
  - destruct (qrot_general N (r k) _ 0 HN ltac:(lra)) as (A & _). rewrite Nx in A.
    apply (is_derive_ext (fun t => cos (N t / 2))); [reflexivity|]. replace (- r k * sin (n / 2) * / n / 2) with (- sin (n / 2) * (r k * / n) / 2) by (field; lra). exact A.
  - destruct (qrot_general N (r k) _ (r m) HN ltac:(lra)) as (_ & A & B). rewrite Nx in A, B. destruct (Nat.eqb_spec m k) as [->|Ne].
    + apply (is_derive_ext (fun t => t * sin (N t / 2) / N t)); [intros t; unfold N; change (upd r k t k) with (if (k =? k)%nat then t else r k); rewrite Nat.eqb_refl; reflexivity|].
      match type of B with is_derive _ _ ?l => replace (sin (n / 2) * / n + r k * r k * (cos (n / 2) * (/ n * / n) / 2 - sin (n / 2) * (/ n * / n * / n))) with l by (field; lra) end. exact B.
    + apply (is_derive_ext (fun t => r m * sin (N t / 2) / N t)).
      { intros t. unfold N. change (upd r k t m) with (if (m =? k)%nat then t else r m). apply Nat.eqb_neq in Ne. rewrite Ne. reflexivity. }
      match type of A with is_derive _ _ ?l => replace (0 + r m * r k * (cos (n / 2) * (/ n * / n) / 2 - sin (n / 2) * (/ n * / n * / n))) with l by (field; lra) end. exact A.
Qed.

(** the rotation vector is the one of the attitude quaternion *)
Lemma rotvec_norm x : unit_quat x -> posq x 0%nat < 1 ->
  rotvec x 0 * rotvec x 0 + rotvec x 1 * rotvec x 1 + rotvec x 2 * rotvec x 2 = (2 * acos (posq x 0%nat)) ^ 2 /\
  0 < acos (posq x 0%nat) /\ sin (acos (posq x 0%nat)) = sqrt (1 - posq x 0%nat ^ 2) /\ 0 < sqrt (1 - posq x 0%nat ^ 2).
Proof.
  intros HU Hlt. pose proof (posq_unit x HU) as U. pose proof (posq_nonneg x) as P0. unfold unit_quat in U.
  set (q := posq x) in *.
  assert (SA : sin (acos (q 0%nat)) = sqrt (1 - q 0%nat ^ 2)).
  { rewrite sin_acos by lra. f_equal. unfold Rsqr. ring. }
  assert (SP : 0 < 1 - q 0%nat ^ 2) by nra.
  assert (SQ : 0 < sqrt (1 - q 0%nat ^ 2)) by (apply sqrt_lt_R0; exact SP).
  assert (SS : sqrt (1 - q 0%nat ^ 2) * sqrt (1 - q 0%nat ^ 2) = 1 - q 0%nat ^ 2) by (apply sqrt_sqrt; lra).
  repeat apply conj; [|apply acos_bound_lt; lra|exact SA|exact SQ].
  unfold rotvec. cbv zeta. fold q. replace (2 * acos (q 0%nat) * (1 / 2)) with (acos (q 0%nat)) by field. rewrite SA.
  set (sg := sqrt _) in *. set (al := acos _).
  transitivity ((2 * al) ^ 2 / (sg * sg) * (q 1%nat ^ 2 + q 2%nat ^ 2 + q 3%nat ^ 2)); [field; lra|].
  replace (q 1%nat ^ 2 + q 2%nat ^ 2 + q 3%nat ^ 2) with (1 - q 0%nat ^ 2) by lra. rewrite SS. field. lra.
Qed.
Lemma qrot_rotvec x i : unit_quat x -> posq x 0%nat < 1 -> (i < 4)%nat -> qrot (rotvec x) i = posq x i.
Proof.
  intros HU Hlt Hi. destruct (rotvec_norm x HU Hlt) as (A & B & C & D). pose proof (posq_nonneg x) as P0.
  unfold qrot. rewrite A. rewrite <- Rsqr_pow2, sqrt_Rsqr by lra. replace (2 * acos (posq x 0%nat) / 2) with (acos (posq x 0%nat)) by field.
  rewrite C. destruct i as [|k]; [apply cos_acos; lra|].
  unfold rotvec. cbv zeta. replace (2 * acos (posq x 0%nat) * (1 / 2)) with (acos (posq x 0%nat)) by field. rewrite C. field. lra.
Qed.
Lemma rotvec_small x : unit_quat x -> posq x 0%nat = 1 -> forall k, (k < 3)%nat -> rotvec x k = 0.
Proof. intros HU H k Hk. unfold rotvec. cbv zeta. rewrite H, acos_1. unfold Rdiv. ring. Qed.

(** the attitude block is J diag(v) J' *)
Lemma initQuat_block x v M i j : (i < 4)%nat -> (j < 4)%nat ->
  1 / 1000000000 < rotvec x 0 * rotvec x 0 + rotvec x 1 * rotvec x 1 + rotvec x 2 * rotvec x 2 ->
  initQuatCov x v M i j = rsum 3 (fun k => Jq (rotvec x) i k * v k * Jq (rotvec x) j k).
Proof.
  intros Hi Hj Hn. unfold initQuatCov. cbv zeta. destruct (Rlt_dec _ _) as [_|N]; [|contradiction].
  assert (i <? 4 = true)%nat as -> by (apply Nat.ltb_lt; exact Hi). assert (j <? 4 = true)%nat as -> by (apply Nat.ltb_lt; exact Hj). cbn [andb].
  unfold Jq. cbv zeta.
  set (r := rotvec x) in *. clearbody r.
  set (t6 := r 0%nat * r 0%nat + r 1%nat * r 1%nat + r 2%nat * r 2%nat) in *. rewrite pow15_eq by lra.
  assert (Hs : 0 < sqrt t6) by (apply sqrt_lt_R0; lra).
  assert (Hss : t6 = sqrt t6 * sqrt t6) by (symmetry; apply sqrt_sqrt; lra).
  replace (sqrt t6 * (1 / 2)) with (sqrt t6 / 2) by field.
  set (n := sqrt t6) in *. set (sn := sin (n / 2)). set (cs := cos (n / 2)).
  rewrite Hss. clearbody n sn cs t6. replace (1 / (n * n)) with (/ n * / n) by (field; lra). replace (1 / (n * n * n)) with (/ n * / n * / n) by (field; lra).
  replace (1 / n) with (/ n) by (field; lra). set (w := / n). clearbody w. clear Hss Hs Hn.
  do 4 (destruct i as [|i]; [do 4 (destruct j as [|j]; [cbn [Nat.mul Nat.add nth rsum Nat.eqb]; field|]); lia|]); lia.
Qed.

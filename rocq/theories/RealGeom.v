(** * Exact geometry: 3-vectors, quaternions, rotation matrices over R

    Meaning given to the PX4-Matrix operations the code calls (the library
    itself is not part of /repo): Quaternion product, inverse, Dcm(Quaternion),
    matrix-vector product.  Scalars are exact reals. *)
From Coq Require Import Reals Lra List.
Import ListNotations.
Open Scope R_scope.

Record V3 := mkV { vx : R; vy : R; vz : R }.
Record Q4 := mkQ { q0 : R; q1 : R; q2 : R; q3 : R }.
Record M3 := mkM { m00 : R; m01 : R; m02 : R; m10 : R; m11 : R; m12 : R; m20 : R; m21 : R; m22 : R }.

Definition vzero := mkV 0 0 0.
Definition vadd a b := mkV (vx a + vx b) (vy a + vy b) (vz a + vz b).
Definition vsub a b := mkV (vx a - vx b) (vy a - vy b) (vz a - vz b).
Definition vscale k a := mkV (k * vx a) (k * vy a) (k * vz a).
Definition vneg a := mkV (- vx a) (- vy a) (- vz a).
Definition vdot a b := vx a * vx b + vy a * vy b + vz a * vz b.
Definition vnorm2 a := vdot a a.
Definition cross a b := mkV (vy a * vz b - vz a * vy b) (vz a * vx b - vx a * vz b) (vx a * vy b - vy a * vx b).

Definition qone := mkQ 1 0 0 0.
(** Hamilton product *)
Definition qmul p q := mkQ
  (q0 p * q0 q - q1 p * q1 q - q2 p * q2 q - q3 p * q3 q)
  (q0 p * q1 q + q1 p * q0 q + q2 p * q3 q - q3 p * q2 q)
  (q0 p * q2 q - q1 p * q3 q + q2 p * q0 q + q3 p * q1 q)
  (q0 p * q3 q + q1 p * q2 q - q2 p * q1 q + q3 p * q0 q).
Definition qconj p := mkQ (q0 p) (- q1 p) (- q2 p) (- q3 p).
Definition qnorm2 p := q0 p ^ 2 + q1 p ^ 2 + q2 p ^ 2 + q3 p ^ 2.
Definition qscale k p := mkQ (k * q0 p) (k * q1 p) (k * q2 p) (k * q3 p).
Definition qinv p := qscale (/ qnorm2 p) (qconj p).
Definition qnormalize p := qscale (/ sqrt (qnorm2 p)) p.
(** Quaternion(AxisAngle v) *)
Definition qexp (v : V3) : Q4 :=
  let a := sqrt (vnorm2 v) in
  if Rlt_dec a (1 / 10 ^ 10) then qone
  else mkQ (cos (a / 2)) (vx v / a * sin (a / 2)) (vy v / a * sin (a / 2)) (vz v / a * sin (a / 2)).

Definition mident := mkM 1 0 0 0 1 0 0 0 1.
Definition mmul a b := mkM
  (m00 a * m00 b + m01 a * m10 b + m02 a * m20 b) (m00 a * m01 b + m01 a * m11 b + m02 a * m21 b) (m00 a * m02 b + m01 a * m12 b + m02 a * m22 b)
  (m10 a * m00 b + m11 a * m10 b + m12 a * m20 b) (m10 a * m01 b + m11 a * m11 b + m12 a * m21 b) (m10 a * m02 b + m11 a * m12 b + m12 a * m22 b)
  (m20 a * m00 b + m21 a * m10 b + m22 a * m20 b) (m20 a * m01 b + m21 a * m11 b + m22 a * m21 b) (m20 a * m02 b + m21 a * m12 b + m22 a * m22 b).
Definition mtr a := mkM (m00 a) (m10 a) (m20 a) (m01 a) (m11 a) (m21 a) (m02 a) (m12 a) (m22 a).
Definition mdet a := m00 a * (m11 a * m22 a - m12 a * m21 a) - m01 a * (m10 a * m22 a - m12 a * m20 a)
                     + m02 a * (m10 a * m21 a - m11 a * m20 a).
Definition mapp a v := mkV (m00 a * vx v + m01 a * vy v + m02 a * vz v)
                           (m10 a * vx v + m11 a * vy v + m12 a * vz v)
                           (m20 a * vx v + m21 a * vy v + m22 a * vz v).
(** Dcm(Quaternion): maps body vectors to earth vectors for q from body to earth *)
Definition dcm q := mkM
  (q0 q ^ 2 + q1 q ^ 2 - q2 q ^ 2 - q3 q ^ 2) (2 * (q1 q * q2 q - q0 q * q3 q)) (2 * (q1 q * q3 q + q0 q * q2 q))
  (2 * (q1 q * q2 q + q0 q * q3 q)) (q0 q ^ 2 - q1 q ^ 2 + q2 q ^ 2 - q3 q ^ 2) (2 * (q2 q * q3 q - q0 q * q1 q))
  (2 * (q1 q * q3 q - q0 q * q2 q)) (2 * (q2 q * q3 q + q0 q * q1 q)) (q0 q ^ 2 - q1 q ^ 2 - q2 q ^ 2 + q3 q ^ 2).

(** proper rotation matrices *)
Definition is_rotation (m : M3) : Prop := mmul m (mtr m) = mident /\ mmul (mtr m) m = mident /\ mdet m = 1.

Ltac geo := repeat match goal with x : V3 |- _ => destruct x | x : Q4 |- _ => destruct x | x : M3 |- _ => destruct x end;
  unfold vadd, vsub, vscale, vneg, vzero, vnorm2, vdot, cross, qmul, qconj, qscale, qone, mmul, mtr, mapp, dcm, mident, mdet, qnorm2 in *;
  cbn [vx vy vz q0 q1 q2 q3 m00 m01 m02 m10 m11 m12 m20 m21 m22] in *.
Ltac georing := geo; try (f_equal; ring); try ring.

Lemma qmul_assoc a b c : qmul a (qmul b c) = qmul (qmul a b) c. Proof. georing. Qed.
Lemma qmul_1_l a : qmul qone a = a. Proof. georing. Qed.
Lemma qmul_1_r a : qmul a qone = a. Proof. georing. Qed.
Lemma qnorm2_mul a b : qnorm2 (qmul a b) = qnorm2 a * qnorm2 b. Proof. georing. Qed.
Lemma qnorm2_conj a : qnorm2 (qconj a) = qnorm2 a. Proof. georing. Qed.
Lemma dcm_mul a b : dcm (qmul a b) = mmul (dcm a) (dcm b). Proof. georing. Qed.
Lemma dcm_conj a : dcm (qconj a) = mtr (dcm a). Proof. georing. Qed.
Lemma dcm_one : dcm qone = mident. Proof. georing. Qed.
Lemma mapp_mmul a b v : mapp (mmul a b) v = mapp a (mapp b v). Proof. georing. Qed.
Lemma mapp_vadd a u v : mapp a (vadd u v) = vadd (mapp a u) (mapp a v). Proof. georing. Qed.
Lemma mapp_vscale a k v : mapp a (vscale k v) = vscale k (mapp a v). Proof. georing. Qed.
Lemma mapp_ident v : mapp mident v = v. Proof. georing. Qed.
Lemma mapp_zero a : mapp a vzero = vzero. Proof. georing. Qed.
Lemma vadd_0_l v : vadd vzero v = v. Proof. georing. Qed.
Lemma vadd_0_r v : vadd v vzero = v. Proof. georing. Qed.
Lemma vadd_assoc a b c : vadd a (vadd b c) = vadd (vadd a b) c. Proof. georing. Qed.
Lemma vadd_comm a b : vadd a b = vadd b a. Proof. georing. Qed.
Lemma mmul_assoc a b c : mmul a (mmul b c) = mmul (mmul a b) c. Proof. georing. Qed.
Lemma mtr_mmul a b : mtr (mmul a b) = mmul (mtr b) (mtr a). Proof. georing. Qed.

Definition mscale k m := mkM (k * m00 m) (k * m01 m) (k * m02 m) (k * m10 m) (k * m11 m) (k * m12 m) (k * m20 m) (k * m21 m) (k * m22 m).
Lemma dcm_orth1 q : mmul (dcm q) (mtr (dcm q)) = mscale (qnorm2 q ^ 2) mident.
Proof. unfold mscale. georing. Qed.
Lemma dcm_orth2 q : mmul (mtr (dcm q)) (dcm q) = mscale (qnorm2 q ^ 2) mident.
Proof. unfold mscale. georing. Qed.
Lemma dcm_det q : mdet (dcm q) = qnorm2 q ^ 3.
Proof. georing. Qed.
Lemma dcm_rotation q : qnorm2 q = 1 -> is_rotation (dcm q).
Proof.
  intros H. unfold is_rotation. rewrite dcm_orth1, dcm_orth2, dcm_det, H.
  repeat split; unfold mscale, mident; cbn; try (f_equal; ring); ring.
Qed.

Lemma qinv_unit q : qnorm2 q = 1 -> qinv q = qconj q.
Proof. intros H. unfold qinv. rewrite H, Rinv_1. georing. Qed.
Lemma qnormalize_unit q : qnorm2 q = 1 -> qnormalize q = q.
Proof. intros H. unfold qnormalize. rewrite H, sqrt_1, Rinv_1. georing. Qed.

Lemma qnorm2_ge0 q : 0 <= qnorm2 q.
Proof. geo. nra. Qed.
Lemma qnormalize_norm q : 0 < qnorm2 q -> qnorm2 (qnormalize q) = 1.
Proof.
  intros H. unfold qnormalize.
  assert (E : qnorm2 (qscale (/ sqrt (qnorm2 q)) q) = (/ sqrt (qnorm2 q)) ^ 2 * qnorm2 q) by georing.
  rewrite E. replace ((/ sqrt (qnorm2 q)) ^ 2) with (/ (sqrt (qnorm2 q) ^ 2)).
  2: { rewrite pow_inv. reflexivity. }
  rewrite <- Rsqr_pow2, Rsqr_sqrt by lra. apply Rinv_l. lra.
Qed.

Lemma qexp_unit v : qnorm2 (qexp v) = 1.
Proof.
  unfold qexp. destruct (Rlt_dec _ _) as [H|H]; [georing|].
  set (a := sqrt (vnorm2 v)) in *.
  assert (Ha : 0 < a) by (apply Rnot_lt_le in H; apply Rlt_le_trans with (2 := H); lra).
  assert (Hv : vx v * vx v + vy v * vy v + vz v * vz v = a * a).
  { unfold a. rewrite sqrt_sqrt; [reflexivity|]. unfold vnorm2, vdot. nra. }
  unfold qnorm2; cbn [q0 q1 q2 q3].
  replace (cos (a / 2) ^ 2 + (vx v / a * sin (a / 2)) ^ 2 + (vy v / a * sin (a / 2)) ^ 2 + (vz v / a * sin (a / 2)) ^ 2)
    with ((cos (a / 2)) ^ 2 + (vx v * vx v + vy v * vy v + vz v * vz v) / (a * a) * (sin (a / 2)) ^ 2) by (field; lra).
  rewrite Hv. replace (a * a / (a * a)) with 1 by (field; lra).
  pose proof (sin2_cos2 (a / 2)) as S. unfold Rsqr in S. lra.
Qed.

(** a rotation preserves lengths *)
Lemma rotation_preserves_norm m v : is_rotation m -> vnorm2 (mapp m v) = vnorm2 v.
Proof.
  intros (_ & H & _). assert (E : vnorm2 (mapp m v) = vdot v (mapp (mmul (mtr m) m) v)) by georing.
  rewrite E, H, mapp_ident. reflexivity.
Qed.

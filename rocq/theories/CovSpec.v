(** * Specification of the covariance prediction

    The process model documented by EKF/python/ekf_derivation/main.py l.560-640
    (the script the C++ code says it is generated from): 24 states
    (0-3 quaternion body->earth, 4-6 velocity NED, 7-9 position NED, 10-12 delta
    angle bias, 13-15 delta velocity bias, 16-18 earth field, 19-21 body field,
    22-23 wind), 6 inputs (delta angles, delta velocities). *)
From Coq Require Import Reals Lra.
From Coquelicot Require Import Coquelicot.
From Verif Require Import Scalar RealGeom.
Open Scope R_scope.

(** sum of f 0 .. f (n-1) *)
Fixpoint rsum (n : nat) (f : nat -> R) : R :=
  match n with O => 0 | S m => rsum m f + f m end.

Definition upd (x : nat -> R) (k : nat) (t : R) : nat -> R := fun j => if (j =? k)%nat then t else x j.

(** attitude: truncated rotation by the bias-corrected delta angle; velocity:
    bias-corrected delta velocity rotated to earth plus gravity; position:
    old velocity times dt; every other state is constant *)
Definition process (dt g : R) (x u : nat -> R) (i : nat) : R :=
  let q := mkQ (x 0%nat) (x 1%nat) (x 2%nat) (x 3%nat) in
  let dq := mkQ 1 ((u 0%nat - x 10%nat) / 2) ((u 1%nat - x 11%nat) / 2) ((u 2%nat - x 12%nat) / 2) in
  let qn := qmul q dq in
  let dv := mapp (dcm q) (mkV (u 3%nat - x 13%nat) (u 4%nat - x 14%nat) (u 5%nat - x 15%nat)) in
  match i with
  | 0%nat => q0 qn | 1%nat => q1 qn | 2%nat => q2 qn | 3%nat => q3 qn
  | 4%nat => x 4%nat + vx dv | 5%nat => x 5%nat + vy dv | 6%nat => x 6%nat + vz dv + g * dt
  | 7%nat => x 7%nat + x 4%nat * dt | 8%nat => x 8%nat + x 5%nat * dt | 9%nat => x 9%nat + x 6%nat * dt
  | _ => x i
  end.

(** F, G: the partial derivatives of the process model at (x,u) *)
Definition state_jacobian (dt g : R) (x u : nat -> R) (F : nat -> nat -> R) : Prop :=
  forall i k, (i < 24)%nat -> (k < 24)%nat -> is_derive (fun t => process dt g (upd x k t) u i) (x k) (F i k).
Definition input_jacobian (dt g : R) (x u : nat -> R) (G : nat -> nat -> R) : Prop :=
  forall i m, (i < 24)%nat -> (m < 6)%nat -> is_derive (fun t => process dt g x (upd u m t) i) (u m) (G i m).

(** element (i,j) of F P F^T + G diag(Q) G^T *)
Definition FPFt_GQGt (F G : nat -> nat -> R) (P : nat -> nat -> R) (Q : nat -> R) (i j : nat) : R :=
  rsum 24 (fun k => rsum 24 (fun l => F i k * P k l * F j l))
  + rsum 6 (fun m => G i m * Q m * G j m).

Definition symmetric24 {T} (P : nat -> nat -> T) : Prop :=
  forall i j, (i < 24)%nat -> (j < 24)%nat -> P i j = P j i.

(** positive semidefinite 24x24 matrix *)
Definition quad (v : nat -> R) (M : nat -> nat -> R) : R :=
  rsum 24 (fun i => rsum 24 (fun j => v i * M i j * v j)).
Definition psd (M : nat -> nat -> R) : Prop := forall v, 0 <= quad v M.

(** * What a sensor mounted on the vehicle measures (specification, exact reals)

    The vehicle is a rigid body whose inertial unit is at [pos] (North, East,
    Down) with velocity [vel]; [Re] turns body axes into earth axes, [w] is the
    body rate and [r] the position of a sensor relative to the inertial unit,
    in body axes.  Nothing here refers to the code. *)
From Coq Require Import Reals.
Open Scope R_scope.

Definition rot3 (A : nat -> nat -> R) (v : nat -> R) (k : nat) : R :=
  A k 0%nat * v 0%nat + A k 1%nat * v 1%nat + A k 2%nat * v 2%nat.
(** vector product *)
Definition cross3 (a b : nat -> R) (k : nat) : R := match k with
  | O => a 1%nat * b 2%nat - a 2%nat * b 1%nat
  | 1%nat => a 2%nat * b 0%nat - a 0%nat * b 2%nat
  | _ => a 0%nat * b 1%nat - a 1%nat * b 0%nat end.
(** position and velocity of the sensor in earth axes *)
Definition sensor_pos (Re : nat -> nat -> R) (r pos : nat -> R) (k : nat) : R := pos k + rot3 Re r k.
Definition sensor_vel (Re : nat -> nat -> R) (w r vel : nat -> R) (k : nat) : R := vel k + rot3 Re (cross3 w r) k.
(** variance along axis k of an error with independent variances d in the axes rotated by A *)
Definition rotated_var (A : nat -> nat -> R) (d : nat -> R) (k : nat) : R :=
  A k 0%nat ^ 2 * d 0%nat + A k 1%nat ^ 2 * d 1%nat + A k 2%nat ^ 2 * d 2%nat.
(** variance along axis k of an error with covariance C in the axes rotated by A *)
Definition rotated_cov (A C : nat -> nat -> R) (k : nat) : R :=
  A k 0%nat * rot3 C (A k) 0%nat + A k 1%nat * rot3 C (A k) 1%nat + A k 2%nat * rot3 C (A k) 2%nat.

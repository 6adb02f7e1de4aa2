(** * Attitude at start-up, parametric in the scalar

    EKF/ekf.cpp l.235-255 (initialiseTilt).  PredictModel.v has the same
    function over the reals; Props_AttFloat.v proves that this one read over the
    reals is that one.  sinf, cosf, asinf, atan2f are parameters. *)
From Verif Require Import CBase Scalar CovModel OutputModel.
Open Scope nat_scope.
Section Att.
Context {T : Type} {S : Scalar T}.
Open Scope scal_scope.
Variables (tsin tcos tasin : T -> T) (tatan2 : T -> T -> T).
(** Quatf(Eulerf), PX4-Matrix (not in /repo) *)
Definition quatEulerG (roll pitch yaw : T) : Vec T :=
  let c1 := tcos (roll / slit 2 1) in let s1 := tsin (roll / slit 2 1) in let c2 := tcos (pitch / slit 2 1) in let s2 := tsin (pitch / slit 2 1) in
  let c3 := tcos (yaw / slit 2 1) in let s3 := tsin (yaw / slit 2 1) in
  fun k => match k with 0 => c1 * c2 * c3 + s1 * s2 * s3 | 1 => s1 * c2 * c3 - c1 * s2 * s3 | 2 => c1 * s2 * c3 + s1 * c2 * s3 | _ => c1 * c2 * s3 - s1 * s2 * c3 end.
(** Vector::normalized, PX4-Matrix: Matrix / scalar multiplies by 1 / scalar *)
Definition unit3 (v : Vec T) : Vec T := let r := slit 1 1 / nrm3 v in fun k => v k * r.
(** CONSTANTS_ONE_G, geo/geo.h *)
Definition oneG : T := slit 980665 100000.
(** initialiseTilt l.235-255: filtered specific force and angular rate; rad15 = math::radians(15.0f).
    None: refused *)
Definition tiltStartG (rad15 : T) (acc gyr : Vec T) : option (Vec T) :=
  let n := nrm3 acc in
  if (slt n (slit 8 10 * oneG) || slt (slit 12 10 * oneG) n || slt rad15 (nrm3 gyr))%bool then None
  else let g := unit3 acc in Some (quatEulerG (tatan2 (- g 1) (- g 2)) (tasin (g 0)) szero).
End Att.

(** * Specification of the scalar measurement fusions

    The measurement models documented by EKF/python/ekf_derivation/main.py,
    and what an extended Kalman filter does with them.  State numbering as in
    CovSpec.v. *)
From Coq Require Import Reals Lra.
From Coquelicot Require Import Coquelicot.
From Verif Require Import Scalar RealGeom CovSpec.
Open Scope R_scope.

Definition quat_of (x : nat -> R) : Q4 := mkQ (x 0%nat) (x 1%nat) (x 2%nat) (x 3%nat).
(** an earth-frame vector seen in the body frame *)
Definition to_body (x : nat -> R) (v : V3) : V3 := mapp (mtr (dcm (quat_of x))) v.
(** a body-frame vector seen in the earth frame *)
Definition to_earth (x : nat -> R) (v : V3) : V3 := mapp (dcm (quat_of x)) v.

(** magnetometer: earth field in body axes plus body field *)
Definition mag_model (x : nat -> R) : V3 :=
  vadd (to_body x (mkV (x 16%nat) (x 17%nat) (x 18%nat))) (mkV (x 19%nat) (x 20%nat) (x 21%nat)).
(** velocity relative to the air *)
Definition air_vel (x : nat -> R) : V3 := mkV (x 4%nat - x 22%nat) (x 5%nat - x 23%nat) (x 6%nat).
Definition airspeed_model (x : nat -> R) : R := sqrt (vnorm2 (air_vel x)).
(** sideslip angle, small-angle form *)
Definition sideslip_model (x : nat -> R) : R := vy (to_body x (air_vel x)) / vx (to_body x (air_vel x)).
(** drag specific force along body X and Y, linear in the air-relative velocity *)
Definition drag_model_x (k : R) (x : nat -> R) : R := - (k * vx (to_body x (air_vel x))).
Definition drag_model_y (k : R) (x : nat -> R) : R := - (k * vy (to_body x (air_vel x))).
(** line-of-sight rates for a given range *)
Definition ground_vel (x : nat -> R) : V3 := mkV (x 4%nat) (x 5%nat) (x 6%nat).
Definition flow_model_x (range : R) (x : nat -> R) : R := vy (to_body x (ground_vel x)) / range.
Definition flow_model_y (range : R) (x : nat -> R) : R := - vx (to_body x (ground_vel x)) / range.
(** angles are given by a pair (cosine-like, sine-like): declination, antenna
    heading for antenna offset o, yaw of the 321 and 312 Euler sequences *)
Definition decl_pair (x : nat -> R) : R * R := (x 16%nat, x 17%nat).
Definition antenna_pair (o : R) (x : nat -> R) : R * R :=
  let a := to_earth x (mkV (cos o) (sin o) 0) in (vx a, vy a).
Definition yaw321_pair (x : nat -> R) : R * R := let m := dcm (quat_of x) in (m00 m, m10 m).
Definition yaw312_pair (x : nat -> R) : R * R := let m := dcm (quat_of x) in (m11 m, - m01 m).

(** g is the vector of partial derivatives of h at x *)
Definition gradient (h : (nat -> R) -> R) (x : nat -> R) (g : nat -> R) : Prop :=
  forall i, (i < 24)%nat -> is_derive (fun t => h (upd x i t)) (x i) (g i).
(** g is the vector of partial derivatives at x of the direction angle of the
    pair p: along each state, every differentiable angle th with
    p = r (cos th, sin th) has derivative g i *)
Definition angle_gradient (p : (nat -> R) -> R * R) (x : nat -> R) (g : nat -> R) : Prop :=
  forall i, (i < 24)%nat -> forall th r : R -> R, ex_derive th (x i) -> ex_derive r (x i) -> r (x i) <> 0 ->
  locally (x i) (fun t => p (upd x i t) = (r t * cos (th t), r t * sin (th t))) ->
  is_derive th (x i) (g i).

(** innovation variance h P h^T + rn and gain P h^T / Sv, the gain restricted
    to the states in [rows] *)
Definition innovation_variance (h : nat -> R) (P : nat -> nat -> R) (rn Sv : R) : Prop := Sv = quad h P + rn.
Definition kalman_gain (rows : nat -> bool) (h : nat -> R) (P : nat -> nat -> R) (Sv : R) (K : nat -> R) : Prop :=
  forall i, (i < 24)%nat -> K i = if rows i then rsum 24 (fun j => P i j * h j) / Sv else 0.
Definition all_states (i : nat) : bool := true.
Definition wind_states (i : nat) : bool := (22 <=? i)%nat.
Definition mag_states (i : nat) : bool := ((16 <=? i) && (i <=? 21))%nat.

(** * C72, C98: a GPS reset puts the estimate at the antenna *)
From Coq Require Import Reals Lra Lia List ZArith Bool.
From Verif Require Import CBase Scalar RealGeom RotModel OutputModel CovModel CovProofsR CovUpdProofs VelPosModel FusionModel ObsModel ResetModel Props_Reset.
Open Scope R_scope.

(** a receiver whose antenna sits at [l] in the body reports the velocity and position of the antenna; the resets take them
    as those of the inertial unit, although the update that contains the reset subtracts the lever arm before it fuses *)
Theorem C72_gps_reset_at_antenna : forall i p c s (u x w l : V3), c_gps c = true -> gps_healthy i = true ->
  gps_vel i = vadd u (mapp (r_R s) (cross w l)) -> gps_pos i = vadd x (mapp (r_R s) l) ->
  (forall k, (k < 3)%nat -> e_v (r_o (resetVelocity i c s)) k - vec3 u k = vec3 (mapp (r_R s) (cross w l)) k) /\
  (forall k, (k < 2)%nat -> e_p (r_o (resetHorizontalPosition i p c s)) k - vec3 x k = vec3 (mapp (r_R s) l) k).
Proof.
  intros i p c s u x w l C G V P. split; intros k Hk.
  - pose proof (C72_velocity_reset i c s) as T. cbv zeta in T. destruct T as (_ & T & _). destruct (T (conj C G)) as [(E & _) _]. rewrite (E k Hk), V.
    destruct k as [|[|[|k]]]; [| | |lia]; unfold vec3, vadd; cbn [vx vy vz]; ring.
  - pose proof (C72_position_reset i p c s) as T. cbv zeta in T. destruct T as (_ & T & _). destruct (T C) as [(E & _) _]. destruct (E k Hk) as [E' _]. rewrite E', P.
    destruct k as [|[|k]]; [| |lia]; unfold vec3, vadd; cbn [vx vy vz]; ring.
Qed.
(** so on a rotating vehicle the velocity after the reset is the true one only if the antenna is on the axis of rotation *)
Theorem C72_gps_reset_exact_iff : forall i c s (u w l : V3), is_rotation (r_R s) -> c_gps c = true -> gps_healthy i = true -> gps_vel i = vadd u (mapp (r_R s) (cross w l)) ->
  (forall k, (k < 3)%nat -> e_v (r_o (resetVelocity i c s)) k = vec3 u k) <-> cross w l = vzero.
Proof.
  intros i c s u w l RO C G V. pose proof (C72_velocity_reset i c s) as T. cbv zeta in T. destruct T as (_ & T & _). destruct (T (conj C G)) as [(E & _) _]. clear T.
  assert (K : forall k, (k < 3)%nat -> e_v (r_o (resetVelocity i c s)) k = vec3 u k + vec3 (mapp (r_R s) (cross w l)) k).
  { intros k Hk. rewrite (E k Hk), V. destruct k as [|[|[|k]]]; [| | |lia]; unfold vec3, vadd; cbn [vx vy vz]; ring. }
  split; intros H.
  - assert (M : mapp (r_R s) (cross w l) = vzero).
    { pose proof (K 0%nat ltac:(lia)) as K0. pose proof (K 1%nat ltac:(lia)) as K1. pose proof (K 2%nat ltac:(lia)) as K2. rewrite H in K0, K1, K2 by lia.
      destruct (mapp (r_R s) (cross w l)) as [a b d]. unfold vec3 in K0, K1, K2. cbn [vx vy vz] in K0, K1, K2. unfold vzero. f_equal; lra. }
    destruct RO as (_ & E2 & _). set (y := cross w l) in *. clearbody y.
    assert (Y : mapp (mtr (r_R s)) (mapp (r_R s) y) = y).
    { rewrite <- mapp_mmul, E2. destruct y as [a b d]. unfold mapp, mident. cbn [vx vy vz m00 m01 m02 m10 m11 m12 m20 m21 m22]. f_equal; ring. }
    rewrite M in Y. rewrite <- Y. unfold mapp, vzero. cbn [vx vy vz]. f_equal; ring.
  - intros k Hk. rewrite (K k Hk), H. destruct k as [|[|[|k]]]; [| | |lia]; unfold vec3, mapp, vzero; cbn [vx vy vz]; ring.
Qed.
(** the GPS innovations of the same update are then exactly the lever arm terms, not zero *)
Theorem C98_gps_innovation_after_reset : forall bad other pn na vn pg vg (Re : Mat R) w off g0 (v : vpst R),
  (forall k, (k < 3)%nat -> xv v k = s_vel g0 k) -> (forall k, (k < 2)%nat -> xp v k = s_pos g0 k) ->
  let '(_, o, (p0, p1)) := gpsFuse bad other pn na vn pg vg Re w off g0 v in
  (forall k, (k < 3)%nat -> o_innov o k = mvec Re (crossT w off) k) /\ p0 = mvec Re off 0%nat /\ p1 = mvec Re off 1%nat.
Proof.
  intros until v. intros HV HP. unfold gpsFuse. cbv zeta. cbn [o_innov]. unfold vsubT. split; [|split].
  - intros k Hk. rewrite HV by exact Hk. unfold gpsCorrect. cbn [s_vel]. unfold vsubT. cbn [ssub RScalar]. ring.
  - rewrite HP by lia. unfold gpsCorrect. cbn [s_pos]. unfold vsubT. cbn [ssub RScalar]. ring.
  - rewrite HP by lia. unfold gpsCorrect. cbn [s_pos]. unfold vsubT. cbn [ssub RScalar]. ring.
Qed.
(** a case: level, 1 rad/s about the vertical axis, antenna 1 m ahead: the velocity is 1 m/s off *)
Example C72_gps_case : is_rotation mident /\ mapp mident (cross (mkV 0 0 1) (mkV 1 0 0)) = mkV 0 1 0 /\ cross (mkV 0 0 1) (mkV 1 0 0) <> vzero.
Proof.
  unfold is_rotation, mmul, mtr, mident, mdet, mapp, cross, vzero. cbn [m00 m01 m02 m10 m11 m12 m20 m21 m22 vx vy vz]. split; [split; [f_equal; ring|split; [f_equal; ring|ring]]|].
  split; [f_equal; ring|]. intros H. injection H as _ H _. lra.
Qed.
Print Assumptions C72_gps_reset_at_antenna. Print Assumptions C72_gps_reset_exact_iff. Print Assumptions C98_gps_innovation_after_reset.

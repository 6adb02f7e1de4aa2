(** * Property C58 (continued): the filtered specific force of the yaw estimator's attitude reference *)
From Coq Require Import Reals Lra Psatz List.
From Verif Require Import Scalar RealGeom RotModel GeoModel GsfModel GsfProofs1 GsfProofs2 GsfProofs3 GsfProofs4.
Import ListNotations.
Open Scope R_scope.

Lemma update_accel i g : g_accel (update i g) = g_accel (filterAccel i g).
Proof.
  unfold update. cbv zeta. destruct (g_tilt (filterAccel i g)); cbn [negb].
  - unfold clearVel, composite. cbn [g_accel]. unfold fuse. cbv zeta. repeat match goal with |- context [if ?c then _ else _] => destruct c | |- context [weigh ?a ?b] => destruct (weigh a b) end; reflexivity.
  - destruct (okToAlign i); reflexivity.
Qed.
(** every update moves the filtered specific force towards the measured one (delta velocity over its interval, at least 1 ms)
    by the fraction min(2 dt, 1): a low pass with time constant 0.5 s *)
Theorem C58_specific_force_filter : forall i g, let c := Rmin (2 * i_dvdt i) 1 in let a := vscale (/ Rmax (i_dvdt i) (1 / 1000)) (i_dv i) in
  vsub (g_accel (update i g)) a = vscale (1 - c) (vsub (g_accel g) a).
Proof.
  intros i g. cbv zeta. rewrite update_accel. unfold filterAccel. cbn [g_accel]. unfold accelOf, tilt_gain. replace (10 * i_dvdt i * (2 / 10)) with (2 * i_dvdt i) by field.
  unfold vsub, vadd, vscale; cbn [vx vy vz]. f_equal; ring.
Qed.
(** under a steady specific force [a] the error decays at least as exp(-2 t), whatever the sample intervals up to half a second and the GPS data *)
Fixpoint steady (a : V3) (l : list (gin * option (R * R * R))) : Prop :=
  match l with [] => True | (i, _) :: r => 1 / 1000 <= i_dvdt i <= 1 / 2 /\ i_dv i = vscale (i_dvdt i) a /\ steady a r end.
Fixpoint runs (l : list (gin * option (R * R * R))) (g : gsf) : gsf :=
  match l with [] => g | (i, v) :: r => runs r (let g := update i g in match v with Some (vn, ve, acc) => setVelocity vn ve acc g | None => g end) end.
Definition total (l : list (gin * option (R * R * R))) : R := fold_right (fun x t => i_dvdt (fst x) + t) 0 l.
Theorem C58_specific_force_converges : forall a l g, steady a l -> exists c, 0 <= c <= exp (- (2 * total l)) /\ vsub (g_accel (runs l g)) a = vscale c (vsub (g_accel g) a).
Proof.
  intros a. induction l as [|[i v] l IH]; intros g H.
  - exists 1. cbn [total fold_right runs]. rewrite Rmult_0_r, Ropp_0, exp_0. split; [lra|]. unfold vscale, vsub; cbn [vx vy vz]. f_equal; ring.
  - cbn [steady] in H. destruct H as (D & V & S). cbn [runs]. set (g1 := update i g).
    assert (E : g_accel (match v with Some (vn, ve, acc) => setVelocity vn ve acc g1 | None => g1 end) = g_accel g1) by (destruct v as [[[? ?] ?]|]; reflexivity).
    destruct (IH (match v with Some (vn, ve, acc) => setVelocity vn ve acc g1 | None => g1 end) S) as (c & C & Q). rewrite E in Q.
    pose proof (C58_specific_force_filter i g) as F. cbv zeta in F. fold g1 in F.
    assert (A : vscale (/ Rmax (i_dvdt i) (1 / 1000)) (i_dv i) = a).
    { rewrite V, Rmax_left by lra. destruct a as [x y z]. unfold vscale; cbn [vx vy vz]. f_equal; field; lra. }
    rewrite A in F. rewrite Rmin_left in F by lra. exists (c * (1 - 2 * i_dvdt i)). split.
    + split; [apply Rmult_le_pos; lra|]. cbn [total fold_right fst]. fold (total l). replace (- (2 * (i_dvdt i + total l))) with (- (2 * total l) + - (2 * i_dvdt i)) by ring. rewrite exp_plus.
      apply Rmult_le_compat; [lra|lra|lra|]. pose proof (exp_ineq1_le (- (2 * i_dvdt i))). lra.
    + rewrite Q, F. unfold vscale; cbn [vx vy vz]. f_equal; ring.
Qed.
Example C58_steady_nontrivial : steady (mkV 0 0 (-981 / 100)) [(mkGin vzero (mkV 0 0 (-981 / 10000)) (1 / 100) (1 / 100) true 0 vzero, Some (1, 2, 3)); (mkGin vzero (mkV 0 0 (-981 / 5000)) (1 / 50) (1 / 50) true 0 vzero, None)].
Proof. cbn [steady i_dvdt i_dv]. unfold vscale; cbn [vx vy vz]. split; [lra|]. split; [f_equal; lra|]. split; [lra|]. split; [f_equal; lra|exact I]. Qed.
Print Assumptions C58_specific_force_filter.
Print Assumptions C58_specific_force_converges.

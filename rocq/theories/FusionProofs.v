(** * Jacobians, innovation variances and gains of the fusions: proofs *)
From Coq Require Import Reals Lra Lia.
From Coquelicot Require Import Coquelicot.
From Verif Require Import Scalar RealGeom CovSpec PsdLib CovModel CovUpdProofs CovPredProofs FusionGen FusionSpec.
Open Scope R_scope.

Lemma Rdiv_1 a : a / 1 = a.
Proof. field. Qed.
(** sum over a sparse list *)
Definition lsum (L : list (nat * R)) (f : nat -> R) : R := fold_right (fun p acc => snd p * f (fst p) + acc) 0 L.
Lemma rsum_hvec L (f : nat -> R) : Forall (fun p => (fst p < 24)%nat) L -> rsum 24 (fun j => f j * hvec L j) = lsum L f.
Proof. intros H. unfold lsum. rewrite <- hvec_sum by exact H. apply rsum_ext. intros. ring. Qed.
Lemma quad_hvec L P : Forall (fun p => (fst p < 24)%nat) L -> quad (hvec L) P = lsum L (fun i => lsum L (fun j => P i j)).
Proof.
  intros H. unfold quad. rewrite (rsum_ext 24 _ (fun i => lsum L (fun j => P i j) * hvec L i)).
  - apply rsum_hvec. exact H.
  - intros i Hi. rewrite <- (rsum_hvec L (fun j => P i j) H). rewrite <- rsum_scal_r. apply rsum_ext. intros j Hj. ring.
Qed.

(** ** The observation functions in coordinates *)
Definition b0 (y : nat -> R) (a b c : R) : R :=
  (y 0%nat * y 0%nat + y 1%nat * y 1%nat - y 2%nat * y 2%nat - y 3%nat * y 3%nat) * a
  + 2 * (y 1%nat * y 2%nat + y 0%nat * y 3%nat) * b + 2 * (y 1%nat * y 3%nat - y 0%nat * y 2%nat) * c.
Definition b1 (y : nat -> R) (a b c : R) : R :=
  2 * (y 1%nat * y 2%nat - y 0%nat * y 3%nat) * a
  + (y 0%nat * y 0%nat - y 1%nat * y 1%nat + y 2%nat * y 2%nat - y 3%nat * y 3%nat) * b
  + 2 * (y 2%nat * y 3%nat + y 0%nat * y 1%nat) * c.
Definition b2 (y : nat -> R) (a b c : R) : R :=
  2 * (y 1%nat * y 3%nat + y 0%nat * y 2%nat) * a + 2 * (y 2%nat * y 3%nat - y 0%nat * y 1%nat) * b
  + (y 0%nat * y 0%nat - y 1%nat * y 1%nat - y 2%nat * y 2%nat + y 3%nat * y 3%nat) * c.
Ltac spc := unfold to_body, to_earth, quat_of, vadd, mapp, mtr, dcm;
  cbn [RealGeom.vx RealGeom.vy RealGeom.vz m00 m01 m02 m10 m11 m12 m20 m21 m22 RealGeom.q0 RealGeom.q1 RealGeom.q2 RealGeom.q3].
Lemma to_body0 y a b c : RealGeom.vx (to_body y (mkV a b c)) = b0 y a b c.
Proof. spc. unfold b0. ring. Qed.
Lemma to_body1 y a b c : RealGeom.vy (to_body y (mkV a b c)) = b1 y a b c.
Proof. spc. unfold b1. ring. Qed.
Lemma to_body2 y a b c : RealGeom.vz (to_body y (mkV a b c)) = b2 y a b c.
Proof. spc. unfold b2. ring. Qed.
Lemma mag_model0 y : RealGeom.vx (mag_model y) = b0 y (y 16%nat) (y 17%nat) (y 18%nat) + y 19%nat.
Proof. rewrite <- to_body0. reflexivity. Qed.
Lemma mag_model1 y : RealGeom.vy (mag_model y) = b1 y (y 16%nat) (y 17%nat) (y 18%nat) + y 20%nat.
Proof. rewrite <- to_body1. reflexivity. Qed.
Lemma mag_model2 y : RealGeom.vz (mag_model y) = b2 y (y 16%nat) (y 17%nat) (y 18%nat) + y 21%nat.
Proof. rewrite <- to_body2. reflexivity. Qed.
Definition w0 y := b0 y (y 4%nat - y 22%nat) (y 5%nat - y 23%nat) (y 6%nat).
Definition w1 y := b1 y (y 4%nat - y 22%nat) (y 5%nat - y 23%nat) (y 6%nat).
Lemma air0 y : RealGeom.vx (to_body y (air_vel y)) = w0 y.
Proof. apply to_body0. Qed.
Lemma air1 y : RealGeom.vy (to_body y (air_vel y)) = w1 y.
Proof. apply to_body1. Qed.

Ltac states f := let i := fresh "i" in let Hi := fresh "Hi" in intros i Hi; do 24 (destruct i as [|i]; [f|]); exfalso; lia.
Ltac hv := unfold hvec; cbn [fold_right fst snd Nat.eqb].
Ltac scR := unfold s_q0, s_q1, s_q2, s_q3, s_vn, s_ve, s_vd, s_magN, s_magE, s_magD, s_vwn, s_vwe, pow2, pow3, powm2, szero, sone;
  cbn [sadd ssub smul sdiv sopp sabs ssqrt slit RScalar]; rewrite ?Rdiv_1; change (IZR 1) with 1; change (IZR 0) with 0.
Ltac dfields := repeat match goal with |- Forall _ _ => constructor; [cbn [fst]; lia|] | |- Forall _ nil => constructor end.
(* order the indices of P *)
Ltac symm Sy := repeat match goal with |- context [?P ?i ?j] => match type of P with Mat R => let b := eval compute in (j <? i)%nat in match b with true => rewrite (Sy i j) by lia end | nat -> nat -> R => let b := eval compute in (j <? i)%nat in match b with true => rewrite (Sy i j) by lia end end end.
Lemma gradient_ext (h k : (nat -> R) -> R) x g : (forall y, h y = k y) -> gradient k x g -> gradient h x g.
Proof. intros E G i Hi. apply (is_derive_ext (fun t => k (upd x i t))); [intros; symmetry; apply E|apply G; exact Hi]. Qed.

(** ** Magnetometer *)
Lemma mx_gradient (x : nat -> R) : gradient (fun y => RealGeom.vx (mag_model y)) x (hvec (mx_H x)).
Proof.
  apply (gradient_ext _ _ _ _ mag_model0). unfold gradient.
  states ltac:(unfold b0, mx_H; hv; cbn [upd Nat.eqb]; unfold mx_H0, mx_H1, mx_H2, mx_H3, mx_H16, mx_H17, mx_H18, mx_H19, mx_HKX0, mx_HKX1, mx_HKX2, mx_HKX3, mx_HKX4, mx_HKX5, mx_HKX6, mx_HKX7, mx_HKX8, mx_HKX9; scR; auto_derive; [exact I|ring]).
Qed.
Lemma my_gradient (x : nat -> R) : gradient (fun y => RealGeom.vy (mag_model y)) x (hvec (my_H x)).
Proof.
  apply (gradient_ext _ _ _ _ mag_model1). unfold gradient.
  states ltac:(unfold b1, my_H; hv; cbn [upd Nat.eqb]; unfold my_H0, my_H1, my_H2, my_H3, my_H16, my_H17, my_H18, my_H20, my_HKY0, my_HKY1, my_HKY2, my_HKY3, my_HKY4, my_HKY5, my_HKY6, my_HKY7, my_HKY8, my_HKY9; scR; auto_derive; [exact I|ring]).
Qed.
Lemma mz_gradient (x : nat -> R) : gradient (fun y => RealGeom.vz (mag_model y)) x (hvec (mz_H x)).
Proof.
  apply (gradient_ext _ _ _ _ mag_model2). unfold gradient.
  states ltac:(unfold b2, mz_H; hv; cbn [upd Nat.eqb]; unfold mz_H0, mz_H1, mz_H2, mz_H3, mz_H16, mz_H17, mz_H18, mz_H21, mz_HKZ0, mz_HKZ1, mz_HKZ2, mz_HKZ3, mz_HKZ4, mz_HKZ5, mz_HKZ6, mz_HKZ7, mz_HKZ8, mz_HKZ9; scR; auto_derive; [exact I|ring]).
Qed.
Lemma mx_var (x : nat -> R) (P : nat -> nat -> R) (rn : R) : symmetric24 P -> mx_S x P rn = quad (hvec (mx_H x)) P + rn.
Proof.
  intros Sy. rewrite quad_hvec by (unfold mx_H; dfields). unfold mx_H, lsum; cbn [fold_right fst snd]. symm Sy.
  unfold mx_S, mx_HKX23, mx_HKX22, mx_HKX21, mx_HKX20, mx_HKX19, mx_HKX18, mx_HKX17, mx_HKX16, mx_HKX15, mx_HKX14, mx_HKX13, mx_HKX12, mx_HKX11, mx_HKX10, mx_H0, mx_H1, mx_H2, mx_H3, mx_H16, mx_H17, mx_H18, mx_H19.
  scR. ring.
Qed.
Lemma my_var (x : nat -> R) (P : nat -> nat -> R) (rn : R) : symmetric24 P -> my_S x P rn = quad (hvec (my_H x)) P + rn.
Proof.
  intros Sy. rewrite quad_hvec by (unfold my_H; dfields). unfold my_H, lsum; cbn [fold_right fst snd]. symm Sy.
  unfold my_S, my_HKY23, my_HKY22, my_HKY21, my_HKY20, my_HKY19, my_HKY18, my_HKY17, my_HKY16, my_HKY15, my_HKY14, my_HKY13, my_HKY12, my_HKY11, my_HKY10, my_H0, my_H1, my_H2, my_H3, my_H16, my_H17, my_H18, my_H20.
  scR. ring.
Qed.
Lemma mz_var (x : nat -> R) (P : nat -> nat -> R) (rn : R) : symmetric24 P -> mz_S x P rn = quad (hvec (mz_H x)) P + rn.
Proof.
  intros Sy. rewrite quad_hvec by (unfold mz_H; dfields). unfold mz_H, lsum; cbn [fold_right fst snd]. symm Sy.
  unfold mz_S, mz_HKZ23, mz_HKZ22, mz_HKZ21, mz_HKZ20, mz_HKZ19, mz_HKZ18, mz_HKZ17, mz_HKZ16, mz_HKZ15, mz_HKZ14, mz_HKZ13, mz_HKZ12, mz_HKZ11, mz_HKZ10, mz_H0, mz_H1, mz_H2, mz_H3, mz_H16, mz_H17, mz_H18, mz_H21.
  scR. ring.
Qed.
(** the variances of the Y and Z axes computed before the X axis is fused *)
Ltac pdiff := scR; ring.
Lemma iv1_var (x : nat -> R) (P : nat -> nat -> R) (rn : R) : symmetric24 P -> iv_S1 x P rn = my_S x P rn.
Proof.
  intros Sy.
  assert (E2 : iv_IV2 x = my_HKY10 x) by (unfold iv_IV2, iv_IV1, iv_IV0, my_HKY10, my_HKY9; pdiff).
  assert (E3 : iv_IV3 x = my_HKY11 x) by (unfold iv_IV3, my_HKY11, my_HKY6, my_HKY7; pdiff).
  assert (E4 : iv_IV4 x = my_HKY12 x) by (unfold iv_IV4, my_HKY12, my_HKY2; pdiff).
  assert (E5 : iv_IV5 x = my_HKY13 x) by (unfold iv_IV5, my_HKY13, my_HKY0; pdiff).
  assert (E6 : iv_IV6 x = my_HKY14 x) by (unfold iv_IV6, my_HKY14, my_HKY1; pdiff).
  assert (E7 : iv_IV7 x = my_HKY15 x) by (unfold iv_IV7, my_HKY15, my_HKY3, my_HKY4, my_HKY5; pdiff).
  assert (E11 : iv_IV11 x = my_HKY8 x) by (unfold iv_IV11, iv_IV10, iv_IV8, iv_IV9, my_HKY8; pdiff).
  unfold iv_S1, iv_IV12, iv_IV13, iv_IV14, iv_IV15. rewrite E2, E3, E4, E5, E6, E7, E11.
  unfold my_S, my_HKY23, my_HKY22, my_HKY21, my_HKY20, my_HKY19, my_HKY18, my_HKY17, my_HKY16. scR. ring.
Qed.
Lemma iv2_var (x : nat -> R) (P : nat -> nat -> R) (rn : R) : symmetric24 P -> iv_S2 x P rn = mz_S x P rn.
Proof.
  intros Sy.
  assert (E4 : iv_IV4 x = mz_HKZ12 x) by (unfold iv_IV4, mz_HKZ12, mz_HKZ5; pdiff).
  assert (E5 : iv_IV5 x = mz_HKZ14 x) by (unfold iv_IV5, mz_HKZ14, mz_HKZ1, mz_HKZ2, mz_HKZ3; pdiff).
  assert (E6 : iv_IV6 x = mz_HKZ13 x) by (unfold iv_IV6, mz_HKZ13, mz_HKZ0; pdiff).
  assert (E7 : iv_IV7 x = mz_HKZ15 x) by (unfold iv_IV7, mz_HKZ15, mz_HKZ4; pdiff).
  assert (E16 : iv_IV16 x = mz_HKZ10 x) by (unfold iv_IV16, mz_HKZ10, mz_HKZ6; pdiff).
  assert (E17 : iv_IV17 x = mz_HKZ11 x) by (unfold iv_IV17, iv_IV0, iv_IV1, mz_HKZ11, mz_HKZ7, mz_HKZ8; pdiff).
  assert (E18 : iv_IV18 x = mz_HKZ9 x) by (unfold iv_IV18, iv_IV10, iv_IV8, iv_IV9, mz_HKZ9; pdiff).
  unfold iv_S2, iv_IV12, iv_IV13, iv_IV14, iv_IV15. rewrite E4, E5, E6, E7, E16, E17, E18.
  unfold mz_S, mz_HKZ23, mz_HKZ22, mz_HKZ21, mz_HKZ20, mz_HKZ19, mz_HKZ18, mz_HKZ17, mz_HKZ16. scR. ring.
Qed.
(** rows updated with [all] or only the magnetic field states *)
Definition mag_rows (all : bool) (i : nat) : bool := all || mag_states i.
Definition wind_rows (all : bool) (i : nat) : bool := all || wind_states i.
Ltac gain Sy H un := unfold kalman_gain; let i := fresh "i" in let Hi := fresh "Hi" in intros i Hi;
  rewrite rsum_hvec by (H; dfields); H; unfold lsum; cbn [fold_right fst snd];
  do 24 (destruct i as [|i]; [unfold mag_rows, mag_states, wind_rows, wind_states, all_states; cbn [Nat.leb Nat.eqb andb orb]; symm Sy; un|]); exfalso; lia.
Lemma mx_gain (x : nat -> R) (P : nat -> nat -> R) (rn : R) all : symmetric24 P -> kalman_gain (mag_rows all) (hvec (mx_H x)) P (mx_S x P rn) (mx_K x P rn all).
Proof.
  intros Sy. gain Sy ltac:(unfold mx_H) ltac:(unfold mx_K; cbn [Nat.leb Nat.eqb andb]; destruct all; cbn [orb]; [|try (unfold szero; cbn [slit RScalar]; lra)];
    unfold mx_K20_21, mx_K19, mx_K18, mx_K17, mx_K16, mx_K22_23, mx_K4_15, mx_K3, mx_K2, mx_K1, mx_K0, mx_H19, mx_H18, mx_H17, mx_H16, mx_H3, mx_H2, mx_H1, mx_H0, mx_HKX24, mx_HKX23, mx_HKX22, mx_HKX21, mx_HKX20, mx_HKX19, mx_HKX18, mx_HKX17, mx_HKX16, mx_HKX15, mx_HKX14, mx_HKX13, mx_HKX12, mx_HKX11, mx_HKX10; generalize (mx_S x P rn); intros Sv; scR; unfold Rdiv; symm Sy; ring).
Qed.
Lemma my_gain (x : nat -> R) (P : nat -> nat -> R) (rn : R) all : symmetric24 P -> kalman_gain (mag_rows all) (hvec (my_H x)) P (my_S x P rn) (my_K x P rn all).
Proof.
  intros Sy. gain Sy ltac:(unfold my_H) ltac:(unfold my_K; cbn [Nat.leb Nat.eqb andb]; destruct all; cbn [orb]; [|try (unfold szero; cbn [slit RScalar]; lra)];
    unfold my_K21, my_K20, my_K19, my_K18, my_K17, my_K16, my_K22_23, my_K4_15, my_K3, my_K2, my_K1, my_K0, my_H20, my_H18, my_H17, my_H16, my_H3, my_H2, my_H1, my_H0, my_HKY24, my_HKY23, my_HKY22, my_HKY21, my_HKY20, my_HKY19, my_HKY18, my_HKY17, my_HKY16, my_HKY15, my_HKY14, my_HKY13, my_HKY12, my_HKY11, my_HKY10; generalize (my_S x P rn); intros Sv; scR; unfold Rdiv; symm Sy; ring).
Qed.
Lemma mz_gain (x : nat -> R) (P : nat -> nat -> R) (rn : R) all : symmetric24 P -> kalman_gain (mag_rows all) (hvec (mz_H x)) P (mz_S x P rn) (mz_K x P rn all).
Proof.
  intros Sy. gain Sy ltac:(unfold mz_H) ltac:(unfold mz_K; cbn [Nat.leb Nat.eqb andb]; destruct all; cbn [orb]; [|try (unfold szero; cbn [slit RScalar]; lra)];
    unfold mz_K21, mz_K19_20, mz_K18, mz_K17, mz_K16, mz_K22_23, mz_K4_15, mz_K3, mz_K2, mz_K1, mz_K0, mz_H21, mz_H18, mz_H17, mz_H16, mz_H3, mz_H2, mz_H1, mz_H0, mz_HKZ24, mz_HKZ23, mz_HKZ22, mz_HKZ21, mz_HKZ20, mz_HKZ19, mz_HKZ18, mz_HKZ17, mz_HKZ16, mz_HKZ15, mz_HKZ14, mz_HKZ13, mz_HKZ12, mz_HKZ11, mz_HKZ10; generalize (mz_S x P rn); intros Sv; scR; unfold Rdiv; symm Sy; ring).
Qed.

(** * Airspeed, sideslip and drag: proofs *)
From Coq Require Import Reals Lra Lia.
From Coquelicot Require Import Coquelicot.
From Verif Require Import Scalar RealGeom CovSpec PsdLib CovModel CovUpdProofs CovPredProofs FusionGen FusionSpec FusionProofs.
Open Scope R_scope.

Lemma upd_self (x : nat -> R) i k : upd x i (x i) k = x k.
Proof. unfold upd. destruct (Nat.eqb_spec k i) as [->|]; reflexivity. Qed.
Lemma gradient_sqrt (q : (nat -> R) -> R) x g : (forall i, q (upd x i (x i)) = q x) -> 0 < q x -> gradient q x g ->
  gradient (fun y => sqrt (q y)) x (fun i => g i / (2 * sqrt (q x))).
Proof.
  intros E Q G i Hi. pose proof (G i Hi) as D. simpl in D.
  apply (is_derive_ext (fun t => sqrt (q (upd x i t)))); [reflexivity|].
  replace (g i / (2 * sqrt (q x))) with (scal (g i) (/ (2 * sqrt (q (upd x i (x i)))))) by (rewrite E; unfold scal; simpl; unfold mult; simpl; reflexivity).
  apply (is_derive_comp sqrt (fun t => q (upd x i t))); [|exact D].
  auto_derive; [rewrite E; exact Q|]. field. apply Rgt_not_eq, sqrt_lt_R0. rewrite E. exact Q.
Qed.
Lemma gradient_div (a b : (nat -> R) -> R) x ga gb : (forall i, a (upd x i (x i)) = a x) -> (forall i, b (upd x i (x i)) = b x) ->
  b x <> 0 -> gradient a x ga -> gradient b x gb ->
  gradient (fun y => a y / b y) x (fun i => (ga i - a x / b x * gb i) / b x).
Proof.
  intros Ea Eb B Ga Gb i Hi.
  replace ((ga i - a x / b x * gb i) / b x) with ((ga i * b (upd x i (x i)) - a (upd x i (x i)) * gb i) / b (upd x i (x i)) ^ 2).
  - apply (is_derive_div (fun t => a (upd x i t)) (fun t => b (upd x i t))); [exact (Ga i Hi)|exact (Gb i Hi)|rewrite Eb; exact B].
  - rewrite Ea, Eb. field. exact B.
Qed.
Lemma gradient_eq h x (g g' : nat -> R) : (forall i, (i < 24)%nat -> g i = g' i) -> gradient h x g -> gradient h x g'.
Proof. intros E G i Hi. rewrite <- E by exact Hi. apply G. exact Hi. Qed.

(** ** Airspeed *)
Definition aq (y : nat -> R) : R := (y 4%nat - y 22%nat) * (y 4%nat - y 22%nat) + (y 5%nat - y 23%nat) * (y 5%nat - y 23%nat) + y 6%nat * y 6%nat.
Lemma airspeed_eq y : airspeed_model y = sqrt (aq y).
Proof. reflexivity. Qed.
Lemma as_pred (x : nat -> R) : as_v_tas_pred x = airspeed_model x.
Proof. rewrite airspeed_eq. unfold as_v_tas_pred, as_HK2, as_HK1, as_HK0. scR. reflexivity. Qed.
Lemma as_pos x : 0 < airspeed_model x -> 0 < aq x.
Proof. rewrite airspeed_eq. intros Hp. destruct (Rlt_dec 0 (aq x)); [assumption|]. rewrite sqrt_neg_0 in Hp by lra. lra. Qed.
Definition aqg (x : nat -> R) (i : nat) : R :=
  match i with 4%nat => 2 * (x 4%nat - x 22%nat) | 5%nat => 2 * (x 5%nat - x 23%nat) | 6%nat => 2 * x 6%nat
  | 22%nat => - (2 * (x 4%nat - x 22%nat)) | 23%nat => - (2 * (x 5%nat - x 23%nat)) | _ => 0 end.
Lemma aq_gradient x : gradient aq x (aqg x).
Proof. unfold gradient. states ltac:(unfold aq, aqg; cbn [upd Nat.eqb]; auto_derive; [exact I|ring]). Qed.
Lemma as_gradient (x : nat -> R) : 0 < airspeed_model x -> gradient airspeed_model x (hvec (as_H x)).
Proof.
  intros Hp. pose proof (as_pos x Hp) as Q. apply (gradient_ext _ _ _ _ airspeed_eq).
  apply (gradient_eq _ _ (fun i => aqg x i / (2 * sqrt (aq x)))).
  2: { apply gradient_sqrt; [|exact Q|apply aq_gradient]. intros i. unfold aq. rewrite !upd_self. reflexivity. }
  assert (N : sqrt (aq x) <> 0) by (apply Rgt_not_eq, sqrt_lt_R0; exact Q).
  assert (E3 : as_HK3 x = / sqrt (aq x)) by (unfold as_HK3; rewrite as_pred, airspeed_eq; scR; field; exact N).
  states ltac:(unfold as_H; hv; unfold aqg, as_H4, as_H5, as_H6, as_H22, as_H23, as_HK5, as_HK4; rewrite ?E3; unfold as_HK0, as_HK1; scR; field; exact N).
Qed.
Lemma as_HK36 (x : nat -> R) : 0 < airspeed_model x -> as_HK6 x = as_HK3 x * as_HK3 x.
Proof.
  intros Hp. pose proof (as_pos x Hp) as Q. unfold as_HK6, as_HK3. rewrite as_pred, airspeed_eq.
  assert (E : as_HK2 x = aq x) by (unfold as_HK2, as_HK1, as_HK0; scR; reflexivity). rewrite E.
  rewrite <- (sqrt_sqrt (aq x)) at 1 by lra. scR. field. apply Rgt_not_eq, sqrt_lt_R0. exact Q.
Qed.
Lemma as_var (x : nat -> R) (P : nat -> nat -> R) (rn : R) : 0 < airspeed_model x -> symmetric24 P -> as_S x P rn = quad (hvec (as_H x)) P + rn.
Proof.
  intros Hp Sy. pose proof (as_HK36 x Hp) as E. rewrite quad_hvec by (unfold as_H; dfields). unfold as_H, lsum; cbn [fold_right fst snd]. symm Sy.
  unfold as_S, as_H23, as_H22, as_H6, as_H5, as_H4, as_HK15, as_HK14, as_HK13, as_HK12, as_HK11, as_HK10, as_HK9, as_HK8, as_HK7, as_HK5, as_HK4. rewrite E. generalize (as_HK3 x) (as_HK1 x) (as_HK0 x). intros h3 h1 h0. scR. ring.
Qed.
Lemma as_gain (x : nat -> R) (P : nat -> nat -> R) (rn : R) all : symmetric24 P -> kalman_gain (wind_rows all) (hvec (as_H x)) P (as_S x P rn) (as_K x P rn all).
Proof.
  intros Sy. gain Sy ltac:(unfold as_H) ltac:(unfold as_K; cbn [Nat.leb Nat.eqb andb]; destruct all; cbn [orb]; [|try (unfold szero; cbn [slit RScalar]; lra)];
    unfold as_K23, as_K22, as_K7_21, as_K6, as_K5, as_K4, as_K0_3, as_H23, as_H22, as_H6, as_H5, as_H4, as_HK16, as_HK15, as_HK14, as_HK12, as_HK11, as_HK9, as_HK8, as_HK7, as_HK5, as_HK4; generalize (as_S x P rn) (as_HK3 x) (as_HK1 x) (as_HK0 x); intros Sv h3 h1 h0; scR; unfold Rdiv; symm Sy; ring).
Qed.

(** ** Sideslip *)
Lemma sideslip_eq y : sideslip_model y = w1 y / w0 y.
Proof. unfold sideslip_model. rewrite air0, air1. reflexivity. Qed.
Definition w0g (x : nat -> R) (i : nat) : R :=
  let a := x 4%nat - x 22%nat in let b := x 5%nat - x 23%nat in let c := x 6%nat in
  match i with
  | 0%nat => 2 * (x 0%nat * a + x 3%nat * b - x 2%nat * c) | 1%nat => 2 * (x 1%nat * a + x 2%nat * b + x 3%nat * c)
  | 2%nat => 2 * (- (x 2%nat * a) + x 1%nat * b - x 0%nat * c) | 3%nat => 2 * (- (x 3%nat * a) + x 0%nat * b + x 1%nat * c)
  | 4%nat => x 0%nat * x 0%nat + x 1%nat * x 1%nat - x 2%nat * x 2%nat - x 3%nat * x 3%nat
  | 5%nat => 2 * (x 1%nat * x 2%nat + x 0%nat * x 3%nat) | 6%nat => 2 * (x 1%nat * x 3%nat - x 0%nat * x 2%nat)
  | 22%nat => - (x 0%nat * x 0%nat + x 1%nat * x 1%nat - x 2%nat * x 2%nat - x 3%nat * x 3%nat)
  | 23%nat => - (2 * (x 1%nat * x 2%nat + x 0%nat * x 3%nat)) | _ => 0 end.
Definition w1g (x : nat -> R) (i : nat) : R :=
  let a := x 4%nat - x 22%nat in let b := x 5%nat - x 23%nat in let c := x 6%nat in
  match i with
  | 0%nat => 2 * (- (x 3%nat * a) + x 0%nat * b + x 1%nat * c) | 1%nat => 2 * (x 2%nat * a - x 1%nat * b + x 0%nat * c)
  | 2%nat => 2 * (x 1%nat * a + x 2%nat * b + x 3%nat * c) | 3%nat => 2 * (- (x 0%nat * a) - x 3%nat * b + x 2%nat * c)
  | 4%nat => 2 * (x 1%nat * x 2%nat - x 0%nat * x 3%nat)
  | 5%nat => x 0%nat * x 0%nat - x 1%nat * x 1%nat + x 2%nat * x 2%nat - x 3%nat * x 3%nat
  | 6%nat => 2 * (x 2%nat * x 3%nat + x 0%nat * x 1%nat)
  | 22%nat => - (2 * (x 1%nat * x 2%nat - x 0%nat * x 3%nat))
  | 23%nat => - (x 0%nat * x 0%nat - x 1%nat * x 1%nat + x 2%nat * x 2%nat - x 3%nat * x 3%nat) | _ => 0 end.
Lemma w0_gradient x : gradient w0 x (w0g x).
Proof. unfold gradient. states ltac:(unfold w0, w0g, b0; cbn [upd Nat.eqb]; auto_derive; [exact I|ring]). Qed.
Lemma w1_gradient x : gradient w1 x (w1g x).
Proof. unfold gradient. states ltac:(unfold w1, w1g, b1; cbn [upd Nat.eqb]; auto_derive; [exact I|ring]). Qed.
Lemma ss_den (x : nat -> R) : ss_HK15 x = w0 x.
Proof. unfold ss_HK15, ss_HK14, ss_HK13, ss_HK12, ss_HK11, ss_HK10, ss_HK9, ss_HK8, ss_HK7, ss_HK6, ss_HK5, ss_HK4, ss_HK3, ss_HK1, ss_HK0, w0, b0. scR. ring. Qed.
Lemma ss_ratio (x : nat -> R) : w0 x <> 0 -> ss_HK19 x = w1 x / w0 x.
Proof. intros N. unfold ss_HK19, ss_HK16. rewrite ss_den. generalize dependent (w0 x). intros d N. unfold ss_HK18, ss_HK17, ss_HK12, ss_HK11, ss_HK10, ss_HK9, ss_HK8, ss_HK6, ss_HK5, ss_HK4, ss_HK1, ss_HK0, w1, b1. scR. field. exact N. Qed.
Lemma ss_gradient (x : nat -> R) : RealGeom.vx (to_body x (air_vel x)) <> 0 -> gradient sideslip_model x (hvec (ss_H x)).
Proof.
  rewrite air0. intros N. apply (gradient_ext _ _ _ _ sideslip_eq).
  apply (gradient_eq _ _ (fun i => (w1g x i - w1 x / w0 x * w0g x i) / w0 x)).
  2: { apply gradient_div; [| |exact N|apply w1_gradient|apply w0_gradient]; intros i; unfold w0, w1, b0, b1; rewrite !upd_self; reflexivity. }
  rewrite <- (ss_ratio x N). generalize (ss_den x). intros D.
  states ltac:(unfold ss_H; hv; unfold w0g, w1g, ss_H0, ss_H1, ss_H2, ss_H3, ss_H4, ss_H5, ss_H6, ss_H22, ss_H23, ss_HK32, ss_HK31, ss_HK30, ss_HK29, ss_HK28, ss_HK27, ss_HK26, ss_HK25, ss_HK22, ss_HK21, ss_HK16; rewrite ?D;
    revert N; generalize (w0 x) (ss_HK19 x); intros d r N; unfold ss_HK24, ss_HK23, ss_HK20, ss_HK18, ss_HK17, ss_HK14, ss_HK13, ss_HK12, ss_HK11, ss_HK10, ss_HK9, ss_HK8, ss_HK7, ss_HK6, ss_HK5, ss_HK4, ss_HK3, ss_HK2, ss_HK1, ss_HK0; scR; field; exact N).
Qed.
Lemma ss_HK39e (x : nat -> R) : w0 x <> 0 -> ss_HK39 x = ss_HK16 x * ss_HK16 x.
Proof. intros N. unfold ss_HK39, ss_HK16. rewrite ss_den. scR. field. exact N. Qed.
Lemma ss_var (x : nat -> R) (P : nat -> nat -> R) (rn : R) : RealGeom.vx (to_body x (air_vel x)) <> 0 -> symmetric24 P -> ss_S x P rn = quad (hvec (ss_H x)) P + rn.
Proof.
  rewrite air0. intros N Sy. pose proof (ss_HK39e x N) as E. rewrite quad_hvec by (unfold ss_H; dfields). unfold ss_H, lsum; cbn [fold_right fst snd]. symm Sy.
  unfold ss_S, ss_H23, ss_H22, ss_H6, ss_H5, ss_H4, ss_H3, ss_H2, ss_H1, ss_H0, ss_HK51, ss_HK50, ss_HK49, ss_HK48, ss_HK47, ss_HK46, ss_HK45, ss_HK44, ss_HK43, ss_HK42, ss_HK41, ss_HK40, ss_HK38, ss_HK37, ss_HK36, ss_HK35, ss_HK34, ss_HK33, ss_HK32, ss_HK29, ss_HK22, ss_HK18, ss_HK13, ss_HK10. rewrite E.
  generalize (ss_HK16 x) (ss_HK21 x) (ss_HK25 x) (ss_HK26 x) (ss_HK27 x) (ss_HK28 x) (ss_HK30 x) (ss_HK31 x) (ss_HK8 x) (ss_HK9 x) (ss_HK11 x) (ss_HK12 x). intros.
  scR. ring.
Qed.
Lemma ss_gain (x : nat -> R) (P : nat -> nat -> R) (rn : R) all : symmetric24 P -> kalman_gain (wind_rows all) (hvec (ss_H x)) P (ss_S x P rn) (ss_K x P rn all).
Proof.
  intros Sy. gain Sy ltac:(unfold ss_H) ltac:(unfold ss_K; cbn [Nat.leb Nat.eqb andb]; destruct all; cbn [orb]; [|try (unfold szero; cbn [slit RScalar]; lra)];
    unfold ss_K23, ss_K22, ss_K7_21, ss_K6, ss_K5, ss_K4, ss_K3, ss_K2, ss_K1, ss_K0, ss_H23, ss_H22, ss_H6, ss_H5, ss_H4, ss_H3, ss_H2, ss_H1, ss_H0, ss_HK52, ss_HK51, ss_HK50, ss_HK49, ss_HK48, ss_HK47, ss_HK45, ss_HK44, ss_HK42, ss_HK41, ss_HK40, ss_HK38, ss_HK37, ss_HK36, ss_HK35, ss_HK34, ss_HK33, ss_HK32, ss_HK29, ss_HK22, ss_HK18, ss_HK13, ss_HK10; generalize (ss_S x P rn) (ss_HK16 x) (ss_HK21 x) (ss_HK25 x) (ss_HK26 x) (ss_HK27 x) (ss_HK28 x) (ss_HK30 x) (ss_HK31 x) (ss_HK8 x) (ss_HK9 x) (ss_HK11 x) (ss_HK12 x); intros; scR; unfold Rdiv; symm Sy; ring).
Qed.

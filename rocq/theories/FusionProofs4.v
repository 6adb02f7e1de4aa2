(** * Declination, GPS yaw and heading: proofs *)
From Coq Require Import Reals Lra Lia.
From Coquelicot Require Import Coquelicot.
From Verif Require Import Scalar RealGeom CovSpec PsdLib CovModel CovUpdProofs CovPredProofs FusionGen FusionModel FusionSpec FusionProofs FusionProofs2 FusionProofs3.
Open Scope R_scope.

(** ** The direction angle of a pair *)
Lemma angle_rate (X Y th r : R -> R) (t dx dy : R) : is_derive X t dx -> is_derive Y t dy -> ex_derive th t -> ex_derive r t ->
  r t <> 0 -> locally t (fun u => (X u, Y u) = (r u * cos (th u), r u * sin (th u))) ->
  is_derive th t ((X t * dy - Y t * dx) / (X t * X t + Y t * Y t)).
Proof.
  intros DX DY [dth Dth] [dr Dr] Nr E.
  assert (EX : is_derive X t (dr * cos (th t) - r t * sin (th t) * dth)).
  { apply (is_derive_ext_loc (fun u => r u * cos (th u))).
    - revert E. apply filter_imp. intros u Hu. apply (f_equal fst) in Hu. cbn [fst] in Hu. symmetry. exact Hu.
    - auto_derive; [split; [exists dr; exact Dr|split; [exists dth; exact Dth|exact I]]|].
      replace (Derive (fun u => r u) t) with dr by (symmetry; apply is_derive_unique; exact Dr).
      replace (Derive (fun u => th u) t) with dth by (symmetry; apply is_derive_unique; exact Dth). ring. }
  assert (EY : is_derive Y t (dr * sin (th t) + r t * cos (th t) * dth)).
  { apply (is_derive_ext_loc (fun u => r u * sin (th u))).
    - revert E. apply filter_imp. intros u Hu. apply (f_equal snd) in Hu. cbn [snd] in Hu. symmetry. exact Hu.
    - auto_derive; [split; [exists dr; exact Dr|split; [exists dth; exact Dth|exact I]]|].
      replace (Derive (fun u => r u) t) with dr by (symmetry; apply is_derive_unique; exact Dr).
      replace (Derive (fun u => th u) t) with dth by (symmetry; apply is_derive_unique; exact Dth). ring. }
  apply is_derive_unique in EX. apply is_derive_unique in EY.
  pose proof (is_derive_unique _ _ _ DX) as UX. pose proof (is_derive_unique _ _ _ DY) as UY.
  rewrite UX in EX. rewrite UY in EY. apply locally_singleton in E.
  pose proof (f_equal fst E) as E1. pose proof (f_equal snd E) as E2. cbn [fst snd] in E1, E2.
  assert (R2 : X t * X t + Y t * Y t = r t * r t).
  { rewrite E1, E2. transitivity (r t * r t * (sin (th t) * sin (th t) + cos (th t) * cos (th t))); [ring|].
    pose proof (sin2_cos2 (th t)) as SC. unfold Rsqr in SC. rewrite SC. ring. }
  replace ((X t * dy - Y t * dx) / (X t * X t + Y t * Y t)) with dth; [exact Dth|].
  rewrite R2, EX, EY, E1, E2. pose proof (sin2_cos2 (th t)) as SC. unfold Rsqr in SC.
  apply (Rmult_eq_reg_r (r t * r t)); [|nra]. unfold Rdiv. rewrite Rmult_assoc, Rinv_l by nra. rewrite Rmult_1_r.
  transitivity (r t * r t * dth * (sin (th t) * sin (th t) + cos (th t) * cos (th t))); [rewrite SC; ring|ring].
Qed.
Definition self (X : (nat -> R) -> R) (x : nat -> R) := forall i, X (upd x i (x i)) = X x.
Definition agrad (X Y : R) (gx gy : nat -> R) (i : nat) : R := (X * gy i - Y * gx i) / (X * X + Y * Y).
Lemma angle_gradient_of (p : (nat -> R) -> R * R) (X Y : (nat -> R) -> R) x gx gy : (forall y, p y = (X y, Y y)) -> self X x -> self Y x ->
  gradient X x gx -> gradient Y x gy -> angle_gradient p x (agrad (X x) (Y x) gx gy).
Proof.
  intros E SX SY GX GY i Hi th r Dth Dr Nr L.
  pose proof (angle_rate (fun t => X (upd x i t)) (fun t => Y (upd x i t)) th r (x i) (gx i) (gy i) (GX i Hi) (GY i Hi) Dth Dr Nr) as A.
  cbv beta in A. rewrite SX, SY in A. apply A. revert L. apply filter_imp. intros u. rewrite E. exact (fun H => H).
Qed.
(** the same vector is the gradient of atan(Y/X) where X is not 0 *)
Lemma atan_gradient (X Y : (nat -> R) -> R) x gx gy : self X x -> self Y x -> X x <> 0 -> gradient X x gx -> gradient Y x gy ->
  gradient (fun y => atan (Y y / X y)) x (agrad (X x) (Y x) gx gy).
Proof.
  intros SX SY N GX GY. pose proof (gradient_div Y X x gy gx SY SX N GY GX) as G. intros i Hi. specialize (G i Hi). cbv beta in G.
  replace (agrad (X x) (Y x) gx gy i) with (scal ((gy i - Y x / X x * gx i) / X x) (/ (1 + (Y (upd x i (x i)) / X (upd x i (x i))) ^ 2))).
  2: { rewrite SX, SY. unfold scal; simpl; unfold mult; simpl; unfold agrad. field. assert (0 < X x * X x) by nra. split; [nra|exact N]. }
  apply (is_derive_comp atan (fun t => Y (upd x i t) / X (upd x i t))); [|exact G].
  apply is_derive_Reals. apply derivable_pt_lim_atan.
Qed.
Lemma angle_gradient_eq p x (g g' : nat -> R) : (forall i, (i < 24)%nat -> g i = g' i) -> angle_gradient p x g -> angle_gradient p x g'.
Proof. intros E G i Hi. rewrite <- E by exact Hi. exact (G i Hi). Qed.

(** ** Declination *)
Lemma coord_gradient k x : gradient (fun y => y k) x (fun i => if Nat.eqb k i then 1 else 0).
Proof.
  intros i Hi. unfold upd. destruct (Nat.eqb_spec k i).
  - apply is_derive_ext with (f := fun t => t); [reflexivity|]. exact (@is_derive_id R_AbsRing (x i)).
  - exact (@is_derive_const R_AbsRing R_NormedModule (x k) (x i)).
Qed.
Definition deg (x : nat -> R) : nat -> R := agrad (x 16%nat) (x 17%nat) (fun i => if Nat.eqb 16 i then 1 else 0) (fun i => if Nat.eqb 17 i then 1 else 0).
Lemma de_eq (x : nat -> R) : x 16%nat <> 0 -> forall i, (i < 24)%nat -> deg x i = hvec (de_H x) i.
Proof.
  intros N. unfold deg, agrad. assert (N2 : x 16%nat * x 16%nat + x 17%nat * x 17%nat <> 0) by nra.
  states ltac:(unfold de_H; hv; unfold de_H17, de_H16, de_HK4, de_HK3, de_HK2, de_HK1, de_HK0; scR; field; (lra || (split; [nra|exact N]) || exact N2 || (split; [exact N|nra]) || nra)).
Qed.
Lemma de_gradient (x : nat -> R) : x 16%nat <> 0 -> angle_gradient decl_pair x (hvec (de_H x)).
Proof.
  intros N. apply (angle_gradient_eq _ _ _ _ (de_eq x N)).
  apply (angle_gradient_of _ (fun y => y 16%nat) (fun y => y 17%nat)); [reflexivity| | |apply coord_gradient|apply coord_gradient]; intros i; apply upd_self.
Qed.
Lemma de_gradient_atan (x : nat -> R) : x 16%nat <> 0 -> gradient (fun y => atan (y 17%nat / y 16%nat)) x (hvec (de_H x)).
Proof.
  intros N. apply (gradient_eq _ _ _ _ (de_eq x N)).
  apply (atan_gradient (fun y => y 16%nat) (fun y => y 17%nat)); [intros i; apply upd_self|intros i; apply upd_self|exact N|apply coord_gradient|apply coord_gradient].
Qed.
Lemma de_var (x : nat -> R) (P : nat -> nat -> R) (rn : R) : x 16%nat <> 0 -> symmetric24 P -> de_S x P rn = quad (hvec (de_H x)) P + rn.
Proof.
  intros N Sy. rewrite quad_hvec by (unfold de_H; dfields). unfold de_H, lsum; cbn [fold_right fst snd]. symm Sy.
  unfold de_S, de_H17, de_H16, de_HK8, de_HK7, de_HK6, de_HK5, de_HK4, de_HK3, de_HK2, de_HK1, de_HK0. scR. revert N. generalize (x 16%nat) (x 17%nat) (P 16%nat 16%nat) (P 16%nat 17%nat) (P 17%nat 17%nat). intros n e p q r N.
  field. split; [exact N|nra].
Qed.
Lemma de_gain (x : nat -> R) (P : nat -> nat -> R) (rn : R) : x 16%nat <> 0 -> symmetric24 P -> kalman_gain all_states (hvec (de_H x)) P (de_S x P rn) (de_K x P rn).
Proof.
  intros N Sy. assert (E : - de_HK0 x * de_HK2 x * s_magE x = - de_HK4 x * de_HK5 x).
  { unfold de_HK5, de_HK4, de_HK3, de_HK0. generalize (de_HK2 x). intros h. scR. field. exact N. }
  gain Sy ltac:(unfold de_H) ltac:(unfold de_K; cbn [Nat.leb Nat.eqb andb];
    unfold de_H16, de_H17; cbn [sadd ssub smul sdiv sopp RScalar]; rewrite E; unfold de_K18_23, de_K17, de_K16, de_K0_15, de_HK9, de_HK8, de_HK6; generalize (de_S x P rn) (de_HK4 x) (de_HK5 x); intros; scR; unfold Rdiv; symm Sy; ring).
Qed.

(** ** GPS antenna yaw *)
Definition aX (so co : R) (y : nat -> R) : R :=
  (y 0%nat * y 0%nat + y 1%nat * y 1%nat - y 2%nat * y 2%nat - y 3%nat * y 3%nat) * co + 2 * (y 1%nat * y 2%nat - y 0%nat * y 3%nat) * so.
Definition aY (so co : R) (y : nat -> R) : R :=
  2 * (y 1%nat * y 2%nat + y 0%nat * y 3%nat) * co + (y 0%nat * y 0%nat - y 1%nat * y 1%nat + y 2%nat * y 2%nat - y 3%nat * y 3%nat) * so.
Definition aXg (so co : R) (x : nat -> R) (i : nat) : R := match i with
  | 0%nat => 2 * (x 0%nat * co - x 3%nat * so) | 1%nat => 2 * (x 1%nat * co + x 2%nat * so)
  | 2%nat => 2 * (- (x 2%nat * co) + x 1%nat * so) | 3%nat => 2 * (- (x 3%nat * co) - x 0%nat * so) | _ => 0 end.
Definition aYg (so co : R) (x : nat -> R) (i : nat) : R := match i with
  | 0%nat => 2 * (x 3%nat * co + x 0%nat * so) | 1%nat => 2 * (x 2%nat * co - x 1%nat * so)
  | 2%nat => 2 * (x 1%nat * co + x 2%nat * so) | 3%nat => 2 * (x 0%nat * co - x 3%nat * so) | _ => 0 end.
Lemma aX_gradient so co x : gradient (aX so co) x (aXg so co x).
Proof. unfold gradient. states ltac:(unfold aX, aXg; cbn [upd Nat.eqb]; auto_derive; [exact I|ring]). Qed.
Lemma aY_gradient so co x : gradient (aY so co) x (aYg so co x).
Proof. unfold gradient. states ltac:(unfold aY, aYg; cbn [upd Nat.eqb]; auto_derive; [exact I|ring]). Qed.
Lemma aX_self so co x : self (aX so co) x. Proof. intros i. unfold aX. rewrite !upd_self. reflexivity. Qed.
Lemma aY_self so co x : self (aY so co) x. Proof. intros i. unfold aY. rewrite !upd_self. reflexivity. Qed.
Lemma antenna_eq o y : antenna_pair o y = (aX (sin o) (cos o) y, aY (sin o) (cos o) y).
Proof. unfold antenna_pair. spc. unfold aX, aY. f_equal; ring. Qed.
Lemma ga_9 (x : nat -> R) so co : ga_HK9 x so co = - aX so co x.
Proof. unfold ga_HK9, ga_HK8, ga_HK7, ga_HK6, ga_HK5, ga_HK4, ga_HK3, ga_HK2, ga_HK1, ga_HK0, aX. scR. ring. Qed.
Lemma ga_19i (x : nat -> R) so co : ga_HK19_inverse x so co = aX so co x.
Proof. unfold ga_HK19_inverse, ga_HK8, ga_HK7, ga_HK6, ga_HK5, ga_HK4, ga_HK3, ga_HK2, ga_HK1, ga_HK0, aX. scR. ring. Qed.
Lemma ga_13 (x : nat -> R) so co : ga_HK13 x so co = aY so co x.
Proof. unfold ga_HK13, ga_HK7, ga_HK6, ga_HK5, ga_HK4, ga_HK2, ga_HK1, ga_HK0, aY. scR. ring. Qed.
Lemma ga_17 (x : nat -> R) so co : aX so co x <> 0 -> ga_HK17 x so co = (aX so co x * aX so co x + aY so co x * aY so co x) / (aX so co x * aX so co x).
Proof. intros N. unfold ga_HK17. rewrite ga_9, ga_13. scR. revert N. generalize (aX so co x) (aY so co x). intros a b N. field. exact N. Qed.
Lemma ga_eq (x : nat -> R) so co : aX so co x <> 0 -> forall i, (i < 24)%nat -> agrad (aX so co x) (aY so co x) (aXg so co x) (aYg so co x) i = hvec (ga_H x so co) i.
Proof.
  intros N. unfold agrad. pose proof (ga_17 x so co N) as E17. pose proof (ga_9 x so co) as E9. pose proof (ga_13 x so co) as E13. pose proof (ga_19i x so co) as E19.
  assert (N2 : aX so co x * aX so co x + aY so co x * aY so co x <> 0) by nra.
  states ltac:(unfold ga_H; hv; unfold ga_H0, ga_H1, ga_H2, ga_H3, ga_HK26, ga_HK25, ga_HK24, ga_HK22, ga_HK19, ga_HK18, ga_HK16, ga_HK14, ga_HK10; rewrite ?E17, ?E9, ?E13, ?E19;
    unfold aXg, aYg; revert N N2; clear E17 E9 E13 E19; generalize (aX so co x) (aY so co x); intros a b N N2;
    unfold ga_HK23, ga_HK21, ga_HK20, ga_HK15, ga_HK12, ga_HK11, ga_HK4, ga_HK0; scR; field; (exact N2 || (split; [exact N2|exact N]) || (split; [exact N|exact N2]) || (repeat split; first [exact N|exact N2|lra]))).
Qed.
Lemma ga_gradient (x : nat -> R) o : fst (antenna_pair o x) <> 0 -> angle_gradient (antenna_pair o) x (hvec (ga_H x (sin o) (cos o))).
Proof.
  rewrite antenna_eq. cbn [fst]. intros N. apply (angle_gradient_eq _ _ _ _ (ga_eq x _ _ N)).
  apply (angle_gradient_of _ (aX (sin o) (cos o)) (aY (sin o) (cos o))); [apply antenna_eq|apply aX_self|apply aY_self|apply aX_gradient|apply aY_gradient].
Qed.
Lemma ga_gradient_atan (x : nat -> R) o : fst (antenna_pair o x) <> 0 ->
  gradient (fun y => atan (snd (antenna_pair o y) / fst (antenna_pair o y))) x (hvec (ga_H x (sin o) (cos o))).
Proof.
  rewrite antenna_eq. cbn [fst]. intros N. apply (gradient_eq _ _ _ _ (ga_eq x _ _ N)).
  apply (gradient_ext _ (fun y => atan (aY (sin o) (cos o) y / aX (sin o) (cos o) y))); [intros y; rewrite antenna_eq; reflexivity|].
  apply (atan_gradient (aX (sin o) (cos o)) (aY (sin o) (cos o))); [apply aX_self|apply aY_self|exact N|apply aX_gradient|apply aY_gradient].
Qed.
Lemma ga_29 (x : nat -> R) so co : aX so co x <> 0 -> ga_HK29 x so co = ga_HK18 x so co * ga_HK18 x so co.
Proof.
  intros N. unfold ga_HK29, ga_HK18. pose proof (ga_17 x so co N) as E17.
  assert (N7 : ga_HK17 x so co <> 0). { rewrite E17. revert N. generalize (aX so co x) (aY so co x). intros a b N. assert (0 < a * a) by nra. apply Rmult_integral_contrapositive. split; [nra|apply Rinv_neq_0_compat; nra]. }
  scR. field. exact N7.
Qed.
Lemma ga_var (x : nat -> R) (P : nat -> nat -> R) (rn : R) so co : aX so co x <> 0 -> symmetric24 P -> ga_S x P rn so co = quad (hvec (ga_H x so co)) P + rn.
Proof.
  intros N Sy. pose proof (ga_29 x so co N) as E. rewrite quad_hvec by (unfold ga_H; dfields). unfold ga_H, lsum; cbn [fold_right fst snd]. symm Sy.
  unfold ga_S, ga_HK31, ga_HK30, ga_HK28, ga_HK27, ga_H0, ga_H1, ga_H2, ga_H3. rewrite E.
  generalize (ga_HK18 x so co) (ga_HK16 x so co) (ga_HK24 x so co) (ga_HK25 x so co) (ga_HK26 x so co). intros. scR. ring.
Qed.
Lemma ga_gain (x : nat -> R) (P : nat -> nat -> R) (rn : R) so co : symmetric24 P -> kalman_gain all_states (hvec (ga_H x so co)) P (ga_S x P rn so co) (ga_K x P rn so co).
Proof.
  intros Sy. gain Sy ltac:(unfold ga_H) ltac:(unfold ga_K; cbn [Nat.leb Nat.eqb andb];
    unfold ga_K4_23, ga_K3, ga_K2, ga_K1, ga_K0, ga_HK32, ga_HK31, ga_HK30, ga_HK28, ga_HK27, ga_H0, ga_H1, ga_H2, ga_H3;
    generalize (ga_S x P rn so co) (ga_HK18 x so co) (ga_HK16 x so co) (ga_HK24 x so co) (ga_HK25 x so co) (ga_HK26 x so co); intros; scR; unfold Rdiv; symm Sy; ring).
Qed.

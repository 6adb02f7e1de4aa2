(** * Drag and optical flow: proofs *)
From Coq Require Import Reals Lra Lia.
From Coquelicot Require Import Coquelicot.
From Verif Require Import Scalar RealGeom CovSpec PsdLib CovModel CovUpdProofs CovPredProofs FusionGen FusionSpec FusionProofs FusionProofs2.
Open Scope R_scope.

Lemma gradient_scale c h x (g : nat -> R) : gradient h x g -> gradient (fun y => c * h y) x (fun i => c * g i).
Proof. intros G i Hi. apply (is_derive_scal (fun t => h (upd x i t)) (x i) c (g i)). exact (G i Hi). Qed.

(** ** Drag *)
Lemma drag_x_eq k y : drag_model_x k y = (- k) * w0 y.
Proof. unfold drag_model_x. rewrite air0. ring. Qed.
Lemma drag_y_eq k y : drag_model_y k y = (- k) * w1 y.
Proof. unfold drag_model_y. rewrite air1. ring. Qed.
Lemma dx_gradient (x : nat -> R) (ka : R) : gradient (drag_model_x ka) x (hvec (dx_H x ka)).
Proof.
  apply (gradient_ext _ _ _ _ (drag_x_eq ka)). apply (gradient_eq _ _ (fun i => - ka * w0g x i)); [|apply gradient_scale, w0_gradient].
  states ltac:(unfold dx_H; hv; unfold w0g, dx_H23, dx_H22, dx_H6, dx_H5, dx_H4, dx_H3, dx_H2, dx_H1, dx_H0, dx_HK13, dx_HK12, dx_HK11, dx_HK10, dx_HK9, dx_HK8, dx_HK7, dx_HK6, dx_HK5, dx_HK4, dx_HK3, dx_HK2, dx_HK1, dx_HK0; scR; ring).
Qed.
Lemma dx_var (x : nat -> R) (P : nat -> nat -> R) (rn ka : R) : symmetric24 P -> dx_S x P rn ka = quad (hvec (dx_H x ka)) P + rn.
Proof.
  intros Sy. rewrite quad_hvec by (unfold dx_H; dfields). unfold dx_H, lsum; cbn [fold_right fst snd]. symm Sy.
  unfold dx_S, dx_H23, dx_H22, dx_H6, dx_H5, dx_H4, dx_H3, dx_H2, dx_H1, dx_H0, dx_HK31, dx_HK30, dx_HK29, dx_HK28, dx_HK27, dx_HK26, dx_HK25, dx_HK24, dx_HK23, dx_HK22, dx_HK21, dx_HK20, dx_HK19, dx_HK18, dx_HK17, dx_HK16, dx_HK15, dx_HK14, dx_HK13, dx_HK12, dx_HK10, dx_HK8, dx_HK3. generalize (dx_HK2 x) (dx_HK4 x) (dx_HK5 x) (dx_HK6 x) (dx_HK7 x) (dx_HK9 x) (dx_HK11 x). intros. scR. ring.
Qed.
Lemma dx_gain (x : nat -> R) (P : nat -> nat -> R) (rn ka : R) : symmetric24 P -> kalman_gain wind_states (hvec (dx_H x ka)) P (dx_S x P rn ka) (dx_K x P rn ka).
Proof.
  intros Sy. gain Sy ltac:(unfold dx_H) ltac:(unfold dx_K; cbn [Nat.leb Nat.eqb andb]; try (unfold szero; cbn [slit RScalar]; lra);
    unfold dx_K23, dx_K22, dx_H23, dx_H22, dx_H6, dx_H5, dx_H4, dx_H3, dx_H2, dx_H1, dx_H0, dx_HK32, dx_HK31, dx_HK30, dx_HK29, dx_HK28, dx_HK27, dx_HK26, dx_HK25, dx_HK24, dx_HK23, dx_HK22, dx_HK21, dx_HK20, dx_HK19, dx_HK18, dx_HK17, dx_HK16, dx_HK15, dx_HK14, dx_HK13, dx_HK12, dx_HK10, dx_HK8, dx_HK3; generalize (dx_S x P rn ka) (dx_HK2 x) (dx_HK4 x) (dx_HK5 x) (dx_HK6 x) (dx_HK7 x) (dx_HK9 x) (dx_HK11 x); intros; scR; unfold Rdiv; symm Sy; ring).
Qed.
Lemma dy_gradient (x : nat -> R) (ka : R) : gradient (drag_model_y ka) x (hvec (dy_H x ka)).
Proof.
  apply (gradient_ext _ _ _ _ (drag_y_eq ka)). apply (gradient_eq _ _ (fun i => - ka * w1g x i)); [|apply gradient_scale, w1_gradient].
  states ltac:(unfold dy_H; hv; unfold w1g, dy_H23, dy_H22, dy_H6, dy_H5, dy_H4, dy_H3, dy_H2, dy_H1, dy_H0, dy_HK13, dy_HK12, dy_HK11, dy_HK10, dy_HK9, dy_HK8, dy_HK7, dy_HK6, dy_HK5, dy_HK4, dy_HK3, dy_HK2, dy_HK1, dy_HK0; scR; ring).
Qed.
Lemma dy_var (x : nat -> R) (P : nat -> nat -> R) (rn ka : R) : symmetric24 P -> dy_S x P rn ka = quad (hvec (dy_H x ka)) P + rn.
Proof.
  intros Sy. rewrite quad_hvec by (unfold dy_H; dfields). unfold dy_H, lsum; cbn [fold_right fst snd]. symm Sy.
  unfold dy_S, dy_H23, dy_H22, dy_H6, dy_H5, dy_H4, dy_H3, dy_H2, dy_H1, dy_H0, dy_HK31, dy_HK30, dy_HK29, dy_HK28, dy_HK27, dy_HK26, dy_HK25, dy_HK24, dy_HK23, dy_HK22, dy_HK21, dy_HK20, dy_HK19, dy_HK18, dy_HK17, dy_HK16, dy_HK15, dy_HK14, dy_HK13, dy_HK12, dy_HK10, dy_HK8, dy_HK3. generalize (dy_HK2 x) (dy_HK4 x) (dy_HK5 x) (dy_HK6 x) (dy_HK7 x) (dy_HK9 x) (dy_HK11 x). intros. scR. ring.
Qed.
Lemma dy_gain (x : nat -> R) (P : nat -> nat -> R) (rn ka : R) : symmetric24 P -> kalman_gain wind_states (hvec (dy_H x ka)) P (dy_S x P rn ka) (dy_K x P rn ka).
Proof.
  intros Sy. gain Sy ltac:(unfold dy_H) ltac:(unfold dy_K; cbn [Nat.leb Nat.eqb andb]; try (unfold szero; cbn [slit RScalar]; lra);
    unfold dy_K23, dy_K22, dy_H23, dy_H22, dy_H6, dy_H5, dy_H4, dy_H3, dy_H2, dy_H1, dy_H0, dy_HK32, dy_HK31, dy_HK30, dy_HK29, dy_HK28, dy_HK27, dy_HK26, dy_HK25, dy_HK24, dy_HK23, dy_HK22, dy_HK21, dy_HK20, dy_HK19, dy_HK18, dy_HK17, dy_HK16, dy_HK15, dy_HK14, dy_HK13, dy_HK12, dy_HK10, dy_HK8, dy_HK3; generalize (dy_S x P rn ka) (dy_HK2 x) (dy_HK4 x) (dy_HK5 x) (dy_HK6 x) (dy_HK7 x) (dy_HK9 x) (dy_HK11 x); intros; scR; unfold Rdiv; symm Sy; ring).
Qed.

(** ** Optical flow *)
Definition g0 y := b0 y (y 4%nat) (y 5%nat) (y 6%nat).
Definition g1 y := b1 y (y 4%nat) (y 5%nat) (y 6%nat).
Lemma flow_x_eq rg y : flow_model_x rg y = / rg * g1 y.
Proof. unfold flow_model_x, ground_vel. rewrite to_body1. unfold g1, Rdiv. ring. Qed.
Lemma flow_y_eq rg y : flow_model_y rg y = - / rg * g0 y.
Proof. unfold flow_model_y, ground_vel. rewrite to_body0. unfold g0, Rdiv. ring. Qed.
Definition g0g (x : nat -> R) (i : nat) : R :=
  let a := x 4%nat in let b := x 5%nat in let c := x 6%nat in
  match i with
  | 0%nat => 2 * (x 0%nat * a + x 3%nat * b - x 2%nat * c) | 1%nat => 2 * (x 1%nat * a + x 2%nat * b + x 3%nat * c)
  | 2%nat => 2 * (- (x 2%nat * a) + x 1%nat * b - x 0%nat * c) | 3%nat => 2 * (- (x 3%nat * a) + x 0%nat * b + x 1%nat * c)
  | 4%nat => x 0%nat * x 0%nat + x 1%nat * x 1%nat - x 2%nat * x 2%nat - x 3%nat * x 3%nat
  | 5%nat => 2 * (x 1%nat * x 2%nat + x 0%nat * x 3%nat) | 6%nat => 2 * (x 1%nat * x 3%nat - x 0%nat * x 2%nat)
  | _ => 0 end.
Definition g1g (x : nat -> R) (i : nat) : R :=
  let a := x 4%nat in let b := x 5%nat in let c := x 6%nat in
  match i with
  | 0%nat => 2 * (- (x 3%nat * a) + x 0%nat * b + x 1%nat * c) | 1%nat => 2 * (x 2%nat * a - x 1%nat * b + x 0%nat * c)
  | 2%nat => 2 * (x 1%nat * a + x 2%nat * b + x 3%nat * c) | 3%nat => 2 * (- (x 0%nat * a) - x 3%nat * b + x 2%nat * c)
  | 4%nat => 2 * (x 1%nat * x 2%nat - x 0%nat * x 3%nat)
  | 5%nat => x 0%nat * x 0%nat - x 1%nat * x 1%nat + x 2%nat * x 2%nat - x 3%nat * x 3%nat
  | 6%nat => 2 * (x 2%nat * x 3%nat + x 0%nat * x 1%nat)
  | _ => 0 end.
Lemma g0_gradient x : gradient g0 x (g0g x).
Proof. unfold gradient. states ltac:(unfold g0, g0g, b0; cbn [upd Nat.eqb]; auto_derive; [exact I|ring]). Qed.
Lemma g1_gradient x : gradient g1 x (g1g x).
Proof. unfold gradient. states ltac:(unfold g1, g1g, b1; cbn [upd Nat.eqb]; auto_derive; [exact I|ring]). Qed.
Ltac tbsR := unfold tbs; cbn [Nat.eqb].
Lemma ox_h4 rg : ox_HK4 rg = / rg.
Proof. unfold ox_HK4. scR. unfold Rdiv. ring. Qed.
Lemma ox_h43 rg : rg <> 0 -> ox_HK43 rg = / rg * / rg.
Proof. intros N. unfold ox_HK43. scR. field. exact N. Qed.
Lemma ox_gradient (x : nat -> R) (rg : R) : gradient (flow_model_x rg) x (hvec (ox_H x rg)).
Proof.
  apply (gradient_ext _ _ _ _ (flow_x_eq rg)). apply (gradient_eq _ _ (fun i => / rg * g1g x i)); [|apply gradient_scale, g1_gradient].
  states ltac:(unfold ox_H; hv; unfold g1g, ox_H6, ox_H5, ox_H4, ox_H3, ox_H2, ox_H1, ox_H0, ox_HK37, ox_HK36, ox_HK35, ox_HK34, ox_HK33, ox_HK32, ox_HK31, ox_HK30, ox_HK29, ox_HK28, ox_HK27, ox_HK26, ox_HK25, ox_HK24, ox_HK23, ox_HK22, ox_HK21, ox_HK20, ox_HK19, ox_HK18, ox_HK17, ox_HK16, ox_HK15, ox_HK14, ox_HK13, ox_HK12, ox_HK11, ox_HK10, ox_HK9, ox_HK8, ox_HK7, ox_HK6, ox_HK5, ox_HK3, ox_HK2, ox_HK1, ox_HK0; rewrite ?ox_h4; tbsR; scR; ring).
Qed.
Lemma ox_var (x : nat -> R) (P : nat -> nat -> R) (rn rg : R) : rg <> 0 -> symmetric24 P -> ox_S x P rn rg = quad (hvec (ox_H x rg)) P + rn.
Proof.
  intros N Sy. rewrite quad_hvec by (unfold ox_H; dfields). unfold ox_H, lsum; cbn [fold_right fst snd]. symm Sy.
  unfold ox_S, ox_H6, ox_H5, ox_H4, ox_H3, ox_H2, ox_H1, ox_H0, ox_HK49, ox_HK48, ox_HK47, ox_HK46, ox_HK45, ox_HK44, ox_HK42, ox_HK41, ox_HK40, ox_HK39, ox_HK38, ox_HK5. rewrite ox_h4, (ox_h43 rg N). generalize (ox_HK3 x) (ox_HK7 x) (ox_HK8 x) (ox_HK9 x) (ox_HK25 x) (ox_HK33 x) (ox_HK37 x). intros. scR. ring.
Qed.
Lemma ox_gain (x : nat -> R) (P : nat -> nat -> R) (rn rg : R) : symmetric24 P -> kalman_gain all_states (hvec (ox_H x rg)) P (ox_S x P rn rg) (ox_K x P rn rg).
Proof.
  intros Sy. gain Sy ltac:(unfold ox_H) ltac:(unfold ox_K; cbn [Nat.leb Nat.eqb andb];
    unfold ox_K7_23, ox_K6, ox_K5, ox_K4, ox_K3, ox_K2, ox_K1, ox_K0, ox_H6, ox_H5, ox_H4, ox_H3, ox_H2, ox_H1, ox_H0, ox_HK50, ox_HK49, ox_HK48, ox_HK47, ox_HK46, ox_HK45, ox_HK44, ox_HK42, ox_HK41, ox_HK40, ox_HK39, ox_HK38, ox_HK5; rewrite ?ox_h4; generalize (ox_S x P rn rg) (ox_HK3 x) (ox_HK7 x) (ox_HK8 x) (ox_HK9 x) (ox_HK25 x) (ox_HK33 x) (ox_HK37 x); intros; scR; unfold Rdiv; symm Sy; ring).
Qed.
Lemma oy_gradient (x : nat -> R) (rg : R) : gradient (flow_model_y rg) x (hvec (oy_H x rg)).
Proof.
  apply (gradient_ext _ _ _ _ (flow_y_eq rg)). apply (gradient_eq _ _ (fun i => - / rg * g0g x i)); [|apply gradient_scale, g0_gradient].
  states ltac:(unfold oy_H; hv; unfold g0g, oy_H6, oy_H5, oy_H4, oy_H3, oy_H2, oy_H1, oy_H0, oy_HK79, oy_HK78, oy_HK77, oy_HK76, oy_HK75, oy_HK74, oy_HK73, oy_HK72, oy_HK71, oy_HK70, oy_HK69, oy_HK68, oy_HK67, oy_HK66, oy_HK65, oy_HK64, oy_HK63, oy_HK62, oy_HK61, oy_HK60, oy_HK59, oy_HK58, oy_HK57, oy_HK56, oy_HK55, oy_HK54, oy_HK53, oy_HK52, oy_HK51, ox_HK37, ox_HK36, ox_HK35, ox_HK34, ox_HK33, ox_HK32, ox_HK31, ox_HK30, ox_HK29, ox_HK28, ox_HK27, ox_HK26, ox_HK25, ox_HK24, ox_HK23, ox_HK22, ox_HK21, ox_HK20, ox_HK19, ox_HK18, ox_HK17, ox_HK16, ox_HK15, ox_HK14, ox_HK13, ox_HK12, ox_HK11, ox_HK10, ox_HK9, ox_HK8, ox_HK7, ox_HK6, ox_HK5, ox_HK3, ox_HK2, ox_HK1, ox_HK0; rewrite ?ox_h4; tbsR; scR; ring).
Qed.
Lemma oy_81 (x : nat -> R) : oy_HK81 x = 2 * oy_HK66 x. Proof. unfold oy_HK86, oy_HK85, oy_HK84, oy_HK83, oy_HK82, oy_HK81, oy_HK79, oy_HK78, oy_HK77, oy_HK76, oy_HK75, oy_HK74, oy_HK73, oy_HK72, oy_HK71, oy_HK70, oy_HK69, oy_HK68, oy_HK67, oy_HK66, oy_HK65, oy_HK64, oy_HK63, oy_HK62, oy_HK61, oy_HK60, oy_HK59, oy_HK58, oy_HK57, oy_HK56, oy_HK55, oy_HK54, oy_HK53, oy_HK52, oy_HK51, ox_HK37, ox_HK36, ox_HK35, ox_HK34, ox_HK33, ox_HK32, ox_HK31, ox_HK30, ox_HK29, ox_HK28, ox_HK27, ox_HK26, ox_HK25, ox_HK24, ox_HK23, ox_HK22, ox_HK21, ox_HK20, ox_HK19, ox_HK18, ox_HK17, ox_HK16, ox_HK15, ox_HK14, ox_HK13, ox_HK12, ox_HK11, ox_HK10, ox_HK9, ox_HK8, ox_HK7, ox_HK6, ox_HK5, ox_HK3, ox_HK2, ox_HK1, ox_HK0; tbsR; scR; ring. Qed.
Lemma oy_82 (x : nat -> R) : oy_HK82 x = 2 * oy_HK68 x. Proof. unfold oy_HK86, oy_HK85, oy_HK84, oy_HK83, oy_HK82, oy_HK81, oy_HK79, oy_HK78, oy_HK77, oy_HK76, oy_HK75, oy_HK74, oy_HK73, oy_HK72, oy_HK71, oy_HK70, oy_HK69, oy_HK68, oy_HK67, oy_HK66, oy_HK65, oy_HK64, oy_HK63, oy_HK62, oy_HK61, oy_HK60, oy_HK59, oy_HK58, oy_HK57, oy_HK56, oy_HK55, oy_HK54, oy_HK53, oy_HK52, oy_HK51, ox_HK37, ox_HK36, ox_HK35, ox_HK34, ox_HK33, ox_HK32, ox_HK31, ox_HK30, ox_HK29, ox_HK28, ox_HK27, ox_HK26, ox_HK25, ox_HK24, ox_HK23, ox_HK22, ox_HK21, ox_HK20, ox_HK19, ox_HK18, ox_HK17, ox_HK16, ox_HK15, ox_HK14, ox_HK13, ox_HK12, ox_HK11, ox_HK10, ox_HK9, ox_HK8, ox_HK7, ox_HK6, ox_HK5, ox_HK3, ox_HK2, ox_HK1, ox_HK0; tbsR; scR; ring. Qed.
Lemma oy_83 (x : nat -> R) : oy_HK83 x = 2 * oy_HK70 x. Proof. unfold oy_HK86, oy_HK85, oy_HK84, oy_HK83, oy_HK82, oy_HK81, oy_HK79, oy_HK78, oy_HK77, oy_HK76, oy_HK75, oy_HK74, oy_HK73, oy_HK72, oy_HK71, oy_HK70, oy_HK69, oy_HK68, oy_HK67, oy_HK66, oy_HK65, oy_HK64, oy_HK63, oy_HK62, oy_HK61, oy_HK60, oy_HK59, oy_HK58, oy_HK57, oy_HK56, oy_HK55, oy_HK54, oy_HK53, oy_HK52, oy_HK51, ox_HK37, ox_HK36, ox_HK35, ox_HK34, ox_HK33, ox_HK32, ox_HK31, ox_HK30, ox_HK29, ox_HK28, ox_HK27, ox_HK26, ox_HK25, ox_HK24, ox_HK23, ox_HK22, ox_HK21, ox_HK20, ox_HK19, ox_HK18, ox_HK17, ox_HK16, ox_HK15, ox_HK14, ox_HK13, ox_HK12, ox_HK11, ox_HK10, ox_HK9, ox_HK8, ox_HK7, ox_HK6, ox_HK5, ox_HK3, ox_HK2, ox_HK1, ox_HK0; tbsR; scR; ring. Qed.
Lemma oy_84 (x : nat -> R) : oy_HK84 x = oy_HK74 x. Proof. unfold oy_HK86, oy_HK85, oy_HK84, oy_HK83, oy_HK82, oy_HK81, oy_HK79, oy_HK78, oy_HK77, oy_HK76, oy_HK75, oy_HK74, oy_HK73, oy_HK72, oy_HK71, oy_HK70, oy_HK69, oy_HK68, oy_HK67, oy_HK66, oy_HK65, oy_HK64, oy_HK63, oy_HK62, oy_HK61, oy_HK60, oy_HK59, oy_HK58, oy_HK57, oy_HK56, oy_HK55, oy_HK54, oy_HK53, oy_HK52, oy_HK51, ox_HK37, ox_HK36, ox_HK35, ox_HK34, ox_HK33, ox_HK32, ox_HK31, ox_HK30, ox_HK29, ox_HK28, ox_HK27, ox_HK26, ox_HK25, ox_HK24, ox_HK23, ox_HK22, ox_HK21, ox_HK20, ox_HK19, ox_HK18, ox_HK17, ox_HK16, ox_HK15, ox_HK14, ox_HK13, ox_HK12, ox_HK11, ox_HK10, ox_HK9, ox_HK8, ox_HK7, ox_HK6, ox_HK5, ox_HK3, ox_HK2, ox_HK1, ox_HK0; tbsR; scR; ring. Qed.
Lemma oy_85 (x : nat -> R) : oy_HK85 x = oy_HK77 x. Proof. unfold oy_HK86, oy_HK85, oy_HK84, oy_HK83, oy_HK82, oy_HK81, oy_HK79, oy_HK78, oy_HK77, oy_HK76, oy_HK75, oy_HK74, oy_HK73, oy_HK72, oy_HK71, oy_HK70, oy_HK69, oy_HK68, oy_HK67, oy_HK66, oy_HK65, oy_HK64, oy_HK63, oy_HK62, oy_HK61, oy_HK60, oy_HK59, oy_HK58, oy_HK57, oy_HK56, oy_HK55, oy_HK54, oy_HK53, oy_HK52, oy_HK51, ox_HK37, ox_HK36, ox_HK35, ox_HK34, ox_HK33, ox_HK32, ox_HK31, ox_HK30, ox_HK29, ox_HK28, ox_HK27, ox_HK26, ox_HK25, ox_HK24, ox_HK23, ox_HK22, ox_HK21, ox_HK20, ox_HK19, ox_HK18, ox_HK17, ox_HK16, ox_HK15, ox_HK14, ox_HK13, ox_HK12, ox_HK11, ox_HK10, ox_HK9, ox_HK8, ox_HK7, ox_HK6, ox_HK5, ox_HK3, ox_HK2, ox_HK1, ox_HK0; tbsR; scR; ring. Qed.
Lemma oy_86 (x : nat -> R) : oy_HK86 x = oy_HK79 x. Proof. unfold oy_HK86, oy_HK85, oy_HK84, oy_HK83, oy_HK82, oy_HK81, oy_HK79, oy_HK78, oy_HK77, oy_HK76, oy_HK75, oy_HK74, oy_HK73, oy_HK72, oy_HK71, oy_HK70, oy_HK69, oy_HK68, oy_HK67, oy_HK66, oy_HK65, oy_HK64, oy_HK63, oy_HK62, oy_HK61, oy_HK60, oy_HK59, oy_HK58, oy_HK57, oy_HK56, oy_HK55, oy_HK54, oy_HK53, oy_HK52, oy_HK51, ox_HK37, ox_HK36, ox_HK35, ox_HK34, ox_HK33, ox_HK32, ox_HK31, ox_HK30, ox_HK29, ox_HK28, ox_HK27, ox_HK26, ox_HK25, ox_HK24, ox_HK23, ox_HK22, ox_HK21, ox_HK20, ox_HK19, ox_HK18, ox_HK17, ox_HK16, ox_HK15, ox_HK14, ox_HK13, ox_HK12, ox_HK11, ox_HK10, ox_HK9, ox_HK8, ox_HK7, ox_HK6, ox_HK5, ox_HK3, ox_HK2, ox_HK1, ox_HK0; tbsR; scR; ring. Qed.
Lemma oy_var (x : nat -> R) (P : nat -> nat -> R) (rn rg : R) : rg <> 0 -> symmetric24 P -> oy_S x P rn rg = quad (hvec (oy_H x rg)) P + rn.
Proof.
  intros N Sy. rewrite quad_hvec by (unfold oy_H; dfields). unfold oy_H, lsum; cbn [fold_right fst snd]. symm Sy.
  unfold oy_S, oy_H6, oy_H5, oy_H4, oy_H3, oy_H2, oy_H1, oy_H0, oy_HK94, oy_HK93, oy_HK92, oy_HK91, oy_HK90, oy_HK89, oy_HK88, oy_HK87, oy_HK80, ox_HK5. rewrite ox_h4, (ox_h43 rg N), oy_81, oy_82, oy_83, oy_84, oy_85, oy_86.
  generalize (oy_HK63 x) (oy_HK66 x) (oy_HK68 x) (oy_HK70 x) (oy_HK74 x) (oy_HK77 x) (oy_HK79 x). intros. scR. ring.
Qed.
(** the rows 7..23 are computed from another matrix Pl than rows 0..6 *)
Lemma oy_gain_rows (x : nat -> R) (P Pl : nat -> nat -> R) (rn rg : R) : symmetric24 P ->
  forall i, (i < 24)%nat -> oy_K x P Pl rn rg i = rsum 24 (fun j => (if (i <=? 6)%nat then P i j else Pl j i) * hvec (oy_H x rg) j) / oy_S x P rn rg.
Proof.
  intros Sy i Hi. rewrite rsum_hvec by (unfold oy_H; dfields). unfold oy_H, lsum; cbn [fold_right fst snd].
  do 24 (destruct i as [|i]; [unfold oy_K; cbn [Nat.leb Nat.eqb andb]; symm Sy;
    unfold oy_K7_23, oy_K6, oy_K5, oy_K4, oy_K3, oy_K2, oy_K1, oy_K0, oy_H6, oy_H5, oy_H4, oy_H3, oy_H2, oy_H1, oy_H0, oy_HK95, oy_HK94, oy_HK93, oy_HK91, oy_HK90, oy_HK89, oy_HK88, oy_HK87, oy_HK80, ox_HK5; rewrite ?ox_h4, ?oy_81, ?oy_82, ?oy_83, ?oy_84, ?oy_85, ?oy_86;
    generalize (oy_S x P rn rg) (oy_HK63 x) (oy_HK66 x) (oy_HK68 x) (oy_HK70 x) (oy_HK74 x) (oy_HK77 x) (oy_HK79 x); intros; scR; unfold Rdiv; symm Sy; ring|]); exfalso; lia.
Qed.

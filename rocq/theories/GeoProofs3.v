(** * Great-circle triangle inequality and the distortion of the local map (geo.cpp l.115-160, l.184-201) *)
From Coq Require Import Reals Lra.
From Coquelicot Require Import Coquelicot.
From Verif Require Import RealGeom GeoModel GeoProofs Props_Geo.
Open Scope R_scope.

Lemma triangle_unit (a1 a2 a3 b1 b2 b3 c1 c2 c3 : R) :
  a1*a1+a2*a2+a3*a3 = 1 -> b1*b1+b2*b2+b3*b3 = 1 -> c1*c1+c2*c2+c3*c3 = 1 ->
  let ab := a1*b1+a2*b2+a3*b3 in let bc := b1*c1+b2*c2+b3*c3 in let ac := a1*c1+a2*c2+a3*c3 in
  (ac - ab * bc) * (ac - ab * bc) <= (1 - ab * ab) * (1 - bc * bc).
Proof.
  intros A B C ab bc ac.
  (* components orthogonal to b *)
  set (u1 := a1 - ab*b1). set (u2 := a2 - ab*b2). set (u3 := a3 - ab*b3).
  set (v1 := c1 - bc*b1). set (v2 := c2 - bc*b2). set (v3 := c3 - bc*b3).
  assert (E1 : ac - ab*bc = u1*v1+u2*v2+u3*v3).
  { transitivity (ac - ab*bc - ab*bc + ab*bc*(b1*b1+b2*b2+b3*b3)); [rewrite B; ring|]. unfold u1,u2,u3,v1,v2,v3, ac. 
    transitivity (a1*c1+a2*c2+a3*c3 - ab*(b1*c1+b2*c2+b3*c3) - bc*(a1*b1+a2*b2+a3*b3) + ab*bc*(b1*b1+b2*b2+b3*b3)); [unfold ab, bc; ring|ring]. }
  assert (E2 : 1 - ab*ab = u1*u1+u2*u2+u3*u3).
  { unfold u1,u2,u3. transitivity ((a1*a1+a2*a2+a3*a3) - 2*ab*(a1*b1+a2*b2+a3*b3) + ab*ab*(b1*b1+b2*b2+b3*b3)); [rewrite A, B; fold ab; ring|ring]. }
  assert (E3 : 1 - bc*bc = v1*v1+v2*v2+v3*v3).
  { unfold v1,v2,v3. transitivity ((c1*c1+c2*c2+c3*c3) - 2*bc*(b1*c1+b2*c2+b3*c3) + bc*bc*(b1*b1+b2*b2+b3*b3)); [rewrite C, B; fold bc; ring|ring]. }
  rewrite E1, E2, E3.
  assert (Q : (u1*u1+u2*u2+u3*u3)*(v1*v1+v2*v2+v3*v3) - (u1*v1+u2*v2+u3*v3)*(u1*v1+u2*v2+u3*v3) = (u1*v2-u2*v1)*(u1*v2-u2*v1)+(u1*v3-u3*v1)*(u1*v3-u3*v1)+(u2*v3-u3*v2)*(u2*v3-u3*v2)) by ring.
  pose proof (Rle_0_sqr (u1*v2-u2*v1)). pose proof (Rle_0_sqr (u1*v3-u3*v1)). pose proof (Rle_0_sqr (u2*v3-u3*v2)). unfold Rsqr in *. lra.
Qed.
Lemma acos_triangle (x y z : R) : -1 <= x <= 1 -> -1 <= y <= 1 -> -1 <= z <= 1 ->
  (z - x * y) * (z - x * y) <= (1 - x * x) * (1 - y * y) -> acos z <= acos x + acos y.
Proof.
  intros X Y Z H. pose proof (acos_bound x). pose proof (acos_bound y). pose proof (acos_bound z).
  destruct (Rle_dec PI (acos x + acos y)); [lra|].
  destruct (Rle_dec (acos z) (acos x + acos y)) as [|N]; [assumption|exfalso].
  assert (C : cos (acos z) < cos (acos x + acos y)) by (apply cos_decreasing_1; lra).
  rewrite cos_plus, !cos_acos in C by assumption.
  assert (S : forall t, -1 <= t <= 1 -> 0 <= sin (acos t) /\ sin (acos t) * sin (acos t) = 1 - t * t).
  { intros t T. pose proof (acos_bound t). split; [apply sin_ge_0; lra|]. pose proof (sin2_cos2 (acos t)) as Q. unfold Rsqr in Q. rewrite cos_acos in Q by assumption. lra. }
  destruct (S x X) as (S1 & S2). destruct (S y Y) as (S3 & S4). set (s := sin (acos x)) in *. set (t := sin (acos y)) in *.
  assert (0 <= s * t) by (apply Rmult_le_pos; assumption).
  assert ((1 - x * x) * (1 - y * y) = (s * t) * (s * t)) by (rewrite <- S2, <- S4; ring). nra.
Qed.

(** ** sin x / x decreases *)
Lemma sin_xcos (x : R) : 0 <= x <= PI -> x * cos x <= sin x.
Proof.
  intros (H0 & HP). destruct (Req_dec x 0) as [->|N]; [rewrite sin_0; lra|].
  destruct (MVT_gen (fun x => sin x - x * cos x) 0 x (fun x => x * sin x)) as (c & C & E).
  - intros y _. auto_derive; [trivial|ring].
  - intros y _. apply continuity_pt_minus; [apply continuity_sin|]. apply continuity_pt_mult; [apply derivable_continuous_pt, derivable_pt_id|apply continuity_cos].
  - rewrite Rmin_left, Rmax_right in C by lra. cbv beta in E. rewrite sin_0 in E. assert (0 <= sin c) by (apply sin_ge_0; lra). assert (0 <= c * sin c * (x - 0)) by (apply Rmult_le_pos; [apply Rmult_le_pos; lra|lra]). lra.
Qed.
Lemma sinc_decr (s t : R) : 0 < s -> s <= t -> t <= PI -> sin t / t <= sin s / s.
Proof.
  intros S ST T. destruct (Req_dec s t) as [->|N]; [lra|].
  destruct (MVT_gen (fun x => sin x / x) s t (fun x => (x * cos x - sin x) / (x * x))) as (c & C & E).
  - rewrite Rmin_left, Rmax_right by lra. intros y Y. auto_derive; [lra|field; lra].
  - rewrite Rmin_left, Rmax_right by lra. intros y Y. apply continuity_pt_div; [apply continuity_sin|apply derivable_continuous_pt, derivable_pt_id|lra].
  - rewrite Rmin_left, Rmax_right in C by lra. cbv beta in E. pose proof (sin_xcos c ltac:(lra)) as Q.
    assert (0 < / (c * c)) by (apply Rinv_0_lt_compat; nra). assert (K : (c * cos c - sin c) / (c * c) <= 0) by (unfold Rdiv; nra). nra.
Qed.
(** ** cos (sqrt x) is convex on [0, pi^2] *)
Lemma cos_sqrt_slope (x0 x1 : R) : 0 <= x0 -> x0 < x1 -> x1 <= PI * PI ->
  exists c, x0 <= c <= x1 /\ 0 < c /\ cos (sqrt x1) - cos (sqrt x0) = - (sin (sqrt c) / sqrt c / 2) * (x1 - x0).
Proof.
  intros H0 H1 HP.
  destruct (MVT_gen (fun x => cos (sqrt x)) x0 x1 (fun x => if Req_EM_T x 0 then - (sin (sqrt ((x0+x1)/2)) / sqrt ((x0+x1)/2) / 2) else - (sin (sqrt x) / sqrt x / 2))) as (c & C & E).
  - rewrite Rmin_left, Rmax_right by lra. intros y Y. destruct (Req_EM_T y 0); [lra|].
    assert (0 < sqrt y) by (apply sqrt_lt_R0; lra). auto_derive; [lra|]. field. lra.
  - rewrite Rmin_left, Rmax_right by lra. intros y Y. apply (continuity_pt_comp sqrt cos); [apply continuity_pt_sqrt; lra|apply continuity_cos].
  - rewrite Rmin_left, Rmax_right in C by lra. cbv beta in E. destruct (Req_EM_T c 0) as [Z|Z].
    + exists ((x0 + x1) / 2). split; [lra|]. split; [lra|exact E].
    + exists c. split; [lra|]. split; [lra|exact E].
Qed.
Lemma cos_sqrt_chord (x0 x1 u : R) : 0 <= x0 -> x0 <= x1 -> x1 <= PI * PI -> 0 <= u <= 1 ->
  cos (sqrt (x0 + u * (x1 - x0))) <= cos (sqrt x0) + u * (cos (sqrt x1) - cos (sqrt x0)).
Proof.
  intros H0 H1 HP U. set (x := x0 + u * (x1 - x0)).
  destruct (Req_dec x0 x) as [E|E].
  { rewrite <- E. assert (Z : u = 0 \/ x1 = x0). { assert (u * (x1 - x0) = 0) by (unfold x in E; lra). destruct (Rmult_integral _ _ H); [left|right]; lra. }
    destruct Z as [->| ->]; lra. }
  assert (X : x0 < x). { unfold x in *. assert (0 <= u * (x1 - x0)) by nra. lra. }
  destruct (Req_dec x x1) as [F|F].
  { assert (u = 1). { unfold x in F. assert ((1 - u) * (x1 - x0) = 0) by lra. destruct (Rmult_integral _ _ H); [lra|]. exfalso. unfold x in X. nra. }
    rewrite F. subst u. lra. }
  assert (X1 : x < x1). { unfold x in *. assert (0 <= (1 - u) * (x1 - x0)) by nra. lra. }
  destruct (cos_sqrt_slope x0 x H0 X ltac:(lra)) as (c & C & Cp & EC). destruct (cos_sqrt_slope x x1 ltac:(lra) X1 HP) as (d & D & Dp & ED).
  assert (SD : sin (sqrt d) / sqrt d <= sin (sqrt c) / sqrt c).
  { apply sinc_decr; [apply sqrt_lt_R0; exact Cp|apply sqrt_le_1; lra|]. pose proof PI_RGT_0. rewrite <- (sqrt_square PI) by lra. apply sqrt_le_1; lra. }
  set (p := sin (sqrt c) / sqrt c) in *. set (q := sin (sqrt d) / sqrt d) in *.
  assert (XU : x - x0 = u * (x1 - x0)) by (unfold x; ring). assert (XV : x1 - x = (1 - u) * (x1 - x0)) by (unfold x; ring).
  rewrite XU in EC. rewrite XV in ED.
  set (g := x1 - x0) in *. assert (0 < g) by (unfold g; lra).
  (* F x - F x0 = -(p/2) u g ; F x1 - F x = -(q/2) (1-u) g *)
  assert (M : u * (1 - u) * g * (p - q) >= 0). { apply Rle_ge. apply Rmult_le_pos; [apply Rmult_le_pos; [apply Rmult_le_pos; lra|lra]|lra]. }
  nra.
Qed.
(** ** law of cosines against the plane *)
Lemma plane_ge_sphere (a b k : R) : 0 <= a -> 0 <= b -> a + b <= PI -> -1 <= k <= 1 ->
  acos (cos a * cos b + sin a * sin b * k) <= sqrt (a * a + b * b - 2 * a * b * k).
Proof.
  intros A B AB K. set (u := (1 - k) / 2).
  assert (U : 0 <= u <= 1) by (unfold u; lra).
  assert (P1 : 0 <= (a - b) * (a - b)) by apply Rle_0_sqr. assert (P2 : 0 <= a * b) by (apply Rmult_le_pos; assumption).
  assert (P3 : (a + b) * (a + b) <= PI * PI) by (apply Rmult_le_compat; lra). assert (P4 : (a - b) * (a - b) <= (a + b) * (a + b)) by lra.
  pose proof (cos_sqrt_chord ((a - b) * (a - b)) ((a + b) * (a + b)) u P1 P4 P3 U) as H.
  replace ((a - b) * (a - b) + u * ((a + b) * (a + b) - (a - b) * (a - b))) with (a * a + b * b - 2 * a * b * k) in H by (unfold u; field).
  rewrite (sqrt_square (a + b)) in H by lra.
  assert (S1 : cos (sqrt ((a - b) * (a - b))) = cos (a - b)).
  { change ((a - b) * (a - b)) with (Rsqr (a - b)). rewrite sqrt_Rsqr_abs. unfold Rabs. destruct (Rcase_abs (a - b)); [apply cos_neg|reflexivity]. }
  rewrite S1, cos_minus, cos_plus in H.
  replace (cos a * cos b + sin a * sin b + u * (cos a * cos b - sin a * sin b - (cos a * cos b + sin a * sin b))) with (cos a * cos b + sin a * sin b * k) in H by (unfold u; field).
  set (m := sqrt (a * a + b * b - 2 * a * b * k)) in *.
  assert (M : 0 <= m <= PI).
  { split; [apply sqrt_pos|]. unfold m. pose proof PI_RGT_0. rewrite <- (sqrt_square PI) by lra. apply sqrt_le_1_alt. assert (a * a + b * b - 2 * a * b * k <= (a + b) * (a + b)) by nra. lra. }
  set (z := cos a * cos b + sin a * sin b * k) in *.
  assert (Z : -1 <= z <= 1).
  { assert (0 <= sin a) by (apply sin_ge_0; lra). assert (0 <= sin b) by (apply sin_ge_0; lra). assert (0 <= sin a * sin b) by (apply Rmult_le_pos; assumption).
    pose proof (COS_bound (a - b)) as (_ & P5). pose proof (COS_bound (a + b)) as (P6 & _). rewrite cos_minus in P5. rewrite cos_plus in P6. unfold z. nra. }
  destruct (Rle_dec (acos z) m) as [|N]; [assumption|exfalso]. pose proof (acos_bound z).
  assert (cos (acos z) < cos m) by (apply cos_decreasing_1; lra). rewrite cos_acos in H1 by assumption. lra.
Qed.
Lemma x_le_sin (x : R) : 0 <= x -> sin x <= x.
Proof. intros H. destruct (Req_dec x 0) as [->|]; [rewrite sin_0; lra|]. left. apply sin_lt_x. lra. Qed.
Lemma plane_le_sphere (a b k rho : R) : 0 <= a <= rho -> 0 <= b <= rho -> 0 < rho < PI -> -1 <= k <= 1 ->
  sqrt (a * a + b * b - 2 * a * b * k) <= rho / sin rho * acos (cos a * cos b + sin a * sin b * k).
Proof.
  intros A B Rh K. assert (SR : 0 < sin rho) by (apply sin_gt_0; lra). set (z := cos a * cos b + sin a * sin b * k).
  assert (S0 : forall x, 0 <= x <= rho -> 0 <= sin x) by (intros; apply sin_ge_0; lra).
  assert (P0 : 0 <= sin a * sin b) by (apply Rmult_le_pos; apply S0; assumption).
  assert (Z : -1 <= z <= 1).
  { pose proof (COS_bound (a - b)) as (_ & P1). pose proof (COS_bound (a + b)) as (P2 & _). rewrite cos_minus in P1. rewrite cos_plus in P2. unfold z. nra. }
  set (d := acos z). pose proof (acos_bound z) as DB. fold d in DB.
  set (Kf := rho / sin rho). assert (KP : 0 < Kf) by (unfold Kf; apply Rdiv_lt_0_compat; lra).
  (* x <= Kf sin x on [0, rho] *)
  assert (LK : forall x, 0 <= x <= rho -> x <= Kf * sin x).
  { intros x X. destruct (Req_dec x 0) as [->|]; [rewrite sin_0; lra|]. pose proof (sinc_decr x rho ltac:(lra) ltac:(lra) ltac:(lra)) as Q.
    apply (Rmult_le_reg_r (sin rho)); [exact SR|]. unfold Kf. replace (rho / sin rho * sin x * sin rho) with (rho * sin x) by (field; lra).
    apply (Rmult_le_compat_r (x * rho)) in Q; [|nra]. replace (sin rho / rho * (x * rho)) with (x * sin rho) in Q by (field; lra). replace (sin x / x * (x * rho)) with (rho * sin x) in Q by (field; lra). exact Q. }
  (* chord *)
  assert (CH : 4 * (sin (d / 2) * sin (d / 2)) = 4 * (sin ((a - b) / 2) * sin ((a - b) / 2)) + 2 * (sin a * sin b) * (1 - k)).
  { rewrite !half_angle, cos_minus. unfold d. rewrite cos_acos by exact Z. unfold z. field. }
  assert (SD : sin (d / 2) * sin (d / 2) <= d / 2 * (d / 2)).
  { assert (0 <= sin (d / 2)) by (apply sin_ge_0; lra). pose proof (x_le_sin (d / 2) ltac:(lra)). nra. }
  assert (E2 : (a - b) * (a - b) <= Kf * Kf * (4 * (sin ((a - b) / 2) * sin ((a - b) / 2)))).
  { assert (W : forall e, 0 <= e <= rho -> e * e <= Kf * Kf * (4 * (sin (e / 2) * sin (e / 2)))).
    { intros e E. pose proof (LK (e / 2) ltac:(lra)) as Q. assert (0 <= Kf * sin (e / 2)) by (apply Rmult_le_pos; [lra|apply S0; lra]). nra. }
    destruct (Rle_dec b a) as [L|L].
    - apply (W (a - b)). lra.
    - replace ((a - b) * (a - b)) with ((b - a) * (b - a)) by ring. replace ((a - b) / 2) with (- ((b - a) / 2)) by field. rewrite sin_neg.
      replace (- sin ((b - a) / 2) * - sin ((b - a) / 2)) with (sin ((b - a) / 2) * sin ((b - a) / 2)) by ring. apply (W (b - a)). lra. }
  assert (PR : a * b <= Kf * Kf * (sin a * sin b)).
  { pose proof (LK a A) as Q1. pose proof (LK b B) as Q2. replace (Kf * Kf * (sin a * sin b)) with ((Kf * sin a) * (Kf * sin b)) by ring. apply Rmult_le_compat; lra. }
  rewrite <- (sqrt_square (Kf * d)) by (apply Rmult_le_pos; lra). apply sqrt_le_1_alt.
  assert (KK : 0 <= Kf * Kf) by nra.
  assert (T1 : Kf * Kf * (4 * (sin (d / 2) * sin (d / 2))) <= Kf * Kf * (d * d)) by (apply Rmult_le_compat_l; [exact KK|nra]).
  rewrite CH in T1.
  assert (T2 : 2 * (a * b) * (1 - k) <= Kf * Kf * (2 * (sin a * sin b) * (1 - k))) by nra. nra.
Qed.

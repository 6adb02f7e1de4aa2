(** * Proofs about the vibration metrics *)
From Coq Require Import Lra Psatz.
From Verif Require Import CBase F32 F32More F32Err InterfaceModel InterfaceSpec VibeModel.
Open Scope R_scope.

Lemma R32_f0 : R32 f0 = 0.
Proof. reflexivity. Qed.
(** [rel x r e t]: the float [x] is finite and equals [r] up to the relative error [e] and the absolute error [t] *)
Definition rel (x : f32) (r e t : R) : Prop := is_finite x = true /\ r * (1 - e) - t <= R32 x <= r * (1 + e) + t.
Definition mini : R := / 100000000000000000000.

Lemma rel_round x s r e t e' t' : is_finite x = true -> R32 x = rnd32 s -> 0 <= s -> 0 <= r -> 0 <= e <= 1 / 1000 -> 0 <= t <= 1 ->
  r * (1 - e) - t <= s <= r * (1 + e) + t -> e + 7 / 100000000 <= e' -> t * (1 + 1 / 1000000) + mini <= t' -> rel x r e' t'.
Proof.
  intros F E S R0 He Ht [A B] Le Lt. split; [exact F|]. rewrite E. pose proof (rnd32_bounds s S) as [L U]. unfold mini in *.
  set (u := / 16777216) in *. assert (0 < u <= 6 / 100000000) by (unfold u; lra).
  assert (Hru : 0 <= r * u) by nra.
  assert (H1 : r * (1 - e) * u <= r * u) by nra. assert (H2 : s * u <= (r * (1 + e) + t) * u) by nra.
  assert (H3 : r * (e + u + e * u) <= r * e') by (apply Rmult_le_compat_l; [exact R0|nra]).
  assert (H4 : t * u <= t * (6 / 100000000)) by nra. split; nra.
Qed.
Lemma rel_sq d r e e' : is_finite d = true -> Rabs (R32 d) <= 1000 -> 0 <= e <= 1 / 10000 -> Rabs (R32 d - r) <= e * Rabs r + mini -> 0 <= r * r ->
  3 * e + 7 / 100000000 <= e' -> rel (fmul d d) (r * r) e' (mini * 1000 * 3).
Proof.
  intros F B He D _ Le.
  assert (B2 : Rabs (R32 d * R32 d) <= 1000000) by (rewrite Rabs_mult; pose proof (Rabs_pos (R32 d)); nra).
  destruct (fmul_R d d F F) as [E Fi]; [apply (rnd_near _ 1000000 B2); unfold huge; lra|].
  assert (RB : Rabs r <= 1010).
  { pose proof (Rabs_triang_inv r (R32 d)) as T. rewrite Rabs_minus_sym in T. assert (0 < mini <= 1) by (unfold mini; lra). pose proof (Rabs_pos r).
    assert (e * Rabs r <= 1 / 10000 * Rabs r) by nra. nra. }
  eapply (rel_round _ (R32 d * R32 d) _ (3 * e) (mini * 2500)); [exact Fi|exact E|nra|nra|lra|unfold mini; lra| |exact Le|unfold mini; lra].
  set (h := R32 d - r) in *. replace (R32 d * R32 d) with (r * r + 2 * (r * h) + h * h) by (unfold h; ring).
  assert (Hh : Rabs h <= e * Rabs r + mini) by exact D. pose proof (Rabs_pos h). pose proof (Rabs_pos r).
  assert (RR : r * r = Rabs r * Rabs r) by (rewrite <- Rabs_mult; rewrite Rabs_pos_eq; nra).
  assert (HH : h * h = Rabs h * Rabs h) by (rewrite <- Rabs_mult; rewrite Rabs_pos_eq; nra).
  assert (RH : Rabs (r * h) <= e * (r * r) + mini * 1010). { rewrite Rabs_mult, RR. assert (0 < mini) by (unfold mini; lra). nra. }
  assert (H2 : h * h <= e * (r * r) + mini * 10).
  { rewrite HH, RR. assert (M : 0 < mini <= / 1000000) by (unfold mini; lra).
    assert (Rabs h * Rabs h <= (e * Rabs r + mini) * (e * Rabs r + mini)) by (apply Rmult_le_compat; lra).
    assert (E1 : (e * Rabs r + mini) * (e * Rabs r + mini) = e * (e * (Rabs r * Rabs r)) + 2 * (e * (Rabs r * mini)) + mini * mini) by ring.
    assert (E2 : e * (e * (Rabs r * Rabs r)) <= e * (Rabs r * Rabs r)) by (assert (0 <= e * (Rabs r * Rabs r)) by (apply Rmult_le_pos; nra); nra).
    assert (E3 : e * (Rabs r * mini) <= mini). { assert (Rabs r * mini <= 1010 * mini) by nra. assert (0 <= Rabs r * mini) by nra. nra. }
    nra. }
  apply Rabs_le_inv in RH. assert (0 <= h * h) by nra. assert (0 < mini) by (unfold mini; lra). split; nra.
Qed.
Lemma rel_add a b r1 r2 e1 t1 e2 t2 e t e' t' : rel a r1 e1 t1 -> rel b r2 e2 t2 -> 0 <= r1 <= 1000000000000 -> 0 <= r2 <= 1000000000000 -> 0 <= R32 a -> 0 <= R32 b -> 0 <= e1 <= e -> 0 <= e2 <= e -> e <= 1 / 1000 -> 0 <= t1 -> 0 <= t2 -> t1 + t2 <= t -> t <= 1 ->
  e + 7 / 100000000 <= e' -> t * (1 + 1 / 1000000) + mini <= t' -> rel (fadd a b) (r1 + r2) e' t' /\ 0 <= R32 (fadd a b).
Proof.
  intros [Fa [La Ua]] [Fb [Lb Ub]] R1 R2 Pa Pb E1 E2 He T1 T2 Ts Tl Le Lt.
  assert (A1 : r1 * (1 + e1) <= 1000000000000 * 2) by nra. assert (A2 : r2 * (1 + e2) <= 1000000000000 * 2) by nra.
  assert (BB : Rabs (R32 a + R32 b) <= 5000000000000) by (rewrite Rabs_pos_eq; lra).
  destruct (fadd_R a b Fa Fb) as [E F]; [apply (rnd_near _ 5000000000000 BB); unfold huge; lra|].
  split; [|rewrite E; apply rnd32_ge0; lra].
  eapply (rel_round _ (R32 a + R32 b) _ e t); [exact F|exact E|lra|lra|lra|lra| |exact Le|exact Lt].
  assert (r1 * e1 <= r1 * e) by nra. assert (r2 * e2 <= r2 * e) by nra. split; nra.
Qed.

(** the real norm *)
Definition norm3 (x y z : R) : R := sqrt (x * x + y * y + z * z).
Definition vnorm (v : v3f) : R := norm3 (R32 (fx v)) (R32 (fy v)) (R32 (fz v)).
(** norm of the difference of two vectors: the jitter between two samples *)
Definition vdiff (a b : v3f) : R := norm3 (R32 (fx a) - R32 (fx b)) (R32 (fy a) - R32 (fy b)) (R32 (fz a) - R32 (fz b)).
(** components at most [100] *)
Definition okf (a : f32) : Prop := is_finite a = true /\ Rabs (R32 a) <= 100.
Definition okv (v : v3f) : Prop := okf (fx v) /\ okf (fy v) /\ okf (fz v).

Lemma sqrt_rel x r e t : 0 <= r -> 0 <= e <= 1 / 1000 -> 0 <= t -> r * r * (1 - e) - t <= x <= r * r * (1 + e) + t -> 0 <= x ->
  r * (1 - e) - sqrt t <= sqrt x <= r * (1 + e) + sqrt t.
Proof.
  intros R0 He Ht [A B] X. pose proof (sqrt_pos t) as St. split.
  - destruct (Rle_dec (r * (1 - e) - sqrt t) 0) as [N|N]; [pose proof (sqrt_pos x); lra|].
    apply Rnot_le_lt in N. rewrite <- (sqrt_square (r * (1 - e) - sqrt t)) by lra. apply sqrt_le_1_alt.
    set (w := r * (1 - e)) in *. set (q := sqrt t) in *. assert (Q : q * q = t) by (apply sqrt_sqrt; exact Ht).
    assert (W : w * w <= r * r * (1 - e)) by (unfold w; assert (0 <= r * r) by nra; nra).
    (* (w - q)^2 <= w^2 - q^2 since w > q *) assert ((w - q) * (w - q) <= w * w - q * q) by nra. lra.
  - rewrite <- (sqrt_square (r * (1 + e) + sqrt t)) by nra. apply sqrt_le_1_alt.
    set (w := r * (1 + e)) in *. set (q := sqrt t) in *. assert (Q : q * q = t) by (apply sqrt_sqrt; exact Ht).
    assert (W : r * r * (1 + e) <= w * w) by (unfold w; assert (0 <= r * r) by nra; nra). assert (0 <= w) by (unfold w; nra). nra.
Qed.

(** norm of a vector whose components are given up to a relative error *)
Definition comp (d : f32) (r : R) : Prop := is_finite d = true /\ Rabs (R32 d) <= 1000 /\ Rabs (R32 d - r) <= 7 / 100000000 * Rabs r + mini.
Lemma comp_bound d r : comp d r -> 0 <= r * r <= 100000000000.
Proof.
  intros (F & B & D). pose proof (Rabs_triang_inv r (R32 d)) as T. rewrite Rabs_minus_sym in T. assert (0 < mini <= 1) by (unfold mini; lra). pose proof (Rabs_pos r).
  assert (Rabs r <= 1010) by nra. replace (r * r) with (Rabs r * Rabs r) by (rewrite <- Rabs_mult; rewrite Rabs_pos_eq; nra). nra.
Qed.
Lemma norm_rel a x y z : comp (fx a) x -> comp (fy a) y -> comp (fz a) z ->
  is_finite (v3f_norm a) = true /\ 0 <= R32 (v3f_norm a) /\
  norm3 x y z * (1 - 1 / 1000000) - / 1000000 * / 40 <= R32 (v3f_norm a) <= norm3 x y z * (1 + 1 / 1000000) + / 1000000 * / 40.
Proof.
  intros X Y Z. pose proof (comp_bound _ _ X) as BX. pose proof (comp_bound _ _ Y) as BY. pose proof (comp_bound _ _ Z) as BZ.
  assert (SQ : forall d r, comp d r -> rel (fmul d d) (r * r) (30 / 100000000) (mini * 3000) /\ 0 <= R32 (fmul d d)).
  { intros d r C. pose proof (comp_bound _ _ C) as Br. destruct C as (F & B & D). assert (R := rel_sq d r (7 / 100000000) (30 / 100000000) F B ltac:(lra) D ltac:(lra) ltac:(lra)).
    split; [destruct R as [R1 R2]; split; [exact R1|lra]|].
    assert (B2 : Rabs (R32 d * R32 d) <= 1000000) by (rewrite Rabs_mult; pose proof (Rabs_pos (R32 d)); nra).
    destruct (fmul_R d d F F) as [E Fi]; [apply (rnd_near _ 1000000 B2); unfold huge; lra|]. rewrite E. apply rnd32_ge0. nra. }
  destruct (SQ _ _ X) as [SX PX], (SQ _ _ Y) as [SY PY], (SQ _ _ Z) as [SZ PZ]. unfold v3f_norm.
  assert (P0 : 0 <= R32 f0) by (rewrite R32_f0; lra). assert (Z0 : rel f0 0 0 0) by (split; [reflexivity|rewrite R32_f0; lra]).
  destruct (rel_add _ _ _ _ _ _ _ _ (30 / 100000000) (mini * 3000) (37 / 100000000) (mini * 3100) Z0 SX) as [S1 P1]; try (unfold mini; lra).
  destruct (rel_add _ _ _ _ _ _ _ _ (37 / 100000000) (mini * 6200) (44 / 100000000) (mini * 6300) S1 SY) as [S2 P2]; try (unfold mini; lra).
  destruct (rel_add _ _ _ _ _ _ _ _ (44 / 100000000) (mini * 9300) (51 / 100000000) (mini * 10000) S2 SZ) as [S3 P3]; try (unfold mini; lra).
  set (s := fadd (fadd (fadd f0 (fmul (fx a) (fx a))) (fmul (fy a) (fy a))) (fmul (fz a) (fz a))) in *.
  replace (0 + x * x + y * y + z * z) with (x * x + y * y + z * z) in S3 by ring. destruct S3 as [F3 B3].
  destruct (fsqrt_R s F3 P3) as [E F]. split; [exact F|]. rewrite E. pose proof (sqrt_pos (R32 s)) as SP. split; [apply rnd32_ge0; exact SP|].
  set (n := norm3 x y z). assert (NN : n * n = x * x + y * y + z * z) by (unfold n, norm3; apply sqrt_sqrt; lra). assert (N0 : 0 <= n) by apply sqrt_pos.
  rewrite <- NN in B3. pose proof (sqrt_rel (R32 s) n (51 / 100000000) (mini * 10000) N0 ltac:(lra) ltac:(unfold mini; lra) B3 P3) as Q.
  assert (ST2 : sqrt (mini * 10000) <= / 1000000 * / 80).
  { rewrite <- (sqrt_square (/ 1000000 * / 80)) by lra. apply sqrt_le_1_alt. unfold mini. lra. }
  pose proof (rnd32_bounds (sqrt (R32 s)) SP) as [L U]. set (u := / 16777216) in *. assert (0 < u <= 6 / 100000000) by (unfold u; lra).
  assert (sqrt (R32 s) * u <= (n * (1 + 51 / 100000000) + / 1000000 * / 80) * (6 / 100000000)) by (apply Rmult_le_compat; lra). lra.
Qed.
Lemma sub_comp a b : okf a -> okf b -> comp (fsub a b) (R32 a - R32 b).
Proof.
  intros [Fa Ba] [Fb Bb]. assert (B : Rabs (R32 a - R32 b) <= 200) by (eapply Rle_trans; [apply Rabs_triang|]; rewrite Rabs_Ropp; lra).
  destruct (fsub_R a b Fa Fb) as [E F]; [apply (rnd_near _ 200 B); unfold huge; lra|].
  destruct (rnd_near _ (Rabs (R32 a - R32 b)) (Rle_refl _)) as [D _]; [unfold huge; lra|]. rewrite <- E in D.
  assert (D2 : Rabs (R32 (fsub a b) - (R32 a - R32 b)) <= 7 / 100000000 * Rabs (R32 a - R32 b) + mini).
  { unfold ulp1, tiny, mini in *. pose proof (Rabs_pos (R32 a - R32 b)). lra. }
  split; [exact F|]. split; [|exact D2]. pose proof (Rabs_triang_inv (R32 (fsub a b)) (R32 a - R32 b)) as T. unfold mini in D2. lra.
Qed.
Lemma self_comp a : okf a -> comp a (R32 a).
Proof. intros [F B]. split; [exact F|]. split; [lra|]. rewrite Rminus_eq_0, Rabs_R0. unfold mini. pose proof (Rabs_pos (R32 a)). lra. Qed.
Lemma diff_norm a b : okv a -> okv b -> is_finite (v3f_norm (v3f_sub a b)) = true /\ 0 <= R32 (v3f_norm (v3f_sub a b)) /\
  vdiff a b * (1 - 1 / 1000000) - / 1000000 * / 40 <= R32 (v3f_norm (v3f_sub a b)) <= vdiff a b * (1 + 1 / 1000000) + / 1000000 * / 40.
Proof. intros (A1 & A2 & A3) (B1 & B2 & B3). apply norm_rel; cbn [v3f_sub fx fy fz]; apply sub_comp; assumption. Qed.
Lemma self_norm a : okv a -> is_finite (v3f_norm a) = true /\ 0 <= R32 (v3f_norm a) /\
  vnorm a * (1 - 1 / 1000000) - / 1000000 * / 40 <= R32 (v3f_norm a) <= vnorm a * (1 + 1 / 1000000) + / 1000000 * / 40.
Proof. intros (A1 & A2 & A3). apply norm_rel; apply self_comp; assumption. Qed.
Lemma norm3_bound x y z B : 0 <= B -> Rabs x <= B -> Rabs y <= B -> Rabs z <= B -> 0 <= norm3 x y z <= 2 * B.
Proof.
  intros HB X Y Z. split; [apply sqrt_pos|]. unfold norm3. rewrite <- (sqrt_square (2 * B)) by lra. apply sqrt_le_1_alt.
  assert (forall r, Rabs r <= B -> r * r <= B * B). { intros r H. replace (r * r) with (Rabs r * Rabs r) by (rewrite <- Rabs_mult; rewrite Rabs_pos_eq; nra). pose proof (Rabs_pos r). nra. }
  pose proof (H x X). pose proof (H y Y). pose proof (H z Z). nra.
Qed.
Lemma vdiff_bound a b : okv a -> okv b -> 0 <= vdiff a b <= 400.
Proof.
  intros ([_ A1] & [_ A2] & [_ A3]) ([_ B1] & [_ B2] & [_ B3]). replace 400 with (2 * 200) by ring.
  apply norm3_bound; [lra| | |]; (eapply Rle_trans; [apply Rabs_triang|]; rewrite Rabs_Ropp; lra).
Qed.
Lemma vnorm_bound a : okv a -> 0 <= vnorm a <= 200.
Proof. intros ([_ A1] & [_ A2] & [_ A3]). replace 200 with (2 * 100) by ring. apply norm3_bound; lra. Qed.

(** one low-pass step *)
Lemma lit_rel n d : (0 < n)%Z -> (n <= 2 ^ 24)%Z -> (1 <= d <= 2 ^ 24)%Z -> is_finite (flit n d) = true /\ Rabs (R32 (flit n d) - IZR n / IZR d) <= (IZR n / IZR d) * (/ 16777216) + / 1000000000000000000000.
Proof.
  intros A B C. destruct (flit_R n d ltac:(lia) C) as [E F]. split; [exact F|]. rewrite E.
  assert (0 < IZR n) by (apply IZR_lt; exact A). assert (1 <= IZR d) by (apply IZR_le; lia). assert (0 < / IZR d) by (apply Rinv_0_lt_compat; lra).
  pose proof (rnd32_bounds (IZR n / IZR d)) as L. destruct L as [L U]; [unfold Rdiv; nra|]. apply Rabs_le. lra.
Qed.
Lemma lowpass_bounds m n : is_finite m = true -> is_finite n = true -> 0 <= R32 m <= 100000 -> 0 <= R32 n <= 100000 ->
  is_finite (lowpass m n) = true /\ 0 <= R32 (lowpass m n) /\
  989999 / 1000000 * R32 m + 9999 / 1000000 * R32 n - mini <= R32 (lowpass m n) <= 990001 / 1000000 * R32 m + 10001 / 1000000 * R32 n + mini.
Proof.
  intros Fm Fn Bm Bn. unfold lowpass.
  destruct (lit_rel 99 100 ltac:(lia) ltac:(lia) ltac:(lia)) as [Fc Hc]. destruct (lit_rel 1 100 ltac:(lia) ltac:(lia) ltac:(lia)) as [Fd Hd].
  set (c := flit 99 100) in *. set (d := flit 1 100) in *. apply Rabs_le_inv in Hc. apply Rabs_le_inv in Hd.
  assert (C : 9899999 / 10000000 <= R32 c <= 9900001 / 10000000) by lra. assert (D : 99999 / 10000000 <= R32 d <= 100001 / 10000000) by lra. clear Hc Hd. clearbody c d.
  assert (B1 : Rabs (R32 c * R32 m) <= 100000) by (rewrite Rabs_pos_eq; nra). assert (B2 : Rabs (R32 d * R32 n) <= 100000) by (rewrite Rabs_pos_eq; nra).
  destruct (fmul_R c m Fc Fm) as [E1 F1]; [apply (rnd_near _ _ B1); unfold huge; lra|]. destruct (fmul_R d n Fd Fn) as [E2 F2]; [apply (rnd_near _ _ B2); unfold huge; lra|].
  pose proof (rnd32_bounds (R32 c * R32 m) ltac:(nra)) as R1. pose proof (rnd32_bounds (R32 d * R32 n) ltac:(nra)) as R2. rewrite <- E1 in R1. rewrite <- E2 in R2.
  assert (P1 : 0 <= R32 (fmul c m)) by (rewrite E1; apply rnd32_ge0; nra). assert (P2 : 0 <= R32 (fmul d n)) by (rewrite E2; apply rnd32_ge0; nra).
  set (p := R32 (fmul c m)) in *. set (q := R32 (fmul d n)) in *.
  assert (CM : 9899999 / 10000000 * R32 m <= R32 c * R32 m <= 9900001 / 10000000 * R32 m) by nra.
  assert (DN : 99999 / 10000000 * R32 n <= R32 d * R32 n <= 100001 / 10000000 * R32 n) by nra.
  assert (B3 : Rabs (p + q) <= 400000) by (rewrite Rabs_pos_eq; lra).
  destruct (fadd_R _ _ F1 F2) as [E3 F3]; [apply (rnd_near _ _ B3); unfold huge; lra|]. split; [exact F3|]. rewrite E3. fold p q. split; [apply rnd32_ge0; lra|].
  pose proof (rnd32_bounds (p + q) ltac:(lra)) as R3. unfold mini. set (u := / 16777216) in *. assert (U : 0 < u <= 6 / 100000000) by (unfold u; lra). clearbody u.
  assert (U1 : R32 c * R32 m * u <= 6 / 100000000 * (R32 m)) by (assert (0 <= R32 c * R32 m) by nra; nra).
  assert (U2 : R32 d * R32 n * u <= 6 / 100000000 * (R32 n / 50)) by (assert (0 <= R32 d * R32 n) by nra; nra).
  assert (U3 : (p + q) * u <= 6 / 100000000 * (p + q)) by (assert (0 <= p + q) by lra; nra). lra.
Qed.

(** * Coning metric, average time step, example histories *)
From Coq Require Import Lra Psatz.
From Verif Require Import CBase F32 F32More F32Err InterfaceModel InterfaceSpec VibeModel VibeProofs VibeProofs2 VibeProofs3.
Open Scope R_scope.

(** ** Average time step *)
Lemma avg_step sc a u s : is_finite (r_avg s) = true -> 0 <= R32 (r_avg s) <= 201 / 10000 ->
  let v := R32 (r_avg (rest_step sc a u s)) in let dt := R32 (imu_dt (im_t u) (r_imu s)) in
  is_finite (r_avg (rest_step sc a u s)) = true /\ 0 <= v <= 201 / 10000 /\
  ((0 < im_t u)%Z -> Rabs (v - (8 / 10 * R32 (r_avg s) + 2 / 10 * dt)) <= / 100000000) /\ ((im_t u <= 0)%Z -> v = R32 (r_avg s)).
Proof.
  intros F B. unfold rest_step. cbv zeta. destruct (check_at_rest _ _ _ _) as [r mv]. cbn [r_avg]. destruct (dt_finite (im_t u) (r_imu s)) as [Fd Bd]. set (d := imu_dt (im_t u) (r_imu s)) in *. clearbody d.
  destruct (Z.gtb_spec (im_t u) 0) as [P|P]; [|split; [exact F|]; split; [exact B|]; split; [lia|reflexivity]].
  destruct (lit_rel 8 10 ltac:(lia) ltac:(lia) ltac:(lia)) as [Fc Hc]. destruct (lit_rel 2 10 ltac:(lia) ltac:(lia) ltac:(lia)) as [Fe He].
  set (c := flit 8 10) in *. set (e := flit 2 10) in *. clearbody c e.
  assert (N1 : near (fmul c (r_avg s)) (8 / 10 * R32 (r_avg s)) (4 / 1000000000)).
  { eapply (near_mul _ _ _ _ (1 / 20000000) 0 (2 / 1000000000) (2 / 100)); [split; [exact Fc|lra]|apply near_exact; exact F| | |unfold huge; lra|unfold ulp1, tiny; lra].
    - rewrite (Rabs_pos_eq (R32 (r_avg s))) by lra. lra.
    - rewrite Rabs_pos_eq by nra. lra. }
  assert (N2 : near (fmul e d) (2 / 10 * R32 d) (4 / 1000000000)).
  { eapply (near_mul _ _ _ _ (1 / 20000000) 0 (2 / 1000000000) (1 / 100)); [split; [exact Fe|lra]|apply near_exact; exact Fd| | |unfold huge; lra|unfold ulp1, tiny; lra].
    - rewrite (Rabs_pos_eq (R32 d)) by lra. lra.
    - rewrite Rabs_pos_eq by nra. lra. }
  assert (N3 : near (fadd (fmul c (r_avg s)) (fmul e d)) (8 / 10 * R32 (r_avg s) + 2 / 10 * R32 d) (/ 100000000)).
  { eapply (near_add _ _ _ _ _ _ (3 / 100)); [exact N1|exact N2| |unfold huge; lra|unfold ulp1, tiny; lra]. rewrite Rabs_pos_eq by lra. lra. }
  destruct N3 as [F3 B3]. split; [exact F3|]. pose proof (Rabs_le_inv _ _ B3). split; [lra|]. split; [intros _; lra|lia].
Qed.
Lemma avg_range sc l : forall s, is_finite (r_avg s) = true -> 0 <= R32 (r_avg s) <= 201 / 10000 -> is_finite (r_avg (rest_hist sc l s)) = true /\ 0 <= R32 (r_avg (rest_hist sc l s)) <= 201 / 10000.
Proof. induction l as [|[a u] l IH]; intros s F B; [auto|]. cbn [rest_hist]. destruct (avg_step sc a u s F B) as (F' & B' & _). apply IH; assumption. Qed.

(** ** Coning *)
Lemma norm3_sq x y z : norm3 x y z * norm3 x y z = x * x + y * y + z * z.
Proof. apply sqrt_sqrt. nra. Qed.
Lemma norm3_sum x y z : norm3 x y z <= Rabs x + Rabs y + Rabs z.
Proof.
  pose proof (Rabs_pos x). pose proof (Rabs_pos y). pose proof (Rabs_pos z). unfold norm3. rewrite <- (sqrt_square (Rabs x + Rabs y + Rabs z)) by lra. apply sqrt_le_1_alt.
  assert (S : forall r, r * r = Rabs r * Rabs r) by (intros r; rewrite <- Rabs_mult; rewrite Rabs_pos_eq; nra). rewrite (S x), (S y), (S z). nra.
Qed.
Lemma norm3_triangle x y z a b c : norm3 (x + a) (y + b) (z + c) <= norm3 x y z + norm3 a b c.
Proof.
  pose proof (sqrt_pos (x * x + y * y + z * z)) as P1. pose proof (sqrt_pos (a * a + b * b + c * c)) as P2. fold (norm3 x y z) in P1. fold (norm3 a b c) in P2.
  unfold norm3 at 1. rewrite <- (sqrt_square (norm3 x y z + norm3 a b c)) by lra. apply sqrt_le_1_alt.
  pose proof (norm3_sq x y z) as E1. pose proof (norm3_sq a b c) as E2.
  assert (CS : x * a + y * b + z * c <= norm3 x y z * norm3 a b c).
  { apply Rsqr_incr_0_var; [|apply Rmult_le_pos; assumption]. unfold Rsqr. replace (norm3 x y z * norm3 a b c * (norm3 x y z * norm3 a b c)) with (norm3 x y z * norm3 x y z * (norm3 a b c * norm3 a b c)) by ring. rewrite E1, E2.
    pose proof (Rle_0_sqr (x * b - y * a)) as S1. pose proof (Rle_0_sqr (x * c - z * a)) as S2. pose proof (Rle_0_sqr (y * c - z * b)) as S3. unfold Rsqr in S1, S2, S3. clear E1 E2 P1 P2. nra. }
  nra.
Qed.
Lemma norm3_lip x y z a b c e : Rabs (x - a) <= e -> Rabs (y - b) <= e -> Rabs (z - c) <= e -> Rabs (norm3 x y z - norm3 a b c) <= 3 * e.
Proof.
  intros A B C. apply Rabs_le. split.
  - pose proof (norm3_triangle x y z (a - x) (b - y) (c - z)) as T. replace (x + (a - x)) with a in T by ring. replace (y + (b - y)) with b in T by ring. replace (z + (c - z)) with c in T by ring.
    pose proof (norm3_sum (a - x) (b - y) (c - z)). rewrite (Rabs_minus_sym a x), (Rabs_minus_sym b y), (Rabs_minus_sym c z) in H. lra.
  - pose proof (norm3_triangle a b c (x - a) (y - b) (z - c)) as T. replace (a + (x - a)) with x in T by ring. replace (b + (y - b)) with y in T by ring. replace (c + (z - c)) with z in T by ring.
    pose proof (norm3_sum (x - a) (y - b) (z - c)). lra.
Qed.
(** delta angles up to 1 rad *)
Definition unitf (a : f32) : Prop := is_finite a = true /\ Rabs (R32 a) <= 1.
Definition unitv (v : v3f) : Prop := unitf (fx v) /\ unitf (fy v) /\ unitf (fz v).
Lemma cross_comp a b c d : unitf a -> unitf b -> unitf c -> unitf d -> near (fsub (fmul a b) (fmul c d)) (R32 a * R32 b - R32 c * R32 d) (3 / 10000000).
Proof.
  assert (M : forall x y : f32, unitf x -> unitf y -> near (fmul x y) (R32 x * R32 y) (7 / 100000000) /\ Rabs (R32 x * R32 y) <= 1).
  { intros x y [Fx Bx] [Fy By]. assert (B : Rabs (R32 x * R32 y) <= 1) by (rewrite Rabs_mult; pose proof (Rabs_pos (R32 x)); pose proof (Rabs_pos (R32 y)); nra). split; [|exact B].
    eapply (near_mul _ _ _ _ 0 0 0 1); [apply near_exact; exact Fx|apply near_exact; exact Fy|lra|lra|unfold huge; lra|unfold ulp1, tiny; lra]. }
  intros A B C D. destruct (M _ _ A B) as [N1 B1]. destruct (M _ _ C D) as [N2 B2].
  eapply (near_sub _ _ _ _ _ _ (21 / 10)); [exact N1|exact N2| |unfold huge; lra|unfold ulp1, tiny; lra].
  eapply Rle_trans; [apply Rplus_le_compat_r, Rabs_triang|]. rewrite Rabs_Ropp. lra.
Qed.
(** magnitude of the cross product *)
Definition vcross (a b : v3f) : R :=
  norm3 (R32 (fy a) * R32 (fz b) - R32 (fz a) * R32 (fy b)) (R32 (fz a) * R32 (fx b) - R32 (fx a) * R32 (fz b)) (R32 (fx a) * R32 (fy b) - R32 (fy a) * R32 (fx b)).
Lemma near_unit_comp d r : near d r (3 / 10000000) -> Rabs r <= 2 -> okf d.
Proof. intros [F H] B. split; [exact F|]. pose proof (Rabs_triang_inv (R32 d) r). lra. Qed.
Lemma prod2 a b c d : unitf a -> unitf b -> unitf c -> unitf d -> Rabs (R32 a * R32 b - R32 c * R32 d) <= 2.
Proof.
  intros [_ A] [_ B] [_ C] [_ D]. eapply Rle_trans; [apply Rabs_triang|]. rewrite Rabs_Ropp, !Rabs_mult.
  pose proof (Rabs_pos (R32 a)). pose proof (Rabs_pos (R32 b)). pose proof (Rabs_pos (R32 c)). pose proof (Rabs_pos (R32 d)). nra.
Qed.
Lemma cross_norm a b : unitv a -> unitv b -> is_finite (v3f_norm (v3f_cross a b)) = true /\ 0 <= R32 (v3f_norm (v3f_cross a b)) <= 5 /\ Rabs (R32 (v3f_norm (v3f_cross a b)) - vcross a b) <= 7 / 1000000.
Proof.
  intros (A1 & A2 & A3) (B1 & B2 & B3).
  pose proof (cross_comp _ _ _ _ A2 B3 A3 B2) as N1. pose proof (cross_comp _ _ _ _ A3 B1 A1 B3) as N2. pose proof (cross_comp _ _ _ _ A1 B2 A2 B1) as N3.
  pose proof (prod2 _ _ _ _ A2 B3 A3 B2) as Q1. pose proof (prod2 _ _ _ _ A3 B1 A1 B3) as Q2. pose proof (prod2 _ _ _ _ A1 B2 A2 B1) as Q3.
  destruct (self_norm (v3f_cross a b)) as (F & P & B). { split; [|split]; cbn [v3f_cross fx fy fz]; eapply near_unit_comp; eassumption. }
  split; [exact F|]. assert (L : Rabs (vnorm (v3f_cross a b) - vcross a b) <= 3 * (3 / 10000000)) by (apply norm3_lip; cbn [v3f_cross fx fy fz]; [apply N1|apply N2|apply N3]).
  assert (VC : 0 <= vcross a b <= 4) by (change 4 with (IZR 4); replace 4 with (2 * 2) by ring; apply norm3_bound; lra).
  apply Rabs_le_inv in L. split; [lra|]. apply Rabs_le. lra.
Qed.
Lemma coning_step sc a u s : is_finite (r_vib0 s) = true -> 0 <= R32 (r_vib0 s) <= 6 -> unitv (im_da u) -> unitv (r_pa s) ->
  is_finite (r_vib0 (rest_step sc a u s)) = true /\ 0 <= R32 (r_vib0 (rest_step sc a u s)) <= 6 /\
  Rabs (R32 (r_vib0 (rest_step sc a u s)) - (99 / 100 * R32 (r_vib0 s) + 1 / 100 * vcross (im_da u) (r_pa s))) <= 12 / 1000000.
Proof.
  intros F B U1 U2. unfold rest_step. cbv zeta. destruct (check_at_rest _ _ _ _) as [r mv]. cbn [r_vib0]. destruct (cross_norm _ _ U1 U2) as (Fn & Bn & L).
  destruct (lowpass_bounds _ _ F Fn ltac:(lra) ltac:(lra)) as (F' & P' & B'). split; [exact F'|]. unfold mini in B'. split; [lra|]. apply Rabs_le_inv in L. apply Rabs_le. lra.
Qed.

(** ** Example histories *)
(** a vehicle standing still, sampled every 4 ms *)
Definition still_dv : v3f := V3f f0 f0 (flit (-4) 100).
Definition still (k : nat) : imuf := {| im_t := 4000 * Z.of_nat k; im_da := v3f_zero; im_dv := still_dv |}.
Fixpoint stills (k n : nat) : list imuf := match n with O => [] | S n => still k :: stills (S k) n end.
Lemma okv_still : okv still_dv.
Proof.
  destruct (flit_R (-4) 100 ltac:(lia) ltac:(lia)) as [E F].
  assert (okf f0) by (split; [reflexivity|rewrite R32_f0, Rabs_R0; lra]).
  split; [exact H|]. split; [exact H|]. split; [exact F|]. cbn [fz still_dv]. rewrite E. pose proof (rnd32_error (IZR (-4) / IZR 100)) as R. rewrite two24 in R. pose proof small150.
  replace (IZR (-4) / IZR 100) with (- (4 / 100)) in * by field. rewrite Rabs_Ropp, (Rabs_pos_eq (4 / 100)) in R by lra.
  pose proof (Rabs_triang (rnd32 (- (4 / 100)) - - (4 / 100)) (- (4 / 100))) as T. rewrite Rabs_Ropp, (Rabs_pos_eq (4 / 100)) in T by lra.
  replace (rnd32 (- (4 / 100)) - - (4 / 100) + - (4 / 100)) with (rnd32 (- (4 / 100))) in T by ring. lra.
Qed.
Lemma norm3_0 : norm3 0 0 0 = 0.
Proof. unfold norm3. replace (0 * 0 + 0 * 0 + 0 * 0) with 0 by ring. apply sqrt_0. Qed.
Lemma vdiff_self a : vdiff a a = 0.
Proof. unfold vdiff. rewrite !Rminus_eq_0. apply norm3_0. Qed.
Lemma stills_quiet s n : 0 < s -> forall k, (Z.of_nat k + Z.of_nat n <= 1000000000)%Z -> quiet s (still k) (stills (S k) n).
Proof.
  intros S0. induction n as [|n IH]; intros k H; [exact I|]. cbn [stills quiet still im_t im_da im_dv]. rewrite !vdiff_self.
  assert (EQ : (4000 * Z.of_nat (S k) - 4000 * Z.of_nat k)%Z = 4000%Z) by lia. rewrite EQ.
  assert (V0 : vnorm v3f_zero = 0) by (unfold vnorm, v3f_zero; cbn [fx fy fz]; rewrite R32_f0; apply norm3_0). rewrite V0.
  split; [apply okv_zero|]. split; [apply okv_still|]. split; [lia|]. split; [lia|]. split; [lra|]. split; [lra|]. split; [lra|]. apply IH. lia.
Qed.
Lemma stills_app k n m : stills k (n + m) = stills k n ++ stills (k + n) m.
Proof. revert k. induction n as [|n IH]; intros k; [rewrite Nat.add_0_r; reflexivity|]. cbn [stills Nat.add app]. rewrite IH. f_equal. f_equal. f_equal. lia. Qed.
Lemma stills_len k n : length (stills k n) = n.
Proof. revert k. induction n as [|n IH]; intros k; [reflexivity|]. cbn [stills length]. rewrite IH. reflexivity. Qed.
Lemma stills_last k n d : last (stills k (S n)) d = still (k + n).
Proof. rewrite <- (Nat.add_1_r n), stills_app. cbn [stills]. apply last_last. Qed.

(** * No NaN from ordinary data: bounds in single precision *)
From Coq Require Import Reals Lra Psatz.
From Verif Require Import CBase Scalar RealGeom RotModel RotProofs F32 F32More F32Err CovModel OutputModel NanModel Props_Sense Props_Sense2 NanProofs AttFloatModel AttFloatProofs AttFloatProofs2.
Open Scope R_scope.

(** finite and bounded *)
Definition bnd (x : f32) (B : R) : Prop := is_finite x = true /\ Rabs (R32 x) <= B.
Definition top : R := 100000000000000000000000000000.
Lemma bnd_weak x A B : bnd x A -> A <= B -> bnd x B. Proof. intros [F H] L. split; [exact F|lra]. Qed.
Lemma bnd_ge0 x A : bnd x A -> 0 <= A. Proof. intros [F H]. pose proof (Rabs_pos (R32 x)). lra. Qed.
Lemma bnd_near x r e : near x r e -> bnd x (Rabs r + e).
Proof. intros [F H]. split; [exact F|]. replace (R32 x) with ((R32 x - r) + r) by ring. eapply Rle_trans; [apply Rabs_triang|]. lra. Qed.
Lemma near_bnd x A : bnd x A -> near x (R32 x) 0. Proof. intros [F _]. apply near_exact, F. Qed.
Lemma rnd_bnd x t A B : is_finite x = true -> R32 x = rnd32 t -> Rabs t <= A -> A <= top -> 101 / 100 * A + tiny <= B -> bnd x B.
Proof.
  intros F E H T L. split; [exact F|]. rewrite E. destruct (rnd_near t A H ltac:(unfold huge, top in *; lra)) as [D _].
  replace (rnd32 t) with ((rnd32 t - t) + t) by ring. eapply Rle_trans; [apply Rabs_triang|]. pose proof (Rabs_pos t). unfold ulp1 in D. lra.
Qed.
Lemma small_enough t A : Rabs t <= A -> A <= top -> Rabs t <= bpow radix2 127.
Proof. intros H T. apply (rnd_near t A H). unfold huge, top in *. lra. Qed.
Lemma bnd_add x y A B C : bnd x A -> bnd y B -> A + B <= top -> 101 / 100 * (A + B) + tiny <= C -> bnd (fadd x y) C.
Proof.
  intros [Fx Hx] [Fy Hy] T L. assert (M : Rabs (R32 x + R32 y) <= A + B) by (eapply Rle_trans; [apply Rabs_triang|lra]).
  destruct (fadd_R x y Fx Fy (small_enough _ _ M T)) as [E F]. exact (rnd_bnd _ _ _ _ F E M T L).
Qed.
Lemma bnd_sub x y A B C : bnd x A -> bnd y B -> A + B <= top -> 101 / 100 * (A + B) + tiny <= C -> bnd (fsub x y) C.
Proof.
  intros [Fx Hx] [Fy Hy] T L. assert (M : Rabs (R32 x - R32 y) <= A + B) by (unfold Rminus; eapply Rle_trans; [apply Rabs_triang|]; rewrite Rabs_Ropp; lra).
  destruct (fsub_R x y Fx Fy (small_enough _ _ M T)) as [E F]. exact (rnd_bnd _ _ _ _ F E M T L).
Qed.
Lemma bnd_mul x y A B C : bnd x A -> bnd y B -> A * B <= top -> 101 / 100 * (A * B) + tiny <= C -> bnd (fmul x y) C.
Proof.
  intros [Fx Hx] [Fy Hy] T L. assert (M : Rabs (R32 x * R32 y) <= A * B) by (rewrite Rabs_mult; apply Rmult_le_compat; auto using Rabs_pos).
  destruct (fmul_R x y Fx Fy (small_enough _ _ M T)) as [E F]. exact (rnd_bnd _ _ _ _ F E M T L).
Qed.
Lemma bnd_lit n : (- 2 ^ 24 <= n <= 2 ^ 24)%Z -> bnd (flit n 1) (Rabs (IZR n)).
Proof. intros H. eapply bnd_weak; [apply bnd_near, near_int, H|]. lra. Qed.
Lemma near_frac n d : (- 2 ^ 24 <= n <= 2 ^ 24)%Z -> (1 <= d <= 2 ^ 24)%Z -> Rabs (IZR n / IZR d) <= 100 -> near (flit n d) (IZR n / IZR d) (Rabs (IZR n / IZR d) * ulp1 + tiny).
Proof.
  intros H D M. destruct (flit_R n d H D) as [E F]. split; [exact F|]. rewrite E. apply rnd_near; [lra|unfold huge; lra].
Qed.

Lemma flit_int n : (- 2 ^ 24 <= n <= 2 ^ 24)%Z -> is_finite (flit n 1) = true /\ R32 (flit n 1) = IZR n.
Proof. intros H. destruct (near_int n H) as [F E]. split; [exact F|]. set (x := R32 _) in *. clearbody x. apply Rabs_le_inv in E. lra. Qed.
(** limiting *)
Lemma limit_R (v lo hi : f32) : is_finite v = true -> is_finite lo = true -> is_finite hi = true -> R32 lo <= R32 hi ->
  is_finite (sconstrain v lo hi) = true /\ R32 lo <= R32 (sconstrain v lo hi) <= R32 hi.
Proof.
  intros A B C D. destruct (constrain_R v lo hi A B C D) as [E F]. change (sconstrain v lo hi) with (math_constrain v lo hi). split; [exact F|]. rewrite E.
  split; [apply Rmax_l|]. apply Rmax_lub; [exact D|apply Rmin_l].
Qed.
Lemma limit_bnd (v l : f32) L : is_finite v = true -> bnd l L -> 0 <= R32 l -> bnd (sconstrain v (fneg l) l) (R32 l) /\ R32 l <= L.
Proof.
  intros V [F H] P. destruct (fneg_R l) as [En Fn]. rewrite F in Fn. destruct (limit_R v (fneg l) l V Fn F ltac:(lra)) as [A B]. rewrite En in B.
  split; [split; [exact A|apply Rabs_le; lra]|]. rewrite Rabs_right in H by lra. exact H.
Qed.

(** a bound that no number of small corrections can exceed: the grid of floats is too coarse there *)
Definition big : R := 35184372088832.
Lemma big_up : rnd32 (big + 2000000) = big.
Proof.
  assert (E : big + 2000000 = IZR 35184374088832) by (unfold big; lra). rewrite E.
  destruct (f_of_Z_range 35184374088832 ltac:(lia)) as [F _]. rewrite <- F. unfold big.
  assert (V : f_of_Z 35184374088832 = f_of_Z 35184372088832) by (apply B2SF_inj; vm_compute; reflexivity). rewrite V.
  replace 35184372088832 with (IZR 8388608 * IZR 4194304) by lra.
  assert (P : f_of_Z 35184372088832 = fmul (f_of_Z 8388608) (f_of_Z 4194304)) by (apply B2SF_inj; vm_compute; reflexivity). rewrite P.
  destruct (f_of_Z_exact 8388608 ltac:(lia)) as [A1 B1]. destruct (f_of_Z_exact 4194304 ltac:(lia)) as [A2 B2].
  destruct (fmul_R _ _ B1 B2) as [M _]. { rewrite A1, A2. apply (small_enough _ (IZR 8388608 * IZR 4194304)); [rewrite Rabs_right; lra|unfold top; lra]. }
  rewrite M, A1, A2. apply round_generic; [apply valid_rnd_N|]. apply generic_format_FLT. exists (Float radix2 8388608 22); [unfold F2R; cbn; lra|cbn; lia|cbn; lia].
Qed.
Lemma big_stays t : Rabs t <= big + 2000000 -> Rabs (rnd32 t) <= big.
Proof.
  intros H. apply Rabs_le_inv in H. apply Rabs_le. split.
  - rewrite <- big_up, <- round_NE_opp. apply rnd32_le. lra.
  - rewrite <- big_up. apply rnd32_le. lra.
Qed.
Lemma big_sub x c : bnd x big -> bnd c 2000000 -> bnd (fsub x c) big.
Proof.
  intros [Fx Hx] [Fc Hc]. assert (M : Rabs (R32 x - R32 c) <= big + 2000000) by (unfold Rminus; eapply Rle_trans; [apply Rabs_triang|]; rewrite Rabs_Ropp; lra).
  destruct (fsub_R x c Fx Fc (small_enough _ _ M ltac:(unfold big, top; lra))) as [E F]. split; [exact F|]. rewrite E. apply big_stays, M.
Qed.

(** ** The length of a rotation vector, with relative accuracy *)
Definition eta : R := / 10000000000000000000000000000000000000000.
Lemma bpow150 : bpow radix2 (-150) <= eta.
Proof.
  unfold eta. change (bpow radix2 (-150)) with (/ IZR (2 ^ 150)). apply Rinv_le_contravar; [lra|]. apply IZR_le. vm_compute. discriminate.
Qed.
Lemma rnd_rel t : Rabs (rnd32 t - t) <= ulp1 * Rabs t + eta.
Proof. pose proof (rnd32_error t) as H. rewrite two24 in H. pose proof bpow150. unfold ulp1. lra. Qed.
Lemma rnd_rel_pos t : 0 <= t -> (1 - ulp1) * t - eta <= rnd32 t <= (1 + ulp1) * t + eta.
Proof. intros P. pose proof (rnd_rel t) as H. rewrite (Rabs_right t) in H by lra. apply Rabs_le_inv in H. lra. Qed.
Definition vr (v : Vec f32) : V3 := mkV (R32 (v 0%nat)) (R32 (v 1%nat)) (R32 (v 2%nat)).
Lemma nn_0 : bnd (flit 0 1) 0 /\ 0 <= R32 (flit 0 1).
Proof. destruct (near_int 0 ltac:(lia)) as [F H]. rewrite Rminus_0_r in H. split; [split; assumption|]. apply Rabs_le_inv in H. lra. Qed.
Lemma sq_nn x : bnd x 40000000000000 -> 0 <= R32 (fmul x x).
Proof.
  intros [F H]. destruct (fmul_R x x F F) as [E _].
  { apply (small_enough _ 1600000000000000000000000000); [|unfold top; lra]. rewrite Rabs_mult. pose proof (Rabs_pos (R32 x)). nra. }
  rewrite E. apply rnd32_ge0, Rle_0_sqr.
Qed.
Lemma nn_add x y A B C : bnd x A /\ 0 <= R32 x -> bnd y B /\ 0 <= R32 y -> A + B <= top -> 101 / 100 * (A + B) + tiny <= C -> bnd (fadd x y) C /\ 0 <= R32 (fadd x y).
Proof.
  intros [Bx Px] [By Py] T L. split; [eapply bnd_add; eassumption|]. destruct Bx as [Fx Hx], By as [Fy Hy].
  destruct (fadd_R x y Fx Fy) as [E _]; [apply (small_enough _ (A + B)); [eapply Rle_trans; [apply Rabs_triang|lra]|exact T]|]. rewrite E. apply rnd32_ge0. lra.
Qed.
Lemma nrm3_rel (v : Vec f32) : (forall k, (k < 3)%nat -> bnd (v k) 40000000000000) ->
  is_finite (nrm3 v) = true /\ 0 <= R32 (nrm3 v) /\ sqrt (vnorm2 (vr v)) <= 11 / 10 * R32 (nrm3 v) + / 1000000000000 /\ (9 / 100000000000 <= R32 (nrm3 v) -> let n := sqrt (vnorm2 (vr v)) in 8 / 100000000000 <= n /\ Rabs (R32 (nrm3 v) - n) <= / 1000000 * n).
Proof.
  intros B. assert (F : forall k, (k < 3)%nat -> is_finite (v k) = true) by (intros k Hk; apply (B k Hk)).
  assert (SQ : forall k, (k < 3)%nat -> bnd (fmul (v k) (v k)) 1700000000000000000000000000 /\ 0 <= R32 (fmul (v k) (v k))) by (intros k Hk; split; [eapply bnd_mul; [apply B, Hk|apply B, Hk|unfold top; lra|unfold tiny; lra]|apply sq_nn, (B k Hk)]).
  assert (FN : is_finite (nrm3 v) = true).
  { unfold nrm3. fsc. change (@szero f32 FScalar) with (flit 0 1).
    assert (A : bnd (fadd (fadd (fadd (flit 0 1) (fmul (v 0%nat) (v 0%nat))) (fmul (v 1%nat) (v 1%nat))) (fmul (v 2%nat) (v 2%nat))) 6000000000000000000000000000 /\ 0 <= R32 (fadd (fadd (fadd (flit 0 1) (fmul (v 0%nat) (v 0%nat))) (fmul (v 1%nat) (v 1%nat))) (fmul (v 2%nat) (v 2%nat)))).
    { eapply nn_add; [eapply nn_add; [eapply nn_add; [apply nn_0|apply SQ; lia| |apply Rle_refl]|apply SQ; lia| |apply Rle_refl]|apply SQ; lia| |]; unfold top, tiny; lra. }
    destruct A as [[A _] P]. apply (fsqrt_R _ A P). }
  split; [exact FN|]. cbv zeta. destruct (nrm3_cases v F) as [E|[_ E]]; [rewrite E in FN; discriminate|]. rewrite E in *. clear E.
  unfold vr, vnorm2, vdot. cbn [vx vy vz]. set (x := R32 (v 0%nat)) in *. set (y := R32 (v 1%nat)) in *. set (z := R32 (v 2%nat)) in *. clearbody x y z.
  pose proof (Rle_0_sqr x) as Px. pose proof (Rle_0_sqr y) as Py. pose proof (Rle_0_sqr z) as Pz. unfold Rsqr in *.
  set (xx := x * x) in *. set (yy := y * y) in *. set (zz := z * z) in *. clearbody xx yy zz.
  pose proof (rnd_rel_pos xx Px) as R1. pose proof (rnd_rel_pos yy Py) as R2. pose proof (rnd_rel_pos zz Pz) as R3. pose proof (rnd32_ge0 xx Px) as Q1. pose proof (rnd32_ge0 yy Py) as Q2. pose proof (rnd32_ge0 zz Pz) as Q3.
  set (a := rnd32 xx) in *. set (b := rnd32 yy) in *. set (c := rnd32 zz) in *. clearbody a b c.
  assert (Q4' : 0 <= a + b) by lra. pose proof (rnd_rel_pos (a + b) Q4') as R4. pose proof (rnd32_ge0 (a + b) Q4') as Q4. set (d := rnd32 (a + b)) in *. clearbody d.
  assert (Q5' : 0 <= d + c) by lra. pose proof (rnd_rel_pos (d + c) Q5') as R5. pose proof (rnd32_ge0 (d + c) Q5') as Q5. set (S := rnd32 (d + c)) in *. clearbody S.
  set (s := xx + yy + zz).
  assert (RS : (1 - 21 / 100000000) * s - 10 * eta <= S <= (1 + 21 / 100000000) * s + 10 * eta).
  { unfold s, ulp1, eta in *. split; lra. }
  pose proof (sqrt_pos S) as PS. pose proof (rnd_rel_pos (sqrt S) PS) as R6. pose proof (rnd32_ge0 (sqrt S) PS) as Q6. set (o := rnd32 (sqrt S)) in *. clearbody o.
  pose proof (sqrt_sqrt S Q5) as SS.
  assert (P0 : 0 <= s) by (unfold s; lra). pose proof (sqrt_pos s) as Pn. pose proof (sqrt_sqrt s P0) as NN. set (n := sqrt s) in *. set (q := sqrt S) in *. clearbody n q s.
  split; [exact Q6|]. split.
  { destruct (Rle_dec n (/ 1000000000000)) as [?|N]; [lra|]. assert (N1 : / 1000000000000000000000000 <= s) by nra. assert (N2 : 98 / 100 * s <= S) by (unfold eta in RS; lra).
    assert (N3 : 98 / 100 * n <= q) by nra. unfold ulp1, eta in R6. lra. }
  intros L. assert (S1 : 89 / 1000000000000 <= q) by (unfold ulp1, eta in R6; lra).
  assert (S2 : 7921 / 1000000000000000000000000 <= S) by nra.
  assert (S3 : 79 / 10000000000000000000000 <= s) by (unfold eta in RS; lra).
  assert (R7 : (1 - 22 / 100000000) * s <= S <= (1 + 22 / 100000000) * s) by (unfold eta in RS; lra).
  assert (N1 : 88 / 1000000000000 <= n) by nra.
  assert (R8 : (1 - 22 / 100000000) * n <= q <= (1 + 22 / 100000000) * n).
  { split; nra. }
  split; [lra|]. apply Rabs_le. unfold ulp1, eta in R6. split; lra.
Qed.

(** ** The quaternion of a rotation vector *)
(** library functions accurate for every finite argument *)
Definition accurate_all (tsin tcos : f32 -> f32) : Prop :=
  forall a, is_finite a = true -> near (tsin a) (sin (R32 a)) (3 / 10000000) /\ near (tcos a) (cos (R32 a)) (3 / 10000000).
Definition qabout (x y z n h : R) : Q4 := mkQ (cos h) (x / n * sin h) (y / n * sin h) (z / n * sin h).
Lemma qabout_unit x y z n h : 0 < n -> n * n = x * x + y * y + z * z -> qnorm2 (qabout x y z n h) = 1.
Proof.
  intros P N. unfold qabout, qnorm2. cbn [q0 q1 q2 q3]. pose proof (sin2_cos2 h) as SC. unfold Rsqr in SC.
  replace (cos h ^ 2 + (x / n * sin h) ^ 2 + (y / n * sin h) ^ 2 + (z / n * sin h) ^ 2) with (cos h * cos h + (x * x + y * y + z * z) / (n * n) * (sin h * sin h)) by (field; lra).
  rewrite <- N. replace (n * n / (n * n)) with 1 by (field; lra). lra.
Qed.
Lemma frac_le1 x n s : 0 < n -> n * n = s -> x * x <= s -> Rabs (x / n) <= 1.
Proof.
  intros P N L. unfold Rdiv. rewrite Rabs_mult, Rabs_inv, (Rabs_right n) by lra. apply (Rmult_le_reg_r n); [lra|]. rewrite Rmult_assoc, Rinv_l, Rmult_1_r, Rmult_1_l by lra. apply Rabs_le. split; nra.
Qed.
Definition closeQ (p q : Q4) (e : R) : Prop := Rabs (q0 p - q0 q) <= e /\ Rabs (q1 p - q1 q) <= e /\ Rabs (q2 p - q2 q) <= e /\ Rabs (q3 p - q3 q) <= e.
Lemma nearV_close v p q e e' d : nearV v p e -> closeQ p q d -> e + d <= e' -> nearV v q e'.
Proof.
  intros ((A0 & B0) & (A1 & B1) & (A2 & B2) & (A3 & B3)) (C0 & C1 & C2 & C3) L.
  assert (T : forall a b c, Rabs (a - b) <= e -> Rabs (b - c) <= d -> Rabs (a - c) <= e') by (intros a b c H1 H2; replace (a - c) with ((a - b) + (b - c)) by ring; eapply Rle_trans; [apply Rabs_triang|lra]).
  refine (conj _ (conj _ (conj _ _))); (split; [assumption|eapply T; eassumption]).
Qed.
Lemma qabout_one x y z n h : 0 < n -> n * n = x * x + y * y + z * z -> closeQ (qabout x y z n h) (mkQ 1 0 0 0) (Rabs h).
Proof.
  intros P N. assert (C : Rabs (cos h - 1) <= Rabs h) by (rewrite <- cos_0; replace h with (h - 0) at 2 by ring; apply cos_lip).
  pose proof (sin_le_abs h) as S. pose proof (Rabs_pos (sin h)).
  assert (T : forall u, u * u <= x * x + y * y + z * z -> Rabs (u / n * sin h - 0) <= Rabs h) by (intros u Hu; rewrite Rminus_0_r, Rabs_mult; pose proof (frac_le1 u n _ P N Hu); pose proof (Rabs_pos (u / n)); nra).
  pose proof (Rle_0_sqr x). pose proof (Rle_0_sqr y). pose proof (Rle_0_sqr z). unfold Rsqr in *.
  unfold closeQ, qabout. cbn [q0 q1 q2 q3]. refine (conj C (conj _ (conj _ _))); apply T; lra.
Qed.
Lemma qabout_lip x y z n h h' : 0 < n -> n * n = x * x + y * y + z * z -> closeQ (qabout x y z n h) (qabout x y z n h') (Rabs (h - h')).
Proof.
  intros P N. pose proof (cos_lip h h') as C. pose proof (sin_lip h h') as S. pose proof (Rabs_pos (sin h - sin h')).
  assert (T : forall u, u * u <= x * x + y * y + z * z -> Rabs (u / n * sin h - u / n * sin h') <= Rabs (h - h')).
  { intros u Hu. replace (u / n * sin h - u / n * sin h') with (u / n * (sin h - sin h')) by ring. rewrite Rabs_mult. pose proof (frac_le1 u n _ P N Hu). pose proof (Rabs_pos (u / n)). nra. }
  pose proof (Rle_0_sqr x). pose proof (Rle_0_sqr y). pose proof (Rle_0_sqr z). unfold Rsqr in *.
  unfold closeQ, qabout. cbn [q0 q1 q2 q3]. refine (conj C (conj _ (conj _ _))); apply T; lra.
Qed.
Section Trig.
Variables (tsin tcos : f32 -> f32).
Hypothesis HT : accurate_all tsin tcos.
Lemma expq_float (v : Vec f32) : (forall k, (k < 3)%nat -> bnd (v k) 40000000000000) ->
  (exists u, qnorm2 u = 1 /\ nearV (expqG tsin tcos v) u (2 / 1000000)) /\ (sqrt (vnorm2 (vr v)) <= 4 -> nearV (expqG tsin tcos v) (qexp (vr v)) (5 / 1000000)).
Proof.
  intros B. destruct (nrm3_rel v B) as (F & P & U & G). cbv zeta in G. unfold expqG. cbv zeta. set (a := nrm3 v) in *. clearbody a.
  change (@slt f32 FScalar) with flt. change (@slit f32 FScalar 1 10000000000) with (flit 1 10000000000).
  unfold qexp. cbv zeta. set (n := sqrt (vnorm2 (vr v))) in *.
  assert (NN : n * n = R32 (v 0%nat) * R32 (v 0%nat) + R32 (v 1%nat) * R32 (v 1%nat) + R32 (v 2%nat) * R32 (v 2%nat)).
  { unfold n. rewrite sqrt_sqrt; [unfold vnorm2, vdot, vr; cbn [vx vy vz]; ring|]. unfold vnorm2, vdot, vr. cbn [vx vy vz]. pose proof (Rle_0_sqr (R32 (v 0%nat))). pose proof (Rle_0_sqr (R32 (v 1%nat))). pose proof (Rle_0_sqr (R32 (v 2%nat))). unfold Rsqr in *. lra. }
  assert (SQ : n * n <= 4800000000000000000000000000).
  { rewrite NN. assert (Q : forall k, (k < 3)%nat -> R32 (v k) * R32 (v k) <= 1600000000000000000000000000) by (intros k Hk; destruct (B k Hk) as [_ H]; apply Rabs_le_inv in H; nra).
    pose proof (Q 0%nat ltac:(lia)). pose proof (Q 1%nat ltac:(lia)). pose proof (Q 2%nat ltac:(lia)). lra. }
  cbn [vr vx vy vz]. assert (Bk : forall k, (k < 3)%nat -> is_finite (v k) = true) by (intros k Hk; apply (B k Hk)). clear B.
  assert (Pn : 0 <= n) by apply sqrt_pos. clearbody n.
  pose proof (Rle_0_sqr (R32 (v 0%nat))) as SX. pose proof (Rle_0_sqr (R32 (v 1%nat))) as SY. pose proof (Rle_0_sqr (R32 (v 2%nat))) as SZ. unfold Rsqr in SX, SY, SZ.
  assert (L10 : is_finite (flit 1 10000000000) = true /\ 99 / 1000000000000 <= R32 (flit 1 10000000000) <= 101 / 1000000000000).
  { split; [vm_compute; reflexivity|]. rewrite <- SF2R_B2SF. assert (V : B2SF (flit 1 10000000000) = SpecFloat.S754_finite false 14411519 (-57)) by (vm_compute; reflexivity). rewrite V. unfold SF2R, F2R. cbn [Fnum Fexp cond_Zopp].
    change (bpow radix2 (-57)) with (/ IZR (2 ^ 57)). replace (IZR (2 ^ 57)) with 144115188075855872 by (f_equal; vm_compute; reflexivity). change (IZR (Z.pos 14411519)) with 14411519. lra. }
  destruct L10 as [LF LV]. rewrite (flt_R a _ F LF).
  assert (Z0 : near szero 0 0) by (apply near_int; lia). assert (O1 : near sone 1 0) by (apply near_int; lia).
  assert (ID : nearV (fun k => if (k =? 0)%nat then sone else szero) (mkQ 1 0 0 0) 0) by (refine (conj _ (conj _ (conj _ _))); assumption).
  destruct (Rlt_bool_spec (R32 a) (R32 (flit 1 10000000000))) as [L|L].
  - split; [exists (mkQ 1 0 0 0); split; [unfold qnorm2; cbn [q0 q1 q2 q3]; lra|]|intros _].
    + destruct ID as (I0 & I1 & I2 & I3). refine (conj _ (conj _ (conj _ _))); (eapply near_weaken; [eassumption|lra]).
    + destruct (Rlt_dec n (1 / 10 ^ 10)) as [D|D].
      * destruct ID as (I0 & I1 & I2 & I3). refine (conj _ (conj _ (conj _ _))); (eapply near_weaken; [eassumption|lra]).
      * assert (N0 : 0 < n) by lra. apply (nearV_close _ _ _ 0 _ (Rabs (n / 2)) ID); [|rewrite Rabs_right by lra; lra].
        destruct (qabout_one _ _ _ n (n / 2) N0 NN) as (C0 & C1 & C2 & C3). unfold qabout in *. cbn [q0 q1 q2 q3] in *. unfold closeQ. cbn [q0 q1 q2 q3]. refine (conj _ (conj _ (conj _ _))); rewrite Rabs_minus_sym; assumption.
  - destruct (G ltac:(lra)) as [N1 N2]. assert (N0 : 0 < n) by lra.
    assert (A : near a n (/ 1000000 * n)) by (split; assumption).
    change (@slit f32 FScalar 2 1) with (flit 2 1). destruct (flit_int 2 ltac:(lia)) as [TF TE].
    assert (AB : n <= 100000000000000) by (clear - NN Pn SQ; nra).
    destruct A as [_ A]. pose proof A as A'. apply Rabs_le_inv in A'.
    destruct (fdiv_R a (flit 2 1) F ltac:(rewrite TE; lra)) as [E H]; [rewrite TE; apply (small_enough _ 200000000000000); [apply Rabs_le; lra|unfold top; lra]|]. rewrite TE in E.
    change (@sdiv f32 FScalar a (flit 2 1)) with (fdiv a (flit 2 1)). set (p := fdiv a (flit 2 1)) in *. destruct (HT p H) as [HS HC]. set (h := R32 p) in *. clearbody p.
    assert (DV : forall k, (k < 3)%nat -> R32 (v k) * R32 (v k) <= n * n -> near (smul (sdiv (v k) a) (tsin p)) (R32 (v k) / n * sin h) (2 / 1000000)).
    { intros k Hk LK. fsc. pose proof (frac_le1 (R32 (v k)) n _ N0 eq_refl LK) as LE.
      assert (D1 : near (fdiv (v k) a) (R32 (v k) / n) (12 / 10000000)).
      { apply (near_div (v k) a (R32 (v k)) n 0 (/ 1000000 * n) (101 / 100000000) (102 / 100) _ (near_exact _ (Bk k Hk)) (conj F A)); rewrite ?(Rabs_right n) by lra; try (unfold huge, ulp1, tiny; lra).
        pose proof (Rabs_pos (R32 (v k) / n)). nra. }
      eapply near_weaken; [apply (near_m _ _ _ _ _ _ D1 HS); [lra|pose proof (sin_1 h); lra|lra|lra]|lra]. }
    assert (LK : forall k, (k < 3)%nat -> R32 (v k) * R32 (v k) <= n * n) by (intros [|[|[|k]]] Hk; [| | |lia]; rewrite NN; lra).
    assert (NQ : nearV (fun k => match k with 0%nat => tcos p | Datatypes.S j => smul (sdiv (v j) a) (tsin p) end) (qabout (R32 (v 0%nat)) (R32 (v 1%nat)) (R32 (v 2%nat)) n h) (2 / 1000000)).
    { refine (conj _ (conj _ (conj _ _))); [eapply near_weaken; [exact HC|lra]|apply DV; [lia|apply LK; lia]..]. }
    split; [exists (qabout (R32 (v 0%nat)) (R32 (v 1%nat)) (R32 (v 2%nat)) n h); split; [apply qabout_unit; assumption|exact NQ]|].
    intros N4. assert (HN : Rabs (h - n / 2) <= 25 / 10000000).
    { rewrite E. pose proof (rnd_rel_pos (R32 a / 2) ltac:(lra)) as R. apply Rabs_le. unfold ulp1, eta in R. lra. }
    pose proof (nearV_close _ _ _ _ (46 / 10000000) _ NQ (qabout_lip _ _ _ n h (n / 2) N0 NN) ltac:(lra)) as NC.
    destruct (Rlt_dec n (1 / 10 ^ 10)) as [D|D].
    + apply (nearV_close _ _ _ _ (5 / 1000000) _ NC (qabout_one _ _ _ n (n / 2) N0 NN)). rewrite Rabs_right by lra. lra.
    + fold (qabout (R32 (v 0%nat)) (R32 (v 1%nat)) (R32 (v 2%nat)) n (n / 2)). destruct NC as (I0 & I1 & I2 & I3). refine (conj _ (conj _ (conj _ _))); (eapply near_weaken; [eassumption|lra]).
Qed.
End Trig.

(** * No NaN from ordinary data: prediction, fusion, resets *)
From Coq Require Import Reals Lra Psatz.
From Verif Require Import CBase Scalar RealGeom RotModel RotProofs F32 F32More F32Err CovModel OutputModel NanModel Props_Sense Props_Sense2 NanProofs AttFloatModel AttFloatProofs AttFloatProofs2 NoNanProofs.
Open Scope R_scope.

(** an attitude that is finite and of unit length to 1/4000 *)
Definition unitF (x : Vec f32) : Prop := (forall k, (k < 4)%nat -> is_finite (x k) = true) /\ Rabs (qnorm2 (qr x) - 1) <= 1 / 4000.

(** ** Quaternion product *)
Lemma sum_abs (q : Q4) e : qnorm2 q <= 1 + e -> Rabs (q0 q) + Rabs (q1 q) + Rabs (q2 q) + Rabs (q3 q) <= 2 + e.
Proof.
  intros N. unfold qnorm2 in N. assert (T : forall x, Rabs x <= x ^ 2 + 1 / 4) by (intros x; pose proof (Rle_0_sqr (Rabs x - 1 / 2)) as H; unfold Rsqr in H; rewrite <- (pow2_abs x); lra).
  pose proof (T (q0 q)). pose proof (T (q1 q)). pose proof (T (q2 q)). pose proof (T (q3 q)). lra.
Qed.
Lemma qmul_near (x e : Vec f32) (u : Q4) d : (forall k, (k < 4)%nat -> is_finite (x k) = true) -> Rabs (qnorm2 (qr x) - 1) <= / 1000 -> qnorm2 u = 1 -> nearV e u d -> d <= / 1000 ->
  nearV (qmulv x e) (qmul (qr x) u) (41 / 10 * d + 14 / 10000000).
Proof.
  intros F N U (E0 & E1 & E2 & E3) D. destruct (norm_bounds _ _ N ltac:(lra)) as (B0 & B1 & B2 & B3). assert (N2 : Rabs (qnorm2 u - 1) <= / 1000) by (rewrite U; replace (1 - 1) with 0 by ring; rewrite Rabs_R0; lra).
  destruct (norm_bounds _ _ N2 ltac:(lra)) as (C0 & C1 & C2 & C3). pose proof (near_eps _ _ _ E0) as Pd.
  pose proof (near_exact _ (F 0%nat ltac:(lia))) as X0. pose proof (near_exact _ (F 1%nat ltac:(lia))) as X1. pose proof (near_exact _ (F 2%nat ltac:(lia))) as X2. pose proof (near_exact _ (F 3%nat ltac:(lia))) as X3.
  unfold qr in B0, B1, B2, B3. cbn [q0 q1 q2 q3] in *. unfold qmulv, qmul, qr, nearV. fsc. cbn [q0 q1 q2 q3].
  set (a := R32 (x 0%nat)) in *. set (b := R32 (x 1%nat)) in *. set (c := R32 (x 2%nat)) in *. set (g := R32 (x 3%nat)) in *. clearbody a b c g.
  assert (M : forall p q rp rq, near p rp 0 -> near q rq d -> Rabs rp <= 101 / 100 -> Rabs rq <= 101 / 100 -> near (fmul p q) (rp * rq) (102 / 100 * d + / 10000000) /\ Rabs (rp * rq) <= 1021 / 1000).
  { intros p q rp rq P Q Hp Hq. split; [eapply near_weaken; [apply (near_m p q rp rq 0 d P Q); lra|lra]|]. rewrite Rabs_mult. pose proof (Rabs_pos rp). pose proof (Rabs_pos rq). nra. }
  assert (S4 : forall p q r s rp rq rr rs (f1 f2 f3 : bool), (near p rp (102 / 100 * d + / 10000000) /\ Rabs rp <= 1021 / 1000) -> (near q rq (102 / 100 * d + / 10000000) /\ Rabs rq <= 1021 / 1000) ->
     (near r rr (102 / 100 * d + / 10000000) /\ Rabs rr <= 1021 / 1000) -> (near s rs (102 / 100 * d + / 10000000) /\ Rabs rs <= 1021 / 1000) ->
     near ((if f3 then fadd else fsub) ((if f2 then fadd else fsub) ((if f1 then fadd else fsub) p q) r) s) ((if f3 then Rplus else Rminus) ((if f2 then Rplus else Rminus) ((if f1 then Rplus else Rminus) rp rq) rr) rs) (41 / 10 * d + 14 / 10000000)).
  { assert (AS : forall (f : bool) p q rp rq ep eq m e', near p rp ep -> near q rq eq -> Rabs rp + Rabs rq <= m -> m <= 5 -> ep + eq <= / 10 -> ep + eq + 31 / 100000000 <= e' -> near ((if f then fadd else fsub) p q) ((if f then Rplus else Rminus) rp rq) e' /\ Rabs ((if f then Rplus else Rminus) rp rq) <= m).
    { intros f p q rp rq ep eq m e' P Q Hm M5 E1' E2'. assert (T : Rabs ((if f then Rplus else Rminus) rp rq) <= m) by (destruct f; [eapply Rle_trans; [apply Rabs_triang|lra]|unfold Rminus; eapply Rle_trans; [apply Rabs_triang|]; rewrite Rabs_Ropp; lra]).
      split; [|exact T]. destruct f; [apply (near_add p q rp rq ep eq (51 / 10))|apply (near_sub p q rp rq ep eq (51 / 10))]; try assumption; unfold huge, ulp1, tiny; lra. }
    intros p q r s rp rq rr rs f1 f2 f3 [P Hp] [Q Hq] [Rr Hr] [Ss Hs].
    destruct (AS f1 p q rp rq _ _ (2042 / 1000) (2 * (102 / 100 * d + / 10000000) + 31 / 100000000) P Q ltac:(lra) ltac:(lra) ltac:(lra) ltac:(lra)) as [A1 H1].
    destruct (AS f2 _ r _ rr _ _ (3063 / 1000) (3 * (102 / 100 * d + / 10000000) + 62 / 100000000) A1 Rr ltac:(lra) ltac:(lra) ltac:(lra) ltac:(lra)) as [A2 H2].
    apply (AS f3 _ s _ rs _ _ (4084 / 1000) _ A2 Ss); lra. }
  refine (conj _ (conj _ (conj _ _))).
  - apply (S4 _ _ _ _ _ _ _ _ false false false); apply M; assumption.
  - apply (S4 _ _ _ _ _ _ _ _ true true false); apply M; assumption.
  - apply (S4 _ _ _ _ _ _ _ _ false true true); apply M; assumption.
  - apply (S4 _ _ _ _ _ _ _ _ true false true); apply M; assumption.
Qed.
Lemma qmul_norm p u : qnorm2 (qmul p u) = qnorm2 p * qnorm2 u.
Proof. unfold qnorm2, qmul. cbn [q0 q1 q2 q3]. ring. Qed.
(** a vector of floats near a quaternion of about unit length *)
Lemma near_norm (v : Vec f32) (t : Q4) d : nearV v t d -> Rabs (qnorm2 t - 1) <= / 1000 -> d <= / 10000 -> (forall k, (k < 4)%nat -> is_finite (v k) = true) /\ Rabs (qnorm2 (qr v) - qnorm2 t) <= 5 * d.
Proof.
  intros ((F0 & H0) & (F1 & H1) & (F2 & H2) & (F3 & H3)) N D. split; [intros [|[|[|[|k]]]] Hk; try assumption; lia|].
  assert (S : Rabs (q0 t) + Rabs (q1 t) + Rabs (q2 t) + Rabs (q3 t) <= 2 + / 1000) by (apply sum_abs; apply Rabs_le_inv in N; lra).
  unfold qr, qnorm2. cbn [q0 q1 q2 q3]. pose proof (Rabs_pos (R32 (v 0%nat) - q0 t)) as Pd.
  assert (T : forall p q, Rabs (p - q) <= d -> Rabs (p ^ 2 - q ^ 2) <= 2 * d * Rabs q + d * d).
  { intros p q H. replace (p ^ 2 - q ^ 2) with ((p - q) * (2 * q) + (p - q) * (p - q)) by ring. eapply Rle_trans; [apply Rabs_triang|]. rewrite !Rabs_mult, (Rabs_right 2) by lra. pose proof (Rabs_pos (p - q)). pose proof (Rabs_pos q). nra. }
  pose proof (T _ _ H0) as T0. pose proof (T _ _ H1) as T1. pose proof (T _ _ H2) as T2. pose proof (T _ _ H3) as T3. clear T.
  apply Rabs_le_inv in T0, T1, T2, T3.
  assert (DD : d * d <= / 10000 * d) by nra. assert (DS : 2 * d * (Rabs (q0 t) + Rabs (q1 t) + Rabs (q2 t) + Rabs (q3 t)) <= 2 * d * (2 + / 1000)) by (apply Rmult_le_compat_l; lra).
  apply Rabs_le. lra.
Qed.
(** normalisation of nearby quaternions *)
Lemma normalize_close (p t : Q4) d : closeQ p t d -> 99 / 100 <= sqrt (qnorm2 p) <= 101 / 100 -> 99 / 100 <= sqrt (qnorm2 t) <= 101 / 100 -> Rabs (qnorm2 p - qnorm2 t) <= 5 * d ->
  closeQ (qscale (/ sqrt (qnorm2 p)) p) (qnormalize t) (38 / 10 * d).
Proof.
  intros (C0 & C1 & C2 & C3) A B D. unfold qnormalize, qscale, closeQ. cbn [q0 q1 q2 q3].
  assert (Pp : 0 <= qnorm2 p) by (unfold qnorm2; pose proof (pow2_ge_0 (q0 p)); pose proof (pow2_ge_0 (q1 p)); pose proof (pow2_ge_0 (q2 p)); pose proof (pow2_ge_0 (q3 p)); lra).
  assert (Pt : 0 <= qnorm2 t) by (unfold qnorm2; pose proof (pow2_ge_0 (q0 t)); pose proof (pow2_ge_0 (q1 t)); pose proof (pow2_ge_0 (q2 t)); pose proof (pow2_ge_0 (q3 t)); lra).
  pose proof (sqrt_sqrt _ Pp) as Sp. pose proof (sqrt_sqrt _ Pt) as St. set (m := sqrt (qnorm2 p)) in *. set (n := sqrt (qnorm2 t)) in *.
  assert (DN : Rabs (m - n) <= 26 / 10 * d).
  { assert (Q : (m - n) * (m + n) = qnorm2 p - qnorm2 t) by (rewrite <- Sp, <- St; ring). apply Rabs_le_inv in D. clear - Q D A B. apply Rabs_le. split; nra. }
  assert (KB : forall a, a ^ 2 <= qnorm2 t -> Rabs (a / n) <= 1) by (intros a Ha; apply (frac_le1 a n (qnorm2 t)); [lra|exact St|lra]).
  clearbody m n. assert (K : forall a b, Rabs (a - b) <= d -> b ^ 2 <= qnorm2 t -> Rabs (/ m * a - / n * b) <= 38 / 10 * d).
  { intros a b H Hb. replace (/ m * a - / n * b) with (/ m * ((a - b) + (b / n) * (n - m))) by (field; lra). rewrite Rabs_mult, Rabs_inv, (Rabs_right m) by lra.
    assert (T : Rabs ((a - b) + (b / n) * (n - m)) <= 36 / 10 * d).
    { eapply Rle_trans; [apply Rabs_triang|]. rewrite Rabs_mult, (Rabs_minus_sym n m). pose proof (KB b Hb). pose proof (Rabs_pos (b / n)). pose proof (Rabs_pos (m - n)). nra. }
    pose proof (Rabs_pos (a - b)). assert (I : / m <= 1011 / 1000). { apply (Rmult_le_reg_l m); [lra|]. rewrite Rinv_r by lra. nra. }
    assert (I0 : 0 < / m) by (apply Rinv_0_lt_compat; lra). pose proof (Rabs_pos ((a - b) + (b / n) * (n - m))). nra. }
  unfold qnorm2 in K. pose proof (pow2_ge_0 (q0 t)). pose proof (pow2_ge_0 (q1 t)). pose proof (pow2_ge_0 (q2 t)). pose proof (pow2_ge_0 (q3 t)).
  refine (conj _ (conj _ (conj _ _))); apply K; try assumption; lra.
Qed.

(** ** Prediction *)
Definition Good (s : predG f32) : Prop :=
  unitF (g_x s) /\ (forall k, (4 <= k < 24)%nat -> bnd (g_x s k) big) /\ (forall i j, (i < 3)%nat -> (j < 3)%nat -> bnd (g_R s i j) 2) /\
  is_finite (g_dt s) = true /\ 4 / 1000 <= R32 (g_dt s) <= 22 / 1000.
Definition imu_fine (earth : Vec f32) (i : gimu f32) : Prop :=
  (forall k, (k < 3)%nat -> bnd (gi_da i k) 4) /\ (forall k, (k < 3)%nat -> bnd (gi_dv i k) 10000) /\ bnd (gi_dadt i) 1 /\ bnd (gi_dvdt i) 1 /\ (forall k, (k < 3)%nat -> bnd (earth k) 1).
Lemma bnd_mvec (M : Mat f32) (v : Vec f32) A B C : (forall i j, (i < 3)%nat -> (j < 3)%nat -> bnd (M i j) A) -> (forall k, (k < 3)%nat -> bnd (v k) B) -> A * B <= 10000000000000000000000000 ->
  32 / 10 * (A * B) + / 100000000000000000000 <= C -> forall k, (k < 3)%nat -> bnd (mvec M v k) C.
Proof.
  intros HM HV T L k Hk. unfold mvec. fsc. pose proof (bnd_ge0 _ _ (HM 0%nat 0%nat ltac:(lia) ltac:(lia))) as PA. pose proof (bnd_ge0 _ _ (HV 0%nat ltac:(lia))) as PB. assert (PP : 0 <= A * B) by (apply Rmult_le_pos; assumption).
  assert (P : forall j, (j < 3)%nat -> bnd (fmul (M k j) (v j)) (101 / 100 * (A * B) + tiny)) by (intros j Hj; eapply bnd_mul; [apply HM; assumption|apply HV; assumption|unfold top; lra|lra]).
  repeat (eapply bnd_add; [|apply P; lia| |]); try apply Rle_refl; try (apply nn_0); try (apply P; lia); unfold top, tiny in *; lra.
Qed.
Lemma dcm_le (q : Q4) : qnorm2 q <= 1 + 1 / 1000 -> let m := dcm q in
  (Rabs (m00 m) <= 1 + 1 / 1000 /\ Rabs (m01 m) <= 1 + 1 / 1000 /\ Rabs (m02 m) <= 1 + 1 / 1000) /\ (Rabs (m10 m) <= 1 + 1 / 1000 /\ Rabs (m11 m) <= 1 + 1 / 1000 /\ Rabs (m12 m) <= 1 + 1 / 1000) /\
  (Rabs (m20 m) <= 1 + 1 / 1000 /\ Rabs (m21 m) <= 1 + 1 / 1000 /\ Rabs (m22 m) <= 1 + 1 / 1000).
Proof.
  destruct q as [a b c d]. unfold qnorm2, dcm. cbn [q0 q1 q2 q3 m00 m01 m02 m10 m11 m12 m20 m21 m22]. intros N.
  pose proof (pow2_ge_0 a). pose proof (pow2_ge_0 b). pose proof (pow2_ge_0 c). pose proof (pow2_ge_0 d).
  pose proof (pow2_ge_0 (a - b)). pose proof (pow2_ge_0 (a + b)). pose proof (pow2_ge_0 (c - d)). pose proof (pow2_ge_0 (c + d)).
  pose proof (pow2_ge_0 (a - c)). pose proof (pow2_ge_0 (a + c)). pose proof (pow2_ge_0 (b - d)). pose proof (pow2_ge_0 (b + d)).
  pose proof (pow2_ge_0 (a - d)). pose proof (pow2_ge_0 (a + d)). pose proof (pow2_ge_0 (b - c)). pose proof (pow2_ge_0 (b + c)).
  refine (conj (conj _ (conj _ _)) (conj (conj _ (conj _ _)) (conj _ (conj _ _)))); apply Rabs_le; split; lra.
Qed.
Lemma dcmv_bnd (x : Vec f32) : (forall k, (k < 4)%nat -> is_finite (x k) = true) -> Rabs (qnorm2 (qr x) - 1) <= / 1000 -> forall a b, (a < 3)%nat -> (b < 3)%nat -> bnd (dcmv x a b) (102 / 100).
Proof.
  intros F N. pose proof (dcmv_near x F N) as H. destruct (dcm_le (qr x) ltac:(apply Rabs_le_inv in N; lra)) as ((A00 & A01 & A02) & (A10 & A11 & A12) & (A20 & A21 & A22)).
  unfold nearM in H. decompose [and] H. clear H. intros [|[|[|a]]] [|[|[|b]]] Ha Hb; try lia; (eapply bnd_weak; [apply bnd_near; eassumption|lra]).
Qed.
Section Pred.
Variables (tsin tcos : f32 -> f32) (rad20 : f32).
Hypothesis HT : accurate_all tsin tcos.
Hypothesis Hrad : bnd rad20 1 /\ 0 <= R32 rad20.
Lemma corrected_bnd (earth : Vec f32) (i : gimu f32) (s : predG f32) : Good s -> imu_fine earth i -> forall k, (k < 3)%nat -> bnd (corrected_daG earth i s k) 40000000000000.
Proof.
  intros (_ & HB & HR & _) (H1 & _ & H2 & _ & H3) k Hk. unfold corrected_daG. fsc.
  assert (M : bnd (mvec (fun a b => g_R s b a) earth k) 7) by (eapply (bnd_mvec _ _ 2 1); try exact Hk; [intros a b Ha Hb; apply HR; assumption|exact H3|lra|lra]).
  eapply bnd_sub; [eapply bnd_sub; [apply H1, Hk|apply (HB (10 + k)%nat); lia| |apply Rle_refl]|eapply bnd_mul; [exact M|exact H2| |apply Rle_refl]| |]; unfold top, tiny, big in *; lra.
Qed.
Lemma predQuat_float (earth : Vec f32) (i : gimu f32) (s : predG f32) : Good s -> imu_fine earth i ->
  exists w, qnorm2 w = 1 /\ nearV (predQuat tsin tcos earth i s) w (1 / 100000) /\
  (sqrt (vnorm2 (vr (corrected_daG earth i s))) <= 4 -> closeQ w (qnormalize (qmul (qr (g_x s)) (qexp (vr (corrected_daG earth i s))))) (9 / 100000)).
Proof.
  intros G I. pose proof (corrected_bnd earth i s G I) as B. destruct G as ([F N] & _). unfold predQuat. set (v := corrected_daG earth i s) in *. clearbody v. clear I.
  destruct (expq_float tsin tcos HT v B) as [(u & U1 & U2) X]. set (e := expqG tsin tcos v) in *. clearbody e.
  assert (N3 : Rabs (qnorm2 (qr (g_x s)) - 1) <= / 1000) by lra.
  pose proof (qmul_near (g_x s) e u _ F N3 U1 U2 ltac:(lra)) as NR. set (raw := qmulv (g_x s) e) in *.
  assert (NT : qnorm2 (qmul (qr (g_x s)) u) = qnorm2 (qr (g_x s))) by (rewrite qmul_norm, U1; ring).
  destruct (near_norm raw _ _ NR ltac:(rewrite NT; exact N3) ltac:(lra)) as [FR DR]. rewrite NT in DR. apply Rabs_le_inv in DR, N.
  destruct (qnormv_near raw FR ltac:(lra)) as (w & W1 & W2 & W3). exists w. split; [exact W1|]. split; [exact W3|].
  intros L. specialize (X L). assert (UE : qnorm2 (qexp (vr v)) = 1) by apply qexp_unit.
  pose proof (qmul_near (g_x s) e _ _ F N3 UE X ltac:(lra)) as NE. assert (NT2 : qnorm2 (qmul (qr (g_x s)) (qexp (vr v))) = qnorm2 (qr (g_x s))) by (rewrite qmul_norm, UE; ring).
  destruct (near_norm raw _ _ NE ltac:(rewrite NT2; exact N3) ltac:(lra)) as [_ DE]. rewrite W2.
  assert (SQ : forall t, 98 / 100 + 1 / 100 <= t <= 1 + 1 / 100 -> 99 / 100 <= sqrt t <= 101 / 100).
  { intros t Ht. split; [rewrite <- (sqrt_square (99 / 100)) by lra|rewrite <- (sqrt_square (101 / 100)) by lra]; apply sqrt_le_1_alt; lra. }
  assert (CQ : closeQ (qr raw) (qmul (qr (g_x s)) (qexp (vr v))) (41 / 10 * (5 / 1000000) + 14 / 10000000)) by (destruct NE as ((? & E0) & (? & E1) & (? & E2) & (? & E3)); exact (conj E0 (conj E1 (conj E2 E3)))).
  destruct (normalize_close _ _ _ CQ ltac:(apply SQ; lra) ltac:(apply SQ; rewrite NT2; lra) DE) as (C0 & C1 & C2 & C3).
  refine (conj _ (conj _ (conj _ _))); (eapply Rle_trans; [eassumption|lra]).
Qed.
Lemma predQuat_unit (earth : Vec f32) (i : gimu f32) (s : predG f32) : Good s -> imu_fine earth i ->
  unitF (predQuat tsin tcos earth i s) /\ (forall a b, (a < 3)%nat -> (b < 3)%nat -> bnd (dcmv (predQuat tsin tcos earth i s) a b) (102 / 100)) /\
  unitF (fun k => sconstrain (predQuat tsin tcos earth i s k) (fneg (flit 1 1)) (flit 1 1)).
Proof.
  intros G I. destruct (predQuat_float earth i s G I) as (w & W & NV & _). set (q := predQuat tsin tcos earth i s) in *. clearbody q.
  assert (Q1 : qscale 1 w = w) by (destruct w as [w0 w1 w2 w3]; unfold qscale; cbn [q0 q1 q2 q3]; rewrite !Rmult_1_l; reflexivity).
  assert (WK : forall (v : Vec f32), nearV v w (1 / 100000) -> nearV v (qscale 1 w) (4 / 100000)) by (intros v (H0 & H1 & H2 & H3); rewrite Q1; refine (conj _ (conj _ (conj _ _))); eapply near_weaken; try eassumption; lra).
  destruct (q_bounds w W) as (B0 & B1 & B2 & B3).
  assert (NY : nearV (fun k => sconstrain (q k) (fneg (flit 1 1)) (flit 1 1)) w (1 / 100000)) by (destruct NV as (H0 & H1 & H2 & H3); refine (conj _ (conj _ (conj _ _))); apply near_constrain; assumption).
  destruct (near_unit _ w 1 W (or_introl eq_refl) (WK _ NV)) as (F1 & N1 & _). destruct (near_unit _ w 1 W (or_introl eq_refl) (WK _ NY)) as (F2 & N2 & _).
  split; [split; [assumption|lra]|]. split; [|split; [assumption|lra]]. apply dcmv_bnd; [exact F1|lra].
Qed.
End Pred.
Lemma near_half_v : is_finite (flit 1 2) = true /\ R32 (flit 1 2) = 1 / 2.
Proof. destruct near_half as [F E]. split; [exact F|]. set (x := R32 _) in *. clearbody x. apply Rabs_le_inv in E. lra. Qed.
Lemma mul_nn x y A B : bnd x A -> 0 <= R32 x -> bnd y B -> 0 <= R32 y -> A * B <= top -> bnd (fmul x y) (101 / 100 * (A * B) + tiny) /\ 0 <= R32 (fmul x y).
Proof.
  intros X PX Y PY T. split; [eapply bnd_mul; try eassumption; lra|]. destruct X as [Fx Hx], Y as [Fy Hy].
  destruct (fmul_R x y Fx Fy) as [E _]; [apply (small_enough _ (A * B)); [rewrite Rabs_mult; apply Rmult_le_compat; auto using Rabs_pos|exact T]|]. rewrite E. apply rnd32_ge0, Rmult_le_pos; assumption.
Qed.
Section Steps.
Variables (tsin tcos tasin : f32 -> f32) (tatan2 : f32 -> f32 -> f32) (pi2 rad20 : f32).
Hypothesis HA : accurate tsin tcos tasin tatan2 pi2.
Hypothesis HT : accurate_all tsin tcos.
Hypothesis Hrad : bnd rad20 1 /\ 0 <= R32 rad20.
(** the limit of each state *)
Definition limR (lim : f32) (dt : f32) (k : nat) : R :=
  if (k <? 7)%nat then 1000 else if (k <? 10)%nat then 1000000 else if (k <? 13)%nat then R32 (fmul rad20 dt) else if (k <? 16)%nat then R32 (fmul lim dt)
  else if (k <? 19)%nat then 1 else if (k <? 22)%nat then 1 / 2 else 100.
Lemma limit_val (lim dt : f32) : bnd lim 100 -> 0 <= R32 lim -> is_finite dt = true -> 4 / 1000 <= R32 dt <= 22 / 1000 -> forall k, (4 <= k < 24)%nat ->
  is_finite (limitG rad20 lim dt k) = true /\ R32 (limitG rad20 lim dt k) = limR lim dt k /\ 0 <= limR lim dt k <= 1000000.
Proof.
  intros BL PL FD HD k Hk. assert (BD : bnd dt (22 / 1000)) by (split; [exact FD|apply Rabs_le; lra]).
  destruct Hrad as [BR PR]. destruct (mul_nn rad20 dt _ _ BR PR BD ltac:(lra) ltac:(unfold top; lra)) as [[M1 M2] M3]. destruct (mul_nn lim dt _ _ BL PL BD ltac:(lra) ltac:(unfold top; lra)) as [[L1 L2] L3].
  apply Rabs_le_inv in M2, L2. unfold tiny in M2, L2. unfold limitG, limR. fsc. destruct (flit_int 1000 ltac:(lia)) as [F1 E1]. destruct (flit_int 1000000 ltac:(lia)) as [F2 E2]. destruct (flit_int 1 ltac:(lia)) as [F3 E3]. destruct (flit_int 100 ltac:(lia)) as [F4 E4].
  destruct near_half_v as [F5 E5]. destruct (Nat.ltb_spec k 4); [lia|].
  repeat match goal with |- context [(?a <? ?b)%nat] => destruct (Nat.ltb_spec a b) end; (split; [assumption|split; [assumption|lra]]) || (split; [assumption|split; [reflexivity|lra]]).
Qed.
Lemma predict_fine lim earth i s : Good s -> imu_fine earth i -> bnd lim 100 -> 0 <= R32 lim ->
  let s' := predictG tsin tcos rad20 lim earth i s in Good s' /\ forall k, (4 <= k < 24)%nat -> Rabs (R32 (g_x s' k)) <= limR lim (g_dt s) k.
Proof.
  intros G I BL PL. destruct (predQuat_unit tsin tcos HT earth i s G I) as (U1 & U2 & U3). cbv zeta.
  destruct G as (GU & GB & GR & GF & GD). destruct I as (I1 & I2 & I3 & I4 & I5).
  set (q := predQuat tsin tcos earth i s) in *.
  (* velocity and position before the limits *)
  assert (BV : forall k, (k < 3)%nat -> bnd (predDv tsin tcos earth i s k) 120000000000000).
  { intros k Hk. unfold predDv. fold q. eapply (bnd_mvec _ _ (102 / 100) 36000000000000); [exact U2| |lra|lra|exact Hk].
    intros j Hj. fsc. eapply bnd_sub; [apply I2, Hj|apply (GB (13 + j)%nat); lia| |]; unfold top, big, tiny; lra. }
  assert (BVel : forall k, (k < 3)%nat -> bnd (predVel tsin tcos earth i s k) 170000000000000).
  { intros k Hk. unfold predVel. fsc.
    assert (A : bnd (fadd (g_x s (4 + k)%nat) (predDv tsin tcos earth i s k)) 160000000000000) by (eapply bnd_add; [apply GB; lia|apply BV, Hk| |]; unfold top, big, tiny; lra).
    destruct (k =? 2)%nat; [|eapply bnd_weak; [exact A|lra]]. assert (O : bnd (slit 980665 100000) 10) by (apply (bnd_weak _ _ _ (bnd_near _ _ _ (near_frac 980665 100000 ltac:(lia) ltac:(lia) ltac:(rewrite Rabs_right; lra)))); rewrite !(Rabs_right (980665 / 100000)) by lra; unfold ulp1, tiny; lra).
    eapply bnd_add; [exact A|eapply bnd_mul; [exact O|exact I4| |apply Rle_refl]| |]; unfold top, tiny; lra. }
  assert (BPos : forall k, (k < 3)%nat -> is_finite (predPos tsin tcos earth i s k) = true).
  { intros k Hk. unfold predPos. fsc. assert (H2 : bnd (slit 1 2) 1) by (destruct near_half_v as [F E]; split; [exact F|]; change (@slit f32 FScalar 1 2) with (flit 1 2); rewrite E; rewrite Rabs_right; lra).
    refine (proj1 (_ : bnd _ 500000000000000)).
    eapply bnd_add; [apply GB; lia|eapply bnd_mul; [eapply bnd_mul; [eapply bnd_add; [apply GB; lia|apply BVel, Hk| |apply Rle_refl]|exact I4| |apply Rle_refl]|exact H2| |apply Rle_refl]| |]; unfold top, big, tiny; lra. }
  assert (BRaw : forall k, (4 <= k < 24)%nat -> is_finite (predRaw tsin tcos earth i s k) = true).
  { intros k Hk. unfold predRaw. destruct (Nat.ltb_spec k 4); [lia|]. destruct (Nat.ltb_spec k 7); [apply BVel; lia|]. destruct (Nat.ltb_spec k 10); [apply BPos; lia|]. apply GB. exact Hk. }
  assert (LIM : forall k, (4 <= k < 24)%nat -> bnd (constrainG rad20 lim (g_dt s) (predRaw tsin tcos earth i s) k) (limR lim (g_dt s) k) /\ limR lim (g_dt s) k <= 1000000).
  { intros k Hk. destruct (limit_val lim (g_dt s) BL PL GF GD k Hk) as (LF & LE & L0). unfold constrainG. fsc. destruct (limit_bnd (predRaw tsin tcos earth i s k) (limitG rad20 lim (g_dt s) k) 1000000 (BRaw k Hk)) as [A _]; [split; [exact LF|]; rewrite LE; apply Rabs_le; lra|rewrite LE; lra|].
    rewrite LE in A. split; [exact A|lra]. }
  split; [|intros k Hk; apply (LIM k Hk)]. unfold Good. cbn [predictG g_x g_R g_dt]. fold q.
  split; [|split; [|split]].
  - destruct U3 as [A B]. split; [|exact B]. intros k Hk. unfold constrainG, predRaw, limitG. fold q. rewrite (proj2 (Nat.ltb_lt k 4) Hk). apply A, Hk.
  - intros k Hk. destruct (LIM k Hk) as [A B]. eapply bnd_weak; [exact A|unfold big; lra].
  - intros a b Ha Hb. eapply bnd_weak; [apply U2; assumption|lra].
  - clear - I3 I4 GF GD. fsc.
    assert (L1 : forall n d, (0 <= n <= 200)%Z -> (1 <= d <= 1000)%Z -> 0 <= IZR n / IZR d <= 2 -> near (flit n d) (IZR n / IZR d) (2 / 10000000)) by (intros n d Hn Hd Hb; eapply near_weaken; [apply near_frac; [lia|lia|rewrite Rabs_right; lra]|rewrite Rabs_right by lra; unfold ulp1, tiny; lra]).
    assert (L2 : forall n d, (0 <= n <= 200)%Z -> (1 <= d <= 1000)%Z -> 0 <= IZR n / IZR d <= 2 -> near (fmul (flit n d) (flit 1 100)) (IZR n / IZR d * (1 / 100)) (5 / 10000000)).
    { intros n d Hn Hd Hb. pose proof (L1 n d Hn Hd Hb) as A. pose proof (L1 1%Z 100%Z ltac:(lia) ltac:(lia) ltac:(lra)) as C. set (r := IZR n / IZR d) in *. clearbody r. clear L1.
      apply (near_mul _ _ _ _ _ _ (45 / 100000000) (1 / 10) _ A C); rewrite ?Rabs_mult, ?(Rabs_right r), ?(Rabs_right (1 / 100)) by lra; unfold huge, ulp1, tiny; lra. }
    pose proof (L2 1%Z 2%Z ltac:(lia) ltac:(lia) ltac:(lra)) as LO. pose proof (L2 2%Z 1%Z ltac:(lia) ltac:(lia) ltac:(lra)) as HI.
    change (@slit f32 FScalar 1 2) with (flit 1 2). change (@slit f32 FScalar 2 1) with (flit 2 1). change (@slit f32 FScalar 1 100) with (flit 1 100). change (@slit f32 FScalar 99 100) with (flit 99 100).
    set (lo := fmul (flit 1 2) (flit 1 100)) in *. set (hi := fmul (flit 2 1) (flit 1 100)) in *. apply near_val in LO as LOV. apply near_val in HI as HIV. destruct LO as [LOF _], HI as [HIF _]. clearbody lo hi.
    assert (AV : is_finite (fmul (flit 1 2) (fadd (gi_dvdt i) (gi_dadt i))) = true).
    { refine (proj1 (_ : bnd _ 10)). eapply bnd_mul; [split; [apply near_half_v|apply Req_le; rewrite (proj2 near_half_v); apply Rabs_right; lra]|eapply bnd_add; [exact I4|exact I3| |apply Rle_refl]| |]; unfold top, tiny; lra. }
    destruct (limit_R _ lo hi AV LOF HIF ltac:(lra)) as [IF IV]. set (inp := sconstrain _ lo hi) in *. clearbody inp.
    pose proof (L1 99%Z 100%Z ltac:(lia) ltac:(lia) ltac:(lra)) as C1. pose proof (L1 1%Z 100%Z ltac:(lia) ltac:(lia) ltac:(lra)) as C2.
    assert (M1 : near (fmul (flit 99 100) (g_dt s)) (99 / 100 * R32 (g_dt s)) (1 / 1000000)).
    { apply (near_mul _ _ _ _ _ _ (5 / 10000000) 1 _ C1 (near_exact _ GF)); rewrite ?Rabs_mult, ?(Rabs_right (99 / 100)), ?(Rabs_right (R32 (g_dt s))) by lra; unfold huge, ulp1, tiny; lra. }
    assert (M2 : near (fmul (flit 1 100) inp) (1 / 100 * R32 inp) (1 / 1000000)).
    { apply (near_mul _ _ _ _ _ _ (5 / 10000000) 1 _ C2 (near_exact _ IF)); rewrite ?Rabs_mult, ?(Rabs_right (1 / 100)), ?(Rabs_right (R32 inp)) by lra; unfold huge, ulp1, tiny; lra. }
    assert (M3 : near (fadd (fmul (flit 99 100) (g_dt s)) (fmul (flit 1 100) inp)) (99 / 100 * R32 (g_dt s) + 1 / 100 * R32 inp) (3 / 1000000)).
    { apply (near_add _ _ _ _ _ _ 1 _ M1 M2); [rewrite Rabs_right by lra; lra|unfold huge; lra|unfold ulp1, tiny; lra]. }
    pose proof (near_val _ _ _ M3). split; [apply M3|]. lra.
Qed.
End Steps.

(** * The published attitude in single precision: quaternion lemmas *)
From Coq Require Import Reals Lra Psatz.
From Verif Require Import CBase Scalar RealGeom RotModel RotProofs F32 F32More F32Err CovModel RingBufferModel RingBufferProofs OutputModel OutputHist NanModel Props_Sense Props_Sense2 NanProofs AttFloatModel AttFloatProofs AttFloatProofs2 NoNanProofs NoNanProofs2.
Open Scope R_scope.

(** finite and of unit length to c *)
Definition qok (c : R) (x : Vec f32) : Prop := (forall k, (k < 4)%nat -> is_finite (x k) = true) /\ Rabs (qnorm2 (qr x) - 1) <= c.
Lemma qok_weak c d x : qok c x -> c <= d -> qok d x. Proof. intros [A B] L. split; [exact A|lra]. Qed.
Lemma qok_unitF x : qok (1 / 4000) x <-> unitF x. Proof. reflexivity. Qed.

Lemma comp_le (q : Q4) M : 0 <= M -> qnorm2 q <= M * M -> Rabs (q0 q) <= M /\ Rabs (q1 q) <= M /\ Rabs (q2 q) <= M /\ Rabs (q3 q) <= M.
Proof.
  intros P N. unfold qnorm2 in N. pose proof (pow2_ge_0 (q0 q)). pose proof (pow2_ge_0 (q1 q)). pose proof (pow2_ge_0 (q2 q)). pose proof (pow2_ge_0 (q3 q)).
  assert (T : forall x, x ^ 2 <= M * M -> Rabs x <= M). { intros x Hx. rewrite <- (Rabs_right M) by lra. apply Rsqr_le_abs_0. unfold Rsqr. lra. }
  refine (conj _ (conj _ (conj _ _))); apply T; lra.
Qed.
Lemma qn_pos (q : Q4) : 0 <= qnorm2 q.
Proof. unfold qnorm2. pose proof (pow2_ge_0 (q0 q)). pose proof (pow2_ge_0 (q1 q)). pose proof (pow2_ge_0 (q2 q)). pose proof (pow2_ge_0 (q3 q)). lra. Qed.
(** product of two quaternions of norm at most 2 *)
Lemma qmul_loose (x y : Vec f32) : (forall k, (k < 4)%nat -> is_finite (x k) = true) -> (forall k, (k < 4)%nat -> is_finite (y k) = true) -> qnorm2 (qr x) <= 4 -> qnorm2 (qr y) <= 4 ->
  nearV (qmulv x y) (qmul (qr x) (qr y)) (5 / 1000000).
Proof.
  intros F G Nx Ny. destruct (comp_le (qr x) 2 ltac:(lra) ltac:(lra)) as (B0 & B1 & B2 & B3).
  destruct (comp_le (qr y) 2 ltac:(lra) ltac:(lra)) as (C0 & C1 & C2 & C3). clear Nx Ny.
  pose proof (near_exact _ (F 0%nat ltac:(lia))) as X0. pose proof (near_exact _ (F 1%nat ltac:(lia))) as X1. pose proof (near_exact _ (F 2%nat ltac:(lia))) as X2. pose proof (near_exact _ (F 3%nat ltac:(lia))) as X3.
  pose proof (near_exact _ (G 0%nat ltac:(lia))) as Y0. pose proof (near_exact _ (G 1%nat ltac:(lia))) as Y1. pose proof (near_exact _ (G 2%nat ltac:(lia))) as Y2. pose proof (near_exact _ (G 3%nat ltac:(lia))) as Y3.
  unfold qr in B0, B1, B2, B3, C0, C1, C2, C3. cbn [q0 q1 q2 q3] in *. unfold qmulv, qmul, qr, nearV. fsc. cbn [q0 q1 q2 q3].
  set (a := R32 (x 0%nat)) in *. set (b := R32 (x 1%nat)) in *. set (c := R32 (x 2%nat)) in *. set (g := R32 (x 3%nat)) in *.
  set (a' := R32 (y 0%nat)) in *. set (b' := R32 (y 1%nat)) in *. set (c' := R32 (y 2%nat)) in *. set (g' := R32 (y 3%nat)) in *. clearbody a b c g a' b' c' g'.
  assert (M : forall p q rp rq, near p rp 0 -> near q rq 0 -> Rabs rp <= 2 -> Rabs rq <= 2 -> near (fmul p q) (rp * rq) (26 / 100000000) /\ Rabs (rp * rq) <= 4).
  { intros p q rp rq P Q Hp Hq. assert (Hm : Rabs (rp * rq) <= 4) by (rewrite Rabs_mult; pose proof (Rabs_pos rp); pose proof (Rabs_pos rq); nra).
    split; [|exact Hm]. apply (near_mul p q rp rq 0 0 0 4); try assumption; [lra|lra|unfold huge; lra|unfold ulp1, tiny; lra]. }
  assert (S4 : forall p q r s rp rq rr rs (f1 f2 f3 : bool), (near p rp (26 / 100000000) /\ Rabs rp <= 4) -> (near q rq (26 / 100000000) /\ Rabs rq <= 4) ->
     (near r rr (26 / 100000000) /\ Rabs rr <= 4) -> (near s rs (26 / 100000000) /\ Rabs rs <= 4) ->
     near ((if f3 then fadd else fsub) ((if f2 then fadd else fsub) ((if f1 then fadd else fsub) p q) r) s) ((if f3 then Rplus else Rminus) ((if f2 then Rplus else Rminus) ((if f1 then Rplus else Rminus) rp rq) rr) rs) (5 / 1000000)).
  { assert (AS : forall (f : bool) p q rp rq ep eq m e', near p rp ep -> near q rq eq -> Rabs rp + Rabs rq <= m -> m <= 16 -> ep + eq <= / 1000 -> ep + eq + 101 / 100 * m * ulp1 + / 10000000000 <= e' -> near ((if f then fadd else fsub) p q) ((if f then Rplus else Rminus) rp rq) e' /\ Rabs ((if f then Rplus else Rminus) rp rq) <= m).
    { intros f p q rp rq ep eq m e' P Q Hm M5 E1' E2'. pose proof (Rabs_pos rp). pose proof (Rabs_pos rq). assert (T : Rabs ((if f then Rplus else Rminus) rp rq) <= m) by (destruct f; [eapply Rle_trans; [apply Rabs_triang|lra]|unfold Rminus; eapply Rle_trans; [apply Rabs_triang|]; rewrite Rabs_Ropp; lra]).
      split; [|exact T]. destruct f; [apply (near_add p q rp rq ep eq (m + / 1000))|apply (near_sub p q rp rq ep eq (m + / 1000))]; try assumption; unfold huge, ulp1, tiny in *; lra. }
    intros p q r s rp rq rr rs f1 f2 f3 [P Hp] [Q Hq] [Rr Hr] [Ss Hs].
    destruct (AS f1 p q rp rq _ _ 8 (102 / 100000000) P Q ltac:(lra) ltac:(lra) ltac:(lra) ltac:(unfold ulp1; lra)) as [A1 H1].
    destruct (AS f2 _ r _ rr _ _ 12 (202 / 100000000) A1 Rr ltac:(lra) ltac:(lra) ltac:(lra) ltac:(unfold ulp1; lra)) as [A2 H2].
    apply (AS f3 _ s _ rs _ _ 16 _ A2 Ss); unfold ulp1; lra. }
  refine (conj _ (conj _ (conj _ _))).
  - apply (S4 _ _ _ _ _ _ _ _ false false false); apply M; assumption.
  - apply (S4 _ _ _ _ _ _ _ _ true true false); apply M; assumption.
  - apply (S4 _ _ _ _ _ _ _ _ false true true); apply M; assumption.
  - apply (S4 _ _ _ _ _ _ _ _ true false true); apply M; assumption.
Qed.
Lemma norm_loose (v : Vec f32) (t : Q4) d : nearV v t d -> d <= / 10000 -> (forall k, (k < 4)%nat -> is_finite (v k) = true) /\ Rabs (qnorm2 (qr v) - qnorm2 t) <= d * (2 * qnorm2 t + 2 + / 1000).
Proof.
  intros ((F0 & H0) & (F1 & H1) & (F2 & H2) & (F3 & H3)) D. split; [intros [|[|[|[|k]]]] Hk; try assumption; lia|].
  assert (S : Rabs (q0 t) + Rabs (q1 t) + Rabs (q2 t) + Rabs (q3 t) <= qnorm2 t + 1) by (pose proof (sum_abs t (qnorm2 t - 1) ltac:(lra)); lra).
  set (Nt := qnorm2 t) in *. assert (EN : Nt = q0 t ^ 2 + q1 t ^ 2 + q2 t ^ 2 + q3 t ^ 2) by reflexivity. clearbody Nt. rewrite EN at 1.
  unfold qr, qnorm2. cbn [q0 q1 q2 q3]. pose proof (Rabs_pos (R32 (v 0%nat) - q0 t)) as Pd.
  assert (T : forall p q, Rabs (p - q) <= d -> Rabs (p ^ 2 - q ^ 2) <= 2 * d * Rabs q + d * d).
  { intros p q H. replace (p ^ 2 - q ^ 2) with ((p - q) * (2 * q) + (p - q) * (p - q)) by ring. eapply Rle_trans; [apply Rabs_triang|]. rewrite !Rabs_mult, (Rabs_right 2) by lra. pose proof (Rabs_pos (p - q)). pose proof (Rabs_pos q). nra. }
  pose proof (T _ _ H0) as T0. pose proof (T _ _ H1) as T1. pose proof (T _ _ H2) as T2. pose proof (T _ _ H3) as T3. clear T.
  apply Rabs_le_inv in T0, T1, T2, T3.
  assert (DD : d * d <= / 10000 * d) by nra. assert (DS : 2 * d * (Rabs (q0 t) + Rabs (q1 t) + Rabs (q2 t) + Rabs (q3 t)) <= 2 * d * (Nt + 1)) by (apply Rmult_le_compat_l; lra).
  apply Rabs_le. lra.
Qed.
(** normalising gives a unit quaternion to 1/10000, with components at most 1.00001 *)
Lemma qnormv_qok (x : Vec f32) : (forall k, (k < 4)%nat -> is_finite (x k) = true) -> 1 / 4 <= qnorm2 (qr x) <= 4 -> qok (5 / 100000) (qnormv x) /\ (forall k, (k < 4)%nat -> bnd (qnormv x k) (100001 / 100000)).
Proof.
  intros F N. destruct (qnormv_near x F N) as (w & W & _ & NV). destruct (norm_loose _ _ _ NV ltac:(lra)) as [A B]. rewrite W in B.
  split; [split; [exact A|eapply Rle_trans; [exact B|lra]]|]. destruct (q_bounds w W) as (B0 & B1 & B2 & B3). destruct NV as (N0 & N1 & N2 & N3).
  intros [|[|[|[|k]]]] Hk; try lia; (eapply bnd_weak; [apply bnd_near; eassumption|lra]).
Qed.
(** product of two loose quaternions *)
Lemma qmulv_norm c d (x y : Vec f32) : qok c x -> qok d y -> c <= 1 / 2 -> d <= 1 ->
  (forall k, (k < 4)%nat -> is_finite (qmulv x y k) = true) /\ Rabs (qnorm2 (qr (qmulv x y)) - qnorm2 (qr x) * qnorm2 (qr y)) <= 5 / 100000.
Proof.
  intros [F Nx] [G Ny] C D. apply Rabs_le_inv in Nx, Ny. pose proof (qmul_loose x y F G ltac:(lra) ltac:(lra)) as NV. destruct (norm_loose _ _ _ NV ltac:(lra)) as [A B].
  rewrite NoNanProofs2.qmul_norm in B. split; [exact A|]. pose proof (qn_pos (qr x)). pose proof (qn_pos (qr y)).
  assert (P : qnorm2 (qr x) * qnorm2 (qr y) <= 3) by (apply Rle_trans with (3 / 2 * 2); [apply Rmult_le_compat; lra|lra]). eapply Rle_trans; [exact B|]. lra.
Qed.
(** turning by a freshly normalised quaternion *)
Lemma turn_qok c (d x : Vec f32) : qok (5 / 100000) d -> qok c x -> c <= 49 / 100 -> qok (c + 13 / 100000) (qmulv d x).
Proof.
  intros D X C. pose proof (Rabs_pos (qnorm2 (qr x) - 1)). destruct X as [FX NX]. assert (X : qok c x) by (split; assumption). destruct (qmulv_norm _ _ d x D X ltac:(lra) ltac:(lra)) as [A B]. split; [exact A|].
  destruct D as [_ ND]. set (n := qnorm2 (qr x)) in *. set (m := qnorm2 (qr d)) in *. set (p := qnorm2 (qr (qmulv d x))) in *. clearbody n m p.
  replace (p - 1) with ((p - m * n) + ((m - 1) * n + (n - 1))) by ring. eapply Rle_trans; [apply Rabs_triang|]. pose proof (Rabs_triang ((m - 1) * n) (n - 1)) as T. rewrite Rabs_mult in T.
  assert (Hn : Rabs n <= 149 / 100) by (apply Rabs_le_inv in NX; apply Rabs_le; lra). pose proof (Rabs_pos (m - 1)). pose proof (Rabs_pos n).
  assert (Rabs (m - 1) * Rabs n <= 5 / 100000 * (149 / 100)) by (apply Rmult_le_compat; assumption). lra.
Qed.
(** ** Inverse *)
Lemma qdot_near (x : Vec f32) : (forall k, (k < 4)%nat -> is_finite (x k) = true) -> qnorm2 (qr x) <= 4 -> near (qdot x x) (qnorm2 (qr x)) (22 / 10000000).
Proof.
  intros F N. pose proof (near_exact _ (F 0%nat ltac:(lia))) as X0. pose proof (near_exact _ (F 1%nat ltac:(lia))) as X1. pose proof (near_exact _ (F 2%nat ltac:(lia))) as X2. pose proof (near_exact _ (F 3%nat ltac:(lia))) as X3.
  unfold qr, qnorm2 in *. unfold qdot. fsc. change (@szero f32 FScalar) with (flit 0 1). cbn [q0 q1 q2 q3] in *.
  set (a := R32 (x 0%nat)) in *. set (b := R32 (x 1%nat)) in *. set (c := R32 (x 2%nat)) in *. set (d := R32 (x 3%nat)) in *. clearbody a b c d. clear F.
  assert (SQ : 0 <= a * a /\ 0 <= b * b /\ 0 <= c * c /\ 0 <= d * d) by (repeat split; apply Rle_0_sqr). destruct SQ as (SA & SB & SC & SD).
  assert (N' : a * a + b * b + c * c + d * d <= 4) by lra. clear N.
  assert (MM : forall u ru, near u ru 0 -> 0 <= ru * ru -> ru * ru <= 4 -> near (fmul u u) (ru * ru) (26 / 100000000)).
  { intros u ru U P Q. apply (near_mul u u ru ru 0 0 0 4); try assumption; [lra|rewrite Rabs_right by lra; lra|unfold huge; lra|unfold ulp1, tiny; lra]. }
  assert (AA : forall u v ru rv eu ev, near u ru eu -> near v rv ev -> 0 <= ru -> 0 <= rv -> ru + rv <= 4 -> eu + ev <= / 10000 -> near (fadd u v) (ru + rv) (eu + ev + 26 / 100000000)).
  { intros u v ru rv eu ev U V P Q S E. apply (near_add u v ru rv eu ev (4 + / 10000)); try assumption; [rewrite Rabs_right by lra; lra|unfold huge; lra|unfold ulp1, tiny; lra]. }
  assert (Z0 : near (flit 0 1) 0 0) by (apply near_int; lia).
  replace (a ^ 2 + b ^ 2 + c ^ 2 + d ^ 2) with (0 + a * a + b * b + c * c + d * d) by ring.
  eapply near_weaken; [apply AA; [apply AA; [apply AA; [apply AA; [exact Z0|apply MM; [exact X0|assumption|lra]|lra|lra|lra|lra]|apply MM; [exact X1|assumption|lra]|lra|lra|lra|lra]|apply MM; [exact X2|assumption|lra]|lra|lra|lra|lra]|apply MM; [exact X3|assumption|lra]|lra|lra|lra|lra]|lra].
Qed.
Definition qinvR (q : Q4) : Q4 := mkQ (q0 q / qnorm2 q) (- q1 q / qnorm2 q) (- q2 q / qnorm2 q) (- q3 q / qnorm2 q).
Lemma qinvR_norm q : 0 < qnorm2 q -> qnorm2 (qinvR q) = / qnorm2 q.
Proof. intros P. unfold qnorm2 at 1, qinvR. cbn [q0 q1 q2 q3]. replace ((q0 q / qnorm2 q) ^ 2 + (- q1 q / qnorm2 q) ^ 2 + (- q2 q / qnorm2 q) ^ 2 + (- q3 q / qnorm2 q) ^ 2) with ((q0 q ^ 2 + q1 q ^ 2 + q2 q ^ 2 + q3 q ^ 2) / (qnorm2 q * qnorm2 q)) by (field; lra). fold (qnorm2 q). field. lra. Qed.
Lemma qinv_near (x : Vec f32) : (forall k, (k < 4)%nat -> is_finite (x k) = true) -> 1 / 2 <= qnorm2 (qr x) <= 3 / 2 -> nearV (qinvv x) (qinvR (qr x)) (2 / 100000).
Proof.
  intros F N. pose proof (qdot_near x F ltac:(lra)) as D. destruct (comp_le (qr x) (1225 / 1000) ltac:(lra) ltac:(lra)) as (B0 & B1 & B2 & B3).
  unfold qinvv. cbv zeta. set (fn := qdot x x) in *. clearbody fn. unfold nearV, qinvR. set (n := qnorm2 (qr x)) in *. clearbody n.
  pose proof (near_exact _ (F 0%nat ltac:(lia))) as X0. pose proof (near_exact _ (F 1%nat ltac:(lia))) as X1. pose proof (near_exact _ (F 2%nat ltac:(lia))) as X2. pose proof (near_exact _ (F 3%nat ltac:(lia))) as X3.
  assert (DV : forall y ry, near y ry 0 -> Rabs ry <= 1225 / 1000 -> near (fdiv y fn) (ry / n) (2 / 100000)).
  { intros y ry Y L. assert (Q : Rabs (ry / n) <= 245 / 100). { unfold Rdiv. rewrite Rabs_mult, Rabs_inv, (Rabs_right n) by lra. apply (Rmult_le_reg_r n); [lra|]. rewrite Rmult_assoc, Rinv_l, Rmult_1_r by lra. lra. }
    apply (near_div y fn ry n 0 (22 / 10000000) (18 / 1000000) 3 _ Y D); rewrite ?(Rabs_right n) by lra; try (unfold huge, ulp1, tiny; lra). }
  unfold qr in *. cbn [q0 q1 q2 q3] in *. fsc. refine (conj _ (conj _ (conj _ _))); [apply DV; assumption|..];
    (apply DV; [rewrite <- Ropp_0; rewrite Ropp_0; apply near_neg; assumption|rewrite Rabs_Ropp; assumption]).
Qed.
Lemma inv_mul c d (x y : Vec f32) : qok c x -> qok d y -> c <= 1 / 2 -> d <= 1 / 2 ->
  ((forall k, (k < 4)%nat -> is_finite (qmulv y (qinvv x) k) = true) /\ 1 / 4 <= qnorm2 (qr (qmulv y (qinvv x))) <= 4) /\
  ((forall k, (k < 4)%nat -> is_finite (qmulv (qinvv x) y k) = true) /\ 1 / 4 <= qnorm2 (qr (qmulv (qinvv x) y)) <= 4).
Proof.
  intros [F Nx] [G Ny] C D. apply Rabs_le_inv in Nx, Ny. destruct (norm_loose _ _ _ (qinv_near x F ltac:(lra)) ltac:(lra)) as [FI NI].
  rewrite qinvR_norm in NI by lra. set (z := qinvv x) in *. clearbody z. set (n := qnorm2 (qr x)) in *. assert (IB : 66 / 100 <= / n <= 2).
  { split; [apply (Rmult_le_reg_r n); [lra|]; rewrite Rinv_l by lra; lra|]. apply (Rmult_le_reg_r n); [lra|]. rewrite Rinv_l by lra. lra. }
  assert (ZB : 65 / 100 <= qnorm2 (qr z) <= 201 / 100) by (apply Rabs_le_inv in NI; set (i := / n) in *; clearbody i; lra).
  assert (PB : 325 / 1000 <= qnorm2 (qr y) * qnorm2 (qr z) <= 302 / 100) by (split; [apply Rle_trans with (1 / 2 * (65 / 100)); [lra|]|apply Rle_trans with (3 / 2 * (201 / 100)); [|lra]]; apply Rmult_le_compat; lra).
  destruct (norm_loose _ _ _ (qmul_loose y z G FI ltac:(lra) ltac:(lra)) ltac:(lra)) as [A1 A2]. destruct (norm_loose _ _ _ (qmul_loose z y FI G ltac:(lra) ltac:(lra)) ltac:(lra)) as [B1 B2].
  rewrite NoNanProofs2.qmul_norm in A2, B2. rewrite (Rmult_comm (qnorm2 (qr z))) in B2. apply Rabs_le_inv in A2, B2. split; (split; [assumption|lra]).
Qed.

Section Turn.
Variables (tsin tcos : f32 -> f32).
Hypothesis HT : accurate_all tsin tcos.
(** turning an attitude by a delta angle and normalising *)
Lemma turn_float c (q v : Vec f32) : qok c q -> c <= 1 / 2 -> (forall k, (k < 3)%nat -> bnd (v k) 40000000000000) -> qok (5 / 100000) (qnormv (qmulv q (expqG tsin tcos v))).
Proof.
  intros Q C B. destruct (expq_float tsin tcos HT v B) as [(u & U1 & U2) _]. destruct (norm_loose _ _ _ U2 ltac:(lra)) as [FE NE]. rewrite U1 in NE.
  set (e := expqG tsin tcos v) in *. clearbody e. assert (E : qok (1 / 10000) e) by (split; [exact FE|lra]).
  destruct (qmulv_norm _ _ q e Q E C ltac:(lra)) as [A N]. apply (qnormv_qok _ A). destruct Q as [_ NQ]. destruct E as [_ NE']. apply Rabs_le_inv in N, NQ, NE'.
  set (a := qnorm2 (qr q)) in *. set (b := qnorm2 (qr e)) in *. assert (49 / 100 <= a * b <= 16 / 10) by (split; [apply Rle_trans with (1 / 2 * (99 / 100)); [lra|]|apply Rle_trans with (3 / 2 * (101 / 100)); [|lra]]; apply Rmult_le_compat; lra). lra.
Qed.
Lemma turn_accurate (q v : Vec f32) : unitF q -> (forall k, (k < 3)%nat -> bnd (v k) 40000000000000) -> sqrt (vnorm2 (vr v)) <= 4 ->
  closeQ (qr (qnormv (qmulv q (expqG tsin tcos v)))) (qnormalize (qmul (qr q) (qexp (vr v)))) (1 / 10000).
Proof.
  intros [F N] B L. destruct (expq_float tsin tcos HT v B) as [_ X]. set (e := expqG tsin tcos v) in *. clearbody e. specialize (X L).
  assert (N3 : Rabs (qnorm2 (qr q) - 1) <= / 1000) by lra. assert (UE : qnorm2 (qexp (vr v)) = 1) by apply qexp_unit.
  pose proof (qmul_near q e _ _ F N3 UE X ltac:(lra)) as NE. set (raw := qmulv q e) in *. assert (NT2 : qnorm2 (qmul (qr q) (qexp (vr v))) = qnorm2 (qr q)) by (rewrite NoNanProofs2.qmul_norm, UE; ring).
  destruct (near_norm raw _ _ NE ltac:(rewrite NT2; exact N3) ltac:(lra)) as [FR DE]. rewrite NT2 in DE. pose proof DE as DR. apply Rabs_le_inv in DR, N.
  destruct (qnormv_near raw FR ltac:(lra)) as (w & W1 & W2 & W3).
  assert (SQ : forall t, 98 / 100 + 1 / 100 <= t <= 1 + 1 / 100 -> 99 / 100 <= sqrt t <= 101 / 100).
  { intros t Ht. split; [rewrite <- (sqrt_square (99 / 100)) by lra|rewrite <- (sqrt_square (101 / 100)) by lra]; apply sqrt_le_1_alt; lra. }
  assert (CQ : closeQ (qr raw) (qmul (qr q) (qexp (vr v))) (41 / 10 * (5 / 1000000) + 14 / 10000000)) by (destruct NE as ((? & E0) & (? & E1) & (? & E2) & (? & E3)); exact (conj E0 (conj E1 (conj E2 E3)))).
  rewrite <- NT2 in DE. destruct (normalize_close _ _ _ CQ ltac:(apply SQ; lra) ltac:(apply SQ; rewrite NT2; lra) DE) as (C0 & C1 & C2 & C3).
  rewrite <- W2 in *. destruct W3 as ((_ & H0) & (_ & H1) & (_ & H2) & (_ & H3)). set (t := qnormalize _) in *. clearbody t. unfold qr, closeQ. cbn [q0 q1 q2 q3].
  assert (T : forall a b c, Rabs (a - b) <= 1 / 100000 -> Rabs (b - c) <= 38 / 10 * (41 / 10 * (5 / 1000000) + 14 / 10000000) -> Rabs (a - c) <= 1 / 10000) by (intros a b c P Q; replace (a - c) with ((a - b) + (b - c)) by ring; eapply Rle_trans; [apply Rabs_triang|lra]).
  refine (conj _ (conj _ (conj _ _))); eapply T; eassumption.
Qed.
End Turn.

(** * C96: ordinary data never produce NaN

    [bnd x B] (NoNanProofs.v): the float x is finite and |x| <= B.  [sop], [sstep],
    [srun] (Props_Nan.v): everything the filter does to its states between two
    initialisations - predictions, measurement updates, yaw resets, resets of the
    other states.  [accurate], [accurate_all]: what is assumed of the C library.
    [qr x]: the attitude in the first four states.  big = 2^45. *)
From Coq Require Import Reals Lra Psatz.
From Verif Require Import CBase Scalar RealGeom RotModel RotProofs F32 F32More F32Err CovModel OutputModel NanModel Props_Sense Props_Sense2 NanProofs AttFloatModel AttFloatProofs AttFloatProofs2 NoNanProofs NoNanProofs2 Props_Nan Props_AttFloat.
Open Scope R_scope.

(** one step is ordinary: inertial samples of at most 4 rad, 10000 m/s and 1 s; attitude corrections of at most 1/8
    and other corrections of at most two million; finite headings; resets to finite values *)
Definition ordinary (o : sop) : Prop := match o with
  | SPredict lim earth i =>
      (forall k, (k < 3)%nat -> bnd (gi_da i k) 4 /\ bnd (gi_dv i k) 10000 /\ bnd (earth k) 1) /\ bnd (gi_dadt i) 1 /\ bnd (gi_dvdt i) 1 /\ bnd lim 100 /\ 0 <= R32 lim
  | SFuse K innov => forall k, (k < 24)%nat -> bnd (fmul (K k) innov) (if (k <? 4)%nat then 1 / 8 else 2000000)
  | SYaw yaw => bnd yaw 9
  | SOther c R => (forall x, (forall k, (4 <= k < 24)%nat -> bnd (x k) big) -> forall k, (4 <= k < 24)%nat -> bnd (c x k) big) /\ (forall i j, (i < 3)%nat -> (j < 3)%nat -> bnd (R i j) 2)
  end.
(** a healthy filter: attitude a unit quaternion to 1/4000, everything finite, plausible average interval *)
Definition healthy (s : predG f32) : Prop :=
  (forall k, (k < 24)%nat -> is_finite (g_x s k) = true) /\ Rabs (qnorm2 (qr (g_x s)) - 1) <= 1 / 4000 /\ (forall k, (4 <= k < 24)%nat -> Rabs (R32 (g_x s k)) <= big) /\
  (forall i j, (i < 3)%nat -> (j < 3)%nat -> bnd (g_R s i j) 2) /\ is_finite (g_dt s) = true /\ 4 / 1000 <= R32 (g_dt s) <= 22 / 1000.
Lemma healthy_Good s : healthy s <-> Good s.
Proof.
  split.
  - intros (A & B & C & D & E). split; [split; [intros k Hk; apply A; lia|exact B]|]. split; [intros k Hk; split; [apply A; lia|apply C, Hk]|]. split; assumption.
  - intros ([A1 A2] & B & C & D). split; [intros k Hk; destruct (le_lt_dec 4 k); [apply B; lia|apply A1; assumption]|]. split; [exact A2|]. split; [intros k Hk; apply B, Hk|]. split; assumption.
Qed.
Section Lib.
Variables (tsin tcos tasin : f32 -> f32) (tatan2 : f32 -> f32 -> f32) (pi2 rad20 : f32).
Hypothesis HA : accurate tsin tcos tasin tatan2 pi2.
Hypothesis HT : accurate_all tsin tcos.
Hypothesis Hrad : bnd rad20 1 /\ 0 <= R32 rad20.
Notation step := (sstep tsin tcos tasin tatan2 pi2 rad20).
Notation run := (srun tsin tcos tasin tatan2 pi2 rad20).

Lemma fuse_unit (K : Vec f32) innov (x : Vec f32) : unitF x -> (forall k, (k < 4)%nat -> bnd (fmul (K k) innov) (1 / 8)) -> unitF (fuse K innov x).
Proof.
  intros [F N] C. set (y := fuseRaw K innov x).
  assert (S : forall k, (k < 4)%nat -> near (y k) (R32 (x k) - R32 (fmul (K k) innov)) (1 / 1000000) /\ Rabs (R32 (x k)) <= 101 / 100).
  { intros k Hk. assert (Bx : Rabs (R32 (x k)) <= 101 / 100) by (destruct (norm_bounds _ (/ 1000) ltac:(eapply Rle_trans; [exact N|lra]) ltac:(lra)) as (B0 & B1 & B2 & B3); unfold qr in *; cbn [q0 q1 q2 q3] in *; destruct k as [|[|[|[|k]]]]; [assumption..|lia]).
    split; [|exact Bx]. destruct (C k Hk) as [FC BC]. unfold y, fuseRaw. fsc. apply (near_sub _ _ _ _ 0 0 2 _ (near_exact _ (F k Hk)) (near_exact _ FC)); [|unfold huge; lra|unfold ulp1, tiny; lra].
    unfold Rminus. pose proof (Rabs_triang (R32 (x k)) (- R32 (fmul (K k) innov))) as T. rewrite Rabs_Ropp in T. lra. }
  assert (FY : forall k, (k < 4)%nat -> is_finite (y k) = true) by (intros k Hk; apply (S k Hk)).
  assert (NY : 1 / 4 <= qnorm2 (qr y) <= 4).
  { assert (Q : forall k, (k < 4)%nat -> R32 (x k) ^ 2 - (1 / 4) * (Rabs (R32 (x k))) - / 10000 <= R32 (y k) ^ 2 <= 2 * R32 (x k) ^ 2 + 1 / 10).
    { intros k Hk. destruct (S k Hk) as [[_ H] B]. destruct (C k Hk) as [_ HC]. set (a := R32 (x k)) in *. set (c := R32 (fmul (K k) innov)) in *. set (b := R32 (y k)) in *. clearbody a b c.
      assert (D : Rabs (b - a) <= 1250011 / 10000000). { replace (b - a) with ((b - (a - c)) + - c) by ring. eapply Rle_trans; [apply Rabs_triang|]. rewrite Rabs_Ropp. lra. }
      set (e := b - a) in *. replace b with (a + e) by (unfold e; ring). clearbody e. clear H HC.
      assert (P : Rabs (a * e) <= Rabs a * (1250011 / 10000000)) by (rewrite Rabs_mult; apply Rmult_le_compat_l; [apply Rabs_pos|exact D]). apply Rabs_le_inv in P.
      assert (E2 : 0 <= e ^ 2 <= 157 / 10000) by (split; [apply pow2_ge_0|]; apply Rabs_le_inv in D; clear - D; nra).
      pose proof (pow2_ge_0 (a - e)) as P3. replace ((a - e) ^ 2) with (a ^ 2 - 2 * (a * e) + e ^ 2) in P3 by ring. replace ((a + e) ^ 2) with (a ^ 2 + 2 * (a * e) + e ^ 2) by ring. split; lra. }
    pose proof (sum_abs (qr x) (/ 1000) ltac:(apply Rabs_le_inv in N; lra)) as SA. unfold qnorm2, qr in *. cbn [q0 q1 q2 q3] in *. apply Rabs_le_inv in N.
    pose proof (Q 0%nat ltac:(lia)). pose proof (Q 1%nat ltac:(lia)). pose proof (Q 2%nat ltac:(lia)). pose proof (Q 3%nat ltac:(lia)). lra. }
  destruct (C95_normalised y FY NY) as [[A B] _].
  assert (E : forall k, (k < 4)%nat -> fuse K innov x k = qnormv y k) by (intros k Hk; unfold fuse, normQuat, qnormv, qdot; cbv zeta; rewrite (proj2 (Nat.ltb_lt k 4) Hk); reflexivity).
  split; [intros k Hk; rewrite E by exact Hk; apply A, Hk|]. unfold qr in *. rewrite !E by lia. exact B.
Qed.
Lemma imu_of (earth : Vec f32) (i : gimu f32) : (forall k, (k < 3)%nat -> bnd (gi_da i k) 4 /\ bnd (gi_dv i k) 10000 /\ bnd (earth k) 1) -> bnd (gi_dadt i) 1 -> bnd (gi_dvdt i) 1 -> imu_fine earth i.
Proof. intros A B C. refine (conj _ (conj _ (conj B (conj C _)))); intros k Hk; apply (A k Hk). Qed.
Lemma step_fine o s : Good s -> ordinary o -> Good (step o s).
Proof.
  intros G O. destruct o as [lim earth i|K innov|yaw|c R]; cbn [sstep ordinary] in *.
  - destruct O as (O1 & O2 & O3 & O4 & O5). apply (predict_fine tsin tcos rad20 HT Hrad); try assumption. exact (imu_of _ _ O1 O2 O3).
  - destruct G as (U & B & R & D). unfold Good. cbn [g_x g_R g_dt]. split; [apply fuse_unit; [exact U|intros k Hk; specialize (O k ltac:(lia)); rewrite (proj2 (Nat.ltb_lt k 4) Hk) in O; exact O]|].
    split; [|split; assumption]. intros k Hk. specialize (O k ltac:(lia)). destruct (Nat.ltb_spec k 4); [lia|]. unfold fuse, normQuat. destruct (Nat.ltb_spec k 4); [lia|]. unfold fuseRaw. fsc. apply big_sub; [apply B, Hk|exact O].
  - destruct G as ([F N] & B & R & D). destruct O as [FY BY]. destruct (yawReset_float _ _ _ _ _ HA yaw (g_x s) (1 / 4000) FY BY F N ltac:(lra)) as (P1 & P2 & _).
    unfold Good. cbn [g_x g_R g_dt]. split; [split; assumption|]. split; [|split; [|exact D]].
    + intros k Hk. unfold yawResetG. cbv zeta. destruct (Nat.ltb_spec k 4); [lia|]. apply B, Hk.
    + intros a b Ha Hb. eapply bnd_weak; [apply dcmv_bnd; [exact P1|lra|assumption..]|lra].
  - destruct G as ([F N] & B & R' & D). destruct O as [O1 O2]. unfold Good. cbn [g_x g_R g_dt]. split.
    + split; [intros k Hk; rewrite (proj2 (Nat.ltb_lt k 4) Hk); apply F, Hk|]. exact N.
    + split; [|split; assumption]. intros k Hk. destruct (Nat.ltb_spec k 4); [lia|]. apply O1; assumption.
Qed.
(** any number of ordinary steps leaves a healthy filter healthy *)
Theorem C96_stays_healthy : forall (l : list sop) (s : predG f32), healthy s -> (forall o, In o l -> ordinary o) -> healthy (run l s).
Proof.
  intros l s H O. apply healthy_Good. apply healthy_Good in H. revert s H. induction l as [|o l IH]; intros s H; [exact H|]. cbn [srun]. apply IH; [intros p Hp; apply O; right; exact Hp|].
  apply step_fine; [exact H|apply O; left; reflexivity].
Qed.
(** every prediction brings all states within their limits, whatever the corrections and resets before it *)
Theorem C96_limits : forall (l : list sop) (s : predG f32) lim earth i, healthy s -> (forall o, In o l -> ordinary o) -> ordinary (SPredict lim earth i) ->
  let s1 := run l s in let x := g_x (step (SPredict lim earth i) s1) in
  (forall k, (4 <= k < 7)%nat -> bnd (x k) 1000) /\ (forall k, (7 <= k < 10)%nat -> bnd (x k) 1000000) /\
  (forall k, (10 <= k < 13)%nat -> bnd (x k) (R32 (fmul rad20 (g_dt s1)))) /\ (forall k, (13 <= k < 16)%nat -> bnd (x k) (R32 (fmul lim (g_dt s1)))) /\
  (forall k, (16 <= k < 19)%nat -> bnd (x k) 1) /\ (forall k, (19 <= k < 22)%nat -> bnd (x k) (1 / 2)) /\ (forall k, (22 <= k < 24)%nat -> bnd (x k) 100).
Proof.
  intros l s lim earth i H O P. cbv zeta. pose proof (C96_stays_healthy l s H O) as G. apply healthy_Good in G. set (s1 := run l s) in *. clearbody s1. cbn [sstep].
  destruct P as (O1 & O2 & O3 & O4 & O5). assert (IM : imu_fine earth i) by exact (imu_of _ _ O1 O2 O3).
  destruct (predict_fine tsin tcos rad20 HT Hrad lim earth i s1 G IM O4 O5) as [(_ & B & _) L].
  assert (T : forall k e, (4 <= k < 24)%nat -> limR rad20 lim (g_dt s1) k = e -> bnd (g_x (predictG tsin tcos rad20 lim earth i s1) k) e) by (intros k e Hk <-; split; [apply B, Hk|apply L, Hk]).
  refine (conj _ (conj _ (conj _ (conj _ (conj _ (conj _ _)))))); intros k Hk; apply T; try lia; unfold limR; repeat match goal with |- context [(?a <? ?b)%nat] => destruct (Nat.ltb_spec a b) end; try lia; reflexivity.
Qed.
(** the predicted attitude is the product of the old one and the rotation by the corrected delta angle to 1e-4 *)
Theorem C96_attitude : forall (l : list sop) (s : predG f32) lim earth i, healthy s -> (forall o, In o l -> ordinary o) -> ordinary (SPredict lim earth i) ->
  let s1 := run l s in let q := qr (g_x (step (SPredict lim earth i) s1)) in let v := corrected_daG earth i s1 in
  let da := mkV (R32 (v 0%nat)) (R32 (v 1%nat)) (R32 (v 2%nat)) in let e := qnormalize (qmul (qr (g_x s1)) (qexp da)) in
  sqrt (vnorm2 da) <= 4 ->
  Rabs (q0 q - q0 e) <= 1 / 10000 /\ Rabs (q1 q - q1 e) <= 1 / 10000 /\ Rabs (q2 q - q2 e) <= 1 / 10000 /\ Rabs (q3 q - q3 e) <= 1 / 10000.
Proof.
  intros l s lim earth i H O P. cbv zeta. pose proof (C96_stays_healthy l s H O) as G. apply healthy_Good in G. set (s1 := run l s) in *. clearbody s1. cbn [sstep].
  destruct P as (O1 & O2 & O3 & O4 & O5). assert (IM : imu_fine earth i) by exact (imu_of _ _ O1 O2 O3).
  intros L. destruct (predQuat_float tsin tcos HT earth i s1 G IM) as (w & W & (N0 & N1 & N2 & N3) & X). destruct (X L) as (C0 & C1 & C2 & C3). unfold vr in *. clear X L.
  destruct (q_bounds w W) as (B0 & B1 & B2 & B3). apply near_constrain in N0, N1, N2, N3; try assumption.
  set (e := qnormalize _) in *. clearbody e. unfold qr. cbn [q0 q1 q2 q3 predictG g_x].
  assert (T : forall k a b, (k < 4)%nat -> near (sconstrain (predQuat tsin tcos earth i s1 k) (fneg (flit 1 1)) (flit 1 1)) a (1 / 100000) -> Rabs (a - b) <= 9 / 100000 ->
     Rabs (R32 (constrainG rad20 lim (g_dt s1) (predRaw tsin tcos earth i s1) k) - b) <= 1 / 10000).
  { intros k a b Hk [_ N] C. unfold constrainG, predRaw, limitG. rewrite (proj2 (Nat.ltb_lt k 4) Hk). match goal with |- Rabs (R32 ?t - b) <= _ => assert (N' : Rabs (R32 t - a) <= 1 / 100000) by exact N; set (z := R32 t) in *; clearbody z end. replace (z - b) with ((z - a) + (a - b)) by ring. eapply Rle_trans; [apply Rabs_triang|lra]. }
  assert (L4 : (0 < 4)%nat /\ (1 < 4)%nat /\ (2 < 4)%nat /\ (3 < 4)%nat) by lia. destruct L4 as (L0 & L1 & L2 & L3).
  exact (conj (T 0%nat _ _ L0 N0 C0) (conj (T 1%nat _ _ L1 N1 C1) (conj (T 2%nat _ _ L2 N2 C2) (T 3%nat _ _ L3 N3 C3)))).
Qed.
End Lib.

(** the angle it uses: the measured one less bias and earth rotation *)
Theorem C96_corrected_angle : forall (earth : Vec f32) (i : gimu f32) (s : predG f32), healthy s ->
  (forall k, (k < 3)%nat -> bnd (gi_da i k) 4 /\ bnd (earth k) (1 / 1000) /\ bnd (g_x s (10 + k)%nat) 1) -> bnd (gi_dadt i) 1 ->
  forall k, (k < 3)%nat -> near (corrected_daG earth i s k)
    (R32 (gi_da i k) - R32 (g_x s (10 + k)%nat) - (R32 (g_R s 0%nat k) * R32 (earth 0%nat) + R32 (g_R s 1%nat k) * R32 (earth 1%nat) + R32 (g_R s 2%nat k) * R32 (earth 2%nat)) * R32 (gi_dadt i)) (1 / 1000000).
Proof.
  intros earth i s H A D k Hk. destruct H as (_ & _ & _ & R & _).
  assert (P : forall j, (j < 3)%nat -> near (fmul (g_R s j k) (earth j)) (R32 (g_R s j k) * R32 (earth j)) (3 / 10000000000) /\ Rabs (R32 (g_R s j k) * R32 (earth j)) <= 2 / 1000).
  { intros j Hj. destruct (A j Hj) as (_ & [FE HE] & _). destruct (R j k Hj Hk) as [FR HR]. assert (M : Rabs (R32 (g_R s j k) * R32 (earth j)) <= 2 / 1000) by (rewrite Rabs_mult; pose proof (Rabs_pos (R32 (g_R s j k))); pose proof (Rabs_pos (R32 (earth j))); nra).
    split; [|exact M]. apply (near_mul _ _ _ _ 0 0 0 (2 / 1000) _ (near_exact _ FR) (near_exact _ FE)); [lra|lra|unfold huge; lra|unfold ulp1, tiny; lra]. }
  unfold corrected_daG, mvec. fsc. destruct (P 0%nat ltac:(lia)) as [P0 B0]. destruct (P 1%nat ltac:(lia)) as [P1 B1]. destruct (P 2%nat ltac:(lia)) as [P2 B2]. clear P R.
  destruct (A k Hk) as ([FA HA] & _ & [FB HB]). destruct D as [FD HD]. clear A.
  set (a := R32 (g_R s 0%nat k) * R32 (earth 0%nat)) in *. set (b := R32 (g_R s 1%nat k) * R32 (earth 1%nat)) in *. set (c := R32 (g_R s 2%nat k) * R32 (earth 2%nat)) in *. clearbody a b c.
  apply Rabs_le_inv in B0, B1, B2.
  assert (S1 : near (fadd szero (fmul (g_R s 0%nat k) (earth 0%nat))) (0 + a) (1 / 1000000000)) by (apply (near_add _ _ _ _ 0 _ (3 / 1000) _ (near_int 0 ltac:(lia)) P0); [rewrite Rplus_0_l; apply Rle_trans with (2 / 1000 + (0 + 3 / 10000000000)); [apply Rplus_le_compat_r, Rabs_le; lra|lra]|unfold huge; lra|unfold ulp1, tiny; lra]).
  assert (S2 : near (fadd (fadd szero (fmul (g_R s 0%nat k) (earth 0%nat))) (fmul (g_R s 1%nat k) (earth 1%nat))) (0 + a + b) (2 / 1000000000)) by (apply (near_add _ _ _ _ _ _ (5 / 1000) _ S1 P1); [apply Rle_trans with (4 / 1000 + (1 / 1000000000 + 3 / 10000000000)); [apply Rplus_le_compat_r, Rabs_le; lra|lra]|unfold huge; lra|unfold ulp1, tiny; lra]).
  assert (S3 : near (fadd (fadd (fadd szero (fmul (g_R s 0%nat k) (earth 0%nat))) (fmul (g_R s 1%nat k) (earth 1%nat))) (fmul (g_R s 2%nat k) (earth 2%nat))) (0 + a + b + c) (4 / 1000000000)) by (apply (near_add _ _ _ _ _ _ (7 / 1000) _ S2 P2); [apply Rle_trans with (6 / 1000 + (2 / 1000000000 + 3 / 10000000000)); [apply Rplus_le_compat_r, Rabs_le; lra|lra]|unfold huge; lra|unfold ulp1, tiny; lra]).
  replace (a + b + c) with (0 + a + b + c) by ring. set (t := 0 + a + b + c) in *. assert (BT : Rabs t <= 6 / 1000) by (unfold t; apply Rabs_le; lra). set (m := fadd (fadd (fadd szero _) _) _) in *. clearbody t m. clear S1 S2 P0 P1 P2.
  assert (BP : Rabs (t * R32 (gi_dadt i)) <= 6 / 1000) by (rewrite Rabs_mult; pose proof (Rabs_pos t); pose proof (Rabs_pos (R32 (gi_dadt i))); nra).
  assert (S4 : near (fmul m (gi_dadt i)) (t * R32 (gi_dadt i)) (5 / 1000000000)).
  { apply (near_mul _ _ _ _ _ 0 (4 / 1000000000) (7 / 1000) _ S3 (near_exact _ FD)); [|lra|unfold huge; lra|unfold ulp1, tiny; lra]. pose proof (Rabs_pos (R32 (gi_dadt i))). lra. }
  assert (S5 : near (fsub (gi_da i k) (g_x s (10 + k)%nat)) (R32 (gi_da i k) - R32 (g_x s (10 + k)%nat)) (4 / 10000000)).
  { apply (near_sub _ _ _ _ 0 0 5 _ (near_exact _ FA) (near_exact _ FB)); [unfold Rminus; pose proof (Rabs_triang (R32 (gi_da i k)) (- R32 (g_x s (10 + k)%nat))) as T; rewrite Rabs_Ropp in T; lra|unfold huge; lra|unfold ulp1, tiny; lra]. }
  apply (near_sub _ _ _ _ _ _ (52 / 10) _ S5 S4); [|unfold huge; lra|unfold ulp1, tiny; lra].
  pose proof (Rabs_triang (R32 (gi_da i k) - R32 (g_x s (10 + k)%nat)) (- (t * R32 (gi_dadt i)))) as T. rewrite Rabs_Ropp in T. pose proof (Rabs_triang (R32 (gi_da i k)) (- R32 (g_x s (10 + k)%nat))) as T2. rewrite Rabs_Ropp in T2. unfold Rminus in *. lra.
Qed.
(** start-up leaves a healthy filter: attitude of initialiseTilt, other states zero, nominal interval *)
Section Start.
Variables (tsin tcos tasin : f32 -> f32) (tatan2 : f32 -> f32 -> f32) (pi2 : f32).
Hypothesis HA : accurate tsin tcos tasin tatan2 pi2.
Theorem C96_from_start : forall (rad15 : f32) (acc gyr q : Vec f32) (lpn lpe : f32) (rate : Vec f32), (forall k, (k < 3)%nat -> is_finite (acc k) = true) ->
  tiltStartG tsin tcos tasin tatan2 rad15 acc gyr = Some q ->
  healthy (PredG (fun k => if (k <? 4)%nat then q k else f0) (dcmv q) lpn lpe (flit 1 100) rate).
Proof.
  intros rad15 acc gyr q lpn lpe rate F H. destruct (start_float _ _ _ _ _ HA rad15 acc gyr q F H) as (_ & _ & A & B & _).
  assert (D : near (flit 1 100) (1 / 100) (1 / 100000)) by (eapply near_weaken; [apply near_frac; [lia|lia|rewrite Rabs_right; lra]|rewrite Rabs_right by lra; unfold ulp1, tiny; lra]).
  unfold healthy. cbn [g_x g_R g_dt]. split; [|split; [exact B|split; [|split; [|split]]]].
  - intros k Hk. destruct (Nat.ltb_spec k 4); [apply A; assumption|reflexivity].
  - intros k Hk. destruct (Nat.ltb_spec k 4); [lia|]. change (R32 f0) with 0. rewrite Rabs_R0. unfold big. lra.
  - intros a b Ha Hb. eapply bnd_weak; [apply dcmv_bnd; [exact A|lra|assumption..]|lra].
  - apply D.
  - apply near_val in D. lra.
Qed.
End Start.
(** the bound on attitude corrections is needed: one that cancels the attitude leaves NaN *)
Theorem C96_cancelling_correction : exists (K : Vec f32) (innov : f32), (forall k, is_finite (fmul (K k) innov) = true) /\ is_nan (fuse K innov level 0%nat) = true.
Proof.
  exists level, (flit 1 1). split; [intros [|k]; vm_compute; reflexivity|vm_compute; reflexivity].
Qed.

(** ** Non-vacuity *)
Example C96_library_exists : accurate (lift1 sin) (lift1 cos) (lift1 asin) (lift2 atan2) (ofR (PI / 2)) /\ accurate_all (lift1 sin) (lift1 cos).
Proof.
  split; [apply C95_library_exists|]. intros a F. unfold lift1. rewrite F. pose proof (sin_1 (R32 a)). pose proof (cos_1 (R32 a)). split; apply ofR_near; lra.
Qed.
(** a sample of a vehicle at rest, a correction, a heading reset and a reset of the velocity are ordinary *)
Example C96_ordinary_exists : ordinary (SPredict (flit 4 10) (fun _ => f0) (Gimu (fun _ => f0) atRest (flit 1 100) (flit 1 100))) /\
  ordinary (SFuse (fun _ => flit 1 10) (flit 1 10)) /\ ordinary (SYaw (flit 1 1)) /\
  ordinary (SOther (fun x k => if (k <? 7)%nat then flit 3 1 else x k) (fun i j => if (i =? j)%nat then flit 1 1 else f0)).
Proof.
  assert (B0 : forall B, 0 <= B -> bnd f0 B) by (intros B HB; split; [reflexivity|change (R32 f0) with 0; rewrite Rabs_R0; exact HB]).
  assert (BF : forall n d B, (0 <= n <= 1000)%Z -> (1 <= d <= 1000)%Z -> IZR n / IZR d <= 99 -> 0 <= IZR n / IZR d -> 11 / 10 * (IZR n / IZR d) + / 10000 <= B -> bnd (flit n d) B).
  { intros n d B Hn Hd M P L. eapply bnd_weak; [apply bnd_near, near_frac; [lia|lia|rewrite Rabs_right; lra]|rewrite Rabs_right by lra; unfold ulp1, tiny; lra]. }
  assert (P4 : 0 <= R32 (flit 4 10)) by (destruct (flit_R 4 10 ltac:(lia) ltac:(lia)) as [E _]; rewrite E; apply rnd32_ge0; lra).
  split; [|split; [|split]].
  - cbn [ordinary gi_da gi_dv gi_dadt gi_dvdt]. split; [|split; [|split; [|split]]]; [|apply BF; [lia|lia|lra..]|apply BF; [lia|lia|lra..]|apply BF; [lia|lia|lra..]|exact P4].
    intros k Hk. split; [apply B0; lra|]. split; [|apply B0; lra].
    assert (BN : bnd (flit (-98) 10) 10000) by (eapply bnd_weak; [apply bnd_near, near_frac; [lia|lia|rewrite Rabs_left; lra]|rewrite Rabs_left by lra; unfold ulp1, tiny; lra]).
    destruct k as [|[|[|k]]]; [apply B0; lra|apply B0; lra|exact BN|lia].
  - intros k Hk. assert (B1 : bnd (flit 1 10) (12 / 100)) by (apply BF; [lia|lia|lra..]).
    assert (B2 : bnd (fmul (flit 1 10) (flit 1 10)) (1 / 8)) by (eapply bnd_mul; [exact B1|exact B1|unfold top; lra|unfold tiny; lra]). destruct (k <? 4)%nat; [exact B2|eapply bnd_weak; [exact B2|lra]].
  - apply BF; [lia|lia|lra..].
  - split.
    + intros x Hx k Hk. destruct (k <? 7)%nat; [apply BF; [lia|lia|lra..|unfold big; lra]|apply Hx, Hk].
    + intros i j _ _. destruct (i =? j)%nat; [apply BF; [lia|lia|lra..]|apply B0; lra].
Qed.
Print Assumptions C96_stays_healthy.
Print Assumptions C96_limits.
Print Assumptions C96_attitude.
Print Assumptions C96_corrected_angle.
Print Assumptions C96_from_start.
Print Assumptions C96_cancelling_correction.

(** proofs about the yaw estimator: binary32 weight update *)
From Coq Require Import Reals Lra Lia Bool List Arith ZArith Psatz.
From Flocq Require Import Core Binary.
From Verif Require Import CBase F32 Scalar GsfModel.
Import ListNotations.
Open Scope R_scope.

Definition eps7 : R := 1 / 10000000.
Lemma rel_round (x : R) : 1 / 10000000 <= x -> (1 - eps7) * x <= rnd32 x <= (1 + eps7) * x.
Proof.
  intros H. pose proof (rnd32_error x) as E. rewrite (Rabs_pos_eq x) in E by lra.
  assert (B : bpow radix2 (-150) <= 1 / 1000000000000000000000) by (change (bpow radix2 (-150)) with (/ IZR (Z.pow_pos 2 150)); replace (Z.pow_pos 2 150) with 1427247692705959881058285969449495136382746624%Z by reflexivity; lra).
  replace (IZR (2 ^ 24)) with 16777216 in E by reflexivity. apply Rabs_le_inv in E. unfold eps7. lra.
Qed.
Lemma small127 (x : R) : Rabs x <= 1000000 -> Rabs x <= bpow radix2 127.
Proof. intros H. apply Rle_trans with (1 := H). rewrite bpow127_IZR. apply IZR_le. vm_compute. discriminate. Qed.
Lemma rnd_nn (x : R) n : (0 <= n <= 2 ^ 24)%Z -> 0 <= x <= IZR n -> 0 <= rnd32 x <= IZR n.
Proof.
  intros Hn [A B]. split.
  - rewrite <- (rnd32_Z 0) by lia. apply round_le; [exact valid32|exact vrnd|exact A].
  - rewrite <- (rnd32_Z n) by lia. apply round_le; [exact valid32|exact vrnd|exact B].
Qed.
(** finite and in an interval *)
Definition fin (x : f32) (lo hi : R) : Prop := is_finite x = true /\ lo <= R32 x <= hi.
Lemma min_weight : fin (slit 1 100000 : f32) (99 / 10000000) (101 / 10000000).
Proof.
  cbn [slit FScalar]. unfold flit. destruct (f_of_Z_exact 1 ltac:(lia)) as [E1 F1]. destruct (f_of_Z_exact 100000 ltac:(lia)) as [E2 F2].
  destruct (fdiv_R (f_of_Z 1) (f_of_Z 100000) F1) as [E F]; [rewrite E2; lra|apply small127; rewrite E1, E2; rewrite Rabs_pos_eq; lra|].
  split; [exact F|]. rewrite E, E1, E2. pose proof (rel_round (1 / 100000)). unfold eps7 in *. lra.
Qed.
Lemma raw_fin (d w : f32) : fin d 0 1 -> fin w 0 2 -> fin (fmul d w) 0 2.
Proof.
  intros [Fd Rd] [Fw Rw]. assert (P : 0 <= R32 d * R32 w <= 2) by (split; nra).
  destruct (fmul_R d w Fd Fw) as [E F]; [apply small127; rewrite Rabs_pos_eq; lra|]. split; [exact F|]. rewrite E. apply (rnd_nn _ 2); [lia|exact P].
Qed.
Lemma clip_fin (x : f32) : fin x 0 2 -> fin (clipWeight x) (99 / 10000000) 2.
Proof.
  intros [F B]. destruct min_weight as [Fm Bm]. unfold clipWeight. cbn [slt FScalar]. destruct (flt x (slit 1 100000)) eqn:E.
  - split; [exact Fm|]. lra.
  - split; [exact F|]. rewrite flt_R in E by assumption. unfold Rlt_bool in E. destruct (Rcompare_spec (R32 x) (R32 (slit 1 100000 : f32))); [discriminate| |]; lra.
Qed.
Lemma clip_R (x : f32) : fin x 0 2 -> R32 (clipWeight x) = Rmax (R32 (slit 1 100000 : f32)) (R32 x).
Proof.
  intros [F B]. destruct min_weight as [Fm Bm]. unfold clipWeight. cbn [slt FScalar]. rewrite flt_R by assumption. unfold Rlt_bool, Rmax.
  destruct (Rcompare_spec (R32 x) (R32 (slit 1 100000 : f32))); destruct (Rle_dec _ _); lra.
Qed.
Lemma add_fin (s c : f32) A B : fin s A B -> 0 <= A -> B <= 20 -> fin c (99 / 10000000) 2 ->
  fin (fadd s c) ((1 - eps7) * (A + R32 c)) ((1 + eps7) * (B + R32 c)).
Proof.
  intros [Fs Bs] HA HB [Fc Bc]. destruct (fadd_R s c Fs Fc) as [E F]; [apply small127; rewrite Rabs_pos_eq; lra|]. split; [exact F|]. rewrite E.
  pose proof (rel_round (R32 s + R32 c) ltac:(lra)) as H. unfold eps7 in *. split; lra.
Qed.
Definition csum (c : nat -> f32) : R := R32 (c 0%nat) + R32 (c 1%nat) + R32 (c 2%nat) + R32 (c 3%nat) + R32 (c 4%nat).
Lemma total_fin (c : nat -> f32) : (forall k, (k < 5)%nat -> fin (c k) (99 / 10000000) 2) ->
  fin (fadd (fadd (fadd (fadd (fadd (szero : f32) (c 0%nat)) (c 1%nat)) (c 2%nat)) (c 3%nat)) (c 4%nat)) ((1 - 6 * eps7) * csum c) ((1 + 6 * eps7) * csum c).
Proof.
  intros H. assert (Z : fin (szero : f32) 0 0). { unfold szero. cbn [slit FScalar]. unfold flit. destruct (f_of_Z_exact 0 ltac:(lia)) as [E1 F1]. destruct (f_of_Z_exact 1 ltac:(lia)) as [E2 F2].
    destruct (fdiv_R (f_of_Z 0) (f_of_Z 1) F1) as [E F]; [rewrite E2; lra|apply small127; rewrite E1, E2; rewrite Rabs_pos_eq; lra|]. split; [exact F|]. rewrite E, E1, E2. replace (0 / 1) with 0 by field. rewrite rnd32_Z by lia. lra. }
  pose proof (H 0%nat ltac:(lia)) as C0. pose proof (H 1%nat ltac:(lia)) as C1. pose proof (H 2%nat ltac:(lia)) as C2. pose proof (H 3%nat ltac:(lia)) as C3. pose proof (H 4%nat ltac:(lia)) as C4.
  pose proof (proj2 C0) as B0. pose proof (proj2 C1) as B1. pose proof (proj2 C2) as B2. pose proof (proj2 C3) as B3. pose proof (proj2 C4) as B4. unfold eps7 in *.
  pose proof (add_fin _ _ _ _ Z ltac:(lra) ltac:(lra) C0) as S0. pose proof (add_fin _ _ _ _ S0 ltac:(unfold eps7; lra) ltac:(unfold eps7; lra) C1) as S1.
  pose proof (add_fin _ _ _ _ S1 ltac:(unfold eps7; lra) ltac:(unfold eps7; lra) C2) as S2. pose proof (add_fin _ _ _ _ S2 ltac:(unfold eps7; lra) ltac:(unfold eps7; lra) C3) as S3. pose proof (add_fin _ _ _ _ S3 ltac:(unfold eps7; lra) ltac:(unfold eps7; lra) C4) as S4.
  destruct S4 as [F B]. split; [exact F|]. unfold eps7, csum in *. split; lra.
Qed.
Lemma scale_ineq a b c d : 0 <= a -> 0 <= b -> a <= c -> b <= d -> a * b <= c * d. Proof. intros. apply Rmult_le_compat; lra. Qed.
Lemma sone_R : is_finite (sone : f32) = true /\ R32 (sone : f32) = 1.
Proof.
  unfold sone. cbn [slit FScalar]. unfold flit. destruct (f_of_Z_exact 1 ltac:(lia)) as [E2 F2].
  destruct (fdiv_R (f_of_Z 1) (f_of_Z 1) F2) as [E1 F]; [rewrite E2; lra|apply small127; rewrite E2; rewrite Rabs_pos_eq; lra|]. split; [exact F|]. rewrite E1, E2. replace (1 / 1) with (IZR 1) by field. apply rnd32_Z. lia.
Qed.
Lemma weigh_Some {T} {SC : Scalar T} (dens w w' : nat -> T) : weigh dens w = Some w' -> forall k, w' k = smul (clipWeight (rawWeight dens w k)) (sdiv sone (totalWeight (rawWeight dens w))).
Proof.
  unfold weigh. cbv zeta. match goal with |- context [if ?c then None else _] => destruct c end; [discriminate|]. intros H k. apply (f_equal (fun o => match o with Some f => f k | None => w k end)) in H. symmetry. exact H.
Qed.
Lemma norm_F (c w' : nat -> f32) (one t : f32) : (forall k, (k < 5)%nat -> fin (c k) (99 / 10000000) 2) -> fin t ((1 - 6 * eps7) * csum c) ((1 + 6 * eps7) * csum c) ->
  is_finite one = true -> R32 one = 1 -> (forall k, w' k = fmul (c k) (fdiv one t)) ->
  (forall k, (k < 5)%nat -> is_finite (w' k) = true /\ 0 < R32 (w' k) <= 2) /\ Rabs (csum w' - 1) <= 1 / 1000000 /\
  (forall k, (k < 5)%nat -> Rabs (R32 (w' k) * csum c - R32 (c k)) <= 1 / 1000000 * R32 (c k)).
Proof.
  intros HC T FO EO E.
  assert (SC : 495 / 10000000 <= csum c <= 10). { unfold csum. pose proof (proj2 (HC 0%nat ltac:(lia))). pose proof (proj2 (HC 1%nat ltac:(lia))). pose proof (proj2 (HC 2%nat ltac:(lia))). pose proof (proj2 (HC 3%nat ltac:(lia))). pose proof (proj2 (HC 4%nat ltac:(lia))). lra. }
  destruct T as [FT BT]. unfold eps7 in BT. assert (TB : 49 / 1000000 <= R32 t <= 11) by lra.
  assert (I0 : 1 / 11 <= 1 / R32 t <= 25000). { split; [apply Rmult_le_compat_l; [lra|]; apply Rinv_le_contravar; lra|]. apply Rle_trans with (1 / (49 / 1000000)); [apply Rmult_le_compat_l; [lra|]; apply Rinv_le_contravar; lra|lra]. }
  destruct (fdiv_R one t FO) as [EI FI]; [lra|rewrite EO; apply small127; rewrite Rabs_pos_eq; lra|]. rewrite EO in EI.
  set (iv := fdiv one t) in *. pose proof (rel_round (1 / R32 t) ltac:(lra)) as RI. rewrite <- EI in RI. unfold eps7 in RI.
  assert (IT : 1 / R32 t * R32 t = 1) by (generalize TB; generalize (R32 t); intros x Hx; field; lra).
  (* iv * csum is 1 up to 7.1e-7 *)
  assert (IC : 1 - 8 / 10000000 <= R32 iv * csum c <= 1 + 8 / 10000000).
  { set (a := 1 / R32 t) in *. set (T := R32 t) in *. set (v := R32 iv) in *. set (s := csum c) in *. clearbody a T v s.
    assert (S1 : (1 - 61 / 100000000) * T <= s <= (1 + 61 / 100000000) * T) by lra. split.
    - apply Rle_trans with ((1 - 1 / 10000000) * a * ((1 - 61 / 100000000) * T)); [replace ((1 - 1 / 10000000) * a * ((1 - 61 / 100000000) * T)) with ((1 - 1 / 10000000) * (1 - 61 / 100000000) * (a * T)) by ring; rewrite IT; lra|apply scale_ineq; nra].
    - apply Rle_trans with ((1 + 1 / 10000000) * a * ((1 + 61 / 100000000) * T)); [apply scale_ineq; nra|replace ((1 + 1 / 10000000) * a * ((1 + 61 / 100000000) * T)) with ((1 + 1 / 10000000) * (1 + 61 / 100000000) * (a * T)) by ring; rewrite IT; lra]. }
  assert (K : forall k, (k < 5)%nat -> is_finite (w' k) = true /\ (1 - 1 / 10000000) * (R32 (c k) * R32 iv) <= R32 (w' k) <= (1 + 1 / 10000000) * (R32 (c k) * R32 iv) /\ 5 / 10000000 <= R32 (c k) * R32 iv).
  { intros k Hk. destruct (HC k Hk) as [Fc Bc]. rewrite E. fold iv.
    assert (LO : 5 / 10000000 <= R32 (c k) * R32 iv) by nra. assert (HI : R32 (c k) * R32 iv <= 60000) by nra.
    destruct (fmul_R (c k) iv Fc FI) as [EM FM]; [apply small127; rewrite Rabs_pos_eq; lra|]. split; [exact FM|]. split; [|exact LO]. rewrite EM. pose proof (rel_round (R32 (c k) * R32 iv) ltac:(lra)) as RR. unfold eps7 in RR. lra. }
  assert (SUM : R32 (c 0%nat) * R32 iv + R32 (c 1%nat) * R32 iv + R32 (c 2%nat) * R32 iv + R32 (c 3%nat) * R32 iv + R32 (c 4%nat) * R32 iv = R32 iv * csum c) by (unfold csum; generalize (R32 (c 0%nat)) (R32 (c 1%nat)) (R32 (c 2%nat)) (R32 (c 3%nat)) (R32 (c 4%nat)) (R32 iv); intros; ring).
  pose proof (K 0%nat ltac:(lia)) as K0. pose proof (K 1%nat ltac:(lia)) as K1. pose proof (K 2%nat ltac:(lia)) as K2. pose proof (K 3%nat ltac:(lia)) as K3. pose proof (K 4%nat ltac:(lia)) as K4.
  split; [|split].
  - intros k Hk. destruct (K k Hk) as (F & B & L). split; [exact F|]. split; [lra|].
    assert (R32 (c k) * R32 iv <= 1 + 8 / 10000000). { destruct k as [|[|[|[|[|]]]]]; [lra..|lia]. } lra.
  - unfold csum at 1. apply Rabs_le. lra.
  - intros k Hk. destruct (K k Hk) as (F & B & L). destruct (HC k Hk) as [Fc Bc]. set (s := csum c) in *. set (v := R32 iv) in *. set (x := R32 (c k)) in *. set (y := R32 (w' k)) in *. clearbody s v x y.
    assert (y * s <= (1 + 1 / 10000000) * (x * (v * s))) by nra. assert ((1 - 1 / 10000000) * (x * (v * s)) <= y * s) by nra.
    assert (x * (v * s) <= x * (1 + 8 / 10000000)) by (apply Rmult_le_compat_l; lra). assert (x * (1 - 8 / 10000000) <= x * (v * s)) by (apply Rmult_le_compat_l; lra). apply Rabs_le. lra.
Qed.
Lemma weigh_F (dens w w' : nat -> f32) : (forall k, (k < 5)%nat -> fin (dens k) 0 1) -> (forall k, (k < 5)%nat -> fin (w k) 0 2) -> weigh dens w = Some w' ->
  (forall k, (k < 5)%nat -> is_finite (w' k) = true /\ 0 < R32 (w' k) <= 2) /\ Rabs (csum w' - 1) <= 1 / 1000000 /\
  (forall k, (k < 5)%nat -> Rabs (R32 (w' k) * csum (fun k => clipWeight (rawWeight dens w k)) - R32 (clipWeight (rawWeight dens w k))) <= 1 / 1000000 * R32 (clipWeight (rawWeight dens w k))).
Proof.
  intros HD HW H. pose proof (weigh_Some dens w w' H) as E. clear H. cbn [smul sdiv FScalar] in E. destruct sone_R as [FO EO].
  assert (HC : forall k, (k < 5)%nat -> fin (clipWeight (rawWeight dens w k)) (99 / 10000000) 2). { intros k Hk. apply clip_fin. unfold rawWeight. cbn [smul FScalar]. apply raw_fin; auto. }
  pose proof (total_fin (fun k => clipWeight (rawWeight dens w k)) HC) as T. apply (norm_F (fun k => clipWeight (rawWeight dens w k)) w' sone (totalWeight (rawWeight dens w))); [exact HC| |exact FO|exact EO|exact E].
  unfold totalWeight. cbn [sadd FScalar]. exact T.
Qed.
(** histories of weight updates; a collapse resets to 1/5 *)
Definition wstep (w : nat -> f32) (dens : nat -> f32) : nat -> f32 := match weigh dens w with Some w' => w' | None => fun _ => slit 1 5 end.
Definition wrun (h : list (nat -> f32)) : nat -> f32 := fold_left wstep h (fun _ => slit 1 5).
Lemma fifth : is_finite (slit 1 5 : f32) = true /\ Rabs (R32 (slit 1 5 : f32) - 1 / 5) <= 2 / 100000000.
Proof.
  cbn [slit FScalar]. unfold flit. destruct (f_of_Z_exact 1 ltac:(lia)) as [E1 F1]. destruct (f_of_Z_exact 5 ltac:(lia)) as [E2 F2].
  destruct (fdiv_R (f_of_Z 1) (f_of_Z 5) F1) as [E F]; [rewrite E2; lra|apply small127; rewrite E1, E2; rewrite Rabs_pos_eq; lra|]. split; [exact F|].
  rewrite E, E1, E2. pose proof (rel_round (1 / 5)). unfold eps7 in *. apply Rabs_le. lra.
Qed.
Lemma wrun_ok (h : list (nat -> f32)) : (forall d, In d h -> forall k, (k < 5)%nat -> fin (d k) 0 1) ->
  (forall k, (k < 5)%nat -> is_finite (wrun h k) = true /\ 0 < R32 (wrun h k) <= 2) /\ Rabs (csum (wrun h) - 1) <= 1 / 1000000.
Proof.
  intros HD. unfold wrun. assert (G : forall w, ((forall k, (k < 5)%nat -> is_finite (w k) = true /\ 0 < R32 (w k) <= 2) /\ Rabs (csum w - 1) <= 1 / 1000000) ->
    (forall k, (k < 5)%nat -> is_finite (fold_left wstep h w k) = true /\ 0 < R32 (fold_left wstep h w k) <= 2) /\ Rabs (csum (fold_left wstep h w) - 1) <= 1 / 1000000); [|apply G].
  - induction h as [|d h IH]; intros w I; [exact I|]. cbn [fold_left]. apply IH; [intros d' Hd'; apply HD; right; exact Hd'|]. unfold wstep. destruct (weigh d w) as [w'|] eqn:E.
    + destruct (weigh_F d w w') as (A & B & _); [apply HD; left; reflexivity| |exact E|split; assumption]. intros k Hk. destruct I as [I _]. destruct (I k Hk) as [F R]. split; [exact F|lra].
    + destruct fifth as [F R]. apply Rabs_le_inv in R. split; [intros; split; [exact F|lra]|]. unfold csum. apply Rabs_le. lra.
  - destruct fifth as [F R]. apply Rabs_le_inv in R. split; [intros; split; [exact F|lra]|]. unfold csum. apply Rabs_le. lra.
Qed.
(** a NaN density *)
Lemma fadd_nan_l (y : f32) : fadd fnan y = fnan. Proof. destruct y; reflexivity. Qed.
Lemma fadd_nan_r (y : f32) : fadd y fnan = fnan. Proof. destruct y; reflexivity. Qed.
Lemma clip_nan : clipWeight fnan = fnan. Proof. unfold clipWeight. cbn [slt FScalar]. rewrite flt_nan_l. reflexivity. Qed.
Lemma nan_total (x : nat -> f32) k : (k < 5)%nat -> x k = fnan -> totalWeight x = fnan.
Proof.
  intros Hk E. unfold totalWeight. cbn [sadd FScalar]. destruct k as [|[|[|[|[|]]]]]; [..|lia]; rewrite E, clip_nan, ?fadd_nan_r, ?fadd_nan_l; reflexivity.
Qed.
Lemma weigh_nan (dens w : nat -> f32) k : (k < 5)%nat -> dens k = fnan \/ w k = fnan -> exists w', weigh dens w = Some w' /\ forall j, w' j = fnan.
Proof.
  intros Hk H. assert (X : rawWeight dens w k = fnan). { unfold rawWeight. cbn [smul FScalar]. destruct H as [-> | ->]; [destruct (w k)|destruct (dens k)]; reflexivity. }
  assert (C : clipped (rawWeight dens w k) = false) by (unfold clipped; rewrite X; cbn [slt FScalar]; apply flt_nan_l).
  unfold weigh. cbv zeta. assert (B : clipped (rawWeight dens w 0%nat) && clipped (rawWeight dens w 1%nat) && clipped (rawWeight dens w 2%nat) && clipped (rawWeight dens w 3%nat) && clipped (rawWeight dens w 4%nat) = false).
  { destruct k as [|[|[|[|[|]]]]]; [..|lia]; rewrite C, ?andb_false_r; reflexivity. }
  rewrite B. eexists. split; [reflexivity|]. intros j. rewrite (nan_total _ k Hk X). cbn [smul sdiv FScalar]. assert (D : fdiv (sone : f32) fnan = fnan) by (destruct (sone : f32); reflexivity). rewrite D. destruct (clipWeight _); reflexivity.
Qed.

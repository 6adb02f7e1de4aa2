(** * Lemmas about the estimator interface model *)
From Verif Require Import CBase F32 RingBufferModel RingBufferSpec RingBufferProofs RingBufferHistory InterfaceModel.
From Coq Require Import Lra Psatz.
Open Scope Z_scope.

(** ** Small facts about rounding *)
Lemma rnd32_le x y : (x <= y)%R -> (rnd32 x <= rnd32 y)%R.
Proof. apply round_le; [exact valid32|exact vrnd]. Qed.
Lemma rnd32_0 : rnd32 0 = 0%R.
Proof. apply round_0. exact vrnd. Qed.
Lemma rnd32_ge0 x : (0 <= x)%R -> (0 <= rnd32 x)%R.
Proof. intros H. rewrite <- rnd32_0. apply rnd32_le. exact H. Qed.
Lemma rnd32_leZ x n : - 2 ^ 24 <= n <= 2 ^ 24 -> (x <= IZR n)%R -> (rnd32 x <= IZR n)%R.
Proof. intros Hn H. rewrite <- (rnd32_Z n Hn). apply rnd32_le. exact H. Qed.
Lemma rnd32_geZ x n : - 2 ^ 24 <= n <= 2 ^ 24 -> (IZR n <= x)%R -> (IZR n <= rnd32 x)%R.
Proof. intros Hn H. rewrite <- (rnd32_Z n Hn). apply rnd32_le. exact H. Qed.

Lemma bpow127_big : (100000000000000000000000000000000000000 <= bpow radix2 127)%R.
Proof. rewrite bpow127_IZR. apply IZR_le. vm_compute. discriminate. Qed.

Ltac bounded := eapply Rle_trans; [|exact bpow127_big].

Lemma bpow_m150_small : (0 < bpow radix2 (-150) <= / 1000000000000)%R.
Proof.
  split; [apply bpow_gt_0|]. change (-150) with (- (150)). rewrite bpow_opp.
  apply Rinv_le; [lra|]. rewrite <- IZR_Zpower by lia. apply IZR_le. vm_compute. discriminate.
Qed.

(** ** Sizing *)
Definition fin_in (x : f32) (lo hi : R) : Prop := is_finite x = true /\ (lo <= R32 x <= hi)%R.

Lemma ten_R : R32 (f_of_Z 10) = 10%R.
Proof. destruct (f_of_Z_exact 10) as [H _]; [lia|exact H]. Qed.
Lemma one_R : R32 f1 = 1%R /\ is_finite f1 = true.
Proof. apply (f_of_Z_exact 1). lia. Qed.

Lemma imu_len_value maxd : fin_in maxd 0 10000 ->
  let q := rnd32 (R32 maxd / 10) in
  imu_buffer_length maxd =
    if (Zceil q + 1 <? 256) then Ok (Zceil q + 1) else UB.
Proof.
  intros [Hf Hr]. cbv zeta. unfold imu_buffer_length.
  destruct (fdiv_R maxd (f_of_Z 10) Hf) as [E1 F1].
  { rewrite ten_R. lra. }
  { rewrite ten_R. bounded. apply Rabs_le. lra. }
  rewrite ten_R in E1. set (q := rnd32 (R32 maxd / 10)) in *.
  assert (Hq : (0 <= q <= 1000)%R).
  { unfold q. split; [apply rnd32_ge0; lra|apply (rnd32_leZ _ 1000); [lia|lra]]. }
  destruct (fceil_R (fdiv maxd (f_of_Z 10))) as [E2 F2]. rewrite E1 in E2. rewrite F1 in F2.
  assert (Hc : 0 <= Zceil q <= 1000).
  { split.
    - replace 0 with (Zceil (IZR 0)) by (rewrite Zceil_IZR; reflexivity). apply Zceil_le. lra.
    - apply Zceil_glb. lra. }
  destruct one_R as [O1 O2].
  destruct (fadd_R (fceil (fdiv maxd (f_of_Z 10))) f1 F2 O2) as [E3 F3].
  { rewrite E2, O1. bounded. apply Rabs_le.
    pose proof (IZR_le 0 (Zceil q) ltac:(lia)). pose proof (IZR_le (Zceil q) 1000 ltac:(lia)). lra. }
  rewrite E2, O1, <- plus_IZR, rnd32_Z in E3 by lia.
  rewrite (f_to_uint_R 8 _ (Zceil q + 1) F3 E3).
  replace (0 <=? Zceil q + 1) with true by lia. reflexivity.
Qed.

Lemma Zceil_lb' x : (x <= IZR (Zceil x))%R. Proof. apply Zceil_ub. Qed.

Lemma imu_len_ok maxd : fin_in maxd 0 2540 ->
  exists n, imu_buffer_length maxd = Ok n /\ 1 <= n <= 255 /\ (R32 maxd <= 10 * IZR n)%R /\
            ((1 <= R32 maxd)%R -> 2 <= n).
Proof.
  intros [Hf Hr]. pose proof (imu_len_value maxd) as H. cbv zeta in H.
  rewrite H by (split; [exact Hf|lra]). clear H.
  set (q := rnd32 (R32 maxd / 10)).
  assert (Hq : (0 <= q <= 254)%R).
  { unfold q. split; [apply rnd32_ge0; lra|apply (rnd32_leZ _ 254); [lia|lra]]. }
  assert (Hc : 0 <= Zceil q <= 254).
  { split.
    - replace 0 with (Zceil (IZR 0)) by (rewrite Zceil_IZR; reflexivity). apply Zceil_le. lra.
    - apply Zceil_glb. lra. }
  exists (Zceil q + 1). replace (Zceil q + 1 <? 256) with true by lia.
  split; [reflexivity|]. split; [lia|].
  pose proof (rnd32_error (R32 maxd / 10)) as He. fold q in He.
  pose proof bpow_m150_small as Hb.
  split.
  - rewrite plus_IZR. pose proof (Zceil_ub q) as Hu.
    rewrite (Rabs_pos_eq (R32 maxd / 10)) in He by lra.
    change (IZR (2 ^ 24)) with 16777216%R in He.
    assert (Rabs (q - R32 maxd / 10) <= 1)%R by (eapply Rle_trans; [exact He|]; lra).
    apply Rabs_le_inv in H. lra.
  - intros Hpos. assert (0 < Zceil q); [|lia]. apply lt_IZR.
    apply Rlt_le_trans with q; [|apply Zceil_ub].
    rewrite (Rabs_pos_eq (R32 maxd / 10)) in He by lra.
    change (IZR (2 ^ 24)) with 16777216%R in He.
    apply Rabs_le_inv in He. lra.
Qed.

Lemma imu_len_ub maxd : is_finite maxd = true -> (2540 < R32 maxd <= 10000)%R ->
  imu_buffer_length maxd = UB.
Proof.
  intros Hf Hr. pose proof (imu_len_value maxd) as H. cbv zeta in H.
  rewrite H by (split; [exact Hf|lra]). clear H.
  set (q := rnd32 (R32 maxd / 10)).
  assert (Hs : (2540 + bpow radix2 (-12) <= R32 maxd)%R).
  { assert (G1 : generic_format radix2 (SpecFloat.fexp 24 128) 2540).
    { rewrite <- (rnd32_Z 2540) by lia. apply generic_format_round; [exact valid32|exact vrnd]. }
    assert (G2 : generic_format radix2 (SpecFloat.fexp 24 128) (R32 maxd)) by apply generic_format_B2R.
    pose proof (succ_le_lt radix2 (SpecFloat.fexp 24 128) 2540 (R32 maxd) G1 G2 (proj1 Hr)) as Hs.
    rewrite succ_eq_pos in Hs by lra.
    rewrite ulp_neq_0 in Hs by lra.
    replace (bpow radix2 (-12)) with (bpow radix2 (cexp radix2 (SpecFloat.fexp 24 128) 2540)); [exact Hs|].
    f_equal. unfold cexp. rewrite (mag_unique_pos radix2 2540 12); [reflexivity|].
    simpl. lra. }
  assert (Hq : (254 < q)%R).
  { apply Rlt_le_trans with (254 + bpow radix2 (-16))%R.
    - simpl. lra.
    - assert (G : generic_format radix2 (SpecFloat.fexp 24 128) (254 + bpow radix2 (-16))).
      { rewrite fexp32. apply generic_format_FLT. exists (Float radix2 (254 * 2 ^ 16 + 1) (-16)).
        - unfold F2R. simpl. lra.
        - vm_compute. reflexivity.
        - vm_compute. discriminate. }
      rewrite <- (round_generic radix2 (SpecFloat.fexp 24 128) (round_mode mode_NE) _ G).
      unfold q. apply rnd32_le. simpl in Hs |- *. lra. }
  assert (254 < Zceil q).
  { apply lt_IZR. apply Rlt_le_trans with q; [exact Hq|apply Zceil_ub]. }
  replace (Zceil q + 1 <? 256) with false by lia. reflexivity.
Qed.

Lemma flit15_R : R32 (flit 3 2) = 1.5%R /\ is_finite (flit 3 2) = true.
Proof.
  split; [|vm_compute; reflexivity].
  destruct (f_of_Z_exact 3) as [E3 F3]; [lia|]. destruct (f_of_Z_exact 2) as [E2 F2]; [lia|].
  destruct (fdiv_R (f_of_Z 3) (f_of_Z 2) F3) as [E _].
  { rewrite E2. lra. }
  { rewrite E2, E3. bounded. rewrite Rabs_pos_eq; lra. }
  unfold flit. rewrite E, E2, E3. replace (3 / 2)%R with 1.5%R by lra.
  apply round_generic; [exact vrnd|]. rewrite fexp32. apply generic_format_FLT.
  exists (Float radix2 3 (-1)).
  - unfold F2R. simpl. lra.
  - vm_compute. reflexivity.
  - vm_compute. discriminate.
Qed.

Lemma obs_raw_value maxd iv : fin_in maxd 0 10000 -> 1 <= iv <= 2 ^ 24 ->
  let q := rnd32 (rnd32 (R32 maxd * 1.5) / IZR iv) in
  obs_buffer_length_raw maxd iv = if Zceil q <? 256 then Ok (Zceil q) else UB.
Proof.
  intros [Hf Hr] Hiv. cbv zeta. unfold obs_buffer_length_raw.
  destruct flit15_R as [E15 F15].
  destruct (fmul_R maxd (flit 3 2) Hf F15) as [E1 F1].
  { rewrite E15. bounded. rewrite Rabs_pos_eq; lra. }
  rewrite E15 in E1. set (x := rnd32 (R32 maxd * 1.5)) in *.
  assert (Hx : (0 <= x <= 15000)%R).
  { unfold x. split; [apply rnd32_ge0; lra|apply (rnd32_leZ _ 15000); [lia|lra]]. }
  destruct (f_of_Z_exact iv) as [Ei Fi]; [lia|].
  assert (Hi1 : (1 <= IZR iv)%R) by (apply (IZR_le 1); lia).
  assert (Hxi : (0 <= x / IZR iv <= 15000)%R).
  { split; [apply Rmult_le_pos; [lra|apply Rlt_le, Rinv_0_lt_compat; lra]|].
    apply Rmult_le_reg_r with (IZR iv); [lra|]. unfold Rdiv. rewrite Rmult_assoc, Rinv_l by lra. nra. }
  destruct (fdiv_R (fmul maxd (flit 3 2)) (f_of_Z iv) F1) as [E2 F2].
  { rewrite Ei. lra. }
  { rewrite Ei, E1. bounded. rewrite Rabs_pos_eq; lra. }
  rewrite Ei, E1 in E2. set (q := rnd32 (x / IZR iv)) in *.
  assert (Hq : (0 <= q <= 15000)%R).
  { unfold q. split; [apply rnd32_ge0; lra|apply (rnd32_leZ _ 15000); [lia|lra]]. }
  destruct (fceil_R (fdiv (fmul maxd (flit 3 2)) (f_of_Z iv))) as [E3 F3].
  rewrite E2 in E3. rewrite F2 in F3.
  rewrite (f_to_uint_R 8 _ (Zceil q) F3 E3).
  assert (0 <= Zceil q).
  { replace 0 with (Zceil (IZR 0)) by (rewrite Zceil_IZR; reflexivity). apply Zceil_le. lra. }
  replace (0 <=? Zceil q) with true by lia. reflexivity.
Qed.

(** exact criteria for 0, 1 and "at least 2" observation slots *)
Lemma obs_raw_le1 maxd iv : fin_in maxd 1 10000 -> 1 <= iv <= 2 ^ 24 ->
  (1.5 * R32 maxd <= IZR iv)%R -> obs_buffer_length_raw maxd iv = Ok 1.
Proof.
  intros [Hf Hr] Hiv Hle. pose proof (obs_raw_value maxd iv) as HH. cbv zeta in HH.
  rewrite HH by first [exact Hiv | split; [exact Hf|lra]]. clear HH.
  assert (Hi1 : (1 <= IZR iv)%R) by (apply (IZR_le 1); lia).
  set (x := rnd32 (R32 maxd * 1.5)).
  assert (Hx : (1 <= x <= IZR iv)%R).
  { unfold x. split; [apply (rnd32_geZ _ 1); [lia|lra]|apply rnd32_leZ; [lia|lra]]. }
  set (q := rnd32 (x / IZR iv)).
  assert (Hq1 : (q <= 1)%R).
  { unfold q. apply (rnd32_leZ _ 1); [lia|]. apply Rmult_le_reg_r with (IZR iv); [lra|].
    unfold Rdiv. rewrite Rmult_assoc, Rinv_l by lra. lra. }
  assert (Hq0 : (0 < q)%R).
  { apply Rlt_le_trans with (bpow radix2 (-24)); [apply bpow_gt_0|].
    assert (G : generic_format radix2 (SpecFloat.fexp 24 128) (bpow radix2 (-24))).
    { apply generic_format_bpow. vm_compute. discriminate. }
    rewrite <- (round_generic radix2 (SpecFloat.fexp 24 128) (round_mode mode_NE) _ G).
    unfold q. apply rnd32_le. change (bpow radix2 (-24)) with (/ IZR (2 ^ 24))%R.
    unfold Rdiv. apply Rle_trans with (1 * / IZR iv)%R.
    - rewrite Rmult_1_l. apply Rinv_le; [lra|]. apply IZR_le. lia.
    - apply Rmult_le_compat_r; [apply Rlt_le, Rinv_0_lt_compat; lra|lra]. }
  assert (Zceil q = 1) as ->; [|reflexivity].
  apply Z.le_antisymm.
  - apply Zceil_glb. exact Hq1.
  - assert (0 < Zceil q); [|lia]. apply lt_IZR. apply Rlt_le_trans with q; [exact Hq0|apply Zceil_ub].
Qed.

Lemma obs_raw_ge2 maxd iv : fin_in maxd 1 10000 -> 1 <= iv <= 2 ^ 24 ->
  (1.001 * IZR iv <= 1.5 * R32 maxd <= 254 * IZR iv)%R ->
  exists n, obs_buffer_length_raw maxd iv = Ok n /\ 2 <= n <= 255.
Proof.
  intros [Hf Hr] Hiv Hle. pose proof (obs_raw_value maxd iv) as H. cbv zeta in H.
  rewrite H by first [exact Hiv | split; [exact Hf|lra]]. clear H.
  assert (Hi1 : (1 <= IZR iv)%R) by (apply (IZR_le 1); lia).
  assert (Hi0 : (0 < / IZR iv)%R) by (apply Rinv_0_lt_compat; lra).
  set (x := rnd32 (R32 maxd * 1.5)).
  pose proof (rnd32_error (R32 maxd * 1.5)) as He1. fold x in He1.
  rewrite (Rabs_pos_eq (R32 maxd * 1.5)) in He1 by lra.
  change (IZR (2 ^ 24)) with 16777216%R in He1.
  pose proof bpow_m150_small as Hb.
  apply Rabs_le_inv in He1.
  assert (Hx : (1.0005 * IZR iv <= x <= 254.1 * IZR iv)%R) by lra.
  assert (Hxi : (1.0005 <= x / IZR iv <= 254.1)%R).
  { split; apply Rmult_le_reg_r with (IZR iv); try lra; unfold Rdiv; rewrite Rmult_assoc, Rinv_l by lra; lra. }
  set (q := rnd32 (x / IZR iv)).
  pose proof (rnd32_error (x / IZR iv)) as He2. fold q in He2.
  rewrite (Rabs_pos_eq (x / IZR iv)) in He2 by lra.
  change (IZR (2 ^ 24)) with 16777216%R in He2. apply Rabs_le_inv in He2.
  assert (Hq : (1 < q <= 255)%R) by lra.
  assert (1 < Zceil q) by (apply lt_IZR; apply Rlt_le_trans with q; [lra|apply Zceil_ub]).
  assert (Zceil q <= 255) by (apply Zceil_glb; lra).
  exists (Zceil q). replace (Zceil q <? 256) with true by lia. split; [reflexivity|lia].
Qed.

(** ** Interface sizing as a whole *)
Lemma sizing_defined p : let maxd := max_time_delay p in
  fin_in maxd 1 2540 -> 1 <= sensor_interval_min_ms p <= 2 ^ 24 ->
  (1.001 * IZR (sensor_interval_min_ms p) <= 1.5 * R32 maxd <= 254 * IZR (sensor_interval_min_ms p))%R ->
  exists il ol, initialise_interface p = Ok (il, ol) /\ 2 <= ol <= il /\ il <= 255 /\
    (R32 maxd <= 10 * IZR il)%R /\
    (forall t td, min_obs_interval t td ol <> UB).
Proof.
  cbv zeta. intros [Hf Hr] Hiv Hle.
  destruct (imu_len_ok (max_time_delay p)) as (il & E1 & H1 & H2 & H3); [split; [exact Hf|lra]|].
  destruct (obs_raw_ge2 (max_time_delay p) (sensor_interval_min_ms p)) as (n & E2 & Hn); auto.
  { split; [exact Hf|lra]. }
  specialize (H3 (proj1 Hr)).
  exists il, (Z.min n il). unfold initialise_interface. rewrite E1, E2.
  split; [reflexivity|]. split; [lia|]. split; [lia|]. split; [exact H2|].
  intros t td. unfold min_obs_interval. rewrite u64_small by (rewrite two64_val; lia).
  replace (Z.min n il - 1 =? 0) with false by lia. discriminate.
Qed.

Lemma sizing_div0 p : let maxd := max_time_delay p in
  fin_in maxd 1 2540 -> 1 <= sensor_interval_min_ms p <= 2 ^ 24 ->
  (1.5 * R32 maxd <= IZR (sensor_interval_min_ms p))%R ->
  exists il, initialise_interface p = Ok (il, 1) /\ forall t td, min_obs_interval t td 1 = UB.
Proof.
  cbv zeta. intros [Hf Hr] Hiv Hle.
  destruct (imu_len_ok (max_time_delay p)) as (il & E1 & H1 & H2 & H3); [split; [exact Hf|lra]|].
  exists il. unfold initialise_interface. rewrite E1, obs_raw_le1 by first [exact Hiv | exact Hle | split; [exact Hf|lra]].
  split; [f_equal; f_equal; lia|]. intros t td. reflexivity.
Qed.

Lemma sizing_overflow p : let maxd := max_time_delay p in
  is_finite maxd = true -> (2540 < R32 maxd <= 10000)%R -> initialise_interface p = UB.
Proof. cbv zeta. intros Hf Hr. unfold initialise_interface. rewrite imu_len_ub; auto. Qed.

Lemma min_interval_ub_iff t td n : 0 <= n <= 255 -> (min_obs_interval t td n = UB <-> n = 1).
Proof.
  intros Hn. unfold min_obs_interval, u64. rewrite two64_val.
  destruct (Z.eqb_spec ((n - 1) mod 18446744073709551616) 0) as [E|E].
  - split; [|auto]. intros _. destruct (Z.eq_dec n 0) as [->|]; [vm_compute in E; discriminate|].
    rewrite Z.mod_small in E; lia.
  - split; [discriminate|]. intros ->. vm_compute in E. congruence.
Qed.

(** ** No loss of data: spacing of accepted samples vs the horizon lag *)
Fixpoint spaced (m : Z) (l : list Z) : Prop :=
  match l with
  | a :: ((b :: _) as r) => b - a > m /\ spaced m r
  | _ => True
  end.

Lemma spaced_nth m : 0 <= m -> forall n k l, spaced m l -> (k + n < length l)%nat ->
  nth (k + n) l 0 - nth k l 0 >= Z.of_nat n * (m + 1).
Proof.
  intros Hm. induction n as [|n IH]; intros k l Hs Hk.
  - rewrite Nat.add_0_r. lia.
  - assert (Hstep : forall l k, spaced m l -> (S k < length l)%nat -> nth (S k) l 0 - nth k l 0 >= m + 1).
    { clear. induction l as [|a l IHl]; intros k Hs Hk; simpl in Hk; [lia|].
      destruct l as [|b l]; simpl in Hk; [lia|]. destruct Hs as [H1 H2].
      destruct k as [|k]; [simpl; lia|]. apply (IHl k H2). simpl. lia. }
    specialize (IH k l Hs ltac:(lia)). specialize (Hstep l (k + n)%nat Hs ltac:(lia)).
    replace (k + S n)%nat with (S (k + n)) by lia. lia.
Qed.

Lemma no_loss (t td n m : Z) (l : list Z) (k : nat) :
  2 <= n <= 255 -> 0 <= td <= t -> t < two64 -> t - td < two32 ->
  min_obs_interval t td n = Ok m -> spaced m l -> (k + Z.to_nat n < length l)%nat ->
  nth (k + Z.to_nat n) l 0 - nth k l 0 > t - td.
Proof.
  intros Hn Htd Ht Hlag Hm Hs Hk.
  unfold min_obs_interval, sub64 in Hm. rewrite !u64_small in Hm by (rewrite two64_val in *; lia).
  replace (n - 1 =? 0) with false in Hm by lia. injection Hm as Hm.
  assert (Hmm : m = (t - td) / (n - 1)).
  { rewrite <- Hm. unfold u32. apply Z.mod_small. split; [apply Z.div_pos; lia|].
    apply Z.le_lt_trans with (t - td); [apply Z.div_le_upper_bound; nia|exact Hlag]. }
  assert (Hm0 : 0 <= m) by (rewrite Hmm; apply Z.div_pos; lia).
  pose proof (spaced_nth m Hm0 (Z.to_nat n) k l Hs Hk) as Hsp.
  rewrite Z2Nat.id in Hsp by lia.
  assert (t - td < (n - 1) * (m + 1)).
  { rewrite Hmm. pose proof (Z.mul_succ_div_gt (t - td) (n - 1) ltac:(lia)). lia. }
  nia.
Qed.

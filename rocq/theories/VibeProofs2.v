(** * At-rest detection over histories *)
From Coq Require Import Lra Psatz.
From Verif Require Import CBase F32 F32More F32Err InterfaceModel InterfaceSpec VibeModel VibeProofs.
Open Scope R_scope.

(** ** The time step *)
Lemma lit_lo : is_finite (flit 1 10000) = true /\ 99999 / 1000000000 <= R32 (flit 1 10000) <= 100001 / 1000000000.
Proof. destruct (lit_rel 1 10000 ltac:(lia) ltac:(lia) ltac:(lia)) as [F H]. split; [exact F|]. apply Rabs_le_inv in H. lra. Qed.
Lemma lit_hi : is_finite (flit 2 100) = true /\ 199999 / 10000000 <= R32 (flit 2 100) <= 200001 / 10000000.
Proof. destruct (lit_rel 2 100 ltac:(lia) ltac:(lia) ltac:(lia)) as [F H]. split; [exact F|]. apply Rabs_le_inv in H. lra. Qed.
Lemma million : R32 (f_of_Z 1000000) = 1000000 /\ is_finite (f_of_Z 1000000) = true.
Proof. apply f_of_Z_exact. lia. Qed.
Lemma raw_dt n : (0 <= n < 2 ^ 64)%Z -> let v := fdiv (f_of_Z n) (f_of_Z 1000000) in
  is_finite v = true /\ IZR n / 1000000 * (1 - 2 / 10000000) - mini <= R32 v <= IZR n / 1000000 * (1 + 2 / 10000000) + mini.
Proof.
  intros H v. destruct (f_of_Z_range n) as [E F]; [lia|]. destruct million as [EM FM].
  assert (N : 0 <= IZR n <= 20000000000000000000) by (split; [apply IZR_le; lia|apply (IZR_le n 20000000000000000000); lia]).
  pose proof (rnd32_bounds (IZR n) ltac:(lra)) as B. rewrite <- E in B. set (u := / 16777216) in *. assert (U : 0 < u <= 6 / 100000000) by (unfold u; lra).
  assert (NU : IZR n * u <= IZR n * (6 / 100000000)) by nra.
  assert (B0 : 0 <= R32 (f_of_Z n)) by (rewrite E; apply rnd32_ge0; lra).
  assert (V : Rabs (R32 (f_of_Z n) / 1000000) <= 100000000000000000000) by (rewrite Rabs_pos_eq; lra).
  destruct (fdiv_R (f_of_Z n) (f_of_Z 1000000)) as [E2 F2]; [exact F|rewrite EM; lra|rewrite EM; apply (rnd_near _ _ V); unfold huge; lra|].
  fold v in E2, F2. split; [exact F2|]. rewrite E2, EM. pose proof (rnd32_bounds (R32 (f_of_Z n) / 1000000) ltac:(lra)) as B2. fold u in B2.
  assert (R32 (f_of_Z n) / 1000000 * u <= R32 (f_of_Z n) / 1000000 * (6 / 100000000)) by (assert (0 <= R32 (f_of_Z n) / 1000000) by lra; nra). unfold mini. lra.
Qed.
Lemma dt_finite t tl : is_finite (imu_dt t tl) = true /\ 99999 / 1000000000 <= R32 (imu_dt t tl) <= 200001 / 10000000.
Proof.
  unfold imu_dt. assert (H : (0 <= sub64 t tl < 2 ^ 64)%Z) by (unfold sub64; pose proof (u64_range (t - tl)); rewrite two64_val in *; lia).
  destruct (raw_dt _ H) as [F _]. destruct lit_lo as [F1 B1], lit_hi as [F2 B2].
  destruct (constrain_R _ _ _ F F1 F2 ltac:(lra)) as [E Fi]. split; [exact Fi|]. rewrite E. split.
  - eapply Rle_trans; [|apply Rmax_l]. lra.
  - apply Rmax_lub; [lra|]. eapply Rle_trans; [apply Rmin_l|]. lra.
Qed.
Lemma sub64_le t tl : (0 <= tl <= t)%Z -> (t < 2 ^ 64)%Z -> sub64 t tl = (t - tl)%Z.
Proof. intros A B. unfold sub64. apply u64_small. rewrite two64_val. lia. Qed.
Lemma dt_value t tl : (0 <= tl)%Z -> (t < 2 ^ 64)%Z -> (100 <= t - tl <= 20000)%Z ->
  IZR (t - tl) / 1000000 * (1 - 1 / 50000) <= R32 (imu_dt t tl) <= IZR (t - tl) / 1000000 * (1 + 1 / 50000).
Proof.
  intros A B C. unfold imu_dt. rewrite sub64_le by lia. destruct (raw_dt (t - tl) ltac:(lia)) as [F V]. destruct lit_lo as [F1 B1], lit_hi as [F2 B2].
  assert (N : 100 <= IZR (t - tl) <= 20000) by (split; [apply (IZR_le 100)|apply (IZR_le _ 20000)]; lia).
  destruct (constrain_R _ _ _ F F1 F2 ltac:(lra)) as [E Fi]. rewrite E. set (w := IZR (t - tl) / 1000000) in *.
  assert (W : 1 / 10000 <= w <= 2 / 100) by (unfold w; lra). unfold mini in V. split.
  - destruct (Rle_dec (R32 (flit 2 100)) (R32 (fdiv (f_of_Z (t - tl)) (f_of_Z 1000000)))).
    + rewrite Rmin_left by assumption. eapply Rle_trans; [|apply Rmax_r]. lra.
    + rewrite Rmin_right by lra. eapply Rle_trans; [|apply Rmax_r]. lra.
  - apply Rmax_lub; [lra|]. eapply Rle_trans; [apply Rmin_r|]. lra.
Qed.

(** ** The movement tests *)
Definition scaler_ok (s : f32) : Prop := is_finite s = true /\ / 4 <= R32 s <= 100.
Lemma fgt_true a b : is_finite a = true -> is_finite b = true -> (fgt a b = true <-> R32 b < R32 a).
Proof.
  intros A B. unfold fgt. change (@Bltb 24 128) with flt. rewrite flt_R by assumption. destruct (Rlt_bool_spec (R32 b) (R32 a)); split; (lra || auto || discriminate).
Qed.
Lemma mul_int m k : is_finite m = true -> 0 <= R32 m <= 100000 -> (1 <= k <= 40000)%Z ->
  is_finite (fmul m (f_of_Z k)) = true /\ R32 m * IZR k * (1 - / 1000000) - mini <= R32 (fmul m (f_of_Z k)) <= R32 m * IZR k * (1 + / 1000000) + mini.
Proof.
  intros F B K. destruct (f_of_Z_exact k) as [Ek Fk]; [lia|]. assert (KR : 1 <= IZR k <= 40000) by (split; [apply (IZR_le 1)|apply (IZR_le _ 40000)]; lia).
  assert (P : 0 <= R32 m * IZR k <= 10000000000) by nra. destruct (fmul_R m (f_of_Z k) F Fk) as [E Fi].
  { rewrite Ek. apply (rnd_near _ 10000000000); [rewrite Rabs_pos_eq; lra|unfold huge; lra]. }
  split; [exact Fi|]. rewrite E, Ek. pose proof (rnd32_bounds (R32 m * IZR k) ltac:(lra)). unfold mini. lra.
Qed.
Lemma thr_rate s : scaler_ok s -> is_finite (fmul (flit 5 100) s) = true /\ 49999 / 1000000 * R32 s <= R32 (fmul (flit 5 100) s) <= 50001 / 1000000 * R32 s.
Proof.
  intros [F B]. destruct (lit_rel 5 100 ltac:(lia) ltac:(lia) ltac:(lia)) as [Fc Hc]. apply Rabs_le_inv in Hc. set (c := flit 5 100) in *.
  assert (C : 499999 / 10000000 <= R32 c <= 500001 / 10000000) by lra. clear Hc.
  assert (P : 0 <= R32 c * R32 s <= 100) by nra. destruct (fmul_R c s Fc F) as [E Fi].
  { apply (rnd_near _ 100); [rewrite Rabs_pos_eq; lra|unfold huge; lra]. }
  split; [exact Fi|]. rewrite E. pose proof (rnd32_bounds (R32 c * R32 s) ltac:(lra)) as R.
  assert (CS : 499999 / 10000000 * R32 s <= R32 c * R32 s <= 500001 / 10000000 * R32 s) by nra. lra.
Qed.
Lemma rate_test da t tl s : okv da -> scaler_ok s -> (0 <= tl)%Z -> (t < 2 ^ 64)%Z -> (500 <= t - tl <= 20000)%Z ->
  let w := IZR (t - tl) / 1000000 in
  (51 / 1000 * R32 s * w <= vnorm da -> fgt (fdiv (v3f_norm da) (imu_dt t tl)) (fmul (flit 5 100) s) = true) /\
  (vnorm da <= 49 / 1000 * R32 s * w -> fgt (fdiv (v3f_norm da) (imu_dt t tl)) (fmul (flit 5 100) s) = false).
Proof.
  intros OK SO A B C w. destruct (self_norm da OK) as (Fn & Pn & Bn). pose proof (vnorm_bound da OK) as VB. destruct (dt_finite t tl) as [Fd _].
  pose proof (dt_value t tl A B ltac:(lia)) as DV. fold w in DV. assert (N : 500 <= IZR (t - tl) <= 20000) by (split; [apply (IZR_le 500)|apply (IZR_le _ 20000)]; lia).
  assert (W : 5 / 10000 <= w <= 2 / 100) by (unfold w; lra). destruct (thr_rate s SO) as [Ft Bt]. destruct SO as [Fs Bs].
  set (d := R32 (imu_dt t tl)) in *. set (n := R32 (v3f_norm da)) in *. assert (D : 4999 / 10000000 <= d <= 3 / 100) by nra.
  assert (ID : 0 < / d <= 2001) by (split; [apply Rinv_0_lt_compat; lra|]; replace 2001 with (/ / 2001) by field; apply Rinv_le_contravar; lra).
  assert (Q : Rabs (n / d) <= 1000000) by (unfold Rdiv; rewrite Rabs_pos_eq by nra; nra).
  destruct (fdiv_R (v3f_norm da) (imu_dt t tl)) as [E Fq]; [exact Fn|fold d; lra|fold n d; apply (rnd_near _ _ Q); unfold huge; lra|]. fold n d in E.
  assert (QP : 0 <= n / d) by (unfold Rdiv; nra). pose proof (rnd32_bounds (n / d) QP) as RB. rewrite <- E in RB. set (q := n / d) in *.
  assert (QD : q * d = n) by (unfold q; field; lra). clearbody q. split; intros HH.
  - apply fgt_true; [exact Fq|exact Ft|].
    assert (SW : 125 / 1000000 <= R32 s * w) by nra.
    assert (L1 : 5075 / 100000 * (R32 s * w) <= n) by lra.
    assert (L2 : 506 / 10000 * R32 s < q).
    { apply (Rmult_lt_reg_r d); [lra|]. rewrite QD. eapply Rlt_le_trans; [|exact L1].
      assert (R32 s * d <= R32 s * (w * (1 + 1 / 50000))) by (apply Rmult_le_compat_l; lra). nra. }
    lra.
  - destruct (fgt _ _) eqn:G; [|reflexivity]. exfalso. apply fgt_true in G; [|exact Fq|exact Ft].
    assert (SW : 125 / 1000000 <= R32 s * w) by nra. assert (L1 : n <= 4925 / 100000 * (R32 s * w)) by lra.
    assert (L2 : q < 494 / 10000 * R32 s).
    { apply (Rmult_lt_reg_r d); [lra|]. rewrite QD. eapply Rle_lt_trans; [exact L1|].
      assert (R32 s * (w * (1 - 1 / 50000)) <= R32 s * d) by (apply Rmult_le_compat_l; lra). nra. }
    lra.
Qed.

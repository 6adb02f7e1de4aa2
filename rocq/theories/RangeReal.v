(** * Proofs: tilt and range correction in real terms (C10) *)
From Coq Require Import Lra Psatz.
From Verif Require Import CBase F32 F32More F32Err InterfaceSpec RangeModel RangeProofs RangeProofs2 RangeProofs3.
Open Scope R_scope.

Definition unit_entry (x : f32) : Prop := is_finite x = true /\ Rabs (R32 x) <= 2.
(** vertical component of the sensor axis: third row of the attitude matrix times (sin pitch, ., cos pitch) *)
Definition axis_z (p : rf_params) (r20 r22 : f32) : R := R32 r20 * R32 (rp_sin_pitch p) + R32 r22 * R32 (rp_cos_pitch p).
Lemma cos_tilt_near p r20 r22 : unit_entry r20 -> unit_entry r22 -> unit_entry (rp_sin_pitch p) -> unit_entry (rp_cos_pitch p) ->
  near (cos_tilt_of p r20 r22) (axis_z p r20 r22) (2 / 1000000).
Proof.
  intros [F1 B1] [F2 B2] [F3 B3] [F4 B4]. unfold cos_tilt_of, axis_z.
  assert (M : forall a b : f32, is_finite a = true -> is_finite b = true -> Rabs (R32 a) <= 2 -> Rabs (R32 b) <= 2 -> near (fmul a b) (R32 a * R32 b) (3 / 10000000) /\ Rabs (R32 a * R32 b) <= 4).
  { intros a b Fa Fb A B. assert (AB : Rabs (R32 a * R32 b) <= 4) by (rewrite Rabs_mult; pose proof (Rabs_pos (R32 a)); pose proof (Rabs_pos (R32 b)); nra). split; [|exact AB].
    eapply (near_mul _ _ _ _ 0 0 0 4); [apply near_exact; exact Fa|apply near_exact; exact Fb|lra|lra|unfold huge; lra|unfold ulp1, tiny; lra]. }
  destruct (M _ _ F1 F3 B1 B3) as [M1 Q1]. destruct (M _ _ F2 F4 B2 B4) as [M2 Q2].
  eapply (near_add _ _ _ _ _ _ 9); [exact M1|exact M2| |unfold huge; lra|unfold ulp1, tiny; lra].
  eapply Rle_trans; [apply Rplus_le_compat_r, Rabs_triang|]. lra.
Qed.
(** healthy data: the sensor axis is within the tilt limit *)
Lemma healthy_tilt l k : timely (l ++ [k]) -> is_data_healthy (state (l ++ [k])) = true ->
  unit_entry (tk_r20 k) -> unit_entry (tk_r22 k) -> unit_entry (rp_sin_pitch (tk_par k)) -> unit_entry (rp_cos_pitch (tk_par k)) -> is_finite (rp_cos_max_tilt (tk_par k)) = true ->
  R32 (rp_cos_max_tilt (tk_par k)) - 2 / 1000000 < axis_z (tk_par k) (tk_r20 k) (tk_r22 k).
Proof.
  intros T H A B C D F. destruct (data_healthy_only_if l k T H) as (x & _ & _ & _ & _ & _ & G & _).
  pose proof (cos_tilt_near (tk_par k) _ _ A B C D) as N. unfold fgt in G. change (@Bltb 24 128) with flt in G. rewrite flt_R in G by (exact F || exact (proj1 N)).
  apply near_val in N. destruct (Rlt_bool_spec (R32 (rp_cos_max_tilt (tk_par k))) (R32 (cos_tilt_of (tk_par k) (tk_r20 k) (tk_r22 k)))); [lra|discriminate].
Qed.
(** what a healthy update stores: the sample's range plus the earth-frame offset of the sensor along its axis *)
Lemma run_checks_sample p now r20 r22 s : rf_sample (run_checks p now r20 r22 s) = rf_sample s /\ rf_cos_tilt (run_checks p now r20 r22 s) = cos_tilt_of p r20 r22.
Proof.
  unfold run_checks. destruct (_ || _); [split; reflexivity|]. destruct (negb _); [split; reflexivity|]. destruct (_ =? _)%Z; [split; reflexivity|]. destruct (_ && _); [|split; reflexivity].
  destruct (stuck_check _ _ _ _ _ _) as [[? ?] ?]. split; reflexivity.
Qed.
Lemma healthy_stored k s x : is_data_healthy (tick_step k s) = true -> tk_new k = Some x ->
  rf_sample (tick_step k s) = mk_range (rs_time x) (fadd (rs_rng x) (fdiv (tk_off k) (cos_tilt_of (tk_par k) (tk_r20 k) (tk_r22 k)))) (rs_quality x).
Proof.
  unfold tick_step. cbv zeta. set (s1 := run_checks _ _ _ _ _). intros H N.
  destruct (run_checks_sample (tk_par k) (tk_now k) (tk_r20 k) (tk_r22 k) (load (tk_new k) s)) as [E1 E2]. fold s1 in E1, E2.
  rewrite N in E1. cbn [load rf_sample] in E1.
  destruct (is_data_healthy s1) eqn:Q; [|rewrite Q in H; discriminate H]. unfold set_range. cbn [rf_sample]. rewrite E1, E2. reflexivity.
Qed.
Lemma unhealthy_stored k s x : is_data_healthy (tick_step k s) = false -> tk_new k = Some x -> rf_sample (tick_step k s) = x.
Proof.
  unfold tick_step. cbv zeta. set (s1 := run_checks _ _ _ _ _). intros H N.
  destruct (run_checks_sample (tk_par k) (tk_now k) (tk_r20 k) (tk_r22 k) (load (tk_new k) s)) as [E1 E2]. fold s1 in E1, E2. rewrite N in E1. cbn [load rf_sample] in E1.
  destruct (is_data_healthy s1) eqn:Q; [|exact E1]. exfalso. unfold is_data_healthy, set_range in *. cbn [rf_ready rf_valid] in H. congruence.
Qed.
Lemma state_snoc l k : state (l ++ [k]) = tick_step k (state l).
Proof. unfold state. generalize rf_init. induction l as [|j l IH]; intros s; [reflexivity|]. cbn [app ticks]. apply IH. Qed.
(** height of the sensor above the ground plus its offset below the IMU *)
Lemma corrected_height l k x : timely (l ++ [k]) -> is_data_healthy (state (l ++ [k])) = true -> tk_new k = Some x ->
  unit_entry (tk_r20 k) -> unit_entry (tk_r22 k) -> unit_entry (rp_sin_pitch (tk_par k)) -> unit_entry (rp_cos_pitch (tk_par k)) ->
  is_finite (rp_cos_max_tilt (tk_par k)) = true -> / 10 <= R32 (rp_cos_max_tilt (tk_par k)) -> is_finite (rs_rng x) = true -> Rabs (R32 (rs_rng x)) <= 1000 -> is_finite (tk_off k) = true -> Rabs (R32 (tk_off k)) <= 100 ->
  Rabs (R32 (rs_rng (rf_sample (state (l ++ [k])))) * axis_z (tk_par k) (tk_r20 k) (tk_r22 k) - (R32 (rs_rng x) * axis_z (tk_par k) (tk_r20 k) (tk_r22 k) + R32 (tk_off k))) <= 5 / 1000.
Proof.
  intros T H N A B C D F LT Fx Bx Fo Bo. pose proof (healthy_tilt l k T H A B C D F) as HT. pose proof (cos_tilt_near (tk_par k) _ _ A B C D) as NC.
  rewrite state_snoc in H. rewrite state_snoc, (healthy_stored k (state l) x H N). cbn [rs_rng]. set (z := axis_z _ _ _) in *. set (c := cos_tilt_of _ _ _) in *.
  assert (ZB : Rabs z <= 8).
  { unfold z, axis_z. eapply Rle_trans; [apply Rabs_triang|]. rewrite !Rabs_mult. destruct A as [_ A], B as [_ B], C as [_ C], D as [_ D].
    pose proof (Rabs_pos (R32 (tk_r20 k))). pose proof (Rabs_pos (R32 (tk_r22 k))). pose proof (Rabs_pos (R32 (rp_sin_pitch (tk_par k)))). pose proof (Rabs_pos (R32 (rp_cos_pitch (tk_par k)))). nra. }
  clearbody z c. clear H N A B C D T F. assert (Z : 99 / 1000 <= z) by lra.
  assert (ZI : 0 < / z <= 11). { split; [apply Rinv_0_lt_compat; lra|]. replace 11 with (/ / 11) by field. apply Rinv_le_contravar; lra. }
  assert (OZ : Rabs (R32 (tk_off k) / z) <= 1100). { unfold Rdiv. rewrite Rabs_mult, (Rabs_pos_eq (/ z)) by lra. pose proof (Rabs_pos (R32 (tk_off k))). nra. }
  assert (ZP : 0 <= z <= 8) by (rewrite Rabs_pos_eq in ZB by lra; lra).
  assert (ZZ : / z * z = 1) by (apply Rinv_l; lra).
  assert (ND : near (fdiv (tk_off k) c) (R32 (tk_off k) / z) (23 / 10000 * / z + 7 / 100000)).
  { eapply (near_div _ _ _ _ 0 (2 / 1000000) (23 / 10000 * / z) 1101); [apply near_exact; exact Fo|exact NC|rewrite Rabs_pos_eq; lra| | |unfold huge; lra|unfold ulp1, tiny; lra].
    - rewrite (Rabs_pos_eq z) by lra. unfold Rdiv at 1. rewrite Rabs_mult, (Rabs_pos_eq (/ z)) by lra.
      assert (Rabs (R32 (tk_off k)) * / z <= 100 * / z) by (apply Rmult_le_compat_r; lra).
      replace (23 / 10000 * / z * (z - 2 / 1000000)) with (23 / 10000 * (/ z * z) - 23 / 10000 * / z * (2 / 1000000)) by ring. rewrite ZZ. lra.
    - lra. }
  assert (NS : near (fadd (rs_rng x) (fdiv (tk_off k) c)) (R32 (rs_rng x) + R32 (tk_off k) / z) (23 / 10000 * / z + 20 / 100000)).
  { eapply (near_add _ _ _ _ 0 _ 2102); [apply near_exact; exact Fx|exact ND| |unfold huge; lra|unfold ulp1, tiny; lra].
    eapply Rle_trans; [apply Rplus_le_compat_r, Rabs_triang|]. lra. }
  destruct NS as [_ NS]. set (y := R32 (fadd _ _)) in *. replace (y * z - (R32 (rs_rng x) * z + R32 (tk_off k))) with ((y - (R32 (rs_rng x) + R32 (tk_off k) / z)) * z) by (field; lra).
  rewrite Rabs_mult, (Rabs_pos_eq z) by lra. eapply Rle_trans; [apply Rmult_le_compat_r; [lra|exact NS]|].
  replace ((23 / 10000 * / z + 20 / 100000) * z) with (23 / 10000 * (/ z * z) + 20 / 100000 * z) by ring. rewrite ZZ. lra.
Qed.
(** the bypass on the ground *)
Lemma bypass_exact rh to air cl s :
  ground_bypass rh to air cl s = if rh && to && negb (is_data_healthy s) && is_regularly_sending s && negb air
    then {| rf_sample := mk_range (rs_time (rf_sample s)) cl (rs_quality (rf_sample s)); rf_ready := true; rf_valid := true; rf_regular := rf_regular s;
            rf_last_valid := rf_last_valid s; rf_stuck := rf_stuck s; rf_smin := rf_smin s; rf_smax := rf_smax s; rf_dt := rf_dt s; rf_cos_tilt := rf_cos_tilt s; rf_bad_quality := rf_bad_quality s |} else s.
Proof. reflexivity. Qed.
Lemma bypass_only rh to air cl s : ground_bypass rh to air cl s <> s -> rh = true /\ to = true /\ is_data_healthy s = false /\ is_regularly_sending s = true /\ air = false.
Proof.
  unfold ground_bypass. destruct rh, to, (is_data_healthy s), (is_regularly_sending s), air; cbn [andb negb]; intros H; try (exfalso; apply H; reflexivity). auto.
Qed.
Lemma bypass_range rh to air cl s : is_data_healthy s = false -> is_data_healthy (ground_bypass rh to air cl s) = true ->
  rs_rng (rf_sample (ground_bypass rh to air cl s)) = cl /\ rs_time (rf_sample (ground_bypass rh to air cl s)) = rs_time (rf_sample s).
Proof. intros H. unfold ground_bypass. destruct (_ && _); [split; reflexivity|congruence]. Qed.

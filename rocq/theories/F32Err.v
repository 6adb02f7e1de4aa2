(** * Error bounds of binary32 expressions *)
From Coq Require Import Lra Psatz.
From Verif Require Export F32 F32More.
Open Scope R_scope.

(** [near x r e]: the float [x] is finite and within [e] of the real [r] *)
Definition near (x : f32) (r e : R) : Prop := is_finite x = true /\ Rabs (R32 x - r) <= e.
(** unit round-off and a bound of the underflow error *)
Definition ulp1 : R := / 16777216.
Definition tiny : R := / 1000000000000000000000.
Definition huge : R := 1000000000000000000000000000000.

Lemma near_exact x : is_finite x = true -> near x (R32 x) 0.
Proof. intros F. split; [exact F|]. rewrite Rminus_eq_0, Rabs_R0. lra. Qed.
Lemma near_eps x r e : near x r e -> 0 <= e.
Proof. intros [_ H]. pose proof (Rabs_pos (R32 x - r)). lra. Qed.
Lemma near_weaken x r e e' : near x r e -> e <= e' -> near x r e'.
Proof. intros [F H] L. split; [exact F|lra]. Qed.
Lemma near_val x r e : near x r e -> r - e <= R32 x <= r + e.
Proof. intros [_ H]. apply Rabs_le_inv in H. lra. Qed.
Lemma rnd_near t m : Rabs t <= m -> m <= huge -> Rabs (rnd32 t - t) <= m * ulp1 + tiny /\ Rabs t <= bpow radix2 127.
Proof.
  intros A B. split.
  - pose proof (rnd32_error t) as H. rewrite two24 in H. pose proof small150. unfold ulp1, tiny. pose proof (Rabs_pos t). nra.
  - eapply Rle_trans; [exact A|]. eapply Rle_trans; [exact B|]. exact big127.
Qed.
Lemma near_rnd x t r d m e : is_finite x = true -> R32 x = rnd32 t -> Rabs t <= m -> m <= huge -> Rabs (t - r) <= d -> d + m * ulp1 + tiny <= e -> near x r e.
Proof.
  intros F E A B D L. split; [exact F|]. rewrite E. destruct (rnd_near t m A B) as [H _].
  replace (rnd32 t - r) with ((rnd32 t - t) + (t - r)) by ring. eapply Rle_trans; [apply Rabs_triang|]. lra.
Qed.
Lemma near_add a b ra rb ea eb m e : near a ra ea -> near b rb eb -> Rabs (ra + rb) + (ea + eb) <= m -> m <= huge ->
  ea + eb + m * ulp1 + tiny <= e -> near (fadd a b) (ra + rb) e.
Proof.
  intros [Fa Ha] [Fb Hb] M B L.
  assert (D : Rabs (R32 a + R32 b - (ra + rb)) <= ea + eb) by (replace (R32 a + R32 b - (ra + rb)) with ((R32 a - ra) + (R32 b - rb)) by ring; eapply Rle_trans; [apply Rabs_triang|lra]).
  assert (A : Rabs (R32 a + R32 b) <= m) by (replace (R32 a + R32 b) with ((R32 a + R32 b - (ra + rb)) + (ra + rb)) by ring; eapply Rle_trans; [apply Rabs_triang|lra]).
  destruct (fadd_R a b Fa Fb) as [E F]; [apply (rnd_near _ m A B)|]. apply (near_rnd _ _ _ (ea + eb) m _ F E A B D L).
Qed.
Lemma near_sub a b ra rb ea eb m e : near a ra ea -> near b rb eb -> Rabs (ra - rb) + (ea + eb) <= m -> m <= huge ->
  ea + eb + m * ulp1 + tiny <= e -> near (fsub a b) (ra - rb) e.
Proof.
  intros [Fa Ha] [Fb Hb] M B L.
  assert (D : Rabs (R32 a - R32 b - (ra - rb)) <= ea + eb).
  { replace (R32 a - R32 b - (ra - rb)) with ((R32 a - ra) + - (R32 b - rb)) by ring; eapply Rle_trans; [apply Rabs_triang|]. rewrite Rabs_Ropp. lra. }
  assert (A : Rabs (R32 a - R32 b) <= m) by (replace (R32 a - R32 b) with ((R32 a - R32 b - (ra - rb)) + (ra - rb)) by ring; eapply Rle_trans; [apply Rabs_triang|lra]).
  destruct (fsub_R a b Fa Fb) as [E F]; [apply (rnd_near _ m A B)|]. apply (near_rnd _ _ _ (ea + eb) m _ F E A B D L).
Qed.
Lemma near_mul a b ra rb ea eb d m e : near a ra ea -> near b rb eb ->
  Rabs ra * eb + Rabs rb * ea + ea * eb <= d -> Rabs (ra * rb) + d <= m -> m <= huge -> d + m * ulp1 + tiny <= e -> near (fmul a b) (ra * rb) e.
Proof.
  intros [Fa Ha] [Fb Hb] HD M B L.
  assert (D : Rabs (R32 a * R32 b - ra * rb) <= d).
  { replace (R32 a * R32 b - ra * rb) with (ra * (R32 b - rb) + rb * (R32 a - ra) + (R32 a - ra) * (R32 b - rb)) by ring.
    eapply Rle_trans; [apply Rabs_triang|]. eapply Rle_trans; [apply Rplus_le_compat_r, Rabs_triang|]. rewrite !Rabs_mult.
    pose proof (Rabs_pos ra). pose proof (Rabs_pos rb). pose proof (Rabs_pos (R32 a - ra)). pose proof (Rabs_pos (R32 b - rb)).
    assert (Rabs ra * Rabs (R32 b - rb) <= Rabs ra * eb) by (apply Rmult_le_compat_l; assumption).
    assert (Rabs rb * Rabs (R32 a - ra) <= Rabs rb * ea) by (apply Rmult_le_compat_l; assumption).
    assert (Rabs (R32 a - ra) * Rabs (R32 b - rb) <= ea * eb) by (apply Rmult_le_compat; assumption). lra. }
  assert (A : Rabs (R32 a * R32 b) <= m) by (replace (R32 a * R32 b) with ((R32 a * R32 b - ra * rb) + ra * rb) by ring; eapply Rle_trans; [apply Rabs_triang|lra]).
  destruct (fmul_R a b Fa Fb) as [E F]; [apply (rnd_near _ m A B)|]. apply (near_rnd _ _ _ d m _ F E A B D L).
Qed.
Lemma near_div a b ra rb ea eb d m e : near a ra ea -> near b rb eb -> eb < Rabs rb ->
  (ea + Rabs (ra / rb) * eb) <= d * (Rabs rb - eb) -> Rabs (ra / rb) + d <= m -> m <= huge -> d + m * ulp1 + tiny <= e -> near (fdiv a b) (ra / rb) e.
Proof.
  intros [Fa Ha] [Fb Hb] HB HD M B L.
  assert (BL : Rabs rb - eb <= Rabs (R32 b)). { pose proof (Rabs_triang_inv rb (rb - R32 b)) as T. replace (rb - (rb - R32 b)) with (R32 b) in T by ring. rewrite (Rabs_minus_sym rb (R32 b)) in T. lra. }
  assert (NB : R32 b <> 0) by (intros E; rewrite E, Rabs_R0 in BL; lra).
  assert (Nr : rb <> 0) by (intros E; rewrite E, Rabs_R0 in HB; pose proof (Rabs_pos (R32 b - rb)); lra).
  assert (D : Rabs (R32 a / R32 b - ra / rb) <= d).
  { replace (R32 a / R32 b - ra / rb) with (((R32 a - ra) - ra / rb * (R32 b - rb)) / R32 b) by (field; auto).
    unfold Rdiv at 1. rewrite Rabs_mult, Rabs_inv. apply (Rmult_le_reg_r (Rabs (R32 b))); [apply Rabs_pos_lt; exact NB|].
    rewrite Rmult_assoc, Rinv_l, Rmult_1_r by (apply Rabs_no_R0; exact NB).
    eapply Rle_trans; [apply Rabs_triang|]. rewrite Rabs_Ropp, Rabs_mult.
    assert (Rabs (ra / rb) * Rabs (R32 b - rb) <= Rabs (ra / rb) * eb) by (apply Rmult_le_compat_l; [apply Rabs_pos|exact Hb]).
    assert (0 <= d). { apply (Rmult_le_reg_r (Rabs rb - eb)); [lra|]. rewrite Rmult_0_l. eapply Rle_trans; [|exact HD]. pose proof (Rabs_pos (R32 a - ra)). pose proof (Rabs_pos (R32 b - rb)). assert (0 <= Rabs (ra / rb) * eb) by (apply Rmult_le_pos; [apply Rabs_pos|lra]). lra. }
    assert (d * (Rabs rb - eb) <= d * Rabs (R32 b)) by (apply Rmult_le_compat_l; assumption). lra. }
  assert (A : Rabs (R32 a / R32 b) <= m) by (replace (R32 a / R32 b) with ((R32 a / R32 b - ra / rb) + ra / rb) by ring; eapply Rle_trans; [apply Rabs_triang|lra]).
  destruct (fdiv_R a b Fa NB) as [E F]; [apply (rnd_near _ m A B)|]. apply (near_rnd _ _ _ d m _ F E A B D L).
Qed.
Lemma fsqrt_R (a : f32) : is_finite a = true -> 0 <= R32 a -> R32 (fsqrt a) = rnd32 (sqrt (R32 a)) /\ is_finite (fsqrt a) = true.
Proof.
  intros F P. pose proof (Bsqrt_correct 24 128 _ _ mode_NE a) as (E & Fi & _). split; [exact E|].
  unfold fsqrt. rewrite Fi. destruct a as [s|s| |s mm ee H]; try discriminate F; [reflexivity|]. destruct s; [|reflexivity].
  exfalso. assert (R32 (B754_finite true mm ee H) < 0); [|lra]. cbn [B2R]. apply F2R_lt_0. reflexivity.
Qed.
Lemma fneg_R (a : f32) : R32 (fneg a) = - R32 a /\ is_finite (fneg a) = is_finite a.
Proof. split; [apply B2R_Bopp|apply is_finite_Bopp]. Qed.
Lemma fabs_R (a : f32) : R32 (fabs a) = Rabs (R32 a) /\ is_finite (fabs a) = is_finite a.
Proof. split; [apply B2R_Babs|apply is_finite_Babs]. Qed.
Lemma constrain_R v lo hi : is_finite v = true -> is_finite lo = true -> is_finite hi = true -> R32 lo <= R32 hi ->
  R32 (math_constrain v lo hi) = Rmax (R32 lo) (Rmin (R32 hi) (R32 v)) /\ is_finite (math_constrain v lo hi) = true.
Proof.
  intros A B C D. unfold math_constrain. rewrite flt_R by assumption. destruct (Rlt_bool_spec (R32 v) (R32 lo)).
  - split; [|exact B]. rewrite Rmin_right, Rmax_left by lra. reflexivity.
  - unfold fgt. change (@Bltb 24 128) with flt. rewrite flt_R by assumption. destruct (Rlt_bool_spec (R32 hi) (R32 v)); (split; [|assumption]).
    + rewrite Rmin_left, Rmax_right by lra. reflexivity.
    + rewrite Rmin_right, Rmax_right by lra. reflexivity.
Qed.

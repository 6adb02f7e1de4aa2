(** * Proofs: all drift metrics, one step (C12) *)
From Coq Require Import Lra Psatz.
From Verif Require Import CBase F32 F32More F32Err InterfaceModel GpsModel GpsDrift GpsDrift2.
Open Scope R_scope.

Lemma clampR_rel b x y : / 1000000 <= b -> Rabs (y - x) <= Rabs x * ulp1 + tiny -> Rabs (clampR b y - clampR b x) <= b * (3 * ulp1).
Proof.
  intros B H. assert (U : 0 < ulp1 <= / 10000000) by (unfold ulp1; lra). assert (TI : 0 < tiny <= b * (/ 10 * ulp1)) by (unfold tiny, ulp1; lra).
  destruct (Rle_lt_dec (Rabs x) (2 * b)) as [S|S].
  - eapply Rle_trans; [apply clampR_lip; lra|]. rewrite Rminus_eq_0, Rabs_R0. assert (Rabs x * ulp1 <= 2 * b * ulp1) by (apply Rmult_le_compat_r; lra). lra.
  - assert (Rabs x * ulp1 <= Rabs x * / 10000000) by (apply Rmult_le_compat_l; [apply Rabs_pos|lra]).
    assert (E : clampR b y = clampR b x).
    { apply Rabs_le_inv in H. unfold clampR. destruct (Rle_lt_dec 0 x) as [P|P].
      - rewrite (Rabs_pos_eq x) in * by lra. rewrite !Rmin_left by nra. reflexivity.
      - rewrite (Rabs_left x) in * by lra. rewrite !Rmin_right by nra. rewrite !Rmax_left by nra. reflexivity. }
    rewrite E, Rminus_eq_0, Rabs_R0. nra.
Qed.
Lemma metric_rel dt (v l old : f32) x B : is_finite dt = true -> 999 / 1000000 <= R32 dt <= 10 -> is_finite v = true -> Rabs (R32 v - x) <= Rabs x * ulp1 + tiny ->
  is_finite l = true -> / 1000000 <= R32 l <= 1000 -> is_finite old = true -> Rabs (R32 old) <= B -> 10 * R32 l <= B -> B <= 90000 ->
  near (lp (gps_coef dt) (lim10 v l) old) (R32 dt / 10 * clampR (10 * R32 l) x + (1 - R32 dt / 10) * R32 old) (B * (15 / 10000000)).
Proof.
  intros F D Fv V Fl L Fo Ho HB HB2. destruct (metric_near dt v l old B F D Fv Fl L Fo Ho HB HB2) as [N1 N2]. split; [exact N1|].
  pose proof (clampR_rel (10 * R32 l) x (R32 v) ltac:(lra) V) as C. set (y := R32 (lp _ _ _)) in *. set (c := clampR _ x) in *. set (c' := clampR _ (R32 v)) in *. set (o := R32 old) in *.
  replace (y - (R32 dt / 10 * c + (1 - R32 dt / 10) * o)) with ((y - (R32 dt / 10 * c' + (1 - R32 dt / 10) * o)) + R32 dt / 10 * (c' - c)) by ring.
  eapply Rle_trans; [apply Rabs_triang|]. rewrite (Rabs_mult (R32 dt / 10)), (Rabs_pos_eq (R32 dt / 10)) by lra.
  assert (R32 dt / 10 * Rabs (c' - c) <= 1 * (10 * R32 l * (3 * ulp1))) by (apply Rmult_le_compat; [lra|apply Rabs_pos|lra|exact C]).
  assert (10 * R32 l * (3 * ulp1) <= B * (3 * ulp1)) by (apply Rmult_le_compat_r; [unfold ulp1; lra|lra]).
  assert (B * (3 * ulp1) <= B * (4 / 10000000)) by (apply Rmult_le_compat_l; [lra|unfold ulp1; lra]). lra.
Qed.
Lemma rel_exact (v : f32) : Rabs (R32 v - R32 v) <= Rabs (R32 v) * ulp1 + tiny.
Proof. rewrite Rminus_eq_0, Rabs_R0. assert (0 <= Rabs (R32 v) * ulp1) by (apply Rmult_le_pos; [apply Rabs_pos|unfold ulp1; lra]). unfold tiny. lra. Qed.
Lemma rel_rnd x : Rabs (rnd32 x - x) <= Rabs x * ulp1 + tiny.
Proof. pose proof (rnd32_error x) as H. rewrite two24 in H. pose proof small150. unfold ulp1, tiny. lra. Qed.
Lemma rel_div (a dt : f32) : is_finite a = true -> 999 / 1000000 <= R32 dt <= 10 -> Rabs (R32 a) <= 1000000 ->
  is_finite (fdiv a dt) = true /\ Rabs (R32 (fdiv a dt) - R32 a / R32 dt) <= Rabs (R32 a / R32 dt) * ulp1 + tiny.
Proof.
  intros F D A. destruct (fdiv_R a dt F) as [E F'].
  - lra.
  - unfold Rdiv. rewrite Rabs_mult, Rabs_inv, (Rabs_pos_eq (R32 dt)) by lra. assert (I : / R32 dt <= 2000) by (replace 2000 with (/ / 2000) by field; apply Rinv_le_contravar; lra).
    assert (0 < / R32 dt) by (apply Rinv_0_lt_compat; lra). pose proof big127. pose proof (Rabs_pos (R32 a)). nra.
  - split; [exact F'|]. rewrite E. apply rel_rnd.
Qed.
Lemma rel_sub (a b : f32) : is_finite a = true -> is_finite b = true -> Rabs (R32 a) <= 1000000 -> Rabs (R32 b) <= 1000000 ->
  is_finite (fsub a b) = true /\ Rabs (R32 (fsub a b) - (R32 a - R32 b)) <= Rabs (R32 a - R32 b) * ulp1 + tiny.
Proof.
  intros F F2 A B. destruct (fsub_R a b F F2) as [E F'].
  - pose proof big127. pose proof (Rabs_triang (R32 a) (- R32 b)) as T. rewrite Rabs_Ropp in T. unfold Rminus. lra.
  - split; [exact F'|]. rewrite E. apply rel_rnd.
Qed.
(** [mean] of the metric: new value limited to ten times the limit, time constant 10 s *)
Definition low_pass (dt : R) (limit x old : R) : R := dt / 10 * clampR (10 * limit) x + (1 - dt / 10) * old.
Lemma drift_metrics p m s B : let s' := snd (gps_is_good p m s) in let dt := gps_dt (g_now m) (gs_prev_time s) in let h := gp_hdrift p in let v := gp_vdrift p in
  g_in_air m = false -> g_at_rest m = true ->
  is_finite h = true -> / 1000000 <= R32 h <= 1000 -> is_finite v = true -> / 1000000 <= R32 v <= 1000 -> 10 * R32 h <= B -> 10 * R32 v <= B -> B <= 90000 ->
  (forall x : f32, In x [gs_vn s; gs_ve s; gs_dn s; gs_de s; gs_dd s; gs_vdiff s] -> is_finite x = true /\ Rabs (R32 x) <= B) ->
  (forall x : f32, In x [g_vn m; g_ve m; g_dn m; g_de m; g_vd m; g_vz m; gs_alt_prev s; alt_m (g_alt m)] -> is_finite x = true /\ Rabs (R32 x) <= 1000000) ->
  gs_prev_time s <> 0%Z ->
  near (gs_vn s') (low_pass (R32 dt) (R32 h) (R32 (g_vn m)) (R32 (gs_vn s))) (B * (15 / 10000000)) /\
  near (gs_ve s') (low_pass (R32 dt) (R32 h) (R32 (g_ve m)) (R32 (gs_ve s))) (B * (15 / 10000000)) /\
  near (gs_dn s') (low_pass (R32 dt) (R32 h) (R32 (g_dn m) / R32 dt) (R32 (gs_dn s))) (B * (15 / 10000000)) /\
  near (gs_de s') (low_pass (R32 dt) (R32 h) (R32 (g_de m) / R32 dt) (R32 (gs_de s))) (B * (15 / 10000000)) /\
  near (gs_vdiff s') (low_pass (R32 dt) (R32 v) (R32 (g_vd m) - R32 (g_vz m)) (R32 (gs_vdiff s))) (B * (15 / 10000000)) /\
  near (gs_dd s') (low_pass (R32 dt) (R32 v) (R32 (fsub (gs_alt_prev s) (alt_m (g_alt m))) / R32 dt) (R32 (gs_dd s))) (B * (15 / 10000000)) /\
  gs_alt_prev s' = alt_m (g_alt m).
Proof.
  cbv zeta. intros A R Fh Hh Fv Hv Bh Bv B2 HO HN P. destruct (gps_dt_range (g_now m) (gs_prev_time s)) as [D1 D2]. set (dt := gps_dt _ _) in *.
  assert (E : let s' := snd (gps_is_good p m s) in gs_vn s' = lp (gps_coef dt) (lim10 (g_vn m) (gp_hdrift p)) (gs_vn s) /\ gs_ve s' = lp (gps_coef dt) (lim10 (g_ve m) (gp_hdrift p)) (gs_ve s) /\
    gs_dn s' = lp (gps_coef dt) (lim10 (fdiv (g_dn m) dt) (gp_hdrift p)) (gs_dn s) /\ gs_de s' = lp (gps_coef dt) (lim10 (fdiv (g_de m) dt) (gp_hdrift p)) (gs_de s) /\
    gs_vdiff s' = lp (gps_coef dt) (lim10 (fsub (g_vd m) (g_vz m)) (gp_vdrift p)) (gs_vdiff s) /\
    gs_dd s' = lp (gps_coef dt) (lim10 (fdiv (fsub (gs_alt_prev s) (alt_m (g_alt m))) dt) (gp_vdrift p)) (gs_dd s) /\ gs_alt_prev s' = alt_m (g_alt m)).
  { unfold gps_is_good. cbv zeta. cbn [snd gs_vn gs_ve gs_dn gs_de gs_vdiff gs_dd gs_alt_prev]. fold dt. rewrite A, R. cbn [negb andb].
    replace (gs_prev_time s =? 0)%Z with false by (symmetry; apply Z.eqb_neq; exact P). auto 10. }
  cbv zeta in E. destruct E as (E1 & E2 & E3 & E4 & E5 & E6 & E7). rewrite E1, E2, E3, E4, E5, E6. clear E1 E2 E3 E4 E5 E6. unfold low_pass.
  assert (O := fun x H => HO x H). assert (N := fun x H => HN x H). clear HO HN. cbn [In] in O, N.
  repeat match goal with |- _ /\ _ => split end; try exact E7.
  - destruct (O (gs_vn s)) as [O1 O2]; [auto|]. destruct (N (g_vn m)) as [N1 N2]; [auto|]. apply metric_rel; auto using rel_exact.
  - destruct (O (gs_ve s)) as [O1 O2]; [auto|]. destruct (N (g_ve m)) as [N1 N2]; [auto|]. apply metric_rel; auto using rel_exact.
  - destruct (O (gs_dn s)) as [O1 O2]; [auto|]. destruct (N (g_dn m)) as [N1 N2]; [auto|]. destruct (rel_div (g_dn m) dt N1 D2 N2) as [Q1 Q2]. apply metric_rel; auto.
  - destruct (O (gs_de s)) as [O1 O2]; [auto|]. destruct (N (g_de m)) as [N1 N2]; [auto 10|]. destruct (rel_div (g_de m) dt N1 D2 N2) as [Q1 Q2]. apply metric_rel; auto.
  - destruct (O (gs_vdiff s)) as [O1 O2]; [auto 10|]. destruct (N (g_vd m)) as [N1 N2]; [auto 10|]. destruct (N (g_vz m)) as [N3 N4]; [auto 10|].
    destruct (rel_sub (g_vd m) (g_vz m) N1 N3 N2 N4) as [Q1 Q2]. apply metric_rel; auto.
  - destruct (O (gs_dd s)) as [O1 O2]; [auto 10|]. destruct (N (gs_alt_prev s)) as [N1 N2]; [auto 10|]. destruct (N (alt_m (g_alt m))) as [N3 N4]; [auto 10|].
    destruct (rel_sub _ _ N1 N3 N2 N4) as [Q1 Q2]. set (a := fsub _ _) in *.
    destruct (fdiv_R a dt Q1) as [E F']; [lra| |].
    { assert (BA : Rabs (R32 a) <= 3000000). { pose proof (Rabs_triang_inv (R32 a) (R32 (gs_alt_prev s) - R32 (alt_m (g_alt m)))) as T. pose proof (Rabs_triang (R32 (gs_alt_prev s)) (- R32 (alt_m (g_alt m)))) as T2. rewrite Rabs_Ropp in T2. unfold Rminus in *. unfold ulp1, tiny in *. nra. }
      unfold Rdiv. rewrite Rabs_mult, Rabs_inv, (Rabs_pos_eq (R32 dt)) by lra. assert (I : / R32 dt <= 2000) by (replace 2000 with (/ / 2000) by field; apply Rinv_le_contravar; lra).
      assert (0 < / R32 dt) by (apply Rinv_0_lt_compat; lra). pose proof big127. pose proof (Rabs_pos (R32 a)). nra. }
    apply metric_rel; auto. rewrite E. apply rel_rnd.
Qed.
Lemma alt_m_near a : (Z.abs a <= 2 ^ 24)%Z -> near (alt_m a) (IZR a / 1000) (Rabs (IZR a) / 1000 * (23 / 10 * ulp1) + 2 * tiny).
Proof.
  intros H. unfold alt_m. destruct (f_of_Z_exact a) as [V F]; [lia|]. assert (U : 0 < ulp1 <= / 10000000) by (unfold ulp1; lra).
  assert (AB : Rabs (IZR a) <= 16777216) by (rewrite <- abs_IZR; apply IZR_le; lia). pose proof (Rabs_pos (IZR a)).
  replace (IZR a / 1000) with (1 / 1000 * IZR a) by lra.
  eapply (near_mul _ _ _ _ (1 / 1000 * (101 / 100 * ulp1)) 0 (Rabs (IZR a) * (1 / 1000 * (101 / 100 * ulp1))) (Rabs (IZR a) / 1000 * (101 / 100))).
  - eapply near_weaken; [apply lit_near; lia|]. rewrite Rabs_pos_eq by lra. unfold ulp1, tiny. lra.
  - rewrite <- V. apply near_exact. exact F.
  - lra.
  - rewrite Rabs_mult, (Rabs_pos_eq (1 / 1000)) by lra. nra.
  - unfold huge. lra.
  - assert (0 < tiny) by (unfold tiny; lra). nra.
Qed.

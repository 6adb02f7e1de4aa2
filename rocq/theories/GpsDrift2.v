(** * Proofs: drift checks over histories (C12) *)
From Coq Require Import Lra Psatz.
From Verif Require Import CBase F32 F32More F32Err InterfaceModel GpsModel GpsDrift.
Open Scope R_scope.

(** what the norm check does *)
Lemma norm_below a b l x : is_finite a = true -> is_finite b = true -> is_finite l = true -> / 1000000 <= R32 l <= 1000 -> 0 <= x <= 61 / 100 * R32 l ->
  Rabs (R32 a) <= x -> Rabs (R32 b) <= x -> fgt (norm2f a b) l = false.
Proof.
  intros Fa Fb Fl L X A B. unfold norm2f. assert (U : 0 < ulp1 <= / 10000000) by (unfold ulp1; lra).
  assert (LL : / 1000000000000 <= R32 l * R32 l) by nra. assert (TI : 0 < tiny <= / 10000000 * (R32 l * R32 l)) by (unfold tiny; lra).
  assert (SQ : forall c : f32, is_finite c = true -> Rabs (R32 c) <= x -> near (fmul c c) (R32 c * R32 c) (/ 100 * (R32 l * R32 l)) /\ 0 <= R32 c * R32 c <= 38 / 100 * (R32 l * R32 l)).
  { intros c Fc C. assert (Q : 0 <= R32 c * R32 c <= 38 / 100 * (R32 l * R32 l)).
    { split; [apply Rle_0_sqr|]. replace (R32 c * R32 c) with (Rabs (R32 c) * Rabs (R32 c)) by (rewrite <- Rabs_mult; apply Rabs_pos_eq; apply Rle_0_sqr). pose proof (Rabs_pos (R32 c)). assert (Rabs (R32 c) * Rabs (R32 c) <= (61 / 100 * R32 l) * (61 / 100 * R32 l)) by (apply Rmult_le_compat; lra). lra. }
    split; [|exact Q]. eapply (near_mul _ _ _ _ 0 0 0 (38 / 100 * (R32 l * R32 l))); [apply near_exact; exact Fc|apply near_exact; exact Fc|lra| | |].
    - rewrite Rabs_pos_eq by lra. lra.
    - unfold huge. nra.
    - nra. }
  destruct (SQ a Fa A) as [Na Qa]. destruct (SQ b Fb B) as [Nb Qb].
  assert (NS : near (fadd (fmul a a) (fmul b b)) (R32 a * R32 a + R32 b * R32 b) (3 / 100 * (R32 l * R32 l))).
  { eapply (near_add _ _ _ _ _ _ (R32 l * R32 l)); [exact Na|exact Nb| | |].
    - rewrite Rabs_pos_eq by lra. lra.
    - unfold huge; nra.
    - nra. }
  pose proof (near_val _ _ _ NS) as V. set (t := fadd (fmul a a) (fmul b b)) in *.
  (* the float sum of squares is not negative *)
  assert (T0 : 0 <= R32 t).
  { destruct (fmul_R a a Fa Fa) as [E1 _]. { eapply Rle_trans; [|exact big127]. rewrite Rabs_pos_eq by lra. nra. }
    destruct (fmul_R b b Fb Fb) as [E2 _]. { eapply Rle_trans; [|exact big127]. rewrite Rabs_pos_eq by lra. nra. }
    assert (P1 : 0 <= R32 (fmul a a)) by (rewrite E1; apply rnd32_ge0; lra). assert (P2 : 0 <= R32 (fmul b b)) by (rewrite E2; apply rnd32_ge0; lra).
    pose proof (near_val _ _ _ Na). pose proof (near_val _ _ _ Nb).
    destruct (fadd_R (fmul a a) (fmul b b) (proj1 Na) (proj1 Nb)) as [E3 _]. { eapply Rle_trans; [|exact big127]. rewrite Rabs_pos_eq by lra. nra. }
    unfold t. rewrite E3. apply rnd32_ge0. lra. }
  destruct (fsqrt_R t (proj1 NS) T0) as [E F]. unfold fgt. change (@Bltb 24 128) with flt. rewrite flt_R by assumption. apply Rlt_bool_false. rewrite E.
  assert (S1 : sqrt (R32 t) <= 9 / 10 * R32 l). { apply Rsqr_incr_0_var; [|lra]. rewrite Rsqr_sqrt by exact T0. unfold Rsqr. lra. }
  pose proof (sqrt_pos (R32 t)). destruct (rnd32_bounds (sqrt (R32 t)) H) as [_ Q]. unfold tiny in TI. assert (R32 l * R32 l <= 1000 * R32 l) by nra. lra.
Qed.
Lemma norm_above a b l : is_finite a = true -> is_finite b = true -> is_finite l = true -> / 1000000 <= R32 l <= 1000 ->
  Rabs (R32 a) <= 100000 -> Rabs (R32 b) <= 100000 -> 1001 / 1000 * R32 l <= Rabs (R32 a) -> fgt (norm2f a b) l = true.
Proof.
  intros Fa Fb Fl L A B G. unfold norm2f. assert (U : 0 < ulp1 <= / 10000000) by (unfold ulp1; lra).
  assert (LL : / 1000000000000 <= R32 l * R32 l) by nra.
  assert (SQ : forall c : f32, is_finite c = true -> Rabs (R32 c) <= 100000 -> is_finite (fmul c c) = true /\ R32 (fmul c c) = rnd32 (R32 c * R32 c) /\ 0 <= R32 c * R32 c <= 10000000000).
  { intros c Fc C. assert (Q : 0 <= R32 c * R32 c <= 10000000000).
    { split; [apply Rle_0_sqr|]. replace (R32 c * R32 c) with (Rabs (R32 c) * Rabs (R32 c)) by (rewrite <- Rabs_mult; apply Rabs_pos_eq; apply Rle_0_sqr). pose proof (Rabs_pos (R32 c)). nra. }
    destruct (fmul_R c c Fc Fc) as [E1 E2]. { eapply Rle_trans; [|exact big127]. rewrite Rabs_pos_eq by lra. lra. } auto. }
  destruct (SQ a Fa A) as (F1 & E1 & Q1). destruct (SQ b Fb B) as (F2 & E2 & Q2).
  destruct (rnd32_bounds _ (proj1 Q1)) as [B1 B1']. destruct (rnd32_bounds _ (proj1 Q2)) as [_ B2]. rewrite <- E1 in *. rewrite <- E2 in *.
  assert (P1 : 0 <= R32 (fmul a a)) by (rewrite E1; apply rnd32_ge0; lra). assert (P2 : 0 <= R32 (fmul b b)) by (rewrite E2; apply rnd32_ge0; lra).
  destruct (fadd_R (fmul a a) (fmul b b) F1 F2) as [E3 F3]. { eapply Rle_trans; [|exact big127]. rewrite Rabs_pos_eq by lra. lra. }
  assert (P3 : 0 <= R32 (fmul a a) + R32 (fmul b b)) by lra. destruct (rnd32_bounds _ P3) as [B3 _]. rewrite <- E3 in B3. set (t := fadd (fmul a a) (fmul b b)) in *.
  assert (AA : 10019 / 10000 * (R32 l * R32 l) <= R32 a * R32 a).
  { replace (R32 a * R32 a) with (Rabs (R32 a) * Rabs (R32 a)) by (rewrite <- Rabs_mult; apply Rabs_pos_eq; apply Rle_0_sqr). nra. }
  assert (T0 : 10018 / 10000 * (R32 l * R32 l) <= R32 t). { unfold tiny in *. nra. }
  assert (T1 : 0 <= R32 t) by lra. destruct (fsqrt_R t F3 T1) as [E F]. unfold fgt. change (@Bltb 24 128) with flt. rewrite flt_R by assumption. apply Rlt_bool_true. rewrite E.
  assert (S1 : 10005 / 10000 * R32 l <= sqrt (R32 t)). { apply Rsqr_incr_0_var; [|apply sqrt_pos]. rewrite Rsqr_sqrt by exact T1. unfold Rsqr. nra. }
  destruct (rnd32_bounds (sqrt (R32 t)) (sqrt_pos _)) as [Q _]. nra.
Qed.

(** a quantity [v] low-passed at every message, reset to zero when the vehicle is not at rest on the ground *)
Section Below.
Variable (l : f32).
Hypothesis Fl : is_finite l = true.
Hypothesis L : / 1000000 <= R32 l <= 1000.
Lemma below_step dt v old : is_finite dt = true -> 999 / 1000000 <= R32 dt <= 10 -> is_finite v = true -> Rabs (R32 v) <= R32 l / 2 ->
  is_finite old = true -> Rabs (R32 old) <= 61 / 100 * R32 l ->
  is_finite (lp (gps_coef dt) (lim10 v l) old) = true /\ Rabs (R32 (lp (gps_coef dt) (lim10 v l) old)) <= 61 / 100 * R32 l.
Proof.
  intros F D Fv V Fo O. destruct (metric_near dt v l old (10 * R32 l) F D Fv Fl L Fo) as [N1 N2]; [lra|lra|lra|]. split; [exact N1|].
  rewrite clampR_id in N2 by lra. set (y := R32 (lp _ _ _)) in *. apply Rabs_le_inv in V, O, N2. apply Rabs_le.
  assert (Ha : 999 / 10000000 <= R32 dt / 10 <= 1) by lra. set (al := R32 dt / 10) in *.
  assert (al * (- (R32 l / 2)) <= al * R32 v <= al * (R32 l / 2)) by (split; apply Rmult_le_compat_l; lra).
  assert ((1 - al) * (- (61 / 100 * R32 l)) <= (1 - al) * R32 old <= (1 - al) * (61 / 100 * R32 l)) by (split; apply Rmult_le_compat_l; lra).
  assert (al * R32 l >= 999 / 10000000 * R32 l) by (apply Rle_ge, Rmult_le_compat_r; lra). lra.
Qed.
End Below.

Definition Vel (l : R) (s : gps_state) : Prop := is_finite (gs_vn s) = true /\ is_finite (gs_ve s) = true /\ Rabs (R32 (gs_vn s)) <= l /\ Rabs (R32 (gs_ve s)) <= l.
Lemma f0_zero : R32 f0 = 0 /\ is_finite f0 = true. Proof. split; reflexivity. Qed.
Lemma vel_fields p m s : let s' := snd (gps_is_good p m s) in let rest := negb (g_in_air m) && g_at_rest m in let dt := gps_dt (g_now m) (gs_prev_time s) in
  gs_vn s' = (if rest then lp (gps_coef dt) (lim10 (g_vn m) (gp_hdrift p)) (gs_vn s) else f0) /\
  gs_ve s' = (if rest then lp (gps_coef dt) (lim10 (g_ve m) (gp_hdrift p)) (gs_ve s) else f0) /\
  ff_hspeed (gs_flags s') = (if rest then fgt (norm2f (gs_vn s') (gs_ve s')) (gp_hdrift p) else if g_in_air m then false else ff_hspeed (gs_flags s)) /\ gs_prev_time s' = g_now m.
Proof. unfold gps_is_good. cbv zeta. cbn [snd gs_vn gs_ve gs_flags ff_hspeed gs_prev_time]. destruct (negb (g_in_air m) && g_at_rest m); repeat split; reflexivity. Qed.

Lemma hspeed_quiet : forall p, is_finite (gp_hdrift p) = true -> / 1000000 <= R32 (gp_hdrift p) <= 1000 -> forall ms s, Vel (61 / 100 * R32 (gp_hdrift p)) s -> ff_hspeed (gs_flags s) = false ->
  Forall (fun m => is_finite (g_vn m) = true /\ is_finite (g_ve m) = true /\ Rabs (R32 (g_vn m)) <= R32 (gp_hdrift p) / 2 /\ Rabs (R32 (g_ve m)) <= R32 (gp_hdrift p) / 2) ms ->
  Vel (61 / 100 * R32 (gp_hdrift p)) (gps_run p ms s) /\ ff_hspeed (gs_flags (gps_run p ms s)) = false.
Proof.
  intros p Fl L. induction ms as [|m ms IH]; intros s V F H; [auto|]. inversion H as [|m' ms' Hm Hms]; subst m' ms'. cbn [gps_run].
  destruct Hm as (H1 & H2 & H3 & H4). destruct V as (V1 & V2 & V3 & V4). destruct (vel_fields p m s) as (E1 & E2 & E3 & _). cbv zeta in *.
  destruct (gps_dt_range (g_now m) (gs_prev_time s)) as [D1 D2].
  destruct (below_step (gp_hdrift p) Fl L (gps_dt (g_now m) (gs_prev_time s)) (g_vn m) (gs_vn s) D1 D2 H1 H3 V1 V3) as [A1 A2].
  destruct (below_step (gp_hdrift p) Fl L (gps_dt (g_now m) (gs_prev_time s)) (g_ve m) (gs_ve s) D1 D2 H2 H4 V2 V4) as [A3 A4].
  set (s' := snd (gps_is_good p m s)) in *. clearbody s'.
  assert (W : Vel (61 / 100 * R32 (gp_hdrift p)) s').
  { unfold Vel. rewrite E1, E2. destruct (negb (g_in_air m) && g_at_rest m); [auto|]. destruct f0_zero as [Z1 Z2]. rewrite Z1, Z2, Rabs_R0. repeat split; lra. }
  apply IH; [exact W| |exact Hms]. rewrite E3. destruct (negb (g_in_air m) && g_at_rest m); [|destruct (g_in_air m); [reflexivity|exact F]].
  destruct W as (W1 & W2 & W3 & W4). apply (norm_below _ _ _ (61 / 100 * R32 (gp_hdrift p))); auto; lra.
Qed.

(** the filtered velocities are bounded in every history *)
Lemma vel_bounded : forall p, is_finite (gp_hdrift p) = true -> / 1000000 <= R32 (gp_hdrift p) <= 1000 -> forall ms s, Vel (11 * R32 (gp_hdrift p)) s ->
  Forall (fun m => is_finite (g_vn m) = true /\ is_finite (g_ve m) = true) ms -> Vel (11 * R32 (gp_hdrift p)) (gps_run p ms s).
Proof.
  intros p Fl L. assert (ST : forall dt v old : f32, is_finite dt = true -> 999 / 1000000 <= R32 dt <= 10 -> is_finite v = true -> is_finite old = true -> Rabs (R32 old) <= 11 * R32 (gp_hdrift p) ->
    is_finite (lp (gps_coef dt) (lim10 v (gp_hdrift p)) old) = true /\ Rabs (R32 (lp (gps_coef dt) (lim10 v (gp_hdrift p)) old)) <= 11 * R32 (gp_hdrift p)).
  { intros dt v old F D Fv Fo O. destruct (metric_near dt v (gp_hdrift p) old (11 * R32 (gp_hdrift p)) F D Fv Fl L Fo) as [N1 N2]; [lra|lra|lra|]. split; [exact N1|].
    pose proof (clampR_bound (10 * R32 (gp_hdrift p)) (R32 v)) as V. assert (V' : Rabs (clampR (10 * R32 (gp_hdrift p)) (R32 v)) <= 10 * R32 (gp_hdrift p)) by (apply V; lra). clear V.
    set (c := clampR _ _) in *. set (y := R32 (lp _ _ _)) in *. apply Rabs_le_inv in V', O, N2. apply Rabs_le. set (al := R32 dt / 10) in *. assert (Ha : 999 / 10000000 <= al <= 1) by (unfold al; lra). set (l := R32 (gp_hdrift p)) in *.
    assert (al * (- (10 * l)) <= al * c <= al * (10 * l)) by (split; apply Rmult_le_compat_l; lra).
    assert ((1 - al) * (- (11 * l)) <= (1 - al) * R32 old <= (1 - al) * (11 * l)) by (split; apply Rmult_le_compat_l; lra).
    assert (al * l >= 999 / 10000000 * l) by (apply Rle_ge, Rmult_le_compat_r; lra). lra. }
  induction ms as [|m ms IH]; intros s V H; [exact V|]. inversion H as [|m' ms' Hm Hms]; subst m' ms'. cbn [gps_run]. apply IH; [|exact Hms].
  destruct Hm as (H1 & H2). destruct V as (V1 & V2 & V3 & V4). destruct (vel_fields p m s) as (E1 & E2 & _). cbv zeta in *. destruct (gps_dt_range (g_now m) (gs_prev_time s)) as [D1 D2].
  unfold Vel. rewrite E1, E2. destruct (negb (g_in_air m) && g_at_rest m).
  - destruct (ST _ _ _ D1 D2 H1 V1 V3). destruct (ST _ _ _ D1 D2 H2 V2 V4). auto.
  - destruct f0_zero as [Z1 Z2]. rewrite Z1, Z2, Rabs_R0. repeat split; lra.
Qed.

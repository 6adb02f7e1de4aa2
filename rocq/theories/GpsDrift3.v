(** * Proofs: a lasting speed error at rest is detected (C12) *)
From Coq Require Import Lra Psatz.
From Verif Require Import CBase F32 F32More F32Err InterfaceModel GpsModel GpsDrift GpsDrift2.
Open Scope R_scope.

(** consecutive messages 1 ms to 10 s apart, the first relative to [t] *)
Fixpoint gaps (t : Z) (ms : list gps_msg) : Prop :=
  match ms with [] => True | m :: r => (1000 <= g_now m - t <= 10000000)%Z /\ gaps (g_now m) r end.
Definition last_now (t : Z) (ms : list gps_msg) : Z := fold_left (fun _ m => g_now m) ms t.
Lemma gaps_last : forall ms t, gaps t ms -> (t <= last_now t ms)%Z.
Proof. induction ms as [|m r IH]; intros t H; cbn [last_now fold_left]; [lia|]. cbn [gaps] in H. specialize (IH (g_now m) (proj2 H)). unfold last_now in *. lia. Qed.
Lemma exp_mul16 x : exp (16 * x) = exp x ^ 16.
Proof.
  replace (16 * x) with (((x + x) + (x + x)) + ((x + x) + (x + x)) + (((x + x) + (x + x)) + ((x + x) + (x + x)))) by ring.
  rewrite !exp_plus. ring.
Qed.
Lemma exp_16 : 15 <= exp (29999 / 10000).
Proof.
  replace (29999 / 10000) with (16 * (29999 / 160000)) by lra. rewrite exp_mul16.
  pose proof (exp_ineq1_le (29999 / 160000)) as H. assert (A : 11874 / 10000 <= exp (29999 / 160000)) by lra. set (e := exp _) in *. clearbody e.
  assert (B : 14099 / 10000 <= e * e) by nra. assert (C : 19878 / 10000 <= (e * e) * (e * e)) by (set (q := e * e) in *; clearbody q; nra).
  assert (D : 39513 / 10000 <= (e * e) * (e * e) * ((e * e) * (e * e))) by (set (q := (e * e) * (e * e)) in *; clearbody q; nra).
  assert (F : 15 <= (e * e) * (e * e) * ((e * e) * (e * e)) * ((e * e) * (e * e) * ((e * e) * (e * e)))) by (set (q := (e * e) * (e * e) * ((e * e) * (e * e))) in *; clearbody q; nra).
  replace (e ^ 16) with ((e * e) * (e * e) * ((e * e) * (e * e)) * ((e * e) * (e * e) * ((e * e) * (e * e)))) by ring. exact F.
Qed.
Section Det.
Variable p : gps_params.
Let l := gp_hdrift p.
Hypothesis Fl : is_finite l = true.
Hypothesis L : / 1000000 <= R32 l <= 1000.
Definition drifting (m : gps_msg) : Prop := g_in_air m = false /\ g_at_rest m = true /\ is_finite (g_vn m) = true /\ is_finite (g_ve m) = true /\ 2 * R32 (gp_hdrift p) <= R32 (g_vn m).
Lemma drift_step dt v old : is_finite dt = true -> 999 / 1000000 <= R32 dt <= 10 -> is_finite v = true -> 2 * R32 l <= R32 v -> is_finite old = true -> Rabs (R32 old) <= 11 * R32 l ->
  2 * R32 l - R32 (lp (gps_coef dt) (lim10 v l) old) - 12 / 100 * R32 l <= (1 - R32 dt / 10) * (2 * R32 l - R32 old - 12 / 100 * R32 l).
Proof.
  intros F D Fv V Fo O. destruct (metric_near dt v l old (11 * R32 l) F D Fv Fl L Fo) as [_ N]; [lra|lra|lra|].
  assert (C : 2 * R32 l <= clampR (10 * R32 l) (R32 v)) by (unfold clampR, Rmax, Rmin; repeat destruct Rle_dec; lra).
  set (c := clampR _ _) in *. set (y := R32 (lp _ _ _)) in *. apply Rabs_le_inv in N. set (al := R32 dt / 10) in *. assert (Ha : 999 / 10000000 <= al <= 1) by (unfold al; lra).
  assert (al * (2 * R32 l) <= al * c) by (apply Rmult_le_compat_l; lra). assert (al * R32 l >= 999 / 10000000 * R32 l) by (apply Rle_ge, Rmult_le_compat_r; lra). lra.
Qed.
Lemma drift_decay : forall ms s, Vel (11 * R32 l) s -> (0 <= gs_prev_time s)%Z -> (last_now (gs_prev_time s) ms < 2 ^ 63)%Z -> gaps (gs_prev_time s) ms -> Forall drifting ms ->
  forall K a, 2 * R32 l - R32 (gs_vn s) - 12 / 100 * R32 l <= K * exp (- a) -> 0 <= K ->
  2 * R32 l - R32 (gs_vn (gps_run p ms s)) - 12 / 100 * R32 l <= K * exp (- (a + IZR (last_now (gs_prev_time s) ms - gs_prev_time s) / 10000000 * (1 - / 5000000))).
Proof.
  induction ms as [|m ms IH]; intros s V T0 TB G H K a Y HK.
  - cbn [last_now fold_left gps_run]. rewrite Z.sub_diag. replace (a + 0 / 10000000 * (1 - / 5000000)) with a by lra. exact Y.
  - inversion H as [|m' ms' Hm Hms]; subst m' ms'. destruct Hm as (A & B & F1 & F2 & D). cbn [gaps] in G. destruct G as [G1 G2]. cbn [gps_run].
    destruct (vel_fields p m s) as (E1 & E2 & _ & E4). cbv zeta in *. rewrite A, B in *. cbn [negb andb] in *.
    assert (W : Vel (11 * R32 l) (snd (gps_is_good p m s))) by (apply (vel_bounded p Fl L [m] s V); constructor; [auto|constructor]).
    pose proof (gps_dt_range (g_now m) (gs_prev_time s)) as [D1 D2].
    assert (LN : (g_now m <= last_now (g_now m) ms)%Z) by (apply gaps_last; exact G2). change (last_now (gs_prev_time s) (m :: ms)) with (last_now (g_now m) ms) in *.
    pose proof (gps_dt_value (g_now m) (gs_prev_time s) T0) as DV. assert (DV' := DV ltac:(lia) G1). clear DV.
    destruct V as (V1 & _ & V3 & _). pose proof (drift_step _ (g_vn m) (gs_vn s) D1 D2 F1 D V1 V3) as ST. fold l in E1. rewrite <- E1 in ST.
    set (s' := snd (gps_is_good p m s)) in *. clearbody s'.
    set (d := R32 (gps_dt (g_now m) (gs_prev_time s))) in *. rewrite <- E4 in *. set (t' := gs_prev_time s') in *. set (t := gs_prev_time s) in *.
    assert (Y' : 2 * R32 l - R32 (gs_vn s') - 12 / 100 * R32 l <= K * exp (- (a + IZR (t' - t) / 10000000 * (1 - / 5000000)))).
    { eapply Rle_trans; [exact ST|]. eapply Rle_trans; [apply Rmult_le_compat_l; [lra|exact Y]|].
      replace (- (a + IZR (t' - t) / 10000000 * (1 - / 5000000))) with (- a + - (IZR (t' - t) / 10000000 * (1 - / 5000000))) by ring. rewrite exp_plus, (Rmult_comm (1 - d / 10) (K * exp (- a))), <- (Rmult_assoc K).
      apply Rmult_le_compat_l; [apply Rmult_le_pos; [exact HK|left; apply exp_pos]|].
      apply Rabs_le_inv in DV'. eapply Rle_trans; [|apply exp_ineq1_le]. lra. }
    specialize (IH s' W ltac:(lia) TB G2 Hms K (a + IZR (t' - t) / 10000000 * (1 - / 5000000)) Y' HK). fold t' in IH.
    eapply Rle_trans; [exact IH|]. apply Req_le. f_equal. f_equal. f_equal. rewrite !minus_IZR. field.
Qed.
Lemma drift_detected : forall ms m s, Vel (11 * R32 l) s -> (0 <= gs_prev_time s)%Z -> (g_now m < 2 ^ 63)%Z -> gaps (gs_prev_time s) (ms ++ [m]) -> Forall drifting (ms ++ [m]) ->
  (30000000 <= g_now m - gs_prev_time s)%Z -> ff_hspeed (gs_flags (gps_run p (ms ++ [m]) s)) = true.
Proof.
  intros ms m s V T0 TB G H N. assert (LN : last_now (gs_prev_time s) (ms ++ [m]) = g_now m) by (unfold last_now; rewrite fold_left_app; reflexivity).
  assert (K : 2 * R32 l - R32 (gs_vn s) - 12 / 100 * R32 l <= 13 * R32 l * exp (- 0)).
  { rewrite Ropp_0, exp_0. destruct V as (_ & _ & V & _). apply Rabs_le_inv in V. lra. }
  pose proof (drift_decay (ms ++ [m]) s V T0 ltac:(rewrite LN; exact TB) G H (13 * R32 l) 0 K ltac:(lra)) as Q. rewrite LN in Q.
  assert (TT : 29999 / 10000 <= IZR (g_now m - gs_prev_time s) / 10000000 * (1 - / 5000000)) by (assert (30000000 <= IZR (g_now m - gs_prev_time s)) by (apply IZR_le; lia); lra).
  assert (EX : exp (- (0 + IZR (g_now m - gs_prev_time s) / 10000000 * (1 - / 5000000))) <= / 15).
  { rewrite exp_Ropp. apply Rinv_le_contravar; [lra|]. eapply Rle_trans; [exact exp_16|]. destruct (Rle_lt_or_eq_dec _ _ TT) as [LT|EQ]; [left; apply exp_increasing; lra|rewrite Rplus_0_l, <- EQ; lra]. }
  assert (X : 1001 / 1000 * R32 l <= R32 (gs_vn (gps_run p (ms ++ [m]) s))).
  { assert (13 * R32 l * exp (- (0 + IZR (g_now m - gs_prev_time s) / 10000000 * (1 - / 5000000))) <= 13 * R32 l * / 15) by (apply Rmult_le_compat_l; lra). lra. }
  assert (W : Vel (11 * R32 l) (gps_run p (ms ++ [m]) s)) by (apply vel_bounded; [exact Fl|exact L|exact V|eapply Forall_impl; [|exact H]; intros q (_ & _ & A & B & _); auto]).
  assert (Hm : drifting m) by (rewrite Forall_forall in H; apply H; apply in_or_app; right; left; reflexivity). destruct Hm as (A & B & _).
  destruct W as (W1 & W2 & W3 & W4).
  assert (RA : forall a b, gps_run p (a ++ b) s = gps_run p b (gps_run p a s)). { clear. intros a. revert s. induction a as [|x a IH]; intros s b; [reflexivity|]. cbn [app gps_run]. apply IH. }
  rewrite RA in *. cbn [gps_run] in *. destruct (vel_fields p m (gps_run p ms s)) as (_ & _ & E3 & _). cbv zeta in E3. rewrite E3, A, B. cbn [negb andb].
  apply norm_above; try assumption; [fold l; lra|fold l; lra|]. eapply Rle_trans; [exact X|apply Rle_abs].
Qed.
End Det.

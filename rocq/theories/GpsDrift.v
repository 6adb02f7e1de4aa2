(** * Proofs: the GPS drift filters in real terms (C12) *)
From Coq Require Import Lra Psatz.
From Verif Require Import CBase F32 F32More F32Err InterfaceModel GpsModel.
Open Scope R_scope.

Definition clampR (b x : R) : R := Rmax (- b) (Rmin b x).
Lemma clampR_bound b x : 0 <= b -> Rabs (clampR b x) <= b.
Proof. intros. apply Rabs_le. unfold clampR, Rmax, Rmin. repeat destruct Rle_dec; lra. Qed.
Lemma clampR_id b x : Rabs x <= b -> clampR b x = x.
Proof. intros H. apply Rabs_le_inv in H. unfold clampR. rewrite Rmin_right, Rmax_right by lra. reflexivity. Qed.
Lemma clampR_lip b b' x y : 0 <= b -> 0 <= b' -> Rabs (clampR b x - clampR b' y) <= Rabs (b - b') + Rabs (x - y).
Proof.
  intros. unfold clampR, Rmax, Rmin, Rabs. repeat destruct Rle_dec; repeat destruct Rcase_abs; lra.
Qed.

(** the time step *)
Lemma lit_near n d : (- 2 ^ 24 <= n <= 2 ^ 24)%Z -> (1 <= d <= 2 ^ 24)%Z -> near (flit n d) (IZR n / IZR d) (Rabs (IZR n / IZR d) * ulp1 + tiny).
Proof.
  intros A B. destruct (flit_R n d A B) as [E F]. split; [exact F|]. rewrite E. pose proof (rnd32_error (IZR n / IZR d)) as H. rewrite two24 in H. pose proof small150. unfold ulp1, tiny. lra.
Qed.
Lemma s64_range n : (- 2 ^ 63 <= s64 n < 2 ^ 63)%Z.
Proof. unfold s64, u64, two64. pose proof (Z.mod_pos_bound n (2 ^ 64) eq_refl). cbv zeta. destruct (Z.ltb_spec (n mod 2 ^ 64) (2 ^ 63)); lia. Qed.
Lemma lo_near : near (flit 1 1000) (1 / 1000) (/ 1000000000).
Proof. eapply near_weaken; [apply lit_near; lia|]. rewrite Rabs_pos_eq by lra. unfold ulp1, tiny. lra. Qed.
Lemma gps_dt_range now prev : is_finite (gps_dt now prev) = true /\ 999 / 1000000 <= R32 (gps_dt now prev) <= 10.
Proof.
  unfold gps_dt. pose proof (s64_range (now - prev)) as S. destruct (f_of_Z_range (s64 (now - prev))) as [E F]; [lia|].
  destruct lo_near as [L1 L2]. pose proof (near_val _ _ _ lo_near) as LV. destruct (f_of_Z_exact 10) as [T1 T2]; [lia|].
  assert (M : is_finite (fmul (f_of_Z (s64 (now - prev))) (flit 1 1000000)) = true).
  { assert (L6 : near (flit 1 1000000) (1 / 1000000) (/ 1000000000)) by (eapply near_weaken; [apply lit_near; lia|]; rewrite Rabs_pos_eq by lra; unfold ulp1, tiny; lra).
    pose proof (near_val _ _ _ L6) as V6. apply fmul_R; [exact F|exact (proj1 L6)|]. rewrite E.
    assert (B : Rabs (rnd32 (IZR (s64 (now - prev)))) <= 20000000000000000000).
    { assert (A : Rabs (IZR (s64 (now - prev))) <= 9223372036854775808) by (rewrite <- abs_IZR; apply IZR_le; lia).
      pose proof (rnd32_error (IZR (s64 (now - prev)))) as Q. rewrite two24 in Q. pose proof small150.
      pose proof (Rabs_triang_inv (rnd32 (IZR (s64 (now - prev)))) (IZR (s64 (now - prev)))) as T. lra. }
    rewrite Rabs_mult, (Rabs_pos_eq (R32 (flit 1 1000000))) by lra. pose proof big127. pose proof (Rabs_pos (rnd32 (IZR (s64 (now - prev))))). nra. }
  destruct (constrain_R (fmul (f_of_Z (s64 (now - prev))) (flit 1 1000000)) (flit 1 1000) (f_of_Z 10) M L1 T2) as [C1 C2]; [rewrite T1; lra|].
  split; [exact C2|]. rewrite C1, T1. split.
  - eapply Rle_trans; [|apply Rmax_l]. lra.
  - apply Rmax_lub; [lra|apply Rmin_l].
Qed.
(** for gaps from 1 ms to 10 s it is the gap in seconds up to 2e-7 of it *)
Lemma gps_dt_value now prev : (0 <= prev)%Z -> (now < 2 ^ 63)%Z -> (1000 <= now - prev <= 10000000)%Z ->
  Rabs (R32 (gps_dt now prev) - IZR (now - prev) / 1000000) <= IZR (now - prev) / 1000000 / 5000000.
Proof.
  intros A B C. unfold gps_dt. assert (E : s64 (now - prev) = (now - prev)%Z).
  { unfold s64, u64, two64. rewrite Z.mod_small by lia. cbv zeta. destruct (Z.ltb_spec (now - prev) (2 ^ 63)); lia. }
  rewrite E. set (n := (now - prev)%Z) in *. clearbody n. assert (L : 1000 <= IZR n <= 10000000) by (split; apply IZR_le; lia).
  destruct (f_of_Z_exact n) as [V F]; [lia|].
  assert (L6 : near (flit 1 1000000) (1 / 1000000) (/ 1000000 * ulp1 + tiny)).
  { eapply near_weaken; [apply lit_near; lia|]. rewrite Rabs_pos_eq by lra. unfold ulp1, tiny. lra. }
  assert (P : near (fmul (f_of_Z n) (flit 1 1000000)) (IZR n * (1 / 1000000)) (IZR n / 1000000 * (24 / 10 * ulp1))).
  { eapply (near_mul _ _ _ _ 0 _ (IZR n * (/ 1000000 * ulp1 + tiny)) (IZR n / 1000000 * (11 / 10))).
    - rewrite <- V. apply near_exact. exact F.
    - exact L6.
    - rewrite (Rabs_pos_eq (IZR n)) by lra. unfold ulp1, tiny. lra.
    - rewrite Rabs_pos_eq by lra. unfold ulp1, tiny. lra.
    - unfold huge. lra.
    - unfold ulp1, tiny. lra. }
  destruct lo_near as [L1 L2]. pose proof (near_val _ _ _ lo_near) as LV. destruct (f_of_Z_exact 10) as [T1 T2]; [lia|].
  destruct (constrain_R (fmul (f_of_Z n) (flit 1 1000000)) (flit 1 1000) (f_of_Z 10) (proj1 P) L1 T2) as [C1 _]; [rewrite T1; lra|].
  rewrite C1, T1. apply near_val in P. unfold ulp1 in P.
  assert (LV' : Rabs (R32 (flit 1 1000) - 1 / 1000) <= 1 / 1000 * (11 / 10 * ulp1)).
  { eapply Rle_trans; [apply (lit_near 1 1000); lia|]. rewrite Rabs_pos_eq by lra. unfold ulp1, tiny. lra. }
  apply Rabs_le_inv in LV'. unfold ulp1 in LV'. apply Rabs_le.
  set (x := R32 (fmul (f_of_Z n) (flit 1 1000000))) in *. clearbody x. unfold Rmax, Rmin. repeat destruct Rle_dec; lra.
Qed.

(** one low-pass step *)
Lemma lp_near dt new old B : is_finite dt = true -> 999 / 1000000 <= R32 dt <= 10 -> is_finite new = true -> is_finite old = true ->
  Rabs (R32 new) <= B -> Rabs (R32 old) <= B -> / 1000000 <= B <= 100000 ->
  near (lp (gps_coef dt) new old) (R32 dt / 10 * R32 new + (1 - R32 dt / 10) * R32 old) (B * (8 * ulp1)).
Proof.
  intros F D Fn Fo Hn Ho HB. unfold lp, gps_coef. destruct (f_of_Z_exact 10) as [T1 T2]; [lia|].
  assert (U : 0 < ulp1 <= / 10000000) by (unfold ulp1; lra). assert (TI : 0 < tiny <= / 100000000000 * ulp1) by (unfold tiny, ulp1; lra).
  set (a := R32 dt / 10). assert (Ha : 999 / 10000000 <= a <= 1) by (unfold a; lra).
  assert (C : near (fdiv dt (f_of_Z 10)) a (101 / 100 * ulp1)).
  { unfold a. eapply (near_div _ _ _ _ 0 0 0 1).
    - apply near_exact; exact F.
    - rewrite <- T1. apply near_exact. exact T2.
    - rewrite Rabs_pos_eq; lra.
    - lra.
    - rewrite Rabs_pos_eq by lra. unfold a in Ha. lra.
    - unfold huge; lra.
    - lra. }
  destruct (f_of_Z_exact 1) as [O1 O2]; [lia|].
  assert (C1 : near (fsub f1 (fdiv dt (f_of_Z 10))) (1 - a) (21 / 10 * ulp1)).
  { eapply (near_sub _ _ _ _ 0 _ (101 / 100)).
    - rewrite <- O1. apply near_exact. exact O2.
    - exact C.
    - rewrite Rabs_pos_eq by lra. lra.
    - unfold huge. lra.
    - lra. }
  assert (N1 : near (fmul new (fdiv dt (f_of_Z 10))) (R32 new * a) (B * (23 / 10 * ulp1))).
  { eapply (near_mul _ _ _ _ 0 _ (B * (101 / 100 * ulp1)) (B * (101 / 100))); [apply near_exact; exact Fn|exact C| | | |].
    - assert (Rabs (R32 new) * (101 / 100 * ulp1) <= B * (101 / 100 * ulp1)) by (apply Rmult_le_compat_r; lra). lra.
    - rewrite Rabs_mult, (Rabs_pos_eq a) by lra. pose proof (Rabs_pos (R32 new)). nra.
    - unfold huge; lra.
    - nra. }
  assert (N2 : near (fmul old (fsub f1 (fdiv dt (f_of_Z 10)))) (R32 old * (1 - a)) (B * (34 / 10 * ulp1))).
  { eapply (near_mul _ _ _ _ 0 _ (B * (21 / 10 * ulp1)) (B * (101 / 100))); [apply near_exact; exact Fo|exact C1| | | |].
    - assert (Rabs (R32 old) * (21 / 10 * ulp1) <= B * (21 / 10 * ulp1)) by (apply Rmult_le_compat_r; lra). lra.
    - rewrite Rabs_mult, (Rabs_pos_eq (1 - a)) by lra. pose proof (Rabs_pos (R32 old)). nra.
    - unfold huge; lra.
    - nra. }
  replace (a * R32 new + (1 - a) * R32 old) with (R32 new * a + R32 old * (1 - a)) by ring.
  eapply (near_add _ _ _ _ _ _ (B * (101 / 100))); [exact N1|exact N2| | |].
  - assert (Rabs (R32 new * a + R32 old * (1 - a)) <= B).
    { eapply Rle_trans; [apply Rabs_triang|]. rewrite !Rabs_mult, (Rabs_pos_eq a), (Rabs_pos_eq (1 - a)) by lra. pose proof (Rabs_pos (R32 old)). pose proof (Rabs_pos (R32 new)). nra. }
    nra.
  - unfold huge; lra.
  - nra.
Qed.
Lemma lim10_near v l : is_finite v = true -> is_finite l = true -> / 1000000 <= R32 l <= 1000 ->
  near (lim10 v l) (clampR (10 * R32 l) (R32 v)) (10 * R32 l * (11 / 10 * ulp1)).
Proof.
  intros Fv Fl L. unfold lim10. destruct (f_of_Z_exact 10) as [T1 T2]; [lia|]. destruct (fneg_R (f_of_Z 10)) as [G1 G2]. rewrite T1 in G1. rewrite T2 in G2.
  assert (U : 0 < ulp1 <= / 10000000) by (unfold ulp1; lra). assert (TI : 0 < tiny <= / 100000000 * ulp1) by (unfold tiny, ulp1; lra).
  assert (H : near (fmul (f_of_Z 10) l) (10 * R32 l) (10 * R32 l * (11 / 10 * ulp1))).
  { eapply (near_mul _ _ _ _ 0 0 0 (10 * R32 l)); [rewrite <- T1; apply near_exact; exact T2|apply near_exact; exact Fl|lra| | |].
    - rewrite Rabs_pos_eq by lra. lra.
    - unfold huge; lra.
    - nra. }
  assert (H2 : near (fmul (fneg (f_of_Z 10)) l) (-10 * R32 l) (10 * R32 l * (11 / 10 * ulp1))).
  { eapply (near_mul _ _ _ _ 0 0 0 (10 * R32 l)); [replace (-10) with (- (10)) by lra; rewrite <- G1; apply near_exact; exact G2|apply near_exact; exact Fl|lra| | |].
    - rewrite Rabs_left by lra. lra.
    - unfold huge; lra.
    - nra. }
  pose proof (near_val _ _ _ H) as V. pose proof (near_val _ _ _ H2) as V2. assert (W : 10 * R32 l * (11 / 10 * ulp1) <= R32 l) by nra.
  destruct (constrain_R v (fmul (fneg (f_of_Z 10)) l) (fmul (f_of_Z 10) l) Fv (proj1 H2) (proj1 H)) as [E F]; [lra|].
  split; [exact F|]. rewrite E. unfold clampR. apply Rabs_le. unfold Rmax, Rmin. repeat destruct Rle_dec; lra.
Qed.
(** filter of a limited quantity, as used for all metrics: [x] limited to ten times the limit, time constant 10 s *)
Lemma metric_near dt v l old B : is_finite dt = true -> 999 / 1000000 <= R32 dt <= 10 -> is_finite v = true -> is_finite l = true -> / 1000000 <= R32 l <= 1000 ->
  is_finite old = true -> Rabs (R32 old) <= B -> 10 * R32 l <= B -> B <= 90000 ->
  near (lp (gps_coef dt) (lim10 v l) old) (R32 dt / 10 * clampR (10 * R32 l) (R32 v) + (1 - R32 dt / 10) * R32 old) (B * / 1000000).
Proof.
  intros F D Fv Fl L Fo Ho HB HB2. destruct (lim10_near v l Fv Fl L) as [N1 N2].
  assert (U : 0 < ulp1 <= / 10000000) by (unfold ulp1; lra).
  assert (CB : Rabs (R32 (lim10 v l)) <= B * (101 / 100)).
  { pose proof (clampR_bound (10 * R32 l) (R32 v)) as K. pose proof (Rabs_triang_inv (R32 (lim10 v l)) (clampR (10 * R32 l) (R32 v))). assert (Rabs (clampR (10 * R32 l) (R32 v)) <= 10 * R32 l) by (apply K; lra). nra. }
  destruct (lp_near dt (lim10 v l) old (B * (101 / 100)) F D N1 Fo CB) as [Q1 Q2]; [lra|lra|].
  split; [exact Q1|]. set (y := R32 (lp (gps_coef dt) (lim10 v l) old)) in *. set (z := R32 (lim10 v l)) in *. set (c := clampR (10 * R32 l) (R32 v)) in *.
  replace (y - (R32 dt / 10 * c + (1 - R32 dt / 10) * R32 old)) with ((y - (R32 dt / 10 * z + (1 - R32 dt / 10) * R32 old)) + R32 dt / 10 * (z - c)) by ring.
  eapply Rle_trans; [apply Rabs_triang|]. rewrite (Rabs_mult (R32 dt / 10)), (Rabs_pos_eq (R32 dt / 10)) by lra.
  assert (R32 dt / 10 * Rabs (z - c) <= 1 * (10 * R32 l * (11 / 10 * ulp1))) by (apply Rmult_le_compat; [lra|apply Rabs_pos|lra|exact N2]).
  assert (10 * R32 l * (11 / 10 * ulp1) <= B * (11 / 10 * ulp1)) by (apply Rmult_le_compat_r; lra).
  assert (B * (8 * ulp1 * (101 / 100) + 11 / 10 * ulp1) <= B * / 1000000) by (apply Rmult_le_compat_l; [lra|unfold ulp1; lra]). lra.
Qed.

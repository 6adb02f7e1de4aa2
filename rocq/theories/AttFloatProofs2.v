(** * Attitude at start-up in single precision: proofs *)
From Coq Require Import Reals Lra Psatz.
From Flocq Require Import Relative.
From Verif Require Import CBase Scalar RealGeom RotModel RotProofs F32 F32More F32Err OutputModel NanModel NanProofs AttFloatModel AttFloatProofs.
Open Scope R_scope.

(** ** Sums of squares: overflow gives infinity, never NaN *)
Definition pos (a : f32) : Prop := a = finf \/ (is_finite a = true /\ Bsign a = false).
Lemma sq_pos (a : f32) : is_finite a = true -> fmul a a = finf \/ (is_finite (fmul a a) = true /\ Bsign (fmul a a) = false /\ R32 (fmul a a) = rnd32 (R32 a * R32 a)).
Proof.
  intros F. pose proof (Bmult_correct 24 128 prec24 prec_emax mode_NE a a) as H. change (Bmult mode_NE a a) with (fmul a a) in H.
  destruct (Rlt_bool _ _) in H.
  - destruct H as (H1 & H2 & H3). right. rewrite F in H2. split; [exact H2|]. split; [|exact H1]. rewrite H3; [destruct (Bsign a); reflexivity|]. destruct (fmul a a); try reflexivity; discriminate.
  - left. apply B2SF_inj. rewrite H. rewrite Bool.xorb_nilpotent. reflexivity.
Qed.
Lemma sign_ge0 (a : f32) : is_finite a = true -> Bsign a = false -> 0 <= R32 a.
Proof.
  intros F S. destruct a as [s|s| |s m e H]; try discriminate; cbn in *; [lra|]. subst s. apply F2R_ge_0. cbn. lia.
Qed.
Lemma add_pos (a b : f32) : pos a -> pos b -> fadd a b = finf \/ (is_finite a = true /\ is_finite b = true /\ is_finite (fadd a b) = true /\ Bsign (fadd a b) = false /\ R32 (fadd a b) = rnd32 (R32 a + R32 b)).
Proof.
  intros [->|[Fa Sa]] Hb.
  - left. destruct Hb as [->|[Fb Sb]]; [reflexivity|]. destruct b as [s|s| |s m e H]; try discriminate; reflexivity.
  - destruct Hb as [->|[Fb Sb]]; [left; destruct a as [s|s| |s m e H]; try discriminate; reflexivity|].
    pose proof (Bplus_correct 24 128 prec24 prec_emax mode_NE a b Fa Fb) as H. change (Bplus mode_NE a b) with (fadd a b) in H.
    destruct (Rlt_bool _ _) in H.
    + destruct H as (H1 & H2 & H3). right. split; [exact Fa|]. split; [exact Fb|]. split; [exact H2|]. split; [|exact H1].
      rewrite H3, Sa, Sb. pose proof (sign_ge0 a Fa Sa). pose proof (sign_ge0 b Fb Sb). destruct (Rcompare_spec (R32 a + R32 b) 0); [lra|reflexivity|reflexivity].
    + left. destruct H as [H _]. apply B2SF_inj. rewrite H, Sa. reflexivity.
Qed.
Lemma nrm3_cases (v : Vec f32) : (forall k, (k < 3)%nat -> is_finite (v k) = true) -> let x := R32 (v 0%nat) in let y := R32 (v 1%nat) in let z := R32 (v 2%nat) in
  nrm3 v = finf \/ (is_finite (nrm3 v) = true /\ R32 (nrm3 v) = rnd32 (sqrt (rnd32 (rnd32 (rnd32 (x * x) + rnd32 (y * y)) + rnd32 (z * z))))).
Proof.
  intros F. cbv zeta. unfold nrm3. fsc. change (@szero f32 FScalar) with (flit 0 1).
  assert (Z0 : is_finite (flit 0 1) = true /\ Bsign (flit 0 1) = false /\ R32 (flit 0 1) = 0).
  { split; [vm_compute; reflexivity|]. split; [vm_compute; reflexivity|]. destruct (flit_R 0 1 ltac:(lia) ltac:(lia)) as [E _]. rewrite E. replace (IZR 0 / IZR 1) with 0 by (unfold Rdiv; ring). apply round_0. apply valid_rnd_N. }
  destruct Z0 as (ZF & ZS & ZR).
  assert (P : forall k, (k < 3)%nat -> pos (fmul (v k) (v k))) by (intros k Hk; destruct (sq_pos (v k) (F k Hk)) as [E|(A & B & _)]; [left; exact E|right; split; assumption]).
  assert (INF : forall b, pos b -> fadd finf b = finf) by (intros b [->|[Fb Sb]]; [reflexivity|]; destruct b as [s|s| |s m e H]; try discriminate; reflexivity).
  set (a0 := fadd (flit 0 1) (fmul (v 0%nat) (v 0%nat))). set (a1 := fadd a0 (fmul (v 1%nat) (v 1%nat))). set (a2 := fadd a1 (fmul (v 2%nat) (v 2%nat))).
  assert (SI : fsqrt finf = finf) by reflexivity.
  destruct (add_pos (flit 0 1) (fmul (v 0%nat) (v 0%nat)) (or_intror (conj ZF ZS)) (P 0%nat ltac:(lia))) as [E|(_ & G0 & F0 & S0 & E0)].
  { left. unfold a2, a1, a0. rewrite E, INF, INF by (apply P; lia). exact SI. }
  fold a0 in F0, S0, E0.
  destruct (add_pos a0 (fmul (v 1%nat) (v 1%nat)) (or_intror (conj F0 S0)) (P 1%nat ltac:(lia))) as [E|(_ & G1 & F1 & S1 & E1)].
  { left. unfold a2, a1. rewrite E, INF by (apply P; lia). exact SI. }
  fold a1 in F1, S1, E1.
  destruct (add_pos a1 (fmul (v 2%nat) (v 2%nat)) (or_intror (conj F1 S1)) (P 2%nat ltac:(lia))) as [E|(_ & G2 & F2 & S2 & E2)].
  { left. unfold a2. rewrite E. exact SI. }
  fold a2 in F2, S2, E2.
  right. destruct (fsqrt_R a2 F2 (sign_ge0 a2 F2 S2)) as [V W]. split; [exact W|]. rewrite V, E2, E1, E0, ZR, Rplus_0_l.
  assert (SQ : forall k, (k < 3)%nat -> is_finite (fmul (v k) (v k)) = true -> R32 (fmul (v k) (v k)) = rnd32 (R32 (v k) * R32 (v k))).
  { intros k Hk FF. destruct (sq_pos (v k) (F k Hk)) as [E|(_ & _ & E)]; [rewrite E in FF; discriminate|exact E]. }
  rewrite !SQ by (assumption || lia). rewrite (round_generic radix2 _ _ (rnd32 (R32 (v 0%nat) * R32 (v 0%nat)))) by (apply generic_format_round; [apply (fexp_correct 24 128 prec24)|apply valid_rnd_N]). reflexivity.
Qed.

(** ** The square root of a rounded square is not below the number *)
Lemma sqrt_sq_ge (x : f32) : 1 <= Rabs (R32 x) -> Rabs (R32 x) <= rnd32 (sqrt (rnd32 (R32 x * R32 x))).
Proof.
  intros H. set (a := Rabs (R32 x)) in *. replace (R32 x * R32 x) with (a * a) by (unfold a; rewrite <- Rabs_mult; apply Rabs_right, Rle_ge, Rle_0_sqr).
  assert (FA : generic_format radix2 (SpecFloat.fexp 24 128) a) by (apply generic_format_abs, generic_format_B2R). clearbody a. clear x.
  set (mg := mag radix2 a : Z). assert (BM : bpow radix2 (mg - 1) <= a < bpow radix2 mg).
  { unfold mg. pose proof (bpow_mag_le radix2 a ltac:(lra)) as X1. pose proof (bpow_mag_gt radix2 a) as X2. rewrite (Rabs_right a) in X1, X2 by lra. split; assumption. }
  assert (M1 : (1 <= mg)%Z). { unfold mg. apply mag_ge_bpow. cbn. rewrite Rabs_right by lra. exact H. }
  set (E := (mg - 24)%Z). set (b := bpow radix2 E). assert (b0 : 0 < b) by apply bpow_gt_0.
  assert (CE : cexp radix2 (SpecFloat.fexp 24 128) a = E). { unfold cexp. fold mg. rewrite fexp32. unfold FLT_exp, E. lia. }
  set (m := Ztrunc (scaled_mantissa radix2 (SpecFloat.fexp 24 128) a)).
  assert (AM : a = IZR m * b). { rewrite FA at 1. unfold F2R, b. cbn [Fnum Fexp]. rewrite CE. reflexivity. }
  assert (BL : bpow radix2 (mg - 1) = 8388608 * b). { replace (mg - 1)%Z with (23 + E)%Z by (unfold E; lia). rewrite bpow_plus. reflexivity. }
  assert (ML : (8388608 <= m)%Z). { apply le_IZR. apply (Rmult_le_reg_r b); [exact b0|]. lra. }
  destruct (Z.eq_dec m 8388608) as [EM|NM].
  - (* a power of two *)
    assert (AP : a = bpow radix2 (mg - 1)) by (rewrite BL, AM, EM; reflexivity).
    assert (RS : rnd32 (a * a) = a * a).
    { apply round_generic; [apply valid_rnd_N|]. rewrite AP, <- bpow_plus. apply generic_format_bpow. rewrite fexp32. unfold FLT_exp. lia. }
    rewrite RS, sqrt_square by lra. rewrite round_generic; [lra|apply valid_rnd_N|exact FA].
  - assert (M9 : 8388609 <= IZR m) by (apply IZR_le; lia).
    assert (PR : pred radix2 (SpecFloat.fexp 24 128) a = a - b).
    { rewrite pred_eq_pos by lra. unfold pred_pos. fold mg. rewrite Req_bool_false by (rewrite BL, AM; intros Q; apply Rmult_eq_reg_r in Q; [lra|lra]).
      rewrite ulp_neq_0 by lra. rewrite CE. reflexivity. }
    assert (HALF : Rabs (rnd32 (a * a) - a * a) <= 8388608 * (b * b)).
    { pose proof (error_le_half_ulp radix2 (SpecFloat.fexp 24 128) (fun x => negb (Z.even x)) (a * a)) as X. 
      assert (NZ : a * a <> 0) by nra. rewrite ulp_neq_0 in X by exact NZ. eapply Rle_trans; [exact X|].
      assert (CX : (cexp radix2 (SpecFloat.fexp 24 128) (a * a) <= 2 * E + 24)%Z).
      { unfold cexp. rewrite fexp32. unfold FLT_exp. assert (mag radix2 (a * a) <= 2 * mg)%Z; [|unfold E; lia].
        apply mag_le_bpow; [exact NZ|]. rewrite Rabs_right by nra. replace (2 * mg)%Z with (mg + mg)%Z by lia. rewrite bpow_plus. assert (0 < bpow radix2 mg) by apply bpow_gt_0. nra. }
      apply (bpow_le radix2) in CX. replace (2 * E + 24)%Z with (24 + (E + E))%Z in CX by lia. rewrite !bpow_plus in CX. change (bpow radix2 24) with 16777216 in CX. fold b in CX. lra. }
    apply Rabs_le_inv in HALF.
    apply round_N_ge_midp; [apply (fexp_correct 24 128 prec24)|exact FA|]. rewrite PR.
    apply Rsqr_incrst_0; [|nra|apply sqrt_pos]. rewrite Rsqr_sqrt by nra. unfold Rsqr. nra.
Qed.
Lemma rnd_le1 v : v < 1 + / 16777216 -> rnd32 v <= 1.
Proof.
  intros H. apply round_N_le_midp; [apply (fexp_correct 24 128 prec24)| |].
  - apply generic_format_FLT. exists (Float radix2 1 0); [unfold F2R; cbn; lra|cbn; lia|cbn; lia].
  - rewrite succ_eq_pos by lra. rewrite ulp_neq_0 by lra. unfold cexp. rewrite fexp32. unfold FLT_exp.
    replace (mag radix2 1 : Z) with 1%Z. 2:{ symmetry. apply mag_unique. rewrite Rabs_right by lra. cbn. lra. }
    change (Z.max (1 - 24) (-149)) with (-23)%Z. change (bpow radix2 (-23)) with (/ 8388608). lra.
Qed.
Lemma inv_strict n : 1 <= n <= 1000000 -> rnd32 (1 / n) * n < 1 + / 16777216 /\ 0 <= rnd32 (1 / n).
Proof.
  intros H. assert (I : 0 < 1 / n) by (apply Rdiv_lt_0_compat; lra). split; [|apply round_ge_generic; [apply (fexp_correct 24 128 prec24)|apply valid_rnd_N|apply generic_format_0|lra]].
  destruct (relative_error_N_FLT'_ex radix2 (-149) 24 ltac:(lia) (fun x => negb (Z.even x)) (1 / n)) as (eps & eta & A & B & C & D).
  rewrite fexp32. cbn [round_mode]. rewrite D.
  replace ((1 / n * (1 + eps) + eta) * n) with (1 + eps + eta * n) by (field; lra).
  assert (U : u_ro radix2 24 = / 16777216) by (unfold u_ro; replace (bpow radix2 (- (24) + 1)) with (/ 8388608) by reflexivity; lra). rewrite U in A.
  assert (Z : eps = 0 \/ eta = 0) by (apply Rmult_integral; exact C).
  destruct Z as [-> | ->].
  - assert (X : / 2 * bpow radix2 (-149) <= / 1000000000000000000000). { pose proof small150 as S. change (-149)%Z with (1 + -150)%Z. rewrite bpow_plus. change (bpow radix2 1) with 2. lra. }
    apply Rabs_le_inv in B. nra.
  - rewrite Rmult_0_l. apply Rabs_le_inv in A. assert (/ 16777216 / (1 + / 16777216) < / 16777216) by lra. lra.
Qed.
Lemma unit_le1 (x n : f32) : is_finite x = true -> is_finite n = true -> Rabs (R32 x) <= R32 n -> 1 <= R32 n <= 1000000 ->
  let r := fdiv (flit 1 1) n in is_finite r = true /\ R32 r = rnd32 (1 / R32 n) /\ is_finite (fmul x r) = true /\ Rabs (R32 (fmul x r)) <= 1 /\ R32 (fmul x r) = rnd32 (R32 x * R32 r).
Proof.
  intros Fx Fn L B. cbv zeta. destruct (near_int 1 ltac:(lia)) as [F1 E1]. assert (O : R32 (flit 1 1) = 1) by (apply Rminus_diag_uniq; destruct (Req_dec (R32 (flit 1 1) - 1) 0) as [|N]; [assumption|apply Rabs_pos_lt in N; lra]).
  assert (I : 0 < 1 / R32 n <= 1). { split; [apply Rdiv_lt_0_compat; lra|]. unfold Rdiv. rewrite Rmult_1_l. rewrite <- Rinv_1. apply Rinv_le_contravar; lra. }
  destruct (fdiv_R (flit 1 1) n F1 ltac:(lra)) as [E F]. { rewrite O, Rabs_right by lra. apply Rle_trans with 1; [lra|]. change 1 with (bpow radix2 0). apply bpow_le. lia. }
  rewrite O in E. destruct (inv_strict (R32 n) B) as [S P]. set (r := fdiv (flit 1 1) n) in *. rewrite <- E in S, P.
  assert (AR : Rabs (R32 x * R32 r) < 1 + / 16777216).
  { rewrite Rabs_mult, (Rabs_right (R32 r)) by lra. assert (Rabs (R32 x) * R32 r <= R32 n * R32 r) by (apply Rmult_le_compat_r; assumption). lra. }
  destruct (fmul_R x r Fx F) as [E2 F2]. { left. apply Rlt_trans with (1 := AR).  apply Rlt_le_trans with (bpow radix2 1); [cbn; lra|apply bpow_le; lia]. }
  split; [exact F|]. split; [exact E|]. split; [exact F2|]. split; [|exact E2]. rewrite E2. apply Rabs_def2 in AR. apply Rabs_le. split.
  - rewrite <- (Ropp_involutive (R32 x * R32 r)). cbn [round_mode]. rewrite round_NE_opp. pose proof (rnd_le1 (- (R32 x * R32 r)) ltac:(lra)) as Q. cbn [round_mode] in Q. lra.
  - apply rnd_le1. lra.
Qed.

(** ** The unit vector of the filtered specific force *)
Lemma rnd_abs t m : Rabs t <= m -> m <= 1000 -> Rabs (rnd32 t - t) <= m * ulp1 + tiny.
Proof. intros A B. apply (rnd_near t m A). unfold huge. lra. Qed.
Lemma rnd_id (x : f32) : rnd32 (R32 x) = R32 x. Proof. apply round_generic; [apply valid_rnd_N|apply generic_format_B2R]. Qed.
Lemma rnd_mono x y : x <= y -> rnd32 x <= rnd32 y. Proof. apply rnd32_le. Qed.
(** no component is longer than the norm *)
Lemma nrm3_ge (v : Vec f32) : (forall k, (k < 3)%nat -> is_finite (v k) = true) -> is_finite (nrm3 v) = true -> 1 <= R32 (nrm3 v) ->
  forall k, (k < 3)%nat -> Rabs (R32 (v k)) <= R32 (nrm3 v).
Proof.
  intros F N L k Hk. destruct (nrm3_cases v F) as [E|[_ E]]; [rewrite E in N; discriminate|].
  destruct (Rle_dec 1 (Rabs (R32 (v k)))) as [G|G]; [|lra]. eapply Rle_trans; [apply (sqrt_sq_ge (v k) G)|]. rewrite E. apply rnd_mono, sqrt_le_1_alt.
  set (x := R32 (v 0%nat)) in *. set (y := R32 (v 1%nat)) in *. set (z := R32 (v 2%nat)) in *.
  assert (P : forall t, 0 <= rnd32 (t * t)) by (intros t; apply rnd32_ge0, Rle_0_sqr).
  assert (I : forall t, rnd32 (rnd32 t) = rnd32 t) by (intros t; apply round_generic; [apply valid_rnd_N|apply generic_format_round; [apply (fexp_correct 24 128 prec24)|apply valid_rnd_N]]).
  assert (A1 : forall a b, 0 <= a -> rnd32 b <= rnd32 (a + rnd32 b)) by (intros a b Ha; rewrite <- (I b) at 1; apply rnd_mono; lra).
  assert (A2 : forall a b, 0 <= b -> rnd32 a <= rnd32 (rnd32 a + b)) by (intros a b Hb; rewrite <- (I a) at 1; apply rnd_mono; lra).
  pose proof (P x). pose proof (P y). pose proof (P z).
  assert (S1 : 0 <= rnd32 (rnd32 (x * x) + rnd32 (y * y))) by (apply rnd32_ge0; lra).
  destruct k as [|[|[|k]]]; [| | |lia]; fold x; fold y; fold z.
  - eapply Rle_trans; [apply A2; exact (P y)|apply A2; exact (P z)].
  - eapply Rle_trans; [apply (A1 (rnd32 (x * x))); exact (P x)|apply A2; exact (P z)].
  - apply A1. exact S1.
Qed.
Lemma sqrt_diff a b e : 49 <= a -> 49 <= b -> Rabs (a - b) <= e -> Rabs (sqrt a - sqrt b) <= e / 14.
Proof.
  intros A B H. assert (Q : forall t, 49 <= t -> 7 <= sqrt t) by (intros t Ht; replace 7 with (sqrt (7 * 7)) by (apply sqrt_square; lra); apply sqrt_le_1_alt; lra).
  pose proof (Q a A). pose proof (Q b B).
  assert (E : (sqrt a - sqrt b) * (sqrt a + sqrt b) = a - b) by (replace ((sqrt a - sqrt b) * (sqrt a + sqrt b)) with (sqrt a * sqrt a - sqrt b * sqrt b) by ring; rewrite !sqrt_sqrt by lra; reflexivity).
  apply Rabs_le_inv in H. apply Rabs_le. split; nra.
Qed.
Lemma sq_bounds q l u : 0 <= l <= q /\ q <= u -> l * l <= q * q <= u * u.
Proof. intros H. split; nra. Qed.
Definition rnorm (v : Vec f32) : R := sqrt (R32 (v 0%nat) * R32 (v 0%nat) + R32 (v 1%nat) * R32 (v 1%nat) + R32 (v 2%nat) * R32 (v 2%nat)).
Lemma nrm3_near (v : Vec f32) : (forall k, (k < 3)%nat -> is_finite (v k) = true) -> is_finite (nrm3 v) = true -> 78 / 10 <= R32 (nrm3 v) <= 118 / 10 ->
  Rabs (R32 (nrm3 v) - rnorm v) <= 11 / 1000000.
Proof.
  intros F N B. pose proof (nrm3_ge v F N ltac:(lra)) as G. destruct (nrm3_cases v F) as [E|[_ E]]; [rewrite E in N; discriminate|].
  pose proof (G 0%nat ltac:(lia)) as G0. pose proof (G 1%nat ltac:(lia)) as G1. pose proof (G 2%nat ltac:(lia)) as G2. unfold rnorm.
  set (n := R32 (nrm3 v)) in *. set (x := R32 (v 0%nat)) in *. set (y := R32 (v 1%nat)) in *. set (z := R32 (v 2%nat)) in *. clearbody n x y z. clear G F N.
  assert (SQ : forall t, Rabs t <= n -> 0 <= t * t <= 140). { intros t Ht. split; [apply Rle_0_sqr|]. apply Rabs_le_inv in Ht. nra. }
  pose proof (SQ x G0) as X. pose proof (SQ y G1) as Y. pose proof (SQ z G2) as Z.
  pose proof (rnd_abs (x * x) 141 ltac:(apply Rabs_le; lra) ltac:(lra)) as E1. pose proof (rnd_abs (y * y) 141 ltac:(apply Rabs_le; lra) ltac:(lra)) as E2. pose proof (rnd_abs (z * z) 141 ltac:(apply Rabs_le; lra) ltac:(lra)) as E3.
  set (rx := rnd32 (x * x)) in *. set (ry := rnd32 (y * y)) in *. set (rz := rnd32 (z * z)) in *. apply Rabs_le_inv in E1, E2, E3. unfold ulp1, tiny in E1, E2, E3.
  pose proof (rnd_abs (rx + ry) 282 ltac:(apply Rabs_le; lra) ltac:(lra)) as E4. set (s1 := rnd32 (rx + ry)) in *. apply Rabs_le_inv in E4. unfold ulp1, tiny in E4.
  pose proof (rnd_abs (s1 + rz) 422 ltac:(apply Rabs_le; lra) ltac:(lra)) as E5. set (s2 := rnd32 (s1 + rz)) in *. apply Rabs_le_inv in E5. unfold ulp1, tiny in E5.
  assert (S2 : s2 <= 425) by lra. assert (SB : sqrt s2 <= 21) by (replace 21 with (sqrt (21 * 21)) by (apply sqrt_square; lra); apply sqrt_le_1_alt; lra).
  pose proof (sqrt_pos s2). pose proof (rnd_abs (sqrt s2) 21 ltac:(apply Rabs_le; lra) ltac:(lra)) as E6. rewrite <- E in E6. apply Rabs_le_inv in E6. unfold ulp1, tiny in E6.
  assert (S2L : 49 <= s2). { assert (P2 : 0 <= s2) by (destruct (Rle_dec 0 s2); [assumption|exfalso; rewrite sqrt_neg_0 in E6 by lra; lra]). pose proof (sq_bounds (sqrt s2) 7 22 ltac:(lra)) as SB2. rewrite (sqrt_sqrt s2 P2) in SB2. lra. }
  assert (SB2 : 60 <= s2 <= 140) by (pose proof (sq_bounds (sqrt s2) (779 / 100) (1181 / 100) ltac:(lra)) as SB3; rewrite (sqrt_sqrt s2) in SB3 by lra; lra).
  assert (D : Rabs (s2 - (x * x + y * y + z * z)) <= 70 / 1000000) by (apply Rabs_le; lra).
  apply Rabs_le_inv in D as D'. pose proof (sqrt_diff s2 (x * x + y * y + z * z) _ ltac:(lra) ltac:(lra) D) as E7.
  apply Rabs_le_inv in E7. apply Rabs_le. lra.
Qed.
Definition refused_low : f32 := fmul (flit 8 10) (flit 980665 100000).
Definition refused_high : f32 := fmul (flit 12 10) (flit 980665 100000).
Lemma lit_near n d : (- 2 ^ 24 <= n <= 2 ^ 24)%Z -> (1 <= d <= 2 ^ 24)%Z -> Rabs (IZR n / IZR d) <= 10 -> near (flit n d) (IZR n / IZR d) (/ 1000000).
Proof. intros A B C. destruct (flit_R n d A B) as [E F]. split; [exact F|]. rewrite E. eapply Rle_trans; [apply (rnd_abs _ 10 C); lra|unfold ulp1, tiny; lra]. Qed.
Lemma low_near : near refused_low (8 / 10 * (980665 / 100000)) (/ 10000).
Proof.
  pose proof (lit_near 8 10 ltac:(lia) ltac:(lia) ltac:(rewrite Rabs_right; lra)) as A. pose proof (lit_near 980665 100000 ltac:(lia) ltac:(lia) ltac:(rewrite Rabs_right; lra)) as B.
  apply (near_mul _ _ _ _ _ _ (/ 50000) 10 _ A B); [rewrite !Rabs_right by lra; lra|rewrite Rabs_right; lra|unfold huge; lra|unfold ulp1, tiny; lra].
Qed.
Lemma high_near : near refused_high (12 / 10 * (980665 / 100000)) (/ 10000).
Proof.
  pose proof (lit_near 12 10 ltac:(lia) ltac:(lia) ltac:(rewrite Rabs_right; lra)) as A. pose proof (lit_near 980665 100000 ltac:(lia) ltac:(lia) ltac:(rewrite Rabs_right; lra)) as B.
  apply (near_mul _ _ _ _ _ _ (/ 50000) 12 _ A B); [rewrite !Rabs_right by lra; lra|rewrite Rabs_right; lra|unfold huge; lra|unfold ulp1, tiny; lra].
Qed.
Lemma gate_range (v : Vec f32) : (forall k, (k < 3)%nat -> is_finite (v k) = true) -> flt (nrm3 v) refused_low = false -> flt refused_high (nrm3 v) = false ->
  is_finite (nrm3 v) = true /\ 78 / 10 <= R32 (nrm3 v) <= 118 / 10.
Proof.
  intros F L H. destruct (nrm3_cases v F) as [E|[N _]].
  - exfalso. rewrite E in H. vm_compute in H. discriminate H.
  - split; [exact N|]. pose proof (near_exact _ N) as X. pose proof (near_ge _ _ _ _ _ _ X low_near L). pose proof (near_ge _ _ _ _ _ _ high_near X H). lra.
Qed.
Lemma unit3_near (v : Vec f32) : (forall k, (k < 3)%nat -> is_finite (v k) = true) -> is_finite (nrm3 v) = true -> 78 / 10 <= R32 (nrm3 v) <= 118 / 10 ->
  forall k, (k < 3)%nat -> near (unit3 v k) (R32 (v k) / rnorm v) (3 / 1000000) /\ Rabs (R32 (unit3 v k)) <= 1.
Proof.
  intros F N B k Hk. pose proof (nrm3_ge v F N ltac:(lra) k Hk) as G. destruct (unit_le1 (v k) (nrm3 v) (F k Hk) N G ltac:(lra)) as (R1 & R2 & R3 & R4 & R5).
  unfold unit3. cbv zeta. fsc. change (@slit f32 FScalar 1 1) with (flit 1 1). split; [split; [exact R3|]|exact R4].
  pose proof (nrm3_near v F N B) as D. rewrite R5. set (n := R32 (nrm3 v)) in *. set (x := R32 (v k)) in *. set (r := R32 (fdiv (flit 1 1) (nrm3 v))) in *. set (M := rnorm v) in *.
  apply Rabs_le_inv in D. assert (MB : 77 / 10 <= M <= 119 / 10) by lra.
  assert (IB : 0 < 1 / n <= 13 / 100). { split; [apply Rdiv_lt_0_compat; lra|]. apply (Rmult_le_reg_r n); [lra|]. unfold Rdiv at 1. rewrite Rmult_assoc, Rinv_l by lra. lra. }
  pose proof (rnd_abs (1 / n) (13 / 100) ltac:(apply Rabs_le; lra) ltac:(lra)) as E1. rewrite <- R2 in E1. unfold ulp1, tiny in E1. apply Rabs_le_inv in E1.
  assert (E2 : Rabs (1 / n - 1 / M) <= 19 / 100000000).
  { replace (1 / n - 1 / M) with ((M - n) * (/ n * / M)) by (field; lra). rewrite Rabs_mult.
    assert (0 < / n * / M <= 1 / 60). { split; [apply Rmult_lt_0_compat; apply Rinv_0_lt_compat; lra|]. rewrite <- Rinv_mult. unfold Rdiv. rewrite Rmult_1_l. apply Rinv_le_contravar; [lra|nra]. }
    rewrite (Rabs_right (/ n * / M)) by lra. assert (Rabs (M - n) <= 11 / 1000000) by (apply Rabs_le; lra). pose proof (Rabs_pos (M - n)). nra. }
  apply Rabs_le_inv in E2. assert (XR : Rabs x <= 118 / 10) by lra.
  assert (E3 : Rabs (x * (r - 1 / M)) <= 24 / 10000000). { rewrite Rabs_mult. assert (Rabs (r - 1 / M) <= 20 / 100000000) by (apply Rabs_le; lra). pose proof (Rabs_pos x). pose proof (Rabs_pos (r - 1 / M)). nra. }
  assert (XB : Rabs (x * r) <= 2). { rewrite Rabs_mult. assert (Rabs r <= 14 / 100) by (apply Rabs_le; lra). pose proof (Rabs_pos x). pose proof (Rabs_pos r). nra. }
  pose proof (rnd_abs (x * r) 2 XB ltac:(lra)) as E4. unfold ulp1, tiny in E4. apply Rabs_le_inv in E3, E4.
  replace (x / M) with (x * r - x * (r - 1 / M)) by (unfold Rdiv; rewrite Rmult_1_l; ring). apply Rabs_le. lra.
Qed.

(** ** The initial attitude *)
Section Start.
Variables (tsin tcos tasin : f32 -> f32) (tatan2 : f32 -> f32 -> f32) (pi2 : f32).
Hypothesis HA : accurate tsin tcos tasin tatan2 pi2.
Definition quatOfEuler (roll pitch yaw : R) : Q4 :=
  let c1 := cos (roll / 2) in let s1 := sin (roll / 2) in let c2 := cos (pitch / 2) in let s2 := sin (pitch / 2) in let c3 := cos (yaw / 2) in let s3 := sin (yaw / 2) in
  mkQ (c1 * c2 * c3 + s1 * s2 * s3) (s1 * c2 * c3 - c1 * s2 * s3) (c1 * s2 * c3 + s1 * c2 * s3) (c1 * c2 * s3 - s1 * s2 * c3).
Lemma euler_quat r p y : quatOfEuler r p y = qmul (qz y) (qmul (qy p) (qx r)).
Proof. unfold quatOfEuler, qmul, qz, qy, qx. cbn [q0 q1 q2 q3]. f_equal; ring. Qed.
Lemma half_near (a : f32) : is_finite a = true -> Rabs (R32 a) <= 4 -> near (fdiv a (flit 2 1)) (R32 a / 2) (3 / 10000000).
Proof.
  intros F B. pose proof (near_int 2 ltac:(lia)) as I2.
  assert (Q : Rabs (R32 a / 2) <= 2) by (unfold Rdiv; rewrite Rabs_mult, (Rabs_right (/ 2)) by lra; lra).
  apply (near_div a _ (R32 a) 2 0 0 0 2 _ (near_exact a F) I2); rewrite ?(Rabs_right 2) by lra; try lra; unfold huge, ulp1, tiny; lra.
Qed.
Lemma euler_near (r p : f32) : is_finite r = true -> Rabs (R32 r) <= 4 -> is_finite p = true -> Rabs (R32 p) <= 4 ->
  nearV (quatEulerG tsin tcos r p szero) (quatOfEuler (R32 r) (R32 p) 0) (4 / 100000).
Proof.
  intros Fr Br Fp Bp.
  assert (Hb : forall a, Rabs a <= 4 -> Rabs (a / 2) <= 9) by (intros a H; unfold Rdiv; rewrite Rabs_mult, (Rabs_right (/ 2)) by lra; lra).
  assert (Z0 : is_finite (flit 0 1) = true /\ R32 (flit 0 1) = 0).
  { split; [vm_compute; reflexivity|]. destruct (flit_R 0 1 ltac:(lia) ltac:(lia)) as [E _]. rewrite E. replace (IZR 0 / IZR 1) with 0 by (unfold Rdiv; ring). apply round_0. apply valid_rnd_N. }
  destruct Z0 as [ZF ZR]. pose proof (half_near _ ZF ltac:(rewrite ZR, Rabs_R0; lra)) as NZ. rewrite ZR in NZ.
  destruct (trig_near _ _ _ _ _ HA _ _ (half_near r Fr Br) (Hb _ Br)) as [S1 C1]. destruct (trig_near _ _ _ _ _ HA _ _ (half_near p Fp Bp) (Hb _ Bp)) as [S2 C2].
  destruct (trig_near _ _ _ _ _ HA _ _ NZ ltac:(apply Rabs_le; lra)) as [S3 C3].
  unfold nearV, quatEulerG, quatOfEuler. fsc. change (@szero f32 FScalar) with (flit 0 1). change (@slit f32 FScalar 2 1) with (flit 2 1). cbn [q0 q1 q2 q3].
  pose proof (sin_1 (R32 r / 2)). pose proof (cos_1 (R32 r / 2)). pose proof (sin_1 (R32 p / 2)). pose proof (cos_1 (R32 p / 2)). pose proof (sin_1 (0 / 2)). pose proof (cos_1 (0 / 2)).
  assert (SS : forall x y rx ry, near x rx (22 / 10000000) -> near y ry (22 / 10000000) -> Rabs rx <= 1 -> Rabs ry <= 1 -> near (fadd x y) (rx + ry) (4 / 100000) /\ near (fsub x y) (rx - ry) (4 / 100000)).
  { intros x y rx ry X Y Hx Hy. apply Rabs_le_inv in Hx, Hy. split; (eapply near_weaken; [first [apply near_a|apply near_s]; [exact X|exact Y|apply Rabs_le; lra|lra|lra]|lra]). }
  refine (conj (proj1 (SS _ _ _ _ _ _ _ _)) (conj (proj2 (SS _ _ _ _ _ _ _ _)) (conj (proj1 (SS _ _ _ _ _ _ _ _)) (proj2 (SS _ _ _ _ _ _ _ _)))));
    first [refine (proj1 (m3 _ _ _ _ _ _ _ _ _ _ _ _)); eassumption|refine (proj2 (m3 _ _ _ _ _ _ _ _ _ _ _ _)); eassumption].
Qed.
(** [g]: nearly a unit vector; roll and pitch taken from it point the down axis against it *)
Lemma start_tilt (g0 g1 g2 rho phi : R) e : Rabs (g0 * g0 + g1 * g1 + g2 * g2 - 1) <= e -> e <= 12 / 1000000 -> Rabs g0 <= 1 ->
  Rabs (phi - asin g0) <= 3 / 10000000 -> (g1 <> 0 \/ g2 <> 0 -> Rabs (rho - atan2 (- g1) (- g2)) <= 3 / 10000000) ->
  let t := (if Rle_dec (Rabs g0) (99 / 100) then 1 / 1000 else 36 / 10000) in
  Rabs (- sin phi + g0) <= t /\ Rabs (sin rho * cos phi + g1) <= t /\ Rabs (cos rho * cos phi + g2) <= t.
Proof.
  intros HS HE B HP HR. cbv zeta. apply Rabs_le_inv in B as B'.
  pose proof (sin_lip phi (asin g0)) as L1. pose proof (cos_lip phi (asin g0)) as L2. rewrite sin_asin in L1 by lra. rewrite cos_asin in L2 by lra. unfold Rsqr in L2.
  set (c := sqrt (1 - g0 * g0)) in *. assert (cc : c * c = 1 - g0 * g0) by (apply sqrt_sqrt; nra). assert (c0 : 0 <= c) by apply sqrt_pos.
  set (h := sqrt (g1 * g1 + g2 * g2)). assert (hh : h * h = g1 * g1 + g2 * g2) by (apply sqrt_sqrt; pose proof (Rle_0_sqr g1); pose proof (Rle_0_sqr g2); unfold Rsqr in *; lra). assert (h0 : 0 <= h) by apply sqrt_pos.
  assert (D2 : Rabs ((c - h) * (c + h)) <= e). { replace ((c - h) * (c + h)) with (c * c - h * h) by ring. rewrite cc, hh. replace (1 - g0 * g0 - (g1 * g1 + g2 * g2)) with (- (g0 * g0 + g1 * g1 + g2 * g2 - 1)) by ring. rewrite Rabs_Ropp. exact HS. }
  apply Rabs_le_inv in D2.
  assert (D : Rabs (c - h) <= 35 / 10000).
  { apply Rabs_le. destruct (Rle_dec h c); split; try lra; nra. }
  assert (DC : Rabs g0 <= 99 / 100 -> Rabs (c - h) <= 9 / 10000).
  { intros G. apply Rabs_le_inv in G. assert (1 / 10 <= c) by nra. apply Rabs_le. split; nra. }
  (* the horizontal components *)
  assert (HZ : exists sr cr, Rabs sr <= 1 /\ Rabs cr <= 1 /\ h * sr = - g1 /\ h * cr = - g2 /\ Rabs (sin rho - sr) <= 3 / 10000000 /\ Rabs (cos rho - cr) <= 3 / 10000000).
  { destruct (Req_dec g1 0) as [Z1|N1]; [destruct (Req_dec g2 0) as [Z2|N2]|].
    - exists (sin rho), (cos rho). assert (h = 0) by (unfold h; rewrite Z1, Z2; replace (0 * 0 + 0 * 0) with 0 by ring; apply sqrt_0). pose proof (sin_1 rho). pose proof (cos_1 rho).
      rewrite !Rminus_eq_0, Rabs_R0. subst g1 g2. rewrite H. repeat split; try assumption; lra.
    - specialize (HR (or_intror N2)). destruct (atan2_polar (- g1) (- g2)) as (P & Pc & Ps); [left; lra|]. replace (- g2 * - g2 + - g1 * - g1) with (g1 * g1 + g2 * g2) in * by ring. fold h in P, Pc, Ps.
      exists (sin (atan2 (- g1) (- g2))), (cos (atan2 (- g1) (- g2))). pose proof (sin_lip rho (atan2 (- g1) (- g2))). pose proof (cos_lip rho (atan2 (- g1) (- g2))).
      repeat split; [apply sin_1|apply cos_1|exact Ps|exact Pc|lra|lra].
    - specialize (HR (or_introl N1)). destruct (atan2_polar (- g1) (- g2)) as (P & Pc & Ps); [right; lra|]. replace (- g2 * - g2 + - g1 * - g1) with (g1 * g1 + g2 * g2) in * by ring. fold h in P, Pc, Ps.
      exists (sin (atan2 (- g1) (- g2))), (cos (atan2 (- g1) (- g2))). pose proof (sin_lip rho (atan2 (- g1) (- g2))). pose proof (cos_lip rho (atan2 (- g1) (- g2))).
      repeat split; [apply sin_1|apply cos_1|exact Ps|exact Pc|lra|lra]. }
  destruct HZ as (sr & cr & HS1 & HC1 & Es & Ec & Ds & Dc).
  assert (K : forall s r g, Rabs r <= 1 -> h * r = - g -> Rabs (s - r) <= 3 / 10000000 -> Rabs (s * cos phi + g) <= Rabs (c - h) + 6 / 10000000).
  { intros s r g Hr Hh Hd. replace (s * cos phi + g) with (r * (c - h) + (s - r) * cos phi + r * (cos phi - c)) by (replace g with (- (h * r)) by lra; ring).
    eapply Rle_trans; [apply Rabs_triang|]. eapply Rle_trans; [apply Rplus_le_compat_r, Rabs_triang|]. rewrite !Rabs_mult. pose proof (cos_1 phi) as C1.
    pose proof (Rabs_pos (c - h)). pose proof (Rabs_pos (s - r)). pose proof (Rabs_pos (cos phi - c)). pose proof (Rabs_pos r). pose proof (Rabs_pos (cos phi)).
    assert (Rabs r * Rabs (c - h) <= Rabs (c - h)) by nra. assert (Rabs (s - r) * Rabs (cos phi) <= 3 / 10000000) by nra. assert (Rabs r * Rabs (cos phi - c) <= 3 / 10000000) by nra. lra. }
  pose proof (K _ _ _ HS1 Es Ds) as K1. pose proof (K _ _ _ HC1 Ec Dc) as K2.
  assert (K0 : Rabs (- sin phi + g0) <= 3 / 10000000) by (replace (- sin phi + g0) with (- (sin phi - g0)) by ring; rewrite Rabs_Ropp; lra).
  destruct (Rle_dec (Rabs g0) (99 / 100)) as [G|G]; [specialize (DC G)|]; repeat split; lra.
Qed.
Lemma start_float (rad15 : f32) (acc gyr q : Vec f32) : (forall k, (k < 3)%nat -> is_finite (acc k) = true) -> tiltStartG tsin tcos tasin tatan2 rad15 acc gyr = Some q ->
  let m := dcm (qr q) in let u := fun k => R32 (acc k) / rnorm acc in
  (forall k, (k < 3)%nat -> Rabs (R32 (unit3 acc k)) <= 1) /\ 77 / 10 <= rnorm acc <= 119 / 10 /\
  (forall k, (k < 4)%nat -> is_finite (q k) = true) /\ Rabs (qnorm2 (qr q) - 1) <= 1 / 4000 /\
  let t := (if Rle_dec (Rabs (u 0%nat)) (98 / 100) then 13 / 10000 else 4 / 1000) in
  Rabs (m20 m + u 0%nat) <= t /\ Rabs (m21 m + u 1%nat) <= t /\ Rabs (m22 m + u 2%nat) <= t.
Proof.
  intros F H. cbv zeta. unfold tiltStartG in H. cbv zeta in H. fold refused_low refused_high in H.
  change (@smul f32 FScalar (slit 8 10) oneG) with refused_low in H. change (@smul f32 FScalar (slit 12 10) oneG) with refused_high in H.
  destruct (slt (nrm3 acc) refused_low) eqn:L1; [discriminate|]. destruct (slt refused_high (nrm3 acc)) eqn:L2; [discriminate|]. destruct (slt rad15 (nrm3 gyr)); [discriminate|]. cbn [orb] in H.
  change (flt (nrm3 acc) refused_low = false) in L1. change (flt refused_high (nrm3 acc) = false) in L2.
  destruct (gate_range acc F L1 L2) as [N B]. pose proof (unit3_near acc F N B) as U. pose proof (nrm3_near acc F N B) as NN. apply Rabs_le_inv in NN.
  destruct (U 0%nat ltac:(lia)) as [U0 O0]. destruct (U 1%nat ltac:(lia)) as [U1 O1]. destruct (U 2%nat ltac:(lia)) as [U2 O2].
  split; [intros k Hk; apply U, Hk|]. split; [lra|].
  apply (f_equal (fun o => match o with Some a => a | None => acc end)) in H. rewrite <- H. clear H q.
  set (g := unit3 acc) in *. clearbody g. change (@sopp f32 FScalar) with fneg. destruct HA as (_ & Has & Hat & _).
  destruct U0 as [F0 U0], U1 as [F1 U1], U2 as [F2 U2].
  destruct (Has (g 0%nat) F0 O0) as [FP HP]. destruct (fneg_R (g 1%nat)) as [E1 G1]. destruct (fneg_R (g 2%nat)) as [E2 G2].
  destruct (Hat (fneg (g 1%nat)) (fneg (g 2%nat)) ltac:(rewrite G1; exact F1) ltac:(rewrite G2; exact F2)) as (FR & BR & HR). rewrite E1, E2 in HR.
  set (p := tasin (g 0%nat)) in *. set (r := tatan2 (fneg (g 1%nat)) (fneg (g 2%nat))) in *. clearbody p r. clear Has Hat G1 G2 E1 E2.
  set (M := rnorm acc) in *. set (a0 := R32 (acc 0%nat)) in *. set (a1 := R32 (acc 1%nat)) in *. set (a2 := R32 (acc 2%nat)) in *.
  assert (MM : (a0 / M) * (a0 / M) + (a1 / M) * (a1 / M) + (a2 / M) * (a2 / M) = 1).
  { assert (Q : M * M = a0 * a0 + a1 * a1 + a2 * a2). { unfold M, rnorm. fold a0 a1 a2. apply sqrt_sqrt. pose proof (Rle_0_sqr a0). pose proof (Rle_0_sqr a1). pose proof (Rle_0_sqr a2). unfold Rsqr in *. lra. }
    replace (a0 / M * (a0 / M) + a1 / M * (a1 / M) + a2 / M * (a2 / M)) with ((a0 * a0 + a1 * a1 + a2 * a2) / (M * M)) by (field; lra). rewrite <- Q. field. lra. }
  set (u0 := a0 / M) in *. set (u1 := a1 / M) in *. set (u2 := a2 / M) in *. clearbody u0 u1 u2.
  assert (BP : Rabs (R32 p) <= 4). { pose proof (asin_bound (R32 (g 0%nat))). pose proof PI_4. apply Rabs_le_inv in HP. apply Rabs_le. lra. }
  pose proof (euler_near r p FR BR FP BP) as NV.
  destruct (near_unit (quatEulerG tsin tcos r p szero) (quatOfEuler (R32 r) (R32 p) 0) 1) as (FN & QN & CM); [rewrite euler_quat, !qmul_norm, qz_unit, qy_unit, qx_unit; ring|left; reflexivity| |].
  { replace (qscale 1 (quatOfEuler (R32 r) (R32 p) 0)) with (quatOfEuler (R32 r) (R32 p) 0); [exact NV|]. destruct (quatOfEuler (R32 r) (R32 p) 0) as [w0 w1 w2 w3]. unfold qscale. cbn [q0 q1 q2 q3]. rewrite !Rmult_1_l. reflexivity. }
  split; [exact FN|]. split; [lra|].
  rewrite euler_quat, !dcm_mul, dcm_qz, dcm_qy, dcm_qx, <- dcm321_product in CM. destruct CM as (_ & _ & (C0 & C1 & C2)). unfold dcm321 in C0, C1, C2. cbn [m20 m21 m22] in C0, C1, C2.
  set (m := dcm (qr (quatEulerG tsin tcos r p szero))) in *. clearbody m. clear NV FN QN.
  assert (AU : Rabs u0 + Rabs u1 + Rabs u2 <= 174 / 100).
  { assert (Qa : forall x, Rabs x * Rabs x = x * x) by (intros x; rewrite <- Rabs_mult; apply Rabs_right, Rle_ge, Rle_0_sqr).
    pose proof (Qa u0). pose proof (Qa u1). pose proof (Qa u2). pose proof (Rle_0_sqr (Rabs u0 - 578 / 1000)). pose proof (Rle_0_sqr (Rabs u1 - 578 / 1000)). pose proof (Rle_0_sqr (Rabs u2 - 578 / 1000)). unfold Rsqr in *. lra. }
  set (g0 := R32 (g 0%nat)) in *. set (g1 := R32 (g 1%nat)) in *. set (g2 := R32 (g 2%nat)) in *.
  assert (SQD : forall x y, Rabs (x - y) <= 3 / 1000000 -> Rabs (x * x - y * y) <= 6 / 1000000 * Rabs y + / 100000000).
  { intros x y Hxy. replace (x * x - y * y) with ((x - y) * (x - y) + 2 * (y * (x - y))) by ring. eapply Rle_trans; [apply Rabs_triang|]. rewrite !Rabs_mult, (Rabs_right 2) by lra. pose proof (Rabs_pos (x - y)). pose proof (Rabs_pos y). nra. }
  pose proof (SQD _ _ U0) as S0. pose proof (SQD _ _ U1) as S1. pose proof (SQD _ _ U2) as S2. apply Rabs_le_inv in S0, S1, S2.
  destruct (start_tilt g0 g1 g2 (R32 r) (R32 p) (12 / 1000000)) as (T0 & T1 & T2); [apply Rabs_le; lra|lra|exact O0|exact HP|intros [Z|Z]; apply HR; lra|].
  assert (TT : (if Rle_dec (Rabs g0) (99 / 100) then 1 / 1000 else 36 / 10000) + 203 / 1000000 <= (if Rle_dec (Rabs u0) (98 / 100) then 13 / 10000 else 4 / 1000)).
  { destruct (Rle_dec (Rabs u0) (98 / 100)); destruct (Rle_dec (Rabs g0) (99 / 100)) as [Y|Y]; try lra. exfalso. apply Y. replace g0 with (u0 + (g0 - u0)) by ring. eapply Rle_trans; [apply Rabs_triang|]. lra. }
  assert (A3 : forall x s u v, Rabs (x - s) <= 2 / 10000 -> Rabs (v - u) <= 3 / 1000000 -> Rabs (x + u) <= Rabs (s + v) + 203 / 1000000).
  { intros x s u v X V. replace (x + u) with ((s + v) + ((x - s) + - (v - u))) by ring. eapply Rle_trans; [apply Rabs_triang|]. assert (Rabs (x - s + - (v - u)) <= 203 / 1000000); [|lra]. eapply Rle_trans; [apply Rabs_triang|]. rewrite Rabs_Ropp. lra. }
  pose proof (A3 _ _ _ _ C0 U0). pose proof (A3 _ _ _ _ C1 U1). pose proof (A3 _ _ _ _ C2 U2). repeat split; lra.
Qed.
End Start.

(** ** Other inputs *)
Lemma nrm3_inf (v : Vec f32) : (forall k, (k < 3)%nat -> is_nan (v k) = false) -> (exists k, (k < 3)%nat /\ is_finite (v k) = false) -> nrm3 v = finf.
Proof.
  intros N (k & Hk & I).
  assert (P : forall j, (j < 3)%nat -> pos (fmul (v j) (v j))).
  { intros j Hj. specialize (N j Hj). destruct (is_finite (v j)) eqn:E; [destruct (sq_pos (v j) E) as [X|(A & B & _)]; [left; exact X|right; split; assumption]|]. left. destruct (v j) as [s|s| |s m e H]; try discriminate. destruct s; reflexivity. }
  assert (Pk : fmul (v k) (v k) = finf) by (specialize (N k Hk); destruct (v k) as [s|s| |s m e H]; try discriminate; destruct s; reflexivity).
  assert (IL : forall b, pos b -> fadd finf b = finf) by (intros b [->|[Fb Sb]]; [reflexivity|]; destruct b as [s|s| |s m e H]; try discriminate; reflexivity).
  assert (IR : forall a, pos a -> fadd a finf = finf) by (intros b [->|[Fb Sb]]; [reflexivity|]; destruct b as [s|s| |s m e H]; try discriminate; reflexivity).
  assert (AP : forall a b, pos a -> pos b -> pos (fadd a b)) by (intros a b Ha Hb; destruct (add_pos a b Ha Hb) as [->|(_ & _ & A & B & _)]; [left; reflexivity|right; split; assumption]).
  assert (Z : pos (flit 0 1)) by (right; split; vm_compute; reflexivity).
  unfold nrm3. fsc. change (@szero f32 FScalar) with (flit 0 1). change finf with (fsqrt finf). f_equal.
  destruct k as [|[|[|k]]]; [| | |lia]; rewrite Pk.
  - rewrite IR, !IL by (try apply P; try assumption; lia). reflexivity.
  - rewrite IR, IL by (try apply AP; try apply P; try assumption; lia). reflexivity.
  - apply IR. apply AP; [apply AP|]; try apply P; try assumption; lia.
Qed.

(** ** Normalisation *)
Lemma near_constrain (y : f32) w e : near y w e -> Rabs w <= 1 -> near (sconstrain y (fneg (flit 1 1)) (flit 1 1)) w e.
Proof.
  intros [F H] B. apply Rabs_le_inv in B. destruct (near_int 1 ltac:(lia)) as [F1 E1]. assert (O : R32 (flit 1 1) = 1) by (apply Rminus_diag_uniq; destruct (Req_dec (R32 (flit 1 1) - 1) 0) as [|N]; [assumption|apply Rabs_pos_lt in N; lra]).
  destruct (fneg_R (flit 1 1)) as [En Fn]. rewrite F1 in Fn. rewrite O in En. apply Rabs_le_inv in H.
  unfold sconstrain. fsc. rewrite (flt_R y (fneg (flit 1 1))), (flt_R (flit 1 1) y) by assumption. rewrite En, O.
  destruct (Rlt_bool_spec (R32 y) (- (1))) as [Y|Y]; [split; [exact Fn|rewrite En; apply Rabs_le; lra]|].
  destruct (Rlt_bool_spec 1 (R32 y)) as [Y2|Y2]; [split; [exact F1|rewrite O; apply Rabs_le; lra]|]. split; [exact F|apply Rabs_le; lra].
Qed.
Lemma qnormv_near (x : Vec f32) : (forall k, (k < 4)%nat -> is_finite (x k) = true) -> 1 / 4 <= qnorm2 (qr x) <= 4 ->
  exists w, qnorm2 w = 1 /\ w = qscale (/ sqrt (qnorm2 (qr x))) (qr x) /\ nearV (qnormv x) w (1 / 100000).
Proof.
  intros F N. unfold qr in *. unfold qnorm2 in N. cbn [q0 q1 q2 q3] in N.
  pose proof (near_exact _ (F 0%nat ltac:(lia))) as X0. pose proof (near_exact _ (F 1%nat ltac:(lia))) as X1. pose proof (near_exact _ (F 2%nat ltac:(lia))) as X2. pose proof (near_exact _ (F 3%nat ltac:(lia))) as X3.
  unfold qnormv, qnorm2, qdot. fsc. change (@szero f32 FScalar) with (flit 0 1). cbn [q0 q1 q2 q3].
  set (a := R32 (x 0%nat)) in *. set (b := R32 (x 1%nat)) in *. set (c := R32 (x 2%nat)) in *. set (d := R32 (x 3%nat)) in *. clearbody a b c d. clear F.
  assert (SQ : 0 <= a * a /\ 0 <= b * b /\ 0 <= c * c /\ 0 <= d * d) by (repeat split; apply Rle_0_sqr). destruct SQ as (SA & SB & SC & SD).
  assert (N' : 1 / 4 <= a * a + b * b + c * c + d * d <= 4) by lra. clear N.
  assert (B2 : forall t, t * t <= 4 -> Rabs t <= 2) by (intros t Ht; apply Rabs_le; split; nra).
  assert (MM : forall u ru, near u ru 0 -> 0 <= ru * ru -> ru * ru <= 4 -> near (fmul u u) (ru * ru) (26 / 100000000)).
  { intros u ru U P Q. apply (near_mul u u ru ru 0 0 0 4); try assumption; [lra|rewrite Rabs_right by lra; lra|unfold huge; lra|unfold ulp1, tiny; lra]. }
  assert (AA : forall u v ru rv eu ev, near u ru eu -> near v rv ev -> 0 <= ru -> 0 <= rv -> ru + rv <= 4 -> eu + ev <= / 10000 -> near (fadd u v) (ru + rv) (eu + ev + 26 / 100000000)).
  { intros u v ru rv eu ev U V P Q S E. apply (near_add u v ru rv eu ev (4 + / 10000)); try assumption; [rewrite Rabs_right by lra; lra|unfold huge; lra|unfold ulp1, tiny; lra]. }
  assert (Z0 : near (flit 0 1) 0 0) by (apply near_int; lia).
  assert (D : near (fadd (fadd (fadd (fadd (flit 0 1) (fmul (x 0%nat) (x 0%nat))) (fmul (x 1%nat) (x 1%nat))) (fmul (x 2%nat) (x 2%nat))) (fmul (x 3%nat) (x 3%nat))) (0 + a * a + b * b + c * c + d * d) (22 / 10000000)).
  { eapply near_weaken; [apply AA; [apply AA; [apply AA; [apply AA; [exact Z0|apply MM; [exact X0|assumption|lra]|lra|lra|lra|lra]|apply MM; [exact X1|assumption|lra]|lra|lra|lra|lra]|apply MM; [exact X2|assumption|lra]|lra|lra|lra|lra]|apply MM; [exact X3|assumption|lra]|lra|lra|lra|lra]|lra]. }
  replace (0 + a * a + b * b + c * c + d * d) with (a * a + b * b + c * c + d * d) in D by ring.
  replace (a ^ 2 + b ^ 2 + c ^ 2 + d ^ 2) with (a * a + b * b + c * c + d * d) by ring.
  set (s := a * a + b * b + c * c + d * d) in *. set (fs := fadd (fadd _ _) _) in *. clearbody fs.
  assert (R1 : / 2 <= sqrt s). { replace (/ 2) with (sqrt (/ 2 * / 2)) by (apply sqrt_square; lra). apply sqrt_le_1_alt. lra. }
  assert (R2 : sqrt s <= 2). { replace 2 with (sqrt (2 * 2)) by (apply sqrt_square; lra). apply sqrt_le_1_alt. lra. }
  assert (SS : sqrt s * sqrt s = s) by (apply sqrt_sqrt; lra).
  assert (NS : near (fsqrt fs) (sqrt s) (28 / 10000000)).
  { destruct D as [FD HD]. apply Rabs_le_inv in HD. destruct (fsqrt_R fs FD ltac:(lra)) as [V G].
    assert (Q1 : 49 / 100 <= sqrt (R32 fs)). { replace (49 / 100) with (sqrt ((49 / 100) * (49 / 100))) by (apply sqrt_square; lra). apply sqrt_le_1_alt. lra. }
    assert (Q2 : sqrt (R32 fs) <= 3). { replace 3 with (sqrt (3 * 3)) by (apply sqrt_square; lra). apply sqrt_le_1_alt. lra. }
    assert (DD : Rabs (sqrt (R32 fs) - sqrt s) <= 25 / 10000000).
    { assert (Q : (sqrt (R32 fs) - sqrt s) * (sqrt (R32 fs) + sqrt s) = R32 fs - s) by (replace ((sqrt (R32 fs) - sqrt s) * (sqrt (R32 fs) + sqrt s)) with (sqrt (R32 fs) * sqrt (R32 fs) - sqrt s * sqrt s) by ring; rewrite !sqrt_sqrt by lra; reflexivity).
      clear - Q Q1 R1 HD. set (p := sqrt (R32 fs)) in *. set (q := sqrt s) in *. clearbody p q. assert (G : 99 / 100 <= p + q) by lra. apply Rabs_le. split; nra. }
    apply (near_rnd _ _ _ (25 / 10000000) 3 _ G V); [apply Rabs_le; lra|unfold huge; lra|exact DD|unfold ulp1, tiny; lra]. }
  set (fn := fsqrt fs) in *. clearbody fn. set (n := sqrt s) in *.
  exists (qscale (/ n) (mkQ a b c d)). unfold qscale, nearV. cbn [q0 q1 q2 q3]. split; [|split; [reflexivity|]].
  - replace ((/ n * a) ^ 2 + (/ n * b) ^ 2 + (/ n * c) ^ 2 + (/ n * d) ^ 2) with ((a * a + b * b + c * c + d * d) / (n * n)) by (field; lra). fold s. rewrite SS. field. lra.
  - assert (DV : forall y ry, near y ry 0 -> ry * ry <= s -> near (fdiv y fn) (/ n * ry) (1 / 100000)).
    { intros y ry Y L. replace (/ n * ry) with (ry / n) by (unfold Rdiv; ring).
      assert (Q : Rabs (ry / n) <= 1). { unfold Rdiv. rewrite Rabs_mult, Rabs_inv, (Rabs_right n) by lra. apply (Rmult_le_reg_r n); [lra|]. rewrite Rmult_assoc, Rinv_l, Rmult_1_r, Rmult_1_l by lra. apply Rabs_le. split; nra. }
      apply (near_div y fn ry n 0 (28 / 10000000) (6 / 1000000) 2 _ Y NS); rewrite ?(Rabs_right n) by lra; try (unfold huge, ulp1, tiny; lra).
      all: pose proof (Rabs_pos (ry / n)); nra. }
    refine (conj _ (conj _ (conj _ _))); (apply DV; [assumption|unfold s; lra]).
Qed.

(** signs of binary32 results: "not below zero" is preserved by sums and products *)
From Coq Require Import ZArith Reals Lra Bool.
From Verif Require Import F32 F32More.
Open Scope Z_scope.

(** not < 0: zero of either sign, NaN, or positive *)
Definition fnn (x : f32) : Prop := flt x f0 = false.
Definition sgn_ok (x : f32) : Prop := match x with B754_zero _ | B754_nan => True | B754_infinity s => s = false | B754_finite s _ _ _ => s = false end.
Lemma fnn_iff x : fnn x <-> sgn_ok x.
Proof. unfold fnn. destruct x as [s|s| |s m e H]; try destruct s; cbn; split; intros; try reflexivity; try exact I; try discriminate; auto. Qed.
Lemma sign_false_ok (r : f32) : is_nan r = true \/ Bsign r = false -> sgn_ok r.
Proof. destruct r; cbn; intros [H|H]; try exact I; try discriminate; exact H. Qed.
Lemma fmul_sign (x y : f32) : is_nan (fmul x y) = true \/ Bsign (fmul x y) = xorb (Bsign x) (Bsign y).
Proof.
  pose proof (Bmult_correct 24 128 _ _ mode_NE x y) as H. fold (fmul x y) in H.
  destruct (Rlt_bool _ _); [destruct H as (_ & _ & H); destruct (is_nan (fmul x y)); auto|].
  right. destruct (fmul x y); cbn in H |- *; try discriminate; unfold binary_overflow in H; cbn in H; injection H as H; exact H.
Qed.
Lemma fmul_zero_l s (y : f32) : fmul (B754_zero s) y = fnan \/ exists s', fmul (B754_zero s) y = B754_zero s'.
Proof. destruct y; cbn; eauto. Qed.
Lemma fmul_zero_r s (y : f32) : fmul y (B754_zero s) = fnan \/ exists s', fmul y (B754_zero s) = B754_zero s'.
Proof. destruct y; cbn; eauto. Qed.
Lemma fmul_nan_l (y : f32) : fmul B754_nan y = fnan. Proof. destruct y; reflexivity. Qed.
Lemma fmul_nan_r (y : f32) : fmul y B754_nan = fnan. Proof. destruct y; reflexivity. Qed.
Lemma ok_cases (x : f32) : sgn_ok x -> x = B754_nan \/ (exists s, x = B754_zero s) \/ Bsign x = false.
Proof. destruct x; cbn; intros H; eauto. Qed.

Lemma fnn_mul x y : fnn x -> fnn y -> fnn (fmul x y).
Proof.
  rewrite !fnn_iff. intros Hx Hy.
  destruct (ok_cases x Hx) as [->|[[s ->]|Sx]]; [rewrite fmul_nan_l; exact I|destruct (fmul_zero_l s y) as [->|[s' ->]]; exact I|].
  destruct (ok_cases y Hy) as [->|[[s ->]|Sy]]; [rewrite fmul_nan_r; exact I|destruct (fmul_zero_r s x) as [->|[s' ->]]; exact I|].
  apply sign_false_ok. destruct (fmul_sign x y) as [H|H]; [left; exact H|right]. rewrite H, Sx, Sy. reflexivity.
Qed.
Lemma fnn_sq x : fnn (fmul x x).
Proof. rewrite fnn_iff. apply sign_false_ok. destruct (fmul_sign x x) as [H|H]; [left; exact H|right]. rewrite H. apply xorb_nilpotent. Qed.
Lemma fnn_cong l p : fnn p -> fnn (fmul (fmul l p) l).
Proof.
  rewrite !fnn_iff. intros Hp.
  destruct (ok_cases p Hp) as [->|[[s ->]|Sp]].
  - rewrite fmul_nan_r. unfold fnan. rewrite fmul_nan_l. exact I.
  - destruct (fmul_zero_r s l) as [->|[s' ->]]; [unfold fnan; rewrite fmul_nan_l; exact I|]. destruct (fmul_zero_l s' l) as [->|[s'' ->]]; exact I.
  - apply sign_false_ok. destruct (fmul_sign l p) as [H|H].
    + apply fis_nan_eq in H. rewrite H. unfold fnan. rewrite fmul_nan_l. left. reflexivity.
    + destruct (fmul_sign (fmul l p) l) as [H2|H2]; [left; exact H2|right]. rewrite H2, H, Sp, xorb_false_r. apply xorb_nilpotent.
Qed.
Lemma ok_R (x : f32) : sgn_ok x -> (0 <= R32 x)%R.
Proof.
  destruct x as [s|s| |s m e H]; cbn [sgn_ok]; intros E; try (unfold R32; cbn; lra). subst s. unfold R32, B2R, F2R. cbn [cond_Zopp Fnum Fexp].
  apply Rmult_le_pos; [apply IZR_le; apply Pos2Z.is_nonneg|apply bpow_ge_0].
Qed.
Lemma R_ok (x : f32) : is_finite x = true -> (0 <= B2R x)%R -> sgn_ok x.
Proof.
  destruct x as [s|s| |s m e H]; cbn [is_finite sgn_ok]; intros F E; try exact I; try discriminate. destruct s; [exfalso|reflexivity].
  unfold B2R, F2R in E. cbn [cond_Zopp Fnum Fexp] in E. pose proof (bpow_gt_0 radix2 e). assert (IZR (Z.neg m) < 0)%R by (apply IZR_lt; reflexivity). assert (IZR (Z.neg m) * bpow radix2 e < 0)%R; [|change (Z.opp (Z.pos m)) with (Z.neg m) in E; lra].
  apply Ropp_lt_cancel. rewrite Ropp_0, Ropp_mult_distr_l. apply Rmult_lt_0_compat; lra.
Qed.
Lemma fnn_add x y : fnn x -> fnn y -> fnn (fadd x y).
Proof.
  rewrite !fnn_iff. intros Hx Hy. destruct (is_finite x) eqn:Fx; [destruct (is_finite y) eqn:Fy|].
  - pose proof (Bplus_correct 24 128 _ _ mode_NE x y Fx Fy) as H. fold (fadd x y) in H.
    pose proof (ok_R x Hx) as Rx. pose proof (ok_R y Hy) as Ry. unfold R32 in Rx, Ry.
    match type of H with context [Rlt_bool ?a ?b] => destruct (Rlt_bool_spec a b) as [L|L] end.
    + destruct H as (H1 & H2 & _). apply R_ok; [exact H2|]. rewrite H1. apply (rnd32_ge0 (B2R x + B2R y)%R). apply Rplus_le_le_0_compat; assumption.
    + destruct H as (H1 & H2).
      assert (Sx : Bsign x = false).
      { destruct (ok_cases x Hx) as [E|[[s E]|E]]; [subst; discriminate| |exact E].
        destruct (ok_cases y Hy) as [E2|[[s2 E2]|E2]]; [subst; discriminate| |rewrite H2; exact E2].
        exfalso. subst x y. cbn [B2R] in L. rewrite Rplus_0_l, round_0 in L by apply valid_rnd_N. rewrite Rabs_R0 in L. exact (Rle_not_lt _ _ L (bpow_gt_0 radix2 128)). }
      rewrite Sx in H1. destruct (fadd x y); cbn in H1 |- *; try discriminate; unfold binary_overflow in H1; cbn in H1; injection H1 as H1; auto.
  - destruct x, y; try discriminate; cbn in *; try exact I; subst; auto.
  - destruct x, y; try discriminate; cbn in *; subst; try exact I; try reflexivity; try (destruct s0; [discriminate|reflexivity]).
Qed.

(** the class of values with sign s, zeros and NaN *)
Definition okS (s : bool) (x : f32) : Prop := match x with B754_zero _ | B754_nan => True | B754_infinity s' => s' = s | B754_finite s' _ _ _ => s' = s end.
Lemma okS_cases s (x : f32) : okS s x -> x = B754_nan \/ (exists s', x = B754_zero s') \/ Bsign x = s.
Proof. destruct x; cbn; intros H; eauto. Qed.
Lemma okT_R (x : f32) : okS true x -> (B2R x <= 0)%R.
Proof.
  destruct x as [s|s| |s m e H]; cbn [okS]; intros E; try (cbn; apply Rle_refl). subst s. unfold B2R, F2R. cbn [cond_Zopp Fnum Fexp].
  apply Ropp_le_cancel. rewrite Ropp_0, Ropp_mult_distr_l. apply Rmult_le_pos; [rewrite <- opp_IZR; apply IZR_le; apply Pos2Z.is_nonneg|apply bpow_ge_0].
Qed.
Lemma R_okT (x : f32) : is_finite x = true -> (B2R x <= 0)%R -> okS true x.
Proof.
  destruct x as [s|s| |s m e H]; cbn [is_finite okS]; intros F E; try exact I; try discriminate. destruct s; [reflexivity|exfalso].
  unfold B2R, F2R in E. cbn [cond_Zopp Fnum Fexp] in E. pose proof (bpow_gt_0 radix2 e) as B. assert (A : (0 < IZR (Z.pos m))%R) by (apply IZR_lt; reflexivity).
  exact (Rle_not_lt _ _ E (Rmult_lt_0_compat _ _ A B)).
Qed.
Lemma rnd32_le0 (x : R) : (x <= 0)%R -> (rnd32 x <= 0)%R.
Proof. intros H. rewrite <- rnd32_0. apply rnd32_le. exact H. Qed.
Lemma okS_add s x y : okS s x -> okS s y -> okS s (fadd x y).
Proof.
  destruct s; [|intros A B; assert (HA : fnn x) by (apply fnn_iff; exact A); assert (HB : fnn y) by (apply fnn_iff; exact B); pose proof (fnn_add _ _ HA HB) as HC; apply fnn_iff in HC; exact HC].
  intros Hx Hy. destruct (is_finite x) eqn:Fx; [destruct (is_finite y) eqn:Fy|].
  - pose proof (Bplus_correct 24 128 _ _ mode_NE x y Fx Fy) as H. fold (fadd x y) in H.
    pose proof (okT_R x Hx) as Rx. pose proof (okT_R y Hy) as Ry.
    match type of H with context [Rlt_bool ?a ?b] => destruct (Rlt_bool_spec a b) as [L|L] end.
    + destruct H as (H1 & H2 & _). apply R_okT; [exact H2|]. rewrite H1. apply (rnd32_le0 (B2R x + B2R y)%R). rewrite <- (Rplus_0_l 0). apply Rplus_le_compat; assumption.
    + destruct H as (H1 & H2).
      assert (Sx : Bsign x = true).
      { destruct (okS_cases _ x Hx) as [E|[[s E]|E]]; [subst; discriminate| |exact E].
        destruct (okS_cases _ y Hy) as [E2|[[s2 E2]|E2]]; [subst; discriminate| |rewrite H2; exact E2].
        exfalso. subst x y. cbn [B2R] in L. rewrite Rplus_0_l, round_0 in L by apply valid_rnd_N. rewrite Rabs_R0 in L. exact (Rle_not_lt _ _ L (bpow_gt_0 radix2 128)). }
      rewrite Sx in H1. destruct (fadd x y); cbn in H1 |- *; try discriminate; unfold binary_overflow in H1; cbn in H1; injection H1 as H1; auto.
  - destruct x, y; try discriminate; cbn in *; try exact I; subst; auto.
  - destruct x, y; try discriminate; cbn in *; subst; try exact I; try reflexivity.
Qed.
Lemma okS_zero_l s s' y : okS s (fmul (B754_zero s') y). Proof. destruct (fmul_zero_l s' y) as [->|[s2 ->]]; exact I. Qed.
Lemma okS_zero_r s s' y : okS s (fmul y (B754_zero s')). Proof. destruct (fmul_zero_r s' y) as [->|[s2 ->]]; exact I. Qed.
Lemma okS_sign s (r : f32) : is_nan r = true \/ Bsign r = s -> okS s r.
Proof. destruct r; cbn; intros [H|H]; try exact I; try discriminate; exact H. Qed.
Lemma okS_mul_nn l p : fnn p -> okS (Bsign l) (fmul l p).
Proof.
  rewrite fnn_iff. intros Hp. destruct (ok_cases p Hp) as [->|[[s ->]|Sp]]; [rewrite fmul_nan_r; exact I|apply okS_zero_r|].
  apply okS_sign. destruct (fmul_sign l p) as [H|H]; [left; exact H|right]. rewrite H, Sp. apply xorb_false_r.
Qed.
Lemma okS_mul_self l y : okS (Bsign l) y -> fnn (fmul y l).
Proof.
  intros H. apply fnn_iff. destruct (okS_cases _ y H) as [->|[[s ->]|E]]; [rewrite fmul_nan_l; exact I|apply (okS_zero_l false)|].
  apply sign_false_ok. destruct (fmul_sign y l) as [F|F]; [left; exact F|right]. rewrite F, E. apply xorb_nilpotent.
Qed.

(** * More facts about binary32: monotone rounding, literals *)
From Coq Require Import Lra Psatz.
From Verif Require Export F32.
Open Scope Z_scope.

Lemma rnd32_le (x y : R) : (x <= y)%R -> (rnd32 x <= rnd32 y)%R.
Proof. intros. apply round_le; auto; typeclasses eauto. Qed.
Lemma rnd32_0 : rnd32 0 = 0%R.
Proof. apply round_0. typeclasses eauto. Qed.
Lemma rnd32_ge0 (x : R) : (0 <= x)%R -> (0 <= rnd32 x)%R.
Proof. intros. rewrite <- rnd32_0. apply rnd32_le. assumption. Qed.
Lemma rnd32_le_Z (x : R) n : - 2 ^ 24 <= n <= 2 ^ 24 -> (x <= IZR n)%R -> (rnd32 x <= IZR n)%R.
Proof. intros Hn H. rewrite <- (rnd32_Z n Hn). apply rnd32_le. assumption. Qed.
Lemma rnd32_ge_Z (x : R) n : - 2 ^ 24 <= n <= 2 ^ 24 -> (IZR n <= x)%R -> (IZR n <= rnd32 x)%R.
Proof. intros Hn H. rewrite <- (rnd32_Z n Hn). apply rnd32_le. assumption. Qed.

Lemma big127 : (1000000000000000000000000000000 <= bpow radix2 127)%R.
Proof. rewrite bpow127_IZR. apply IZR_le. vm_compute. discriminate. Qed.

Lemma small150 : (bpow radix2 (-150) <= / 1000000000000000000000)%R.
Proof.
  change (bpow radix2 (-150)) with (/ IZR (Z.pow_pos 2 150))%R.
  apply Rinv_le; [lra|]. apply IZR_le. vm_compute. discriminate.
Qed.

Lemma two24 : (/ IZR (2 ^ 24) = / 16777216)%R.
Proof. f_equal. Qed.

(** rounding error as a two-sided bound *)
Lemma rnd32_bounds (x : R) : (0 <= x)%R ->
  (x * (1 - / 16777216) - / 1000000000000000000000 <= rnd32 x
   <= x * (1 + / 16777216) + / 1000000000000000000000)%R.
Proof.
  intros Hx. pose proof (rnd32_error x) as H. rewrite two24 in H. pose proof small150.
  rewrite (Rabs_pos_eq x) in H by assumption. apply Rabs_le_inv in H. lra.
Qed.

Lemma flit_R n d : - 2 ^ 24 <= n <= 2 ^ 24 -> 1 <= d <= 2 ^ 24 ->
  R32 (flit n d) = rnd32 (IZR n / IZR d) /\ is_finite (flit n d) = true.
Proof.
  intros Hn Hd. destruct (f_of_Z_exact n) as [E1 F1]; [lia|]. destruct (f_of_Z_exact d) as [E2 F2]; [lia|].
  assert (1 <= IZR d)%R by (apply IZR_le; lia).
  assert (Hb : (Rabs (IZR n / IZR d) <= bpow radix2 127)%R).
  { unfold Rdiv. rewrite Rabs_mult, (Rabs_pos_eq (/ IZR d)).
    2: { left; apply Rinv_0_lt_compat; lra. }
    assert (Rabs (IZR n) <= 16777216)%R by (rewrite <- abs_IZR; apply IZR_le; lia).
    assert (/ IZR d <= 1)%R by (rewrite <- Rinv_1; apply Rinv_le; lra).
    assert (0 < / IZR d)%R by (apply Rinv_0_lt_compat; lra).
    pose proof big127. pose proof (Rabs_pos (IZR n)). nra. }
  unfold flit. destruct (fdiv_R (f_of_Z n) (f_of_Z d)) as [E F].
  - exact F1. - rewrite E2; lra. - rewrite E1, E2. exact Hb.
  - rewrite E, E1, E2. auto.
Qed.

Lemma c_fminf_R a b : is_finite a = true -> is_finite b = true ->
  R32 (c_fminf a b) = Rmin (R32 a) (R32 b) /\ is_finite (c_fminf a b) = true.
Proof.
  intros Ha Hb. unfold c_fminf.
  assert (is_nan a = false) as -> by (destruct a; auto; discriminate).
  assert (is_nan b = false) as -> by (destruct b; auto; discriminate).
  rewrite flt_R by assumption. destruct (Rlt_bool_spec (R32 a) (R32 b)).
  - rewrite Rmin_left by lra. auto.
  - rewrite Rmin_right by lra. auto.
Qed.
Lemma c_fmaxf_R a b : is_finite a = true -> is_finite b = true ->
  R32 (c_fmaxf a b) = Rmax (R32 a) (R32 b) /\ is_finite (c_fmaxf a b) = true.
Proof.
  intros Ha Hb. unfold c_fmaxf.
  assert (is_nan a = false) as -> by (destruct a; auto; discriminate).
  assert (is_nan b = false) as -> by (destruct b; auto; discriminate).
  rewrite flt_R by assumption. destruct (Rlt_bool_spec (R32 a) (R32 b)).
  - rewrite Rmax_right by lra. auto.
  - rewrite Rmax_left by lra. auto.
Qed.

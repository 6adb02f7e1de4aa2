(** * C [float] as IEEE-754 binary32 (Flocq)

    [f32] has signed zeros, infinities and one NaN (payloads and the sign of
    NaN are never observed by the code).  All operations round to nearest,
    ties to even, as the default C++ environment does.  Everything is
    executable by [vm_compute]. *)
From Coq Require Export Reals.
From Coq Require Import Lra Psatz.
From Flocq Require Export Core.
From Flocq Require Import Relative.
From Flocq Require Export IEEE754.BinarySingleNaN.
From Verif Require Export CBase.
Open Scope Z_scope.

Definition f32 : Type := binary_float 24 128.
#[global] Instance prec24 : FLX.Prec_gt_0 24 := eq_refl.
#[global] Instance prec_emax : Prec_lt_emax 24 128 := eq_refl.

Definition fadd : f32 -> f32 -> f32 := Bplus mode_NE.
Definition fsub : f32 -> f32 -> f32 := Bminus mode_NE.
Definition fmul : f32 -> f32 -> f32 := Bmult mode_NE.
Definition fdiv : f32 -> f32 -> f32 := Bdiv mode_NE.
Definition fsqrt : f32 -> f32 := Bsqrt mode_NE.
Definition fneg : f32 -> f32 := Bopp.
Definition fabs : f32 -> f32 := Babs.

(** C comparison operators: false when an operand is NaN *)
Definition flt (a b : f32) : bool := Bltb a b.
Definition fle (a b : f32) : bool := Bleb a b.
Definition fgt (a b : f32) : bool := Bltb b a.
Definition fge (a b : f32) : bool := Bleb b a.

Definition fnan : f32 := B754_nan.
Definition finf : f32 := B754_infinity false.
Definition fis_nan (a : f32) : bool := is_nan a.
(** ISFINITE / PX4_ISFINITE *)
Definition fis_finite (a : f32) : bool := is_finite a.

(** conversion from an integer type to float (round to nearest) *)
Definition f_of_Z (n : Z) : f32 := binary_normalize 24 128 prec24 prec_emax mode_NE n 0 false.
(** decimal literal n/d with n and d exactly representable: the division is
    correctly rounded, so this is the float the literal denotes *)
Definition flit (n d : Z) : f32 := fdiv (f_of_Z n) (f_of_Z d).

Definition f0 : f32 := B754_zero false.
Definition f1 : f32 := f_of_Z 1.

(** ceilf *)
Definition fceil (a : f32) : f32 := Bnearbyint mode_UP a.

(** conversion float -> unsigned integer type with [bits] bits: truncation
    toward zero, undefined unless the truncated value is representable *)
Definition f_to_uint (bits : Z) (a : f32) : outcome Z :=
  if is_finite a then
    let t := Btrunc a in
    if (0 <=? t) && (t <? 2 ^ bits) then Ok t else UB
  else UB.

(** math::min / max / constrain, mathlib/mathlib.h l.60-77 (NaN falls through
    the comparisons) *)
Definition math_min (a b : f32) : f32 := if flt a b then a else b.
Definition math_max (a b : f32) : f32 := if fgt a b then a else b.
Definition math_constrain (v lo hi : f32) : f32 :=
  if flt v lo then lo else if fgt v hi then hi else v.

(** fmaxf / fminf of <cmath>: a NaN argument is ignored *)
Definition c_fmaxf (a b : f32) : f32 :=
  if is_nan a then b else if is_nan b then a else if flt a b then b else a.
Definition c_fminf (a b : f32) : f32 :=
  if is_nan a then b else if is_nan b then a else if flt a b then a else b.

(** ** Facts *)

Notation rnd32 := (round radix2 (SpecFloat.fexp 24 128) (round_mode mode_NE)).
Notation R32 := (@B2R 24 128).

Lemma fexp32 : SpecFloat.fexp 24 128 = FLT_exp (-149) 24. Proof. reflexivity. Qed.

#[global] Instance valid32 : Valid_exp (SpecFloat.fexp 24 128).
Proof. rewrite fexp32. apply FLT_exp_valid. reflexivity. Qed.

#[global] Instance vrnd : Valid_rnd (round_mode mode_NE).
Proof. apply valid_rnd_round_mode. Qed.

Lemma bpow127_format : generic_format radix2 (SpecFloat.fexp 24 128) (bpow radix2 127).
Proof. apply generic_format_bpow. vm_compute. discriminate. Qed.

Lemma rnd32_bounded (x : R) : (Rabs x <= bpow radix2 127)%R ->
  (Rabs (rnd32 x) < bpow radix2 128)%R.
Proof.
  intros H. apply Rle_lt_trans with (bpow radix2 127).
  - apply abs_round_le_generic; [exact valid32|exact vrnd|exact bpow127_format|exact H].
  - apply bpow_lt. reflexivity.
Qed.

Lemma rnd32_ok (x : R) : (Rabs x <= bpow radix2 127)%R ->
  Rlt_bool (Rabs (rnd32 x)) (bpow radix2 128) = true.
Proof. intros H. apply Rlt_bool_true. apply rnd32_bounded. exact H. Qed.

Lemma fadd_R a b : is_finite a = true -> is_finite b = true ->
  (Rabs (R32 a + R32 b) <= bpow radix2 127)%R ->
  R32 (fadd a b) = rnd32 (R32 a + R32 b) /\ is_finite (fadd a b) = true.
Proof.
  intros Ha Hb Hx. pose proof (Bplus_correct 24 128 _ _ mode_NE a b Ha Hb) as H.
  rewrite rnd32_ok in H by exact Hx. destruct H as (H1 & H2 & _). split; assumption.
Qed.
Lemma fsub_R a b : is_finite a = true -> is_finite b = true ->
  (Rabs (R32 a - R32 b) <= bpow radix2 127)%R ->
  R32 (fsub a b) = rnd32 (R32 a - R32 b) /\ is_finite (fsub a b) = true.
Proof.
  intros Ha Hb Hx. pose proof (Bminus_correct 24 128 _ _ mode_NE a b Ha Hb) as H.
  rewrite rnd32_ok in H by exact Hx. destruct H as (H1 & H2 & _). split; assumption.
Qed.
Lemma fmul_R a b : is_finite a = true -> is_finite b = true ->
  (Rabs (R32 a * R32 b) <= bpow radix2 127)%R ->
  R32 (fmul a b) = rnd32 (R32 a * R32 b) /\ is_finite (fmul a b) = true.
Proof.
  intros Ha Hb Hx. pose proof (Bmult_correct 24 128 _ _ mode_NE a b) as H.
  rewrite rnd32_ok in H by exact Hx. destruct H as (H1 & H2 & _).
  rewrite Ha, Hb in H2. split; assumption.
Qed.
Lemma fdiv_R a b : is_finite a = true -> R32 b <> 0%R ->
  (Rabs (R32 a / R32 b) <= bpow radix2 127)%R ->
  R32 (fdiv a b) = rnd32 (R32 a / R32 b) /\ is_finite (fdiv a b) = true.
Proof.
  intros Ha Hb Hx. pose proof (Bdiv_correct 24 128 _ _ mode_NE a b Hb) as H.
  rewrite rnd32_ok in H by exact Hx. destruct H as (H1 & H2 & _).
  rewrite Ha in H2. split; assumption.
Qed.
Lemma f_of_Z_R n : (Rabs (IZR n) <= bpow radix2 127)%R ->
  R32 (f_of_Z n) = rnd32 (IZR n) /\ is_finite (f_of_Z n) = true.
Proof.
  intros Hx. pose proof (binary_normalize_correct 24 128 prec24 prec_emax mode_NE n 0 false) as H.
  cbv zeta in H. unfold F2R in H. cbn [Fnum Fexp] in H. change (bpow radix2 0) with 1%R in H.
  rewrite Rmult_1_r in H. rewrite rnd32_ok in H by exact Hx. destruct H as (H1 & H2 & _). split; assumption.
Qed.
Lemma bpow127_IZR : bpow radix2 127 = IZR (2 ^ 127).
Proof. rewrite <- IZR_Zpower by lia. reflexivity. Qed.
Lemma f_of_Z_range n : - 2 ^ 127 <= n <= 2 ^ 127 ->
  R32 (f_of_Z n) = rnd32 (IZR n) /\ is_finite (f_of_Z n) = true.
Proof.
  intros H. apply f_of_Z_R. rewrite bpow127_IZR. rewrite <- abs_IZR. apply IZR_le. lia.
Qed.

(** integers up to 2^24 are exact *)
Lemma rnd32_Z n : - 2 ^ 24 <= n <= 2 ^ 24 -> rnd32 (IZR n) = IZR n.
Proof.
  intros H. apply round_generic; [exact vrnd|]. rewrite fexp32.
  destruct (Z.eq_dec (Z.abs n) (2 ^ 24)) as [E|E].
  - assert (Hb : generic_format radix2 (FLT_exp (-149) 24) (bpow radix2 24)) by (apply generic_format_bpow; vm_compute; discriminate).
    replace (bpow radix2 24) with (IZR (2 ^ 24)) in Hb by (rewrite <- IZR_Zpower by lia; reflexivity).
    destruct (Z.abs_spec n) as [[? E2]|[? E2]]; rewrite E in E2.
    + rewrite <- E2. exact Hb.
    + assert (n = - 2 ^ 24) as -> by lia. rewrite opp_IZR. apply generic_format_opp. exact Hb.
  - apply generic_format_FLT. exists (Float radix2 n 0).
    + unfold F2R. cbn [Fnum Fexp]. rewrite Rmult_1_r. reflexivity.
    + cbn [Fnum]. change (Zpower radix2 24) with (2 ^ 24). lia.
    + cbn [Fexp]. lia.
Qed.
Lemma f_of_Z_exact n : - 2 ^ 24 <= n <= 2 ^ 24 -> R32 (f_of_Z n) = IZR n /\ is_finite (f_of_Z n) = true.
Proof.
  intros H. destruct (f_of_Z_range n) as [E F].
  - assert (2 ^ 24 <= 2 ^ 127) by (apply Z.pow_le_mono_r; lia). lia.
  - rewrite E, rnd32_Z by exact H. split; [reflexivity|exact F].
Qed.

(** relative rounding error for normal results, absolute for subnormal ones *)
Lemma rnd32_error (x : R) : (Rabs (rnd32 x - x) <= / IZR (2 ^ 24) * Rabs x + bpow radix2 (-150))%R.
Proof.
  rewrite fexp32.
  destruct (error_N_FLT radix2 (-149) 24 eq_refl (fun z => negb (Z.even z)) x) as (eps & eta & H1 & H2 & _ & H4).
  change (round_mode mode_NE) with ZnearestE.
  rewrite H4. replace (x * (1 + eps) + eta - x)%R with (x * eps + eta)%R by ring.
  eapply Rle_trans; [apply Rabs_triang|]. rewrite Rabs_mult.
  replace (/ IZR (2 ^ 24))%R with (/ 2 * bpow radix2 (- 24 + 1))%R by (simpl; lra).
  replace (bpow radix2 (-150)) with (/ 2 * bpow radix2 (-149))%R.
  2:{ replace (-149) with (-150 + 1) by lia. rewrite bpow_plus. simpl (bpow radix2 1). lra. }
  apply Rplus_le_compat; [|exact H2].
  rewrite Rmult_comm. apply Rmult_le_compat_r; [apply Rabs_pos|]. exact H1.
Qed.

Lemma flt_R a b : is_finite a = true -> is_finite b = true -> flt a b = Rlt_bool (R32 a) (R32 b).
Proof. intros Ha Hb. apply Bltb_correct; assumption. Qed.
Lemma fle_R a b : is_finite a = true -> is_finite b = true -> fle a b = Rle_bool (R32 a) (R32 b).
Proof. intros Ha Hb. apply Bleb_correct; assumption. Qed.
Lemma flt_nan_l b : flt fnan b = false. Proof. destruct b; reflexivity. Qed.
Lemma flt_nan_r a : flt a fnan = false. Proof. destruct a as [[]|[]| |[]]; reflexivity. Qed.

Lemma fis_nan_eq (a : f32) : is_nan a = true -> a = fnan.
Proof. destruct a; simpl; try discriminate. reflexivity. Qed.

Lemma fceil_R a : R32 (fceil a) = IZR (Zceil (R32 a)) /\ is_finite (fceil a) = is_finite a.
Proof.
  destruct (Bnearbyint_correct 24 128 prec_emax mode_UP a) as (H1 & H2 & _).
  unfold fceil. split; [|exact H2]. rewrite H1. rewrite round_FIX_IZR. reflexivity.
Qed.
Lemma f_to_uint_R bits a n : is_finite a = true -> R32 a = IZR n ->
  f_to_uint bits a = if (0 <=? n) && (n <? 2 ^ bits) then Ok n else UB.
Proof.
  intros Ha E. unfold f_to_uint. rewrite Ha.
  assert (Btrunc a = n) as ->; [|reflexivity].
  apply eq_IZR. rewrite (Btrunc_correct 24 128 prec_emax a). rewrite round_FIX_IZR, E, Ztrunc_IZR. reflexivity.
Qed.
Lemma f_to_uint_trunc bits a : is_finite a = true ->
  f_to_uint bits a = if (0 <=? Ztrunc (R32 a)) && (Ztrunc (R32 a) <? 2 ^ bits) then Ok (Ztrunc (R32 a)) else UB.
Proof.
  intros Ha. unfold f_to_uint. rewrite Ha.
  assert (Btrunc a = Ztrunc (R32 a)) as ->; [|reflexivity].
  apply eq_IZR. rewrite (Btrunc_correct 24 128 prec_emax a). rewrite round_FIX_IZR. reflexivity.
Qed.

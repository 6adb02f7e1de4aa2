(** binary32 square roots around one *)
From Coq Require Import ZArith Bool Lia Reals Lra.
From Flocq Require Import Core IEEE754.BinarySingleNaN.
From Verif Require Import CBase F32 F32More.
Open Scope R_scope.

Lemma fsqrt_R (x : f32) : is_finite x = true -> 0 <= R32 x -> R32 (fsqrt x) = rnd32 (sqrt (R32 x)) /\ is_finite (fsqrt x) = true.
Proof.
  intros F P. destruct (Bsqrt_correct 24 128 eq_refl eq_refl mode_NE x) as (A & B & _). split; [exact A|]. 
  assert (B' : is_finite (fsqrt x) = match x with B754_zero _ => true | B754_finite false _ _ _ => true | _ => false end) by exact B. rewrite B'.
  destruct x as [s| | |s m e H]; try discriminate; [reflexivity|]. destruct s; [|reflexivity]. exfalso.
  cbn in P. unfold F2R in P. cbn in P. assert (0 < bpow radix2 e) by apply bpow_gt_0. assert (IZR (Z.neg m) < 0) by (apply IZR_lt; lia). nra.
Qed.
(** 1 + 2^-23, the smallest binary32 number above one, and its successor 1 + 2^-22 *)
Definition f_next1 : f32 := flit 8388609 8388608.
Definition f_next2 : f32 := flit 8388610 8388608.
Lemma next1_R : R32 f_next1 = 1 + bpow radix2 (-23) /\ is_finite f_next1 = true.
Proof.
  split; [|vm_compute; reflexivity]. rewrite <- (SF2R_B2SF 24 128 f_next1). replace (B2SF f_next1) with (SpecFloat.S754_finite false 8388609 (-23)) by (vm_compute; reflexivity).
  unfold SF2R, F2R. cbn [Fnum Fexp cond_Zopp]. change (bpow radix2 (-23)) with (/ IZR (2 ^ 23)). change (IZR (2 ^ 23)) with 8388608. lra.
Qed.
Lemma next2_R : R32 f_next2 = 1 + 2 * bpow radix2 (-23) /\ is_finite f_next2 = true.
Proof.
  split; [|vm_compute; reflexivity]. rewrite <- (SF2R_B2SF 24 128 f_next2). replace (B2SF f_next2) with (SpecFloat.S754_finite false 8388610 (-23)) by (vm_compute; reflexivity).
  unfold SF2R, F2R. cbn [Fnum Fexp cond_Zopp]. change (bpow radix2 (-23)) with (/ IZR (2 ^ 23)). change (IZR (2 ^ 23)) with 8388608. lra.
Qed.
Lemma f1_R : R32 f1 = 1 /\ is_finite f1 = true. Proof. exact (f_of_Z_exact 1 ltac:(lia)). Qed.
Lemma ulp_next1 : succ radix2 (SpecFloat.fexp 24 128) (R32 f_next1) = R32 f_next2.
Proof.
  destruct next1_R as [E1 _], next2_R as [E2 _]. rewrite E1, E2. assert (B : 0 < bpow radix2 (-23) < 1) by (change (bpow radix2 (-23)) with (/ 8388608); lra).
  rewrite succ_eq_pos by lra. rewrite ulp_neq_0 by lra. unfold cexp.
  rewrite (mag_unique_pos radix2 (1 + bpow radix2 (-23)) 1). { change (SpecFloat.fexp 24 128 1) with (-23)%Z. ring. }
  change (bpow radix2 (1 - 1)) with 1. change (bpow radix2 1) with 2. lra.
Qed.
Lemma above_next1 (r : f32) : R32 f_next1 < R32 r -> R32 f_next2 <= R32 r.
Proof. intros H. rewrite <- ulp_next1. apply succ_le_lt; [exact valid32|apply generic_format_B2R|apply generic_format_B2R|exact H]. Qed.
Lemma rsqrt_le (a b : f32) : is_finite a = true -> is_finite b = true -> 0 <= R32 a -> R32 a <= R32 b -> R32 (fsqrt a) <= R32 (fsqrt b).
Proof.
  intros FA FB PA H. destruct (fsqrt_R a FA PA) as [-> _]. destruct (fsqrt_R b FB) as [-> _]; [lra|]. apply rnd32_le. apply sqrt_le_1_alt. exact H.
Qed.
(** not NaN and not negative: what a squared innovation over a positive variance is *)
Definition ratio_ok (r : f32) : Prop := is_nan r = false /\ flt r f0 = false.
Lemma ratio_cases r : ratio_ok r -> r = B754_infinity false \/ (is_finite r = true /\ 0 <= R32 r).
Proof.
  intros [N P]. destruct r as [s|[]| |s m e H]; try discriminate; [right|left; reflexivity|right].
  - split; [reflexivity|cbn; lra].
  - split; [reflexivity|]. rewrite flt_R in P by reflexivity. revert P. case Rlt_bool_spec; [discriminate|]. cbn [B2R f0]. auto.
Qed.
Lemma sqrt_gt1 r : ratio_ok r -> fgt (fsqrt r) f1 = fgt r f_next1.
Proof.
  intros H. destruct f1_R as [E1 F1]. destruct next1_R as [N1 FN1]. destruct next2_R as [N2 FN2]. destruct (ratio_cases r H) as [->|[F P]]; [vm_compute; reflexivity|].
  destruct (fsqrt_R r F P) as [_ FS].
  change (flt f1 (fsqrt r) = flt f_next1 r). rewrite !flt_R by assumption. assert (B : 0 < bpow radix2 (-23)) by apply bpow_gt_0.
  case (Rlt_bool_spec (R32 f_next1) (R32 r)); intros L.
  - apply Rlt_bool_true. apply above_next1 in L. apply Rlt_le_trans with (R32 (fsqrt f_next2)); [|apply rsqrt_le; [exact FN2|exact F|lra|exact L]].
    assert (G : flt f1 (fsqrt f_next2) = true) by (vm_compute; reflexivity). rewrite flt_R in G; [|exact F1|apply fsqrt_R; [exact FN2|lra]]. revert G. case Rlt_bool_spec; [auto|discriminate].
  - apply Rlt_bool_false. apply Rle_trans with (R32 (fsqrt f_next1)); [apply rsqrt_le; [exact F|exact FN1|exact P|exact L]|].
    assert (G : flt f1 (fsqrt f_next1) = false) by (vm_compute; reflexivity). rewrite flt_R in G; [|exact F1|apply fsqrt_R; [exact FN1|lra]]. revert G. case Rlt_bool_spec; [discriminate|auto].
Qed.
(** one ulp above one implies above one *)
Lemma next1_gt1 r : is_nan r = false -> fgt r f_next1 = true -> fgt r f1 = true.
Proof.
  intros N H. destruct r as [s|[]| |s m e h]; try discriminate; try reflexivity. destruct f1_R as [E1 F1]. destruct next1_R as [N1 FN1].
  unfold fgt in *. change (flt f_next1 (B754_finite s m e h) = true) in H. change (flt f1 (B754_finite s m e h) = true).
  rewrite flt_R in * by (assumption || reflexivity). assert (B : 0 < bpow radix2 (-23)) by apply bpow_gt_0.
  apply Rlt_bool_true. revert H. case Rlt_bool_spec; [|discriminate]. intros; lra.
Qed.
Lemma sqrt_ok r : ratio_ok r -> ratio_ok (fsqrt r).
Proof.
  intros H. destruct (ratio_cases r H) as [->|[F P]]; [split; reflexivity|]. destruct (fsqrt_R r F P) as [E FS]. split; [destruct (fsqrt r); auto; discriminate|].
  rewrite flt_R by (exact FS || reflexivity). apply Rlt_bool_false. rewrite E. apply rnd32_ge0. apply sqrt_pos.
Qed.
(** the C++ maximum of non-NaN numbers exceeds a bound exactly when one of them does *)
Lemma flt_R_ext a b : is_nan a = false -> is_nan b = false -> flt a b = true ->
  (a = B754_infinity true /\ b <> B754_infinity true) \/ (b = B754_infinity false /\ a <> B754_infinity false) \/ (is_finite a = true /\ is_finite b = true /\ R32 a < R32 b).
Proof.
  intros Na Nb H. destruct a as [sa|[]| |sa ma ea ha]; try discriminate; destruct b as [sb|[]| |sb mb eb hb]; try discriminate;
  try (left; split; [reflexivity|discriminate]); try (right; left; split; [reflexivity|discriminate]);
  right; right; (split; [reflexivity|split; [reflexivity|]]); rewrite flt_R in H by reflexivity; revert H; case Rlt_bool_spec; auto; discriminate.
Qed.
Lemma flt_le_trans (x a b : f32) : is_nan x = false -> is_nan a = false -> is_nan b = false -> flt x a = true -> flt b a = false -> flt x b = true.
Proof.
  intros Nx Na Nb H1 H2. destruct (flt_R_ext x a Nx Na H1) as [[-> H]|[[-> H]|(F1 & F2 & H)]].
  - destruct a as [sa|[]| |sa ma ea ha], b as [sb|[]| |sb mb eb hb]; try discriminate; try reflexivity; congruence.
  - destruct b as [sb|[]| |sb mb eb hb]; try discriminate. destruct x as [s|[]| |s m e h]; try discriminate; try reflexivity; congruence.
  - destruct b as [sb|[]| |sb mb eb hb]; try discriminate.
    + rewrite flt_R in * by (assumption || reflexivity). apply Rlt_bool_true. revert H2. case Rlt_bool_spec; [discriminate|]. intros; lra.
    + destruct a; discriminate.
    + destruct x as [s|[]| |s m e h]; try discriminate; reflexivity.
    + rewrite flt_R in * by (assumption || reflexivity). apply Rlt_bool_true. revert H2. case Rlt_bool_spec; [discriminate|]. intros; lra.
Qed.
Lemma flt_asym (a b : f32) : is_nan a = false -> is_nan b = false -> flt b a = true -> flt a b = false.
Proof.
  intros Na Nb H. destruct (flt a b) eqn:E; [|reflexivity]. exfalso.
  destruct (flt_R_ext b a Nb Na H) as [[-> H1]|[[-> H1]|(F1 & F2 & H1)]].
  - destruct a as [?|[]| |? ? ? ?]; discriminate.
  - destruct b as [?|[]| |? ? ? ?]; discriminate.
  - rewrite flt_R in E by assumption. revert E. case Rlt_bool_spec; [intros; lra|discriminate].
Qed.
Lemma math_max_gt (x a b : f32) : is_nan x = false -> is_nan a = false -> is_nan b = false -> is_nan (math_max a b) = false /\ (fgt (math_max a b) x = true <-> fgt a x = true \/ fgt b x = true).
Proof.
  intros Nx Na Nb. unfold math_max. change fgt with (fun u v : f32 => flt v u). cbv beta. destruct (flt b a) eqn:E; [split; [exact Na|]|split; [exact Nb|]].
  - split; [auto|]. intros [H|H]; [exact H|]. apply (flt_le_trans x b a); auto. apply flt_asym; assumption.
  - split; [auto|]. intros [H|H]; [|exact H]. apply (flt_le_trans x a b); assumption.
Qed.
Lemma math_max_ok a b : ratio_ok a -> ratio_ok b -> ratio_ok (math_max a b).
Proof. unfold math_max. destruct (fgt a b); auto. Qed.

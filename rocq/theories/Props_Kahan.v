(** * C84: the compensated summation of the bias process noise, binary32 *)
From Coq Require Import Reals Lra Lia ZArith List.
From Flocq Require Import Core BinarySingleNaN.
From Verif Require Import CBase Scalar CovSpec CovModel CovProofs CovProofsG F32 F32More KahanProofs KahanProofs2 GeoLookupProofs.
Import ListNotations.
Open Scope R_scope.

(** ** Specification *)
(** half an ulp of 1 in single precision *)
Example eps_val : eps = / 2 ^ 24. Proof. unfold eps. replace (2 ^ 24) with 16777216 by ring. reflexivity. Qed.
(** exact sum of the inputs: total l = sum of their real values *)
Example total_val (a b c : f32) : total [a; b; c] = R32 a + (R32 b + (R32 c + 0)). Proof. reflexivity. Qed.

Lemma total_one (u : f32) : total [u] = R32 u. Proof. unfold total. cbn [fold_right]. ring. Qed.

(** ** The summation routine by itself: running sum over any list of inputs *)
Theorem C84_sum_error (s : f32) (l : list f32) : is_finite s = true -> 0 < R32 s ->
  Forall (fun u => is_finite u = true /\ 0 <= R32 u <= R32 s / 4) l ->
  R32 s + total l <= 10 ^ 20 -> INR (length l) <= 2 ^ 44 ->
  let r := fst (kahanRun l (s, f0)) in
  is_finite r = true /\ Rabs (R32 r - (R32 s + total l)) <= (3 * eps + 2 * INR (length l) * eps ^ 2) * (R32 s + total l).
Proof.
  intros Fs Ps HL HT HN r. assert (Z : R32 f0 = 0) by reflexivity.
  destruct (kahan_run_virtual s f0 l Fs eq_refl) as (F1 & F2 & B & C & D).
  { rewrite Z. lra. } { rewrite Z, Rabs_R0. unfold eps. lra. } { rewrite Z, Rminus_0_r. exact HL. } { rewrite Z. lra. } { exact HN. }
  split; [exact F1|]. rewrite Z in B. replace (R32 s - 0) with (R32 s) in B by ring.
  fold r in F1, B, C, D. set (a := R32 (snd (kahanRun l (s, f0)))) in *. set (n := INR (length l)) in *.
  assert (N0 : 0 <= n) by apply pos_INR.
  assert (PT : 0 <= total l) by (apply total_pos; revert HL; apply Forall_impl; intros; lra).
  set (S := R32 s + total l) in *. assert (TS : total l <= S) by (unfold S; lra).
  assert (E44 : n * (2 * eps ^ 2) <= 1 / 8). { unfold eps. replace (2 ^ 44) with 17592186044416 in HN by ring. replace (2 * (/ 16777216) ^ 2) with (/ 140737488355328) by field. lra. }
  assert (Q : n * (2 * eps ^ 2) * S <= 1 / 8 * S) by (apply Rmult_le_compat_r; lra).
  assert (TE : eps * total l <= eps * S) by (apply Rmult_le_compat_l; [unfold eps; lra|exact TS]).
  assert (AB : Rabs a <= 2 * eps * S).
  { apply (Rle_trans _ _ _ C). replace (2 * eps * S) with (eps * (2 * S)) by ring. apply Rmult_le_compat_l; [unfold eps; lra|]. apply Rabs_le_inv in B. unfold eps in *. lra. }
  replace (R32 r - S) with (a + (R32 r - a - S)) by ring. eapply Rle_trans; [apply Rabs_triang|].
  replace ((3 * eps + 2 * n * eps ^ 2) * S) with (2 * eps * S + (eps * S + n * (2 * eps ^ 2) * S)) by ring. lra.
Qed.

(** ** Through the covariance prediction *)
(** the variance added to a gyro bias per prediction: (dt^2 * limited noise density)^2, covariance.cpp l.180-181, l.218-219 *)
Definition gyroNoise (c : covctx f32) : f32 :=
  let dt := fmul (flit 10 1) (flit 1 1000) in
  let sig := fmul (fmul dt dt) (sconstrain (p_gyro_bias_p_noise c) f0 (flit 1 1)) in fmul sig sig.
(** n predictions, with arbitrary state, IMU data, flags and parameters each time *)
Definition predictions (l : list (covctx f32)) (s : covst f32) : covst f32 := fold_left (fun s c => predictCovariance c s) l s.

Lemma lit_bounds (n d : Z) : (0 <= n <= 2 ^ 24)%Z -> (1 <= d <= 2 ^ 24)%Z -> is_finite (flit n d) = true /\
  IZR n / IZR d * (1 - / 16777216) - / 1000000000000000000000 <= R32 (flit n d) <= IZR n / IZR d * (1 + / 16777216) + / 1000000000000000000000.
Proof. intros A B. destruct (flit_R n d ltac:(lia) B) as (E & F). split; [exact F|]. rewrite E. apply rnd32_bounds. assert (0 <= IZR n) by (apply IZR_le; lia). assert (1 <= IZR d) by (apply IZR_le; lia). apply Rmult_le_pos; [lra|]. left. apply Rinv_0_lt_compat. lra. Qed.
Lemma mul_bounds (a b : f32) (lo hi : R) : is_finite a = true -> is_finite b = true -> 0 <= lo -> lo <= R32 a * R32 b <= hi -> hi <= 1000 ->
  is_finite (fmul a b) = true /\ lo * (1 - / 16777216) - / 1000000000000000000000 <= R32 (fmul a b) <= hi * (1 + / 16777216) + / 1000000000000000000000 /\ 0 <= R32 (fmul a b).
Proof.
  intros Fa Fb L (H1 & H2) HB. destruct (fmul_R a b Fa Fb) as (E & F). { pose proof big127. apply Rabs_le. lra. }
  split; [exact F|]. rewrite E. split; [|apply rnd32_ge0; lra]. destruct (rnd32_bounds (R32 a * R32 b)) as (A & B); [lra|]. lra.
Qed.
Theorem C84_noise_bounds (c : covctx f32) : is_nan (p_gyro_bias_p_noise c) = false ->
  is_finite (gyroNoise c) = true /\ 0 <= R32 (gyroNoise c) <= 101 / 10000000000.
Proof.
  intros N. unfold gyroNoise. cbv zeta.
  destruct (lit_bounds 10 1 ltac:(lia) ltac:(lia)) as (Fa & A). destruct (lit_bounds 1 1000 ltac:(lia) ltac:(lia)) as (Fb & B).
  set (a := flit 10 1) in *. set (b := flit 1 1000) in *.
  destruct (mul_bounds a b (999 / 100000) (1001 / 100000) Fa Fb) as (Fd & D & D0); [lra| |lra|]. { split; nra. }
  set (d := fmul a b) in *.
  destruct (mul_bounds d d (997 / 10000000) (1003 / 10000000) Fd Fd) as (Fe & E & E0); [lra| |lra|]. { split; nra. }
  set (e := fmul d d) in *.
  assert (Z0 : (szero : f32) = f0) by (vm_compute; reflexivity).
  destruct (unit_scale (p_gyro_bias_p_noise c) N) as (Fk & K). rewrite Z0 in Fk, K. unfold sone in Fk, K. cbn [slit FScalar] in Fk, K.
  set (k := sconstrain (p_gyro_bias_p_noise c) f0 (flit 1 1)) in *.
  destruct (mul_bounds e k 0 (1004 / 10000000) Fe Fk) as (Fs & S & S0); [lra| |lra|]. { split; nra. }
  set (s := fmul e k) in *.
  destruct (mul_bounds s s 0 (10081 / 1000000000000) Fs Fs) as (Fu & U & U0); [lra| |lra|]. { split; nra. }
  split; [exact Fu|]. lra.
Qed.

Lemma clamp_id (x : f32) : is_finite x = true -> 0 <= R32 x <= 1 -> sconstrain x (szero : f32) (slit 1 1) = x.
Proof.
  intros F (A & B). destruct one_f32 as (F1 & E1). assert (Z0 : (szero : f32) = f0) by (vm_compute; reflexivity). rewrite Z0.
  unfold sconstrain. cbn [slt slit FScalar]. rewrite !flt_R by (assumption || reflexivity). rewrite E1. change (R32 f0) with 0.
  case Rlt_bool_spec; intros; [lra|]. case Rlt_bool_spec; intros; [lra|reflexivity].
Qed.
Lemma gyroNoise_eq (c : covctx f32) : sq (d_ang_bias_sig c) = gyroNoise c.
Proof. assert (Z0 : (szero : f32) = f0) by (vm_compute; reflexivity). unfold sq, d_ang_bias_sig, gyroNoise, dt_ekf. rewrite Z0. reflexivity. Qed.

Lemma predictions_run (s : covst f32) (k : nat) (l : list (covctx f32)) : (k < 3)%nat ->
  let P0 := cP s (10 + k)%nat (10 + k)%nat in
  is_finite P0 = true -> 0 < R32 P0 -> c_acc_ang s k = f0 ->
  Forall (fun c => is_nan (p_gyro_bias_p_noise c) = false /\ R32 (gyroNoise c) <= R32 P0 / 4) l ->
  R32 P0 + total (map gyroNoise l) <= 1 / 2 -> INR (length l) <= 2 ^ 44 ->
  (cP (predictions l s) (10 + k)%nat (10 + k)%nat, c_acc_ang (predictions l s) k) = kahanRun (map gyroNoise l) (P0, f0).
Proof.
  intros Hk P0 F P A. induction l as [|c l IH] using rev_ind; intros HL HT HN.
  - cbn [predictions fold_left map kahanRun]. unfold P0. rewrite <- A. reflexivity.
  - apply Forall_app in HL as (HL1 & HL2). inversion HL2 as [|? ? (Nc & Hc) _]; subst. destruct (C84_noise_bounds c Nc) as (Fc & Bc).
    rewrite map_app, total_app in HT. cbn [map] in HT. rewrite total_one in HT.
    rewrite app_length, plus_INR in HN. cbn [length INR] in HN.
    specialize (IH HL1 ltac:(lra) ltac:(lra)).
    assert (ALL : Forall (fun u => is_finite u = true /\ 0 <= R32 u <= R32 P0 / 4) (map gyroNoise l)).
    { apply Forall_map. revert HL1. apply Forall_impl. intros e (Ne & He). destruct (C84_noise_bounds e Ne) as (Fe & Be). split; [exact Fe|lra]. }
    assert (ALL2 : Forall (fun u => is_finite u = true /\ 0 <= R32 u <= R32 P0 / 4) (map gyroNoise (l ++ [c]))).
    { rewrite map_app. apply Forall_app. split; [exact ALL|]. constructor; [|constructor]. split; [exact Fc|lra]. }
    assert (T20 : 1 <= 10 ^ 20) by (assert (H : 10 ^ 20 = 100000000000000000000) by (cbn; lra); lra).
    assert (SUM : R32 P0 + total (map gyroNoise (l ++ [c])) <= 1 / 2) by (rewrite map_app, total_app; cbn [map]; rewrite total_one; lra).
    assert (LEN : INR (length (map gyroNoise (l ++ [c]))) <= 2 ^ 44) by (rewrite map_length, app_length, plus_INR; cbn [length INR]; lra).
    destruct (C84_sum_error P0 (map gyroNoise (l ++ [c])) F P ALL2 ltac:(lra) LEN) as (Fr & Br).
    unfold predictions. rewrite fold_left_app. cbn [fold_left]. fold (predictions l s). rewrite map_app, kahanRun_app. cbn [map kahanRun]. rewrite map_app, kahanRun_app in Br, Fr. cbn [map kahanRun] in Br, Fr.
    destruct (predict_gyro c (predictions l s) k Hk) as (E1 & E2). destruct (predInhibit_gyro c (predictions l s) k Hk) as (I1 & I2).
    rewrite I1, I2, gyroNoise_eq in E1, E2. rewrite <- IH in Br, Fr |- *. cbn [fst snd] in Br, Fr |- *. cbv zeta in E1, E2. rewrite E2.
    rewrite clamp_id in E1. { rewrite E1. destruct (kahan _ _ _) as [t a]. reflexivity. } { exact Fr. }
    rewrite app_length, map_length, plus_INR in Br. cbn [length INR] in Br. rewrite map_app, total_app in SUM. cbn [map] in SUM.
    rewrite total_app in Br.
    set (S := R32 P0 + (total (map gyroNoise l) + total [gyroNoise c])) in *. set (n := INR (length l)) in *.
    assert (PT : 0 <= total (map gyroNoise l)) by (apply total_pos; revert ALL; apply Forall_impl; intros; lra).
    assert (PC : 0 <= total [gyroNoise c]) by (rewrite total_one; lra).
    assert (S0 : 0 < S) by (unfold S; lra).
    assert (N0 : 0 <= n) by apply pos_INR.
    assert (E44 : 2 * (n + 1) * eps ^ 2 <= 1 / 8). { unfold eps. replace (2 ^ 44) with 17592186044416 in HN by ring. replace ((/ 16777216) ^ 2) with (/ 281474976710656) by field. lra. }
    assert (Q : (3 * eps + 2 * (n + 1) * eps ^ 2) * S <= 1 / 2 * S) by (apply Rmult_le_compat_r; [lra|unfold eps at 1; lra]).
    apply Rabs_le_inv in Br. lra.
Qed.

(** the published gyro bias variance after any number of predictions (at 100 Hz:
    thousands of years) is the starting variance plus every noise increment, to
    within 3 half-ulps plus a second-order term, whatever the IMU data, flags and
    the other parameters do *)
Theorem C84_gyro_bias_variance_accumulates (s : covst f32) (k : nat) (l : list (covctx f32)) : (k < 3)%nat ->
  let P0 := cP s (10 + k)%nat (10 + k)%nat in
  is_finite P0 = true -> 0 < R32 P0 -> c_acc_ang s k = f0 ->
  Forall (fun c => is_nan (p_gyro_bias_p_noise c) = false /\ R32 (gyroNoise c) <= R32 P0 / 4) l ->
  R32 P0 + total (map gyroNoise l) <= 1 / 2 -> INR (length l) <= 2 ^ 44 ->
  let Pn := cP (predictions l s) (10 + k)%nat (10 + k)%nat in
  let exact := R32 P0 + total (map gyroNoise l) in
  is_finite Pn = true /\ Rabs (R32 Pn - exact) <= (3 * eps + 2 * INR (length l) * eps ^ 2) * exact.
Proof.
  intros Hk P0 F P A HL HT HN. pose proof (predictions_run s k l Hk F P A HL HT HN) as E. cbv zeta in E. fold P0 in E.
  assert (ALL : Forall (fun u => is_finite u = true /\ 0 <= R32 u <= R32 P0 / 4) (map gyroNoise l)).
  { apply Forall_map. revert HL. apply Forall_impl. intros e (Ne & He). destruct (C84_noise_bounds e Ne) as (Fe & Be). split; [exact Fe|lra]. }
  assert (T20 : 1 <= 10 ^ 20) by (assert (H : 10 ^ 20 = 100000000000000000000) by (cbn; lra); lra).
  destruct (C84_sum_error P0 (map gyroNoise l) F P ALL ltac:(lra)) as (Fr & Br); [rewrite map_length; exact HN|].
  rewrite <- E in Fr, Br. cbn [fst] in Fr, Br. rewrite map_length in Br. split; [exact Fr|exact Br].
Qed.

(** ** The compensation is needed: with the default parameters plain addition never moves the variance *)
Definition default_ctx : covctx f32 :=
  let z := f0 in
  mkCtx (fun i => if Nat.eqb i 0 then flit 1 1 else z) (fun _ => z) (fun i => if Nat.eqb i 2 then flit (-98) 1000 else z) (fun _ => false) (fun i => if Nat.eqb i 2 then flit 1 1 else z)
    (flit 1 1000) (flit 3 1000) (flit 1 2) (flit 3 1) (flit 25 1) (flit 1 1000) (flit 1 10000) (flit 1 10) (flit 1 2) (flit 1 1) (flit 15 1000) (flit 35 100) (flit 4 10)
    false false false false false false false false true false false z z z z z z (flit 1 100) 0%Z.
(** initialiseCovariance: (switch_on_gyro_bias * dt)^2 with the default 0.1 rad/s *)
Definition P_init : f32 := let v := fmul (flit 1 10) (fmul (flit 10 1) (flit 1 1000)) in fmul v v.
Theorem C84_plain_addition_refuted (n : nat) :
  0 < R32 (gyroNoise default_ctx) /\ Nat.iter n (fun v => fadd v (gyroNoise default_ctx)) P_init = P_init.
Proof.
  split.
  - assert (F : is_finite (gyroNoise default_ctx) = true) by (vm_compute; reflexivity).
    assert (L : flt f0 (gyroNoise default_ctx) = true) by (vm_compute; reflexivity).
    rewrite flt_R in L by (assumption || reflexivity). change (R32 f0) with 0 in L. destruct (Rlt_bool_spec 0 (R32 (gyroNoise default_ctx))); [assumption|discriminate].
  - assert (E : fadd P_init (gyroNoise default_ctx) = P_init) by (apply B2SF_inj; vm_compute; reflexivity).
    induction n as [|n IH]; [reflexivity|]. cbn [Nat.iter nat_rect]. unfold Nat.iter in IH |- *. cbn [nat_rect]. rewrite IH. exact E.
Qed.
Definition default_cov : covst f32 :=
  mkCov (fun i j => if Nat.eqb i j then P_init else f0) (fun _ => false) (fun _ => f0) f0 f0 (fun _ => f0) f0 (fun _ => f0) (fun _ => f0) false false 0%Z false.
(** the hypotheses hold for the default configuration at switch-on, for any number of predictions up to a million *)
Lemma P_init_bounds : is_finite P_init = true /\ 99 / 100000000 <= R32 P_init <= 101 / 100000000.
Proof.
  unfold P_init. cbv zeta.
  destruct (lit_bounds 10 1 ltac:(lia) ltac:(lia)) as (Fa & A). destruct (lit_bounds 1 1000 ltac:(lia) ltac:(lia)) as (Fb & B). destruct (lit_bounds 1 10 ltac:(lia) ltac:(lia)) as (Fc & C).
  set (a := flit 10 1) in *. set (b := flit 1 1000) in *. set (c := flit 1 10) in *.
  destruct (mul_bounds a b (999999 / 100000000) (1000001 / 100000000) Fa Fb) as (Fd & D & D0); [lra| |lra|]. { split; nra. }
  set (d := fmul a b) in *.
  destruct (mul_bounds c d (99999 / 100000000) (100001 / 100000000) Fc Fd) as (Fe & E & E0); [lra| |lra|]. { split; nra. }
  set (e := fmul c d) in *.
  destruct (mul_bounds e e (991 / 1000000000) (1009 / 1000000000) Fe Fe) as (Fu & U & U0); [lra| |lra|]. { split; nra. }
  split; [exact Fu|]. lra.
Qed.
Lemma default_not_nan : is_nan (p_gyro_bias_p_noise default_ctx) = false.
Proof. vm_compute. reflexivity. Qed.
Lemma total_repeat (u : covctx f32) (n : nat) : total (map gyroNoise (repeat u n)) = INR n * R32 (gyroNoise u).
Proof.
  set (g := gyroNoise). clearbody g. induction n as [|n IH]; [unfold total; cbn [repeat map fold_right INR]; ring|]. cbn [repeat map]. rewrite S_INR.
  unfold total in *. cbn [fold_right]. rewrite IH. ring.
Qed.
Example C84_default_case (n : nat) (k : nat) : (k < 3)%nat -> INR n <= 1000000 ->
  let l := repeat default_ctx n in let P0 := cP default_cov (10 + k)%nat (10 + k)%nat in
  is_finite P0 = true /\ 0 < R32 P0 /\ c_acc_ang default_cov k = f0 /\
  Forall (fun c => is_nan (p_gyro_bias_p_noise c) = false /\ R32 (gyroNoise c) <= R32 P0 / 4) l /\
  R32 P0 + total (map gyroNoise l) <= 1 / 2 /\ INR (length l) <= 2 ^ 44.
Proof.
  intros Hk HI. cbv zeta. assert (E : cP default_cov (10 + k)%nat (10 + k)%nat = P_init) by (cbn [cP default_cov]; rewrite Nat.eqb_refl; reflexivity). rewrite E.
  destruct P_init_bounds as (F & B). destruct (C84_noise_bounds default_ctx default_not_nan) as (Fu & U).
  pose proof (total_repeat default_ctx n) as T. pose proof default_not_nan as ND.
  split; [exact F|]. split; [lra|]. split; [reflexivity|]. split.
  - apply Forall_forall. intros c Hc. apply repeat_spec in Hc. subst c. split; [exact ND|]. lra.
  - rewrite T, repeat_length. split; [|replace (2 ^ 44) with 17592186044416 by ring; lra].
    revert B U. generalize (R32 P_init) (R32 (gyroNoise default_ctx)). intros p g B U. nra.
Qed.
Print Assumptions C84_sum_error.
Print Assumptions C84_gyro_bias_variance_accumulates.
Print Assumptions C84_plain_addition_refuted.

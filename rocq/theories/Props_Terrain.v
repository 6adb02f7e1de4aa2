(** * Property C35: the terrain estimator *)
From Coq Require Import ZArith Bool Lia List Reals Lra Psatz.
From Coquelicot Require Import Coquelicot.
From Flocq Require Import Core IEEE754.BinarySingleNaN.
From Verif Require Import CBase F32 F32More F32Sign Scalar GpsModel TerrainModel.
Import ListNotations.
Open Scope R_scope.

(** ** Specification, independent of the model *)
(** variance of a range measurement of the terrain: vehicle height variance (scaled) plus sensor noise *)
Definition range_variance (p : tpar R) (i : tin R) : R := Rmax (t_P99 i * p_vvs p) 0 + p_rn p ^ 2 + (p_rns p * t_range i) ^ 2.
(** terrain position measured by the range finder *)
Definition range_terrain (i : tin R) : R := t_posd i + t_dist i.
(** minimum variance combination of two independent estimates (x, P) and (z, V) *)
Definition combine (x P z V : R) : R * R := ((x * V + z * P) / (P + V), P * V / (P + V)).
(** innovation consistency: within [g] standard deviations, [g] at least one *)
Definition consistent (g innov var : R) : Prop := innov ^ 2 <= (Rmax g 1) ^ 2 * var.
(** one step of an extended Kalman filter with one state, for a measurement with slope [dh] *)
Definition ekf_step (dh innov V : R) (e : R * R) : R * R :=
  let (x, P) := e in (x - P * dh / (dh ^ 2 * P + V) * innov, P * V / (dh ^ 2 * P + V)).
Definition est (s : tst R) : R * R := (h_vpos s, h_var s).
Definition recent5 (now ts : Z) : Prop := (now < ts + 5000000)%Z.
Definition no_wrap (now ts : Z) : Prop := (0 <= ts <= now /\ now + 10000000 < two64)%Z.

(** ** Helpers *)
Lemma rs_max (a b : R) : sfmax a b = Rmax a b. Proof. reflexivity. Qed.
Lemma rs_sle (a b : R) : (sle a b : bool) = true <-> a <= b. Proof. cbn [sle RScalar]. destruct (Rle_dec a b); intuition congruence. Qed.
Lemma rs_slt (a b : R) : (slt a b : bool) = true <-> a < b. Proof. cbn [slt RScalar]. destruct (Rlt_dec a b); intuition congruence. Qed.
Lemma slitR n d : (slit n d : R) = IZR n / IZR d. Proof. reflexivity. Qed.
Lemma lit0 : (szero : R) = 0. Proof. unfold szero. rewrite slitR. lra. Qed.
Lemma lit1 : (sone : R) = 1. Proof. unfold sone. rewrite slitR. lra. Qed.
Ltac ops := cbn [sadd ssub smul sdiv sopp RScalar].
Lemma obsVar_spec p i : obsVar p i = range_variance p i.
Proof. unfold obsVar, range_variance, sq. rewrite rs_max, lit0. ops. ring. Qed.
Lemma range_variance_pos p i : p_rn p <> 0 -> 0 < range_variance p i.
Proof. intros H. unfold range_variance. pose proof (Rmax_r (t_P99 i * p_vvs p) 0). pose proof (pow2_ge_0 (p_rns p * t_range i)). assert (0 < p_rn p ^ 2) by (apply pow2_gt_0; exact H). lra. Qed.
Lemma range_variance_nn p i : 0 <= range_variance p i.
Proof. unfold range_variance. pose proof (Rmax_r (t_P99 i * p_vvs p) 0). pose proof (pow2_ge_0 (p_rns p * t_range i)). pose proof (pow2_ge_0 (p_rn p)). lra. Qed.
Lemma haglVar_spec p i s : 0 <= h_var s -> haglVar p i s = h_var s + range_variance p i.
Proof. intros H. unfold haglVar. rewrite obsVar_spec, rs_max. ops. apply Rmax_left. lra. Qed.
Lemma ratio_le (g innov v : R) : 0 < v -> (sq innov / (sq (sfmax g sone) * v))%scal <= sone <-> consistent g innov v.
Proof.
  intros H. unfold consistent, sq. rewrite rs_max, lit1. ops. set (m := Rmax g 1). assert (M : 1 <= m) by apply Rmax_r.
  assert (D : 0 < m * m * v) by (apply Rmult_lt_0_compat; nra). split; intros L.
  - apply (Rmult_le_compat_r (m * m * v)) in L; [|lra]. unfold Rdiv in L. rewrite Rmult_assoc, Rinv_l in L by lra. nra.
  - apply (Rmult_le_reg_r (m * m * v)); [exact D|]. unfold Rdiv. rewrite Rmult_assoc, Rinv_l by lra. nra.
Qed.

(** ** Range finder fusion *)
Theorem C35_range_fusion : forall p i (s : tst R), p_rn p <> 0 -> 0 <= h_var s ->
  let z := range_terrain i in let V := range_variance p i in let s' := fuseHagl p i s in
  (** a consistent measurement is combined with the estimate with minimum variance ... *)
  (consistent (p_rgate p) (h_vpos s - z) (h_var s + V) -> est s' = combine (h_vpos s) (h_var s) z V /\ h_t_hagl s' = t_now i /\ h_reject s' = false) /\
  (** ... an inconsistent one changes nothing but the rejection flag, unless nothing has been
      accepted for ten seconds: then the estimate is reset to it *)
  (~ consistent (p_rgate p) (h_vpos s - z) (h_var s + V) -> is_timed_out (t_now i) (h_t_hagl s) 10000000 = false -> s' = setReject true s) /\
  (~ consistent (p_rgate p) (h_vpos s - z) (h_var s + V) -> is_timed_out (t_now i) (h_t_hagl s) 10000000 = true -> s' = setEst z V s).
Proof.
  intros p i s Hn HP z V s'. pose proof (range_variance_pos p i Hn) as HV. fold V in HV.
  assert (C : sle (haglRatio p i s) sone = true <-> consistent (p_rgate p) (h_vpos s - z) (h_var s + V)).
  { rewrite rs_sle. unfold haglRatio. rewrite haglVar_spec by exact HP. fold V. rewrite ratio_le by lra. unfold haglInnov, z, range_terrain. ops.
    replace (h_vpos s - t_posd i - t_dist i) with (h_vpos s - (t_posd i + t_dist i)) by ring. reflexivity. }
  unfold s', fuseHagl. destruct (sle (haglRatio p i s) sone) eqn:E.
  - split; [|split; intros N; exfalso; apply N, C; reflexivity]. intros _. split; [|split; reflexivity].
    unfold est, combine. cbn [setReject setHagl setEst h_vpos h_var]. rewrite haglVar_spec by exact HP. fold V. rewrite rs_max, lit0, lit1. unfold haglInnov. ops.
    f_equal.
    + unfold z, range_terrain. field. lra.
    + replace (h_var s * (1 - h_var s / (h_var s + V))) with (h_var s * V / (h_var s + V)) by (field; lra). apply Rmax_left. apply Rdiv_le_0_compat; [apply Rmult_le_pos; lra|lra].
  - assert (N : ~ consistent (p_rgate p) (h_vpos s - z) (h_var s + V)) by (intros X; apply C in X; congruence).
    split; [tauto|]. split; intros _ TO; rewrite TO; [reflexivity|]. unfold z, range_terrain, V. rewrite obsVar_spec. reflexivity.
Qed.
(** the combination lies between the two, and is at least as certain as each *)
Lemma combine_between x P z V : 0 <= P -> 0 < V -> let (x', P') := combine x P z V in
  Rmin x z <= x' <= Rmax x z /\ 0 <= P' /\ P' <= P /\ P' <= V.
Proof.
  intros HP HV. unfold combine. assert (D : 0 < P + V) by lra. assert (I : 0 < / (P + V)) by (apply Rinv_0_lt_compat; exact D).
  assert (E1 : (x * V + z * P) / (P + V) - x = (z - x) * (P * / (P + V))) by (field; lra).
  assert (E2 : (x * V + z * P) / (P + V) - z = (x - z) * (V * / (P + V))) by (field; lra).
  assert (E3 : P - P * V / (P + V) = P * P * / (P + V)) by (field; lra).
  assert (E4 : V - P * V / (P + V) = V * V * / (P + V)) by (field; lra).
  assert (E5 : P * V / (P + V) = P * V * / (P + V)) by reflexivity.
  assert (A : 0 <= P * / (P + V)) by (apply Rmult_le_pos; lra). assert (B : 0 <= V * / (P + V)) by (apply Rmult_le_pos; lra).
  assert (E3' : 0 <= P * P * / (P + V)) by (apply Rmult_le_pos; nra). assert (E4' : 0 <= V * V * / (P + V)) by (apply Rmult_le_pos; nra).
  assert (E5' : 0 <= P * V * / (P + V)) by (apply Rmult_le_pos; nra).
  split; [|lra]. unfold Rmin, Rmax. destruct (Rle_dec x z); split; nra.
Qed.

(** ** Optical flow fusion *)
(** predicted line of sight rate with the terrain at [t]: velocity across the line of sight
    times the tilt factor over the height above the terrain *)
Definition flow_pred (vb e22 posd t : R) : R := vb * e22 / (t - posd).
Definition measured_rate (i : tin R) (k : nat) : R := t_comp i k / t_fdt i + t_gbias i k.
(** flow measurement variance: the noise is interpolated by quality and never below 0.05 rad/s *)
Theorem C35_flow_noise : forall p (i : tin R), (5 / 100) ^ 2 <= flowMeasVar p i.
Proof.
  intros p i. unfold flowMeasVar, sq, sconstrain. rewrite !rs_max, !slitR, !lit1, !lit0. ops.
  set (b := Rmax (p_fn p) (5 / 100)). set (w := Rmax (p_fnq p) (5 / 100)). assert (B : 5 / 100 <= b) by apply Rmax_r. assert (W : 5 / 100 <= w) by apply Rmax_r.
  match goal with |- context [b * ?u] => set (u0 := u) end.
  assert (U : 0 <= u0 <= 1). { unfold u0. destruct (sle 1 _); [|lra]. destruct (slt _ 0) eqn:E1; [lra|]. destruct (slt 1 _) eqn:E2; [lra|].
    cbn [slt RScalar] in E1, E2. match type of E1 with context [Rlt_dec ?a ?b] => destruct (Rlt_dec a b) end; [discriminate|]. match type of E2 with context [Rlt_dec ?a ?b] => destruct (Rlt_dec a b) end; [discriminate|]. lra. }
  assert (G : 5 / 100 <= b * u0 + w * (1 - u0)) by nra. clearbody u0. apply Rle_trans with ((5 / 100) * (5 / 100)); [lra|]. apply Rmult_le_compat; [lra|lra|exact G|exact G].
Qed.
Definition tilt (i : tin R) : R := t_q i 0%nat ^ 2 - t_q i 1%nat ^ 2 - t_q i 2%nat ^ 2 + t_q i 3%nat ^ 2.
Lemma tilt_eq (i : tin R) : invRot (t_q i) 2%nat 2%nat = tilt i.
Proof. unfold invRot, tilt. ops. ring. Qed.
Lemma flow_slope vb e22 posd t : t - posd <> 0 -> is_derive (flow_pred vb e22 posd) t (- (vb * e22 / (t - posd) ^ 2)).
Proof. intros H. unfold flow_pred. auto_derive; [lra|]. field. lra. Qed.
Lemma flowAxis_spec p (i : tin R) vb rate t0 (s : tst R) : 0 <= h_var s -> t0 - t_posd i <> 0 ->
  let dh := - (vb * tilt i / (t0 - t_posd i) ^ 2) in let innov := flow_pred vb (tilt i) (t_posd i) t0 - rate in
  let V := flowMeasVar p i in let s' := flowAxis p i vb rate (1 / (t0 - t_posd i)) s in
  (consistent (p_fgate p) innov (dh ^ 2 * h_var s + V) -> est s' = ekf_step dh innov V (est s) /\ h_t_flow s' = t_now i) /\
  (~ consistent (p_fgate p) innov (dh ^ 2 * h_var s + V) -> s' = s) /\
  0 <= h_var s' <= h_var s /\ h_t_hagl s' = h_t_hagl s /\ h_init s' = h_init s /\ h_t_fake s' = h_t_fake s.
Proof.
  intros HP HT dh innov V s'. pose proof (C35_flow_noise p i) as HV. fold V in HV. assert (HV' : 0 < V) by nra.
  assert (SP : 0 < dh ^ 2 * h_var s + V). { pose proof (pow2_ge_0 dh). assert (0 <= dh ^ 2 * h_var s) by (apply Rmult_le_pos; lra). lra. }
  assert (EH : flowH vb (invRot (t_q i) 2%nat 2%nat) (1 / (t0 - t_posd i)) = - dh). { rewrite tilt_eq. unfold flowH, dh. ops. field. exact HT. }
  assert (EI : flowInnov vb (invRot (t_q i) 2%nat 2%nat) (1 / (t0 - t_posd i)) rate = innov). { rewrite tilt_eq. unfold flowInnov, innov, flow_pred. ops. field. exact HT. }
  assert (ES : flowS p i (- dh) (h_var s) = dh ^ 2 * h_var s + V). { unfold flowS, V. ops. ring. }
  unfold s', flowAxis. cbv zeta. rewrite EH, EI, ES.
  assert (C : sle (flowRatio p innov (dh ^ 2 * h_var s + V)) sone = true <-> consistent (p_fgate p) innov (dh ^ 2 * h_var s + V)).
  { rewrite rs_sle. unfold flowRatio. apply ratio_le. exact SP. }
  destruct (sle (flowRatio p innov (dh ^ 2 * h_var s + V)) sone) eqn:E.
  - cbn [setFlowT setEst h_vpos h_var h_t_flow h_t_hagl h_init h_t_fake]. rewrite rs_max, lit0. ops.
    replace (h_var s - h_var s * - dh / (dh ^ 2 * h_var s + V) * - dh * h_var s) with (h_var s * V / (dh ^ 2 * h_var s + V)) by (field; lra).
    assert (N : 0 <= h_var s * V / (dh ^ 2 * h_var s + V)) by (apply Rdiv_le_0_compat; [apply Rmult_le_pos; lra|exact SP]).
    rewrite Rmax_left by exact N. split; [|split; [tauto|split; [|split; [reflexivity|split; reflexivity]]]].
    + intros _. split; [|reflexivity]. unfold ekf_step, est. cbn [h_vpos h_var setFlowT setEst]. f_equal. field. lra.
    + split; [exact N|]. apply (Rmult_le_reg_r (dh ^ 2 * h_var s + V)); [exact SP|]. unfold Rdiv. rewrite Rmult_assoc, Rinv_l by lra. pose proof (pow2_ge_0 dh). nra.
  - split; [intros X; apply C in X; congruence|]. split; [reflexivity|]. split; [lra|]. split; [reflexivity|]. split; reflexivity.
Qed.

(** quality weighted flow noise *)
Theorem C35_flow_noise_interpolated : forall p (i : tin R), let best := Rmax (p_fn p) (5 / 100) in let worst := Rmax (p_fnq p) (5 / 100) in
  (p_qmin p <= 254 -> p_qmin p <= t_qual i <= 255 -> flowMeasVar p i = (worst + (best - worst) * ((t_qual i - p_qmin p) / (255 - p_qmin p))) ^ 2) /\
  (p_qmin p <= 254 -> t_qual i < p_qmin p -> flowMeasVar p i = worst ^ 2) /\ (254 < p_qmin p -> flowMeasVar p i = worst ^ 2).
Proof.
  intros p i best worst. unfold flowMeasVar, sq, sconstrain. change (sfmax (p_fn p) (slit 5 100)) with best. change (sfmax (p_fnq p) (slit 5 100)) with worst. rewrite !slitR, !lit1, !lit0. ops.
  replace (255 / 1) with 255 by lra. clearbody best worst. cbn [sle slt RScalar].
  split; [|split]; intros H.
  - intros [Q1 Q2]. destruct (Rle_dec 1 (255 - p_qmin p)); [|lra]. assert (0 <= (t_qual i - p_qmin p) / (255 - p_qmin p)) by (apply Rdiv_le_0_compat; lra).
    assert ((t_qual i - p_qmin p) / (255 - p_qmin p) <= 1). { apply (Rmult_le_reg_r (255 - p_qmin p)); [lra|]. unfold Rdiv. rewrite Rmult_assoc, Rinv_l by lra. lra. }
    destruct (Rlt_dec ((t_qual i - p_qmin p) / (255 - p_qmin p)) 0); [lra|]. destruct (Rlt_dec 1 ((t_qual i - p_qmin p) / (255 - p_qmin p))); [lra|]. ring.
  - intros Q. destruct (Rle_dec 1 (255 - p_qmin p)); [|lra]. assert ((t_qual i - p_qmin p) / (255 - p_qmin p) < 0). { apply (Rmult_lt_reg_r (255 - p_qmin p)); [lra|]. unfold Rdiv. rewrite Rmult_assoc, Rinv_l by lra. lra. }
    destruct (Rlt_dec ((t_qual i - p_qmin p) / (255 - p_qmin p)) 0); [|lra]. ring.
  - destruct (Rle_dec 1 (255 - p_qmin p)); [lra|]. ring.
Qed.
(** the velocity used is that of the flow sensor in body axes: for a vehicle moving with body
    velocity [u] and turning with the measured rate, u + w x r *)
Definition rotation (q : nat -> R) (i j : nat) : R :=
  let a := q 0%nat in let b := q 1%nat in let c := q 2%nat in let d := q 3%nat in
  match i, j with
  | 0%nat, 0%nat => 1 - 2 * (c * c + d * d) | 0%nat, 1%nat => 2 * (b * c - a * d) | 0%nat, 2%nat => 2 * (b * d + a * c)
  | 1%nat, 0%nat => 2 * (b * c + a * d) | 1%nat, 1%nat => 1 - 2 * (b * b + d * d) | 1%nat, 2%nat => 2 * (c * d - a * b)
  | 2%nat, 0%nat => 2 * (b * d - a * c) | 2%nat, 1%nat => 2 * (c * d + a * b) | 2%nat, 2%nat => 1 - 2 * (b * b + c * c)
  | _, _ => 0
  end.
Theorem C35_flow_sensor_velocity : forall (i : tin R) (u : nat -> R), t_q i 0%nat ^ 2 + t_q i 1%nat ^ 2 + t_q i 2%nat ^ 2 + t_q i 3%nat ^ 2 = 1 ->
  (forall r c, (r < 3)%nat -> (c < 3)%nat -> t_Rte i r c = rotation (t_q i) r c) ->
  (forall r, (r < 3)%nat -> t_vel i r = t_Rte i r 0%nat * u 0%nat + t_Rte i r 1%nat * u 1%nat + t_Rte i r 2%nat * u 2%nat) -> t_fdt i <> 0 ->
  let w := fun k => - t_gyro i k / t_fdt i in let r := t_off i in
  velBody i 0%nat = u 0%nat + (w 1%nat * r 2%nat - w 2%nat * r 1%nat) /\ velBody i 1%nat = u 1%nat + (w 2%nat * r 0%nat - w 0%nat * r 2%nat) /\
  velBody i 2%nat = u 2%nat + (w 0%nat * r 1%nat - w 1%nat * r 0%nat) /\ tilt i = rotation (t_q i) 2%nat 2%nat.
Proof.
  intros i u HQ HR HV HD w r. unfold velBody, mv. rewrite lit0. ops. cbv beta.
  rewrite (HV 0%nat), (HV 1%nat), (HV 2%nat) by lia.
  rewrite (HR 0%nat 0%nat), (HR 0%nat 1%nat), (HR 0%nat 2%nat), (HR 1%nat 0%nat), (HR 1%nat 1%nat), (HR 1%nat 2%nat), (HR 2%nat 0%nat), (HR 2%nat 1%nat), (HR 2%nat 2%nat) by lia.
  set (o0 := cross _ _ 0%nat). set (o1 := cross _ _ 1%nat). set (o2 := cross _ _ 2%nat).
  assert (O0 : o0 = w 1%nat * r 2%nat - w 2%nat * r 1%nat) by reflexivity.
  assert (O1 : o1 = w 2%nat * r 0%nat - w 0%nat * r 2%nat) by (unfold o1, cross, w, r; ops; field; exact HD).
  assert (O2 : o2 = w 0%nat * r 1%nat - w 1%nat * r 0%nat) by reflexivity.
  rewrite <- O0, <- O1, <- O2. clear O0 O1 O2. clearbody o0 o1 o2. clear HV HR. unfold invRot, rotation, tilt. ops. rewrite slitR. replace (2 / 1) with 2 by lra.
  generalize dependent (t_q i 0%nat). generalize dependent (t_q i 1%nat). generalize dependent (t_q i 2%nat). generalize dependent (t_q i 3%nat).
  generalize (u 0%nat) (u 1%nat) (u 2%nat). intros u0 u1 u2 d c b a HQ.
  set (N := a ^ 2 + b ^ 2 + c ^ 2 + d ^ 2) in *.
  replace (1 - 2 * (c * c + d * d)) with (a * a + b * b - c * c - d * d) by (unfold N in HQ; lra).
  replace (1 - 2 * (b * b + d * d)) with (a * a - b * b + c * c - d * d) by (unfold N in HQ; lra).
  replace (1 - 2 * (b * b + c * c)) with (a * a - b * b - c * c + d * d) by (unfold N in HQ; lra).
  split; [transitivity (N * N * (u0 + o0)); [unfold N; ring|rewrite HQ; ring]|]. split; [transitivity (N * N * (u1 + o1)); [unfold N; ring|rewrite HQ; ring]|].
  split; [transitivity (N * N * (u2 + o2)); [unfold N; ring|rewrite HQ; ring]|]. ring.
Qed.
(** the flow measurement of each axis is an extended Kalman filter update whose slope is the
    derivative of the predicted rate with respect to the terrain position.  Both are predicted
    at the same terrain position [t0], the estimate limited to the ground clearance *)
Theorem C35_flow_fusion : forall p (i : tin R) (s : tst R), 0 < p_clr p ->
  let t0 := Rmax (h_vpos s) (p_clr p + t_posd i) in let P0 := Rmax (h_var s) 0 in
  let V := flowMeasVar p i in
  let px := flow_pred (velBody i 1%nat) (tilt i) (t_posd i) in let py := flow_pred (- velBody i 0%nat) (tilt i) (t_posd i) in
  exists dx dy s1, is_derive px t0 dx /\ is_derive py t0 dy /\
    (consistent (p_fgate p) (px t0 - measured_rate i 0%nat) (dx ^ 2 * P0 + V) -> est s1 = ekf_step dx (px t0 - measured_rate i 0%nat) V (t0, P0)) /\
    (~ consistent (p_fgate p) (px t0 - measured_rate i 0%nat) (dx ^ 2 * P0 + V) -> est s1 = (t0, P0)) /\
    (consistent (p_fgate p) (py t0 - measured_rate i 1%nat) (dy ^ 2 * h_var s1 + V) -> est (fuseFlow p i s) = ekf_step dy (py t0 - measured_rate i 1%nat) V (est s1)) /\
    (~ consistent (p_fgate p) (py t0 - measured_rate i 1%nat) (dy ^ 2 * h_var s1 + V) -> fuseFlow p i s = s1) /\
    0 <= h_var (fuseFlow p i s) <= P0.
Proof.
  intros p i s HC t0 P0 V px py. assert (HT : t0 - t_posd i <> 0). { assert (p_clr p + t_posd i <= t0) by apply Rmax_r. lra. }
  set (s0 := setEst t0 P0 s). set (inv := 1 / (t0 - t_posd i)). set (s1 := flowAxis p i (velBody i 1%nat) (flowRate i 0%nat) inv s0).
  assert (EF : fuseFlow p i s = flowAxis p i (- velBody i 0%nat) (flowRate i 1%nat) inv s1).
  { unfold fuseFlow. cbv zeta. cbn [setEst h_vpos h_var]. rewrite !rs_max, lit1, lit0. reflexivity. }
  assert (HP0 : 0 <= h_var s0) by (cbn; apply Rmax_r).
  destruct (flowAxis_spec p i (velBody i 1%nat) (flowRate i 0%nat) t0 s0 HP0 HT) as (A1 & A2 & A3 & _).
  fold inv in A1, A2, A3. fold s1 in A1, A2, A3. destruct A3 as [A3 A3'].
  destruct (flowAxis_spec p i (- velBody i 0%nat) (flowRate i 1%nat) t0 s1 A3 HT) as (B1 & B2 & B3 & _). fold inv in B1, B2, B3. rewrite <- EF in B1, B2, B3.
  exists (- (velBody i 1%nat * tilt i / (t0 - t_posd i) ^ 2)), (- (- velBody i 0%nat * tilt i / (t0 - t_posd i) ^ 2)), s1.
  split; [apply flow_slope; exact HT|]. split; [apply flow_slope; exact HT|].
  split; [intros H; apply A1; exact H|]. split; [intros H; rewrite (A2 H); reflexivity|]. split; [intros H; apply B1; exact H|]. split; [exact B2|].
  change (h_var s0) with P0 in A3'. lra.
Qed.
(** a defect: the second axis' rate is predicted at [t0] although the first axis has already
    corrected the estimate, so the correction is partly applied twice.  A sequential filter
    would use the linear prediction at the corrected estimate; with it two measurements that
    agree on a terrain position [z] never move the estimate past [z] *)
Definition sequential_step (dh innov_at_t0 t0 V : R) (e : R * R) : R * R := ekf_step dh (innov_at_t0 + dh * (fst e - t0)) V e.
Theorem C35_flow_two_axes_sequential_refuted :
  ~ (forall dx dy ix iy V t0 P0, 0 < V -> 0 <= P0 -> ekf_step dy iy V (ekf_step dx ix V (t0, P0)) = sequential_step dy iy t0 V (ekf_step dx ix V (t0, P0))).
Proof. intros H. specialize (H 1 1 1 1 1 0 1 ltac:(lra) ltac:(lra)). unfold sequential_step, ekf_step in H. cbn [fst] in H. injection H as H. lra. Qed.
Theorem C35_flow_two_axes_overshoot : forall d V P0, 0 < d -> 0 < V -> 2 * V < P0 ->
  (** both axes (slope 1) measure the terrain at [d], estimate at zero: the sequential filter ends between 0 and [d], this one beyond [d] *)
  0 < fst (sequential_step 1 (0 - d) 0 V (ekf_step 1 (0 - d) V (0, P0))) < d /\ d < fst (ekf_step 1 (0 - d) V (ekf_step 1 (0 - d) V (0, P0))).
Proof.
  intros d V P0 Hd HV HP. unfold sequential_step, ekf_step. cbn [fst].
  assert (D1 : 0 < P0 + V) by lra. assert (D2 : 0 < 2 * P0 + V) by lra.
  assert (E : 0 - P0 * 1 / (1 ^ 2 * P0 + V) * (0 - d) - P0 * V / (1 ^ 2 * P0 + V) * 1 / (1 ^ 2 * (P0 * V / (1 ^ 2 * P0 + V)) + V) * (0 - d) = d + d * ((P0 * P0 - V * P0 - V * V) / ((P0 + V) * (2 * P0 + V)))) by (field; nra).
  assert (E2 : 0 - P0 * 1 / (1 ^ 2 * P0 + V) * (0 - d) - P0 * V / (1 ^ 2 * P0 + V) * 1 / (1 ^ 2 * (P0 * V / (1 ^ 2 * P0 + V)) + V) * (0 - d + 1 * (0 - P0 * 1 / (1 ^ 2 * P0 + V) * (0 - d) - 0)) = d - d * (V / (2 * P0 + V))) by (field; nra).
  rewrite E, E2. assert (F : 0 < (P0 * P0 - V * P0 - V * V) / ((P0 + V) * (2 * P0 + V))) by (apply Rdiv_lt_0_compat; nra).
  assert (G : 0 < V / (2 * P0 + V)) by (apply Rdiv_lt_0_compat; lra). assert (G1 : V / (2 * P0 + V) < 1). { apply (Rmult_lt_reg_r (2 * P0 + V)); [lra|]. unfold Rdiv. rewrite Rmult_assoc, Rinv_l by lra. lra. }
  repeat split; nra.
Qed.

(** ** One run *)
Definition estimating (s : tst R) (i : tin R) : Prop := h_init s = true /\ t_air i = true.
Lemma valid_est p i (s : tst R) : est (updateValidity p i s) = est s. Proof. reflexivity. Qed.
Lemma limit_spec p i (s : tst R) : h_vpos (limitClr p i s) = Rmax (h_vpos s) (t_posd i + p_clr p) /\ h_var (limitClr p i s) = h_var s /\
  h_t_hagl (limitClr p i s) = h_t_hagl s /\ h_t_flow (limitClr p i s) = h_t_flow s /\ h_t_fake (limitClr p i s) = h_t_fake s /\ h_init (limitClr p i s) = h_init s.
Proof.
  unfold limitClr. ops. destruct (slt (h_vpos s - t_posd i) (p_clr p)) eqn:E; [apply rs_slt in E|]; cbn [setEst h_vpos h_var h_t_hagl h_t_flow h_t_fake h_init]; (split; [|repeat split]); unfold Rmax; destruct (Rle_dec (h_vpos s) (t_posd i + p_clr p)); try lra.
  assert (~ (h_vpos s - t_posd i < p_clr p)) by (rewrite <- rs_slt; congruence). lra.
Qed.
(** in the air the terrain estimate is at least the ground clearance below the vehicle after every
    run (once initialised); on the ground it is exactly that, with the clearance as 1-sigma uncertainty *)
Theorem C35_clearance : forall p i (s : tst R), estimating s i -> t_posd i + p_clr p <= h_vpos (runTerrain p i s).
Proof.
  intros p i s [HI HA]. unfold runTerrain. rewrite HI, HA. cbn [negb orb]. cbv zeta. unfold updateValidity. cbn [setValid h_vpos].
  match goal with |- _ <= h_vpos (limitClr p i ?x) => destruct (limit_spec p i x) as [-> _] end. apply Rmax_r.
Qed.
Theorem C35_on_ground : forall p i (s : tst R), t_air i = false ->
  let s' := runTerrain p i s in est s' = (t_posd i + p_clr p, p_clr p ^ 2) /\ h_init s' = true /\ (no_wrap (t_now i) (t_now i) -> h_valid s' = true) /\ h_rng_bit s' = false.
Proof.
  intros p i s HA s'. unfold s', runTerrain, initHagl. rewrite HA. rewrite orb_true_r. cbn [negb]. unfold updateValidity, est, sq. ops.
  cbn [setValid setInit setHagl setFake setEst h_vpos h_var h_init h_valid h_rng_bit h_t_hagl h_t_flow h_t_fake]. split; [f_equal; ring|]. split; [reflexivity|]. split.
  - intros [H1 H2]. assert (R1 : is_recent (t_now i) (t_now i) 5000000 = true). { unfold is_recent, add64. rewrite u64_small; lia. } rewrite R1. reflexivity.
  - rewrite Z.eqb_refl, andb_false_r. reflexivity.
Qed.
(** between measurements the variance grows with time, terrain gradient and speed, up to 1e4 *)
Theorem C35_variance_growth : forall p i (s : tst R), estimating s i -> use_rng_now p i = false -> use_flow_now p i = false -> 0 <= h_var s ->
  est (runTerrain p i s) = (Rmax (h_vpos s) (t_posd i + p_clr p),
    Rmin 10000 (h_var s + t_dt i ^ 2 * (p_pnoise p ^ 2 + p_grad p ^ 2 * (t_vel i 0%nat ^ 2 + t_vel i 1%nat ^ 2)))).
Proof.
  intros p i s [HI HA] HR HF HP. unfold runTerrain. rewrite HI, HA, HR, HF. cbn [negb orb]. cbv zeta. rewrite valid_est. unfold est.
  destruct (limit_spec p i (setEst (h_vpos s) (predictVar p i (h_var s)) s)) as (-> & -> & _). cbn [setEst h_vpos h_var]. f_equal.
  unfold predictVar, sconstrain, sq. rewrite lit0, slitR. ops. replace (10000 / 1) with 10000 by lra. cbn [slt RScalar].
  match goal with |- (if _ ?x then _ else _) = _ => idtac | _ => idtac end.
  set (x := h_var s + t_dt i * p_pnoise p * (t_dt i * p_pnoise p) + t_dt i * p_grad p * (t_dt i * p_grad p) * (t_vel i 0%nat * t_vel i 0%nat + t_vel i 1%nat * t_vel i 1%nat)).
  replace (h_var s + t_dt i ^ 2 * (p_pnoise p ^ 2 + p_grad p ^ 2 * (t_vel i 0%nat ^ 2 + t_vel i 1%nat ^ 2))) with x by (unfold x; ring).
  assert (X : 0 <= x). { unfold x. assert (0 <= t_dt i * p_pnoise p * (t_dt i * p_pnoise p)) by apply Rle_0_sqr. assert (0 <= t_dt i * p_grad p * (t_dt i * p_grad p)) by apply Rle_0_sqr.
    assert (0 <= t_vel i 0%nat * t_vel i 0%nat) by apply Rle_0_sqr. assert (0 <= t_vel i 1%nat * t_vel i 1%nat) by apply Rle_0_sqr. assert (0 <= t_dt i * p_grad p * (t_dt i * p_grad p) * (t_vel i 0%nat * t_vel i 0%nat + t_vel i 1%nat * t_vel i 1%nat)) by (apply Rmult_le_pos; lra). lra. }
  clearbody x. destruct (Rlt_dec x 0); [lra|]. unfold Rmin. destruct (Rlt_dec 10000 x), (Rle_dec 10000 x); lra.
Qed.
(** initialisation in the air: from the range finder, else (if flow is to be used) at the origin or
    the vehicle, whichever is lower - so not always with clearance *)
Theorem C35_initialise_in_air : forall p i (s : tst R), t_air i = true -> h_init s = false ->
  let s' := runTerrain p i s in
  (p_use_rng p && t_healthy i = true -> est s' = (range_terrain i, p_rn p ^ 2) /\ h_init s' = true) /\
  (p_use_rng p && t_healthy i = false -> p_use_flow p && t_flow_ready i = true -> est s' = (Rmax 0 (t_posd i), 100) /\ h_init s' = true) /\
  (p_use_rng p && t_healthy i = false -> p_use_flow p && t_flow_ready i = false -> est s' = est s /\ h_init s' = false /\ h_valid s' = false).
Proof.
  intros p i s HA HI s'. unfold s', runTerrain, initHagl. rewrite HA, HI. cbn [negb orb]. unfold est.
  destruct (p_use_rng p && t_healthy i); [|destruct (p_use_flow p && t_flow_ready i)]; unfold updateValidity, sq;
    cbn [setValid setInit setHagl setFake setEst h_vpos h_var h_init h_valid]; (split; [|split]); intros; try discriminate; (split; [|split || idtac]); try reflexivity.
  - f_equal. ops. ring.
  - rewrite rs_max, lit0, slitR. f_equal. lra.
Qed.
Theorem C35_clearance_after_initialisation_refuted :
  ~ (forall p i (s : tst R), 0 < p_clr p -> h_init (runTerrain p i s) = true -> t_posd i + p_clr p <= h_vpos (runTerrain p i s)).
Proof.
  intros H. set (z := fun _ : nat => 0). set (p := mkTp (1 / 10) (1 / 10) 0 1 5 3 5 (1 / 2) false true (15 / 100) (1 / 2) 1 : tpar R).
  set (i := mkTi 1000000%Z true 1 z z (fun _ _ => 0) 0 (1 / 100) false 0 0 true z (1 / 100) z z z 200 : tin R).
  set (s := mkTs 0 10000 false 0%Z 0%Z 0%Z false false false false : tst R).
  destruct (C35_initialise_in_air p i s eq_refl eq_refl) as (_ & A & _). destruct (A eq_refl eq_refl) as [E1 E2].
  specialize (H p i s). assert (HC : 0 < p_clr p) by (cbn; lra). specialize (H HC E2). apply (f_equal fst) in E1. unfold est in E1. cbn [fst] in E1. change (1 + 1 / 10 <= h_vpos (runTerrain p i s)) in H. rewrite E1 in H. change (t_posd i) with 1 in H. rewrite Rmax_right in H; lra.
Qed.

(** ** Histories *)
(** the variance never becomes negative, and is limited to 1e4 by every run that neither
    initialises nor resets *)
Lemma fuseHagl_var p i (s : tst R) : p_rn p <> 0 -> 0 <= h_var s -> 0 <= h_var (fuseHagl p i s) /\ (h_var (fuseHagl p i s) <= h_var s \/ h_var (fuseHagl p i s) = range_variance p i).
Proof.
  intros Hn HP. destruct (C35_range_fusion p i s Hn HP) as (A & B & C). pose proof (range_variance_pos p i Hn) as HV.
  destruct (Rle_dec ((h_vpos s - range_terrain i) ^ 2) (Rmax (p_rgate p) 1 ^ 2 * (h_var s + range_variance p i))) as [Y|N].
  - destruct (A Y) as [E _]. pose proof (combine_between (h_vpos s) (h_var s) (range_terrain i) (range_variance p i) HP HV) as X. rewrite <- E in X. unfold est in X. lra.
  - destruct (is_timed_out (t_now i) (h_t_hagl s) 10000000) eqn:TO.
    + rewrite (C N eq_refl). cbn [setEst h_var]. lra.
    + rewrite (B N eq_refl). cbn [setReject h_var]. lra.
Qed.
Lemma predict_bounds p i v : 0 <= predictVar p i v <= 10000.
Proof.
  unfold predictVar, sconstrain. rewrite lit0, slitR. match goal with |- context [slt ?a 0] => set (x := a) end. replace (10000 / 1) with 10000 by lra.
  destruct (slt x 0) eqn:E1; [lra|]. destruct (slt 10000 x) eqn:E2; [lra|].
  assert (~ x < 0) by (rewrite <- rs_slt; congruence). assert (~ 10000 < x) by (rewrite <- rs_slt; congruence). lra.
Qed.
Lemma fuseFlow_var p i (s : tst R) : 0 < p_clr p -> 0 <= h_var s -> 0 <= h_var (fuseFlow p i s) <= h_var s.
Proof. intros HC HP. destruct (C35_flow_fusion p i s HC) as (dx & dy & s1 & _ & _ & _ & _ & _ & _ & H). rewrite Rmax_left in H by exact HP. exact H. Qed.
Lemma run_var p i (s : tst R) : p_rn p <> 0 -> 0 < p_clr p -> 0 <= h_var s ->
  0 <= h_var (runTerrain p i s) /\ h_var (runTerrain p i s) <= Rmax (Rmax 10000 (h_var s)) (Rmax (range_variance p i) (Rmax (p_clr p ^ 2) (p_rn p ^ 2))).
Proof.
  intros Hn HC HP. assert (L := Rmax_l). assert (M := Rmax_r).
  unfold runTerrain. destruct (negb (h_init s) || negb (t_air i)).
  - unfold initHagl. cbv zeta. destruct (negb (t_air i)); [|destruct (p_use_rng p && t_healthy i); [|destruct (p_use_flow p && t_flow_ready i)]];
      unfold updateValidity, sq; cbn [setValid setInit setHagl setFake setEst h_var]; ops.
    + split; [nra|]. eapply Rle_trans; [|apply Rmax_r]. eapply Rle_trans; [|apply Rmax_r]. eapply Rle_trans; [|apply Rmax_l]. lra.
    + split; [nra|]. eapply Rle_trans; [|apply Rmax_r]. eapply Rle_trans; [|apply Rmax_r]. eapply Rle_trans; [|apply Rmax_r]. lra.
    + rewrite slitR. split; [lra|]. eapply Rle_trans; [|apply Rmax_l]. eapply Rle_trans; [|apply Rmax_l]. lra.
    + split; [exact HP|]. eapply Rle_trans; [|apply Rmax_l]. apply Rmax_r.
  - cbv zeta. set (s1 := setEst (h_vpos s) (predictVar p i (h_var s)) s). assert (B1 : 0 <= h_var s1 <= 10000) by apply predict_bounds.
    set (s2 := if use_rng_now p i then fuseHagl p i s1 else s1).
    assert (B2 : 0 <= h_var s2 /\ (h_var s2 <= 10000 \/ h_var s2 = range_variance p i)). { unfold s2. destruct (use_rng_now p i); [|lra]. destruct (fuseHagl_var p i s1 Hn (proj1 B1)) as [X [Y|Y]]; lra. }
    set (s3 := if use_flow_now p i then fuseFlow p i s2 else s2).
    assert (B3 : 0 <= h_var s3 <= h_var s2). { unfold s3. destruct (use_flow_now p i); [|lra]. apply fuseFlow_var; [exact HC|apply B2]. }
    unfold updateValidity. cbn [setValid h_var]. destruct (limit_spec p i s3) as (_ & -> & _). split; [lra|]. destruct B2 as [_ [B2|B2]].
    + eapply Rle_trans; [|apply Rmax_l]. eapply Rle_trans; [|apply Rmax_l]. lra.
    + eapply Rle_trans; [|apply Rmax_r]. eapply Rle_trans; [|apply Rmax_l]. lra.
Qed.
Theorem C35_variance_never_negative : forall p l (s : tst R), p_rn p <> 0 -> 0 < p_clr p -> 0 <= h_var s -> 0 <= h_var (runAll p l s).
Proof.
  intros p l s Hn HC. revert s. induction l as [|i l IH]; intros s HP; [exact HP|]. change (0 <= h_var (runAll p l (runTerrain p i s))). apply IH. apply run_var; assumption.
Qed.
(** ... and its limit depends only on the parameters and the largest range measurement variance *)
Theorem C35_variance_bounded : forall p l (s : tst R) B, p_rn p <> 0 -> 0 < p_clr p -> 0 <= h_var s ->
  (forall i, In i l -> range_variance p i <= B) -> 10000 <= B -> h_var s <= B -> p_clr p ^ 2 <= B -> p_rn p ^ 2 <= B -> h_var (runAll p l s) <= B.
Proof.
  intros p l s B Hn HC HP HB H1 H2 H3 H4. revert s HP H2 HB. induction l as [|i l IH]; intros s HP H2 HB; [exact H2|]. change (h_var (runAll p l (runTerrain p i s)) <= B).
  destruct (run_var p i s Hn HC HP) as [A C]. apply IH; [exact A| |intros j Hj; apply HB; right; exact Hj].
  eapply Rle_trans; [exact C|]. assert (range_variance p i <= B) by (apply HB; left; reflexivity). repeat apply Rmax_lub; assumption.
Qed.

(** the estimation error never grows: flat terrain at [z], a vehicle that is where the estimator
    thinks it is, range measurements (and, on the ground, the assumed clearance) within [E] of
    the truth and a vehicle above the terrain by the clearance; no flow fusion *)
Definition close_input (p : tpar R) (z E : R) (i : tin R) : Prop :=
  (t_air i = false -> Rabs (t_posd i + p_clr p - z) <= E) /\
  (t_air i = true -> t_posd i + p_clr p <= z /\ use_flow_now p i = false /\ (use_rng_now p i = true -> Rabs (range_terrain i - z) <= E)).
Theorem C35_error_never_grows : forall p z E l (s : tst R), p_rn p <> 0 -> 0 < p_clr p -> 0 <= h_var s ->
  (h_init s = true -> Rabs (h_vpos s - z) <= E) -> (forall i, In i l -> close_input p z E i) ->
  h_init (runAll p l s) = true -> Rabs (h_vpos (runAll p l s) - z) <= E.
Proof.
  intros p z E l s Hn HC. revert s. induction l as [|i l IH]; intros s HP HI HL; [exact HI|].
  change (h_init (runAll p l (runTerrain p i s)) = true -> Rabs (h_vpos (runAll p l (runTerrain p i s)) - z) <= E).
  apply IH; [apply run_var; assumption| |intros j Hj; apply HL; right; exact Hj]. destruct (HL i (or_introl eq_refl)) as [HG HA]. clear IH HL.
  destruct (t_air i) eqn:A.
  2: { intros _. destruct (C35_on_ground p i s A) as [X _]. apply (f_equal fst) in X. unfold est in X. cbn [fst] in X. rewrite X. apply HG. reflexivity. }
  destruct (HA eq_refl) as (H1 & H2 & H3). clear HA HG. destruct (h_init s) eqn:I.
  2: { destruct (C35_initialise_in_air p i s A I) as (X & _ & Y). destruct (p_use_rng p && t_healthy i) eqn:U.
       - destruct (X eq_refl) as [X1 _]. apply (f_equal fst) in X1. unfold est in X1. cbn [fst] in X1. rewrite X1. intros _. apply H3. exact U.
       - destruct (Y eq_refl H2) as (_ & Y2 & _). congruence. }
  intros _. specialize (HI eq_refl). unfold runTerrain. rewrite I, A, H2. cbn [negb orb]. cbv zeta.
  set (s1 := setEst (h_vpos s) (predictVar p i (h_var s)) s). assert (B1 : 0 <= h_var s1 <= 10000) by apply predict_bounds.
  set (s2 := if use_rng_now p i then fuseHagl p i s1 else s1).
  assert (K : Rabs (h_vpos s2 - z) <= E).
  { unfold s2. destruct (use_rng_now p i) eqn:U; [|exact HI]. specialize (H3 eq_refl). destruct (C35_range_fusion p i s1 Hn (proj1 B1)) as (F1 & F2 & F3).
    destruct (Rle_dec ((h_vpos s1 - range_terrain i) ^ 2) (Rmax (p_rgate p) 1 ^ 2 * (h_var s1 + range_variance p i))) as [Y|N].
    - destruct (F1 Y) as [G _]. pose proof (combine_between (h_vpos s1) (h_var s1) (range_terrain i) (range_variance p i) (proj1 B1) (range_variance_pos p i Hn)) as X. rewrite <- G in X. unfold est in X.
      destruct X as [X _]. change (h_vpos s1) with (h_vpos s) in X. revert X. apply Rabs_le_between in HI. apply Rabs_le_between in H3. intros X. apply Rabs_le_between.
      unfold Rmin, Rmax in X. destruct (Rle_dec (h_vpos s) (range_terrain i)); lra.
    - destruct (is_timed_out (t_now i) (h_t_hagl s1) 10000000) eqn:TO.
      + rewrite (F3 N eq_refl). exact H3.
      + rewrite (F2 N eq_refl). exact HI. }
  unfold updateValidity. cbn [setValid h_vpos]. destruct (limit_spec p i s2) as (-> & _). clearbody s2. apply Rabs_le_between in K. apply Rabs_le_between. unfold Rmax. destruct (Rle_dec (h_vpos s2) (t_posd i + p_clr p)); lra.
Qed.

(** ** Validity *)
(** information about the terrain in one run: on the ground, an initialisation, or an accepted measurement *)
Definition informed (p : tpar R) (i : tin R) (s : tst R) : Prop :=
  t_air i = false \/ (h_init s = false /\ (use_rng_now p i = true \/ use_flow_now p i = true)) \/
  (h_init s = true /\ exists P, 0 <= P <= 10000 /\
     ((use_rng_now p i = true /\ consistent (p_rgate p) (h_vpos s - range_terrain i) (P + range_variance p i)) \/
      (use_flow_now p i = true))).
Lemma run_times p i (s : tst R) : p_rn p <> 0 -> 0 < p_clr p -> 0 <= h_var s ->
  (h_t_hagl (runTerrain p i s) = h_t_hagl s /\ h_t_flow (runTerrain p i s) = h_t_flow s) \/
  (informed p i s /\ (h_t_hagl (runTerrain p i s) = h_t_hagl s \/ h_t_hagl (runTerrain p i s) = t_now i) /\ (h_t_flow (runTerrain p i s) = h_t_flow s \/ h_t_flow (runTerrain p i s) = t_now i)).
Proof.
  intros Hn HC HP. unfold informed. destruct (t_air i) eqn:A.
  2: { right. split; [left; reflexivity|]. unfold runTerrain, initHagl. rewrite A, orb_true_r. cbn. auto. }
  destruct (h_init s) eqn:I.
  2: { unfold runTerrain, initHagl. rewrite A, I. cbn [negb orb]. fold (use_rng_now p i) (use_flow_now p i).
       destruct (use_rng_now p i) eqn:U; [right; split; [right; left; auto|cbn; auto]|]. destruct (use_flow_now p i) eqn:W; [right; split; [right; left; auto|cbn; auto]|]. left. cbn. auto. }
  unfold runTerrain. rewrite A, I. cbn [negb orb]. cbv zeta.
  set (s1 := setEst (h_vpos s) (predictVar p i (h_var s)) s). assert (B1 : 0 <= h_var s1 <= 10000) by apply predict_bounds.
  set (s2 := if use_rng_now p i then fuseHagl p i s1 else s1). set (s3 := if use_flow_now p i then fuseFlow p i s2 else s2).
  unfold updateValidity. cbn [setValid h_t_hagl h_t_flow]. destruct (limit_spec p i s3) as (_ & _ & -> & -> & _).
  assert (T2 : h_t_flow s2 = h_t_flow s /\ (h_t_hagl s2 = h_t_hagl s \/ (use_rng_now p i = true /\ consistent (p_rgate p) (h_vpos s - range_terrain i) (h_var s1 + range_variance p i) /\ h_t_hagl s2 = t_now i))).
  { unfold s2. destruct (use_rng_now p i) eqn:U; [|auto]. split; [unfold fuseHagl; destruct (sle _ _); [reflexivity|destruct (is_timed_out _ _ _); reflexivity]|].
    destruct (C35_range_fusion p i s1 Hn (proj1 B1)) as (F1 & F2 & F3).
    destruct (Rle_dec ((h_vpos s1 - range_terrain i) ^ 2) (Rmax (p_rgate p) 1 ^ 2 * (h_var s1 + range_variance p i))) as [Y|N].
    - right. split; [reflexivity|]. split; [exact Y|]. apply F1. exact Y.
    - left. destruct (is_timed_out (t_now i) (h_t_hagl s1) 10000000) eqn:TO; [rewrite (F3 N eq_refl)|rewrite (F2 N eq_refl)]; reflexivity. }
  assert (T3 : h_t_hagl s3 = h_t_hagl s2 /\ (h_t_flow s3 = h_t_flow s2 \/ (use_flow_now p i = true /\ h_t_flow s3 = t_now i))).
  { unfold s3. destruct (use_flow_now p i) eqn:W; [|auto]. unfold fuseFlow, flowAxis. cbv zeta. repeat match goal with |- context [if sle ?a ?b then _ else _] => destruct (sle a b) end; cbn [setFlowT setEst h_t_hagl h_t_flow]; auto. }
  destruct T2 as [T2 [T2'|(U & C & T2')]], T3 as [T3 [T3'|(W & T3')]]; rewrite ?T3, ?T3', ?T2, ?T2'; auto; right; (split; [right; right; split; [reflexivity|exists (h_var s1); split; [exact B1|auto]]|auto]).
Qed.
(** the estimate is reported valid exactly when it is initialised and the last range or flow time
    is less than five seconds old ... *)
Theorem C35_validity : forall p i (s : tst R), no_wrap (t_now i) (h_t_hagl (runTerrain p i s)) -> no_wrap (t_now i) (h_t_flow (runTerrain p i s)) ->
  let s' := runTerrain p i s in
  (h_valid s' = true <-> h_init s' = true /\ (recent5 (t_now i) (h_t_hagl s') \/ recent5 (t_now i) (h_t_flow s'))) /\
  (h_rng_bit s' = true <-> p_use_rng p = true /\ recent5 (t_now i) (h_t_hagl s') /\ h_t_fake s' <> h_t_hagl s') /\
  (h_flow_bit s' = true <-> p_use_flow p = true /\ recent5 (t_now i) (h_t_flow s')).
Proof.
  intros p i s. unfold runTerrain. match goal with |- context [updateValidity p i ?x] => set (y := x) end. clearbody y.
  unfold updateValidity. cbn [setValid h_valid h_rng_bit h_flow_bit h_init h_t_hagl h_t_flow h_t_fake]. intros [W1 W2] [W3 W4].
  assert (R1 : is_recent (t_now i) (h_t_hagl y) 5000000 = true <-> recent5 (t_now i) (h_t_hagl y)). { unfold is_recent, add64, recent5. rewrite u64_small by lia. rewrite Z.gtb_ltb, Z.ltb_lt. lia. }
  assert (R2 : is_recent (t_now i) (h_t_flow y) 5000000 = true <-> recent5 (t_now i) (h_t_flow y)). { unfold is_recent, add64, recent5. rewrite u64_small by lia. rewrite Z.gtb_ltb, Z.ltb_lt. lia. }
  rewrite <- R1, <- R2. split; [rewrite andb_true_iff, orb_true_iff; reflexivity|]. split; [rewrite !andb_true_iff, negb_true_iff, Z.eqb_neq; tauto|rewrite andb_true_iff; reflexivity].
Qed.
(** ... and, over any history, only if there was information about the terrain in the last five seconds *)
Theorem C35_valid_means_recent_information : forall p l i (s : tst R), p_rn p <> 0 -> 0 < p_clr p -> 0 <= h_var s ->
  (forall j, In j (l ++ [i]) -> 0 <= t_now j <= t_now i)%Z -> (t_now i + 10000000 < two64)%Z ->
  (0 <= h_t_hagl s /\ h_t_hagl s + 5000000 <= t_now i)%Z -> (0 <= h_t_flow s /\ h_t_flow s + 5000000 <= t_now i)%Z ->
  h_valid (runAll p (l ++ [i]) s) = true ->
  exists l1 j l2, l ++ [i] = l1 ++ j :: l2 /\ recent5 (t_now i) (t_now j) /\ informed p j (runAll p l1 s).
Proof.
  intros p l i s Hn HC HP HT HW HH HF HV.
  set (Q := fun (pre : list (tin R)) (t : Z) => (0 <= t <= t_now i)%Z /\ ((t + 5000000 <= t_now i)%Z \/ exists l1 j l2, pre = l1 ++ j :: l2 /\ t = t_now j /\ informed p j (runAll p l1 s))).
  assert (J : forall pre, (exists suf, l ++ [i] = pre ++ suf) -> 0 <= h_var (runAll p pre s) /\ Q pre (h_t_hagl (runAll p pre s)) /\ Q pre (h_t_flow (runAll p pre s))).
  { intros pre. induction pre as [|j pre IH] using rev_ind; intros [suf E].
    - split; [exact HP|]. split; (split; [cbn; lia|left; cbn; lia]).
    - assert (E' : exists suf0, l ++ [i] = pre ++ suf0) by (exists (j :: suf); rewrite E, <- app_assoc; reflexivity). specialize (IH E'). destruct IH as (I1 & I2 & I3).
      assert (N : runAll p (pre ++ [j]) s = runTerrain p j (runAll p pre s)) by (unfold runAll; rewrite fold_left_app; reflexivity). rewrite N.
      split; [apply run_var; assumption|]. assert (TJ : (0 <= t_now j <= t_now i)%Z) by (apply HT; rewrite E; apply in_or_app; left; apply in_or_app; right; left; reflexivity).
      assert (MON : forall t, Q pre t -> Q (pre ++ [j]) t). { intros t [A [B|(l1 & k & l2 & B1 & B2 & B3)]]; (split; [exact A|]); [left; exact B|right; exists l1, k, (l2 ++ [j])]. rewrite B1, <- app_assoc. auto. }
      assert (NEW : informed p j (runAll p pre s) -> Q (pre ++ [j]) (t_now j)). { intros X. split; [exact TJ|right]. exists pre, j, []. auto. }
      destruct (run_times p j (runAll p pre s) Hn HC I1) as [[R1 R2]|(X & R1 & R2)]; [rewrite R1, R2; auto|].
      split; [destruct R1 as [-> | ->]|destruct R2 as [-> | ->]]; auto. }
  assert (N : runAll p (l ++ [i]) s = runTerrain p i (runAll p l s)) by (unfold runAll; rewrite fold_left_app; reflexivity).
  destruct (J (l ++ [i])) as (_ & J1 & J2); [exists []; symmetry; apply app_nil_r|].
  rewrite N in HV, J1, J2. destruct (C35_validity p i (runAll p l s)) as [V _]; [split; [apply J1|exact HW]|split; [apply J2|exact HW]|].
  apply V in HV. destruct HV as [_ [HV|HV]]; unfold recent5 in HV.
  - destruct J1 as [_ [J1|(l1 & j & l2 & E1 & E2 & E3)]]; [lia|]. exists l1, j, l2. unfold recent5. rewrite <- E2. auto.
  - destruct J2 as [_ [J2|(l1 & j & l2 & E1 & E2 & E3)]]; [lia|]. exists l1, j, l2. unfold recent5. rewrite <- E2. auto.
Qed.

(** ** Binary32: for every input including infinities and NaN *)
Lemma fnn_fmax0 a : fnn (c_fmaxf a f0).
Proof. unfold fnn, c_fmaxf. destruct (is_nan a) eqn:N; [reflexivity|]. change (is_nan f0) with false. cbv iota. destruct (flt a f0) eqn:E; [reflexivity|exact E]. Qed.
Lemma szero_f : (szero : f32) = f0. Proof. vm_compute. reflexivity. Qed.
Lemma fnn_obs p (i : tin f32) : fnn (obsVar p i).
Proof. unfold obsVar, sq. rewrite szero_f. cbn [sadd smul sfmax FScalar]. apply fnn_add; [apply fnn_add; [apply fnn_fmax0|apply fnn_sq]|apply fnn_sq]. Qed.
Lemma fnn_predict p (i : tin f32) v : fnn (predictVar p i v).
Proof.
  unfold predictVar, sconstrain. rewrite szero_f. cbn [slt FScalar]. match goal with |- context [flt ?a f0] => set (x := a) end. clearbody x. destruct (flt x f0) eqn:E; [reflexivity|].
  destruct (flt _ x); [vm_compute; reflexivity|exact E].
Qed.
Lemma fnn_hagl p i (s : tst f32) : fnn (h_var s) -> fnn (h_var (fuseHagl p i s)).
Proof.
  intros H. unfold fuseHagl. destruct (sle _ _); [|destruct (is_timed_out _ _ _); [apply fnn_obs|exact H]]. cbn [setReject setHagl setEst h_var]. rewrite szero_f. cbn [sfmax FScalar]. apply fnn_fmax0.
Qed.
Lemma fnn_axis p i vb r inv (s : tst f32) : fnn (h_var s) -> fnn (h_var (flowAxis p i vb r inv s)).
Proof.
  intros H. unfold flowAxis. cbv zeta. destruct (sle _ _); [|exact H]. cbn [setFlowT setEst h_var]. rewrite szero_f. cbn [sfmax FScalar]. apply fnn_fmax0.
Qed.
Theorem C35_binary32_variance_never_negative : forall p l (s : tst f32), flt (h_var s) f0 = false -> flt (h_var (runAll p l s)) f0 = false.
Proof.
  intros p l. induction l as [|i l IH]; intros s H; [exact H|]. change (flt (h_var (runAll p l (runTerrain p i s))) f0 = false). apply IH. clear IH. change (fnn (h_var s)) in H. change (fnn (h_var (runTerrain p i s))).
  unfold runTerrain. cbv zeta. unfold updateValidity. cbn [setValid h_var]. destruct (negb (h_init s) || negb (t_air i)).
  - unfold initHagl. destruct (negb (t_air i)); [apply fnn_sq|]. destruct (_ && _); [apply fnn_sq|]. destruct (_ && _); [vm_compute; reflexivity|exact H].
  - set (s1 := setEst (h_vpos s) (predictVar p i (h_var s)) s). assert (H1 : fnn (h_var s1)) by apply fnn_predict.
    set (s2 := if use_rng_now p i then fuseHagl p i s1 else s1). assert (H2 : fnn (h_var s2)) by (unfold s2; destruct (use_rng_now p i); [apply fnn_hagl|]; exact H1).
    set (s3 := if use_flow_now p i then fuseFlow p i s2 else s2).
    assert (H3 : fnn (h_var s3)). { unfold s3. destruct (use_flow_now p i); [|exact H2]. unfold fuseFlow. cbv zeta. apply fnn_axis, fnn_axis. cbn [setEst h_var]. rewrite szero_f. cbn [sfmax FScalar]. apply fnn_fmax0. }
    unfold limitClr. destruct (slt _ _); exact H3.
Qed.
(** the clearance check in binary32: the difference is not below the clearance, or the terrain
    was set to the rounded sum of clearance and vehicle position (also when NaN is involved) ... *)
Theorem C35_binary32_clearance : forall p i (s : tst f32), h_init s = true -> t_air i = true ->
  let v := h_vpos (runTerrain p i s) in flt (fsub v (t_posd i)) (p_clr p) = false \/ v = fadd (p_clr p) (t_posd i).
Proof.
  intros p i s HI HA. unfold runTerrain. rewrite HI, HA. cbn [negb orb]. cbv zeta. unfold updateValidity. cbn [setValid h_vpos].
  match goal with |- context [limitClr p i ?x] => set (y := x) end. clearbody y. unfold limitClr. cbn [slt ssub sadd FScalar]. destruct (flt (fsub (h_vpos y) (t_posd i)) (p_clr p)) eqn:E; [right; reflexivity|left; exact E].
Qed.
(** ... which for large positions can be rounded to no clearance at all: the height above ground is then zero *)
Theorem C35_binary32_clearance_exact_refuted :
  ~ (forall p i (s : tst f32), h_init s = true -> t_air i = true -> flt f0 (p_clr p) = true -> is_finite (t_posd i) = true ->
     flt f0 (fsub (h_vpos (runTerrain p i s)) (t_posd i)) = true).
Proof.
  intros H. set (z := fun _ : nat => f0). set (p := mkTp (flit 1 10) (flit 1 10) f0 f1 f1 f1 f1 f1 false false f1 f1 f1 : tpar f32).
  set (i := mkTi 1000000%Z true (f_of_Z 8388608) z z (fun _ _ => f0) f0 f0 false f0 f0 false z f1 z z z f1 : tin f32).
  set (s := mkTs f0 f1 true 0%Z 0%Z 0%Z false false false false : tst f32).
  specialize (H p i s eq_refl eq_refl). assert (A : flt f0 (p_clr p) = true) by (vm_compute; reflexivity). specialize (H A). assert (B : is_finite (t_posd i) = true) by (vm_compute; reflexivity). specialize (H B).
  vm_compute in H. discriminate.
Qed.

(** ** Examples *)
Definition ex_p : tpar R := mkTp (1 / 10) (1 / 10) 0 1 5 3 5 (1 / 2) true false (15 / 100) (1 / 2) 1.
Definition ex_i (t : Z) (air : bool) (posd dist : R) : tin R :=
  mkTi t air posd (fun _ => 0) (fun _ => 0) (fun _ _ => 0) 0 (1 / 100) true dist dist false (fun _ => 0) (1 / 100) (fun _ => 0) (fun _ => 0) (fun _ => 0) 200.
Definition ex_s : tst R := mkTs 0 10000 false 0%Z 0%Z 0%Z false false false false.
Example C35_example_close : forall i, In i [ex_i 6000000 false 0 0; ex_i 7000000 true (-3) (31 / 10); ex_i 8000000 true (-5) 5] -> close_input ex_p 0 (1 / 5) i.
Proof.
  intros i [<-|[<-|[<-|[]]]]; split; cbn [ex_i t_air]; intros E; try discriminate; cbn [ex_i ex_p t_posd p_clr use_flow_now use_rng_now p_use_flow p_use_rng t_flow_ready t_healthy andb range_terrain t_dist].
  - rewrite Rabs_right; lra.
  - split; [lra|]. split; [reflexivity|]. intros _. unfold range_terrain. cbn [ex_i t_posd t_dist]. rewrite Rabs_right; lra.
  - split; [lra|]. split; [reflexivity|]. intros _. unfold range_terrain. cbn [ex_i t_posd t_dist]. rewrite Rabs_right; lra.
Qed.
Example C35_example_run : h_init (runTerrain ex_p (ex_i 7000000 true (-3) (31 / 10)) ex_s) = true /\ h_valid (runTerrain ex_p (ex_i 7000000 true (-3) (31 / 10)) ex_s) = true /\
  h_vpos (runTerrain ex_p (ex_i 7000000 true (-3) (31 / 10)) ex_s) = 1 / 10.
Proof. split; [reflexivity|]. split; [reflexivity|]. unfold runTerrain, initHagl, updateValidity. cbn. lra. Qed.
Example C35_example_consistent : consistent (p_rgate ex_p) (1 - range_terrain (ex_i 0 true (-3) (31 / 10))) (1 + range_variance ex_p (ex_i 0 true (-3) (31 / 10))).
Proof. unfold consistent, range_terrain, range_variance. cbn [ex_p ex_i p_rgate t_posd t_dist t_P99 p_vvs p_rn p_rns t_range]. rewrite !Rmax_left by lra. lra. Qed.

Print Assumptions C35_range_fusion.
Print Assumptions C35_flow_fusion.
Print Assumptions C35_error_never_grows.
Print Assumptions C35_valid_means_recent_information.
Print Assumptions C35_binary32_variance_never_negative.

(** * C82: suitability of range aiding, barometer fallback, heading failure detection, heading from a GPS antenna array

    SenseModel.v (control.cpp l.614-634, 840-842, 1172-1204) and ResetModel.v (gps_yaw_fusion.cpp l.198-220); exact reals unless stated otherwise. *)
From Coq Require Import Reals Lra Lia Psatz List Bool ZArith.
From Flocq Require Import Core BinarySingleNaN.
From Verif Require Import RealGeom RotModel RotProofs GeoModel CBase Scalar F32 F32More OutputModel OutputReset CovPredGen CovModel CovSpec CovUpdProofs CovProofsR FusionModel ObsSpec SenseModel ControlModel Props_Sense Props_Sense2 ResetModel ResetProofs ResetProofs2 Props_Reset Props_Reset2.
Import ListNotations.
Open Scope R_scope.

(** ** Range aid *)
Definition range_aid_within (frac_h frac_i : R) (aiding : bool) (hagl max_hagl innov gate var max_vel : R) (vel : Vec R) : Prop :=
  hagl < frac_h * max_hagl /\ Rabs innov < frac_i * gate * sqrt var /\ (aiding = true -> len2 vel <= frac_h * max_vel).
Lemma rangeAidR ok aiding prev (terrain posD max_hagl innov gate var max_vel : R) (vel : Vec R) : 0 < gate -> 0 < var -> 0 <= max_vel ->
  (rangeAid ok aiding prev terrain posD max_hagl innov gate var max_vel vel = true <->
   ok = true /\ range_aid_within (if prev then 1 else 0.7) (if prev then 1 else 0.1) aiding (terrain - posD) max_hagl innov gate var max_vel vel).
Proof.
  intros G V MV. unfold rangeAid, range_aid_within. destruct ok; [|split; [discriminate|intros [D _]; discriminate]].
  assert (SV : 0 < sqrt var) by (apply sqrt_lt_R0, V). assert (S2 : sqrt var * sqrt var = var) by (apply sqrt_sqrt; lra).
  assert (ST : forall c, 0 < c -> (innov * innov / (sq gate * var) < c * c <-> Rabs innov < c * gate * sqrt var)).
  { intros c C. assert (P : 0 < gate * gate * var) by (apply Rmult_lt_0_compat; [nra|exact V]). assert (L0 : 0 < c * gate * sqrt var) by (apply Rmult_lt_0_compat; [nra|exact SV]).
    assert (Q : (c * gate * sqrt var) * (c * gate * sqrt var) = c * c * (gate * gate * var)) by (rewrite <- S2 at 3; ring).
    unfold sq. cbn [smul RScalar]. split; intro L.
    - apply (Rmult_lt_compat_r _ _ _ P) in L. replace (innov * innov / (gate * gate * var) * (gate * gate * var)) with (innov * innov) in L by (field; split; lra).
      rewrite <- Q in L. apply Rnot_le_lt. intro N. assert (N2 : Rabs innov * Rabs innov = innov * innov) by (unfold Rabs; destruct (Rcase_abs innov); ring). nra.
    - apply (Rmult_lt_reg_r _ _ _ P). replace (innov * innov / (gate * gate * var) * (gate * gate * var)) with (innov * innov) by (field; split; lra).
      rewrite <- Q. assert (N2 : Rabs innov * Rabs innov = innov * innov) by (unfold Rabs; destruct (Rcase_abs innov); ring). pose proof (Rabs_pos innov). nra. }
  assert (LV : forall v, 0 <= v -> (negb (longer2 vel v) = true <-> len2 vel <= v)) by (intros v Hv; rewrite negb_true_iff, longer2R, Rabs_pos_eq by exact Hv; reflexivity).
  assert (AV : forall v, 0 <= v -> ((if aiding then negb (longer2 vel v) else true) = true <-> (aiding = true -> len2 vel <= v))).
  { intros v Hv. destruct aiding; [rewrite (LV v Hv); split; auto|split; [discriminate|reflexivity]]. }
  destruct prev; rewrite !andb_true_iff, !sltR_true; rewrite ?slitR; cbn [ssub smul sdiv RScalar].
  - rewrite (AV max_vel MV). replace (IZR 1 / IZR 1) with (1 * 1) by field. rewrite (ST 1) by lra. rewrite !(Rmult_1_l max_hagl), (Rmult_1_l max_vel). tauto.
  - rewrite (AV (max_vel * (IZR 7 / IZR 10))) by lra. replace (IZR 1 / IZR 100) with (0.1 * 0.1) by lra. rewrite (ST 0.1) by lra.
    replace (max_hagl * (IZR 7 / IZR 10)) with (0.7 * max_hagl) by lra. replace (max_vel * (IZR 7 / IZR 10)) with (0.7 * max_vel) by lra. tauto.
Qed.
(** range finder height may be used when low, slow and consistent; entered within 70 % of the height and speed limits and 10 % of
    the innovation gate, left outside the limits; in between the previous verdict stands *)
Theorem C82_range_aid : forall ok aiding prev (terrain posD max_hagl innov gate var max_vel : R) (vel : Vec R), 0 < gate -> 0 < var -> 0 <= max_vel -> 0 <= max_hagl ->
  let inside := fun fh fi => range_aid_within fh fi aiding (terrain - posD) max_hagl innov gate var max_vel vel in
  let r := rangeAid ok aiding prev terrain posD max_hagl innov gate var max_vel vel in
  (ok = false -> r = false) /\ (ok = true -> inside 0.7 0.1 -> r = true) /\ (~ inside 1 1 -> r = false) /\
  (ok = true -> inside 1 1 -> ~ inside 0.7 0.1 -> r = prev).
Proof.
  intros ok aiding prev terrain posD max_hagl innov gate var max_vel vel G V MV MH inside r.
  pose proof (rangeAidR ok aiding prev terrain posD max_hagl innov gate var max_vel vel G V MV) as E. fold r in E.
  assert (SV : 0 < sqrt var) by (apply sqrt_lt_R0, V). assert (GS : 0 < gate * sqrt var) by (apply Rmult_lt_0_compat; assumption).
  assert (MO : inside 0.7 0.1 -> inside 1 1) by (unfold inside, range_aid_within; intros (A & B & C); split; [lra|split; [nra|intro X; specialize (C X); lra]]).
  split; [|split; [|split]].
  - intros ->. destruct r; [|reflexivity]. destruct (proj1 E eq_refl). discriminate.
  - intros O I. apply E. split; [exact O|]. destruct prev; [apply MO, I|exact I].
  - intros N. destruct r; [|reflexivity]. exfalso. apply N. destruct (proj1 E eq_refl) as [_ W]. destruct prev; [exact W|apply MO, W].
  - intros O I N. destruct prev; [apply E; split; assumption|]. destruct r; [|reflexivity]. exfalso. apply N, (proj1 E eq_refl).
Qed.
(** binary32: a NaN velocity counts as slow (a defect); a NaN innovation, variance or height disables range aid *)
Theorem C82_range_aid_nan : forall aiding prev (terrain posD max_hagl innov gate var max_vel : f32) (vel : Vec f32),
  ((exists k, (k < 2)%nat /\ is_nan (vel k) = true) -> rangeAid true true prev terrain posD max_hagl innov gate var max_vel vel = rangeAid true false prev terrain posD max_hagl innov gate var max_vel vel) /\
  (is_nan innov = true \/ is_nan terrain = true -> rangeAid true aiding prev terrain posD max_hagl innov gate var max_vel vel = false).
Proof.
  intros. split.
  - intros (k & Hk & N). unfold rangeAid. assert (L : forall v, longer2 vel v = false).
    { intro v. unfold longer2, dot2. cbn [slt sadd smul FScalar]. apply nan_lt_r. destruct k as [|[|k]]; [| |lia]; [apply nan_add_l, nan_add_r, nan_mul_l, N|apply nan_add_r, nan_mul_l, N]. }
    rewrite L. reflexivity.
  - intros [N|N]; unfold rangeAid; cbn [slt ssub smul sdiv FScalar].
    + assert (D : is_nan (fdiv (fmul innov innov) (fmul (sq gate) var)) = true).
      { assert (M : is_nan (fmul innov innov) = true) by (apply nan_mul_l, N). destruct (fmul innov innov); try discriminate. destruct (fmul (sq gate) var) as [[]|[]| |[] ? ? ?]; reflexivity. }
      destruct prev; rewrite (nan_lt_l _ _ D), andb_false_r; reflexivity.
    + assert (D : is_nan (fsub terrain posD) = true) by (apply nan_sub_l, N). rewrite (nan_lt_l _ _ D). reflexivity.
Qed.

(** ** Fallback from GPS height to the barometer *)
(** the test compares the innovation (m) with the squared gate times the variance (m^2): with sigma the standard deviation, exactly
    |innovation| < (gate sigma)^2 is accepted instead of gate sigma (a defect); the innovation contains the GPS height offset (a defect) *)
Theorem C82_baro_consistent : forall (posD off baro boff noise P99 gate : R), 0 <= P99 -> 0 <= gate ->
  let sigma := sqrt (noise ^ 2 + P99) in let innov := posD + (baro - boff) in
  (baroConsistent posD off baro boff noise P99 gate = true <-> Rabs (innov - off) < (gate * sigma) ^ 2) /\
  (1 < gate * sigma -> off = 0 -> Rabs innov <= gate * sigma -> baroConsistent posD off baro boff noise P99 gate = true) /\
  (gate * sigma < 1 -> off = 0 -> baroConsistent posD off baro boff noise P99 gate = true -> Rabs innov < gate * sigma).
Proof.
  intros posD off baro boff noise P99 gate HP HG sigma innov.
  assert (S2 : sigma ^ 2 = noise ^ 2 + P99) by (unfold sigma; rewrite <- Rsqr_pow2; apply Rsqr_sqrt; nra).
  assert (S0 : 0 <= sigma) by apply sqrt_pos. assert (GS : 0 <= gate * sigma) by (apply Rmult_le_pos; assumption).
  assert (E : baroConsistent posD off baro boff noise P99 gate = true <-> Rabs (innov - off) < (gate * sigma) ^ 2).
  { unfold baroConsistent, sq. rewrite sltR_true. cbn [sabs ssub sadd smul RScalar].
    replace (posD - (off - baro + boff)) with (innov - off) by (unfold innov; ring).
    replace ((noise * noise + P99) * (gate * gate)) with ((gate * sigma) ^ 2) by (replace ((gate * sigma) ^ 2) with (gate ^ 2 * sigma ^ 2) by ring; rewrite S2; ring). reflexivity. }
  split; [exact E|]. split.
  - intros L -> I. apply E. rewrite Rminus_0_r. nra.
  - intros L -> B. apply E in B. rewrite Rminus_0_r in B. nra.
Qed.
(** a barometer 300 m away from the estimate, 85 standard deviations, is consistent; one in exact agreement is not, after a height offset of 400 m *)
Theorem C82_baro_consistent_refuted :
  (exists posD baro boff noise P99 gate : R, baroConsistent posD 0 baro boff noise P99 gate = true /\ 0 < gate /\ gate = 5 /\ 80 * sqrt (noise ^ 2 + P99) < Rabs (posD + (baro - boff))) /\
  (exists posD off baro boff noise P99 gate : R, posD + (baro - boff) = 0 /\ 0 < noise /\ 0 < P99 /\ gate = 5 /\ baroConsistent posD off baro boff noise P99 gate = false).
Proof.
  split.
  - exists (-100), 400, 0, 3.5, 0, 5. split; [apply (proj1 (C82_baro_consistent (-100) 0 400 0 3.5 0 5 ltac:(lra) ltac:(lra)))|].
    + replace (3.5 ^ 2 + 0) with (3.5 ^ 2) by ring. rewrite sqrt_pow2 by lra. rewrite Rabs_pos_eq; lra.
    + split; [lra|]. split; [reflexivity|]. replace (3.5 ^ 2 + 0) with (3.5 ^ 2) by ring. rewrite sqrt_pow2 by lra. rewrite Rabs_pos_eq; lra.
  - exists (-100), 400, 100, 0, 3, 1, 5. split; [lra|]. split; [lra|]. split; [lra|]. split; [reflexivity|].
    destruct (baroConsistent _ _ _ _ _ _ _) eqn:E; [|reflexivity]. exfalso. apply (proj1 (C82_baro_consistent (-100) 400 100 0 3 1 5 ltac:(lra) ltac:(lra))) in E.
    assert (S : (5 * sqrt (3 ^ 2 + 1)) ^ 2 = 250) by (replace ((5 * sqrt (3 ^ 2 + 1)) ^ 2) with (25 * (sqrt (3 ^ 2 + 1) * sqrt (3 ^ 2 + 1))) by ring; rewrite sqrt_sqrt by lra; lra).
    rewrite S in E. replace (-100 + (100 - 0) - 400) with (-400) in E by ring. rewrite Rabs_left in E; lra.
Qed.

(** ** Heading failure: the last velocity observation (speed a, course al) against the velocity estimate (speed b, course be) *)
Theorem C82_yaw_failure : forall (a al b be p44 p55 : R) (obs vel var : Vec R), 0 <= a -> 0 <= b ->
  obs 0%nat = a * cos al -> obs 1%nat = a * sin al -> vel 0%nat = b * cos be -> vel 1%nat = b * sin be ->
  (yawFailure (cos (25 * PI / 180)) obs var vel p44 p55 = true <->
   1 < a /\ 16 * (var 0%nat + var 1%nat) < a ^ 2 /\ 1 < b /\ 16 * (p44 + p55) < b ^ 2 /\ cos (al - be) < cos (25 * PI / 180)).
Proof.
  intros a al b be p44 p55 obs vel var A B O0 O1 V0 V1. set (C := cos (25 * PI / 180)).
  assert (P := PI_RGT_0). assert (C0 : 0 < C) by (apply cos_gt_0; lra).
  assert (NO : dot2 obs obs = a ^ 2).
  { unfold dot2. cbn [sadd smul RScalar]. rewrite szeroR, O0, O1. transitivity (a ^ 2 * (Rsqr (sin al) + Rsqr (cos al))); [unfold Rsqr; ring|rewrite sin2_cos2; ring]. }
  assert (NV : dot2 vel vel = b ^ 2).
  { unfold dot2. cbn [sadd smul RScalar]. rewrite szeroR, V0, V1. transitivity (b ^ 2 * (Rsqr (sin be) + Rsqr (cos be))); [unfold Rsqr; ring|rewrite sin2_cos2; ring]. }
  assert (D : dot2 obs vel = a * b * cos (al - be)).
  { unfold dot2. cbn [sadd smul RScalar]. rewrite szeroR, O0, O1, V0, V1, cos_minus. ring. }
  unfold yawFailure. rewrite NO, NV, D. set (c := cos (al - be)).
  assert (T : forall v x, 0 <= x -> (slt (sfmax (smul (sq (slit 4 1)) v) (slit 1 1)) (x ^ 2) = true <-> 1 < x /\ 16 * v < x ^ 2)).
  { intros v x X. rewrite sltR_true. unfold sq. rewrite !slitR. cbn [smul sfmax RScalar]. replace (IZR 4 / IZR 1 * (IZR 4 / IZR 1) * v) with (16 * v) by lra. replace (IZR 1 / IZR 1) with 1 by lra.
    split; [intro M|intros [M1 M2]].
    - assert (1 < x ^ 2) by (eapply Rle_lt_trans; [apply Rmax_r|exact M]). split; [nra|]. eapply Rle_lt_trans; [apply Rmax_l|exact M].
    - apply Rmax_lub_lt; nra. }
  pose proof (T (var 0%nat + var 1%nat) a A) as TA. pose proof (T (p44 + p55) b B) as TB. cbn [sadd RScalar].
  destruct (slt (sfmax (smul (sq (slit 4 1)) (var 0%nat + var 1%nat)) (slit 1 1)) (a ^ 2)) eqn:E1.
  2: { cbn [andb]. split; [discriminate|]. intros (X1 & X2 & _). assert (false = true) by (apply TA; split; assumption). discriminate. }
  destruct (slt (sfmax (smul (sq (slit 4 1)) (p44 + p55)) (slit 1 1)) (b ^ 2)) eqn:E2.
  2: { cbn [andb]. split; [discriminate|]. intros (_ & _ & X1 & X2 & _). assert (false = true) by (apply TB; split; assumption). discriminate. }
  cbn [andb]. destruct (proj1 TA eq_refl) as [A1 A2]. destruct (proj1 TB eq_refl) as [B1 B2].
  assert (AB : 0 < a * b) by nra.
  rewrite orb_true_iff, !sltR_true. unfold sq. cbn [sdiv smul RScalar]. rewrite szeroR.
  replace (a * b * c * (a * b * c) / (b ^ 2 * a ^ 2)) with (c * c) by (field; split; lra).
  split.
  - intro H. do 4 (split; [assumption|]). destruct H as [H|H]; nra.
  - intros (_ & _ & _ & _ & H). destruct (Rlt_dec c 0) as [N|N]; [right; nra|left; nra].
Qed.
(** i.e. for courses between 25 and 180 degrees apart *)
Theorem C82_yaw_failure_angle : forall (a al b be p44 p55 : R) (obs vel var : Vec R), 1 < a -> 1 < b -> 16 * (var 0%nat + var 1%nat) < a ^ 2 -> 16 * (p44 + p55) < b ^ 2 ->
  obs 0%nat = a * cos al -> obs 1%nat = a * sin al -> vel 0%nat = b * cos be -> vel 1%nat = b * sin be -> Rabs (al - be) <= PI ->
  (yawFailure (cos (25 * PI / 180)) obs var vel p44 p55 = true <-> 25 * PI / 180 < Rabs (al - be)).
Proof.
  intros a al b be p44 p55 obs vel var A B VA VB O0 O1 V0 V1 D. rewrite (C82_yaw_failure a al b be) by (assumption || lra).
  assert (P := PI_RGT_0). assert (E : cos (al - be) = cos (Rabs (al - be))) by (unfold Rabs; destruct (Rcase_abs _); [rewrite cos_neg|]; reflexivity).
  rewrite E. pose proof (Rabs_pos (al - be)) as N. split.
  - intros (_ & _ & _ & _ & H). apply cos_decreasing_0; lra || exact H.
  - intro H. do 4 (split; [assumption|]). apply cos_decreasing_1; lra.
Qed.
(** binary32: with a NaN in either velocity no failure is found *)
Theorem C82_yaw_failure_nan : forall (cos25 p44 p55 : f32) (obs vel var : Vec f32), (exists k, (k < 2)%nat /\ (is_nan (obs k) = true \/ is_nan (vel k) = true)) ->
  yawFailure cos25 obs var vel p44 p55 = false.
Proof.
  assert (D : forall (v : Vec f32) k, (k < 2)%nat -> is_nan (v k) = true -> is_nan (dot2 v v) = true).
  { intros v k Hk N. unfold dot2. cbn [sadd smul FScalar]. destruct k as [|[|k]]; [| |lia]; [apply nan_add_l, nan_add_r, nan_mul_l, N|apply nan_add_r, nan_mul_l, N]. }
  intros cos25 p44 p55 obs vel var (k & Hk & [N|N]); unfold yawFailure; cbn [slt FScalar].
  - rewrite (nan_lt_r _ (dot2 obs obs)) by (eapply D; eassumption). reflexivity.
  - rewrite (nan_lt_r _ (dot2 vel vel)) by (eapply D; eassumption). rewrite andb_false_r. reflexivity.
Qed.

(** ** Heading from an antenna array *)
(** the baseline is refused when within 30 degrees of the vertical *)
Theorem C82_antenna_steep : forall (yaw off noise phi : R) s, 0 <= phi <= PI -> vz (antenna (r_R s) off) = cos phi ->
  (fst (gpsYawReset (cos (PI / 6)) yaw off noise s) = true <-> PI / 6 <= phi <= 5 * PI / 6).
Proof.
  intros yaw off noise phi s H E. unfold gpsYawReset. rewrite E. assert (P := PI_RGT_0). destruct (Rlt_dec (cos (PI / 6)) (Rabs (cos phi))) as [L|L]; cbn [fst].
  - split; [discriminate|]. intros [A B]. exfalso. apply (Rlt_not_le _ _ L). apply Rabs_le. split.
    + replace (- cos (PI / 6)) with (cos (5 * PI / 6)) by (replace (5 * PI / 6) with (PI - PI / 6) by field; rewrite Rtrigo_facts.cos_pi_minus; reflexivity). destruct (Req_dec phi (5 * PI / 6)) as [->|N]; [lra|]. left. apply cos_decreasing_1; lra.
    + destruct (Req_dec phi (PI / 6)) as [->|N]; [lra|]. left. apply cos_decreasing_1; lra.
  - split; [intros _|reflexivity]. apply Rnot_lt_le, Rabs_le_inv in L. split.
    + apply Rnot_lt_le. intro N. assert (cos (PI / 6) < cos phi) by (apply cos_decreasing_1; lra). lra.
    + apply Rnot_lt_le. intro N. assert (cos phi < cos (5 * PI / 6)) by (apply cos_decreasing_1; lra).
      replace (cos (5 * PI / 6)) with (- cos (PI / 6)) in H0 by (replace (5 * PI / 6) with (PI - PI / 6) by field; rewrite Rtrigo_facts.cos_pi_minus; reflexivity). lra.
Qed.
(** the course of the baseline agrees with the measurement (heading + mounting offset) *)
Definition baseline_agrees (r : M3) (off yaw : R) : Prop := exists h, 0 < h /\ vx (antenna r off) = h * cos (yaw + off) /\ vy (antenna r off) = h * sin (yaw + off).
Lemma level_upd0 r : m20 r = 0 -> m21 r = 0 -> m22 r = 1 -> updateYawInRotMat 0 r = mident.
Proof.
  intros A B C. unfold updateYawInRotMat, shouldUse321. rewrite A, B, Rabs_R0. destruct (Rlt_dec 0 0) as [L|_]; [lra|]. unfold updateYaw312. rewrite A, B, C.
  rewrite tb312_product, Rz_0, mmul_ident_l. rewrite asin_0. replace (- 0) with 0 by ring. assert (T : atan2 0 1 = 0) by (unfold atan2; destruct (Rlt_dec 0 1) as [_|N]; [replace (0 / 1) with 0 by field; apply atan_0|lra]). rewrite T.
  unfold Rx, Ry, mmul, mident. cbn. rewrite ?cos_0, ?sin_0. f_equal; ring.
Qed.
Theorem C82_gps_heading_reset : forall (cos30 yaw off noise : R) s, attitude_ok s -> - PI < yaw <= PI -> Rabs (vz (antenna (r_R s) off)) <= cos30 ->
  let (ok, s') := gpsYawReset cos30 yaw off noise s in
  ok = true /\ attitude_ok s' /\ same_tilt (r_R s) (r_R s') /\ motion_kept s s' /\ seq_yaw (r_R s') = yaw /\
  yaw_variance (Rmax noise (1 / 100) ^ 2) s s' /\ (psd (r_P s) -> psd (r_P s')) /\
  (** the next observation of the antenna heading has no innovation when level, or with the baseline along the axis the heading refers to *)
  (m20 (r_R s) = 0 /\ m21 (r_R s) = 0 /\ m22 (r_R s) = 1 -> baseline_agrees (r_R s') off yaw) /\
  (Rabs (m20 (r_R s)) < Rabs (m21 (r_R s)) -> off = 0 -> baseline_agrees (r_R s') off yaw).
Proof.
  intros cos30 yaw off noise s OK Y L. unfold gpsYawReset. destruct (Rlt_dec _ _) as [N|_]; [lra|]. split; [reflexivity|].
  destruct OK as (U & E). set (var := sqr (Rmax noise (1 / 100))). destruct (yawReset_ok yaw var true s U) as (N1 & D1 & M1 & T0 & T1 & T2 & _ & SY).
  destruct (yawReset_o yaw var true s) as (O1 & O2 & O3 & O4 & _ & _ & O7 & O8 & O9 & _).
  set (s' := yawReset yaw var true s) in *.
  split; [split; assumption|]. split; [unfold same_tilt; rewrite E; repeat split; assumption|]. split; [repeat split; assumption|]. split; [apply SY, Y|].
  split; [replace (Rmax noise (1 / 100) ^ 2) with var by (unfold var, sqr; ring); apply yawReset_yv, U|]. split; [apply (yawReset_cov yaw var true s U)|]. split.
  - intros (A & B & C). rewrite E in A, B, C. rewrite (level_upd0 _ A B C), mmul_ident_r in M1. exists 1. split; [lra|]. rewrite M1. unfold antenna, mapp, Rz. cbn [vx vy vz m00 m01 m02 m10 m11 m12].
    rewrite cos_plus, sin_plus. split; ring.
  - intros S ->. assert (R1 : r_R s' = updateYawInRotMat yaw (r_R s)) by (rewrite E; reflexivity). unfold updateYawInRotMat, shouldUse321 in R1. destruct (Rlt_dec _ _) as [_|N]; [|lra].
    assert (RO : is_rotation (r_R s)) by (rewrite E; apply dcm_rotation, U).
    assert (B : -1 < m20 (r_R s) < 1).
    { destruct RO as (R0 & _ & _). set (r := r_R s) in *. unfold mmul, mtr, mident in R0. injection R0 as t1 t2 t3 t4 t5 t6 t7 t8 t9. cbn [m00 m01 m02 m10 m11 m12 m20 m21 m22] in t9.
      assert (Q : m20 r * m20 r < m21 r * m21 r) by (rewrite <- (Rabs_right (m20 r * m20 r)), <- (Rabs_right (m21 r * m21 r)) by nra; rewrite !Rabs_mult; pose proof (Rabs_pos (m20 r)); pose proof (Rabs_pos (m21 r)); nra). nra. }
    assert (CP : 0 < cos (asin (- m20 (r_R s)))) by (rewrite cos_asin by lra; apply sqrt_lt_R0; unfold Rsqr; nra).
    exists (cos (asin (- m20 (r_R s)))). split; [exact CP|]. rewrite R1. unfold updateYaw321.
    assert (VY : vy (euler321 (r_R s)) = asin (- m20 (r_R s))) by (unfold euler321; destruct (Rlt_dec _ _); [reflexivity|]; destruct (Rlt_dec _ _); reflexivity).
    rewrite VY. unfold antenna, mapp, dcm321. cbn [vx vy vz m00 m01 m02 m10 m11 m12]. replace (yaw + 0) with yaw by ring. set (c := cos (asin _)). rewrite cos_0, sin_0. split; ring.
Qed.
(** otherwise it may have one: pitched up 60 degrees with the baseline at 45 degrees (a defect) *)
Theorem C82_gps_heading_reset_refuted : exists (yaw off noise : R) s, attitude_ok s /\ - PI < yaw <= PI /\
  fst (gpsYawReset (cos (PI / 6)) yaw off noise s) = true /\ ~ baseline_agrees (r_R (snd (gpsYawReset (cos (PI / 6)) yaw off noise s))) off yaw.
Proof.
  assert (P := PI_RGT_0). set (q := mkQ (cos (PI / 6)) 0 (sin (PI / 6)) 0).
  assert (C6 : cos (PI / 6) = sqrt 3 / 2) by apply cos_PI6. assert (S6 : sin (PI / 6) = 1 / 2) by apply sin_PI6.
  assert (S3 : sqrt 3 * sqrt 3 = 3) by (apply sqrt_sqrt; lra). assert (P3 : 0 < sqrt 3) by (apply sqrt_lt_R0; lra). assert (S2 : sqrt 2 * sqrt 2 = 2) by (apply sqrt_sqrt; lra). assert (P2 : 0 < sqrt 2) by (apply sqrt_lt_R0; lra).
  assert (U : qnorm2 q = 1) by (unfold qnorm2, q; cbn [q0 q1 q2 q3]; rewrite C6, S6; nra).
  assert (C4 : cos (PI / 4) = 1 / sqrt 2) by apply cos_PI4. assert (S4 : sin (PI / 4) = 1 / sqrt 2) by apply sin_PI4.
  assert (DC : dcm q = mkM (1 / 2) 0 (sqrt 3 / 2) 0 1 0 (- (sqrt 3 / 2)) 0 (1 / 2)) by (unfold dcm, q; cbn [q0 q1 q2 q3]; rewrite C6, S6; f_equal; nra).
  set (s := st_of q vzero vzero false false 0). exists 0, (PI / 4), 0, s.
  assert (OK : attitude_ok s) by (apply st_ok, U). split; [exact OK|]. split; [lra|].
  assert (RS : r_R s = dcm q) by reflexivity.
  assert (AN : ~ cos (PI / 6) < Rabs (vz (antenna (r_R s) (PI / 4)))).
  { rewrite RS, DC. unfold antenna, mapp. cbn [vx vy vz m20 m21 m22]. rewrite C4, S4, C6. intro L.
    assert (I : 0 < 1 / sqrt 2 < 1). { split; [apply Rdiv_lt_0_compat; lra|]. apply (Rmult_lt_reg_r (sqrt 2)); [lra|]. replace (1 / sqrt 2 * sqrt 2) with 1 by (field; lra). nra. }
    replace (- (sqrt 3 / 2) * (1 / sqrt 2) + 0 * (1 / sqrt 2) + 1 / 2 * 0) with (- (sqrt 3 / 2 * (1 / sqrt 2))) in L by ring. rewrite Rabs_Ropp, Rabs_pos_eq in L by nra. nra. }
  unfold gpsYawReset. destruct (Rlt_dec _ _) as [N|_]; [contradiction|]. cbn [fst snd]. split; [reflexivity|].
  set (var := sqr _). destruct (yawReset_ok 0 var true s (proj1 OK)) as (N1 & D1 & M1 & T0 & T1 & T2 & _ & SY). set (s' := yawReset 0 var true s) in *.
  rewrite Rz_0, mmul_ident_l in M1.
  assert (AQ : attq s = q) by (destruct q; reflexivity). rewrite AQ in M1.
  assert (UP : updateYawInRotMat 0 (dcm q) = dcm q).
  { unfold updateYawInRotMat, shouldUse321. rewrite DC. cbn [m20 m21]. rewrite Rabs_R0. destruct (Rlt_dec _ _) as [N|_]; [pose proof (Rabs_pos (- (sqrt 3 / 2))); lra|].
    unfold updateYaw312. cbn [m20 m21 m22]. rewrite asin_0. rewrite tb312_product, Rz_0, mmul_ident_l.
    assert (T : atan2 (- - (sqrt 3 / 2)) (1 / 2) = PI / 3).
    { unfold atan2. destruct (Rlt_dec 0 (1 / 2)) as [_|N]; [|lra]. replace (- - (sqrt 3 / 2) / (1 / 2)) with (tan (PI / 3)) by (rewrite tan_PI3; field). apply atan_tan. lra. }
    rewrite T. unfold Rx, Ry, mmul. cbn [m00 m01 m02 m10 m11 m12 m20 m21 m22]. rewrite cos_0, sin_0, cos_PI3, sin_PI3. f_equal; ring. }
  rewrite UP, DC in M1. rewrite M1. intros (h & H0 & HX & HY). unfold antenna, mapp in HX, HY. cbn [vx vy vz m00 m01 m02 m10 m11 m12] in HX, HY.
  rewrite Rplus_0_l, C4, S4 in HX, HY. assert (I : 0 < 1 / sqrt 2) by (apply Rdiv_lt_0_compat; lra). nra.
Qed.

(** ** Connection with the control logic *)
Theorem C82_control_uses_tests : forall (p : params) (i : inp) (s : st) (terrain posD max_hagl innov gate var max_vel cos25 p44 p55 : R) (vel obs obs_var : Vec R),
  ib i I_range_in_range_hi = slt (ssub terrain posD) max_hagl -> ib i I_range_in_range_lo = slt (ssub terrain posD) (smul max_hagl (slit 7 10)) ->
  ib i I_hagl_stable_hi = slt (sdiv (smul innov innov) (smul (sq gate) var)) (slit 1 1) -> ib i I_hagl_stable_lo = slt (sdiv (smul innov innov) (smul (sq gate) var)) (slit 1 100) ->
  ib i I_slow_hi = negb (longer2 vel max_vel) -> ib i I_slow_lo = negb (longer2 vel (smul max_vel (slit 7 10))) ->
  ib i I_yaw_vec_bad = yawFailure cos25 obs obs_var vel p44 p55 ->
  gb (checkRangeAidSuitability i s) L_is_range_aid_suitable =
    rangeAid (gb s F_in_air && ib i I_rng_healthy && ib i I_terrain_valid) (aiding_active s) (gb s L_is_range_aid_suitable) terrain posD max_hagl innov gate var max_vel vel /\
  (isYawFailure p i s = true -> yawFailure cos25 obs obs_var vel p44 p55 = true).
Proof.
  intros p i s terrain posD max_hagl innov gate var max_vel cos25 p44 p55 vel obs obs_var A1 A2 A3 A4 A5 A6 A7. split.
  - unfold checkRangeAidSuitability, rangeAid, setb. cbn [gb]. rewrite A1, A2, A3, A4, A5, A6.
    destruct (gb s F_in_air && ib i I_rng_healthy && ib i I_terrain_valid); [|reflexivity]. destruct (gb s L_is_range_aid_suitable); reflexivity.
  - unfold isYawFailure. rewrite A7. rewrite !andb_true_iff. tauto.
Qed.
Example C82_range_ex : range_aid_within 0.7 0.1 true 2 5 0.1 5 1 1 (fun _ => 0.1) /\ ~ range_aid_within 0.7 0.1 true 4 5 0.1 5 1 1 (fun _ => 0.1) /\ range_aid_within 1 1 true 4 5 0.1 5 1 1 (fun _ => 0.1).
Proof.
  assert (L : len2 (fun _ => 0.1) <= 0.7) by (unfold len2; rewrite <- (sqrt_pow2 0.7) by lra; apply sqrt_le_1_alt; lra).
  unfold range_aid_within. rewrite sqrt_1, Rabs_pos_eq by lra. split; [split; [lra|split; [lra|intros _; lra]]|]. split; [intros [X _]; lra|]. split; [lra|split; [lra|intros _; lra]].
Qed.
Example C82_yaw_ex : (fun k : nat => match k with 0%nat => 5 * cos 1 | _ => 5 * sin 1 end) 0%nat = 5 * cos 1 /\ 16 * (0.25 + 0.25) < 5 ^ 2. Proof. split; [reflexivity|lra]. Qed.
Print Assumptions C82_range_aid. Print Assumptions C82_range_aid_nan. Print Assumptions C82_baro_consistent. Print Assumptions C82_baro_consistent_refuted.
Print Assumptions C82_yaw_failure. Print Assumptions C82_yaw_failure_angle. Print Assumptions C82_yaw_failure_nan. Print Assumptions C82_antenna_steep.
Print Assumptions C82_gps_heading_reset. Print Assumptions C82_gps_heading_reset_refuted. Print Assumptions C82_control_uses_tests.

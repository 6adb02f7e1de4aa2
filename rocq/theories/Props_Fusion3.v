(** * C60, C61: earth-field limits and heading sources *)
From Coq Require Import Reals Lra Lia.
From Coquelicot Require Import Coquelicot.
From Verif Require Import CBase F32 Scalar RealGeom RotModel RotProofs GeoModel GeoProofs CovSpec PsdLib CovModel CovProofsR CovUpdProofs FusionGen FusionModel FusionSpec FusionUpd Props_Fusion FusionProofs4 FusionProofs5 Props_Fusion2 HeadingModel.
Open Scope R_scope.

(** ** C60: the horizontal earth field estimate *)
(** smallest plausible horizontal field: half the tabulated one if known, at least 1 mGauss *)
Definition field_floor (d : declin R) : R := if d_geo d then Rmax (1 / 1000) (1 / 2 * d_strength d * cos (d_incl d)) else 1 / 1000.
Definition decl_reference (d : declin R) : R := if d_geo d then d_gps d else d_param d.
Lemma hFieldMinR d : hFieldMin cos (d_geo d) (d_strength d) (d_incl d) = field_floor d.
Proof. unfold hFieldMin, field_floor. rewrite !slitR. reflexivity. Qed.
Lemma field_floor_pos d : 1 / 1000 <= field_floor d.
Proof. unfold field_floor. destruct (d_geo d); [apply Rmax_l|lra]. Qed.
Lemma cs2 a h : h * cos a * (h * cos a) + h * sin a * (h * sin a) = h * h.
Proof. pose proof (sc a) as E. transitivity (h * h * (sin a * sin a + cos a * cos a)); [ring|rewrite E; ring]. Qed.
(** the radial limit: length at least hmin, (n, e, h): h at most the length and at least hmin *)
Lemma limitField_spec hmin decl (n e : R) : 0 < hmin ->
  let '(n', e', h) := limitField cos sin hmin decl n e in
  hmin <= h /\ h * h <= n' * n' + e' * e' /\
  (hmin * hmin <= n * n + e * e -> n' = n /\ e' = e) /\
  (hmin / 1000 < sqrt (n * n + e * e) -> exists k, 1 <= k /\ n' = k * n /\ e' = k * e).
Proof.
  intros Hm. unfold limitField. cbv zeta. rewrite !slitR. cbn [ssqrt sadd smul sdiv slt RScalar].
  assert (N : 0 <= n * n + e * e) by nra. pose proof (sqrt_sqrt _ N) as SS. pose proof (sqrt_pos (n * n + e * e)) as SP.
  set (h := sqrt (n * n + e * e)) in *.
  destruct (Rlt_dec h hmin) as [L|L].
  - destruct (Rlt_dec (1 / 1000 * hmin) h) as [L2|L2].
    + assert (Hh : 0 < h) by nra. split; [lra|]. split.
      * right. transitivity ((hmin / h) * (hmin / h) * (h * h)); [field; lra|rewrite SS; ring].
      * split; [intros C; exfalso; nra|]. intros _. exists (hmin / h). split; [|split; ring].
        apply (Rmult_le_reg_r h); [exact Hh|]. unfold Rdiv. rewrite Rmult_assoc, Rinv_l by lra. lra.
    + split; [lra|]. split; [rewrite (cs2 decl (2 / 1 * hmin)); nra|]. split; [intros C; exfalso; nra|]. intros C. exfalso. lra.
  - split; [lra|]. split; [lra|]. split; [auto|]. intros _. exists 1. split; [lra|]. split; ring.
Qed.
(** C60: whatever the estimate was, afterwards the horizontal field is at least
    the floor and its declination is within 0.5 rad of the reference, provided
    reference +- 0.5 rad does not reach +-180 degrees *)
Theorem C60_field_limited : forall (d : declin R) (x : nat -> R),
  let x' := limitDeclination cos sin atan2 d x in
  let ref := decl_reference d in
  (forall i, i <> 16%nat -> i <> 17%nat -> x' i = x i) /\
  field_floor d <= sqrt (x' 16%nat * x' 16%nat + x' 17%nat * x' 17%nat) /\
  (- PI < ref - 1 / 2 -> ref + 1 / 2 <= PI -> Rabs (atan2 (x' 17%nat) (x' 16%nat) - ref) <= 1 / 2) /\
  (** and an estimate inside the limits is not touched *)
  (field_floor d <= sqrt (x 16%nat * x 16%nat + x 17%nat * x 17%nat) -> Rabs (atan2 (x 17%nat) (x 16%nat) - ref) <= 1 / 2 ->
   forall i, x' i = x i).
Proof.
  intros d x x' ref. unfold x', limitDeclination. cbv zeta. fold (decl_reference d). fold ref. rewrite hFieldMinR.
  pose proof (field_floor_pos d) as FP. set (hm := field_floor d) in *. clearbody hm.
  set (decl := getMagDeclination _ _ _ _ _ _). clearbody decl ref. clear x'.
  pose proof (limitField_spec hm decl (x 16%nat) (x 17%nat) ltac:(lra)) as LF.
  destruct (limitField cos sin hm decl (x 16%nat) (x 17%nat)) as [[n e] h] eqn:EF. destruct LF as (A & B & C & _).
  unfold limitAngle. cbv zeta. rewrite !slitR. cbn [sadd ssub smul slt RScalar].
  assert (Q : forall a, hm <= sqrt (h * cos a * (h * cos a) + h * sin a * (h * sin a))).
  { intros a. rewrite cs2, sqrt_square by lra. exact A. }
  assert (NZ : n <> 0 \/ e <> 0). { destruct (Req_dec n 0) as [->|]; [right|left; assumption]. intros ->. nra. }
  assert (Q0 : hm <= sqrt (n * n + e * e)).
  { rewrite <- (sqrt_square hm) by lra. apply sqrt_le_1; nra. }
  destruct (Rlt_dec (ref + 1 / 2) (atan2 e n)) as [L|L]; [|destruct (Rlt_dec (atan2 e n) (ref - 1 / 2)) as [M|M]].
  - split; [intros i H1 H2; rewrite (proj2 (Nat.eqb_neq i 16) H1), (proj2 (Nat.eqb_neq i 17) H2); reflexivity|]. cbn [Nat.eqb].
    split; [apply Q|]. split.
    + intros R1 R2. rewrite atan2_unique by lra. replace (ref + 1 / 2 - ref) with (1 / 2) by ring. rewrite Rabs_pos_eq; lra.
    + intros F T. exfalso. assert (G : n = x 16%nat /\ e = x 17%nat). { apply C. pose proof (sqrt_sqrt (x 16%nat * x 16%nat + x 17%nat * x 17%nat)). nra. }
      destruct G as [G1 G2]. rewrite <- G1, <- G2 in T. apply Rabs_le_between in T. lra.
  - split; [intros i H1 H2; rewrite (proj2 (Nat.eqb_neq i 16) H1), (proj2 (Nat.eqb_neq i 17) H2); reflexivity|]. cbn [Nat.eqb].
    split; [apply Q|]. split.
    + intros R1 R2. rewrite atan2_unique by lra. replace (ref - 1 / 2 - ref) with (- (1 / 2)) by ring. rewrite Rabs_Ropp, Rabs_pos_eq; lra.
    + intros F T. exfalso. assert (G : n = x 16%nat /\ e = x 17%nat). { apply C. pose proof (sqrt_sqrt (x 16%nat * x 16%nat + x 17%nat * x 17%nat)). nra. }
      destruct G as [G1 G2]. rewrite <- G1, <- G2 in T. apply Rabs_le_between in T. lra.
  - split; [intros i H1 H2; rewrite (proj2 (Nat.eqb_neq i 16) H1), (proj2 (Nat.eqb_neq i 17) H2); reflexivity|]. cbn [Nat.eqb].
    split; [exact Q0|]. split.
    + intros _ _. apply Rabs_le. lra.
    + intros F T i. assert (G : n = x 16%nat /\ e = x 17%nat). { apply C. pose proof (sqrt_sqrt (x 16%nat * x 16%nat + x 17%nat * x 17%nat)). nra. }
      destruct G as [G1 G2]. rewrite G1, G2. destruct (Nat.eqb_spec i 16) as [->|]; [reflexivity|]. destruct (Nat.eqb_spec i 17) as [->|]; reflexivity.
Qed.
(** C60: defect: the comparison is not wrapped.  With a reference of 174 degrees
    a field estimate at -174 degrees (0.2 rad away) is turned to 0.5 rad on the other side *)
Theorem C60_declination_wrap_refuted : let d := mkDecl false true (PI - 1 / 10) 0 (1 / 2) 0 in
  exists x, field_floor d <= sqrt (x 16%nat * x 16%nat + x 17%nat * x 17%nat) /\
    atan2 (x 17%nat) (x 16%nat) = decl_reference d - 2 * PI + 1 / 5 /\
    let x' := limitDeclination cos sin atan2 d x in atan2 (x' 17%nat) (x' 16%nat) = decl_reference d - 1 / 2.
Proof.
  intros d. pose proof PI2_3_2 as PB. exists (fun i => if (i =? 16)%nat then 1 * cos (- PI + 1 / 10) else if (i =? 17)%nat then 1 * sin (- PI + 1 / 10) else 0). cbv zeta. cbn [Nat.eqb].
  assert (E : atan2 (1 * sin (- PI + 1 / 10)) (1 * cos (- PI + 1 / 10)) = - PI + 1 / 10) by (apply atan2_unique; lra).
  assert (F1 : field_floor d = 1 / 4). { unfold field_floor, d. cbn [d_geo d_strength d_incl]. rewrite cos_0. rewrite Rmax_right by lra. lra. }
  split; [rewrite cs2, F1, sqrt_square by lra; lra|]. split; [rewrite E; unfold decl_reference, d; cbn [d_geo d_gps]; lra|].
  unfold limitDeclination. cbv zeta. rewrite hFieldMinR, F1. set (decl := getMagDeclination _ _ _ _ _ _). clearbody decl. cbn [Nat.eqb].
  assert (EL : limitField cos sin (1 / 4) decl (1 * cos (- PI + 1 / 10)) (1 * sin (- PI + 1 / 10)) = (1 * cos (- PI + 1 / 10), 1 * sin (- PI + 1 / 10), 1)).
  { unfold limitField. cbv zeta. rewrite !slitR. cbn [ssqrt sadd smul sdiv slt RScalar]. rewrite cs2, sqrt_square by lra. destruct (Rlt_dec 1 (1 / 4)); [lra|reflexivity]. }
  rewrite EL. unfold limitAngle. cbv zeta. rewrite E. rewrite !slitR. cbn [sadd ssub smul slt RScalar d_geo d_gps d].
  destruct (Rlt_dec (PI - 1 / 10 + 1 / 2) (- PI + 1 / 10)) as [C|_]; [exfalso; lra|]. destruct (Rlt_dec (- PI + 1 / 10) (PI - 1 / 10 - 1 / 2)) as [_|C]; [|exfalso; lra].
  unfold decl_reference, d. cbn [Nat.eqb d_geo d_gps]. apply atan2_unique; lra.
Qed.
Definition field_ok (d : declin R) (x : nat -> R) : Prop :=
  field_floor d <= sqrt (x 16%nat * x 16%nat + x 17%nat * x 17%nat) /\
  (- PI < decl_reference d - 1 / 2 -> decl_reference d + 1 / 2 <= PI -> Rabs (atan2 (x 17%nat) (x 16%nat) - decl_reference d) <= 1 / 2).
(** C60: hence after every fused magnetometer or declination measurement *)
Theorem C60_after_fusion : forall resetMag (d : declin R) (synth : bool) (noise gate sigma : R) (meas : nat -> R) (f : fus R),
  symmetric24 (fP f) -> psd (fP f) -> 0 < noise -> sigma <> 0 -> healthy_limits f -> (forall i, c_inhibit (fs f) i = false) ->
  (let f' := fuseMag cos sin atan2 resetMag d true synth noise gate meas f in same_estimate f f' \/ field_ok d (fx f')) /\
  (let f' := fuseDeclination cos sin atan2 d sigma f in f' = f \/ field_ok d (fx f')).
Proof.
  intros resetMag d synth noise gate sigma meas f Sy Hp Np Ns HL NI.
  assert (OK : forall x, field_ok d (limitDeclination cos sin atan2 d x)) by (intros x; destruct (C60_field_limited d x) as (_ & A & B & _); split; assumption).
  split; cbv zeta.
  - destruct (C37_magnetometer_posterior cos sin atan2 resetMag d synth noise gate meas f Sy Hp Np HL NI) as (_ & _ & [A|(fa & fb & _ & B & C)]); [left; exact A|right].
    destruct synth.
    + rewrite C. destruct B as (h & f1 & _ & _ & (-> & _)). apply OK.
    + destruct C as (h & f1 & _ & _ & (-> & _)). apply OK.
  - destruct (C37_declination cos sin atan2 d sigma f Sy Hp Ns) as [A B].
    destruct (Rlt_dec (Rabs (fx f 16%nat)) (1 / 1000000)) as [L|L]; [left; apply A; exact L|].
    destruct B as (h & _ & B1 & B2); [lra|]. pose proof (psd_quad h (fP f) Hp) as Q.
    destruct (Req_dec (quad h (fP f)) 0) as [E|E]; [left; apply B1; exact E|right].
    destruct B2 as (_ & f1 & _ & -> & _); [lra|]. apply OK.
Qed.

(** ** C61: sources of the heading measurement *)
Lemma wrap_diff p m : wrap_pi (p - wrap_pi m) = wrap_pi (p - m).
Proof.
  destruct (wrap_pi_trig (p - wrap_pi m)) as [C1 S1]. destruct (wrap_pi_trig (p - m)) as [C2 S2]. destruct (wrap_pi_trig m) as [C3 S3].
  apply angle_unique_l; [apply wrap_pi_range|apply wrap_pi_range| |].
  - rewrite C1, C2, !cos_minus, C3, S3. reflexivity.
  - rewrite S1, S2, !sin_minus, C3, S3. reflexivity.
Qed.
Lemma wrap_0 : wrap_pi 0 = 0.
Proof. pose proof PI_RGT_0. unfold wrap_pi. destruct (Rle_dec (- PI) 0); [|lra]. destruct (Rlt_dec 0 PI); [reflexivity|lra]. Qed.
Lemma wrap_eq a b : cos a = cos b -> sin a = sin b -> wrap_pi a = wrap_pi b.
Proof.
  intros C S. destruct (wrap_pi_trig a) as [C1 S1]. destruct (wrap_pi_trig b) as [C2 S2].
  apply angle_unique_l; [apply wrap_pi_range|apply wrap_pi_range| |]; congruence.
Qed.
(** heading of the estimated attitude in the Euler sequence in use *)
Definition heading_of (q : Q4) : R := let r := dcm q in if shouldUse321 r then yaw321 r else yaw312 r.
(** removing the yaw turns the attitude back by its heading *)
Lemma turn_back c d a : 0 < c -> c * cos (d + a) = c -> c * sin (d + a) = 0 -> cos d = cos (- a) /\ sin d = sin (- a).
Proof.
  intros Hc E1 E2. assert (C1 : cos (d + a) = 1) by (apply (Rmult_eq_reg_l c); lra). assert (S1 : sin (d + a) = 0) by (apply (Rmult_eq_reg_l c); lra).
  replace d with ((d + a) - a) by ring. rewrite cos_minus, sin_minus, C1, S1, cos_neg, sin_neg. split; ring.
Qed.
Lemma unyaw r : is_rotation r -> updateYawInRotMat 0 r = mmul (Rz (- seq_yaw r)) r.
Proof.
  intros H. destruct (upd_tilt 0 r H) as (A & B & C & D). destruct (same_tilt_Rz _ _ H A B C D) as (d & Hd & E). rewrite E. f_equal.
  destruct (rot_eqs r H) as (N0 & N1 & N2).
  assert (K : cos d = cos (- seq_yaw r) /\ sin d = sin (- seq_yaw r)).
  { unfold updateYawInRotMat in E. unfold seq_yaw. destruct (shouldUse321 r) eqn:US.
    - pose proof (use321_bound r H US) as UB. destruct (upd321 0 r H US) as (_ & _ & _ & _ & c & Hc & Cc & M1 & M2). rewrite E in M1, M2. rewrite cos_0, Rmult_1_r in M1. rewrite sin_0, Rmult_0_r in M2.
      assert (NZ : m00 r <> 0 \/ m10 r <> 0) by (destruct (Req_dec (m00 r) 0) as [Q|Q]; [right; rewrite Q in N1; nra|left; exact Q]).
      destruct (atan2_polar (m10 r) (m00 r) NZ) as (_ & P1 & P2). assert (W : sqrt (m00 r * m00 r + m10 r * m10 r) = c) by (rewrite <- (sqrt_square c) by lra; f_equal; lra). rewrite W in *.
      fold (yaw321 r) in P1, P2. unfold mmul, Rz in M1, M2. cbn [m00 m01 m02 m10 m11 m12 m20 m21 m22] in M1, M2. apply (turn_back c); [exact Hc| |].
      + rewrite cos_plus. transitivity (cos d * (c * cos (yaw321 r)) - sin d * (c * sin (yaw321 r))); [ring|]. rewrite P1, P2. lra.
      + rewrite sin_plus. transitivity (sin d * (c * cos (yaw321 r)) + cos d * (c * sin (yaw321 r))); [ring|]. rewrite P1, P2. lra.
    - pose proof (use312_bound r H US) as UB. destruct (upd312 0 r H US) as (_ & _ & _ & _ & c & Hc & Cc & M1 & M2). rewrite E in M1, M2. rewrite cos_0, Rmult_1_r in M1. rewrite sin_0, Rmult_0_r in M2.
      assert (NZ : m11 r <> 0 \/ - m01 r <> 0) by (destruct (Req_dec (m11 r) 0) as [Q|Q]; [right; rewrite Q in N2; nra|left; exact Q]).
      destruct (atan2_polar (- m01 r) (m11 r) NZ) as (_ & P1 & P2). assert (W : sqrt (m11 r * m11 r + - m01 r * - m01 r) = c) by (rewrite <- (sqrt_square c) by lra; f_equal; lra). rewrite W in *.
      fold (yaw312 r) in P1, P2. unfold mmul, Rz in M1, M2. cbn [m00 m01 m02 m10 m11 m12 m20 m21 m22] in M1, M2. apply (turn_back c); [exact Hc| |].
      + rewrite cos_plus. transitivity (cos d * (c * cos (yaw312 r)) - sin d * (c * sin (yaw312 r))); [ring|]. rewrite P1, P2. lra.
      + rewrite sin_plus. transitivity (sin d * (c * cos (yaw312 r)) + cos d * (c * sin (yaw312 r))); [ring|]. rewrite P1, P2. lra. }
  destruct K as [K1 K2]. unfold Rz. rewrite K1, K2. reflexivity.
Qed.
(** the bias-corrected field sample seen in the earth frame through the estimated attitude *)
Definition field_seen (q : Q4) (sample bias : V3) : V3 := mapp (dcm q) (vsub sample bias).
(** magnetic heading: the innovation is the declination of the field so seen, minus the reference declination *)
Lemma mag_innovation q sample bias decl : qnorm2 q = 1 ->
  let e := field_seen q sample bias in vx e <> 0 \/ vy e <> 0 ->
  wrap_pi (heading_of q - magHeading (dcm q) sample bias decl) = wrap_pi (atan2 (vy e) (vx e) - decl).
Proof.
  intros U e NZ. pose proof (dcm_rotation q U) as HR. unfold magHeading. cbv zeta. rewrite (unyaw _ HR), mapp_mmul. fold (field_seen q sample bias). fold e.
  unfold heading_of. fold (seq_yaw (dcm q)). set (y := seq_yaw (dcm q)).
  destruct (atan2_polar (vy e) (vx e) NZ) as (P & PC & PS). set (rho := sqrt (vx e * vx e + vy e * vy e)) in *. set (a := atan2 (vy e) (vx e)) in *.
  assert (EX : vx (mapp (Rz (- y)) e) = rho * cos (a - y)). { unfold mapp, Rz. cbn [vx vy vz m00 m01 m02 m10 m11 m12 m20 m21 m22]. rewrite <- PC, <- PS, cos_neg, sin_neg, cos_minus. ring. }
  assert (EY : vy (mapp (Rz (- y)) e) = rho * sin (a - y)). { unfold mapp, Rz. cbn [vx vy vz m00 m01 m02 m10 m11 m12 m20 m21 m22]. rewrite <- PC, <- PS, cos_neg, sin_neg, sin_minus. ring. }
  rewrite EX, EY.
  assert (NZ' : rho * cos (a - y) <> 0 \/ rho * sin (a - y) <> 0).
  { destruct (Req_dec (cos (a - y)) 0) as [Z|Z]; [right|left; apply Rmult_integral_contrapositive; split; [lra|exact Z]].
    pose proof (sc (a - y)) as SC. rewrite Z in SC. apply Rmult_integral_contrapositive. split; [lra|]. intros Z2. rewrite Z2 in SC. lra. }
  destruct (atan2_polar (rho * sin (a - y)) (rho * cos (a - y)) NZ') as (_ & QC & QS).
  assert (W : sqrt (rho * cos (a - y) * (rho * cos (a - y)) + rho * sin (a - y) * (rho * sin (a - y))) = rho) by (rewrite cs2, sqrt_square by lra; reflexivity).
  rewrite W in QC, QS. apply Rmult_eq_reg_l in QC; [|lra]. apply Rmult_eq_reg_l in QS; [|lra].
  set (b := atan2 (rho * sin (a - y)) (rho * cos (a - y))) in *.
  replace (y - (- b + decl)) with ((b + y) - decl) by ring. apply wrap_eq.
  - rewrite !cos_minus, cos_plus, sin_plus, QC, QS. rewrite <- (cos_plus (a - y) y), <- (sin_plus (a - y) y). replace (a - y + y) with a by ring. reflexivity.
  - rewrite !sin_minus, cos_plus, sin_plus, QC, QS. rewrite <- (cos_plus (a - y) y), <- (sin_plus (a - y) y). replace (a - y + y) with a by ring. reflexivity.
Qed.
(** innovation and variance of the active source: magnetometer, else vision, else none *)
Definition from_source (d : declin R) (i : headin) (x : nat -> R) (innov : R) : Prop :=
  let q := quat_of x in
  let est := atan2 (x 17%nat) (x 16%nat) in
  let decl := if d_in_flight d then est else decl_reference d in
  let e := field_seen q (hi_sample i) (mkV (x 19%nat) (x 20%nat) (x 21%nat)) in
  let ev := dcm (hi_evq i) in
  if hi_mag i then vx e <> 0 \/ vy e <> 0 -> innov = wrap_pi (atan2 (vy e) (vx e) - decl)
  else if hi_ev i then innov = wrap_pi (heading_of q - (if shouldUse321 (dcm q) then yaw321 ev else yaw312 ev))
  else innov = 0.
Definition source_var (i : headin) : R := if hi_mag i then hi_noise i * hi_noise i else if hi_ev i then hi_ev_var i else 1 / 100.
(** C61: what is fused.  The last case is a defect: a heading that must not be
    trusted is fused as usual while the attitude variance is small *)
Theorem C61_heading_sources : forall resetAll on_ground (d : declin R) (i : headin) (static : R) (f : fus R),
  symmetric24 (fP f) -> psd (fP f) -> qnorm2 (quat_of (fx f)) = 1 ->
  let f' := fst (headingFusion resetAll on_ground d i static f) in
  let static' := snd (headingFusion resetAll on_ground d i static f) in
  let hdg := heading_of (quat_of (fx f)) in
  let tilt_var := fP f 0%nat 0%nat + fP f 1%nat 1%nat + fP f 2%nat 2%nat + fP f 3%nat 3%nat in
  let use321 := shouldUse321 (dcm (quat_of (fx f))) in
  (let p := yaw_pair use321 (fx f) in usable (fst p) (snd p)) /\
  exists innov rn, heading_update use321 on_ground (Rmax rn (1 / 10000)) (hi_gate i) innov f f' /\
  (hi_inhibit i = false -> from_source d i (fx f) innov /\ rn = source_var i /\ static' = hdg) /\
  (hi_inhibit i = true -> hi_rest i = true -> innov = wrap_pi (hdg - static) /\ rn = source_var i /\ static' = static) /\
  (hi_inhibit i = true -> hi_rest i = false -> hi_max_var i < tilt_var -> innov = 0 /\ rn = 1 / 4 /\ static' = hdg) /\
  (hi_inhibit i = true -> hi_rest i = false -> tilt_var <= hi_max_var i -> from_source d i (fx f) innov /\ rn = source_var i /\ static' = hdg).
Proof.
  intros resetAll on_ground d i static f Sy Hp U. cbv zeta.
  split; [exact (proj1 (C37_heading_observable (fx f) U))|].
  unfold headingFusion. cbv zeta. fold (heading_of (quat_of (fx f))).
  set (use := shouldUse321 (dcm (quat_of (fx f)))). set (hdg := heading_of (quat_of (fx f))).
  assert (OV : (if use then yaw321_q (hi_evq i) else yaw312_q (hi_evq i)) = (if use then yaw321 (dcm (hi_evq i)) else yaw312 (dcm (hi_evq i)))).
  { destruct (yaw_overloads (hi_evq i)) as [-> ->]. reflexivity. }
  rewrite OV. clear OV.
  set (decl := getMagDeclination atan2 (d_in_flight d) (d_geo d) (d_gps d) (d_param d) (fx f)).
  set (mm := magHeading (dcm (quat_of (fx f))) (hi_sample i) (mkV (fx f 19%nat) (fx f 20%nat) (fx f 21%nat)) decl).
  set (me := if use then yaw321 (dcm (hi_evq i)) else yaw312 (dcm (hi_evq i))).
  set (H := mkHdg (hi_mag i) (hi_ev i) (hi_inhibit i) (hi_rest i) (hi_noise i) (hi_ev_var i) (hi_max_var i) mm me).
  assert (FS : from_source d i (fx f) (wrap_pi (hdg - wrap_pi (hdgMeas H hdg)))).
  { rewrite wrap_diff. unfold from_source, hdgMeas, H. cbn [h_mag h_ev h_meas_mag h_meas_ev]. destruct (hi_mag i).
    - intros NZ. unfold mm, hdg. rewrite (mag_innovation _ _ _ _ U NZ). reflexivity.
    - destruct (hi_ev i); [reflexivity|]. rewrite Rminus_eq_0. apply wrap_0. }
  assert (SV : hdgVar H = source_var i).
  { unfold hdgVar, source_var, H, sq. cbn [h_mag h_ev h_noise h_ev_var]. rewrite slitR. reflexivity. }
  assert (UP : forall (meas var : R) (z : bool), heading_update use on_ground (Rmax var (1 / 10000)) (hi_gate i) (if z then 0 else wrap_pi (hdg - wrap_pi meas)) f
     (fuseYaw wrap_pi resetAll on_ground (if use then H321 (fx f) else H312 (fx f)) hdg meas var (hi_gate i) z f)).
  { intros meas var z. apply C37_heading; assumption. }
  clearbody use hdg. 
  unfold fuseHeading, hdgSelect. change (h_inhibit H) with (hi_inhibit i). change (h_rest H) with (hi_rest i). change (h_max_var H) with (hi_max_var i). cbn [sadd slt RScalar]. rewrite SV.
  set (mv := hdgMeas H hdg) in *. clearbody mv H.
  destruct (hi_inhibit i); [destruct (hi_rest i)|]; cbn [negb].
  - cbn [fst snd]. exists (wrap_pi (hdg - static)), (source_var i). split; [rewrite <- wrap_diff; apply (UP static (source_var i) false)|].
    split; [discriminate|]. split; [intros _ _; split; [reflexivity|split; reflexivity]|]. split; intros _ C; discriminate.
  - destruct (Rlt_dec (hi_max_var i) _) as [L|L]; cbn [fst snd].
    + exists 0, (1 / 4). split; [rewrite slitR; apply (UP mv (1 / 4) true)|]. split; [discriminate|]. split; [intros _ C; discriminate|].
      split; [intros _ _ _; split; [reflexivity|split; reflexivity]|]. intros _ _ C. lra.
    + exists (wrap_pi (hdg - wrap_pi mv)), (source_var i). split; [apply (UP mv (source_var i) false)|]. split; [discriminate|]. split; [intros _ C; discriminate|].
      split; [intros _ _ C; lra|]. intros _ _ _. split; [exact FS|split; reflexivity].
  - cbn [fst snd]. exists (wrap_pi (hdg - wrap_pi mv)), (source_var i). split; [apply (UP mv (source_var i) false)|].
    split; [intros _; split; [exact FS|split; reflexivity]|]. split; [discriminate|]. split; discriminate.
Qed.

(** * C75: observations are referred to the inertial unit (control.cpp, ekf_helper.cpp)

    The innovation of each velocity, position and height observation equals the
    error of the estimate minus the error of the measurement, with lever arms
    and frames accounted for (ObsSpec.v), and the cases where the code departs
    from that.  Exact reals. *)
From Coq Require Import Reals Lra Lia.
From Verif Require Import RealGeom CBase Scalar CovPredGen CovModel CovProofsR VelPosModel VelPosProofs FusionModel ObsModel ObsSpec.
Open Scope R_scope.

(** estimated velocity and position of the inertial unit: filter states 4-6 and 7-9 (order of CovSpec.v, common.h) *)
Definition est_vel (v : vpst R) (k : nat) : R := x_st (v_c v) (4 + k)%nat.
Definition est_pos (v : vpst R) (k : nat) : R := x_st (v_c v) (7 + k)%nat.
Ltac fold_est := change est_vel with (@xv R) in *; change est_pos with (@xp R) in *.

Lemma mvecR (A : Mat R) (v : Vec R) k : mvec A v k = rot3 A v k.
Proof. unfold mvec, rot3. cbn -[Rplus Rmult Rdiv]. unfold szero. cbn. lra. Qed.
Lemma crossR (a b : Vec R) k : (k < 3)%nat -> crossT a b k = cross3 a b k.
Proof. do 3 (destruct k as [|k]; [reflexivity|]). lia. Qed.
Lemma mvec_ext (A : Mat R) (u v : Vec R) k : (forall j, (j < 3)%nat -> u j = v j) -> rot3 A u k = rot3 A v k.
Proof. intro H. unfold rot3. rewrite !H by lia. reflexivity. Qed.
Lemma mvec_cross (A : Mat R) (a b : Vec R) k : mvec A (crossT a b) k = rot3 A (cross3 a b) k.
Proof. rewrite mvecR. apply mvec_ext. apply crossR. Qed.

(** ** GPS.  The receiver measures the velocity and position of its antenna
    (r: antenna position relative to the inertial unit) with errors [ev], [ep];
    height is positive up and relative to [ref], with error [eh] *)
Definition gps_reports (Re : Mat R) (w r pos vel ev ep : Vec R) (ref eh : R) (g : gpsS R) : Prop :=
  (forall k, (k < 3)%nat -> s_vel g k = sensor_vel Re w r vel k + ev k) /\
  (forall k, (k < 2)%nat -> s_pos g k = sensor_pos Re r pos k + ep k) /\
  s_hgt g = ref - sensor_pos Re r pos 2%nat + eh.
Theorem C75_gps_innovations : forall bv other pn na vn pg vg Re w r g pos vel ev ep ref eh (v : vpst R),
  gps_reports Re w r pos vel ev ep ref eh g ->
  let '(g', o, (i0, i1)) := gpsFuse bv other pn na vn pg vg Re w r g v in
  (forall k, (k < 3)%nat -> o_innov o k = (est_vel v k - vel k) - ev k) /\
  i0 = (est_pos v 0%nat - pos 0%nat) - ep 0%nat /\ i1 = (est_pos v 1%nat - pos 1%nat) - ep 1%nat /\
  (forall p i (d : R), h_gps i = s_hgt g' -> h_ref i = ref ->
     fst (fst (hgtObs HGps p i d)) = (d - pos 2%nat) + eh - h_off i).
Proof.
  fold_est. intros until v. intros [Hv [Hp Hh]]. unfold gpsFuse, gpsCorrect. cbn [s_vel s_pos s_hgt o_innov].
  repeat apply conj.
  - intros k Hk. unfold vsubT. cbn [ssub RScalar]. rewrite Hv, mvec_cross by lia. unfold sensor_vel. lra.
  - cbn [ssub RScalar]. rewrite Hp, mvecR by lia. unfold sensor_pos. lra.
  - cbn [ssub RScalar]. rewrite Hp, mvecR by lia. unfold sensor_pos. lra.
  - intros p i d H1 H2. unfold hgtObs. cbn [fst]. rewrite H1, H2, mvecR. cbn [sadd ssub RScalar]. rewrite Hh. unfold sensor_pos. lra.
Qed.

(** ** Vision position.  [E] turns the axes of the vision system into those of
    the filter.  Vision reports the position of the camera (r), in its own axes,
    with error [e] (in the axes of the filter) *)
Definition vision_reports (E Re : Mat R) (r pos e : Vec R) (s : evS R) : Prop :=
  forall k, (k < 3)%nat -> rot3 E (ev_p s) k = sensor_pos Re r pos k + e k.
Definition ident3 (i j : nat) : R := if (i =? j)%nat then 1 else 0.
Lemma rot_ident v k : (k < 3)%nat -> rot3 ident3 v k = v k.
Proof. do 3 (destruct k as [|k]; [unfold rot3, ident3; cbn; lra|]). lia. Qed.
Lemma rot_sub A (u v : Vec R) k : rot3 A (vsubT u v) k = rot3 A u k - rot3 A v k.
Proof. unfold rot3, vsubT. cbn. ring. Qed.

(** the innovations and observation variances handed to the position fusion *)
Definition ev_observation (use_gps rot : bool) (E Re : Mat R) (r : Vec R) (s : evS R) (m : evmem R) (v : vpst R) : Vec R * Vec R * evmem R :=
  if use_gps then evOdomObs E (evPosCorrect Re r s) m (xp v) else evAbsObs rot E (evPosCorrect Re r s) m (xp v).
Theorem C75_vision_observation_fused : forall use_gps rot tp tv rv rp gate E Re r s m (v : vpst R),
  let '(i, o, m') := ev_observation use_gps rot E Re r s m v in
  let '(s', m'', res) := evPosFuse use_gps rot tp tv rv rp gate E Re r s m v in
  m'' = m' /\ s' = evPosCorrect Re r s /\
  (** the published test ratio is that of these innovations, with a gate of at least one; [w] is the state they are fused into *)
  exists w : vpst R, r_ratio res = Rmax (ratio (i 0%nat) (Rmax gate 1) (cP (v_s w) 7%nat 7%nat + o 0%nat))
                                        (ratio (i 1%nat) (Rmax gate 1) (cP (v_s w) 8%nat 8%nat + o 1%nat)) /\
    (tp = false \/ use_gps = true -> w = setOdom use_gps v) /\
    (tp = true -> use_gps = false -> w = rp s' (if tv then rv s' (setOdom false v) else setOdom false v)).
Proof.
  intros. unfold ev_observation, evPosFuse. rewrite <- one_lit.
  assert (A : forall i0 i1 g o0 o1 (w : vpst R), r_ratio (fuseHorizontalPosition false i0 i1 g o0 o1 w) =
     Rmax (ratio i0 g (cP (v_s w) 7%nat 7%nat + o0)) (ratio i1 g (cP (v_s w) 8%nat 8%nat + o1))).
  { intros. unfold fuseHorizontalPosition. cbn [sfmax sadd RScalar]. destruct (sle _ _); reflexivity. }
  destruct use_gps.
  - change (xp (setOdom true v)) with (xp v). destruct (evOdomObs _ _ _ _) as [[i o] m'].
    split; [reflexivity|]. split; [reflexivity|]. eexists. rewrite A. split; [reflexivity|]. split; [reflexivity|]. discriminate.
  - change (xp (setOdom false v)) with (xp v). destruct (evAbsObs _ _ _ _) as [[i o] m'].
    split; [reflexivity|]. split; [reflexivity|]. eexists. rewrite A. split; [reflexivity|].
    split; [intros [->|D]; [reflexivity|discriminate]|]. intros -> _. reflexivity.
Qed.

(** absolute position: exact when the vision axes are those of the filter; when
    they are rotated the lever arm is subtracted before the rotation, which
    leaves the error [r_e - E r_e] (a defect), r_e being the lever arm in earth axes *)
Theorem C75_vision_position : forall rot E Re r s m pos e (v : vpst R),
  vision_reports (if rot : bool then E else ident3) Re r pos e s ->
  let '(i, o, m') := ev_observation false rot E Re r s m v in
  forall k, (k < 2)%nat ->
  i k = (est_pos v k - pos k) - e k - (if rot : bool then rot3 Re r k - rot3 E (rot3 Re r) k else 0) /\
  o k = Rmax (if rot then rotated_var E (ev_pvar s) k else ev_pvar s k) (1 / 100 * (1 / 100)) /\ e_innov m' k = i k.
Proof.
  fold_est. intros until v. intro H. cbn [ev_observation evAbsObs evPosCorrect ev_p ev_pvar e_innov]. intros k Hk.
  cbn [ssub sfmax RScalar e_innov].
  split; [|split; [|reflexivity]].
  - specialize (H k ltac:(lia)). destruct rot.
    + rewrite mvecR, rot_sub, H. unfold sensor_pos.
      rewrite (mvec_ext E (mvec Re r) (rot3 Re r)) by (intros; apply mvecR). lra.
    + rewrite rot_ident in H by lia. unfold vsubT. cbn [ssub RScalar]. rewrite H, mvecR. unfold sensor_pos. lra.
  - unfold sq. rewrite !slitR. f_equal. destruct rot.
    + unfold rotVar, mprod, mdiag, mtrT, rotated_var. cbn [Nat.eqb]. cbn [smul sadd RScalar]. unfold szero. rewrite slitR. field.
    + unfold mdiag. rewrite Nat.eqb_refl. reflexivity.
Qed.

(** position increments (GPS enabled as well): from the second sample on, the
    innovation is the difference of the estimated and the true displacement,
    minus that of the measurement errors, again up to the rotated lever arm *)
Theorem C75_vision_increment : forall E Re Re' r s s' m pos pos' e e' rot (v v' : vpst R),
  vision_reports E Re r pos e s -> vision_reports E Re' r pos' e' s' ->
  let '(_, _, m1) := ev_observation true rot E Re r s m v in
  let '(i, o, m2) := ev_observation true rot E Re' r s' m1 v' in
  forall k, (k < 2)%nat ->
  i k = ((est_pos v' k - est_pos v k) - (pos' k - pos k)) - (e' k - e k)
        - ((rot3 Re' r k - rot3 Re r k) - (rot3 E (rot3 Re' r) k - rot3 E (rot3 Re r) k)) /\
  o k = Rmax (rotated_var E (ev_pvar s') k) (1 / 2 * (1 / 2)).
Proof.
  fold_est. intros until v'. intros H H'. cbn [ev_observation]. unfold evOdomObs at 1.
  assert (B : forall p : Vec R * Vec R, (let '(i, o) := p in (i, o, EvMem true (ev_p (evPosCorrect Re r s)) (xp v) i)) =
     (fst p, snd p, EvMem true (ev_p (evPosCorrect Re r s)) (xp v) (fst p))).
  { intros [? ?]. reflexivity. }
  rewrite B. clear B. unfold evOdomObs. cbn [e_avail e_meas e_pred evPosCorrect ev_p ev_pvar]. intros k Hk.
  cbn [ssub sfmax RScalar]. split.
  - rewrite mvecR, rot_sub, !rot_sub. specialize (H k ltac:(lia)). specialize (H' k ltac:(lia)). rewrite H, H'.
    rewrite (mvec_ext E (mvec Re r) (rot3 Re r)), (mvec_ext E (mvec Re' r) (rot3 Re' r)) by (intros; apply mvecR).
    unfold sensor_pos. lra.
  - unfold sq. rewrite !slitR. f_equal.
    unfold rotVar, mprod, mdiag, mtrT, rotated_var. cbn [Nat.eqb]. cbn [smul sadd RScalar]. unfold szero. rewrite slitR. field.
Qed.

(** the first increment after a start or a position reset has no predecessor,
    yet the previous innovations are fused again, with zero observation noise (a defect) *)
Theorem C75_first_increment : forall E Re r s m rot (v : vpst R), e_avail m = false ->
  let '(i, o, m') := ev_observation true rot E Re r s m v in
  i = e_innov m /\ (forall k, o k = 0) /\ e_avail m' = true.
Proof.
  intros E Re r s m rot v H. unfold ev_observation, evOdomObs. rewrite H. split; [reflexivity|]. split; [|reflexivity].
  intro k. unfold szero. rewrite slitR. field.
Qed.

(** ** Vision velocity, in body axes or in the vision axes *)
Definition transp (A : Mat R) : Mat R := fun i j => A j i.
Definition is_orthogonal (A : Mat R) : Prop := forall i j, (i < 3)%nat -> (j < 3)%nat -> rot3 A (fun k => A j k) i = ident3 i j.
Lemma orth_transp A u k : is_orthogonal A -> (k < 3)%nat -> rot3 A (rot3 (transp A) u) k = u k.
Proof.
  intros O Hk. assert (E : rot3 A (rot3 (transp A) u) k = rot3 (fun i j => rot3 A (fun l => A j l) i) u k).
  { unfold rot3, transp. ring. }
  rewrite E. transitivity (rot3 ident3 u k); [|apply rot_ident; exact Hk].
  change (rot3 A (fun l => A 0%nat l) k * u 0%nat + rot3 A (fun l => A 1%nat l) k * u 1%nat + rot3 A (fun l => A 2%nat l) k * u 2%nat = rot3 ident3 u k).
  rewrite !O by lia. reflexivity.
Qed.
Definition vision_velocity_reports (rot : bool) (E Re : Mat R) (w r vel e : Vec R) (s : evS R) : Prop :=
  forall k, (k < 3)%nat ->
  if ev_bodyframe s then ev_v s k = rot3 (transp Re) (fun j => sensor_vel Re w r vel j + e j) k
  else rot3 (if rot then E else ident3) (ev_v s) k = sensor_vel Re w r vel k + e k.
Theorem C75_vision_velocity : forall bv rot tr rv gate E Re w r s vel e (v : vpst R), is_orthogonal Re ->
  vision_velocity_reports rot E Re w r vel e s ->
  let o := evVelFuse bv rot tr rv gate E Re w r s v in
  forall k, (k < 3)%nat -> o_innov o k = (est_vel v k - vel k) - e k /\ o_obs o k = vel k + e k /\
    o_obsvar o k = Rmax (rotated_cov (if ev_bodyframe s then Re else if rot then E else ident3) (ev_vcov s) k) (5 / 100 * (5 / 100)).
Proof.
  fold_est. intros until v. intros O H o k Hk.
  assert (Q : o_obs o k = vel k + e k).
  { unfold o, evVelFuse. cbn [o_obs]. unfold evVelocity. specialize (H k Hk) as Hk'. unfold vision_velocity_reports in H.
    destruct (ev_bodyframe s).
    - rewrite mvecR, rot_sub. rewrite (mvec_ext Re (ev_v s) (rot3 (transp Re) (fun j => sensor_vel Re w r vel j + e j))) by exact H.
      rewrite orth_transp by assumption. rewrite (mvec_ext Re (crossT w r) (cross3 w r)) by (apply crossR). unfold sensor_vel. lra.
    - destruct rot.
      + unfold vsubT. cbn [ssub RScalar]. rewrite mvec_cross, mvecR, Hk'. unfold sensor_vel. lra.
      + rewrite rot_ident in Hk' by lia. unfold vsubT. cbn [ssub RScalar]. rewrite mvec_cross, Hk'. unfold sensor_vel. lra. }
  split; [|split; [exact Q|]].
  - change (o_innov o k) with (xv v k - o_obs o k). rewrite Q. lra.
  - unfold o, evVelFuse. cbn [o_obsvar sfmax RScalar]. unfold sq. rewrite !slitR. cbn [smul RScalar]. f_equal.
    unfold evVelVar, rotated_cov, rot3. destruct (ev_bodyframe s); [|destruct rot].
    1, 2: unfold mprod, mtrT; cbn [sadd smul RScalar]; unfold szero; rewrite slitR; field.
    do 3 (destruct k as [|k]; [unfold ident3; cbn; lra|]). lia.
Qed.

(** ** Vision axes: the alignment makes the attitude reported by vision agree
    with that of the filter, for every pair of attitudes (not normalised) *)
Lemma qinv_mul a b : 0 < qnorm2 b -> qnormalize (qmul a (qinv b)) = qmul (qnormalize a) (qconj (qnormalize b)).
Proof.
  intro Hb. pose proof (qnorm2_ge0 a) as Ha.
  assert (N : sqrt (qnorm2 (qmul a (qinv b))) = sqrt (qnorm2 a) / sqrt (qnorm2 b)).
  { assert (Hs : sqrt (qnorm2 b) <> 0) by (apply Rgt_not_eq, sqrt_lt_R0, Hb).
    rewrite qnorm2_mul. replace (qnorm2 (qinv b)) with (/ qnorm2 b).
    - rewrite sqrt_mult by (try exact Ha; left; apply Rinv_0_lt_compat, Hb). rewrite sqrt_inv. reflexivity.
    - unfold qinv. transitivity ((/ qnorm2 b) ^ 2 * qnorm2 b); [field; lra|].
      unfold qnorm2, qscale, qconj. cbn [q0 q1 q2 q3]. ring. }
  unfold qnormalize. rewrite N. unfold qinv.
  assert (Hs : 0 < sqrt (qnorm2 b)) by (apply sqrt_lt_R0, Hb).
  assert (Hq : qnorm2 b = sqrt (qnorm2 b) * sqrt (qnorm2 b)) by (symmetry; apply sqrt_sqrt; lra).
  assert (I : / (sqrt (qnorm2 a) / sqrt (qnorm2 b)) * / qnorm2 b = / sqrt (qnorm2 a) * / sqrt (qnorm2 b)).
  { rewrite Hq at 2. generalize (sqrt (qnorm2 a)). intro u. set (t := sqrt (qnorm2 b)) in *. clearbody t. unfold Rdiv. rewrite Rinv_mult, Rinv_inv.
    generalize (/ u). intro iu. field. lra. }
  set (k := / (sqrt (qnorm2 a) / sqrt (qnorm2 b))) in *. set (c := / qnorm2 b) in *.
  set (x := / sqrt (qnorm2 a)) in *. set (y := / sqrt (qnorm2 b)) in *. clearbody k c x y.
  transitivity (qscale (k * c) (qmul a (qconj b))).
  - destruct a as [a0 a1 a2 a3], b as [b0 b1 b2 b3]. unfold qscale, qmul, qconj. cbn [q0 q1 q2 q3]. f_equal; ring.
  - rewrite I. destruct a as [a0 a1 a2 a3], b as [b0 b1 b2 b3]. unfold qscale, qmul, qconj. cbn [q0 q1 q2 q3]. f_equal; ring.
Qed.
Theorem C75_vision_alignment : forall q ev, 0 < qnorm2 q -> 0 < qnorm2 ev ->
  let E := extVisRotMat q ev in
  is_rotation E /\ mmul E (dcm (qnormalize ev)) = dcm (qnormalize q) /\
  (forall k, 0 < k -> extVisRotMat q (qscale k ev) = E) /\ (qnorm2 q = 1 -> extVisRotMat q q = mident).
Proof.
  intros q ev Hq He E. pose proof (qnormalize_norm q Hq) as Nq. pose proof (qnormalize_norm ev He) as Ne.
  assert (EE : E = mmul (dcm (qnormalize q)) (mtr (dcm (qnormalize ev)))).
  { unfold E, extVisRotMat. rewrite qinv_mul by exact He. rewrite dcm_mul, dcm_conj. reflexivity. }
  split; [|split; [|split]].
  - unfold E, extVisRotMat. rewrite qinv_mul by exact He. apply dcm_rotation. rewrite qnorm2_mul, qnorm2_conj, Nq, Ne. ring.
  - rewrite EE, <- mmul_assoc. destruct (dcm_rotation _ Ne) as [_ [-> _]].
    generalize (dcm (qnormalize q)). intros [a b c d e f g h i]. unfold mmul, mident. cbn. f_equal; ring.
  - intros k Hk. unfold E, extVisRotMat.
    assert (Hk2 : 0 < qnorm2 (qscale k ev)).
    { replace (qnorm2 (qscale k ev)) with (k * k * qnorm2 ev) by (unfold qnorm2, qscale; cbn [q0 q1 q2 q3]; ring).
      apply Rmult_lt_0_compat; [nra|exact He]. }
    rewrite !qinv_mul by assumption. do 3 f_equal.
    unfold qnormalize. replace (qnorm2 (qscale k ev)) with ((k * k) * qnorm2 ev) by (unfold qnorm2, qscale; cbn [q0 q1 q2 q3]; ring).
    rewrite sqrt_mult by nra. rewrite (sqrt_square k) by lra.
    assert (Hs : 0 < sqrt (qnorm2 ev)) by (apply sqrt_lt_R0, He).
    destruct ev as [a b c d]. unfold qscale. cbn [q0 q1 q2 q3]. set (n := sqrt (qnorm2 (mkQ a b c d))) in *. clearbody n. f_equal; field; lra.
  - intro H1. unfold extVisRotMat. rewrite qinv_mul by exact Hq. rewrite dcm_mul, dcm_conj. apply dcm_rotation. exact Nq.
Qed.

(** ** Height *)
(** barometer: [hgt] is the pressure altitude, [off] the altitude of the origin;
    vehicle at [pos] (down), measurement error [e] *)
Theorem C75_baro_height : forall p i (d pos e : R), h_baro i = h_boff i - pos + e -> h_gnd i = false ->
  fst (fst (hgtObs HBaro p i d)) = (d - pos) + e.
Proof. intros p i d pos e H G. unfold hgtObs. cbn [fst]. rewrite G. unfold deadzone. cbn [sadd ssub RScalar]. rewrite H. lra. Qed.
(** range finder: the sensor is at [r] in the body and the beam makes an angle of
    cosine [c] with the vertical; the ground is at [ground] (down), the offset is
    the ground *)
Theorem C75_range_height : forall p i Re r pos (c rng d ground e : R), 0 < c ->
  rng = (ground - sensor_pos Re r pos 2%nat) / c + e -> h_off i = ground ->
  h_dist i = distBottom c (rangeCorrect Re r c rng) ->
  h_dist i = ground - pos 2%nat + e * c /\
  fst (fst (hgtObs HRange p i d)) = (d - pos 2%nat) + Rmax (e * c) (hp_clear p - (ground - pos 2%nat)).
Proof.
  intros p i Re r pos c rng d ground e Hc Hr Ho Hd.
  assert (D : h_dist i = ground - pos 2%nat + e * c).
  { rewrite Hd. unfold distBottom, rangeCorrect. rewrite mvecR. cbn [sadd smul sdiv RScalar]. rewrite Hr. unfold sensor_pos. field. lra. }
  split; [exact D|].
  unfold hgtObs. cbn [fst]. unfold smaxi. cbn [ssub sopp slt RScalar]. rewrite Ho. rewrite D.
  destruct (Rlt_dec _ _) as [L|L]; unfold Rmax; destruct (Rle_dec _ _); lra.
Qed.
(** vision height: in the update that receives a sample the lever arm of the
    camera is not removed; in the following updates, which fuse the same sample
    again while no new one arrives, it is -- provided vision position is in use (a defect) *)
Theorem C75_vision_height : forall p i i' use_gps rot tp tv rv rp gate E Re r s m (v : vpst R) (pos : Vec R) (e d d' : R),
  ev_p s 2%nat = sensor_pos Re r pos 2%nat + e -> h_ev i = ev_p s 2%nat ->
  let '(s', _, _) := evPosFuse use_gps rot tp tv rv rp gate E Re r s m v in
  h_ev i' = ev_p s' 2%nat ->
  fst (fst (hgtObs HVision p i d)) = (d - pos 2%nat) - e - rot3 Re r 2%nat /\
  fst (fst (hgtObs HVision p i' d')) = (d' - pos 2%nat) - e.
Proof.
  intros until d'. intros H1 H2. unfold evPosFuse.
  assert (A : forall b : bool, exists t, (let '(i0, o, m', v1) := if b then (evOdomObs E (evPosCorrect Re r s) m (xp (setOdom b v)), setOdom b v)
     else (evAbsObs rot E (evPosCorrect Re r s) m (xp (setOdom b v)),
          if tp then rp (evPosCorrect Re r s) (if tv then rv (evPosCorrect Re r s) (setOdom b v) else setOdom b v) else setOdom b v) in
   (evPosCorrect Re r s, m', fuseHorizontalPosition false (i0 0%nat) (i0 1%nat) (sfmax gate (slit 1 1)) (o 0%nat) (o 1%nat) v1)) = (evPosCorrect Re r s, fst t, snd t)).
  { intro b. destruct b.
    - destruct (evOdomObs _ _ _ _) as [[? ?] ?]. eexists (_, _). reflexivity.
    - destruct (evAbsObs _ _ _ _) as [[? ?] ?]. eexists (_, _). reflexivity. }
  destruct (A use_gps) as [t ->]. intro H3. unfold hgtObs. cbn [fst]. cbn [ssub RScalar]. rewrite H2, H3, H1.
  unfold evPosCorrect. cbn [ev_p]. unfold vsubT. cbn [ssub RScalar]. rewrite H1, mvecR. unfold sensor_pos. split; lra.
Qed.

(** ** Auxiliary velocity and synthetic position; the auxiliary sensor's
    observation variance published for the yaw check is the previous innovation
    variance (a defect), its gate is the parameter itself *)
Theorem C75_aux_velocity : forall gate vel var var_prev true_vel e (v : vpst R),
  (forall k, (k < 3)%nat -> vel k = true_vel k + e k) ->
  let o := auxFuse gate vel var var_prev v in
  (forall k, (k < 3)%nat -> o_innov o k = (est_vel v k - true_vel k) - e k) /\ o_obs o = vel /\ o_obsvar o = var_prev /\
  o_var o 0%nat = cP (v_s v) 4%nat 4%nat + var 0%nat /\ o_var o 1%nat = cP (v_s v) 5%nat 5%nat + var 1%nat.
Proof.
  fold_est. intros gate vel var var_prev tv e v H o. unfold o, auxFuse. cbn [o_innov o_obs o_obsvar o_var].
  split; [intros k Hk; unfold vsubT; cbn [ssub RScalar]; rewrite H by lia; lra|].
  repeat (split; [reflexivity|]). unfold fuseHorizontalVelocity. cbn [sadd RScalar]. destruct (sle _ _); split; reflexivity.
Qed.
Theorem C75_synthetic_position : forall air tilt rest na gn last (v : vpst R),
  let r := fakeFuse air tilt rest na gn last v in
  r_ratio r = Rmax (ratio (est_pos v 0%nat - last 0%nat) 3 (cP (v_s v) 7%nat 7%nat + fakeVar air tilt rest na gn))
                   (ratio (est_pos v 1%nat - last 1%nat) 3 (cP (v_s v) 8%nat 8%nat + fakeVar air tilt rest na gn)) /\
  fakeVar air tilt rest na gn = (if (air && tilt)%bool then Rmax na gn ^ 2 else if rest then 1 / 100 else 1 / 4).
Proof.
  fold_est. intros. split.
  - unfold r, fakeFuse, fuseHorizontalPosition. replace (slit 3 1 : R) with 3 by (rewrite slitR; lra).
    cbn [sfmax ssub sadd RScalar]. destruct (sle _ _ || true)%bool; [destruct (true && _)%bool|]; reflexivity.
  - unfold fakeVar, sq. destruct (_ && _)%bool; [cbn; ring|]. destruct rest; rewrite !slitR; cbn [smul RScalar]; field.
Qed.

(** ** Height: whatever the source, the height state is compared with the observation, and
    the sample is used exactly when the innovation is within gate standard deviations
    (or the accelerometer is bad) *)
Theorem C75_height_used : forall (bv : bool) src p i (v : vpst R),
  let '(innov, var, gate) := hgtObs src p i (est_pos v 2%nat) in
  let Sv := cP (v_s v) 9%nat 9%nat + var in 0 < Sv ->
  let r := hgtFuse bv src p i v in
  (r_ok r = true <-> bv = true \/ Rabs innov <= gate * sqrt Sv) /\ r_var0 r = Sv.
Proof.
  fold_est. intros bv src p i v. destruct (hgtObs src p i (xp v 2%nat)) as [[innov var] gate] eqn:E. cbv zeta. intros HS.
  assert (G : 0 < gate).
  { assert (A : forall a : R, 0 < sfmax a (slit 1 1)) by (intros a; cbn [sfmax RScalar]; rewrite slitR; apply Rlt_le_trans with (1 / 1); [lra|apply Rmax_r]).
    destruct src; cbn [hgtObs] in E; injection E as _ _ <-; apply A. }
  unfold hgtFuse. rewrite E. split.
  - pose proof (vert_gate true bv innov gate var v G) as H. cbv zeta in H. apply H; assumption.
  - unfold fuseVerticalPosition. cbv zeta. destruct (_ || _)%bool; reflexivity.
Qed.

(** ** Noise and gates.  GPS: the standard deviations are those reported by the receiver, but not
    below the configured noise (and 1 cm for the position) and, without other aiding, not above the
    no-aiding noise; the vertical velocity counts 1.5 times worse; velocity first, position last *)
Lemma constrain_minmax (x lo hi : R) : lo <= hi -> sconstrain x lo hi = Rmin (Rmax lo x) hi.
Proof. intros H. rewrite sconstrainR. unfold Rmin, Rmax. destruct (Rlt_dec x lo), (Rlt_dec hi x), (Rle_dec lo x); destruct (Rle_dec _ _); lra. Qed.
Theorem C75_gps_noise : forall bv (other : bool) pn na vn pg vg Re w r g (v : vpst R),
  let '(g', o, (i0, i1)) := gpsFuse bv other pn na vn pg vg Re w r g v in
  let sigma_v := Rmax (s_sacc g) vn in
  let lo := Rmax pn (1 / 100) in
  let sigma_p := if other then Rmax (s_hacc g) lo else Rmin (Rmax lo (s_hacc g)) (Rmax na lo) in
  1 / 100 <= sigma_p /\
  (forall k, (k < 3)%nat -> o_obsvar o k = sigma_v ^ 2 * (if (k =? 2)%nat then (15 / 10) ^ 2 else 1)) /\
  o_var o 0%nat = cP (v_s v) 4%nat 4%nat + sigma_v ^ 2 /\ o_var o 1%nat = cP (v_s v) 5%nat 5%nat + sigma_v ^ 2 /\
  let v1 := r_v (fuseHorizontalVelocity (o_innov o 0%nat) (o_innov o 1%nat) (Rmax vg 1) (sigma_v ^ 2) (sigma_v ^ 2) v) in
  o_var o 2%nat = cP (v_s v1) 6%nat 6%nat + (15 / 10 * sigma_v) ^ 2 /\
  let v2 := r_v (fuseVerticalVelocity bv (o_innov o 2%nat) (Rmax vg 1) ((15 / 10 * sigma_v) ^ 2) v1) in
  o_v o = r_v (fuseHorizontalPosition false i0 i1 (Rmax pg 1) (sigma_p ^ 2) (sigma_p ^ 2) v2).
Proof.
  intros. unfold gpsFuse.
  assert (LO : forall a : R, 1 / 100 <= Rmax a (1 / 100)) by (intros; apply Rmax_r).
  assert (EP : gpsPosVar other pn na (s_hacc g) =
    (if other then Rmax (s_hacc g) (Rmax pn (1 / 100)) else Rmin (Rmax (Rmax pn (1 / 100)) (s_hacc g)) (Rmax na (Rmax pn (1 / 100)))) ^ 2).
  { unfold gpsPosVar, sq. cbv zeta. cbn [sfmax smul RScalar]. rewrite !slitR. destruct other; [ring|].
    rewrite constrain_minmax by apply Rmax_r. ring. }
  assert (E0 : gpsVelVar vn (s_sacc g) 0%nat = Rmax (s_sacc g) vn ^ 2) by (unfold gpsVelVar, sq; cbn [sfmax smul RScalar]; ring).
  assert (E1 : gpsVelVar vn (s_sacc g) 1%nat = Rmax (s_sacc g) vn ^ 2) by (unfold gpsVelVar, sq; cbn [sfmax smul RScalar]; ring).
  assert (E2 : gpsVelVar vn (s_sacc g) 2%nat = (15 / 10 * Rmax (s_sacc g) vn) ^ 2).
  { unfold gpsVelVar, sq. cbn [sfmax smul RScalar]. rewrite !slitR. ring. }
  assert (PG : forall a : R, sfmax a (slit 1 1) = Rmax a 1) by (intros; cbn [sfmax RScalar]; rewrite slitR; f_equal; field).
  cbv zeta. cbn [o_obsvar o_var o_v o_innov gpsCorrect s_sacc s_hacc]. rewrite EP, !PG.
  split; [|split; [|split; [|split; [|split]]]].
  - destruct other; [eapply Rle_trans; [apply (LO pn)|apply Rmax_r]|]. apply Rmin_glb; [eapply Rle_trans; [apply (LO pn)|apply Rmax_l]|eapply Rle_trans; [apply (LO pn)|apply Rmax_r]].
  - intros k Hk. do 3 (destruct k as [|k]; [cbn [Nat.eqb]; rewrite ?E0, ?E1, ?E2; ring|]). lia.
  - rewrite E0, E1. unfold fuseHorizontalVelocity. cbv zeta. destruct (sle _ _); reflexivity.
  - rewrite E0, E1. unfold fuseHorizontalVelocity. cbv zeta. destruct (sle _ _); reflexivity.
  - rewrite E0, E1, E2. unfold fuseVerticalVelocity at 1. cbv zeta. destruct (_ || _)%bool; reflexivity.
  - rewrite E0, E1, E2. reflexivity.
Qed.
(** height: standard deviation from the configuration (barometer), from the receiver within 1.5 times
    the limits of the horizontal position (GPS), growing with the distance (range finder) or from the
    vision system; never below 1 cm (range finder: 10 cm); gates never below one *)
Theorem C75_height_noise : forall src p i (d : R),
  let '(_, var, gate) := hgtObs src p i d in
  1 <= gate /\ (1 / 100) ^ 2 <= var /\
  match src with
  | HBaro => var = Rmax (hp_baro_noise p) (1 / 100) ^ 2 /\ gate = Rmax (hp_baro_gate p) 1
  | HGps => (let lo := Rmax (3 / 2 * hp_gps_noise p) (1 / 100) in var = Rmin (Rmax lo (h_vacc i)) (Rmax (3 / 2 * hp_noaid p) lo) ^ 2) /\
            gate = Rmax (hp_baro_gate p) 1
  | HRange => var = Rmax (hp_rng_noise p ^ 2 + (hp_rng_scale p * h_dist i) ^ 2) ((1 / 10) ^ 2) /\ gate = Rmax (hp_rng_gate p) 1
  | HVision => var = Rmax (h_evvar i) ((1 / 100) ^ 2) /\ gate = Rmax (hp_ev_gate p) 1
  end.
Proof.
  intros src p i d.
  assert (PG : forall a : R, sfmax a (slit 1 1) = Rmax a 1) by (intros; cbn [sfmax RScalar]; rewrite slitR; f_equal; field).
  assert (SQ : forall a : R, 1 / 100 <= a -> (1 / 100) ^ 2 <= a ^ 2) by (intros; nra).
  destruct src; cbn [hgtObs]; rewrite PG; (split; [apply Rmax_r|]).
  - replace (sq (sfmax (hp_baro_noise p) (slit 1 100))) with (Rmax (hp_baro_noise p) (1 / 100) ^ 2)
      by (unfold sq; cbn [sfmax smul RScalar]; rewrite !slitR; ring).
    split; [apply SQ, Rmax_r|]. split; reflexivity.
  - set (lo := Rmax (3 / 2 * hp_gps_noise p) (1 / 100)).
    assert (E : gpsHgtVar (hp_gps_noise p) (hp_noaid p) (h_vacc i) = Rmin (Rmax lo (h_vacc i)) (Rmax (3 / 2 * hp_noaid p) lo) ^ 2).
    { unfold gpsHgtVar, sq. cbv zeta. cbn [sfmax smul RScalar]. rewrite !slitR. replace (15 / 10) with (3 / 2) by lra. fold lo.
      rewrite constrain_minmax by apply Rmax_r. ring. }
    rewrite E. split; [|split; reflexivity]. apply SQ.
    assert (1 / 100 <= lo) by apply Rmax_r.
    apply Rmin_glb; (eapply Rle_trans; [eassumption|]); [apply Rmax_l|apply Rmax_r].
  - replace (sfmax (sq (hp_rng_noise p) + sq (hp_rng_scale p * h_dist i))%scal (slit 1 100))
      with (Rmax (hp_rng_noise p ^ 2 + (hp_rng_scale p * h_dist i) ^ 2) ((1 / 10) ^ 2))
      by (unfold sq; cbn [sfmax smul sadd RScalar]; rewrite !slitR; f_equal; lra).
    split; [eapply Rle_trans; [|apply Rmax_r]; lra|]. split; reflexivity.
  - replace (sfmax (h_evvar i) (sq (slit 1 100))) with (Rmax (h_evvar i) ((1 / 100) ^ 2))
      by (unfold sq; cbn [sfmax smul RScalar]; rewrite !slitR; f_equal; ring).
    split; [apply Rmax_r|]. split; reflexivity.
Qed.

(** ** Cases that meet the hypotheses *)
Example gps_reports_possible : forall Re w r pos vel ev ep ref eh, gps_reports Re w r pos vel ev ep ref eh
  (GpsS (fun k => sensor_vel Re w r vel k + ev k) (fun k => sensor_pos Re r pos k + ep k) (ref - sensor_pos Re r pos 2%nat + eh) 1 1 1).
Proof. intros. unfold gps_reports. cbn. auto. Qed.
Example vision_reports_possible : forall E Re r pos e, is_orthogonal E ->
  vision_reports E Re r pos e (EvS (rot3 (transp E) (fun k => sensor_pos Re r pos k + e k)) (fun _ => 1) (fun _ => 0) (fun _ _ => 0) false).
Proof. intros E Re r pos e O k Hk. cbn [ev_p]. apply orth_transp; assumption. Qed.
Example vision_velocity_possible : forall rot E Re w r vel e, vision_velocity_reports rot E Re w r vel e
  (EvS (fun _ => 0) (fun _ => 1) (rot3 (transp Re) (fun j => sensor_vel Re w r vel j + e j)) (fun _ _ => 0) true).
Proof. intros. unfold vision_velocity_reports. cbn. auto. Qed.
(** vision axes turned by 90 degrees, vehicle axes along the filter's, camera one metre ahead, everything exact *)
Definition exE : Mat R := fun i j => match i, j with 0%nat, 1%nat => -1 | 1%nat, 0%nat => 1 | 2%nat, 2%nat => 1 | _, _ => 0 end.
Definition exr : Vec R := fun k => match k with O => 1 | _ => 0 end.
Definition exs : evS R := EvS (fun k => match k with 1%nat => -1 | _ => 0 end) (fun _ => 1) (fun _ => 0) (fun _ _ => 0) false.
Theorem C75_rotated_lever_arm_refuted : exists E Re r s, is_orthogonal E /\ is_orthogonal Re /\
  forall m (v : vpst R), (forall k, xp v k = 0) ->
  vision_reports E Re r (xp v) (fun _ => 0) s /\
  let '(i, _, _) := ev_observation false true E Re r s m v in i 0%nat = -1 /\ i 1%nat = 1.
Proof.
  exists exE, ident3, exr, exs. split; [|split].
  - intros i j Hi Hj. do 3 (destruct i as [|i]; [do 3 (destruct j as [|j]; [unfold rot3, exE, ident3; cbn; lra|]); lia|]). lia.
  - intros i j Hi Hj. do 3 (destruct i as [|i]; [do 3 (destruct j as [|j]; [unfold rot3, ident3; cbn; lra|]); lia|]). lia.
  - intros m v Hx.
    assert (Rp : vision_reports exE ident3 exr (xp v) (fun _ => 0) exs).
    { intros k Hk. unfold sensor_pos. rewrite Hx, rot_ident by lia.
      do 3 (destruct k as [|k]; [unfold rot3, exE, exs, exr; cbn; lra|]). lia. }
    split; [exact Rp|].
    pose proof (C75_vision_position true exE ident3 exr exs m (xp v) (fun _ => 0) v Rp) as C.
    destruct (ev_observation _ _ _ _ _ _ _ _) as [[i o] m']. destruct (C 0%nat ltac:(lia)) as [C0 _]. destruct (C 1%nat ltac:(lia)) as [C1 _].
    rewrite C0, C1, !Hx. rewrite (mvec_ext exE (rot3 ident3 exr) exr) by (intros; apply rot_ident; lia).
    rewrite (mvec_ext exE (rot3 ident3 exr) exr) by (intros; apply rot_ident; lia). rewrite !rot_ident by lia.
    unfold rot3, exE, exr. cbn. split; lra.
Qed.

Print Assumptions C75_gps_innovations.
Print Assumptions C75_vision_observation_fused.
Print Assumptions C75_vision_position.
Print Assumptions C75_vision_increment.
Print Assumptions C75_first_increment.
Print Assumptions C75_vision_velocity.
Print Assumptions C75_vision_alignment.
Print Assumptions C75_baro_height.
Print Assumptions C75_range_height.
Print Assumptions C75_vision_height.
Print Assumptions C75_aux_velocity.
Print Assumptions C75_synthetic_position.
Print Assumptions C75_rotated_lever_arm_refuted.
Print Assumptions C75_gps_noise.
Print Assumptions C75_height_noise.

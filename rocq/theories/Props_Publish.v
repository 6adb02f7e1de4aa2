(** * Property C83: published outputs *)
From Coq Require Import Reals Lra PeanoNat.
From Coquelicot Require Import Coquelicot.
From Verif Require Import CBase F32 F32More Scalar RingBufferModel RingBufferSpec RingBufferProofs RealGeom RotModel RotProofs
  OutputModel OutputProofs OutputHist OutputTrack OutputReset Props_Output Props_OutputAtt ObsModel PredictModel PredictProofs PublishModel ResetModel CovPredGen CovSpec PsdLib.
Open Scope nat_scope.

(** ** Specification *)
Definition toV (v : Vec R) : V3 := mkV (v 0) (v 1) (v 2).
Definition down (a : R) : V3 := mkV 0 0 a.
(** a history of updates and resets (OutputHist.v): the two published vectors are
    touched only by a predictor step *)
Section Run.
Variable expq : Vec R -> Vec R.
Variable lever : Vec R.
Definition pstep (o : oop) (s : pub R) : pub R :=
  match o with OStep i => publishStep expq lever i s | _ => Pub (ostep expq o (pb_o s)) (pb_acc s) (pb_rel s) end.
Fixpoint prun (l : list oop) (s : pub R) : pub R := match l with [] => s | o :: r => prun r (pstep o s) end.
End Run.
(** the attitude is not touched (resets of velocity and position) *)
Definition keeps_attitude (o : oop) : Prop :=
  match o with OResetHVel _ | OResetVVel _ | OResetHPos _ | OResetVPos _ => True | _ => False end.
(** vector and quaternion derivatives *)
Definition V_derive (f : R -> V3) (t : R) (d : V3) : Prop :=
  is_derive (fun t => vx (f t)) t (vx d) /\ is_derive (fun t => vy (f t)) t (vy d) /\ is_derive (fun t => vz (f t)) t (vz d).
Definition Q_derive (f : R -> Q4) (t : R) (d : Q4) : Prop :=
  is_derive (fun t => q0 (f t)) t (q0 d) /\ is_derive (fun t => q1 (f t)) t (q1 d) /\ is_derive (fun t => q2 (f t)) t (q2 d) /\ is_derive (fun t => q3 (f t)) t (q3 d).
(** attitude kinematics: a body turning at the rate w (body axes) *)
Definition turning (q : R -> Q4) (t : R) (w : V3) : Prop :=
  Q_derive q t (qscale (1 / 2) (qmul (q t) (mkQ 0 (vx w) (vy w) (vz w)))).

Lemma prun_o expq lever l : forall s, pb_o (prun expq lever l s) = orun expq l (pb_o s).
Proof. induction l as [|o l IH]; intros s; cbn [prun orun]; [reflexivity|]. rewrite IH. destruct o; reflexivity. Qed.
Lemma prun_app expq lever l1 : forall l2 s, prun expq lever (l1 ++ l2) s = prun expq lever l2 (prun expq lever l1 s).
Proof. induction l1 as [|o l IH]; intros l2 s; cbn [prun app]; [reflexivity|]. apply IH. Qed.
Lemma toV_mvec (q : Vec R) (v : Vec R) : toV (mvec (dcmv q) v) = mapp (dcm (toQ q)) (toV v).
Proof. unfold toV, mvec. rewrite !dcmv_entry. unfold entry, mapp, szero. cbn [vx vy vz]. cbn [sadd smul slit RScalar]. f_equal; field. Qed.
Lemma toV_cross (a b : Vec R) : toV (crossT a b) = cross (toV a) (toV b).
Proof. unfold toV, crossT, cross. cbn [vx vy vz]. cbn [ssub smul RScalar]. reflexivity. Qed.
Lemma toV_ext (a b : Vec R) : a 0 = b 0 -> a 1 = b 1 -> a 2 = b 2 -> toV a = toV b.
Proof. unfold toV. congruence. Qed.

(** ** The published position, velocity and acceleration *)
(** after every update (whatever filter updates, corrections and resets happened
    before), the published position and velocity are those of the body origin: the
    predicted position and velocity of the IMU minus the lever arm and the velocity of
    the lever arm for the published attitude and the measured angular rate; the published
    acceleration is the measured specific force without the estimated bias, turned to
    the earth frame, plus gravity.  Samples of at most 0.1 ms leave the velocity offset
    and the acceleration at the last values.  Resets of velocity and position
    made afterwards (by the setters of the origin) keep these relations *)
Theorem C83_outputs_refer_to_the_body_origin : forall expq lever (l r : list oop) (s0 : pub R) size i,
  (forall v, qnorm2 (toQ (expq v)) = 1%R) ->
  fresh (pb_o s0) size -> Forall op_time_ok l -> Forall unit_op l -> op_time_ok (OStep i) -> Forall keeps_attitude r ->
  qnorm2 (toQ (e_q (pb_o s0))) = 1%R -> qnorm2 (toQ (oq (payload (o_new (pb_o s0))))) = 1%R ->
  let s := prun expq lever l s0 in
  let s' := prun expq lever (l ++ OStep i :: r) s0 in
  let o := payload (o_new (pb_o s')) in
  let Rq := dcm (toQ (getQuaternion s')) in
  let rel := if Rlt_dec (1 / 10000) (i_dadt i) then mapp Rq (cross (vscale (/ i_dadt i) (toV (i_da i))) (toV lever)) else toV (pb_rel s) in
  is_rotation Rq /\
  toV (getPosition lever s') = vsub (toV (op o)) (mapp Rq (toV lever)) /\
  toV (getVelocity s') = vsub (toV (ov o)) rel /\
  getVerticalPositionDerivative s' = (vv (payload (w_new (pb_o s'))) - vz rel)%R /\
  toV (getVelocityDerivative s') =
    (if Rlt_dec (1 / 10000) (i_dvdt i)
     then vadd (vscale (/ i_dvdt i) (mapp Rq (vsub (toV (i_dv i)) (vscale (i_dt_imu_avg i / i_dt_ekf_avg i) (toV (e_vb (pb_o s))))))) (down (980665 / 100000))
     else toV (getVelocityDerivative s)).
Proof.
  intros expq lever l r s0 size i HE HF HT HU HI HK U1 U2. cbv zeta.
  rewrite prun_app. cbn [prun]. set (s := prun expq lever l s0).
  assert (Es : pb_o s = orun expq l (pb_o s0)) by apply prun_o.
  destruct (C59_attitude_stays_unit expq HE l (pb_o s0) size HF HT HU U1 U2) as (A & _). cbv zeta in A. rewrite <- Es in A.
  destruct (C59_attitude_step expq HE l (pb_o s0) size i HF HT HU HI U1 U2) as (w' & _ & Q & RQ & _). cbv zeta in Q, RQ. rewrite <- Es in Q, RQ.
  change (pstep expq lever (OStep i) s) with (publishStep expq lever i s).
  set (s1 := publishStep expq lever i s).
  assert (E1 : pb_o s1 = calculateOutputStates expq i (pb_o s)) by reflexivity.
  (* the later resets touch neither attitude nor the two vectors *)
  assert (KR : forall r s1, Forall keeps_attitude r -> let s2 := prun expq lever r s1 in
     oq (payload (o_new (pb_o s2))) = oq (payload (o_new (pb_o s1))) /\ o_Rq (pb_o s2) = o_Rq (pb_o s1) /\ pb_acc s2 = pb_acc s1 /\ pb_rel s2 = pb_rel s1).
  { clear. induction r as [|o r IH]; intros s1 H; cbn [prun]; [auto|]. inversion H as [|? ? Ho Hr]; subst.
    destruct (IH (pstep expq lever o s1) Hr) as (B1 & B2 & B3 & B4). cbv zeta in *. rewrite B1, B2, B3, B4.
    destruct o; cbn [keeps_attitude] in Ho; try contradiction; repeat split; reflexivity. }
  destruct (KR r s1 HK) as (K1 & K2 & K3 & K4). cbv zeta in K1, K2, K3, K4. clear KR.
  set (s2 := prun expq lever r s1) in *.
  assert (EQ : toQ (getQuaternion s2) = toQ (oq (payload (o_new (pb_o s1))))) by (unfold getQuaternion; rewrite K1; reflexivity).
  assert (ER : toQ (o_Rq (pb_o s2)) = toQ (getQuaternion s2)) by (rewrite K2, EQ, E1; exact RQ).
  assert (NQ : toQ (new_quat expq i (pb_o s)) = toQ (getQuaternion s2)).
  { rewrite EQ, E1, <- RQ. unfold calculateOutputStates. destruct (i_updated i); reflexivity. }
  split. { apply dcm_rotation. rewrite EQ, E1, Q, qnorm2_mul, A, HE. lra. }
  assert (EREL : toV (pb_rel s2) = if Rlt_dec (1 / 10000) (i_dadt i) then mapp (dcm (toQ (getQuaternion s2))) (cross (vscale (/ i_dadt i) (toV (i_da i))) (toV lever)) else toV (pb_rel s)).
  { rewrite K4. unfold s1, publishStep. cbn [pb_rel]. cbn [slt slit RScalar]. destruct (Rlt_dec (1 / 10000) (i_dadt i)) as [D|D]; [|reflexivity].
    rewrite toV_mvec, toV_cross. cbn [propagate o_Rq]. rewrite NQ. do 2 f_equal. unfold toV, vscale. cbn [vx vy vz]. cbn [smul sdiv RScalar]. f_equal; field; lra. }
  split. { unfold getPosition. rewrite <- ER. unfold toV at 1, vsub. cbn [ssub RScalar].
    pose proof (toV_mvec (o_Rq (pb_o s2)) lever) as M. unfold toV at 1 in M. rewrite <- M. reflexivity. }
  split. { rewrite <- EREL. reflexivity. }
  split. { rewrite <- EREL. reflexivity. }
  unfold getVelocityDerivative. rewrite K3. unfold s1, publishStep. cbn [pb_acc]. cbn [slt slit RScalar].
  destruct (Rlt_dec (1 / 10000) (i_dvdt i)) as [D|D]; [|reflexivity]. rewrite <- NQ.
  unfold dvel_earth, dscale, down. cbn [sadd smul sdiv ssub slit RScalar].
  pose proof (toV_mvec (new_quat expq i (pb_o s)) (fun k => (i_dv i k - e_vb (pb_o s) k * (i_dt_imu_avg i / i_dt_ekf_avg i))%R)) as M.
  unfold toV at 1 in M.
  assert (EV : toV (fun k => (i_dv i k - e_vb (pb_o s) k * (i_dt_imu_avg i / i_dt_ekf_avg i))%R) = vsub (toV (i_dv i)) (vscale (i_dt_imu_avg i / i_dt_ekf_avg i) (toV (e_vb (pb_o s))))).
  { unfold toV, vsub, vscale. cbn [vx vy vz]. f_equal; ring. }
  rewrite <- EV, <- M. unfold toV, vadd, vscale. cbn [vx vy vz Nat.eqb]. f_equal; field; lra.
Qed.

Lemma poly_derive (a b c d : R -> R) t a' b' c' d' k1 k2 k3 k4 k5 k6 k7 k8 k9 k10 :
  is_derive a t a' -> is_derive b t b' -> is_derive c t c' -> is_derive d t d' ->
  is_derive (fun u => (k1 * (a u * a u) + k2 * (b u * b u) + k3 * (c u * c u) + k4 * (d u * d u) + k5 * (a u * b u) + k6 * (a u * c u) + k7 * (a u * d u) + k8 * (b u * c u) + k9 * (b u * d u) + k10 * (c u * d u))%R) t
    (k1 * (2 * a t * a') + k2 * (2 * b t * b') + k3 * (2 * c t * c') + k4 * (2 * d t * d') + k5 * (a' * b t + a t * b') + k6 * (a' * c t + a t * c') + k7 * (a' * d t + a t * d')
     + k8 * (b' * c t + b t * c') + k9 * (b' * d t + b t * d') + k10 * (c' * d t + c t * d'))%R.
Proof.
  intros A B C D. auto_derive.
  - repeat split; eexists; eassumption.
  - assert (EA : Derive (fun x => a x) t = a') by (apply is_derive_unique; exact A). assert (EB : Derive (fun x => b x) t = b') by (apply is_derive_unique; exact B).
    assert (EC : Derive (fun x => c x) t = c') by (apply is_derive_unique; exact C). assert (ED : Derive (fun x => d x) t = d') by (apply is_derive_unique; exact D).
    rewrite EA, EB, EC, ED. ring.
Qed.
Lemma is_derive_as (f g : R -> R) (t a b : R) : is_derive g t a -> (forall u, g u = f u) -> a = b -> is_derive f t b.
Proof. intros H E <-. exact (is_derive_ext g f t a E H). Qed.
(** a vector fixed to the body turns with it *)
Lemma fixed_vector_turns (q : R -> Q4) t w L : turning q t w ->
  V_derive (fun u => mapp (dcm (q u)) L) t (mapp (dcm (q t)) (cross w L)).
Proof.
  intros (W0 & W1 & W2 & W3). destruct L as [l1 l2 l3], w as [w1 w2 w3]. cbn [vx vy vz q0 q1 q2 q3 qscale qmul] in W0, W1, W2, W3.
  unfold V_derive. cbn [mapp dcm m00 m01 m02 m10 m11 m12 m20 m21 m22 cross vx vy vz].
  pose proof (fun k1 k2 k3 k4 k5 k6 k7 k8 k9 k10 => poly_derive _ _ _ _ t _ _ _ _ k1 k2 k3 k4 k5 k6 k7 k8 k9 k10 W0 W1 W2 W3) as D. cbv beta in D.
  split; [|split].
  - apply (is_derive_as _ _ _ _ _ (D l1 l1 (- l1) (- l1) 0 (2 * l3) (- 2 * l2) (2 * l2) (2 * l3) 0)%R); cbv beta; [intros u; ring|field].
  - apply (is_derive_as _ _ _ _ _ (D l2 (- l2) l2 (- l2) (- 2 * l3) 0 (2 * l1) (2 * l1) 0 (2 * l3))%R); cbv beta; [intros u; ring|field].
  - apply (is_derive_as _ _ _ _ _ (D l3 (- l3) (- l3) l3 (2 * l2) (- 2 * l1) 0 0 (2 * l1) (2 * l2))%R); cbv beta; [intros u; ring|field].
Qed.
Lemma V_derive_unique f t a b : V_derive f t a -> V_derive f t b -> a = b.
Proof.
  intros (A1 & A2 & A3) (B1 & B2 & B3). destruct a as [a1 a2 a3], b as [b1 b2 b3]. cbn [vx vy vz] in *.
  f_equal; [rewrite <- (is_derive_unique _ _ _ A1); apply is_derive_unique; exact B1|rewrite <- (is_derive_unique _ _ _ A2); apply is_derive_unique; exact B2|rewrite <- (is_derive_unique _ _ _ A3); apply is_derive_unique; exact B3].
Qed.
Lemma V_derive_add f g t a b : V_derive f t a -> V_derive g t b -> V_derive (fun u => vadd (f u) (g u)) t (vadd a b).
Proof.
  intros (A1 & A2 & A3) (B1 & B2 & B3). unfold V_derive. cbn [vadd vx vy vz].
  split; [|split]; apply (is_derive_plus (K := R_AbsRing) (V := R_NormedModule)); assumption.
Qed.

(** a rigid body whose origin moves with the velocity v and which turns at the rate w:
    if, after an update, the predictor holds the true attitude (up to the sign of the
    quaternion), position and velocity of the IMU, mounted at the lever arm, then the
    published position is that of the body origin, and the published velocity is its
    velocity minus the earth-frame image of (gyro error b x lever arm): exact for an
    exact gyro, but the estimated gyro bias is not removed from the rate (a defect) *)
Theorem C83_body_origin_motion : forall expq lever (l : list oop) (s0 : pub R) size i (q : R -> Q4) (p : R -> V3) (vi w v b : V3) (t : R),
  (forall v, qnorm2 (toQ (expq v)) = 1%R) ->
  fresh (pb_o s0) size -> Forall op_time_ok l -> Forall unit_op l -> op_time_ok (OStep i) ->
  qnorm2 (toQ (e_q (pb_o s0))) = 1%R -> qnorm2 (toQ (oq (payload (o_new (pb_o s0))))) = 1%R ->
  let L := toV lever in
  let s' := prun expq lever (l ++ [OStep i]) s0 in
  let o := payload (o_new (pb_o s')) in
  turning q t w -> V_derive p t v -> V_derive (fun u => vadd (p u) (mapp (dcm (q u)) L)) t vi ->
  (toQ (getQuaternion s') = q t \/ toQ (getQuaternion s') = qneg (q t)) ->
  toV (op o) = vadd (p t) (mapp (dcm (q t)) L) -> toV (ov o) = vi ->
  (1 / 10000 < i_dadt i)%R -> toV (i_da i) = vscale (i_dadt i) (vadd w b) ->
  toV (getPosition lever s') = p t /\
  toV (getVelocity s') = vsub v (mapp (dcm (q t)) (cross b L)).
Proof.
  intros expq lever l s0 size i q p vi w v b t HE HF HT HU HI U1 U2 L s' o HW HP HV HQ HO HOV Hdt Hda.
  destruct (C83_outputs_refer_to_the_body_origin expq lever l [] s0 size i HE HF HT HU HI (Forall_nil _) U1 U2) as (_ & GP & GV & _).
  cbv zeta in GP, GV. fold s' in GP, GV. fold o in GP, GV. fold L in GP, GV.
  assert (ER : dcm (toQ (getQuaternion s')) = dcm (q t)).
  { destruct HQ as [->| ->]; [reflexivity|]. unfold dcm, qneg. cbn [q0 q1 q2 q3]. f_equal; ring. }
  rewrite ER in GP, GV. split.
  { rewrite GP, HO. destruct (p t) as [a1 a2 a3]. unfold vsub, vadd. cbn [vx vy vz]. f_equal; ring. }
  destruct (Rlt_dec (1 / 10000) (i_dadt i)) as [D|D]; [|exfalso; exact (D Hdt)].
  pose proof (V_derive_unique _ _ _ _ HV (V_derive_add _ _ _ _ _ HP (fixed_vector_turns q t w L HW))) as EV.
  rewrite GV, HOV, EV, Hda. clear - D. clearbody L. destruct L as [l1 l2 l3], w as [w1 w2 w3], v as [v1 v2 v3], b as [b1 b2 b3].
  set (m := dcm (q t)). destruct m as [c1 c2 c3 c4 c5 c6 c7 c8 c9].
  assert (Hn : i_dadt i <> 0%R) by lra.
  unfold vsub, vadd, vscale, cross, mapp. cbn [vx vy vz m00 m01 m02 m10 m11 m12 m20 m21 m22]. f_equal; field; exact Hn.
Qed.

(** ** Velocity derivative *)
(** between updates of the filter the predicted IMU velocity changes by the published
    acceleration times the interval *)
Theorem C83_acceleration_is_velocity_rate : forall expq lever i (s : pub R) (k : nat), k < 3 -> (1 / 10000 < i_dvdt i)%R -> i_updated i = false ->
  let s' := publishStep expq lever i s in
  (ov (payload (o_new (pb_o s'))) k - ov (payload (o_new (pb_o s))) k = getVelocityDerivative s' k * i_dvdt i)%R.
Proof.
  intros expq lever i s k Hk D U. cbv zeta. unfold getVelocityDerivative, publishStep. cbn [pb_o pb_acc].
  unfold calculateOutputStates. rewrite U. cbn [propagate o_new payload ov]. unfold vplus. cbn [slt slit sadd smul sdiv RScalar].
  destruct (Rlt_dec (1 / 10000) (i_dvdt i)) as [L|L]; [|exfalso; lra]. field. lra.
Qed.

(** ** The predicted attitude *)
(** read between the delivery of an IMU sample and the update that uses it, the predicted
    attitude is the attitude published after that update; read after the update (with
    the same filter states), it applies the last rotation a second time (a defect) *)
Theorem C83_predicted_attitude : forall expq lever i (s : pub R), (forall v, qnorm2 (toQ (expq v)) = 1%R) -> qnorm2 (toQ (getQuaternion s)) = 1%R -> i_updated i = false ->
  let s' := publishStep expq lever i s in
  let turn := qmul (qinv (toQ (getQuaternion s))) (toQ (getQuaternion s')) in
  calculate_quaternion expq i s = getQuaternion s' /\
  toQ (getQuaternion s') = qmul (toQ (getQuaternion s)) turn /\
  toQ (calculate_quaternion expq i s') = qmul (qmul (toQ (getQuaternion s)) turn) turn.
Proof.
  intros expq lever i s HE U UP. cbv zeta.
  set (e := expq (dangle i (pb_o s))).
  assert (E1 : toQ (getQuaternion (publishStep expq lever i s)) = qmul (toQ (getQuaternion s)) (toQ e)).
  { unfold getQuaternion, publishStep. cbn [pb_o]. unfold calculateOutputStates. rewrite UP. cbn [propagate o_new payload oq].
    destruct (new_quat_exact expq HE i (pb_o s) U) as (Q & _). exact Q. }
  assert (TU : qmul (qinv (toQ (getQuaternion s))) (toQ (getQuaternion (publishStep expq lever i s))) = toQ e).
  { rewrite E1, qinv_unit by exact U. destruct (toQ e) as [a b c d]. revert U. destruct (toQ (getQuaternion s)) as [w x y z]. unfold qnorm2, qmul, qconj. cbn [q0 q1 q2 q3]. intros U.
    f_equal; [transitivity ((w ^ 2 + x ^ 2 + y ^ 2 + z ^ 2) * a)%R|transitivity ((w ^ 2 + x ^ 2 + y ^ 2 + z ^ 2) * b)%R|transitivity ((w ^ 2 + x ^ 2 + y ^ 2 + z ^ 2) * c)%R|transitivity ((w ^ 2 + x ^ 2 + y ^ 2 + z ^ 2) * d)%R]; [ring|rewrite U; ring|ring|rewrite U; ring|ring|rewrite U; ring|ring|rewrite U; ring]. }
  split. { unfold calculate_quaternion, getQuaternion, publishStep. cbn [pb_o]. unfold calculateOutputStates. rewrite UP. reflexivity. }
  rewrite TU. split; [exact E1|].
  assert (U' : qnorm2 (toQ (getQuaternion (publishStep expq lever i s))) = 1%R) by (rewrite E1, qnorm2_mul, U; unfold e; rewrite HE; lra).
  rewrite <- E1. unfold calculate_quaternion. rewrite toQ_norm, toQ_mul.
  change (expq (fun k => sadd (ssub (i_da i k) (smul (e_ab (pb_o (publishStep expq lever i s)) k) (sdiv (i_dt_imu_avg i) (i_dt_ekf_avg i)))) (o_dacorr (pb_o (publishStep expq lever i s)) k)))
    with (expq (dangle i (calculateOutputStates expq i (pb_o s)))).
  assert (ED : dangle i (calculateOutputStates expq i (pb_o s)) = dangle i (pb_o s)) by (unfold calculateOutputStates; rewrite UP; reflexivity).
  rewrite ED. fold e. apply qnormalize_unit. rewrite qnorm2_mul. unfold getQuaternion in *. rewrite U'. unfold e. rewrite HE. lra.
Qed.

(** ** Vision alignment, earth rate, state vector *)
(** the published vision alignment, applied to the vision attitude, is the attitude of the filter *)
Theorem C83_vision_alignment : forall q ev, qnorm2 q = 1%R -> qnorm2 ev = 1%R ->
  let a := visionAlignment q ev in qnorm2 a = 1%R /\ (qmul a ev = q \/ qmul a ev = qneg q).
Proof.
  intros q ev Uq Ue. cbv zeta. unfold visionAlignment, extVisRotMat. rewrite qinv_unit by exact Ue.
  assert (Uc : qnorm2 (qconj ev) = 1%R) by (rewrite <- Ue; unfold qnorm2, qconj; cbn [q0 q1 q2 q3]; ring).
  assert (N : qnorm2 (qmul q (qconj ev)) = 1%R) by (rewrite qnorm2_mul, Uq, Uc; lra).
  rewrite qnormalize_unit by exact N.
  assert (B : qmul (qmul q (qconj ev)) ev = q).
  { clear N Uc Uq. revert Ue. destruct ev as [a b c d], q as [w x y z]. unfold qnorm2, qmul, qconj. cbn [q0 q1 q2 q3]. intros U.
    f_equal; [transitivity ((a ^ 2 + b ^ 2 + c ^ 2 + d ^ 2) * w)%R|transitivity ((a ^ 2 + b ^ 2 + c ^ 2 + d ^ 2) * x)%R|transitivity ((a ^ 2 + b ^ 2 + c ^ 2 + d ^ 2) * y)%R|transitivity ((a ^ 2 + b ^ 2 + c ^ 2 + d ^ 2) * z)%R]; [ring|rewrite U; ring|ring|rewrite U; ring|ring|rewrite U; ring|ring|rewrite U; ring]. }
  destruct (quatOfDcm_dcm _ N) as [-> | ->].
  - split; [exact N|]. left. exact B.
  - split; [rewrite <- N; unfold qnorm2, qneg; cbn [q0 q1 q2 q3]; ring|]. right. rewrite <- B at 2. unfold qmul, qneg. cbn [q0 q1 q2 q3]. f_equal; ring.
Qed.

(** local axes at latitude and longitude, in earth-centred axes with the third one towards the north pole *)
Definition north (lat lon : R) : V3 := mkV (- sin lat * cos lon) (- sin lat * sin lon) (cos lat).
Definition east (lat lon : R) : V3 := mkV (- sin lon) (cos lon) 0.
Definition downwards (lat lon : R) : V3 := mkV (- cos lat * cos lon) (- cos lat * sin lon) (- sin lat).
(** the earth rate used in the prediction is the rotation vector of the earth (7.292115e-5 rad/s about the
    polar axis) in local axes, everywhere on the earth *)
Theorem C83_earth_rate : forall lat lon, let spin := mkV 0 0 (72921150 / 10 ^ 12) in
  calcEarthRateNED lat = mkV (vdot spin (north lat lon)) (vdot spin (east lat lon)) (vdot spin (downwards lat lon)) /\
  sqrt (vnorm2 (calcEarthRateNED lat)) = (72921150 / 10 ^ 12)%R.
Proof.
  intros lat lon. cbv zeta. unfold calcEarthRateNED, north, east, downwards, vdot. cbn [vx vy vz].
  replace (72921150 / 10 ^ 12)%R with spin_rate by (unfold spin_rate; f_equal; f_equal; ring).
  assert (P : (0 <= spin_rate)%R) by (unfold spin_rate; lra). split; [f_equal; ring|].
  unfold vnorm2, vdot. cbn [vx vy vz]. pose proof (sin2_cos2 lat) as SC. unfold Rsqr in SC.
  match goal with |- sqrt ?x = _ => replace x with (spin_rate * spin_rate)%R end; [apply sqrt_square; exact P|].
  transitivity (spin_rate * spin_rate * (sin lat * sin lat + cos lat * cos lat))%R; [rewrite SC; ring|ring].
Qed.

(** the published state vector is the concatenation of the eight parts *)
Theorem C83_state_vector : forall (T : Type) (q v p ab vb mi mb w : Vec T),
  map (stateVector q v p ab vb mi mb w) (seq 0 24) =
  map q (seq 0 4) ++ map v (seq 0 3) ++ map p (seq 0 3) ++ map ab (seq 0 3) ++ map vb (seq 0 3) ++ map mi (seq 0 3) ++ map mb (seq 0 3) ++ map w (seq 0 2).
Proof. reflexivity. Qed.

(** ** Published biases *)
(** after any prediction history, the published gyro and accelerometer biases are at most 100/99 of the limits *)
Theorem C83_published_biases_are_limited : forall lim earth (l : list pimu) i (s : pred), (0 <= lim)%R -> (1 / 200 <= p_dt s <= 2 / 100)%R ->
  let s' := predictAll lim earth (l ++ [i]) s in
  let ab := fun k => match k with 0 => vx (s_ab (p_s s')) | 1 => vy (s_ab (p_s s')) | _ => vz (s_ab (p_s s')) end in
  let vb := fun k => match k with 0 => vx (s_vb (p_s s')) | 1 => vy (s_vb (p_s s')) | _ => vz (s_vb (p_s s')) end in
  forall k, (Rabs (getBias ab (p_dt s') k) <= 100 / 99 * (20 * PI / 180))%R /\ (Rabs (getBias vb (p_dt s') k) <= 100 / 99 * lim)%R.
Proof.
  intros lim earth l i s L D. cbv zeta. rewrite predictAll_app. cbn [predictAll].
  assert (D' : (1 / 200 <= p_dt (predictAll lim earth l s) <= 2 / 100)%R).
  { apply (predictAll_inv (fun s => (1 / 200 <= p_dt s <= 2 / 100)%R)); [|exact D]. intros j r A. apply dt_range. exact A. }
  set (r := predictAll lim earth l s) in *. clearbody r. destruct (predict_limits lim earth i r L ltac:(lra)) as (_ & _ & C & E & _).
  pose proof (dt_range lim earth i r D') as DR.
  assert (DT : (99 / 100 * p_dt r <= p_dt (predictState lim earth i r))%R).
  { unfold predictState. cbn [p_dt]. match goal with |- context [rcon ?a ?b ?c] => assert (0 <= rcon a b c)%R by (unfold rcon; destruct (Rlt_dec c a); [lra|]; destruct (Rlt_dec b c); lra) end. lra. }
  set (r' := predictState lim earth i r) in *. clearbody r'.
  assert (G : forall x b, (0 <= b)%R -> (Rabs x <= b * p_dt r)%R -> (Rabs (x / p_dt r') <= 100 / 99 * b)%R).
  { intros x b Hb Hx. unfold Rdiv at 1. rewrite Rabs_mult, (Rabs_right (/ p_dt r')) by (apply Rle_ge, Rlt_le, Rinv_0_lt_compat; lra).
    apply (Rmult_le_reg_r (p_dt r')); [lra|]. rewrite Rmult_assoc, Rinv_l, Rmult_1_r by lra.
    apply (Rle_trans _ _ _ Hx). assert (b * (99 / 100 * p_dt r) <= b * p_dt r')%R by (apply Rmult_le_compat_l; lra). lra. }
  pose proof PI_RGT_0.
  destruct C as (C1 & C2 & C3). destruct E as (E1 & E2 & E3).
  unfold getBias. cbn [sdiv RScalar]. intros [|[|k]]; (split; (apply G; [lra|assumption])).
Qed.

Lemma rsum_front f w (g : nat -> R) : (forall k, k < f -> g k = 0%R) -> rsum (f + w) g = rsum w (fun k => g (f + k)%nat).
Proof.
  intros H. induction w as [|w IH].
  - rewrite Nat.add_0_r. clear - H. induction f as [|f IH]; [reflexivity|]. cbn [rsum]. rewrite IH by (intros; apply H; lia). rewrite H by lia. cbn [rsum]. ring.
  - rewrite Nat.add_succ_r. cbn [rsum]. rewrite IH. reflexivity.
Qed.
Lemma rsum_back n m (g : nat -> R) : (forall k, n <= k -> g k = 0%R) -> rsum (n + m) g = rsum n g.
Proof. intros H. induction m as [|m IH]; [rewrite Nat.add_0_r; reflexivity|]. rewrite Nat.add_succ_r. cbn [rsum]. rewrite IH, H by lia. ring. Qed.
Lemma rsum_block f w (g : nat -> R) : f + w <= 24 -> (forall k, k < f \/ f + w <= k -> g k = 0%R) -> rsum 24 g = rsum w (fun k => g (f + k)%nat).
Proof.
  intros L H. replace 24 with ((f + w) + (24 - (f + w))) by lia. rewrite rsum_back by (intros; apply H; lia). apply rsum_front. intros; apply H; lia.
Qed.
(** the published covariance blocks (attitude, velocity, position: [first] and [w] states) of a positive semidefinite covariance are
    positive semidefinite, and the published variances are not negative *)
Theorem C83_published_covariance_blocks : forall (P : Mat R) first w, psd P -> first + w <= 24 ->
  (forall x : nat -> R, (0 <= rsum w (fun r => rsum w (fun c => x r * covariances P first r c * x c)))%R) /\
  (forall k, k < w -> (0 <= getVariance P first k)%R).
Proof.
  intros P first w HP L.
  assert (B : forall x : nat -> R, (0 <= rsum w (fun r => rsum w (fun c => x r * covariances P first r c * x c)))%R).
  { intros x. set (v := fun i => if inb first w i then x (i - first)%nat else 0%R). pose proof (HP v) as Q. unfold quad in Q.
    assert (V0 : forall k, k < first \/ first + w <= k -> v k = 0%R).
    { intros k Hk. unfold v, inb. destruct (first <=? k) eqn:E1; [|reflexivity]. destruct (k <? first + w) eqn:E2; [|reflexivity]. apply Nat.leb_le in E1. apply Nat.ltb_lt in E2. lia. }
    assert (V1 : forall k, k < w -> v (first + k)%nat = x k).
    { intros k Hk. unfold v, inb. replace (first <=? first + k) with true by (symmetry; apply Nat.leb_le; lia). replace (first + k <? first + w) with true by (symmetry; apply Nat.ltb_lt; lia). cbn [andb]. f_equal. lia. }
    rewrite (rsum_block first w) in Q; [|exact L|].
    2: { intros k Hk. rewrite (rsum_ext _ _ (fun _ => 0%R)) by (intros j _; rewrite (V0 k Hk); ring). apply (rsum_back 0 24). reflexivity. }
    match type of Q with (0 <= ?a)%R => match goal with |- (0 <= ?b)%R => replace b with a; [exact Q|] end end.
    apply rsum_ext. intros r Hr. rewrite (rsum_block first w) by (exact L || (intros k Hk; rewrite (V0 k Hk); ring)).
    apply rsum_ext. intros c Hc. rewrite !V1 by assumption. reflexivity. }
  split; [exact B|]. intros k Hk. pose proof (B (fun j => if j =? k then 1%R else 0%R)) as Q.
  rewrite (rsum_ext _ _ (fun r => if r =? k then getVariance P first k else 0%R)) in Q.
  2: { intros r Hr. destruct (Nat.eqb_spec r k) as [->|N].
       - rewrite (rsum_ext _ _ (fun c => if c =? k then getVariance P first k else 0%R)).
         + clear - Hk. induction w as [|w IH]; [lia|]. cbn [rsum]. destruct (Nat.eqb_spec w k) as [->|N].
           * rewrite (rsum_ext _ _ (fun _ => 0%R)). { rewrite (rsum_back 0 k) by reflexivity. cbn [rsum]. ring. } intros c Hc. destruct (Nat.eqb_spec c k); [lia|reflexivity].
           * rewrite IH by lia. ring.
         + intros c Hc. destruct (Nat.eqb_spec c k) as [->|N]; unfold covariances, getVariance; ring.
       - rewrite (rsum_ext _ _ (fun _ => 0%R)) by (intros c Hc; ring). apply (rsum_back 0 w). reflexivity. }
  assert (E : rsum w (fun r => if r =? k then getVariance P first k else 0%R) = getVariance P first k).
  { clear - Hk. induction w as [|w IH]; [lia|]. cbn [rsum]. destruct (Nat.eqb_spec w k) as [->|N].
    - rewrite (rsum_ext _ _ (fun _ => 0%R)). { rewrite (rsum_back 0 k) by reflexivity. cbn [rsum]. ring. } intros c Hc. destruct (Nat.eqb_spec c k); [lia|reflexivity].
    - rewrite IH by lia. ring. }
  rewrite E in Q. exact Q.
Qed.

(** the published variance of a bias is P / dt where the bias itself is x / dt: for a bias of standard deviation
    sd (rad/s or m/s^2) it is dt sd^2 instead of sd^2, a factor between 50 and 200 too small (a defect) *)
Theorem C83_bias_variance_is_too_small : forall (P : Mat R) (first k : nat) (dt sd : R), (1 / 200 <= dt <= 2 / 100)%R ->
  (* sd: standard deviation of the published bias x / dt, x having the variance P *)
  (P (first + k)%nat (first + k)%nat = (sd * dt) ^ 2)%R -> (0 < sd)%R ->
  (getBiasVariance P first dt k = dt * sd ^ 2 /\ sd ^ 2 / 200 <= getBiasVariance P first dt k <= sd ^ 2 / 50)%R.
Proof.
  intros P first k dt sd D E S. unfold getBiasVariance. cbn [sdiv RScalar]. rewrite E.
  assert (X : ((sd * dt) ^ 2 / dt = dt * sd ^ 2)%R) by (field; lra). rewrite X. split; [reflexivity|].
  assert (0 < sd ^ 2)%R by (apply pow_lt; exact S). nra.
Qed.
(** after a reset of the IMU biases to zero, with the configured uncertainties ug (rad/s) and ua (m/s^2), the published
    variances are ug^2 / 10^4 / dt and ua^2 / 10^4 / dt: one hundredth of the squares at the nominal interval *)
Theorem C83_published_bias_after_reset : forall p (s : rs) dt k, k < 3 -> (0 < dt)%R ->
  let s' := resetImuBias p s in
  (getBias (e_ab (r_o s')) dt k = 0 /\ getBias (e_vb (r_o s')) dt k = 0 /\
   getBiasVariance (r_P s') 10 dt k = gyro_bias_unc p ^ 2 / 10 ^ 4 / dt /\
   getBiasVariance (r_P s') 13 dt k = accel_bias_unc p ^ 2 / 10 ^ 4 / dt /\
   (dt = 1 / 100 -> getBiasVariance (r_P s') 10 dt k = gyro_bias_unc p ^ 2 / 100))%R.
Proof.
  intros p s dt k Hk Hdt. cbv zeta.
  assert (A : getBiasVariance (r_P (resetImuBias p s)) 10 dt k = (gyro_bias_unc p ^ 2 / 10 ^ 4 / dt)%R).
  { unfold getBiasVariance. cbn [sdiv RScalar]. destruct k as [|[|[|k]]]; [..|lia]; unfold resetImuBias, resetAccelBias, resetGyroBias, cov, uncorrelateSet;
    cbn [setPrevb setPm setO r_P inb Nat.leb Nat.ltb Nat.add andb orb Nat.eqb Nat.sub]; unfold sqr; field; lra. }
  split. { unfold getBias. cbn [sdiv RScalar]. change (e_ab (r_o (resetImuBias p s)) k) with 0%R. field. lra. }
  split. { unfold getBias. cbn [sdiv RScalar]. change (e_vb (r_o (resetImuBias p s)) k) with 0%R. field. lra. }
  split; [exact A|]. split.
  { unfold getBiasVariance. cbn [sdiv RScalar]. destruct k as [|[|[|k]]]; [..|lia]; unfold resetImuBias, resetAccelBias, resetGyroBias, cov, uncorrelateSet;
    cbn [setPrevb setPm setO r_P inb Nat.leb Nat.ltb Nat.add andb orb Nat.eqb Nat.sub]; unfold sqr; field; lra. }
  intros ->. rewrite A. field.
Qed.

(** ** Witnesses *)
Lemma toV_parts (a : Vec R) x y z : toV a = mkV x y z -> a 0 = x /\ a 1 = y /\ a 2 = z.
Proof. intros H. injection H. auto. Qed.
Lemma toV_parts' (a b : Vec R) : toV a = toV b -> a 0 = b 0 /\ a 1 = b 1 /\ a 2 = b 2.
Proof. intros H. injection H. auto. Qed.
(** a vehicle at rest, the IMU one metre ahead of the body origin, a gyro bias of 1 rad/s about the vertical which the
    filter has estimated exactly: attitude and IMU position are predicted exactly, yet the published velocity is 1 m/s *)
Definition pos_ahead : Vec R := fun k => match k with 0 => 1%R | _ => 0%R end.
Definition bias_z : Vec R := fun k => match k with 2 => (1 / 100)%R | _ => 0%R end.
Definition rest_out : ost R := mkO ex_q (fun _ => 0%R) pos_ahead bias_z (fun _ => 0%R)
  {| time_us := 0; payload := mkOut ex_q (fun _ => 0%R) pos_ahead |} {| time_us := 0; payload := mkVert 0%R 0%R 0%R |}
  {| buffer := repeat (zero_sample zero_out) 3; head := 0; tail := 0; size := 3; first_write := true |}
  {| buffer := repeat (zero_sample zero_vert) 3; head := 0; tail := 0; size := 3; first_write := true |}
  ex_rst ex_q (fun _ => 0%R) (fun _ => 0%R) (fun _ => 0%R) (fun _ => 0%R) 0%R.
Definition rest_imu : imuin R := mkImu bias_z (fun k => match k with 2 => (- (980665 / 100000 * (1 / 100)))%R | _ => 0%R end) (1 / 100)%R (1 / 100)%R 10000%Z false 0%Z (1 / 100)%R (1 / 100)%R (1 / 4)%R (1 / 4)%R.
Theorem C83_velocity_ignores_gyro_bias_refuted :
  let s' := prun exp_exact pos_ahead ([] ++ [OStep rest_imu]) (Pub rest_out (fun _ => 0%R) (fun _ => 0%R)) in
  fresh rest_out 3 /\ toQ (getQuaternion s') = qone /\ toV (op (payload (o_new (pb_o s')))) = mkV 1 0 0 /\ toV (ov (payload (o_new (pb_o s')))) = vzero /\
  toV (getPosition pos_ahead s') = vzero /\ toV (getVelocity s') = mkV 0 (-1) 0.
Proof.
  cbv zeta. split. { split; [lia|]. split; [reflexivity|]. split; reflexivity. }
  assert (D0 : mkV (dangle rest_imu rest_out 0) (dangle rest_imu rest_out 1) (dangle rest_imu rest_out 2) = vzero).
  { unfold dangle, dscale, rest_imu, rest_out, bias_z, vzero. cbn [i_da i_dt_imu_avg i_dt_ekf_avg e_ab o_dacorr]. cbn [sadd ssub smul sdiv RScalar]. f_equal; field. }
  assert (Q : toQ (new_quat exp_exact rest_imu rest_out) = qone).
  { destruct (new_quat_exact exp_exact C59_exp_unit rest_imu rest_out) as (Q & _). { unfold rest_out, ex_q, toQ, qnorm2. cbn. ring. }
    rewrite Q. unfold exp_exact. rewrite D0.
    assert (E0 : qexp vzero = qone). { unfold qexp. destruct (Rlt_dec _ _) as [L|L]; [reflexivity|]. exfalso. apply L. unfold vnorm2, vdot, vzero. cbn [vx vy vz]. replace (0 * 0 + 0 * 0 + 0 * 0)%R with 0%R by ring. rewrite sqrt_0. apply Rdiv_lt_0_compat; [lra|apply pow_lt; lra]. }
    rewrite E0. unfold toQ, qone, rest_out, ex_q. cbn [q0 q1 q2 q3 o_new payload oq]. unfold qmul. cbn [q0 q1 q2 q3 Nat.eqb]. f_equal; ring. }
  assert (B : forall v : Vec R, toV (mvec (dcmv (new_quat exp_exact rest_imu rest_out)) v) = toV v).
  { intros v. rewrite toV_mvec, Q. unfold mapp, dcm, qone, toV. cbn [q0 q1 q2 q3 m00 m01 m02 m10 m11 m12 m20 m21 m22 vx vy vz]. f_equal; ring. }
  assert (DV : toV (dvel_earth exp_exact rest_imu rest_out) = vzero).
  { unfold dvel_earth. cbv zeta. set (body := fun k => ssub (i_dv rest_imu k) (smul (e_vb rest_out k) (dscale rest_imu))). destruct (toV_parts' _ _ (B body)) as (B0 & B1 & B2).
    unfold toV, vzero. cbn [Nat.eqb]. rewrite B0, B1, B2. unfold body, rest_imu, rest_out, dscale. cbn [i_dv e_vb i_dt_imu_avg i_dt_ekf_avg i_dvdt]. cbn [sadd ssub smul sdiv slit RScalar]. f_equal; field. }
  destruct (toV_parts _ _ _ _ DV) as (V0 & V1 & V2).
  cbn [app prun pstep].
  assert (OV : toV (ov (payload (o_new (pb_o (publishStep exp_exact pos_ahead rest_imu (Pub rest_out (fun _ => 0%R) (fun _ => 0%R))))))) = vzero).
  { cbn [publishStep pb_o]. unfold calculateOutputStates. cbn [rest_imu i_updated]. fold rest_imu. cbn [propagate o_new payload ov]. unfold toV, vplus. rewrite V0, V1, V2. cbn [rest_out o_new payload ov]. cbn [sadd RScalar]. unfold vzero. f_equal; ring. }
  assert (OP : toV (op (payload (o_new (pb_o (publishStep exp_exact pos_ahead rest_imu (Pub rest_out (fun _ => 0%R) (fun _ => 0%R))))))) = mkV 1 0 0).
  { cbn [publishStep pb_o]. unfold calculateOutputStates. cbn [rest_imu i_updated]. fold rest_imu. cbn [propagate o_new payload op]. unfold toV, vplus. rewrite V0, V1, V2. cbn [rest_out o_new payload ov op pos_ahead]. cbn [sadd smul slit RScalar]. f_equal; ring. }
  split; [exact Q|]. split; [exact OP|]. split; [exact OV|].
  split.
  - unfold getPosition. cbn [publishStep pb_o]. unfold calculateOutputStates. cbn [rest_imu i_updated]. fold rest_imu. cbn [propagate o_Rq o_new payload op].
    destruct (toV_parts' _ _ (B pos_ahead)) as (B0 & B1 & B2).
    unfold toV. rewrite B0, B1, B2. cbn [publishStep pb_o] in OP. unfold calculateOutputStates in OP. cbn [rest_imu i_updated] in OP. fold rest_imu in OP. cbn [propagate o_new payload op] in OP.
    destruct (toV_parts _ _ _ _ OP) as (P0 & P1 & P2). rewrite P0, P1, P2. unfold vzero, pos_ahead. cbn [ssub RScalar]. f_equal; ring.
  - destruct (toV_parts _ _ _ _ OV) as (O0 & O1 & O2). unfold getVelocity, toV. rewrite O0, O1, O2. cbn [publishStep pb_rel pb_o]. cbn [slt slit RScalar].
    destruct (Rlt_dec (1 / 10000) (i_dadt rest_imu)) as [L|L]; [|exfalso; apply L; cbn [rest_imu i_dadt]; lra].
    cbn [propagate o_Rq]. set (c := crossT (fun k => smul (i_da rest_imu k) (sdiv (1 / 1)%R (i_dadt rest_imu))) pos_ahead). destruct (toV_parts' _ _ (B c)) as (B0 & B1 & B2). rewrite B0, B1, B2.
    unfold c, crossT, rest_imu, bias_z, pos_ahead. cbn [i_da i_dadt]. cbn [ssub smul sdiv RScalar]. f_equal; field.
Qed.
(** the same run meets the hypotheses of C83_body_origin_motion, with b the gyro bias *)
Example C83_motion_nonvacuous :
  turning (fun _ => qone) 0%R vzero /\ V_derive (fun _ => vzero) 0%R vzero /\ V_derive (fun u => vadd vzero (mapp (dcm qone) (toV pos_ahead))) 0%R vzero /\
  toV (i_da rest_imu) = vscale (i_dadt rest_imu) (vadd vzero (mkV 0 0 1)) /\ vsub vzero (mapp (dcm qone) (cross (mkV 0 0 1) (toV pos_ahead))) = mkV 0 (-1) 0.
Proof.
  assert (C : forall c : R, is_derive (fun _ : R => c) 0%R 0%R) by (intros c; apply (is_derive_const (K := R_AbsRing) (V := R_NormedModule))).
  split. { unfold turning, Q_derive. cbn [q0 q1 q2 q3 qone qscale qmul vzero vx vy vz].
    split; [|split; [|split]]; match goal with |- is_derive ?f _ ?d => replace d with 0%R by ring; apply C end. }
  split. { unfold V_derive. cbn [vx vy vz vzero]. split; [|split]; apply C. }
  split. { unfold V_derive. cbn [vx vy vz vzero]. split; [|split]; apply C. }
  split. { unfold toV, rest_imu, bias_z, vscale, vadd, vzero. cbn [i_da i_dadt vx vy vz]. f_equal; field. }
  unfold vsub, mapp, cross, dcm, qone, vzero, toV, pos_ahead. cbn [vx vy vz q0 q1 q2 q3 m00 m01 m02 m10 m11 m12 m20 m21 m22]. f_equal; ring.
Qed.
Example C83_history_nonvacuous : fresh (pb_o (Pub ex_fresh (fun _ => 0%R) (fun _ => 0%R))) 3 /\ Forall op_time_ok ex_hist2 /\ Forall unit_op ex_hist2 /\ op_time_ok (OStep (ex_imu 30000 1)) /\ Forall keeps_attitude [OResetHPos (fun _ => 4%R)].
Proof. destruct C59_history as (A & B & C & _ & _ & D & _). split; [exact A|]. split; [exact B|]. split; [exact C|]. split; [exact D|]. repeat constructor. Qed.
Example C83_alignment_case : qmul (visionAlignment qone (mkQ 0 0 0 1)) (mkQ 0 0 0 1) = qone \/ qmul (visionAlignment qone (mkQ 0 0 0 1)) (mkQ 0 0 0 1) = qneg qone.
Proof. apply (proj2 (C83_vision_alignment qone (mkQ 0 0 0 1) ltac:(unfold qnorm2, qone; cbn [q0 q1 q2 q3]; ring) ltac:(unfold qnorm2; cbn [q0 q1 q2 q3]; ring))). Qed.

Print Assumptions C83_outputs_refer_to_the_body_origin.
Print Assumptions C83_body_origin_motion.
Print Assumptions C83_acceleration_is_velocity_rate.
Print Assumptions C83_predicted_attitude.
Print Assumptions C83_vision_alignment.
Print Assumptions C83_earth_rate.
Print Assumptions C83_state_vector.
Print Assumptions C83_published_biases_are_limited.
Print Assumptions C83_published_covariance_blocks.
Print Assumptions C83_bias_variance_is_too_small.
Print Assumptions C83_published_bias_after_reset.
Print Assumptions C83_velocity_ignores_gyro_bias_refuted.

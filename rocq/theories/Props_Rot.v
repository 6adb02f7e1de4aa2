(** * Property C36: rotation helpers and yaw resets *)
From Coq Require Import Reals Lra Bool PeanoNat.
From Verif Require Import CBase Scalar RingBufferModel RealGeom RotModel RotProofs OutputModel OutputReset.
Open Scope R_scope.

(** ** Specification: elementary right-handed rotations about x, y, z *)
Definition SRx (a : R) : M3 := mkM 1 0 0  0 (cos a) (- sin a)  0 (sin a) (cos a).
Definition SRy (a : R) : M3 := mkM (cos a) 0 (sin a)  0 1 0  (- sin a) 0 (cos a).
Definition SRz (a : R) : M3 := mkM (cos a) (- sin a) 0  (sin a) (cos a) 0  0 0 1.

(** C36: the 312 conversion is yaw, then roll, then pitch; a proper rotation for all angles *)
Theorem C36_tait_bryan_312 : forall yaw roll pitch,
  taitBryan312ToRotMat yaw roll pitch = mmul (SRz yaw) (mmul (SRx roll) (SRy pitch)) /\ is_rotation (taitBryan312ToRotMat yaw roll pitch).
Proof. intros. split; [apply tb312_product|apply rot_312]. Qed.
(** the inverse matrix of a quaternion is the transpose of its matrix, and its inverse for unit quaternions *)
Theorem C36_inverse_matrix : forall q, quatToInverseRotMat q = mtr (dcm q) /\
  (qnorm2 q = 1 -> is_rotation (quatToInverseRotMat q) /\ mmul (quatToInverseRotMat q) (dcm q) = mident).
Proof.
  intros q. split; [apply inv_rot|]. intros H. rewrite inv_rot. pose proof (dcm_rotation q H) as HR. split; [apply rot_tr; exact HR|apply HR].
Qed.
(** the chosen Euler sequence is at least 45 degrees from its singularity *)
Theorem C36_sequence_avoids_gimbal_lock : forall r, is_rotation r ->
  (shouldUse321 r = true -> Rabs (m20 r) < sqrt (1 / 2)) /\ (shouldUse321 r = false -> Rabs (m21 r) <= sqrt (1 / 2)).
Proof.
  intros r H. split; intros U.
  - pose proof (use321_bound r H U). rewrite <- sqrt_Rsqr_abs. apply sqrt_lt_1; unfold Rsqr; nra.
  - pose proof (use312_bound r H U). rewrite <- sqrt_Rsqr_abs. apply sqrt_le_1; unfold Rsqr; nra.
Qed.
(** updating the yaw keeps the tilt (third row: direction of down in body axes),
    is a rotation about the vertical, and the yaw read back is the one set *)
Theorem C36_update_yaw : forall yaw r, is_rotation r ->
  let r' := updateYawInRotMat yaw r in
  is_rotation r' /\ m20 r' = m20 r /\ m21 r' = m21 r /\ m22 r' = m22 r /\
  (exists d, - PI < d <= PI /\ r' = mmul (SRz d) r) /\
  (- PI < yaw <= PI -> (if shouldUse321 r' then yaw321 r' else yaw312 r') = yaw).
Proof.
  intros yaw r H. cbv zeta. destruct (upd_tilt yaw r H) as (A & B & C & D).
  split; [exact A|]. split; [exact B|]. split; [exact C|]. split; [exact D|]. split; [exact (same_tilt_Rz _ _ H A B C D)|].
  intros Hy. exact (proj2 (upd_heading yaw r H Hy)).
Qed.
(** setting the yaw it already has is the identity *)
Theorem C36_update_yaw_identity : forall r, is_rotation r -> updateYawInRotMat (if shouldUse321 r then yaw321 r else yaw312 r) r = r.
Proof. exact upd_same. Qed.
(** the quaternion and matrix overloads of the yaw functions agree *)
Theorem C36_yaw_overloads_agree : forall q, yaw321_q q = yaw321 (dcm q) /\ yaw312_q q = yaw312 (dcm q).
Proof. exact yaw_overloads. Qed.
(** quaternion from matrix inverts matrix from quaternion, up to sign *)
Theorem C36_quaternion_of_matrix : forall q, qnorm2 q = 1 ->
  quatOfDcm (dcm q) = q \/ quatOfDcm (dcm q) = mkQ (- q0 q) (- q1 q) (- q2 q) (- q3 q).
Proof. exact quatOfDcm_dcm. Qed.

(** resetQuatStateYaw, ekf_helper.cpp l.1549-1592, on the output model *)
Definition ofQ (q : Q4) : Vec R := fun k => match k with O => q0 q | 1%nat => q1 q | 2%nat => q2 q | _ => q3 q end.
Definition resetQuatStateYaw (yaw : R) (upd : bool) (s : ost R) : ost R := resetQuat (ofQ (yawResetQuat yaw (toQ (e_q s)))) upd s.
(** C36: a yaw reset changes the attitude by a rotation about the vertical only,
    which is what it publishes and applies to the outputs: tilt of the filter
    attitude and of every output is preserved, and the yaw is the requested one *)
Theorem C36_yaw_reset : forall yaw upd (s : ost R), qnorm2 (toQ (e_q s)) = 1 ->
  let s' := resetQuatStateYaw yaw upd s in
  let c := toQ (quat_change (o_rst s')) in
  let r := dcm (toQ (e_q s)) in let r' := dcm (toQ (e_q s')) in
  qnorm2 (toQ (e_q s')) = 1 /\ qmul c (toQ (e_q s)) = toQ (e_q s') /\
  q1 c = 0 /\ q2 c = 0 /\ qnorm2 c = 1 /\
  (m20 r' = m20 r /\ m21 r' = m21 r /\ m22 r' = m22 r) /\
  (- PI < yaw <= PI -> (if shouldUse321 r' then yaw321 r' else yaw312 r') = yaw) /\
  (forall q, let o := dcm q in let o' := dcm (qmul c q) in m20 o' = m20 o /\ m21 o' = m21 o /\ m22 o' = m22 o).
Proof.
  intros yaw upd s H. cbv zeta. set (q := toQ (e_q s)) in *.
  destruct (yaw_reset yaw q H) as (d & Hd & E & M & DC & N).
  assert (Ea : toQ (e_q (resetQuatStateYaw yaw upd s)) = yawResetQuat yaw q).
  { unfold resetQuatStateYaw, resetQuat. fold q. destruct upd; cbn [setOut setRst setEQ e_q]; destruct (yawResetQuat yaw q); reflexivity. }
  assert (Na : qnorm2 (toQ (ofQ (yawResetQuat yaw q))) = 1) by (transitivity (qnorm2 (yawResetQuat yaw q)); [destruct (yawResetQuat yaw q); reflexivity|exact N]).
  destruct (quat_change_ok (ofQ (yawResetQuat yaw q)) upd s Na H) as (Q1 & Q2 & Q3). fold q in Q1, Q3. fold (resetQuatStateYaw yaw upd s) in Q1, Q2, Q3.
  assert (To : toQ (ofQ (yawResetQuat yaw q)) = yawResetQuat yaw q) by (destruct (yawResetQuat yaw q); reflexivity). rewrite To in Q1, Q3.
  change (resetQuat (ofQ (yawResetQuat yaw q)) upd s) with (resetQuatStateYaw yaw upd s) in *.
  destruct (change_is_vertical yaw q H) as [V1 V2]. rewrite Ea.
  split; [exact N|]. split; [exact Q3|]. split; [rewrite Q1; exact V1|]. split; [rewrite Q1; exact V2|]. split; [exact Q2|].
  pose proof (dcm_rotation q H) as HR. destruct (upd_tilt yaw _ HR) as (_ & T0 & T1 & T2). rewrite DC.
  split; [split; [exact T0|split; [exact T1|exact T2]]|]. split.
  { intros Hy. exact (proj2 (upd_heading yaw _ HR Hy)). }
  intros p. rewrite dcm_mul. set (c := toQ (quat_change (o_rst (resetQuatStateYaw yaw upd s)))) in *.
  assert (C1 : q1 c = 0) by (rewrite Q1; exact V1). assert (C2 : q2 c = 0) by (rewrite Q1; exact V2).
  unfold qnorm2 in Q2. rewrite C1, C2 in Q2.
  assert (D0 : m20 (dcm c) = 0) by (unfold dcm; cbn [m20]; rewrite C1, C2; ring).
  assert (D1 : m21 (dcm c) = 0) by (unfold dcm; cbn [m21]; rewrite C1, C2; ring).
  assert (D2 : m22 (dcm c) = 1) by (unfold dcm; cbn [m22]; rewrite C1, C2; lra).
  unfold mmul. cbn [m20 m21 m22]. rewrite D0, D1, D2. repeat split; ring.
Qed.

(** non-vacuity: pitched up by 60 degrees (312 sequence used), rolled by 60 degrees (321) *)
Definition q_pitch60 : Q4 := mkQ (sqrt 3 / 2) 0 (1 / 2) 0.
Definition q_roll60 : Q4 := mkQ (sqrt 3 / 2) (1 / 2) 0 0.
Lemma s3 : sqrt 3 * sqrt 3 = 3. Proof. apply sqrt_sqrt. lra. Qed.
Lemma s3p : 0 < sqrt 3. Proof. apply sqrt_lt_R0. lra. Qed.
Example q_pitch60_unit : qnorm2 q_pitch60 = 1. Proof. unfold qnorm2, q_pitch60. cbn [q0 q1 q2 q3]. pose proof s3. nra. Qed.
Example q_roll60_unit : qnorm2 q_roll60 = 1. Proof. unfold qnorm2, q_roll60. cbn [q0 q1 q2 q3]. pose proof s3. nra. Qed.
Example q_pitch60_312 : shouldUse321 (dcm q_pitch60) = false.
Proof.
  unfold shouldUse321. destruct (Rlt_dec _ _) as [L|]; [exfalso|reflexivity].
  unfold dcm, q_pitch60 in L. cbn [m20 m21 q0 q1 q2 q3] in L. pose proof (Rabs_pos (2 * (0 * 0 - sqrt 3 / 2 * (1 / 2)))).
  replace (2 * (1 / 2 * 0 + sqrt 3 / 2 * 0)) with 0 in L by ring. rewrite Rabs_R0 in L. lra.
Qed.
Example q_roll60_321 : shouldUse321 (dcm q_roll60) = true.
Proof.
  unfold shouldUse321. destruct (Rlt_dec _ _) as [|L]; [reflexivity|exfalso]. apply L.
  unfold dcm, q_roll60. cbn [m20 m21 q0 q1 q2 q3]. pose proof s3p. replace (2 * (1 / 2 * 0 - sqrt 3 / 2 * 0)) with 0 by ring.
  replace (2 * (0 * 0 + sqrt 3 / 2 * (1 / 2))) with (sqrt 3 / 2) by field. rewrite Rabs_R0, Rabs_right by lra. lra.
Qed.
Print Assumptions C36_tait_bryan_312.
Print Assumptions C36_inverse_matrix.
Print Assumptions C36_sequence_avoids_gimbal_lock.
Print Assumptions C36_update_yaw.
Print Assumptions C36_update_yaw_identity.
Print Assumptions C36_yaw_overloads_agree.
Print Assumptions C36_quaternion_of_matrix.
Print Assumptions C36_yaw_reset.

(** * Proofs about heading resets: what each source gives *)
From Coq Require Import Reals Lra Psatz ZArith List Lia Bool.
From Verif Require Import CBase Scalar RingBufferModel RealGeom RotModel RotProofs GeoModel OutputModel OutputReset Props_Rot CovModel CovSpec CovUpdProofs CovProofs CovQuat CovQuat2 FusionModel ResetModel ResetProofs.
Open Scope R_scope.

(** resetting to the heading of the sequence in use plus [d] turns the attitude by [d] about the vertical *)
Lemma turn_by d r : is_rotation r -> updateYawInRotMat (seq_yaw r + d) r = mmul (Rz d) r.
Proof.
  intros A. rewrite upd_Rz. replace (seq_yaw r + d) with (d + seq_yaw r) by ring. rewrite <- Rz_add, <- mmul_assoc, <- upd_Rz, (upd_same r A). reflexivity.
Qed.
(** the covariance of the magnetic field states after their reset *)
Lemma magCov_ok v (P : Mat R) : block_set 6 16 (fun _ => v * v) P (resetMagCov v P).
Proof.
  assert (SQ : forall x : R, sq x = x * x) by (intros; reflexivity).
  unfold resetMagCov, zeroMagCov. rewrite !SQ. unfold block_set, uncorrelateSet. split; [|split].
  - intros k K. do 6 (destruct k as [|k]; [reflexivity|]). lia.
  - intros i j I N. assert (Z : @szero R RScalar = 0) by apply szR.
    assert (K : (16 <= i < 19 \/ 19 <= i < 22)%nat) by lia. rewrite (proj2 (Nat.eqb_neq i j)) by congruence. rewrite (proj2 (Nat.eqb_neq j i)) by congruence.
    destruct K as [K|K]; [rewrite (inb_true 16 3 i) by lia|rewrite (inb_true 19 3 i) by lia]; rewrite ?orb_true_r; cbn [orb]; rewrite Z; [|split; reflexivity].
    destruct (inb 19 3 i || inb 19 3 j); destruct (inb 19 3 j || inb 19 3 i); split; reflexivity.
  - intros i j I J. rewrite (inb_false 19 3 i), (inb_false 19 3 j), (inb_false 16 3 i), (inb_false 16 3 j) by lia. reflexivity.
Qed.
Lemma magCovReset_o p c s : r_o (magCovReset p c s) = r_o s /\ r_R (magCovReset p c s) = r_R s /\ r_mi (magCovReset p c s) = r_mi s /\ r_mb (magCovReset p c s) = r_mb s /\
  r_P (magCovReset p c s) = resetMagCov (mag_noise p) (r_P s) /\ r_declreset (magCovReset p c s) = false /\
  r_wn (magCovReset p c s) = r_wn s /\ r_we (magCovReset p c s) = r_we s /\ r_inflight (magCovReset p c s) = r_inflight s /\ r_bad (magCovReset p c s) = r_bad s /\
  r_fault (magCovReset p c s) = r_fault s /\ r_yaw_align (magCovReset p c s) = r_yaw_align s /\ r_request (magCovReset p c s) = r_request s /\ r_boff (magCovReset p c s) = r_boff s.
Proof. unfold magCovReset. destruct (c_mag_3D c); repeat split. Qed.
Lemma yawReset_o yaw var upd s : let s' := yawReset yaw var upd s in
  e_v (r_o s') = e_v (r_o s) /\ e_p (r_o s') = e_p (r_o s) /\ e_ab (r_o s') = e_ab (r_o s) /\ e_vb (r_o s') = e_vb (r_o s) /\
  r_mi s' = r_mi s /\ r_mb s' = r_mb s /\ r_wn s' = r_wn s /\ r_we s' = r_we s /\ r_boff s' = r_boff s /\ r_inflight s' = r_inflight s /\
  r_bad s' = r_bad s /\ r_fault s' = r_fault s /\ r_yaw_align s' = r_yaw_align s /\ r_request s' = r_request s /\ r_align s' = r_align s.
Proof. cbv zeta. unfold yawReset, resetQuatStateYaw, resetQuat. destruct upd; repeat split. Qed.
(** the variance: the yaw derivative of the attitude, scaled by the yaw variance limited to 0.01 *)
Lemma yawReset_var yaw var upd s : qnorm2 (attq s) = 1 -> 1 / 2 ^ 23 < var ->
  forall i j, (i < 4)%nat -> (j < 4)%nat -> let q := attq (yawReset yaw var upd s) in
  let D := fun k : nat => match k with O => - q3 q / 2 | 1%nat => - q2 q / 2 | 2%nat => q1 q / 2 | _ => q0 q / 2 end in
  r_P (yawReset yaw var upd s) i j = r_P s i j + Rmin var (1 / 100) * D i * D j.
Proof.
  intros U L i j I J. cbv zeta.
  assert (N : qnorm2 (attq (yawReset yaw var upd s)) = 1) by (apply yawReset_ok; exact U).
  assert (EQ : attq (yawReset yaw var upd s) = yawResetQuat yaw (attq s)) by (unfold attq, yawReset; cbn [setRm setPm setO r_o]; apply yaw_eq).
  rewrite EQ in *. set (y := yawResetQuat yaw (attq s)) in *.
  assert (UQ : unit_quat (ofQ y)) by (unfold unit_quat, ofQ; unfold qnorm2 in N; lra).
  unfold yawReset. cbn [setRm setPm setO r_P]. destruct (Rlt_dec _ _) as [_|X]; [|lra]. fold (attq s). fold y.
  set (D := fun k : nat => match k with O => - q3 y / 2 | 1%nat => - q2 y / 2 | 2%nat => q1 y / 2 | 3%nat => q0 y / 2 | _ => 0 end).
  destruct (yaw_derivative (q0 y) (q1 y) (q2 y) (q3 y)) as (Y0 & Y1 & Y2 & Y3).
  rewrite (increaseYaw_ok (ofQ y) var (uncorrelateQuat (r_P s)) D i j UQ).
  - assert (Q : uncorrelateQuat (r_P s) i j = r_P s i j) by (unfold uncorrelateQuat; destruct (Nat.ltb_spec i 4); destruct (Nat.ltb_spec j 4); try lia; reflexivity).
    rewrite Q. do 4 (destruct i as [|i]; [do 4 (destruct j as [|j]; [reflexivity|]); lia|]). lia.
  - intros k K. do 4 (destruct k as [|k]; [assumption|]). lia.
  - intros k K. do 4 (destruct k as [|k]; [lia|]). reflexivity.
Qed.
(** after setting a heading, in the 321 sequence the nose points in the given direction *)
Lemma nose_dir yaw r : is_rotation r -> shouldUse321 r = true -> exists k, 0 < k /\ m00 (updateYawInRotMat yaw r) = k * cos yaw /\ m10 (updateYawInRotMat yaw r) = k * sin yaw.
Proof.
  intros A U. destruct (upd321 yaw r A U) as (_ & _ & _ & _ & c & Hc & _ & M1 & M2). exists c. split; [exact Hc|]. unfold updateYawInRotMat. rewrite U. split; assumption.
Qed.

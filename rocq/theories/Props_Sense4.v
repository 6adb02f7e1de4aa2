(** * C80 (continued): first in-flight heading reset above ground disturbances (mag_control.cpp l.120-131) *)
From Coq Require Import Reals Lra Bool ZArith.
From Flocq Require Import Core BinarySingleNaN.
From Verif Require Import CBase Scalar F32 SenseModel ControlModel Props_Sense Props_Sense2.
Open Scope R_scope.

(** positions are along down: the height above the terrain is terrain - position *)
Theorem C80_heading_reset_above_anomalies : forall (i : inp) (s : st) (terrain posD : R),
  ib i I_above_anomalies = aboveAnomalies terrain posD ->
  (gb (checkHaglYawResetReq i s) L_mag_yaw_reset_req = true <->
   gb s L_mag_yaw_reset_req = true \/ (gb s F_mag_aligned_in_flight = false /\ 1.5 < terrain - posD)).
Proof.
  intros i s terrain posD H.
  assert (A : aboveAnomalies terrain posD = true <-> 1.5 < terrain - posD).
  { unfold aboveAnomalies. cbn [slt ssub slit RScalar]. destruct (Rlt_dec _ _) as [L|L]; (split; [intros; try discriminate; lra|intros; try reflexivity; exfalso; lra]). }
  unfold checkHaglYawResetReq, if_, setb. rewrite H. destruct (gb s F_mag_aligned_in_flight); cbn.
  - intuition congruence.
  - rewrite orb_true_iff, A. intuition.
Qed.
(** a NaN terrain or position estimate requests nothing *)
Theorem C80_heading_reset_nan : forall (terrain posD : f32), is_nan terrain = true \/ is_nan posD = true -> aboveAnomalies terrain posD = false.
Proof.
  intros terrain posD H. unfold aboveAnomalies. cbn [slt ssub slit FScalar]. apply nan_lt_r. destruct H as [H|H]; [apply nan_sub_l, H|].
  destruct posD; try discriminate. destruct terrain; reflexivity.
Qed.
Example C80_anomalies_ex : aboveAnomalies (2 : R) 0 = true /\ aboveAnomalies (1 : R) 0 = false /\ aboveAnomalies (0 : R) (-2) = true.
Proof. unfold aboveAnomalies. cbn [slt ssub slit RScalar]. repeat match goal with |- context [Rlt_dec ?a ?b] => destruct (Rlt_dec a b); try (exfalso; lra) end. auto. Qed.
Print Assumptions C80_heading_reset_above_anomalies. Print Assumptions C80_heading_reset_nan.

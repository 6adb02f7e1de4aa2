(** Proofs: alignment flags are kept up to the flow and vision steps. *)
Require Import ZArith Bool List Lia.
Require Import Verif.CBase Verif.GpsModel Verif.ControlModel Verif.ControlSpec Verif.ControlTac Verif.ControlProofs Verif.ControlProofs2 Verif.ControlProofs3 Verif.ControlProofs4 Verif.ControlProofs5 Verif.ControlProofs6 Verif.ControlProofs7 Verif.ControlProofs8 Verif.ControlProofs9 Verif.ControlProofs10.
Import ListNotations.
Local Open Scope Z_scope.
Local Open Scope ctl_scope.
Section Al.
Variable (p : params) (i : inp).
Lemma preFlow_tilt : forall s, gb s F_tilt_align = true -> gb (preFlow p i s) F_tilt_align = true.
Proof.
  intros s H. match goal with |- gb ?x ?k = ?v => change (bis k v x) end. assert (bis F_tilt_align true s) by exact H.
  presh (D_bis F_tilt_align true) ltac:(idtac; match goal with |- bis _ _ (setb F_tilt_align true _) => reflexivity end).
Qed.
Hypothesis MT : 0 <= p_mag_type p <= 2.
Lemma preFlow_yaw : forall s, gb s F_yaw_align = true -> gb (preFlow p i s) F_yaw_align = true.
Proof.
  intros s H. match goal with |- gb ?x ?k = ?v => change (bis k v x) end. assert (bis F_yaw_align true s) by exact H.
  presh (D_bis F_yaw_align true) ltac:(idtac; match goal with |- bis _ _ (setb F_yaw_align true _) => reflexivity | |- bis _ _ (alignYawToMag _ _ _) => apply alignYaw_ok; exact MT end).
Qed.
Lemma preEv_yaw : forall s, gb s F_yaw_align = true -> gb (preEv p i s) F_yaw_align = true.
Proof.
  intros s H. match goal with |- gb ?x ?k = ?v => change (bis k v x) end. assert (bis F_yaw_align true s) by exact H.
  presh (D_bis F_yaw_align true) ltac:(idtac; match goal with |- bis _ _ (setb F_yaw_align true _) => reflexivity | |- bis _ _ (alignYawToMag _ _ _) => apply alignYaw_ok; exact MT end).
Qed.
End Al.

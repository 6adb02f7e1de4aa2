(** * Prediction: filtered acceleration, propagation of initial errors *)
From Coq Require Import Reals Lra Psatz ZArith List Lia.
From Verif Require Import RealGeom RotModel RotProofs PredictModel PredictProofs.
Import ListNotations.
Open Scope R_scope.

Definition ready_state (lim : R) (s : pred) : Prop :=
  qnorm2 (s_q (p_s s)) = 1 /\ p_R s = dcm (s_q (p_s s)) /\ 0 <= lim /\ 1 / 200 <= p_dt s <= 2 / 100 /\
  within (20 * PI / 180 / 200) (s_ab (p_s s)) /\ within (lim / 200) (s_vb (p_s s)).
Lemma step_lpf lim earth h s : ready_state lim s -> kin_ok (moveLeg h (kin_of s)) ->
  let s' := predictState lim earth (senseLeg earth (s_ab (p_s s)) (s_vb (p_s s)) h (kin_of s)) s in
  p_lpn s' - vx (h_a h) = (1 - h_dt h) * (p_lpn s - vx (h_a h)) /\ p_lpe s' - vy (h_a h) = (1 - h_dt h) * (p_lpe s - vy (h_a h)) /\ ready_state lim s'.
Proof.
  intros (U & RR & L & D & WA & WV) K. cbv zeta. destruct (predict_tracks1 lim earth h s U RR L D WA WV K) as (A & B & C). cbv zeta in *. set (i := senseLeg _ _ _ _ _) in *.
  destruct (predict_attitude lim earth i s U) as (A1 & U' & R'). destruct (predict_lpf lim earth i s U) as (N & E). pose proof (dt_range lim earth i s D) as D'. cbv zeta in *. set (s' := predictState lim earth i s) in *.
  assert (Q : s_q (p_s s') = k_q (moveLeg h (kin_of s))) by (rewrite <- A; reflexivity).
  assert (V : mapp (p_R s') (vsub (pi_dv i) (s_vb (p_s s))) = vscale (h_dt h) (vsub (h_a h) (mkV 0 0 gravity))).
  { unfold i, senseLeg. cbn [pi_dv]. rewrite vsub_self, mapp_vscale, R', <- Q, rot_undo by exact U'. reflexivity. }
  rewrite V in N, E. unfold i, senseLeg in N, E. cbn [pi_dvdt] in N, E. unfold vscale, vsub in N, E. cbn [vx vy vz] in N, E.
  split; [rewrite N; ring|]. split; [rewrite E; ring|].
  split; [exact U'|]. split; [exact R'|]. split; [exact L|]. split; [exact D'|]. rewrite B, C. auto.
Qed.
Lemma lpf_converges lim earth a l : forall s, ready_state lim s -> (forall h, In h l -> h_a h = a /\ 0 <= h_dt h <= 1) ->
  (forall x y, l = x ++ y -> kin_ok (moveAll x (kin_of s))) ->
  let s' := predictAll lim earth (senseAll earth (s_ab (p_s s)) (s_vb (p_s s)) l (kin_of s)) s in
  Rabs (p_lpn s' - vx a) <= exp (- legTime l) * Rabs (p_lpn s - vx a) /\ Rabs (p_lpe s' - vy a) <= exp (- legTime l) * Rabs (p_lpe s - vy a).
Proof.
  induction l as [|h l IH]; intros s RS H K; cbv zeta.
  - cbn [senseAll predictAll legTime fold_right]. rewrite Ropp_0, exp_0. lra.
  - cbn [senseAll predictAll]. destruct (H h (or_introl eq_refl)) as (HA & HD).
    destruct (step_lpf lim earth h s RS (K [h] l eq_refl)) as (N & E & RS'). cbv zeta in *. pose proof RS as (U & RR & L & D & WA & WV).
    destruct (predict_tracks1 lim earth h s U RR L D WA WV (K [h] l eq_refl)) as (A & B & C). cbv zeta in *. set (s' := predictState _ _ _ _) in *.
    assert (X : kin_of (s') = moveLeg h (kin_of s)) by exact A.
    specialize (IH s' RS' (fun g G => H g (or_intror G))). rewrite X in IH.
    specialize (IH ltac:(intros x y E'; specialize (K (h :: x) y); cbn [moveAll] in K; apply K; rewrite E'; reflexivity)). cbv zeta in IH. rewrite B, C in IH. destruct IH as (I1 & I2).
    rewrite HA in N, E. rewrite N, Rabs_mult in I1. rewrite E, Rabs_mult in I2. rewrite (Rabs_right (1 - h_dt h)) in I1, I2 by lra.
    cbn [legTime fold_right]. fold (legTime l).
    assert (EX : exp (- legTime l) * (1 - h_dt h) <= exp (- (h_dt h + legTime l))).
    { replace (- (h_dt h + legTime l)) with (- legTime l + - h_dt h) by ring. rewrite exp_plus. apply Rmult_le_compat_l; [left; apply exp_pos|].
      pose proof (exp_ineq1_le (- h_dt h)). lra. }
    split; (eapply Rle_trans; [eassumption|]); rewrite <- Rmult_assoc; apply Rmult_le_compat_r; [apply Rabs_pos|exact EX|apply Rabs_pos|exact EX].
Qed.

(** two filters with the same attitude and biases but different velocity and position, fed the same samples *)
Lemma same_attitude lim earth i s t : qnorm2 (s_q (p_s s)) = 1 -> s_q (p_s t) = s_q (p_s s) -> p_R t = p_R s -> s_ab (p_s t) = s_ab (p_s s) -> s_vb (p_s t) = s_vb (p_s s) -> p_dt t = p_dt s ->
  let s' := predictState lim earth i s in let t' := predictState lim earth i t in
  qnorm2 (s_q (p_s s')) = 1 /\ s_q (p_s t') = s_q (p_s s') /\ p_R t' = p_R s' /\ s_ab (p_s t') = s_ab (p_s s') /\ s_vb (p_s t') = s_vb (p_s s') /\ p_dt t' = p_dt s'.
Proof.
  intros U Q RR A V D. cbv zeta. destruct (predict_attitude lim earth i s U) as (A1 & U' & R'). destruct (predict_attitude lim earth i t) as (A2 & U2 & R2); [rewrite Q; exact U|].
  destruct (predict_rest lim earth i s) as (D1 & B1 & C1 & _). destruct (predict_rest lim earth i t) as (D2 & B2 & C2 & _). cbv zeta in *.
  assert (CD : corrected_da earth i t = corrected_da earth i s) by (unfold corrected_da; rewrite A, RR; reflexivity).
  assert (Q' : s_q (p_s (predictState lim earth i t)) = s_q (p_s (predictState lim earth i s))) by (rewrite A1, A2, CD, Q; reflexivity).
  split; [exact U'|]. split; [exact Q'|]. split; [rewrite R', R2, Q'; reflexivity|]. split; [rewrite B1, B2, A, D; reflexivity|]. split; [rewrite C1, C2, V, D; reflexivity|rewrite D1, D2, D; reflexivity].
Qed.
(** the velocity and position limits do not act on this step *)
Definition unlimited (lim : R) (earth : V3) (i : pimu) (s : pred) : Prop :=
  let s' := predictState lim earth i s in
  let v' := nextVel i (s_vb (p_s s)) (p_R s') (s_v (p_s s)) in
  within 1000 v' /\ within 1000000 (vadd (s_p (p_s s)) (vscale (pi_dvdt i / 2) (vadd (s_v (p_s s)) v'))).
Definition imuTime (l : list pimu) : R := fold_right (fun i t => pi_dvdt i + t) 0 l.
Fixpoint unlimitedAll (lim : R) (earth : V3) (l : list pimu) (s : pred) : Prop :=
  match l with [] => True | i :: r => unlimited lim earth i s /\ unlimitedAll lim earth r (predictState lim earth i s) end.
Lemma error_growth lim earth l : forall s t, qnorm2 (s_q (p_s s)) = 1 -> s_q (p_s t) = s_q (p_s s) -> p_R t = p_R s -> s_ab (p_s t) = s_ab (p_s s) -> s_vb (p_s t) = s_vb (p_s s) -> p_dt t = p_dt s ->
  unlimitedAll lim earth l s -> unlimitedAll lim earth l t ->
  let s' := predictAll lim earth l s in let t' := predictAll lim earth l t in
  s_q (p_s t') = s_q (p_s s') /\ vsub (s_v (p_s t')) (s_v (p_s s')) = vsub (s_v (p_s t)) (s_v (p_s s)) /\
  vsub (s_p (p_s t')) (s_p (p_s s')) = vadd (vsub (s_p (p_s t)) (s_p (p_s s))) (vscale (imuTime l) (vsub (s_v (p_s t)) (s_v (p_s s)))).
Proof.
  induction l as [|i l IH]; intros s t U Q RR A V D LS LT; cbv zeta.
  - cbn [predictAll imuTime fold_right]. split; [exact Q|]. split; [reflexivity|]. destruct (s_p (p_s t)) as [a b c], (s_p (p_s s)) as [d e f], (vsub (s_v (p_s t)) (s_v (p_s s))) as [g h j]. unfold vadd, vscale, vsub. cbn [vx vy vz]. f_equal; ring.
  - cbn [unlimitedAll] in LS, LT. destruct LS as ((L1 & L2) & LS), LT as ((L3 & L4) & LT). cbn [predictAll].
    destruct (same_attitude lim earth i s t U Q RR A V D) as (U' & Q' & R' & A' & V' & D'). cbv zeta in *.
    destruct (IH _ _ U' Q' R' A' V' D' LS LT) as (I1 & I2 & I3). cbv zeta in *. split; [exact I1|].
    destruct (predict_motion lim earth i s U) as (MV & MP). destruct (predict_motion lim earth i t) as (NV & NP); [rewrite Q; exact U|]. cbv zeta in *.
    rewrite vcon_id in MV by exact L1. rewrite vcon_id in MP by exact L2. rewrite vcon_id in NV by exact L3. rewrite vcon_id in NP by exact L4.
    rewrite I2, I3. rewrite MV, MP, NV, NP. rewrite R', V. cbn [imuTime fold_right]. fold (imuTime l). unfold nextVel. set (d := mapp _ _). set (T := imuTime l).
    destruct (s_p (p_s t)) as [a b c], (s_p (p_s s)) as [e f g], (s_v (p_s t)) as [h j k], (s_v (p_s s)) as [m n o], d as [x y z]. unfold vadd, vscale, vsub. cbn [vx vy vz]. split; f_equal; field.
Qed.

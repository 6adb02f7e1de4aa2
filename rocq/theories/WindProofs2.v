(** wind estimator in exact arithmetic: covariance, Jacobians, initialisation *)
From Coq Require Import ZArith Bool Reals Lra Lia Psatz List.
From Coquelicot Require Import Coquelicot.
From Verif Require Import CBase Scalar RotModel RotProofs RealGeom WindModel WindProofs.
Import ListNotations.
Open Scope R_scope.

Lemma sltR a b : @slt R RScalar a b = true -> a < b. Proof. cbn. destruct (Rlt_dec a b); [auto|discriminate]. Qed.
Lemma sltR_f a b : @slt R RScalar a b = false -> b <= a. Proof. cbn. destruct (Rlt_dec a b); [discriminate|lra]. Qed.

(** sanity checks on a symmetric covariance within limits *)
Lemma sanity_P_R (w : @wind R) : w_initialised w = true -> sym3 (w_P w) ->
  w_P w 0%nat 0%nat <= 25 -> w_P w 1%nat 1%nat <= 25 -> w_P w 2%nat 2%nat <= 1 / 10 -> w_initialised (sanity rlibm w) = true ->
  forall i j, (i < 3)%nat -> (j < 3)%nat -> w_P (sanity rlibm w) i j = w_P w i j.
Proof.
  intros HI Y L0 L1 L2 HV. revert HV. unfold sanity. cbv zeta.
  destruct (slt (w_P w 0%nat 0%nat) szero) eqn:E0; [discriminate|].
  match goal with |- context [if slt ?a szero then _ else _] => destruct (slt a szero) eqn:E1; [discriminate|] end.
  match goal with |- context [if slt ?a szero then _ else _] => destruct (slt a szero) eqn:E2; [discriminate|] end.
  cbn [rlibm l_finite negb orb]. intros _. cbn [set_est w_P].
  assert (C0 : forall i j, clipd 0%nat (w_P w) i j = w_P w i j).
  { intros i j. unfold clipd, mset. destruct (slt _ (w_P w 0%nat 0%nat)) eqn:E; [apply sltR in E; rs; cbn [Nat.ltb Nat.leb] in E; lra|].
    destruct ((i =? 0)%nat && (j =? 0)%nat) eqn:B; [|reflexivity]. apply andb_true_iff in B. destruct B as [B1 B2]. apply Nat.eqb_eq in B1. apply Nat.eqb_eq in B2. subst. reflexivity. }
  assert (C1 : forall i j, clipd 1%nat (clipd 0%nat (w_P w)) i j = w_P w i j).
  { intros i j. unfold clipd at 1, mset. rewrite !C0. destruct (slt _ (w_P w 1%nat 1%nat)) eqn:E; [apply sltR in E; rs; cbn [Nat.ltb Nat.leb] in E; lra|].
    destruct ((i =? 1)%nat && (j =? 1)%nat) eqn:B; [|reflexivity]. apply andb_true_iff in B. destruct B as [B1 B2]. apply Nat.eqb_eq in B1. apply Nat.eqb_eq in B2. subst. reflexivity. }
  assert (C2 : forall i j, clipd 2%nat (clipd 1%nat (clipd 0%nat (w_P w))) i j = w_P w i j).
  { intros i j. unfold clipd at 1, mset. rewrite !C1. destruct (slt _ (w_P w 2%nat 2%nat)) eqn:E; [apply sltR in E; rs; cbn [Nat.ltb Nat.leb] in E; lra|].
    destruct ((i =? 2)%nat && (j =? 2)%nat) eqn:B; [|reflexivity]. apply andb_true_iff in B. destruct B as [B1 B2]. apply Nat.eqb_eq in B1. apply Nat.eqb_eq in B2. subst. reflexivity. }
  assert (Ys : w_P w 1%nat 0%nat = w_P w 0%nat 1%nat /\ w_P w 2%nat 0%nat = w_P w 0%nat 2%nat /\ w_P w 2%nat 1%nat = w_P w 1%nat 2%nat) by (repeat split; apply Y; lia).
  destruct Ys as (Y1 & Y2 & Y3).
  intros i j Hi Hj. unfold symm, mset. rewrite !C2. rs.
  destruct i as [|[|[|i]]], j as [|[|[|j]]]; try lia; cbn [Nat.eqb andb]; rewrite ?Y1, ?Y2, ?Y3; lra.
Qed.

Definition updP (P : Mat R) (h : nat -> R) (Sv : R) : Mat R := fun i j =>
  P i j - (P i 0%nat * h 0%nat + P i 1%nat * h 1%nat + P i 2%nat * h 2%nat) * (1 / Sv) * (h 0%nat * P 0%nat j + h 1%nat * P 1%nat j + h 2%nat * P 2%nat j).
Lemma correct_pre (P : Mat R) (h : nat -> R) Sv i j :
  (P i j - mm3 (fun i0 j0 => szero + mv3 P h i0 * (sone / Sv) * h j0) P i j)%scal = updP P h Sv i j.
Proof. rewrite mm3_R, mv3_R. unfold updP. rs. ring. Qed.
Lemma updP_sym P h Sv : sym3 P -> sym3 (updP P h Sv).
Proof.
  intros Y. assert (Ys : P 1%nat 0%nat = P 0%nat 1%nat /\ P 2%nat 0%nat = P 0%nat 2%nat /\ P 2%nat 1%nat = P 1%nat 2%nat) by (repeat split; apply Y; lia).
  destruct Ys as (Y1 & Y2 & Y3). apply sym3_intro; unfold updP; rewrite ?Y1, ?Y2, ?Y3; ring.
Qed.
Lemma updP_diag_le P h Sv i : sym3 P -> 0 < Sv -> (i < 3)%nat -> updP P h Sv i i <= P i i.
Proof.
  intros Y HS Hi. unfold updP. replace (h 0%nat * P 0%nat i + h 1%nat * P 1%nat i + h 2%nat * P 2%nat i) with (P i 0%nat * h 0%nat + P i 1%nat * h 1%nat + P i 2%nat * h 2%nat)
    by (rewrite (Y 0%nat i), (Y 1%nat i), (Y 2%nat i) by lia; ring).
  set (a := _ + _ + _). assert (0 <= a * (1 / Sv) * a); [|lra]. replace (a * (1 / Sv) * a) with (a * a * / Sv) by (field; lra).
  apply Rmult_le_pos; [apply Rle_0_sqr|left; apply Rinv_0_lt_compat; exact HS].
Qed.
Lemma psd3_ext (A B : Mat R) : (forall i j, (i < 3)%nat -> (j < 3)%nat -> A i j = B i j) -> psd3 A -> psd3 B.
Proof. intros E H v. specialize (H v). unfold bil3 in *. rewrite !E in H by lia. exact H. Qed.

Lemma correct_R H innov Sv r (w : @wind R) : w_initialised w = true -> sym3 (w_P w) -> psd3 (w_P w) ->
  w_P w 0%nat 0%nat <= 25 -> w_P w 1%nat 1%nat <= 25 -> w_P w 2%nat 2%nat <= 1 / 10 -> 0 < r -> Sv = bil3 H (w_P w) H + r ->
  let w' := correct rlibm H innov Sv w in
  w_initialised w' = true /\ (forall i j, (i < 3)%nat -> (j < 3)%nat -> w_P w' i j = updP (w_P w) H Sv i j) /\
  w_x w' 0%nat = w_x w 0%nat + (mv3 (w_P w) H 0%nat / Sv) * innov /\ w_x w' 1%nat = w_x w 1%nat + (mv3 (w_P w) H 1%nat / Sv) * innov /\
  w_x w' 2%nat = (if Rlt_dec (w_enforced w) 0 then Rmax 0 (w_x w 2%nat + (mv3 (w_P w) H 2%nat / Sv) * innov) else w_enforced w).
Proof.
  intros HI Y HP L0 L1 L2 Hr HS. cbv zeta. unfold correct. cbv zeta.
  assert (Sp : 0 < Sv) by (pose proof (HP H); lra).
  set (w1 := set_est _ _ w).
  assert (EP : forall i j, w_P w1 i j = updP (w_P w) H Sv i j) by (intros; apply correct_pre).
  assert (PS : psd3 (updP (w_P w) H Sv)) by (apply (upd_psd3 _ _ _ r); assumption).
  assert (YS : sym3 (w_P w1)) by (intros i j A B; rewrite !EP; apply updP_sym; assumption).
  assert (HV : w_initialised (sanity rlibm w1) = true).
  { unfold sanity. cbv zeta.
    destruct (slt (w_P w1 0%nat 0%nat) szero) eqn:E0. { apply sltR in E0. rs. pose proof (wn_diag _ 0%nat PS ltac:(lia)). rewrite EP in E0. lra. }
    destruct (slt (clipd 0%nat (w_P w1) 1%nat 1%nat) szero) eqn:E1. { apply sltR in E1. unfold clipd, mset in E1. cbn [Nat.eqb andb] in E1. rs. pose proof (wn_diag _ 1%nat PS ltac:(lia)). rewrite EP in E1. lra. }
    destruct (slt (clipd 1%nat (clipd 0%nat (w_P w1)) 2%nat 2%nat) szero) eqn:E2. { apply sltR in E2. unfold clipd, mset in E2. cbn [Nat.eqb andb] in E2. rs. pose proof (wn_diag _ 2%nat PS ltac:(lia)). rewrite EP in E2. lra. }
    cbn [rlibm l_finite negb orb]. exact HI. }
  split; [exact HV|]. split.
  { intros i j Hi Hj. rewrite sanity_P_R; auto.
    - rewrite EP. pose proof (updP_diag_le (w_P w) H Sv 0%nat Y Sp ltac:(lia)). lra.
    - rewrite EP. pose proof (updP_diag_le (w_P w) H Sv 1%nat Y Sp ltac:(lia)). lra.
    - rewrite EP. pose proof (updP_diag_le (w_P w) H Sv 2%nat Y Sp ltac:(lia)). lra. }
  destruct (sanity_finite rlibm w1 HI HV) as (_ & _ & _ & X0 & X1 & X2). rewrite X0, X1, X2.
  unfold w1. cbn [set_est w_x v3 w_enforced]. rs.
  split; [field; lra|]. split; [field; lra|]. destruct (Rlt_dec (w_enforced w) 0); [|reflexivity].
  match goal with |- _ = Rmax 0 ?c => set (y := c) end.
  match goal with |- (if (if Rlt_dec ?a 0 then _ else _) then _ else _) = _ => replace a with y by (unfold y; field; lra) end.
  destruct (Rlt_dec y 0); [rewrite Rmax_left by lra|rewrite Rmax_right by lra]; reflexivity.
Qed.

(** prediction *)
Definition noiseQ (q k : R) : Mat R := m33 q q 0 q q 0 0 0 k.
Lemma update_R t (w : @wind R) : w_initialised w = true -> w_t_update w <> 0%Z -> (1000000 <= sub64 t (w_t_update w))%Z -> sym3 (w_P w) ->
  let dt := IZR (sub64 t (w_t_update w)) / 1000000 in
  w_x (update t w) = w_x w /\ w_initialised (update t w) = true /\ w_t_update (update t w) = t /\
  (forall i j, (i < 3)%nat -> (j < 3)%nat -> w_P (update t w) i j = w_P w i j + noiseQ (dt * dt * w_wind_p_var w) (dt * dt * w_tas_scale_p_var w) i j).
Proof.
  intros HI H0 HT Y. cbv zeta. unfold update. rewrite HI. cbn [negb]. cbn [set_reset w_t_update].
  assert ((sub64 t (w_t_update w) <? 1000000)%Z = false) as -> by (apply Z.ltb_ge; exact HT).
  rewrite (proj2 (Z.eqb_neq _ _) H0). cbn [orb]. split; [reflexivity|]. split; [exact HI|]. split; [reflexivity|].
  assert (Ys : w_P w 1%nat 0%nat = w_P w 0%nat 1%nat /\ w_P w 2%nat 0%nat = w_P w 0%nat 2%nat /\ w_P w 2%nat 1%nat = w_P w 1%nat 2%nat) by (repeat split; apply Y; lia).
  destruct Ys as (Y1 & Y2 & Y3).
  intros i j Hi Hj. cbn [set_est w_P set_times set_reset w_wind_p_var w_tas_scale_p_var]. rs. generalize (IZR (sub64 t (w_t_update w))). intros d.
  destruct i as [|[|[|i]]], j as [|[|[|j]]]; try lia; unfold m33, v3, noiseQ, m33, v3; rewrite ?Y1, ?Y2, ?Y3; field.
Qed.
Lemma noise_psd q k : 0 <= q -> 0 <= k -> psd3 (noiseQ q k).
Proof.
  intros Hq Hk v. unfold bil3, noiseQ, m33, v3.
  apply Rle_trans with (q * ((v 0%nat + v 1%nat) * (v 0%nat + v 1%nat)) + k * (v 2%nat * v 2%nat)); [|right; ring].
  pose proof (Rle_0_sqr (v 0%nat + v 1%nat)). pose proof (Rle_0_sqr (v 2%nat)). unfold Rsqr in *.
  pose proof (Rmult_le_pos _ _ Hq H). pose proof (Rmult_le_pos _ _ Hk H0). lra.
Qed.
Lemma psd3_plus A B : psd3 A -> psd3 B -> psd3 (fun i j => A i j + B i j).
Proof. intros HA HB v. specialize (HA v). specialize (HB v). unfold bil3 in *. lra. Qed.

(** initialisation *)
Lemma init_R vn ve a b tas (w : @wind R) : 3 <= sqrt (vn * vn + ve * ve) -> 0 <= a -> 0 <= b ->
  exists w', initialise rlibm vn ve a b tas w = (w', true) /\ sym3 (w_P w') /\ psd3 (w_P w') /\
  vn - w_x w' 0%nat = tas * (vn / sqrt (vn * vn + ve * ve)) /\ ve - w_x w' 1%nat = tas * (ve / sqrt (vn * vn + ve * ve)) /\ w_x w' 2%nat = 1.
Proof.
  intros HV Ha Hb. unfold initialise. destruct (slt _ _) eqn:E. { apply sltR in E. rs. lra. }
  eexists. split; [reflexivity|]. cbn [set_reset set_rej set_est w_P w_x].
  assert (HD : psd3 (m33 a szero szero szero b szero szero szero (slit 1 10000))).
  { rs. replace (0 / 1) with 0 by field. apply diag_psd3; lra. }
  assert (HY : sym3 (m33 a szero szero szero b szero szero szero (slit 1 10000))) by (apply sym3_intro; reflexivity).
  split; [apply cong_sym3; exact HY|]. split; [apply cong_psd3; exact HD|]. cbn [v3 rlibm l_cos l_sin l_atan2]. rs.
  assert (NZ : vn <> 0 \/ ve <> 0).
  { destruct (Req_dec vn 0) as [A|A]; [right|left; exact A]. intros B. rewrite A, B in HV. replace (0 * 0 + 0 * 0) with 0 in HV by ring. rewrite sqrt_0 in HV. lra. }
  destruct (atan2_polar ve vn) as (_ & A1 & A2); [tauto|]. cbv zeta in A1, A2.
  assert (Sp : sqrt (vn * vn + ve * ve) <> 0) by lra.
  assert (C : cos (atan2 ve vn) = vn / sqrt (vn * vn + ve * ve)) by (apply (Rmult_eq_reg_l (sqrt (vn * vn + ve * ve))); [|exact Sp]; transitivity vn; [exact A1|field; exact Sp]).
  assert (Sn : sin (atan2 ve vn) = ve / sqrt (vn * vn + ve * ve)) by (apply (Rmult_eq_reg_l (sqrt (vn * vn + ve * ve))); [|exact Sp]; transitivity ve; [exact A2|field; exact Sp]).
  rewrite C, Sn. split; [field; exact Sp|]. split; [field; exact Sp|]. reflexivity.
Qed.

(** observation vectors are the derivatives of the predictions *)
Lemma tas_jac vn ve vd wn we k : 0 < (vn - wn) * (vn - wn) + (ve - we) * (ve - we) + vd * vd ->
  is_derive (fun y => tas_pred vn ve vd y we k) wn (tas_H vn ve vd wn we k 0%nat) /\
  is_derive (fun y => tas_pred vn ve vd wn y k) we (tas_H vn ve vd wn we k 1%nat) /\
  is_derive (fun y => tas_pred vn ve vd wn we y) k (tas_H vn ve vd wn we k 2%nat).
Proof.
  intros H. unfold tas_pred, tas_H, v3. rs.
  assert (E : vd * vd + (ve - we) * (ve - we) + (vn - wn) * (vn - wn) = (vn - wn) * (vn - wn) + (ve - we) * (ve - we) + vd * vd) by ring. rewrite E.
  assert (Sp : 0 < sqrt ((vn - wn) * (vn - wn) + (ve - we) * (ve - we) + vd * vd)) by (apply sqrt_lt_R0; exact H).
  split; [|split].
  - auto_derive; [exact H|]. match goal with |- context [sqrt ?a] => replace a with ((vn - wn) * (vn - wn) + (ve - we) * (ve - we) + vd * vd) by ring end. field. lra.
  - auto_derive; [exact H|]. match goal with |- context [sqrt ?a] => replace a with ((vn - wn) * (vn - wn) + (ve - we) * (ve - we) + vd * vd) by ring end. field. lra.
  - auto_derive; [exact I|]. ring.
Qed.
Definition beta_pred (vn ve vd wn we : R) (q : nat -> R) : R := rel_wind_body vn ve vd wn we q 1%nat / rel_wind_body vn ve vd wn we q 0%nat.
Lemma beta_jac vn ve vd wn we q : rel_wind_body vn ve vd wn we q 0%nat <> 0 ->
  is_derive (fun y => beta_pred vn ve vd y we q) wn (beta_H vn ve vd wn we q 0%nat) /\
  is_derive (fun y => beta_pred vn ve vd wn y q) we (beta_H vn ve vd wn we q 1%nat) /\ beta_H vn ve vd wn we q 2%nat = 0.
Proof.
  unfold beta_pred, rel_wind_body, mv3, dcm3, m33, v3, beta_H. cbn [v3]. rs. intros H.
  generalize dependent (q 0%nat). generalize (q 1%nat), (q 2%nat), (q 3%nat). intros b c d a H.
  split; [|split; [|reflexivity]].
  - auto_derive; [exact H|]. field; repeat split; try exact H; (intros Z; apply H; etransitivity; [|exact Z]; ring).
  - auto_derive; [exact H|]. field; repeat split; try exact H; (intros Z; apply H; etransitivity; [|exact Z]; ring).
Qed.

(** * Proofs: alpha filter and IMU down-sampler *)
From Coq Require Import Lra Psatz.
From Verif Require Import CBase F32 F32More RealGeom FilterModel.
Open Scope Z_scope.

(** ** alpha filter, exact arithmetic *)
Lemma af_hull alpha l x lo hi : (0 <= alpha <= 1)%R -> (lo <= x <= hi)%R ->
  Forall (fun y => (lo <= y <= hi)%R) l -> (lo <= af_run alpha l x <= hi)%R.
Proof.
  intros Ha. unfold af_run. revert x. induction l as [|y l IH]; intros x Hx Hl; cbn [fold_left]; [exact Hx|].
  apply IH; [|exact (Forall_inv_tail Hl)]. pose proof (Forall_inv Hl) as Hy. cbv beta in Hy. unfold af_step. nra.
Qed.
Lemma af_constant alpha c n : af_run alpha (repeat c n) c = c.
Proof.
  unfold af_run. induction n; cbn [repeat fold_left]; [reflexivity|].
  replace (af_step alpha c c) with c by (unfold af_step; ring). exact IHn.
Qed.
(** closed form of the response to a constant input: exponential convergence *)
Lemma af_step_response alpha c n x : (af_run alpha (repeat c n) x - c = (1 - alpha) ^ n * (x - c))%R.
Proof.
  unfold af_run. revert x. induction n; intros x; cbn [repeat fold_left pow]; [ring|].
  rewrite IHn. unfold af_step. ring.
Qed.

(** ** alpha filter, binary32 *)
Lemma not_nan_finite (a : f32) : is_finite a = true -> is_nan a = false.
Proof. destruct a; auto; discriminate. Qed.

Lemma set_parameters_unit (i tc a : f32) :
  is_finite i = true -> is_finite tc = true -> (0 <= R32 i <= 1000000000)%R -> (0 <= R32 tc <= 1000000000)%R ->
  fgt (fadd tc i) flt_epsilon = true ->
  let a' := af_set_parameters i tc a in
  is_finite a' = true /\ (0 <= R32 a' <= 1)%R.
Proof.
  intros Fi Ft Hi Ht Hg. cbv zeta. unfold af_set_parameters. rewrite Hg.
  pose proof big127. destruct (fadd_R tc i Ft Fi) as [E F]. { rewrite Rabs_pos_eq by lra. lra. }
  unfold fgt in Hg. change (flt flt_epsilon (fadd tc i) = true) in Hg.
  assert (Feps : is_finite flt_epsilon = true) by (apply (flit_R 1 (2 ^ 23)); lia).
  rewrite flt_R in Hg by assumption.
  assert (Heps : (0 <= R32 flt_epsilon)%R). { unfold flt_epsilon. destruct (flit_R 1 (2 ^ 23)) as [-> _]; [lia|lia|]. apply rnd32_ge0. lra. }
  destruct (Rlt_bool_spec (R32 flt_epsilon) (R32 (fadd tc i))); [|discriminate].
  assert (Hge : (R32 i <= R32 (fadd tc i))%R).
  { rewrite E. rewrite <- (round_generic radix2 (SpecFloat.fexp 24 128) (round_mode mode_NE) (R32 i)) at 1.
    - apply rnd32_le. lra.
    - apply generic_format_B2R. }
  assert (Hq : (0 <= R32 i / R32 (fadd tc i) <= 1)%R).
  { split; [apply Rmult_le_pos; [lra|left; apply Rinv_0_lt_compat; lra]|].
    apply Rmult_le_reg_r with (R32 (fadd tc i)); [lra|]. unfold Rdiv. rewrite Rmult_assoc, Rinv_l by lra. lra. }
  destruct (fdiv_R i (fadd tc i)) as [Eq Fq]; auto; [lra| |].
  { rewrite Rabs_pos_eq by lra. lra. }
  split; [exact Fq|]. rewrite Eq. split; [apply rnd32_ge0; lra|]. apply (rnd32_le_Z _ 1); [lia|lra].
Qed.

Lemma rnd32_abs (x : R) : (Rabs (rnd32 x) <= Rabs x * (1 + / 16777216) + / 1000000000000000000000)%R.
Proof.
  pose proof (rnd32_error x) as H. rewrite two24 in H. pose proof small150.
  pose proof (Rabs_triang_inv (rnd32 x) x). lra.
Qed.

(** In binary32 the state stays finite and inside the hull up to a relative
    2^-12 and an absolute 10^-15. *)
Definition af_bound (M : R) : R := (M * (1 + / 4096) + / 1000000000000000)%R.

Lemma af_step_f_bound (a x y : f32) (M : R) :
  is_finite a = true -> is_finite x = true -> is_finite y = true ->
  (/ 1024 <= R32 a <= 1)%R -> (0 <= M <= 1000000000000000000)%R ->
  (Rabs (R32 x) <= af_bound M)%R -> (Rabs (R32 y) <= M)%R ->
  is_finite (af_step_f a x y) = true /\ (Rabs (R32 (af_step_f a x y)) <= af_bound M)%R.
Proof.
  intros Fa Fx Fy Ha HM Hx Hy. unfold af_bound in *. pose proof big127 as BIG.
  destruct (f_of_Z_exact 1) as [E1 F1]; [lia|]. fold f1 in E1, F1.
  destruct (fsub_R f1 a F1 Fa) as [Es Fs]. { rewrite E1, Rabs_pos_eq by lra. lra. }
  rewrite E1 in Es.
  assert (Hs : (0 <= R32 (fsub f1 a) <= (1 - R32 a) * (1 + / 16777216) + / 1000000000000000000000)%R).
  { rewrite Es. split; [apply rnd32_ge0; lra|]. apply rnd32_bounds. lra. }
  set (s := R32 (fsub f1 a)) in *. set (al := R32 a) in *.
  set (X := (M * (1 + / 4096) + / 1000000000000000)%R) in *.
  assert (HX : (0 <= X <= 2000000000000000000)%R) by (unfold X; lra).
  pose proof (Rabs_pos (R32 x)). pose proof (Rabs_pos (R32 y)).
  assert (P1 : (Rabs (s * R32 x) <= s * X)%R).
  { rewrite Rabs_mult, (Rabs_pos_eq s) by lra. apply Rmult_le_compat_l; lra. }
  assert (P2 : (Rabs (al * R32 y) <= al * M)%R).
  { rewrite Rabs_mult, (Rabs_pos_eq al) by lra. apply Rmult_le_compat_l; lra. }
  assert (sX : (s * X <= 2 * X)%R) by nra.
  assert (aM : (al * M <= M)%R) by nra.
  destruct (fmul_R (fsub f1 a) x Fs Fx) as [Em1 Fm1]. { fold s. lra. }
  destruct (fmul_R a y Fa Fy) as [Em2 Fm2]. { fold al. lra. }
  pose proof (rnd32_abs (s * R32 x)) as B1. pose proof (rnd32_abs (al * R32 y)) as B2.
  fold s in Em1. fold al in Em2. rewrite <- Em1 in B1. rewrite <- Em2 in B2.
  set (p := R32 (fmul (fsub f1 a) x)) in *. set (r := R32 (fmul a y)) in *.
  pose proof (Rabs_triang p r) as T.
  destruct (fadd_R (fmul (fsub f1 a) x) (fmul a y) Fm1 Fm2) as [Ea Faa]. { fold p. fold r. lra. }
  unfold af_step_f. split; [exact Faa|]. rewrite Ea. fold p. fold r.
  pose proof (rnd32_abs (p + r)) as B3.
  assert (G : (s * X <= ((1 - al) * (1 + / 16777216) + / 1000000000000000000000) * X)%R) by (apply Rmult_le_compat_r; lra).
  assert (G2 : (((1 - al) * (1 + / 16777216) + / 1000000000000000000000) * X
               <= X - al * X + / 16777215 * X)%R) by nra.
  assert (G3 : (al * X >= al * M + al * (M * / 4096 + / 1000000000000000))%R) by (unfold X; nra).
  assert (G4 : (al * (M * / 4096 + / 1000000000000000) >= / 1024 * (M * / 4096 + / 1000000000000000))%R).
  { apply Rle_ge. apply Rmult_le_compat_r; lra. }
  unfold X in *. lra.
Qed.

Lemma af_run_f_bound (a : f32) (M : R) (l : list f32) (x : f32) :
  is_finite a = true -> (/ 1024 <= R32 a <= 1)%R -> (0 <= M <= 1000000000000000000)%R ->
  is_finite x = true -> (Rabs (R32 x) <= M)%R ->
  Forall (fun y => is_finite y = true /\ (Rabs (R32 y) <= M)%R) l ->
  is_finite (af_run_f a l x) = true /\ (Rabs (R32 (af_run_f a l x)) <= af_bound M)%R.
Proof.
  intros Fa Ha HM Fx Hx Hl. assert (Hx' : (Rabs (R32 x) <= af_bound M)%R) by (unfold af_bound; lra).
  clear Hx. revert x Fx Hx'. unfold af_run_f. induction l as [|y l IH]; intros x Fx Hx; cbn [fold_left]; [auto|].
  destruct (Forall_inv Hl) as [Fy Hy].
  destruct (af_step_f_bound a x y M) as [F B]; auto. apply IH; auto. exact (Forall_inv_tail Hl).
Qed.

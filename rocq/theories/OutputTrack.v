(** * The output predictor tracks the filter *)
From Coq Require Import Reals Lra PeanoNat.
From Verif Require Import CBase Scalar RingBufferModel RingBufferSpec RingBufferProofs OutputModel OutputProofs OutputHist.
Open Scope nat_scope.

Section Tr.
Variable expq : Vec R -> Vec R.
Notation zo := (zero_out (T := R)).
Notation zw := (zero_vert (T := R)).

(** velocity error at the fusion horizon seen by an updating step: filter state minus oldest stored output *)
Definition stored (i : imuin R) (s : ost R) : ost R := pushBoth (propagate expq i s).
Definition vel_err (i : imuin R) (s : ost R) : Vec R := fun k => (e_v s k - ov (payload (get_oldest zo (o_buf (stored i s)))) k)%R.
Definition pos_err (i : imuin R) (s : ost R) : Vec R := fun k => (e_p s k - op (payload (get_oldest zo (o_buf (stored i s)))) k)%R.
(** inertial velocity (position) total at the time the oldest entry was stored *)
Definition old_v (i : imuin R) (s : ost R) (g : ledger) : Vec R :=
  fun k => nth (len (o_buf (stored i s)) - 1) (at_v (lstep expq (OStep i) s g)) (fun _ => 0%R) k.
Definition old_p (i : imuin R) (s : ost R) (g : ledger) : Vec R :=
  fun k => nth (len (o_buf (stored i s)) - 1) (at_p (lstep expq (OStep i) s g)) (fun _ => 0%R) k.

Lemma err_offset i s g k : oinv s g -> op_time_ok (OStep i) -> i_updated i = true -> k < 3 ->
  vel_err i s k = (e_v s k - (ov (payload (o_new s)) k - tot_v g k) - old_v i s g k)%R /\
  pos_err i s k = (e_p s k - (op (payload (o_new s)) k - tot_p g k) - old_p i s g k)%R.
Proof.
  intros HI HT HU Hk. pose proof (oinv_push _ _ (oinv_propagate expq i s g HI) HT) as HP. fold (stored i s) in HP.
  assert (FW : first_write (o_buf (stored i s)) = false) by apply push_fw.
  pose proof (oldest_last zo _ (oi_buf _ _ HP) FW) as HO.
  pose proof (oi_v _ _ HP _ _ k HO Hk) as EV. pose proof (oi_p _ _ HP _ _ k HO Hk) as EP.
  unfold vel_err, pos_err, old_v, old_p. cbn [lstep]. rewrite HU. cbn [at_v at_p]. rewrite EV, EP.
  cbn [tot_v tot_p at_v at_p led_prop].
  assert (N1 : ov (payload (o_new (stored i s))) k = (ov (payload (o_new s)) k + dvel_earth expq i s k)%R) by reflexivity.
  assert (N2 : op (payload (o_new (stored i s))) k = (op (payload (o_new s)) k + dpos_earth expq i s k)%R) by reflexivity.
  rewrite N1, N2. generalize (len (o_buf (stored i s)) - 1)%nat. intros m.
  split; match goal with |- (_ - (_ - (_ - ?r)) = _ - _ - ?r')%R => change r' with r; generalize r; intros; lra end.
Qed.
Lemma step_newest i s g k : oinv s g -> op_time_ok (OStep i) -> i_updated i = true -> k < 3 ->
  let s' := calculateOutputStates expq i s in let g' := lstep expq (OStep i) s g in
  let vg := gain i (i_velTau i) in let pg := gain i (i_posTau i) in
  o_vint s' k = (o_vint s k + vel_err i s k)%R /\ o_pint s' k = (o_pint s k + pos_err i s k)%R /\
  (ov (payload (o_new s')) k - tot_v g' k = ov (payload (o_new s)) k - tot_v g k + (vel_err i s k * vg + o_vint s' k * (vg * vg) * (1 / 10)))%R /\
  (op (payload (o_new s')) k - tot_p g' k = op (payload (o_new s)) k - tot_p g k + (pos_err i s k * pg + o_pint s' k * (pg * pg) * (1 / 10)))%R.
Proof.
  intros HI HT HU Hk. cbv zeta. unfold calculateOutputStates. rewrite HU.
  unfold observe. cbn [o_vint o_pint o_new]. fold (pushBoth (propagate expq i s)). fold (stored i s).
  split; [reflexivity|]. split; [reflexivity|].
  cbn [lstep]. rewrite HU. cbn [tot_v tot_p applyCorrection setOut o_new].
  pose proof (oinv_push _ _ (oinv_propagate expq i s g HI) HT) as HP. fold (stored i s) in HP.
  rewrite (newest_map zo) by (exact (oi_buf _ _ HP)). rewrite smap_payload. cbn [ov op applyVertCorrection setVert o_buf].
  assert (N : get_newest zo (o_buf (stored i s)) = o_new (propagate expq i s)).
  { unfold stored, pushBoth. cbn [setVert setOut o_buf]. apply push_newest. exact (oi_buf _ _ (oinv_propagate expq i s g HI)). }
  rewrite N. unfold vplus. cbn [propagate o_new payload ov op]. unfold vplus, vel_err, pos_err, dpos_earth, vminus, sq. cbn [sadd smul ssub slit RScalar].
  change (e_v (stored i s)) with (e_v s). change (e_p (stored i s)) with (e_p s). change (o_vint (stored i s)) with (o_vint s). change (o_pint (stored i s)) with (o_pint s).
  split; lra.
Qed.

(** an infinite run of updating steps with arbitrary filter states in between *)
Variable imu : nat -> imuin R.
Variables eq ev ep eab evb : nat -> Vec R.
Fixpoint st (s0 : ost R) (n : nat) : ost R :=
  match n with O => s0 | Datatypes.S m => setEkf (eq m) (ev m) (ep m) (eab m) (evb m) (calculateOutputStates expq (imu m) (st s0 m)) end.
Fixpoint led (s0 : ost R) (g0 : ledger) (n : nat) : ledger :=
  match n with O => g0 | Datatypes.S m => lstep expq (OStep (imu m)) (st s0 m) (led s0 g0 m) end.
Section Run.
Variables (s0 : ost R) (g0 : ledger).
Hypothesis H0 : oinv s0 g0.
Hypothesis HT : forall n, op_time_ok (OStep (imu n)).
Hypothesis HU : forall n, i_updated (imu n) = true.
Lemma st_inv n : oinv (st s0 n) (led s0 g0 n).
Proof.
  induction n as [|n IH]; [exact H0|]. cbn [st led]. apply (oinv_ext (calculateOutputStates expq (imu n) (st s0 n))); try reflexivity.
  apply (oinv_ostep expq (OStep (imu n))); [exact IH|apply HT].
Qed.
Definition E (n : nat) : Vec R := vel_err (imu n) (st s0 n).
Definition Ep (n : nat) : Vec R := pos_err (imu n) (st s0 n).
Lemma tracking_recursion n k : k < 3 ->
  let vg := gain (imu n) (i_velTau (imu n)) in let pg := gain (imu n) (i_posTau (imu n)) in
  let s := st s0 n in let s' := st s0 (Datatypes.S n) in let g := led s0 g0 n in let g' := led s0 g0 (Datatypes.S n) in
  (o_vint s' k = o_vint s k + E n k)%R /\ (o_pint s' k = o_pint s k + Ep n k)%R /\
  (E (Datatypes.S n) k = E n k - (E n k * vg + o_vint s' k * (vg * vg) * (1 / 10))
    + ((e_v s' k - e_v s k) - (old_v (imu (Datatypes.S n)) s' g' k - old_v (imu n) s g k)))%R /\
  (Ep (Datatypes.S n) k = Ep n k - (Ep n k * pg + o_pint s' k * (pg * pg) * (1 / 10))
    + ((e_p s' k - e_p s k) - (old_p (imu (Datatypes.S n)) s' g' k - old_p (imu n) s g k)))%R.
Proof.
  intros Hk. cbv zeta. pose proof (st_inv n) as I1. pose proof (st_inv (Datatypes.S n)) as I2.
  destruct (step_newest (imu n) _ _ k I1 (HT n) (HU n) Hk) as (A & B & C & D).
  destruct (err_offset (imu n) _ _ k I1 (HT n) (HU n) Hk) as [V1 P1]. destruct (err_offset (imu (Datatypes.S n)) _ _ k I2 (HT _) (HU _) Hk) as [V2 P2].
  set (X := calculateOutputStates expq (imu n) (st s0 n)) in *.
  assert (W : o_vint (st s0 (Datatypes.S n)) = o_vint X /\ o_pint (st s0 (Datatypes.S n)) = o_pint X /\ o_new (st s0 (Datatypes.S n)) = o_new X) by (repeat split).
  destruct W as (W1 & W2 & W3). rewrite W1, W2. split; [exact A|]. split; [exact B|].
  unfold E, Ep. rewrite W3 in V2, P2. change (led s0 g0 (Datatypes.S n)) with (lstep expq (OStep (imu n)) (st s0 n) (led s0 g0 n)) in *.
  rewrite V2, P2. split; lra.
Qed.
End Run.
End Tr.

Open Scope R_scope.
(** ** the error recursion converges geometrically to a neighbourhood proportional to the disturbance *)
Definition rate (g : R) : R := (2 - g - g * g * (1 / 10) + sqrt (6 / 10 * g ^ 2 + 2 / 10 * g ^ 3 + 1 / 100 * g ^ 4)) / 2.
Section Conv.
Variable (g : R).
Hypothesis Hg : 0 < g <= 1.
Let a := g * g * (1 / 10).
Let D := 6 / 10 * g ^ 2 + 2 / 10 * g ^ 3 + 1 / 100 * g ^ 4.
Lemma D_pos : 0 < D. Proof. unfold D. pose proof (pow_lt g 2 ltac:(lra)). pose proof (pow_lt g 3 ltac:(lra)). pose proof (pow_lt g 4 ltac:(lra)). lra. Qed.
Lemma sD_sq : sqrt D * sqrt D = D. Proof. apply sqrt_sqrt. pose proof D_pos. lra. Qed.
Lemma sD_pos : 0 < sqrt D. Proof. apply sqrt_lt_R0. apply D_pos. Qed.
Lemma sD_lt : sqrt D < g + a.
Proof.
  apply Rsqr_incrst_0; [|pose proof sD_pos; lra|unfold a; nra]. unfold Rsqr. rewrite sD_sq. unfold D, a. nra.
Qed.
Lemma sD_le : sqrt D <= 2 - g - a.
Proof.
  apply Rsqr_incr_0; [|pose proof sD_pos; lra|unfold a; nra]. unfold Rsqr. rewrite sD_sq. unfold D, a.
  replace ((2 - g - g * g * (1 / 10)) * (2 - g - g * g * (1 / 10))) with (6 / 10 * g ^ 2 + 2 / 10 * g ^ 3 + 1 / 100 * g ^ 4 + 4 * (1 - g)) by field. lra.
Qed.
Let l1 := (2 - g - a + sqrt D) / 2.
Let l2 := (2 - g - a - sqrt D) / 2.
Lemma rate_bound : 0 <= rate g < 1.
Proof. change (rate g) with l1. unfold l1. pose proof sD_lt. pose proof sD_pos. pose proof sD_le. lra. Qed.
Lemma l1_root : l1 * l1 - (2 - g - a) * l1 + (1 - g) = 0.
Proof.
  unfold l1. replace ((2 - g - a + sqrt D) / 2 * ((2 - g - a + sqrt D) / 2) - (2 - g - a) * ((2 - g - a + sqrt D) / 2) + (1 - g))
    with ((sqrt D * sqrt D - (2 - g - a) * (2 - g - a)) / 4 + (1 - g)) by field. rewrite sD_sq. unfold D, a. field.
Qed.
Lemma l2_root : l2 * l2 - (2 - g - a) * l2 + (1 - g) = 0.
Proof.
  unfold l2. replace ((2 - g - a - sqrt D) / 2 * ((2 - g - a - sqrt D) / 2) - (2 - g - a) * ((2 - g - a - sqrt D) / 2) + (1 - g))
    with ((sqrt D * sqrt D - (2 - g - a) * (2 - g - a)) / 4 + (1 - g)) by field. rewrite sD_sq. unfold D, a. field.
Qed.
Section Seq.
Variables (e v w : nat -> R) (W : R).
Hypothesis Hv : forall n, v (S n) = v n + e n.
Hypothesis He : forall n, e (S n) = e n - (e n * g + v (S n) * (g * g) * (1 / 10)) + w n.
Hypothesis Hw : forall n, Rabs (w n) <= W.
Let mode (l : R) (n : nat) : R := e n + (l - 1 + g + a) * v n.
Lemma mode_step l n : l * l - (2 - g - a) * l + (1 - g) = 0 -> mode l (S n) = l * mode l n + w n.
Proof.
  intros Hl. unfold mode. rewrite He, Hv.
  assert (X : l * l = (2 - g - a) * l - (1 - g)) by lra.
  replace (l * (e n + (l - 1 + g + a) * v n) + w n) with (l * e n + (l * l - l + (g + a) * l) * v n + w n) by ring. rewrite X. unfold a. ring.
Qed.
Lemma mode_n l n : l * l - (2 - g - a) * l + (1 - g) = 0 -> 0 <= l < 1 -> Rabs (mode l n) <= l ^ n * Rabs (mode l 0) + W / (1 - l).
Proof.
  intros Hl Hb. assert (W0 : 0 <= W) by (pose proof (Hw 0); pose proof (Rabs_pos (w 0)); lra).
  assert (Q : 0 <= W / (1 - l)) by (apply Rmult_le_pos; [exact W0|left; apply Rinv_0_lt_compat; lra]).
  induction n as [|n IH]; [simpl; lra|]. rewrite mode_step by exact Hl.
  eapply Rle_trans; [apply Rabs_triang|]. rewrite Rabs_mult, (Rabs_right l) by lra. simpl.
  assert (E1 : W / (1 - l) = l * (W / (1 - l)) + W) by (field; lra).
  pose proof (Hw n). rewrite E1.
  assert (l * Rabs (mode l n) <= l * (l ^ n * Rabs (mode l 0) + W / (1 - l))) by (apply Rmult_le_compat_l; [lra|exact IH]). lra.
Qed.
Let m1 := l1 - 1 + g + a.
Let m2 := l2 - 1 + g + a.
Definition dist_gain : R := (Rabs (l1 - 1 + g + a) / (1 - l2) + Rabs (l2 - 1 + g + a) / (1 - l1)) / sqrt D.
Lemma error_bound : exists C, 0 <= C /\ forall n, Rabs (e n) <= C * rate g ^ n + dist_gain * W.
Proof.
  pose proof sD_pos as Hs. pose proof rate_bound as HR. change (rate g) with l1 in *.
  assert (L2 : 0 <= l2 <= l1) by (unfold l2, l1; pose proof sD_le; lra).
  assert (Hm : m1 - m2 = sqrt D) by (unfold m1, m2, l1, l2; field).
  exists ((Rabs m1 * Rabs (mode l2 0) + Rabs m2 * Rabs (mode l1 0)) / sqrt D). split.
  { apply Rmult_le_pos; [|left; apply Rinv_0_lt_compat; exact Hs].
    pose proof (Rabs_pos m1). pose proof (Rabs_pos m2). pose proof (Rabs_pos (mode l2 0)). pose proof (Rabs_pos (mode l1 0)).
    apply Rplus_le_le_0_compat; apply Rmult_le_pos; assumption. }
  intros n. assert (EE : e n = (m1 * mode l2 n - m2 * mode l1 n) / sqrt D).
  { rewrite <- Hm. unfold mode. fold m1 m2. field. lra. }
  rewrite EE. pose proof (mode_n l1 n l1_root HR) as B1. pose proof (mode_n l2 n l2_root ltac:(lra)) as B2.
  unfold Rdiv at 1. rewrite Rabs_mult, (Rabs_right (/ sqrt D)) by (left; apply Rinv_0_lt_compat; exact Hs).
  unfold dist_gain. fold m1 m2.
  match goal with |- ?x * ?y <= ?p / sqrt D * ?q + ?r / sqrt D * W => replace (p / sqrt D * q + r / sqrt D * W) with ((p * q + r * W) * / sqrt D) by (unfold Rdiv; ring) end.
  apply Rmult_le_compat_r; [left; apply Rinv_0_lt_compat; exact Hs|].
  eapply Rle_trans; [apply Rabs_triang|]. rewrite Rabs_Ropp, !Rabs_mult.
  assert (P2 : l2 ^ n <= l1 ^ n) by (apply pow_incr; lra).
  pose proof (Rabs_pos m1). pose proof (Rabs_pos m2). pose proof (Rabs_pos (mode l2 0)). pose proof (Rabs_pos (mode l1 0)).
  assert (T1 : Rabs m1 * Rabs (mode l2 n) <= Rabs m1 * (l1 ^ n * Rabs (mode l2 0) + W / (1 - l2))).
  { apply Rmult_le_compat_l; [assumption|]. eapply Rle_trans; [exact B2|]. apply Rplus_le_compat_r. apply Rmult_le_compat_r; assumption. }
  assert (T2 : Rabs m2 * Rabs (mode l1 n) <= Rabs m2 * (l1 ^ n * Rabs (mode l1 0) + W / (1 - l1))) by (apply Rmult_le_compat_l; assumption).
  unfold Rdiv in *. lra.
Qed.
End Seq.
End Conv.
Lemma gain_range (i : imuin R) tau : 0 < i_dt_ekf_avg i <= 10 -> 0 < gain i tau <= 1.
Proof.
  intros H. unfold gain, sconstrain. cbn [sdiv slt slit RScalar].
  set (d := i_dt_ekf_avg i) in *.
  assert (G : forall c, d <= c -> 0 < d / c <= 1).
  { intros c Hc. split; [apply Rdiv_lt_0_compat; lra|]. apply (Rmult_le_reg_r c); [lra|]. unfold Rdiv. rewrite Rmult_assoc, Rinv_l by lra. lra. }
  destruct (Rlt_dec tau d); [apply G; lra|]. destruct (Rlt_dec (10 / 1) tau); apply G; lra.
Qed.

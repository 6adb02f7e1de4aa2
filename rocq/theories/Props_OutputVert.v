(** * C52 (continued): the separate vertical channel (the vertical position derivative) tracks the filter *)
From Coq Require Import Reals Lra Lia PeanoNat List.
From Verif Require Import CBase Scalar RingBufferModel RingBufferSpec RingBufferProofs RealGeom OutputModel OutputProofs OutputHist OutputTrack OutputVert Props_Output.
Import ListNotations.
Open Scope R_scope.

(** The vertical velocity and its integral are stored with every output.  Their errors at the fusion horizon (oldest stored value, [first_of (past ..)]):
    [vert_vel_err], [vert_pos_err].  Disturbances: [vert_vel_mismatch] - filter's velocity change minus the one between the two oldest stored values;
    [vert_pos_mismatch] - filter's height change minus the trapezoidal integral of its own vertical velocity.  [full dl]: the history is full, with
    stored intervals dl.

    Claim.  For every filter interval up to 10 s, IMU interval up to 1 s and all time constants the squared errors decay geometrically to a level
    proportional to the squared bound of the disturbances; rate and factor depend on the configuration only *)
Theorem C52_vertical_tracking : forall dl dt taup tauv, 0 < dl <= 1 -> 0 < dt <= 10 -> exists r K, 0 <= r < 1 /\ 0 <= K /\
  forall expq imu eq ev ep eab evb (s0 : ost R) (l : list oop) size (s : ost R) W U,
  fresh s0 size -> Forall op_time_ok l -> s = orun expq l s0 -> full dl s ->
  (forall n, op_time_ok (OStep (imu n)) /\ i_updated (imu n) = true /\ i_dvdt (imu n) = dl /\ i_dt_ekf_avg (imu n) = dt /\ i_posTau (imu n) = taup /\ i_velTau (imu n) = tauv) ->
  (forall n, Rabs (vert_vel_mismatch expq imu eq ev ep eab evb s n) <= W) -> (forall n, Rabs (vert_pos_mismatch expq imu eq ev ep eab evb s dl n) <= U) ->
  let st n := st expq imu eq ev ep eab evb s n in
  exists C, 0 <= C /\ forall n, vert_vel_err expq (imu n) (st n) ^ 2 + vert_pos_err expq (imu n) (st n) ^ 2 <= C * r ^ n + K * (W + U) ^ 2.
Proof.
  intros dl dt taup tauv Hdl Hdt. set (g := dt / sconstrain taup dt 10). set (h := dt / sconstrain tauv dt 10 * (11 / 10)).
  pose (i0 := fun tau => mkImu (T := R) (fun _ => 0) (fun _ => 0) 0 0 0%Z true 0%Z 0 dt tau tau).
  assert (G : forall tau, 0 < dt / sconstrain tau dt 10 <= 1).
  { intros tau. pose proof (gain_range (i0 tau) tau Hdt) as Q. unfold gain in Q. cbn [i0 i_dt_ekf_avg sdiv slit RScalar] in Q. replace (10 / 1) with 10 in Q by field. exact Q. }
  pose proof (G taup) as G1. pose proof (G tauv) as G2. fold g in G1.
  destruct (pd_loop g h dl Hdl G1 ltac:(unfold h; lra)) as (r & K & R1 & R2 & Q). exists r, K. split; [exact R1|]. split; [exact R2|].
  intros expq imu eq ev ep eab evb s0 l size s W U HF HL -> HFu HI HW HU. cbv zeta.
  pose proof (oinv_run expq l s0 led0 (oinv_fresh s0 size HF) HL) as H0.
  set (sx := orun expq l s0) in *.
  destruct (Q (Va expq imu eq ev ep eab evb sx) (Vb expq imu eq ev ep eab evb sx)
    (vert_vel_mismatch expq imu eq ev ep eab evb sx) (vert_pos_mismatch expq imu eq ev ep eab evb sx dl) W U) as (C & C0 & HC).
  - intros n. pose proof (vert_recursion expq imu eq ev ep eab evb sx (lrun expq l s0 led0) dl H0 (fun n => proj1 (HI n)) (fun n => proj1 (proj2 (HI n))) (fun n => proj1 (proj2 (proj2 (HI n)))) HFu n) as E.
    destruct (HI n) as (_ & _ & _ & E1 & E2 & E3).
    assert (P1 : gain (imu n) (i_posTau (imu n)) = g) by (unfold gain; rewrite E1, E2; unfold g; cbn [sdiv slit RScalar]; replace (10 / 1) with 10 by field; reflexivity).
    assert (P2 : gain (imu n) (i_velTau (imu n)) * (11 / 10) = h) by (unfold gain; rewrite E1, E3; unfold h; cbn [sdiv slit RScalar]; replace (10 / 1) with 10 by field; reflexivity).
    rewrite P1, P2 in E. exact E.
  - exact HW.
  - exact HU.
  - exists C. split; [exact C0|]. intros n. specialize (HC n). unfold Va, Vb in HC. simpl. rewrite !Rmult_1_r. exact HC.
Qed.

(** ** A case that meets the hypotheses: free fall, the filter keeps a constant velocity and height; the history is full after three steps *)
Definition fall : list oop := [OStep (ex_run 0); OStep (ex_run 0); OStep (ex_run 0)].
Definition gdt : R := 980665 / 100000 * (1 / 100).
Section Ex.
Variable expq : Vec R -> Vec R.
Notation s := (orun expq fall ex_five).
Notation sts := (st expq ex_run zv five five zv zv s).
Notation leds := (led expq ex_run zv five five zv zv s (lrun expq fall ex_five led0)).
Lemma fall_dv i x : i = ex_run 0 -> e_vb x = (fun _ => 0) -> dvel_earth expq i x 2%nat = gdt.
Proof. intros -> E. unfold dvel_earth. rewrite E. unfold mvec, szero, dscale, gdt. cbn [Nat.eqb ex_run i_dv i_dvdt i_dt_imu_avg i_dt_ekf_avg sadd ssub smul sdiv slit RScalar]. field. Qed.
Lemma fall_vb n : e_vb (sts n) = (fun _ => 0). Proof. destruct n; reflexivity. Qed.
(** consecutive ledger entries differ by gdt *)
Definition even (g : ledger) : Prop := nth 0 (at_v g) (fun _ => 0) 2%nat = tot_v g 2%nat /\ forall m, (Datatypes.S m < length (at_v g))%nat -> nth m (at_v g) (fun _ => 0) 2%nat - nth (Datatypes.S m) (at_v g) (fun _ => 0) 2%nat = gdt.
Lemma even_step i x g : i = ex_run 0 -> e_vb x = (fun _ => 0) -> even g -> even (lstep expq (OStep i) x g).
Proof.
  intros -> E [A B]. cbn [lstep ex_run i_updated tot_v at_v]. split; cbn [tot_v at_v nth length]; [reflexivity|].
  intros [|m] H; [|apply B; lia]. rewrite fall_dv by (reflexivity || exact E). rewrite A. lra.
Qed.
Lemma even_led n : even (leds n).
Proof.
  induction n as [|n IH].
  - cbn [led fall lrun]. repeat (apply even_step; [reflexivity|reflexivity|]). split; [reflexivity|]. intros m H. cbn in H. lia.
  - cbn [led]. apply even_step; [reflexivity|apply fall_vb|exact IH].
Qed.
Lemma fall_ok : Forall op_time_ok fall. Proof. repeat constructor; unfold two64; cbn; lia. Qed.
Lemma fall_full : full (1 / 100) s.
Proof.
  split; [unfold vhist; rewrite contents_len; reflexivity|]. split.
  - unfold fall. cbn [orun ostep].
    assert (I0 : oinv ex_five led0) by exact (oinv_fresh _ 3 ex_five_fresh). assert (T : op_time_ok (OStep (ex_run 0))) by exact (proj1 (C52_nonvacuous_run 0)).
    assert (Z : forall x g, oinv x g -> Forall (fun y => vdt (payload y) = 1 / 100) (vhist x) -> vdt (payload (w_new x)) = 0 ->
      let x' := calculateOutputStates expq (ex_run 0) x in oinv x' (lstep expq (OStep (ex_run 0)) x g) /\ Forall (fun y => vdt (payload y) = 1 / 100) (vhist x') /\ vdt (payload (w_new x')) = 0).
    { intros x g I F W. cbv zeta. split; [apply (oinv_ostep expq (OStep (ex_run 0))); assumption|].
      destruct (step_vert expq (ex_run 0) x g I T eq_refl) as (A & B & _). split; [|exact B].
      rewrite <- (rev_involutive (vhist _)), A. apply Forall_rev, vspec_dt. apply Forall_rev.
      unfold stored, vhist, pushBoth. cbn [setVert setOut w_buf]. rewrite (contents_push zero_vert) by exact (oi_wbuf _ _ I). unfold q_push.
      assert (Q : Forall (fun y => vdt (payload y) = 1 / 100) (w_new (propagate expq (ex_run 0) x) :: vhist x)).
      { constructor; [cbn [propagate w_new payload vdt sadd RScalar ex_run i_dvdt]; rewrite W; lra|exact F]. }
      change (w_buf (propagate expq (ex_run 0) x)) with (w_buf x). revert Q. unfold vhist. generalize (w_new (propagate expq (ex_run 0) x) :: contents zero_vert (w_buf x)).
      intros L Q. generalize (size (w_buf x)). intros k. revert k. induction Q as [|a L Qa Q IH]; intros [|k]; cbn [firstn]; constructor; auto. }
    destruct (Z _ _ I0 ltac:(constructor) eq_refl) as (I1 & F1 & W1). destruct (Z _ _ I1 F1 W1) as (I2 & F2 & W2). destruct (Z _ _ I2 F2 W2) as (I3 & F3 & W3). exact F3.
  - cbn. unfold szero. cbn [slit RScalar]. lra.
Qed.
Lemma fall_inv n : oinv (sts n) (leds n).
Proof. apply st_inv; [exact (oinv_run expq fall ex_five led0 (oinv_fresh _ 3 ex_five_fresh) fall_ok)|intros; exact (proj1 (C52_nonvacuous_run 0))]. Qed.
Lemma fall_vel n : vert_vel_mismatch expq ex_run zv five five zv zv s n = - gdt.
Proof.
  unfold vert_vel_mismatch. assert (EV : forall m, e_v (sts (Datatypes.S m)) 2%nat = 5) by (intros; reflexivity).
  assert (E0 : e_v (sts 0) 2%nat = 5) by reflexivity.
  assert (EN : e_v (sts n) 2%nat = 5) by (destruct n; [exact E0|apply EV]). rewrite EV, EN.
  pose proof (fall_inv n) as I. assert (T : op_time_ok (OStep (ex_run n))) by exact (proj1 (C52_nonvacuous_run 0)).
  pose proof (oinv_push _ _ (oinv_propagate expq (ex_run n) _ _ I) T) as HP.
  assert (F : full (1 / 100) (sts n)).
  { apply (st_full expq ex_run zv five five zv zv s (lrun expq fall ex_five led0)); try (intros; reflexivity); try (intros; exact (proj1 (C52_nonvacuous_run 0))).
    - exact (oinv_run expq fall ex_five led0 (oinv_fresh _ 3 ex_five_fresh) fall_ok).
    - exact fall_full. }
  destruct (past_full expq (ex_run n) _ _ (1 / 100) I F eq_refl) as (_ & L & _). pose proof (oi_size _ _ I) as SZ.
  unfold second_of, first_of. unfold past in *. fold (stored expq (ex_run n) (sts n)) in HP. set (h := vhist (stored expq (ex_run n) (sts n))) in *.
  rewrite rev_length in L. rewrite !rev_nth by lia.
  destruct (nth_error h (length h - 2)) as [x2|] eqn:X2; [|apply nth_error_None in X2; lia].
  destruct (nth_error h (length h - 1)) as [x1|] eqn:X1; [|apply nth_error_None in X1; lia].
  rewrite (nth_error_nth _ _ _ X2), (nth_error_nth _ _ _ X1). rewrite (oi_w _ _ HP _ _ X2), (oi_w _ _ HP _ _ X1).
  set (gp := mkL _ _ _ _). assert (EG : even gp) by exact (even_step (ex_run n) (sts n) (leds n) eq_refl (fall_vb n) (even_led n)).
  destruct EG as [_ EG]. assert (SL : (length h <= length (at_v gp))%nat).
  { pose proof (oi_len _ _ HP) as [LL _]. pose proof (oi_same _ _ HP) as [LS _]. fold h in LS. fold gp in LL. rewrite LS. exact LL. }
  specialize (EG (length h - 2)%nat ltac:(lia)). replace (Datatypes.S (length h - 2))%nat with (length h - 1)%nat in EG by lia. clearbody gp. lra.
Qed.
Example C52_vertical_nonvacuous : fresh ex_five 3 /\ Forall op_time_ok fall /\ full (1 / 100) s /\
  (forall n, op_time_ok (OStep (ex_run n)) /\ i_updated (ex_run n) = true /\ i_dvdt (ex_run n) = 1 / 100 /\ i_dt_ekf_avg (ex_run n) = 1 / 100 /\ i_posTau (ex_run n) = 1 / 4 /\ i_velTau (ex_run n) = 1 / 4) /\
  (forall n, Rabs (vert_vel_mismatch expq ex_run zv five five zv zv s n) <= 1 / 10) /\
  (forall n, Rabs (vert_pos_mismatch expq ex_run zv five five zv zv s (1 / 100) n) <= 6).
Proof.
  split; [exact ex_five_fresh|]. split; [exact fall_ok|]. split; [exact fall_full|]. split.
  { intros n. destruct (C52_nonvacuous_run n) as [A B]. repeat split; exact A || exact B || reflexivity || idtac; apply A. }
  split.
  - intros n. rewrite fall_vel. rewrite Rabs_Ropp, Rabs_right; unfold gdt; lra.
  - intros n. unfold vert_pos_mismatch. assert (EV : forall m, e_v (sts m) 2%nat = 5) by (intros [|m]; reflexivity).
    assert (EP : forall m, e_p (sts (Datatypes.S m)) 2%nat = 5) by (intros; reflexivity). rewrite !EV, EP.
    destruct n as [|n]; [change (e_p (sts 0) 2%nat) with 0|rewrite EP]; apply Rabs_le; lra.
Qed.
End Ex.
Print Assumptions C52_vertical_tracking.

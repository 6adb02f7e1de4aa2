(** * Property C59: attitude of the output predictor; C23/C24 additions *)
From Coq Require Import Reals Lra PeanoNat.
From Verif Require Import CBase Scalar RingBufferModel RingBufferSpec RingBufferProofs RealGeom OutputModel OutputProofs OutputHist OutputTrack OutputReset Props_Output.
Open Scope nat_scope.

(** ** C23: a reset of all three velocity components *)
Theorem C23_velocity_reset : forall (T : Type) (S : Scalar T) (new : Vec T) (s : ost T),
  let s' := resetVelocityTo new s in
  (forall k, k < 3 -> e_v s' k = new k) /\ e_p s' = e_p s /\ e_q s' = e_q s /\
  (forall k, k < 2 -> velNE_change (o_rst s') k = ssub (new k) (e_v s k)) /\ velD_change (o_rst s') = ssub (new 2) (e_v s 2) /\
  velNE_counter (o_rst s') = ((velNE_counter (o_rst s) + 1) mod 256)%Z /\ velD_counter (o_rst s') = ((velD_counter (o_rst s) + 1) mod 256)%Z /\
  (forall k, k < 3 -> ov (payload (o_new s')) k = sadd (ov (payload (o_new s)) k) (ssub (new k) (e_v s k))) /\
  vv (payload (w_new s')) = sadd (vv (payload (w_new s))) (ssub (new 2) (e_v s 2)).
Proof.
  intros T S new s. cbv zeta. unfold resetVelocityTo, resetVerticalVelocityTo, resetHorizontalVelocityTo.
  cbn [setRst setOut setVert setEV e_v e_p e_q o_new w_new o_rst velNE_change velD_change velNE_counter velD_counter smap payload withV ov addVV vv].
  split; [intros [|[|[|k]]] Hk; [reflexivity..|lia]|]. split; [reflexivity|]. split; [reflexivity|].
  split; [intros [|[|k]] Hk; [reflexivity..|lia]|]. split; [reflexivity|]. split; [reflexivity|]. split; [reflexivity|].
  split; [intros [|[|[|k]]] Hk; [reflexivity..|lia]|]. reflexivity.
Qed.

(** ** C24: alignment at start-up: with the buffers just allocated, the current
    output becomes the state of the filter *)
Theorem C24_initial_alignment : forall (s : ost R) n, fresh s n -> qnorm2 (toQ (e_q s)) = 1%R ->
  let o := payload (o_new (alignOutputFilter s)) in
  toQ (oq o) = toQ (e_q s) /\ (forall k, ov o k = e_v s k /\ op o k = e_p s k).
Proof.
  intros s n (Hn & HA & _) U. cbv zeta. destruct (inv_alloc (zero_out (T := R)) n _ ltac:(lia) HA) as (HI & _ & _).
  unfold alignOutputFilter. cbn [setOut o_new]. rewrite (newest_map zero_out) by exact HI. rewrite smap_payload. cbn [oq ov op].
  assert (Z : forall k, payload (load zero_out k (buffer (o_buf s))) = zero_out).
  { intros k. unfold allocate in HA. replace (n =? 0) with false in HA by (symmetry; apply Nat.eqb_neq; lia). inversion HA as [E]. cbn [buffer].
    unfold load. destruct (Nat.lt_ge_cases k n) as [L|L].
    - rewrite nth_repeat. reflexivity.
    - rewrite nth_overflow by (rewrite repeat_length; exact L). reflexivity. }
  assert (EO : payload (get_oldest zero_out (o_buf s)) = zero_out) by apply Z.
  assert (EN : payload (get_newest zero_out (o_buf s)) = zero_out) by apply Z.
  rewrite EO, EN. assert (I : toQ (oq (zero_out (T := R))) = qone) by (unfold toQ, qone, zero_out; cbn; f_equal; lra).
  split.
  - rewrite toQ_norm, toQ_mul, toQ_norm, toQ_mul, toQ_inv, I.
    assert (N1 : qnorm2 qone = 1%R) by (unfold qnorm2, qone; cbn; ring).
    rewrite qinv_unit by exact N1. assert (C : qconj qone = qone) by (unfold qconj, qone; cbn; f_equal; lra). rewrite C, !qmul_1_r.
    rewrite !qnormalize_unit; rewrite ?qnormalize_unit; auto.
  - intros k. unfold vplus, vminus, zero_out, szero. cbn [ov op sadd ssub slit RScalar]. split; lra.
Qed.

(** ** C59 *)
(** rotation matrices: the model's 3 by 3 function is the matrix of RealGeom *)
Definition entry (m : M3) (i j : nat) : R :=
  match i, j with
  | 0, 0 => m00 m | 0, 1 => m01 m | 0, _ => m02 m | 1, 0 => m10 m | 1, 1 => m11 m | 1, _ => m12 m | _, 0 => m20 m | _, 1 => m21 m | _, _ => m22 m end.
Lemma dcmv_entry (q : Vec R) i j : dcmv q i j = entry (dcm (toQ q)) i j.
Proof. destruct i as [|[|i]], j as [|[|j]]; unfold dcmv, entry, dcm, toQ; cbn [m00 m01 m02 m10 m11 m12 m20 m21 m22 q0 q1 q2 q3]; cbn [sadd ssub smul slit RScalar]; field. Qed.

Section Att.
Variable expq : Vec R -> Vec R.
Hypothesis exp_unit : forall v, qnorm2 (toQ (expq v)) = 1%R.

(** [unit_ops]: attitudes the filter or a reset puts in are unit quaternions *)
Notation zo := (zero_out (T := R)).
Definition unit_op (o : oop) : Prop := match o with OEkf q _ _ _ _ => qnorm2 (toQ q) = 1%R | OResetQuat a _ => qnorm2 (toQ a) = 1%R | _ => True end.
Definition uq (x : sample (outp R)) : Prop := qnorm2 (toQ (oq (payload x))) = 1%R.
Definition UI (s : ost R) : Prop := qnorm2 (toQ (e_q s)) = 1%R /\ uq (o_new s) /\ Forall uq (hist s).

Lemma qnorm2_norm q : (0 < qnorm2 q)%R -> qnorm2 (qnormalize q) = 1%R.
Proof.
  intros H. assert (SP : (0 < sqrt (qnorm2 q))%R) by (apply sqrt_lt_R0; exact H).
  assert (SS : (sqrt (qnorm2 q) * sqrt (qnorm2 q) = qnorm2 q)%R) by (apply sqrt_sqrt; lra).
  assert (E : qnorm2 (qnormalize q) = (qnorm2 q / (sqrt (qnorm2 q) * sqrt (qnorm2 q)))%R).
  { unfold qnormalize. set (r := sqrt (qnorm2 q)) in *. clearbody r. destruct q as [a b c d]; unfold qscale, qnorm2; cbn [q0 q1 q2 q3]. field. lra. }
  rewrite E, SS. field. lra.
Qed.
Lemma new_quat_exact i (s : ost R) : qnorm2 (toQ (oq (payload (o_new s)))) = 1%R ->
  toQ (new_quat expq i s) = qmul (toQ (oq (payload (o_new s)))) (toQ (expq (dangle i s))) /\ qnorm2 (toQ (new_quat expq i s)) = 1%R.
Proof.
  intros U. unfold new_quat. rewrite toQ_norm, toQ_mul.
  assert (N : qnorm2 (qmul (toQ (oq (payload (o_new s)))) (toQ (expq (dangle i s)))) = 1%R) by (rewrite qnorm2_mul, U, exp_unit; ring).
  rewrite qnormalize_unit by exact N. split; [reflexivity|exact N].
Qed.
Lemma observe_split i s g : oinv s g -> time_ok (o_new s) ->
  let b := push (o_new s) (o_buf s) in
  exists cv cp, let f := fun o => mkOut (oq o) (vplus (ov o) cv) (vplus (op o) cp) in
  o_new (observe i s) = smap f (o_new s) /\ hist (observe i s) = map (smap f) (contents zo b) /\ Inv zo b /\
  e_q (observe i s) = e_q s /\ get_oldest zo (o_buf (observe i s)) = smap f (get_oldest zo b).
Proof.
  intros HI HT. cbv zeta. pose proof (oi_buf _ _ HI) as A. pose proof (inv_push zo _ _ A HT) as B.
  unfold observe. cbv zeta. eexists. eexists. unfold hist. cbn [o_new o_buf e_q applyCorrection applyVertCorrection setVert setOut].
  rewrite (newest_map zo) by exact B. rewrite (push_newest zo) by exact A. rewrite (oldest_map zo) by exact B.
  rewrite (contents_map_all zo) by exact B.
  split; [reflexivity|]. split; [reflexivity|]. split; [exact B|]. split; reflexivity.
Qed.
Lemma uq_smap f (x : sample (outp R)) : (forall o, qnorm2 (toQ (oq o)) = 1%R -> qnorm2 (toQ (oq (f o))) = 1%R) -> uq x -> uq (smap f x).
Proof. intros H. unfold uq. cbn [smap payload]. apply H. Qed.
Lemma UI_shift (s s' : ost R) f : UI s -> Inv zo (o_buf s) -> (forall o, qnorm2 (toQ (oq o)) = 1%R -> qnorm2 (toQ (oq (f o))) = 1%R) ->
  qnorm2 (toQ (e_q s')) = 1%R -> o_new s' = smap f (o_new s) -> o_buf s' = map_all f (o_buf s) -> UI s'.
Proof.
  intros (A & B & C) HI Hf He E1 E2. split; [exact He|]. split; [rewrite E1; apply uq_smap; assumption|].
  rewrite (hist_map f s s' HI E2). apply Forall_map. eapply Forall_impl; [|exact C]. intros x. apply uq_smap. exact Hf.
Qed.
Lemma UI_step o s g : oinv s g -> op_time_ok o -> unit_op o -> UI s -> UI (ostep expq o s).
Proof.
  intros HI HT HU H. pose proof (oi_buf _ _ HI) as IB. pose proof H as (A & B & C). destruct o; cbn [ostep].
  - unfold calculateOutputStates. destruct (new_quat_exact i s B) as (_ & N).
    assert (P : UI (propagate expq i s)) by (split; [exact A|split; [exact N|exact C]]).
    destruct (i_updated i); [|exact P].
    destruct (observe_split i _ _ (oinv_propagate expq i s g HI) HT) as (cv & cp & E1 & E2 & E3 & E4 & _). cbv zeta in *.
    split; [rewrite E4; exact A|]. split; [rewrite E1; exact N|]. rewrite E2. apply Forall_map.
    rewrite (contents_push zo) by exact IB. unfold q_push. apply Forall_forall. intros x Hx.
    assert (HX : In x (o_new (propagate expq i s) :: hist s)). { rewrite <- (firstn_skipn (size (o_buf (propagate expq i s)))). apply in_or_app. left. exact Hx. }
    destruct HX as [<-|HX]; [exact N|]. rewrite Forall_forall in C. exact (C x HX).
  - split; [exact HU|]. split; [exact B|exact C].
  - apply (UI_shift s _ (withV (addXY (vminus new (e_v s)))) H IB); [intros o E; exact E|exact A|reflexivity|reflexivity].
  - apply (UI_shift s _ (withV (addZ (ssub new (e_v s 2)))) H IB); [intros o E; exact E|exact A|reflexivity|reflexivity].
  - apply (UI_shift s _ (withP (addXY (vminus new (e_p s)))) H IB); [intros o E; exact E|exact A|reflexivity|reflexivity].
  - apply (UI_shift s _ (withP (addZ (ssub new (e_p s 2)))) H IB); [intros o E; exact E|exact A|reflexivity|reflexivity].
  - destruct (quat_change_ok after upd s HU A) as (_ & D & _). destruct upd.
    + apply (UI_shift s _ (withQ (qmulv (quat_change (o_rst (resetQuat after true s))))) H IB); [|exact HU|reflexivity|reflexivity].
      intros o E. cbn [withQ oq]. rewrite toQ_mul, qnorm2_mul, E, D. ring.
    + split; [exact HU|]. split; [exact B|exact C].
Qed.
Lemma UI_run l : forall s g, oinv s g -> Forall op_time_ok l -> Forall unit_op l -> UI s -> UI (orun expq l s).
Proof.
  induction l as [|o l IH]; intros s g HI HT HU H; cbn [orun]; [exact H|]. inversion HT; subst. inversion HU; subst.
  apply (IH _ (lstep expq o s g)); auto; [apply oinv_ostep; assumption|]. apply (UI_step o s g); assumption.
Qed.
End Att.

(** [expq v]: the quaternion of the rotation vector v, any function with unit
    values.  Along every history of steps, filter updates and resets, the current
    and all stored output attitudes stay unit quaternions *)
Theorem C59_attitude_stays_unit : forall (expq : Vec R -> Vec R), (forall v, qnorm2 (toQ (expq v)) = 1%R) ->
  forall (l : list oop) (s0 : ost R) size, fresh s0 size -> Forall op_time_ok l -> Forall unit_op l ->
  qnorm2 (toQ (e_q s0)) = 1%R -> qnorm2 (toQ (oq (payload (o_new s0)))) = 1%R ->
  let s := orun expq l s0 in
  qnorm2 (toQ (oq (payload (o_new s)))) = 1%R /\ (forall n x, nth_error (hist s) n = Some x -> qnorm2 (toQ (oq (payload x))) = 1%R).
Proof.
  intros expq HE l s0 size HF HT HU U1 U2. cbv zeta.
  assert (U0 : UI s0). { split; [exact U1|]. split; [exact U2|]. destruct HF as (Hn & H1 & _). destruct (inv_alloc (zero_out (T := R)) size _ ltac:(lia) H1) as (_ & E & _). unfold hist. rewrite E. constructor. }
  destruct (UI_run expq HE l s0 led0 (oinv_fresh s0 size HF) HT HU U0) as (_ & A & B). split; [exact A|].
  intros n x Hx. rewrite Forall_forall in B. apply (B x). apply nth_error_In in Hx. exact Hx.
Qed.

(** one predictor step: the output attitude is rotated (in body axes) by the measured
    delta angle minus the gyro bias for one IMU interval plus the tracking
    correction; the attitude used for outputs is the same; the stored attitudes
    are not altered; the accumulated yaw change is the vertical earth
    component of the corrected delta angle, for the attitude before the step *)
Theorem C59_attitude_step : forall (expq : Vec R -> Vec R), (forall v, qnorm2 (toQ (expq v)) = 1%R) ->
  forall (l : list oop) (s0 : ost R) size i, fresh s0 size -> Forall op_time_ok l -> Forall unit_op l -> op_time_ok (OStep i) ->
  qnorm2 (toQ (e_q s0)) = 1%R -> qnorm2 (toQ (oq (payload (o_new s0)))) = 1%R ->
  let s := orun expq l s0 in let s' := calculateOutputStates expq i s in
  let w : Vec R := fun k => (i_da i k - i_dt_imu_avg i / i_dt_ekf_avg i * e_ab s k + o_dacorr s k)%R in
  exists w', (forall k, w' k = w k) /\
  toQ (oq (payload (o_new s'))) = qmul (toQ (oq (payload (o_new s)))) (toQ (expq w')) /\
  toQ (o_Rq s') = toQ (oq (payload (o_new s'))) /\ time_us (o_new s') = i_time i /\ e_q s' = e_q s /\
  (o_yaw_delta s' - o_yaw_delta s = vz (mapp (dcm (toQ (o_Rq s))) (mkV (w 0%nat) (w 1%nat) (w 2%nat))))%R /\
  map (fun x => oq (payload x)) (hist s') =
    (if i_updated i then firstn (RingBufferModel.size (o_buf s)) (oq (payload (o_new s')) :: map (fun x => oq (payload x)) (hist s)) else map (fun x => oq (payload x)) (hist s)).
Proof.
  intros expq HE l s0 size i HF HT HU HI U1 U2. cbv zeta. set (s := orun expq l s0).
  destruct (C59_attitude_stays_unit expq HE l s0 size HF HT HU U1 U2) as (A & _). fold s in A. cbv zeta in A.
  pose proof (oinv_run expq l s0 led0 (oinv_fresh s0 size HF) HT) as OI. fold s in OI.
  exists (dangle i s). destruct (new_quat_exact expq HE i s A) as (Q & _).
  assert (EW : forall k, dangle i s k = (i_da i k - i_dt_imu_avg i / i_dt_ekf_avg i * e_ab s k + o_dacorr s k)%R).
  { intros k. unfold dangle, dscale. cbn [sadd ssub smul sdiv RScalar]. ring. }
  split; [exact EW|].
  assert (Y : forall d, (szero + dangle i s 0 * dcmv d 2 0 + dangle i s 1 * dcmv d 2 1 + dangle i s 2 * dcmv d 2 2)%scal = vz (mapp (dcm (toQ d)) (mkV (dangle i s 0) (dangle i s 1) (dangle i s 2)))).
  { intros d. rewrite !dcmv_entry. unfold entry, mapp, szero. cbn [vx vy vz]. cbn [sadd smul slit RScalar]. field. }
  rewrite <- !EW. unfold calculateOutputStates. destruct (i_updated i).
  - destruct (observe_split i _ _ (oinv_propagate expq i s _ OI) HI) as (cv & cp & E1 & E2 & _ & E4 & _). cbv zeta in *.
    rewrite E4, E2, E1. split; [exact Q|]. split; [reflexivity|]. split; [reflexivity|]. split; [reflexivity|]. split.
    + transitivity (szero + dangle i s 0 * dcmv (o_Rq s) 2 0 + dangle i s 1 * dcmv (o_Rq s) 2 1 + dangle i s 2 * dcmv (o_Rq s) 2 2)%scal; [|apply Y].
      cbn [observe o_yaw_delta applyCorrection applyVertCorrection setVert setOut propagate]. cbn [sadd RScalar]. ring.
    + rewrite map_map. cbn [smap payload oq]. rewrite (contents_push (zero_out (T := R))) by exact (oi_buf _ _ OI). unfold q_push. rewrite <- firstn_map. cbn [map propagate o_buf o_new payload oq]. reflexivity.
  - split; [exact Q|]. split; [reflexivity|]. split; [reflexivity|]. split; [reflexivity|]. split; [|reflexivity].
    transitivity (szero + dangle i s 0 * dcmv (o_Rq s) 2 0 + dangle i s 1 * dcmv (o_Rq s) 2 1 + dangle i s 2 * dcmv (o_Rq s) 2 2)%scal; [|apply Y].
    cbn [propagate o_yaw_delta]. cbn [sadd RScalar]. ring.
Qed.

(** after an update of the filter: if the oldest stored attitude differs from the
    filter's attitude by a rotation of angle a < pi about the unit axis n, the
    correction is the opposite rotation vector direction with length
    2 sin(a/2) times half an IMU interval per delay, and the reported errors are
    2 sin(a/2) and the Euclidean lengths of the velocity and position differences *)
Definition rotation_by (a : R) (n : V3) (q : Q4) : Prop :=
  let c := cos (a / 2) in let h := sin (a / 2) in
  q = mkQ c (h * vx n) (h * vy n) (h * vz n) \/ q = mkQ (- c) (- (h * vx n)) (- (h * vy n)) (- (h * vz n)).
Theorem C59_attitude_correction : forall (expq : Vec R -> Vec R), (forall v, qnorm2 (toQ (expq v)) = 1%R) ->
  forall (l : list oop) (s0 : ost R) size i, fresh s0 size -> Forall op_time_ok l -> Forall unit_op l -> op_time_ok (OStep i) -> i_updated i = true ->
  qnorm2 (toQ (e_q s0)) = 1%R -> qnorm2 (toQ (oq (payload (o_new s0)))) = 1%R ->
  let s := orun expq l s0 in let s' := calculateOutputStates expq i s in
  let od := payload (get_oldest zero_out (o_buf (stored expq i s))) in
  let delay := Rmax (IZR (sub64 (i_time i) (i_tdelayed i)) / 1000000) (i_dt_imu_avg i) in
  forall a n, (0 <= a < PI)%R -> vnorm2 n = 1%R -> rotation_by a n (qmul (qconj (toQ (e_q s))) (toQ (oq od))) ->
  mkV (o_dacorr s' 0%nat) (o_dacorr s' 1%nat) (o_dacorr s' 2%nat) = vscale (- (2 * sin (a / 2) * (i_dt_imu_avg i / (2 * delay)))) n /\
  o_track s' 0%nat = (2 * sin (a / 2))%R /\
  (0 <= o_track s' 1%nat)%R /\ (o_track s' 1%nat ^ 2 = (e_v s 0%nat - ov od 0%nat) ^ 2 + (e_v s 1%nat - ov od 1%nat) ^ 2 + (e_v s 2%nat - ov od 2%nat) ^ 2)%R /\
  (0 <= o_track s' 2%nat)%R /\ (o_track s' 2%nat ^ 2 = (e_p s 0%nat - op od 0%nat) ^ 2 + (e_p s 1%nat - op od 1%nat) ^ 2 + (e_p s 2%nat - op od 2%nat) ^ 2)%R.
Proof.
  intros expq HE l s0 size i HF HT HU HI HUP U1 U2. cbv zeta. set (s := orun expq l s0). intros a n Ha Hn HR.
  assert (US : UI s). { apply (UI_run expq HE l s0 led0 (oinv_fresh s0 size HF) HT HU). split; [exact U1|]. split; [exact U2|]. destruct HF as (Hn' & H1 & _). destruct (inv_alloc (zero_out (T := R)) size _ ltac:(lia) H1) as (_ & E & _). unfold hist. rewrite E. constructor. }
  destruct US as (UE & UN & UH).
  unfold calculateOutputStates. rewrite HUP. unfold observe. cbv zeta. fold (pushBoth (propagate expq i s)). fold (stored expq i s).
  cbn [o_dacorr o_track].
  change (e_q (stored expq i s)) with (e_q s). change (e_v (stored expq i s)) with (e_v s). change (e_p (stored expq i s)) with (e_p s).
  set (od := payload (get_oldest zero_out (o_buf (stored expq i s)))) in *. clearbody od.
  assert (C2 : (0 < cos (a / 2))%R). { apply cos_gt_0; lra. }
  assert (S2 : (0 <= sin (a / 2))%R). { apply sin_ge_0; lra. }
  set (qe := qnormv (qmulv (qinvv (e_q s)) (oq od))).
  assert (EQ : toQ qe = qmul (qconj (toQ (e_q s))) (toQ (oq od))).
  { unfold qe. rewrite toQ_norm, toQ_mul, toQ_inv, qinv_unit by exact UE. apply qnormalize_unit.
    unfold rotation_by in HR. destruct HR as [HR|HR]; rewrite HR; unfold qnorm2; cbn [q0 q1 q2 q3]; unfold vnorm2, vdot in Hn;
      pose proof (sin2_cos2 (a / 2)) as SC; unfold Rsqr in SC;
      replace (cos (a/2) ^ 2 + (sin (a/2) * vx n) ^ 2 + (sin (a/2) * vy n) ^ 2 + (sin (a/2) * vz n) ^ 2)%R with (cos (a/2) * cos (a/2) + sin (a/2) * sin (a/2) * (vx n * vx n + vy n * vy n + vz n * vz n))%R by ring;
      try replace ((- cos (a/2)) ^ 2 + (- (sin (a/2) * vx n)) ^ 2 + (- (sin (a/2) * vy n)) ^ 2 + (- (sin (a/2) * vz n)) ^ 2)%R with (cos (a/2) * cos (a/2) + sin (a/2) * sin (a/2) * (vx n * vx n + vy n * vy n + vz n * vz n))%R by ring;
      rewrite Hn; lra. }
  clearbody qe. rewrite <- EQ in HR.
  assert (EW : forall k, k < 3 -> smul (if sle szero (qe 0%nat) then sopp (slit 2 1) else slit 2 1) (qe (Datatypes.S k)) = (- (2 * sin (a / 2)) * match k with 0%nat => vx n | 1%nat => vy n | _ => vz n end)%R).
  { intros k Hk. unfold rotation_by, toQ in HR. cbn [sle szero slit smul sopp RScalar].
    destruct HR as [HR|HR]; injection HR as R0 R1 R2 R3; destruct (Rle_dec _ _) as [L|L]; cbn [slit RScalar] in L; try (exfalso; rewrite R0 in L; unfold szero in L; cbn [slit RScalar] in L; lra);
      destruct k as [|[|[|k]]]; try lia; rewrite ?R1, ?R2, ?R3; lra. }
  assert (NS : forall v : Vec R, nrm3 v = sqrt (v 0%nat ^ 2 + v 1%nat ^ 2 + v 2%nat ^ 2)%R).
  { intros v. unfold nrm3, szero. cbn [sadd smul slit ssqrt RScalar]. f_equal. field. }
  assert (MX : sfmax (smul (slit (sub64 (i_time i) (i_tdelayed i)) 1) (slit 1 1000000)) (i_dt_imu_avg i) = Rmax (IZR (sub64 (i_time i) (i_tdelayed i)) / 1000000) (i_dt_imu_avg i)).
  { cbn [sfmax smul slit RScalar]. f_equal. lra. }
  rewrite MX. set (delay := Rmax _ _). clearbody delay.
  split.
  { unfold vscale. rewrite !EW by lia. cbn [sdiv smul slit RScalar]. f_equal; unfold Rdiv; rewrite ?Rinv_mult; ring. }
  split.
  { rewrite NS. rewrite !EW by lia. unfold vnorm2, vdot in Hn.
    match goal with |- sqrt ?x = _ => replace x with ((2 * sin (a / 2)) * (2 * sin (a / 2)))%R end; [apply sqrt_square; lra|].
    transitivity ((2 * sin (a / 2)) * (2 * sin (a / 2)) * (vx n * vx n + vy n * vy n + vz n * vz n))%R; [rewrite Hn; ring|ring]. }
  assert (P3 : forall x y z, (0 <= x ^ 2 + y ^ 2 + z ^ 2)%R). { intros x y z. pose proof (pow2_ge_0 x). pose proof (pow2_ge_0 y). pose proof (pow2_ge_0 z). lra. }
  rewrite !NS. unfold vminus. cbn [ssub RScalar].
  split; [apply sqrt_pos|]. split; [apply pow2_sqrt; apply P3|]. split; [apply sqrt_pos|apply pow2_sqrt; apply P3].
Qed.

(** ** Non-vacuity: the exact exponential map has unit values, and a history
    with an attitude reset, bias and rotation meets the hypotheses; the correction is not trivial *)
Definition exp_exact (v : Vec R) : Vec R := let q := qexp (mkV (v 0%nat) (v 1%nat) (v 2%nat)) in fun k => match k with 0 => q0 q | 1 => q1 q | 2 => q2 q | _ => q3 q end.
Example C59_exp_unit : forall v, qnorm2 (toQ (exp_exact v)) = 1%R.
Proof. intros v. rewrite <- (qexp_unit (mkV (v 0%nat) (v 1%nat) (v 2%nat))). unfold exp_exact, toQ. f_equal. destruct (qexp _); reflexivity. Qed.
Definition ex_q2 : Vec R := fun k => match k with 0 => 3 / 5 | 3 => 4 / 5 | _ => 0 end%R.
Definition ex_hist2 : list oop := [OStep (ex_imu 10000 1); OResetQuat ex_q2 true; OStep (ex_imu 20000 2); OEkf ex_q ex_q ex_q ex_q ex_q].
Example C59_history : fresh ex_fresh 3 /\ Forall op_time_ok ex_hist2 /\ Forall unit_op ex_hist2 /\ qnorm2 (toQ (e_q ex_fresh)) = 1%R /\ qnorm2 (toQ (oq (payload (o_new ex_fresh)))) = 1%R /\
  op_time_ok (OStep (ex_imu 30000 1)) /\ i_updated (ex_imu 30000 1) = true.
Proof.
  split; [exact ex_is_fresh|]. split; [repeat constructor; unfold two64; cbn; lia|].
  split; [apply Forall_cons; [exact I|]; apply Forall_cons; [unfold unit_op, qnorm2, toQ, ex_q2; cbn [q0 q1 q2 q3]; field|]; apply Forall_cons; [exact I|]; apply Forall_cons; [unfold unit_op, qnorm2, toQ, ex_q; cbn; ring|apply Forall_nil]|].
  split; [unfold qnorm2, toQ, ex_fresh, ex_q; cbn; ring|]. split; [unfold qnorm2, toQ, ex_fresh, ex_q; cbn; ring|].
  split; [unfold two64; cbn; lia|reflexivity].
Qed.
(** every unit quaternion with non-zero scalar part is such a rotation *)
Example C59_rotation_exists : forall q : Q4, qnorm2 q = 1%R -> q0 q <> 0%R -> exists a n, (0 <= a < PI)%R /\ vnorm2 n = 1%R /\ rotation_by a n q.
Proof.
  assert (POS : forall q : Q4, qnorm2 q = 1%R -> (0 < q0 q)%R -> exists a n, (0 <= a < PI)%R /\ vnorm2 n = 1%R /\
    q = mkQ (cos (a / 2)) (sin (a / 2) * vx n) (sin (a / 2) * vy n) (sin (a / 2) * vz n)).
  { intros q H Hp. unfold qnorm2 in H. assert (B : (-1 <= q0 q <= 1)%R).
    { pose proof (pow2_ge_0 (q1 q)). pose proof (pow2_ge_0 (q2 q)). pose proof (pow2_ge_0 (q3 q)). split; [lra|]. apply Rnot_lt_le. intros L. assert (1 < q0 q ^ 2)%R by nra. lra. }
    set (m := sqrt (q1 q ^ 2 + q2 q ^ 2 + q3 q ^ 2)).
    assert (M2 : (m * m = q1 q ^ 2 + q2 q ^ 2 + q3 q ^ 2)%R). { apply sqrt_sqrt. pose proof (pow2_ge_0 (q1 q)). pose proof (pow2_ge_0 (q2 q)). pose proof (pow2_ge_0 (q3 q)). lra. }
    assert (M0 : (0 <= m)%R) by apply sqrt_pos.
    assert (AC : (0 <= acos (q0 q) < PI / 2)%R). { pose proof (acos_bound (q0 q)). split; [lra|]. destruct (Rlt_or_le (acos (q0 q)) (PI / 2)) as [L|L]; [exact L|]. exfalso. assert (cos (acos (q0 q)) <= 0)%R. { apply cos_le_0; lra. } rewrite cos_acos in H1 by exact B. lra. }
    assert (SI : sin (acos (q0 q)) = m). { rewrite sin_acos by exact B. unfold m. f_equal. unfold Rsqr. lra. }
    exists (2 * acos (q0 q))%R. exists (if Req_EM_T m 0 then mkV 1 0 0 else mkV (q1 q / m) (q2 q / m) (q3 q / m)).
    replace (2 * acos (q0 q) / 2)%R with (acos (q0 q)) by field. rewrite SI, cos_acos by exact B.
    split; [lra|]. destruct (Req_EM_T m 0) as [E|E].
    - split; [unfold vnorm2, vdot; cbn [vx vy vz]; ring|]. cbn [vx vy vz]. rewrite E in M2. destruct q as [a b c d]. cbn [q0 q1 q2 q3] in *.
      assert (b = 0 /\ c = 0 /\ d = 0)%R as (-> & -> & ->). { assert (0 <= b ^ 2 /\ 0 <= c ^ 2 /\ 0 <= d ^ 2)%R by (repeat split; apply pow2_ge_0). repeat split; apply Rsqr_0_uniq; unfold Rsqr; lra. }
      rewrite E. f_equal; ring.
    - split; [unfold vnorm2, vdot; cbn [vx vy vz]; transitivity ((q1 q ^ 2 + q2 q ^ 2 + q3 q ^ 2) / (m * m))%R; [field; exact E|rewrite <- M2; field; exact E]|].
      cbn [vx vy vz]. destruct q as [a b c d]. cbn [q0 q1 q2 q3] in *. f_equal; field; exact E. }
  intros q H Hz. destruct (Rtotal_order (q0 q) 0) as [L|[L|L]]; [|contradiction|].
  - destruct (POS (qscale (-1) q)) as (a & n & A & B & C).
    + rewrite <- H. destruct q as [a b c d]. unfold qscale, qnorm2. cbn [q0 q1 q2 q3]. ring.
    + destruct q as [a b c d]. unfold qscale. cbn [q0] in *. lra.
    + exists a, n. split; [exact A|]. split; [exact B|]. right. destruct q as [x y z w]. unfold qscale in C. cbn [q0 q1 q2 q3] in C. injection C as C0 C1 C2 C3. f_equal; lra.
  - destruct (POS q H L) as (a & n & A & B & C). exists a, n. split; [exact A|]. split; [exact B|]. left. exact C.
Qed.

Print Assumptions C23_velocity_reset.
Print Assumptions C24_initial_alignment.
Print Assumptions C59_attitude_stays_unit.
Print Assumptions C59_attitude_step.
Print Assumptions C59_attitude_correction.

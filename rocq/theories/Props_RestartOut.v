(** * C87: what a re-initialised estimator publishes

    [restartOut q r s] (RestartOutModel.v): Ekf::init called again with the predictor in any state s, followed by the completion of the start-up with attitude q. *)
From Coq Require Import Reals Lra Psatz.
From Verif Require Import CBase Scalar RingBufferModel RingBufferProofs OutputModel OutputHist RestartOutModel.
Open Scope R_scope.
Notation zR := (zero_out (T := R)).

(** the old absolute velocity and position are forgotten: what is published is the motion over the buffered interval *)
Theorem C87_outputs_restart : forall (q : Vec R) (r : rstat R) (s : ost R), Inv zR (o_buf s) ->
  let n := payload (get_newest zR (o_buf s)) in let d := payload (get_oldest zR (o_buf s)) in let o := payload (o_new (restartOut q r s)) in
  (forall k, ov o k = ov n k - ov d k) /\ (forall k, op o k = op n k - op d k) /\
  (forall k, ov (payload (o_new (resetOut s))) k = 0) /\ (forall k, op (payload (o_new (resetOut s))) k = 0) /\ (forall k, o_dacorr (restartOut q r s) k = 0).
Proof.
  intros q r s HI. cbv zeta. unfold restartOut, startOut, alignOutputFilter. cbv zeta. cbn [setOut o_new setRst setEQ resetOut o_buf e_q e_v e_p].
  rewrite (newest_map zR) by exact HI. cbn [smap payload ov op o_dacorr]. unfold vplus, vminus. cbn [zero_out ov op szero sadd ssub RScalar].
  assert (Z : @szero R RScalar = 0) by (unfold szero; cbn [slit RScalar]; lra). rewrite Z.
  split; [intros k; ring|]. split; [intros k; ring|]. split; [intros; first [reflexivity|exact Z]|]. split; [intros; first [reflexivity|exact Z]|]. intros k. first [reflexivity|exact Z].
Qed.
(** DEFECT: the vertical velocity and height of the complementary vertical filter (the published vertical position derivative), the integrals
    of the tracking errors and the reported tracking errors are those of before *)
Theorem C87_vertical_output_survives_refuted : forall (q : Vec R) (r : rstat R) (s : ost R), let s' := restartOut q r s in
  w_new s' = w_new s /\ w_buf s' = w_buf s /\ o_vint s' = o_vint s /\ o_pint s' = o_pint s /\ o_track s' = o_track s /\ o_yaw_delta s' = o_yaw_delta s.
Proof. intros q r s. repeat split; reflexivity. Qed.
(** ... so that a vehicle re-initialised at rest is published as climbing at the speed it had before, until corrected *)
Theorem C87_stale_climb_refuted : forall (expq : Vec R -> Vec R) (v : R) (q : Vec R) (r : rstat R) (s : ost R) (i : imuin R), vv (payload (w_new s)) = v -> i_updated i = false ->
  (* no acceleration *) dvel_earth expq i (restartOut q r s) 2%nat = 0 ->
  let s' := calculateOutputStates expq i (restartOut q r s) in
  e_v s' 2%nat = 0 /\ vv (payload (w_new s')) = v.
Proof.
  intros expq v q r s i V U A. cbv zeta. unfold calculateOutputStates. rewrite U. split; [change (@szero R RScalar = 0); unfold szero; cbn [slit RScalar]; lra|].
  cbn [propagate w_new payload vv]. rewrite A. change (w_new (restartOut q r s)) with (w_new s). rewrite V. cbn [sadd RScalar]. ring.
Qed.
(** DEFECT: the first correction after the restart displaces the published velocity and position although there is no error to
    correct, by what earlier tracking errors have accumulated *)
Theorem C87_stale_integral_refuted : forall (expq : Vec R -> Vec R) (q : Vec R) (r : rstat R) (s : ost R) (i : imuin R), Inv zR (o_buf s) -> (0 <= i_time i < two64 - 100000)%Z -> i_updated i = true ->
  let s0 := propagate expq i (restartOut q r s) in let od := payload (get_oldest zR (push (o_new s0) (o_buf s0))) in
  (forall k, ov od k = e_v s0 k) -> (forall k, op od k = e_p s0 k) ->
  let s' := calculateOutputStates expq i (restartOut q r s) in let vg := gain i (i_velTau i) in let pg := gain i (i_posTau i) in
  (forall k, ov (payload (o_new s')) k = ov (payload (o_new s0)) k + o_vint s k * (vg * vg) * (1 / 10)) /\
  (forall k, op (payload (o_new s')) k = op (payload (o_new s0)) k + o_pint s k * (pg * pg) * (1 / 10)).
Proof.
  intros expq q r s i HI T U. cbv zeta. intros EV EP. unfold calculateOutputStates. rewrite U.
  assert (I0 : Inv zR (o_buf (restartOut q r s))) by (apply inv_map_all, HI).
  assert (V0 : o_vint (restartOut q r s) = o_vint s) by reflexivity. assert (P0 : o_pint (restartOut q r s) = o_pint s) by reflexivity.
  set (s0 := restartOut q r s) in *. clearbody s0. unfold observe. cbv zeta. cbn [o_new applyCorrection applyVertCorrection setVert setOut o_buf e_v e_p o_vint o_pint].
  rewrite (newest_map zR) by (apply inv_push; [exact I0|exact T]). rewrite (push_newest zR) by exact I0. cbn [smap payload ov op].
  change (o_buf (propagate expq i s0)) with (o_buf s0) in *. change (o_vint (propagate expq i s0)) with (o_vint s0). change (o_pint (propagate expq i s0)) with (o_pint s0). rewrite V0, P0.
  unfold vplus, vminus, sq. cbn [sadd ssub smul RScalar]. split; intros k; rewrite ?EV, ?EP; cbn [slit RScalar]; f_equal; ring_simplify; lra.
Qed.
(** the hypotheses are met: a predictor whose integral of velocity errors is 5 m/s, re-initialised, and a sample without acceleration *)
Example C87_stale_integral_exists : exists (b : ring (outp R)) (s : ost R) (i : imuin R), let expq := fun _ : Vec R => oq zR in let r := o_rst s in let s0 := propagate expq i (restartOut (oq zR) r s) in
  Inv zR (o_buf s) /\ (0 <= i_time i < two64 - 100000)%Z /\ i_updated i = true /\ o_vint s 0%nat = 5 /\ dvel_earth expq i (restartOut (oq zR) r s) 2%nat = 0 /\
  (forall k, ov (payload (get_oldest zR (push (o_new s0) (o_buf s0)))) k = e_v s0 k) /\ (forall k, op (payload (get_oldest zR (push (o_new s0) (o_buf s0)))) k = e_p s0 k).
Proof.
  destruct (allocate zR 1) as [b|] eqn:A; [|discriminate]. destruct (inv_alloc zR 1 b ltac:(lia) A) as [I _].
  exists b. exists (mkO (oq zR) (fun _ => 3) (fun _ => 7) (fun _ => 0) (fun _ => 0) (zero_sample zR) (zero_sample zero_vert) b
    {| buffer := []; head := 0; tail := 0; size := 0; first_write := true |} (mkRst (fun _ => 0) 0 0 0 (fun _ => 0) 0 0 0 (fun _ => 0) 0)
    (oq zR) (fun _ => 0) (fun _ => 5) (fun _ => 0) (fun _ => 0) 0).
  exists (mkImu (fun _ => 0) (fun _ => 0) 1 0 1000 true 1000 1 1 1 1).
  injection A as <-. cbv zeta.
  assert (Z : @szero R RScalar = 0) by (unfold szero; cbn [slit RScalar]; lra).
  assert (D : forall k, dvel_earth (fun _ : Vec R => oq zR) (mkImu (fun _ => 0) (fun _ => 0) 1 0 1000 true 1000 1 1 1 1)
     (restartOut (oq zR) (mkRst (fun _ => 0) 0 0 0 (fun _ => 0) 0 0 0 (fun _ => 0) 0) (mkO (oq zR) (fun _ => 3) (fun _ => 7) (fun _ => 0) (fun _ => 0) (zero_sample zR) (zero_sample zero_vert)
       {| buffer := repeat (zero_sample zR) 1; head := 0; tail := 0; size := 1; first_write := true |}
       {| buffer := []; head := 0; tail := 0; size := 0; first_write := true |} (mkRst (fun _ => 0) 0 0 0 (fun _ => 0) 0 0 0 (fun _ => 0) 0)
       (oq zR) (fun _ => 0) (fun _ => 5) (fun _ => 0) (fun _ => 0) 0)) k = 0).
  { intros k. unfold dvel_earth. cbv zeta. unfold mvec. set (M := dcmv _). clearbody M. cbn [i_dv i_dvdt i_dt_imu_avg i_dt_ekf_avg]. unfold dscale. cbn [i_dt_imu_avg i_dt_ekf_avg].
    change (e_vb (restartOut _ _ _)) with (fun _ : nat => @szero R RScalar). cbv beta. cbn [sadd ssub smul sdiv RScalar]. rewrite Z. destruct (k =? 2)%nat; ring. }
  split; [exact I|]. split; [cbn [i_time]; pose proof two64_val; lia|]. split; [reflexivity|]. split; [reflexivity|]. split; [apply D|].
  split; intros k; cbn [propagate o_buf o_new restartOut startOut]; unfold get_oldest, load.
  - match goal with |- ov (payload (nth _ (buffer (push ?x _)) _)) k = _ => change (ov (payload x) k = @szero R RScalar) end. cbn [payload ov]. unfold vplus. cbn [sadd RScalar]. rewrite D, Z.
    change (0 + (0 + (0 - 0)) = 0) || (unfold restartOut, startOut, alignOutputFilter; cbn; rewrite ?Z; lra).
  - match goal with |- op (payload (nth _ (buffer (push ?x _)) _)) k = _ => change (op (payload x) k = @szero R RScalar) end. cbn [payload op]. unfold vplus. cbn [sadd RScalar]. cbn [i_dvdt smul slit RScalar].
    rewrite D, Z. unfold restartOut, startOut, alignOutputFilter; cbn; lra.
Qed.
Print Assumptions C87_outputs_restart. Print Assumptions C87_vertical_output_survives_refuted. Print Assumptions C87_stale_climb_refuted. Print Assumptions C87_stale_integral_refuted.

(** * Properties C23, C24, C52: resets and the output predictor *)
From Coq Require Import Reals Lra PeanoNat.
From Verif Require Import CBase Scalar F32 RingBufferModel RingBufferSpec RingBufferProofs RealGeom OutputModel OutputProofs OutputHist OutputTrack OutputReset.
Open Scope nat_scope.

(** ** Specification.  The output history is the list of stored outputs, newest
    first.  [moved fq fv fp s s']: the current output and every stored output
    had attitude, velocity and position transformed by fq, fv, fp; nothing
    else about them changed.  In any arithmetic. *)
Definition outputs {T} {S : Scalar T} (s : ost T) : list (sample (outp T)) := contents zero_out (o_buf s).
Definition verticals {T} {S : Scalar T} (s : ost T) : list (sample (overt T)) := contents zero_vert (w_buf s).
Definition ready {T} {S : Scalar T} (s : ost T) : Prop := Inv zero_out (o_buf s) /\ Inv zero_vert (w_buf s).
Definition entry_moved {T} (fq fv fp : Vec T -> Vec T) (x y : sample (outp T)) : Prop :=
  time_us y = time_us x /\ oq (payload y) = fq (oq (payload x)) /\ ov (payload y) = fv (ov (payload x)) /\ op (payload y) = fp (op (payload x)).
Definition moved {T} {S : Scalar T} (fq fv fp : Vec T -> Vec T) (s s' : ost T) : Prop :=
  entry_moved fq fv fp (o_new s) (o_new s') /\ Forall2 (entry_moved fq fv fp) (outputs s) (outputs s').
Definition same {A : Type} (x : A) : A := x.
(** [shift_xy d]: add d to the first two components *)
Definition shift_xy {T} {S : Scalar T} (d : Vec T) (v : Vec T) : Vec T := fun k => if k <? 2 then sadd (v k) (d k) else v k.
Definition shift_z {T} {S : Scalar T} (d : T) (v : Vec T) : Vec T := fun k => if k =? 2 then sadd (v k) d else v k.
(** vertical entries: velocity and integral transformed, interval kept *)
Definition vert_moved {T} (f g : T -> T) (x y : sample (overt T)) : Prop :=
  time_us y = time_us x /\ vv (payload y) = f (vv (payload x)) /\ vi (payload y) = g (vi (payload x)) /\ vdt (payload y) = vdt (payload x).

Lemma Forall2_map {A} (P : A -> A -> Prop) (f : A -> A) l : (forall x, P x (f x)) -> Forall2 P l (map f l).
Proof. intros H. induction l; cbn; constructor; auto. Qed.

Section Any.
Context {T : Type} {S : Scalar T}.
(** C23, horizontal velocity: state set, every output shifted by exactly the
    published change, change = new minus old, counter incremented, nothing else touched *)
Theorem C23_horizontal_velocity_reset : forall (new : Vec T) (s : ost T), ready s ->
  let s' := resetHorizontalVelocityTo new s in
  let d := velNE_change (o_rst s') in
  (forall k, k < 2 -> e_v s' k = new k /\ d k = ssub (new k) (e_v s k)) /\
  e_v s' 2 = e_v s 2 /\ e_p s' = e_p s /\ e_q s' = e_q s /\
  moved same (shift_xy d) same s s' /\ w_new s' = w_new s /\ w_buf s' = w_buf s /\
  velNE_counter (o_rst s') = ((velNE_counter (o_rst s) + 1) mod 256)%Z /\
  velD_counter (o_rst s') = velD_counter (o_rst s) /\ posNE_counter (o_rst s') = posNE_counter (o_rst s) /\
  posD_counter (o_rst s') = posD_counter (o_rst s) /\ quat_counter (o_rst s') = quat_counter (o_rst s).
Proof.
  intros new s [HI HW]. cbv zeta. split.
  { intros k Hk. cbn [resetHorizontalVelocityTo setRst setOut setEV e_v o_rst velNE_change]. destruct (Nat.ltb_spec k 2); [split; reflexivity|lia]. }
  split; [reflexivity|]. split; [reflexivity|]. split; [reflexivity|]. split.
  { split; [repeat split|]. unfold outputs. cbn [resetHorizontalVelocityTo setRst setOut setEV o_buf].
    rewrite (contents_map_all zero_out) by exact HI. apply Forall2_map. intros x. repeat split. }
  repeat split.
Qed.
(** C23, vertical velocity (also the separate vertical output channel) *)
Theorem C23_vertical_velocity_reset : forall (new : T) (s : ost T), ready s ->
  let s' := resetVerticalVelocityTo new s in
  let d := velD_change (o_rst s') in
  e_v s' 2 = new /\ d = ssub new (e_v s 2) /\ (forall k, k < 2 -> e_v s' k = e_v s k) /\ e_p s' = e_p s /\ e_q s' = e_q s /\
  moved same (shift_z d) same s s' /\
  vert_moved (fun v => sadd v d) same (w_new s) (w_new s') /\ Forall2 (vert_moved (fun v => sadd v d) same) (verticals s) (verticals s') /\
  velD_counter (o_rst s') = ((velD_counter (o_rst s) + 1) mod 256)%Z /\
  velNE_counter (o_rst s') = velNE_counter (o_rst s) /\ posNE_counter (o_rst s') = posNE_counter (o_rst s) /\
  posD_counter (o_rst s') = posD_counter (o_rst s) /\ quat_counter (o_rst s') = quat_counter (o_rst s).
Proof.
  intros new s [HI HW]. cbv zeta. split; [reflexivity|]. split; [reflexivity|]. split.
  { intros k Hk. cbn [resetVerticalVelocityTo setRst setOut setVert setEV e_v]. destruct (Nat.eqb_spec k 2); [lia|reflexivity]. }
  split; [reflexivity|]. split; [reflexivity|]. split.
  { split; [repeat split|]. unfold outputs. cbn [resetVerticalVelocityTo setRst setOut setVert setEV o_buf].
    rewrite (contents_map_all zero_out) by exact HI. apply Forall2_map. intros x. repeat split. }
  split; [repeat split|]. split; [|repeat split].
  unfold verticals. cbn [resetVerticalVelocityTo setRst setOut setVert setEV w_buf].
  rewrite (contents_map_all zero_vert) by exact HW. apply Forall2_map. intros x. repeat split.
Qed.
(** C23, horizontal position *)
Theorem C23_horizontal_position_reset : forall (new : Vec T) (s : ost T), ready s ->
  let s' := resetHorizontalPositionTo new s in
  let d := posNE_change (o_rst s') in
  (forall k, k < 2 -> e_p s' k = new k /\ d k = ssub (new k) (e_p s k)) /\
  e_p s' 2 = e_p s 2 /\ e_v s' = e_v s /\ e_q s' = e_q s /\
  moved same same (shift_xy d) s s' /\ w_new s' = w_new s /\ w_buf s' = w_buf s /\
  posNE_counter (o_rst s') = ((posNE_counter (o_rst s) + 1) mod 256)%Z /\
  velD_counter (o_rst s') = velD_counter (o_rst s) /\ velNE_counter (o_rst s') = velNE_counter (o_rst s) /\
  posD_counter (o_rst s') = posD_counter (o_rst s) /\ quat_counter (o_rst s') = quat_counter (o_rst s).
Proof.
  intros new s [HI HW]. cbv zeta. split.
  { intros k Hk. cbn [resetHorizontalPositionTo setRst setOut setEP e_p o_rst posNE_change]. destruct (Nat.ltb_spec k 2); [split; reflexivity|lia]. }
  split; [reflexivity|]. split; [reflexivity|]. split; [reflexivity|]. split.
  { split; [repeat split|]. unfold outputs. cbn [resetHorizontalPositionTo setRst setOut setEP o_buf].
    rewrite (contents_map_all zero_out) by exact HI. apply Forall2_map. intros x. repeat split. }
  repeat split.
Qed.
(** C23, vertical position.  The newest vertical-channel integral is the
    exception: it is overwritten with the new (delayed) state *)
Theorem C23_vertical_position_reset : forall (new : T) (s : ost T), ready s ->
  let s' := resetVerticalPositionTo new s in
  let d := posD_change (o_rst s') in
  e_p s' 2 = new /\ d = ssub new (e_p s 2) /\ (forall k, k < 2 -> e_p s' k = e_p s k) /\ e_v s' = e_v s /\ e_q s' = e_q s /\
  moved same same (shift_z d) s s' /\
  Forall2 (vert_moved same (fun v => sadd v d)) (verticals s) (verticals s') /\
  vert_moved same (fun _ => new) (w_new s) (w_new s') /\
  posD_counter (o_rst s') = ((posD_counter (o_rst s) + 1) mod 256)%Z /\
  velD_counter (o_rst s') = velD_counter (o_rst s) /\ velNE_counter (o_rst s') = velNE_counter (o_rst s) /\
  posNE_counter (o_rst s') = posNE_counter (o_rst s) /\ quat_counter (o_rst s') = quat_counter (o_rst s).
Proof.
  intros new s [HI HW]. cbv zeta. split; [reflexivity|]. split; [reflexivity|]. split.
  { intros k Hk. cbn [resetVerticalPositionTo setRst setOut setVert setEP e_p]. destruct (Nat.eqb_spec k 2); [lia|reflexivity]. }
  split; [reflexivity|]. split; [reflexivity|]. split.
  { split; [repeat split|]. unfold outputs. cbn [resetVerticalPositionTo setRst setOut setVert setEP o_buf].
    rewrite (contents_map_all zero_out) by exact HI. apply Forall2_map. intros x. repeat split. }
  split; [|split; [repeat split|repeat split]].
  unfold verticals. cbn [resetVerticalPositionTo setRst setOut setVert setEP w_buf].
  rewrite (contents_map_all zero_vert) by exact HW. apply Forall2_map. intros x. repeat split.
Qed.
(** C23, attitude: outputs are premultiplied by the published change if asked,
    left alone otherwise *)
Theorem C23_attitude_reset_outputs : forall (after : Vec T) (upd : bool) (s : ost T), ready s ->
  let s' := resetQuat after upd s in
  let d := quat_change (o_rst s') in
  e_q s' = after /\ e_v s' = e_v s /\ e_p s' = e_p s /\ w_new s' = w_new s /\ w_buf s' = w_buf s /\
  moved (if upd then qmulv d else same) same same s s' /\
  quat_counter (o_rst s') = ((quat_counter (o_rst s) + 1) mod 256)%Z /\
  velD_counter (o_rst s') = velD_counter (o_rst s) /\ velNE_counter (o_rst s') = velNE_counter (o_rst s) /\
  posNE_counter (o_rst s') = posNE_counter (o_rst s) /\ posD_counter (o_rst s') = posD_counter (o_rst s).
Proof.
  intros after upd s [HI HW]. cbv zeta. unfold resetQuat. destruct upd; cbn [setOut setRst setEQ e_q e_v e_p w_new w_buf].
  - split; [reflexivity|]. split; [reflexivity|]. split; [reflexivity|]. split; [reflexivity|]. split; [reflexivity|]. split; [|repeat split].
    split; [repeat split|]. unfold outputs. cbn [setOut setRst setEQ o_buf].
    rewrite (contents_map_all zero_out) by exact HI. apply Forall2_map. intros x. repeat split.
  - split; [reflexivity|]. split; [reflexivity|]. split; [reflexivity|]. split; [reflexivity|]. split; [reflexivity|]. split; [|repeat split].
    split; [repeat split|]. unfold outputs. cbn [setRst setEQ o_buf].
    induction (contents zero_out (o_buf s)); constructor; [repeat split|assumption].
Qed.
End Any.

(** C23, attitude, over the reals: the published change is the rotation from
    the old attitude to the new one, and relative attitudes of outputs are unchanged *)
Theorem C23_attitude_change_is_exact : forall (after : Vec R) (upd : bool) (s : ost R),
  qnorm2 (toQ after) = 1%R -> qnorm2 (toQ (e_q s)) = 1%R ->
  let d := toQ (quat_change (o_rst (resetQuat after upd s))) in
  qnorm2 d = 1%R /\ qmul d (toQ (e_q s)) = toQ after /\
  (forall p q : Vec R, qmul (qconj (qmul d (toQ p))) (qmul d (toQ q)) = qmul (qconj (toQ p)) (toQ q)).
Proof.
  intros after upd s H1 H2. destruct (quat_change_ok after upd s H1 H2) as (_ & A & B). cbv zeta. split; [exact A|]. split; [exact B|].
  intros p q. apply rel_attitude. exact A.
Qed.

(** a small concrete filter used below: buffer of 2, one stored output *)
Definition ex_new (v : R) : sample (outp R) := {| time_us := 20; payload := mkOut (fun k => if k =? 0 then 1%R else 0%R) (fun _ => v) (fun _ => 0%R) |}.
Definition ex_vert (x : R) : sample (overt R) := {| time_us := 20; payload := mkVert 0%R x 0%R |}.
Definition ex_obuf : ring (outp R) := match allocate zero_out 2 with Some b => push (ex_new 1) b | None => {| buffer := []; head := 0; tail := 0; size := 0; first_write := true |} end.
Definition ex_wbuf : ring (overt R) := match allocate zero_vert 2 with Some b => push (ex_vert 1) b | None => {| buffer := []; head := 0; tail := 0; size := 0; first_write := true |} end.
Definition ex_rst : rstat R := mkRst (fun _ => 0%R) 0 0%R 255 (fun _ => 0%R) 0 0%R 0 (fun _ => 0%R) 0.
Definition ex_q : Vec R := fun k => if k =? 0 then 1%R else 0%R.
Definition ex_s : ost R := mkO ex_q (fun _ => 0%R) (fun _ => 0%R) (fun _ => 0%R) (fun _ => 0%R)
  (ex_new 3) (ex_vert 2) ex_obuf ex_wbuf ex_rst ex_q (fun _ => 0%R) (fun _ => 0%R) (fun _ => 0%R) (fun _ => 0%R) 0%R.
Example ex_ready : ready ex_s.
Proof.
  split.
  - apply inv_push; [|unfold time_ok, two64; cbn; lia]. apply (inv_alloc zero_out 2); [lia|reflexivity].
  - apply inv_push; [|unfold time_ok, two64; cbn; lia]. apply (inv_alloc zero_vert 2); [lia|reflexivity].
Qed.
Example ex_outputs : length (outputs ex_s) = 1 /\ length (verticals ex_s) = 1. Proof. split; reflexivity. Qed.
Example ex_counter_wraps : velD_counter (o_rst (resetVerticalVelocityTo 7%R ex_s)) = 0%Z. Proof. reflexivity. Qed.
Example ex_unit : qnorm2 (toQ ex_q) = 1%R. Proof. unfold qnorm2, toQ, ex_q. cbn. ring. Qed.

(** C23, the defect: the newest vertical integral is not shifted by the published change *)
Theorem C23_vertical_integral_shift_refuted :
  ~ (forall (new : R) (s : ost R), ready s -> let s' := resetVerticalPositionTo new s in
     vi (payload (w_new s')) = (vi (payload (w_new s)) + posD_change (o_rst s'))%R).
Proof.
  intros H. specialize (H 5%R ex_s ex_ready). cbn in H. unfold ex_vert in H. cbn in H. lra.
Qed.
(** ... but the error vanishes at the next step in which the filter runs: the
    result is the same whatever the newest vertical integral [x] was, provided
    at least one output is already stored *)
Theorem C23_vertical_integral_error_is_transient : forall expq (l : list oop) (s0 : ost R) n i x,
  fresh s0 n -> Forall op_time_ok l -> op_time_ok (OStep i) -> i_updated i = true ->
  let s := orun expq l s0 in
  vhist s <> [] ->
  let a := calculateOutputStates expq i s in
  let b := calculateOutputStates expq i (setVI x s) in
  vhist b = vhist a /\ w_new b = w_new a /\ hist b = hist a /\ o_new b = o_new a.
Proof.
  intros expq l s0 n i x HF HL HT HU s HN. exact (vi_forgotten expq i s _ x (oinv_run expq l s0 led0 (oinv_fresh s0 n HF) HL) HT HU HN).
Qed.
Theorem C23_vertical_integral_error_is_carried : forall expq (s : ost R) i x, i_updated i = false ->
  calculateOutputStates expq i (setVI x s) = setVI (x + dpos_earth expq i s 2%nat)%R (calculateOutputStates expq i s).
Proof. intros expq s i x. apply vi_carried. Qed.

(** C23, the limit of the interface: when two resets of a kind happen between
    two reads, only the last change is published *)
Theorem C23_two_resets_publish_only_last_refuted :
  ~ (forall (a b : Vec R) (s : ost R), ready s ->
     let s' := resetHorizontalVelocityTo b (resetHorizontalVelocityTo a s) in
     forall k, k < 2 -> e_v s' k = (e_v s k + velNE_change (o_rst s') k)%R).
Proof.
  intros H. specialize (H (fun _ => 1%R) (fun _ => 3%R) ex_s ex_ready 0 ltac:(lia)). cbn in H. lra.
Qed.

(** ** C24: relative motion.  [orun l s0]: any sequence of predictor steps (with
    or without an update of the filter), of arbitrary changes of the filter's
    states, and of resets, after start with empty buffers of the same size.
    [lrun] accumulates the inertial increments of each step.  In every reachable
    state, each stored velocity (position) is the current one minus exactly
    the inertial increments since it was stored: no reset or correction alters
    differences between outputs. *)
Theorem C24_outputs_keep_inertial_differences : forall expq (l : list oop) (s0 : ost R) size,
  fresh s0 size -> Forall op_time_ok l ->
  let s := orun expq l s0 in let g := lrun expq l s0 led0 in
  length (hist s) <= length (at_v g) /\ length (vhist s) = length (hist s) /\
  (forall n x k, nth_error (hist s) n = Some x -> k < 3 ->
     (ov (payload (o_new s)) k - ov (payload x) k = tot_v g k - nth n (at_v g) (fun _ => 0) k)%R /\
     (op (payload (o_new s)) k - op (payload x) k = tot_p g k - nth n (at_p g) (fun _ => 0) k)%R) /\
  (forall n x, nth_error (vhist s) n = Some x ->
     (vv (payload (w_new s)) - vv (payload x) = tot_v g 2%nat - nth n (at_v g) (fun _ => 0) 2%nat)%R).
Proof.
  intros expq l s0 size HF HL s g. pose proof (oinv_run expq l s0 led0 (oinv_fresh s0 size HF) HL) as [A B C D E F G H I]. fold s g in A, B, C, D, E, F, G, H, I.
  split; [exact (proj1 F)|]. split; [exact (proj1 C)|]. split.
  - intros n x k Hx Hk. rewrite (G n x k Hx Hk), (H n x k Hx Hk). split; lra.
  - intros n x Hx. rewrite (I n x Hx). lra.
Qed.
(** the ledger itself: a step adds the rotated, bias and gravity corrected delta
    velocity and its trapezoidal integral, and resets add nothing *)
Theorem C24_ledger_is_inertial : forall expq i (s : ost R) g k, k < 3 ->
  let db := fun j => (i_dv i j - e_vb s j * (i_dt_imu_avg i / i_dt_ekf_avg i))%R in
  let g' := lstep expq (OStep i) s g in
  let dv := (tot_v g' k - tot_v g k)%R in
  dv = (dcmv (new_quat expq i s) k 0%nat * db 0%nat + dcmv (new_quat expq i s) k 1%nat * db 1%nat + dcmv (new_quat expq i s) k 2%nat * db 2%nat
        + (if k =? 2 then 980665 / 100000 * i_dvdt i else 0))%R /\
  (tot_p g' k - tot_p g k = (2 * ov (payload (o_new s)) k + dv) / 2 * i_dvdt i)%R /\
  (forall o, (forall j, o <> OStep j) -> lstep expq o s g = g).
Proof.
  intros expq i s g k Hk. cbv zeta. cbn [lstep].
  assert (E : dvel_earth expq i s k = (dcmv (new_quat expq i s) k 0%nat * (i_dv i 0%nat - e_vb s 0%nat * (i_dt_imu_avg i / i_dt_ekf_avg i)) + dcmv (new_quat expq i s) k 1%nat * (i_dv i 1%nat - e_vb s 1%nat * (i_dt_imu_avg i / i_dt_ekf_avg i)) + dcmv (new_quat expq i s) k 2%nat * (i_dv i 2%nat - e_vb s 2%nat * (i_dt_imu_avg i / i_dt_ekf_avg i))
        + (if k =? 2 then 980665 / 100000 * i_dvdt i else 0))%R).
  { unfold dvel_earth, mvec, dscale, szero. cbn [sadd ssub smul sdiv slit RScalar].
    destruct (k =? 2); lra. }
  split.
  { destruct (i_updated i); cbn [tot_v]; rewrite E; lra. }
  split.
  { assert (F : dpos_earth expq i s k = ((2 * ov (payload (o_new s)) k + dvel_earth expq i s k) / 2 * i_dvdt i)%R) by (unfold dpos_earth; lra).
    destruct (i_updated i); cbn [tot_v tot_p]; rewrite F; field. }
  intros o Ho. destruct o; try reflexivity. exfalso. exact (Ho i0 eq_refl).
Qed.
(** vertical channel: after a step in which the filter ran, integrals are the
    trapezoidal integrals of the stored velocities, oldest to newest *)
Theorem C24_vertical_channel_is_trapezoidal : forall expq (l : list oop) (s0 : ost R) size i,
  fresh s0 size -> Forall op_time_ok l -> op_time_ok (OStep i) -> i_updated i = true ->
  let s := orun expq (l ++ [OStep i]) s0 in
  forall n a b, nth_error (rev (vhist s)) n = Some a -> nth_error (rev (vhist s)) (Datatypes.S n) = Some b ->
  vi (payload b) = (vi (payload a) + (vv (payload a) + vv (payload b)) / 2 * vdt (payload b))%R.
Proof.
  intros expq l s0 size i HF HL HT HU. cbv zeta.
  assert (E : orun expq (l ++ [OStep i]) s0 = calculateOutputStates expq i (orun expq l s0)).
  { revert s0 HF. clear. induction l as [|o l IH] using rev_ind; intros; [reflexivity|].
    assert (R : forall l1 l2 s, orun expq (l1 ++ l2) s = orun expq l2 (orun expq l1 s)) by (induction l1; intros; cbn; auto). rewrite !R. reflexivity. }
  rewrite E. exact (step_trapezoid expq i _ _ (oinv_run expq l s0 led0 (oinv_fresh s0 size HF) HL) HT HU).
Qed.
(** alignment moves the oldest output onto the filter state and shifts all others alike *)
Theorem C24_alignment : forall (s : ost R), Inv zero_out (o_buf s) ->
  let od := payload (get_oldest zero_out (o_buf s)) in
  let s' := alignOutputFilter s in
  qnorm2 (toQ (e_q s)) = 1%R -> qnorm2 (toQ (oq od)) = 1%R ->
  let od' := payload (get_oldest zero_out (o_buf s')) in
  (forall k, ov od' k = e_v s k /\ op od' k = e_p s k) /\ toQ (oq od') = toQ (e_q s) /\
  o_new s' = get_newest zero_out (o_buf s') /\
  (forall k, exists dv dp, forall n x, nth_error (hist s) n = Some x -> exists y, nth_error (hist s') n = Some y /\
      ov (payload y) k = (ov (payload x) k + dv)%R /\ op (payload y) k = (op (payload x) k + dp)%R).
Proof. exact align_ok. Qed.

(** non-vacuity: a fresh state and a history with steps, a reset and an update *)
Definition ex_imu (t : Z) (dv : R) : imuin R := mkImu (fun _ => 0%R) (fun _ => dv) (1 / 100)%R (1 / 100)%R t true 0%Z (1 / 100)%R (1 / 100)%R (1 / 4)%R (1 / 4)%R.
Definition ex_fresh : ost R := mkO ex_q (fun _ => 0%R) (fun _ => 0%R) (fun _ => 0%R) (fun _ => 0%R)
  {| time_us := 0; payload := mkOut ex_q (fun _ => 0%R) (fun _ => 0%R) |} {| time_us := 0; payload := mkVert 0%R 0%R 0%R |}
  {| buffer := repeat (zero_sample zero_out) 3; head := 0; tail := 0; size := 3; first_write := true |}
  {| buffer := repeat (zero_sample zero_vert) 3; head := 0; tail := 0; size := 3; first_write := true |}
  ex_rst ex_q (fun _ => 0%R) (fun _ => 0%R) (fun _ => 0%R) (fun _ => 0%R) 0%R.
Example ex_is_fresh : fresh ex_fresh 3. Proof. split; [lia|]. split; [reflexivity|]. split; reflexivity. Qed.
Definition ex_ops : list oop := [OStep (ex_imu 10000 1); OStep (ex_imu 20000 2); OResetHVel (fun _ => 4%R); OStep (ex_imu 30000 1); OStep (ex_imu 40000 (-1))].
Example ex_ops_ok : Forall op_time_ok ex_ops. Proof. repeat constructor; unfold two64; cbn; lia. Qed.
Example ex_ops_len : length (hist (orun (fun _ => ex_q) ex_ops ex_fresh)) = 3 /\ length (vhist (orun (fun _ => ex_q) ex_ops ex_fresh)) = 3.
Proof. split; [unfold hist|unfold vhist]; rewrite contents_len; reflexivity. Qed.

(** ** C52: tracking.  A run of predictor steps at a constant filter interval
    with constant time constants, in which the filter state may do anything
    between steps.  [w n]: the filter's velocity change between updates n and
    n+1 minus the inertial increment at the fusion horizon.  If it is bounded by W
    the velocity error at the horizon is bounded by C rate^n + K W, where
    rate < 1 and K depend on the gain only *)
Definition horizon_vel_error expq imu eq ev ep eab evb (s0 : ost R) (n k : nat) : R := vel_err expq (imu n) (st expq imu eq ev ep eab evb s0 n) k.
Definition horizon_pos_error expq imu eq ev ep eab evb (s0 : ost R) (n k : nat) : R := pos_err expq (imu n) (st expq imu eq ev ep eab evb s0 n) k.
Definition vel_mismatch expq imu eq ev ep eab evb (s0 : ost R) (g0 : ledger) (n k : nat) : R :=
  let s := st expq imu eq ev ep eab evb s0 in let g := led expq imu eq ev ep eab evb s0 g0 in
  ((e_v (s (Datatypes.S n)) k - e_v (s n) k) - (old_v expq (imu (Datatypes.S n)) (s (Datatypes.S n)) (g (Datatypes.S n)) k - old_v expq (imu n) (s n) (g n) k))%R.
Definition pos_mismatch expq imu eq ev ep eab evb (s0 : ost R) (g0 : ledger) (n k : nat) : R :=
  let s := st expq imu eq ev ep eab evb s0 in let g := led expq imu eq ev ep eab evb s0 g0 in
  ((e_p (s (Datatypes.S n)) k - e_p (s n) k) - (old_p expq (imu (Datatypes.S n)) (s (Datatypes.S n)) (g (Datatypes.S n)) k - old_p expq (imu n) (s n) (g n) k))%R.

Theorem C52_velocity_tracking : forall expq imu eq ev ep eab evb (s0 : ost R) (l : list oop) size (s : ost R) (k : nat) dt tau W,
  fresh s0 size -> Forall op_time_ok l -> s = orun expq l s0 -> k < 3 -> (0 < dt <= 10)%R ->
  (forall n, op_time_ok (OStep (imu n)) /\ i_updated (imu n) = true /\ i_dt_ekf_avg (imu n) = dt /\ i_velTau (imu n) = tau) ->
  (forall n, Rabs (vel_mismatch expq imu eq ev ep eab evb s (lrun expq l s0 led0) n k) <= W)%R ->
  let g := (dt / sconstrain tau dt 10)%R in
  (0 < g <= 1)%R /\ (0 <= rate g < 1)%R /\
  exists C, (0 <= C)%R /\ forall n, (Rabs (horizon_vel_error expq imu eq ev ep eab evb s n k) <= C * rate g ^ n + dist_gain g * W)%R.
Proof.
  intros expq imu eq ev ep eab evb s0 l size s k dt tau W HF HL -> Hk Hdt HI HW g.
  pose proof (oinv_run expq l s0 led0 (oinv_fresh s0 size HF) HL) as H0.
  assert (HG : forall n, gain (imu n) (i_velTau (imu n)) = g).
  { intros n. destruct (HI n) as (_ & _ & E1 & E2). unfold gain. rewrite E1, E2. unfold g. cbn [sdiv slit RScalar]. replace (10 / 1)%R with 10%R by field. reflexivity. }
  assert (G0 : (0 < g <= 1)%R) by (rewrite <- (HG 0); apply gain_range; destruct (HI 0) as (_ & _ & -> & _); exact Hdt).
  split; [exact G0|]. split; [apply rate_bound; exact G0|].
  refine (error_bound g G0 _ (fun n => o_vint (st expq imu eq ev ep eab evb (orun expq l s0) n) k) _ W _ _ HW).
  - intros n. destruct (tracking_recursion expq imu eq ev ep eab evb _ _ H0 (fun n => proj1 (HI n)) (fun n => proj1 (proj2 (HI n))) n k Hk) as (A & _). exact A.
  - intros n. destruct (tracking_recursion expq imu eq ev ep eab evb _ _ H0 (fun n => proj1 (HI n)) (fun n => proj1 (proj2 (HI n))) n k Hk) as (_ & _ & B & _).
    cbv zeta in B. rewrite (HG n) in B. exact B.
Qed.
Theorem C52_position_tracking : forall expq imu eq ev ep eab evb (s0 : ost R) (l : list oop) size (s : ost R) (k : nat) dt tau W,
  fresh s0 size -> Forall op_time_ok l -> s = orun expq l s0 -> k < 3 -> (0 < dt <= 10)%R ->
  (forall n, op_time_ok (OStep (imu n)) /\ i_updated (imu n) = true /\ i_dt_ekf_avg (imu n) = dt /\ i_posTau (imu n) = tau) ->
  (forall n, Rabs (pos_mismatch expq imu eq ev ep eab evb s (lrun expq l s0 led0) n k) <= W)%R ->
  let g := (dt / sconstrain tau dt 10)%R in
  (0 < g <= 1)%R /\ (0 <= rate g < 1)%R /\
  exists C, (0 <= C)%R /\ forall n, (Rabs (horizon_pos_error expq imu eq ev ep eab evb s n k) <= C * rate g ^ n + dist_gain g * W)%R.
Proof.
  intros expq imu eq ev ep eab evb s0 l size s k dt tau W HF HL -> Hk Hdt HI HW g.
  pose proof (oinv_run expq l s0 led0 (oinv_fresh s0 size HF) HL) as H0.
  assert (HG : forall n, gain (imu n) (i_posTau (imu n)) = g).
  { intros n. destruct (HI n) as (_ & _ & E1 & E2). unfold gain. rewrite E1, E2. unfold g. cbn [sdiv slit RScalar]. replace (10 / 1)%R with 10%R by field. reflexivity. }
  assert (G0 : (0 < g <= 1)%R) by (rewrite <- (HG 0); apply gain_range; destruct (HI 0) as (_ & _ & -> & _); exact Hdt).
  split; [exact G0|]. split; [apply rate_bound; exact G0|].
  refine (error_bound g G0 _ (fun n => o_pint (st expq imu eq ev ep eab evb (orun expq l s0) n) k) _ W _ _ HW).
  - intros n. destruct (tracking_recursion expq imu eq ev ep eab evb _ _ H0 (fun n => proj1 (HI n)) (fun n => proj1 (proj2 (HI n))) n k Hk) as (_ & A & _). exact A.
  - intros n. destruct (tracking_recursion expq imu eq ev ep eab evb _ _ H0 (fun n => proj1 (HI n)) (fun n => proj1 (proj2 (HI n))) n k Hk) as (_ & _ & _ & B).
    cbv zeta in B. rewrite (HG n) in B. exact B.
Qed.

(** non-vacuity of C52: free fall, constant filter velocity 5 m/s north while the output starts at rest;
    the inertial increments along north are zero whatever the attitude does *)
Definition ex_run (n : nat) : imuin R := mkImu (fun _ => 0%R) (fun _ => 0%R) (1 / 100)%R (1 / 100)%R 20000%Z true 0%Z (1 / 100)%R (1 / 100)%R (1 / 4)%R (1 / 4)%R.
Definition zv : nat -> Vec R := fun _ _ => 0%R.
Definition five : nat -> Vec R := fun _ _ => 5%R.
Definition ex_five : ost R := setEkf ex_q (fun _ => 5%R) (fun _ => 0%R) (fun _ => 0%R) (fun _ => 0%R) ex_fresh.
Example ex_five_fresh : fresh ex_five 3. Proof. exact ex_is_fresh. Qed.
Lemma ex_vb expq n : e_vb (st expq ex_run zv five zv zv zv ex_five n) = (fun _ => 0%R). Proof. destruct n; reflexivity. Qed.
Lemma ex_ev expq n k : e_v (st expq ex_run zv five zv zv zv ex_five n) k = 5%R. Proof. destruct n; reflexivity. Qed.
Lemma ex_dv expq n : dvel_earth expq (ex_run n) (st expq ex_run zv five zv zv zv ex_five n) 0 = 0%R.
Proof. unfold dvel_earth. rewrite ex_vb. unfold mvec, szero, dscale. cbn [Nat.eqb ex_run i_dv i_dt_imu_avg i_dt_ekf_avg sadd ssub smul sdiv slit RScalar]. lra. Qed.
Lemma ex_led expq n : let g := led expq ex_run zv five zv zv zv ex_five led0 n in tot_v g 0%nat = 0%R /\ (forall m, nth m (at_v g) (fun _ => 0%R) 0%nat = 0%R).
Proof.
  cbv zeta. induction n as [|n [IH1 IH2]]; cbn [led].
  - split; [reflexivity|]. intros [|m]; reflexivity.
  - cbn [lstep ex_run i_updated tot_v at_v]. fold (ex_run n). rewrite ex_dv, IH1. split; [lra|].
    intros [|m]; cbn [nth]; [rewrite ex_dv, IH1; lra|apply IH2].
Qed.
Example C52_nonvacuous : forall expq n, (Rabs (vel_mismatch expq ex_run zv five zv zv zv ex_five (lrun expq [] ex_five led0) n 0) <= 0)%R.
Proof.
  intros expq n. unfold vel_mismatch. cbv zeta. rewrite !ex_ev. cbn [lrun]. unfold old_v.
  change (lstep expq (OStep (ex_run (Datatypes.S n))) (st expq ex_run zv five zv zv zv ex_five (Datatypes.S n)) (led expq ex_run zv five zv zv zv ex_five led0 (Datatypes.S n)))
    with (led expq ex_run zv five zv zv zv ex_five led0 (Datatypes.S (Datatypes.S n))).
  change (lstep expq (OStep (ex_run n)) (st expq ex_run zv five zv zv zv ex_five n) (led expq ex_run zv five zv zv zv ex_five led0 n))
    with (led expq ex_run zv five zv zv zv ex_five led0 (Datatypes.S n)).
  rewrite (proj2 (ex_led expq _)), (proj2 (ex_led expq _)).
  replace (5 - 5 - (0 - 0))%R with 0%R by ring. rewrite Rabs_R0. lra.
Qed.
Example C52_nonvacuous_run : forall n, op_time_ok (OStep (ex_run n)) /\ i_updated (ex_run n) = true.
Proof. intros n. cbn. unfold two64. split; [lia|reflexivity]. Qed.
(** ... and the initial error is not zero *)
Example C52_nontrivial : forall expq, horizon_vel_error expq ex_run zv five zv zv zv ex_five 0 0 = 5%R.
Proof.
  intros expq. unfold horizon_vel_error. cbn [st]. rewrite (proj1 (err_offset expq (ex_run 0) ex_five led0 0 (oinv_fresh _ 3 ex_five_fresh) (proj1 (C52_nonvacuous_run 0)) eq_refl ltac:(lia))).
  pose proof (proj2 (ex_led expq 1)) as L. cbn [led] in L. unfold old_v. rewrite L. cbn. lra.
Qed.

Print Assumptions C23_horizontal_velocity_reset.
Print Assumptions C23_vertical_velocity_reset.
Print Assumptions C23_horizontal_position_reset.
Print Assumptions C23_vertical_position_reset.
Print Assumptions C23_attitude_reset_outputs.
Print Assumptions C23_attitude_change_is_exact.
Print Assumptions C23_vertical_integral_shift_refuted.
Print Assumptions C23_vertical_integral_error_is_transient.
Print Assumptions C23_vertical_integral_error_is_carried.
Print Assumptions C23_two_resets_publish_only_last_refuted.
Print Assumptions C24_outputs_keep_inertial_differences.
Print Assumptions C24_ledger_is_inertial.
Print Assumptions C24_vertical_channel_is_trapezoidal.
Print Assumptions C24_alignment.
Print Assumptions C52_velocity_tracking.
Print Assumptions C52_position_tracking.

(** * Effect of the resets on state, history and published record *)
From Coq Require Import Reals Lra PeanoNat.
From Verif Require Import CBase Scalar RingBufferModel RingBufferSpec RingBufferProofs RealGeom OutputModel OutputProofs OutputHist.
Open Scope nat_scope.

(** what a reset may do, in any arithmetic: every history entry and the newest
    output are transformed by the same function [f] *)
Definition shifted {T} {S : Scalar T} (f : outp T -> outp T) (s s' : ost T) : Prop :=
  payload (o_new s') = f (payload (o_new s)) /\ time_us (o_new s') = time_us (o_new s) /\
  (Inv zero_out (o_buf s) -> contents zero_out (o_buf s') = map (smap f) (contents zero_out (o_buf s))).
Definition vshifted {T} {S : Scalar T} (f : overt T -> overt T) (s s' : ost T) : Prop :=
  (Inv zero_vert (w_buf s) -> contents zero_vert (w_buf s') = map (smap f) (contents zero_vert (w_buf s))).

Section G.
Context {T : Type} {S : Scalar T}.
Lemma shifted_map (f : outp T -> outp T) (s s' : ost T) : o_new s' = smap f (o_new s) -> o_buf s' = map_all f (o_buf s) -> shifted f s s'.
Proof. intros E1 E2. split; [rewrite E1; reflexivity|]. split; [rewrite E1; reflexivity|]. intros HI. rewrite E2. apply (contents_map_all zero_out f); exact HI. Qed.
Lemma vshifted_map (f : overt T -> overt T) (s s' : ost T) : w_buf s' = map_all f (w_buf s) -> vshifted f s s'.
Proof. intros E2 HI. rewrite E2. apply (contents_map_all zero_vert f); exact HI. Qed.
End G.

(** ** quaternions over the reals *)
Definition toQ (q : Vec R) : Q4 := mkQ (q 0) (q 1) (q 2) (q 3).
Lemma toQ_mul p q : toQ (qmulv p q) = qmul (toQ p) (toQ q).
Proof. unfold toQ, qmulv, qmul. cbn [q0 q1 q2 q3]. cbn [sadd ssub smul RScalar]. reflexivity. Qed.
Lemma qdot_R (q : Vec R) : qdot q q = qnorm2 (toQ q).
Proof. unfold qdot, qnorm2, toQ, szero. cbn [q0 q1 q2 q3]. cbn [sadd smul slit RScalar]. field. Qed.
Lemma toQ_inv q : toQ (qinvv q) = qinv (toQ q).
Proof.
  unfold qinvv. rewrite qdot_R. unfold toQ at 1. unfold qinv, qscale, qconj, toQ. cbn [q0 q1 q2 q3]. cbn [sdiv sopp RScalar].
  f_equal; unfold Rdiv; ring.
Qed.
Lemma toQ_norm q : toQ (qnormv q) = qnormalize (toQ q).
Proof.
  unfold qnormv. rewrite qdot_R. unfold toQ at 1. unfold qnormalize, qscale, toQ. cbn [q0 q1 q2 q3]. cbn [sdiv ssqrt RScalar]. f_equal; unfold Rdiv; ring.
Qed.
Lemma qconj_mul q : qnorm2 q = 1%R -> qmul (qconj q) q = qone.
Proof.
  intros H. destruct q as [a b c d]. unfold qnorm2, qmul, qconj, qone in *. cbn [q0 q1 q2 q3] in *. f_equal; [rewrite <- H|..]; ring.
Qed.
(** the published quaternion change takes the old attitude to the new one *)
Lemma quat_change_ok (after : Vec R) u (s : ost R) : qnorm2 (toQ after) = 1%R -> qnorm2 (toQ (e_q s)) = 1%R ->
  let d := toQ (quat_change (o_rst (resetQuat after u s))) in
  d = qmul (toQ after) (qconj (toQ (e_q s))) /\ qnorm2 d = 1%R /\ qmul d (toQ (e_q s)) = toQ after.
Proof.
  intros H1 H2. cbv zeta.
  assert (E : toQ (quat_change (o_rst (resetQuat after u s))) = qmul (toQ after) (qconj (toQ (e_q s)))).
  { unfold resetQuat. destruct u; cbn [setOut setRst setEQ o_rst quat_change];
    (rewrite toQ_norm, toQ_mul, toQ_inv, qinv_unit by exact H2; apply qnormalize_unit; rewrite qnorm2_mul, qnorm2_conj, H1, H2; ring). }
  rewrite E. split; [reflexivity|]. split; [rewrite qnorm2_mul, qnorm2_conj, H1, H2; ring|].
  rewrite <- qmul_assoc, qconj_mul, qmul_1_r by exact H2. reflexivity.
Qed.
(** left multiplication by a unit quaternion keeps relative attitudes *)
Lemma rel_attitude d p q : qnorm2 d = 1%R -> qmul (qconj (qmul d p)) (qmul d q) = qmul (qconj p) q.
Proof.
  intros H. assert (E : qconj (qmul d p) = qmul (qconj p) (qconj d)) by (destruct d as [d0 d1 d2 d3], p as [p0 p1 p2 p3]; unfold qconj, qmul; cbn [q0 q1 q2 q3]; f_equal; ring).
  rewrite E, <- qmul_assoc, (qmul_assoc (qconj d)), qconj_mul, qmul_1_l by exact H. reflexivity.
Qed.

(** alignOutputFilter: the oldest stored output equals the filter state *)
Lemma oldest_map {A} (z : A) (f : A -> A) (b : ring A) : Inv z b -> get_oldest z (map_all f b) = smap f (get_oldest z b).
Proof.
  intros [H1 H2 H3 H4 H5 H6]. unfold get_oldest, load. cbn [map_all tail buffer].
  rewrite (nth_indep _ _ (smap f (zero_sample z))) by (rewrite map_length; lia).
  change (fun s : sample A => {| time_us := time_us s; payload := f (payload s) |}) with (smap f). apply map_nth.
Qed.
Lemma align_ok (s : ost R) : Inv zero_out (o_buf s) ->
  let od := payload (get_oldest zero_out (o_buf s)) in
  let s' := alignOutputFilter s in
  qnorm2 (toQ (e_q s)) = 1%R -> qnorm2 (toQ (oq od)) = 1%R ->
  let od' := payload (get_oldest zero_out (o_buf s')) in
  (forall k, ov od' k = e_v s k /\ op od' k = e_p s k) /\ toQ (oq od') = toQ (e_q s) /\
  o_new s' = get_newest zero_out (o_buf s') /\
  (forall k, exists dv dp, forall n x, nth_error (hist s) n = Some x -> exists y, nth_error (hist s') n = Some y /\
      ov (payload y) k = (ov (payload x) k + dv)%R /\ op (payload y) k = (op (payload x) k + dp)%R).
Proof.
  intros HI od s' U1 U2 od'. unfold od', s', alignOutputFilter. cbn [setOut o_buf o_new]. rewrite oldest_map by exact HI. rewrite smap_payload. fold od. cbn [ov op oq].
  split.
  { intros k. unfold vplus, vminus. cbn [sadd ssub RScalar]. split; lra. }
  split.
  { rewrite toQ_norm, toQ_mul, toQ_norm, toQ_mul, toQ_inv, qinv_unit by exact U2.
    assert (N : qnorm2 (qmul (toQ (e_q s)) (qconj (toQ (oq od)))) = 1%R) by (rewrite qnorm2_mul, qnorm2_conj, U1, U2; ring).
    rewrite (qnormalize_unit _ N). rewrite <- qmul_assoc, qconj_mul, qmul_1_r by exact U2. apply qnormalize_unit. exact U1. }
  split; [reflexivity|].
  intros k. exists (e_v s k - ov od k)%R, (e_p s k - op od k)%R. intros n x Hx. unfold hist. cbn [setOut o_buf].
  rewrite (contents_map_all zero_out) by exact HI. eexists. split; [apply map_nth_error; exact Hx|]. cbn [payload ov op]. split; reflexivity.
Qed.

(** ** the wrongly reset vertical integral has no lasting effect *)
Definition setVI (x : R) (s : ost R) : ost R := setVert (smap (fun w => mkVert (vv w) x (vdt w)) (w_new s)) (w_buf s) s.
Lemma vert_chain_vi corr l1 : forall p (a b : sample (overt R)), time_us a = time_us b -> vv (payload a) = vv (payload b) -> vdt (payload a) = vdt (payload b) ->
  vert_chain corr p (l1 ++ [a]) = vert_chain corr p (l1 ++ [b]).
Proof.
  induction l1 as [|y l IH]; intros p a b E1 E2 E3; cbn [app vert_chain].
  - rewrite E1, E2, E3. reflexivity.
  - cbv zeta. f_equal. apply IH; assumption.
Qed.
Lemma vert_spec_vi corr l1 (a b : sample (overt R)) : l1 <> [] -> time_us a = time_us b -> vv (payload a) = vv (payload b) -> vdt (payload a) = vdt (payload b) ->
  vert_spec corr (l1 ++ [a]) = vert_spec corr (l1 ++ [b]).
Proof. destruct l1 as [|y l]; intros H E1 E2 E3; [congruence|]. cbn [app vert_spec]. f_equal. apply vert_chain_vi; assumption. Qed.

Section V.
Variable expq : Vec R -> Vec R.
Notation zw := (zero_vert (T := R)).
(** contents of the vertical buffer and newest vertical output after a correction depend only on the contents before *)
Lemma vertc_ext corr (b1 b2 : ring (overt R)) : Inv zw b1 -> Inv zw b2 -> 2 <= size b1 -> 2 <= size b2 ->
  vert_spec corr (rev (contents zw b1)) = vert_spec corr (rev (contents zw b2)) -> contents zw (vertBuf corr b1) = contents zw (vertBuf corr b2).
Proof.
  intros I1 I2 S1 S2 E. rewrite <- (rev_involutive (contents zw (vertBuf corr b1))), <- (rev_involutive (contents zw (vertBuf corr b2))).
  rewrite !contents_vertBuf by assumption. rewrite E. reflexivity.
Qed.
Lemma newest_ext (b1 b2 : ring (overt R)) : Inv zw b1 -> Inv zw b2 -> first_write b1 = false -> first_write b2 = false ->
  contents zw b1 = contents zw b2 -> get_newest zw b1 = get_newest zw b2.
Proof. intros I1 I2 F1 F2 E. pose proof (newest_hd zw b1 I1 F1) as A. pose proof (newest_hd zw b2 I2 F2) as B. rewrite E in A. congruence. Qed.
Lemma oldest_ext (x y : sample (overt R)) (b : ring (overt R)) : Inv zw b -> time_ok x -> time_ok y -> 2 <= size b -> contents zw b <> [] ->
  get_oldest zw (push x b) = get_oldest zw (push y b).
Proof.
  intros HI TX TY HS HN. assert (IX : Inv zw (push x b)) by (apply inv_push; assumption). assert (IY : Inv zw (push y b)) by (apply inv_push; assumption).
  pose proof (oldest_last zw _ IX (push_fw x b)) as A. pose proof (oldest_last zw _ IY (push_fw y b)) as B.
  rewrite <- (contents_len zw) in A, B. rewrite (contents_push zw) in A, B by exact HI. unfold q_push in A, B. rewrite firstn_length in A, B. cbn [length] in A, B.
  destruct (contents zw b) as [|c l]; [congruence|]. cbn [length] in A, B. destruct (size b) as [|[|n]]; [lia|lia|].
  cbn [firstn] in A, B. replace (Init.Nat.min (Datatypes.S (Datatypes.S n)) (Datatypes.S (Datatypes.S (length l))) - 1) with (Datatypes.S (Init.Nat.min n (length l))) in A, B by lia.
  cbn [nth_error] in A, B. congruence.
Qed.
Lemma vi_forgotten i (s : ost R) g x : oinv s g -> op_time_ok (OStep i) -> i_updated i = true -> vhist s <> [] ->
  let a := calculateOutputStates expq i s in let b := calculateOutputStates expq i (setVI x s) in
  vhist b = vhist a /\ w_new b = w_new a /\ hist b = hist a /\ o_new b = o_new a.
Proof.
  intros HI HT HU HN. cbv zeta. unfold calculateOutputStates. rewrite HU.
  pose proof (oinv_propagate expq i s g HI) as HP.
  assert (HI2 : oinv (setVI x s) g).
  { destruct HI as [A B C D E F G H I]. constructor; assumption. }
  pose proof (oinv_propagate expq i (setVI x s) g HI2) as HP2.
  set (p1 := propagate expq i s) in *. set (p2 := propagate expq i (setVI x s)) in *.
  assert (Eo : o_new p2 = o_new p1 /\ o_buf p2 = o_buf p1 /\ w_buf p2 = w_buf p1 /\ e_q p2 = e_q p1 /\ e_v p2 = e_v p1 /\ e_p p2 = e_p p1 /\ o_vint p2 = o_vint p1 /\ o_pint p2 = o_pint p1)
    by (repeat split; reflexivity).
  assert (Ew : time_us (w_new p2) = time_us (w_new p1) /\ vv (payload (w_new p2)) = vv (payload (w_new p1)) /\ vdt (payload (w_new p2)) = vdt (payload (w_new p1)))
    by (repeat split; reflexivity).
  destruct Eo as (E1 & E2 & E3 & E4 & E5 & E6 & E7 & E8). destruct Ew as (W1 & W2 & W3).
  assert (Bw : Inv zw (w_buf p1)) by (destruct HP; assumption).
  assert (S2 : 2 <= size (w_buf p1)) by (destruct HP; assumption).
  assert (T1 : time_ok (w_new p1)) by (destruct HP; assumption). assert (T2 : time_ok (w_new p2)) by (destruct HP2; assumption).
  assert (N : contents zw (w_buf p1) <> []) by exact HN.
  assert (EC : forall corr, contents zw (vertBuf corr (push (w_new p2) (w_buf p1))) = contents zw (vertBuf corr (push (w_new p1) (w_buf p1)))).
  { intros corr. apply vertc_ext; [apply inv_push; assumption|apply inv_push; assumption|rewrite push_size; exact S2|rewrite push_size; exact S2|].
    rewrite !(contents_push zw) by exact Bw. unfold q_push. destruct (size (w_buf p1)) as [|[|n]]; [lia|lia|]. cbn [firstn].
    destruct (contents zw (w_buf p1)) as [|c l]; [congruence|]. cbn [firstn rev]. apply vert_spec_vi; try assumption. destruct (rev (firstn n l)); discriminate. }
  assert (EO : get_oldest zw (push (w_new p2) (w_buf p1)) = get_oldest zw (push (w_new p1) (w_buf p1))) by (apply oldest_ext; assumption).
  unfold observe, vhist, hist. cbn [applyCorrection applyVertCorrection setVert setOut o_buf w_buf o_new w_new e_v e_p e_q o_vint o_pint].
  rewrite E1, E2, E3, E5, E6, E7, E8, EO.
  split; [apply EC|]. split; [|split; reflexivity].
  match goal with |- context [vertBuf ?c _] => set (corr := c) end.
  rewrite (newest_ext (vertBuf corr (push (w_new p2) (w_buf p1))) (vertBuf corr (push (w_new p1) (w_buf p1)))); [reflexivity| | | | |apply EC].
  - apply inv_vertBuf. apply inv_push; assumption.
  - apply inv_vertBuf. apply inv_push; assumption.
  - apply push_fw.
  - apply push_fw.
Qed.
(** without an update the wrong integral is carried along *)
Lemma vi_carried i (s : ost R) x : i_updated i = false ->
  calculateOutputStates expq i (setVI x s) = setVI (x + dpos_earth expq i s 2%nat)%R (calculateOutputStates expq i s).
Proof. intros HU. unfold calculateOutputStates. rewrite HU. unfold setVI, propagate, setVert, smap. cbn [w_new payload time_us e_q e_v e_p e_ab e_vb o_new o_buf w_buf o_rst o_Rq o_dacorr o_vint o_pint o_track o_yaw_delta]. reflexivity. Qed.
End V.

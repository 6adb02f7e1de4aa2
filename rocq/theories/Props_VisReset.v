(** * C98: a vision update that resets position or velocity uses an innovation from before the reset *)
From Coq Require Import Reals Lra Lia List ZArith Bool FunctionalExtensionality.
From Verif Require Import CBase Scalar CovPredGen CovModel CovSpec PsdLib CovProofs CovProofsR CovUpdProofs CovWitness Props_Cov Props_Cov2 VelPosModel BatchProofs Props_Batch FusionModel ObsModel.
Open Scope R_scope.

(** ** Specification *)
(** states n.. (n + w) become q, uncorrelated with everything else, with variances d; other states and variances stay *)
Definition reset_block (n w : nat) (q d : nat -> R) (v v' : vpst R) : Prop :=
  (forall k, (k < w)%nat -> x_st (v_c v') (n + k)%nat = q k) /\
  (forall k, (k < w)%nat -> cP (v_s v') (n + k)%nat (n + k)%nat = d k) /\
  (forall k j, (k < w)%nat -> (j < 24)%nat -> j <> (n + k)%nat -> cP (v_s v') (n + k)%nat j = 0 /\ cP (v_s v') j (n + k)%nat = 0).
(** the measured position in the frame of the filter, and the variance the observation is given *)
Definition vision_position (rot : bool) (E : nat -> nat -> R) (s : evS R) : nat -> R :=
  fun k => if rot then (mvec E (ev_p s) k : R) else ev_p s k.
Definition position_var (rot : bool) (E : nat -> nat -> R) (s : evS R) (k : nat) : R :=
  Rmax (if rot then (rotVar E (ev_pvar s) k k : R) else (ev_pvar s k : R)) (1 / 100 * (1 / 100)).

Lemma pos_obs (rot : bool) (E : Mat R) (s : evS R) (k : nat) : (k < 2)%nat ->
  sfmax ((if rot then rotVar E (ev_pvar s) else mdiag (ev_pvar s)) k k) (sq (slit 1 100)) = position_var rot E s k.
Proof.
  intros Hk. unfold position_var. cbn [sfmax RScalar]. unfold sq. rewrite slitR. cbn [smul RScalar]. destruct rot; [reflexivity|]. unfold mdiag. rewrite Nat.eqb_refl. reflexivity.
Qed.
Lemma pv_pos (rot : bool) (E : Mat R) (s : evS R) (k : nat) : 0 < position_var rot E s k.
Proof. unfold position_var. eapply Rlt_le_trans; [|apply Rmax_r]. lra. Qed.
Lemma pos_fuse (rot tv : bool) (resetVel resetPos : evS R -> vpst R -> vpst R) (gate : R) (E Re : Mat R) (off : Vec R) (s0 : evS R) (m : evmem R) (v0 : vpst R) :
  let s := evPosCorrect Re off s0 in let v := setOdom false v0 in let v1 := resetPos s (if tv then resetVel s v else v) in
  snd (evPosFuse false rot true tv resetVel resetPos gate E Re off s0 m v0) =
  fuseHorizontalPosition false (xp v0 0%nat - vision_position rot E s 0%nat) (xp v0 1%nat - vision_position rot E s 1%nat) (Rmax gate 1)
    (position_var rot E s 0%nat) (position_var rot E s 1%nat) v1.
Proof.
  cbv zeta. unfold evPosFuse. cbn [snd evAbsObs]. rewrite <- !pos_obs by lia. cbn [sfmax RScalar]. rewrite !slitR. replace (1 / 1) with 1 by lra. destruct rot; reflexivity.
Qed.

Lemma sleR_true (a b : R) : sle a b = true <-> a <= b.
Proof. cbn. destruct (Rle_dec a b); split; try congruence; auto; lra. Qed.
(** ** The position *)
(** after seven seconds without position aiding a vision sample moves the position onto the measurement and then corrects it
    by the gain times the difference from before the move: the estimate ends on the other side of the measurement *)
Theorem C98_position_overshoots : forall (rot tv : bool) (resetVel resetPos : evS R -> vpst R -> vpst R) (gate : R) (E Re : Mat R) (off : Vec R) (s0 : evS R) (m : evmem R) (v0 : vpst R),
  let s := evPosCorrect Re off s0 in let v := setOdom false v0 in let v1 := resetPos s (if tv then resetVel s v else v) in
  let q := vision_position rot E s in let d := ev_pvar s in let o := position_var rot E s in
  (forall w, reset_block 7 2 q d w (resetPos s w)) -> (forall k, (k < 2)%nat -> 0 <= d k) ->
  let P := cP (v_s v1) in clear_of_limits (v_c v1) (v_s v1) (error_cov P (gain0 P (o 0%nat) 7) (gain1 P (o 0%nat) (o 1%nat) 7 8) (o 0%nat) (o 1%nat) 7 8) ->
  let r := snd (evPosFuse false rot true tv resetVel resetPos gate E Re off s0 m v0) in r_ok r = true ->
  forall k, (k < 2)%nat -> xp (r_v r) k - q k = - (d k / (d k + o k)) * (xp v0 k - q k).
Proof.
  intros until v0. cbv zeta. intros HR HD W. rewrite pos_fuse. cbv zeta. set (s := evPosCorrect Re off s0) in *.
  match goal with |- context [fuseHorizontalPosition _ _ _ _ _ _ ?x] => set (v1 := x) in * end.
  set (q := vision_position rot E s) in *. set (o := position_var rot E s) in *. intros OK.
  assert (O : forall k, 0 < o k) by (intro; apply pv_pos).
  assert (RB : reset_block 7 2 q (ev_pvar s) (if tv then resetVel s (setOdom false v0) else setOdom false v0) v1) by apply HR.
  pose proof (C92_position_pair v1 false (xp v0 0%nat - q 0%nat) (xp v0 1%nat - q 1%nat) (Rmax gate 1) (o 0%nat) (o 1%nat) (O _) (O _)) as T. cbv zeta in T.
  specialize (T W OK). destruct T as [X _]. destruct RB as (Q & D & Z).
  destruct (Z 0%nat 8%nat ltac:(lia) ltac:(lia) ltac:(lia)) as [Z1 Z2]. cbn [Nat.add] in Z1, Z2.
  pose proof (D 0%nat ltac:(lia)) as D0. pose proof (D 1%nat ltac:(lia)) as D1. pose proof (Q 0%nat ltac:(lia)) as Q0. pose proof (Q 1%nat ltac:(lia)) as Q1. cbn [Nat.add] in D0, D1, Q0, Q1.
  pose proof (HD 0%nat ltac:(lia)) as H0. pose proof (HD 1%nat ltac:(lia)) as H1. pose proof (O 0%nat) as O0. pose proof (O 1%nat) as O1.
  intros [|[|k]] Hk; [| |lia]; unfold xp at 1; cbn [Nat.add]; rewrite X by lia; rewrite ?Q0, ?Q1; unfold gain1, gain0; rewrite ?D0, ?D1, ?Z1, ?Z2; field; lra.
Qed.
(** with unrotated axes and a variance of at least (1 cm)^2 the error to the measurement is halved and reversed *)
Theorem C98_position_half : forall (tv : bool) (resetVel resetPos : evS R -> vpst R -> vpst R) (gate : R) (E Re : Mat R) (off : Vec R) (s0 : evS R) (m : evmem R) (v0 : vpst R),
  let s := evPosCorrect Re off s0 in let v := setOdom false v0 in let v1 := resetPos s (if tv then resetVel s v else v) in
  let o := position_var false E s in
  (forall w, reset_block 7 2 (ev_p s) (ev_pvar s) w (resetPos s w)) -> (forall k, (k < 2)%nat -> 1 / 10000 <= ev_pvar s k) ->
  let P := cP (v_s v1) in clear_of_limits (v_c v1) (v_s v1) (error_cov P (gain0 P (o 0%nat) 7) (gain1 P (o 0%nat) (o 1%nat) 7 8) (o 0%nat) (o 1%nat) 7 8) ->
  let r := snd (evPosFuse false false true tv resetVel resetPos gate E Re off s0 m v0) in r_ok r = true ->
  forall k, (k < 2)%nat -> xp (r_v r) k = ev_p s k - (xp v0 k - ev_p s k) / 2.
Proof.
  intros until v0. cbv zeta. intros HR HD W OK k Hk.
  assert (HD' : forall k, (k < 2)%nat -> 0 <= ev_pvar (evPosCorrect Re off s0) k) by (intros j Hj; specialize (HD j Hj); lra).
  pose proof (C98_position_overshoots false tv resetVel resetPos gate E Re off s0 m v0 HR HD' W OK k Hk) as X.
  assert (PV : position_var false E (evPosCorrect Re off s0) k = ev_pvar (evPosCorrect Re off s0) k).
  { unfold position_var. apply Rmax_left. specialize (HD k Hk). lra. }
  rewrite PV in X. unfold vision_position in X. specialize (HD k Hk). set (e := ev_pvar (evPosCorrect Re off s0) k) in *.
  replace (e / (e + e)) with (1 / 2) in X by (field; lra). lra.
Qed.
(** whether the sample counts as good is also decided by the difference from before the move; if it does not, the position
    sits exactly on a measurement that is reported as rejected, and the time of the last good position is not advanced, so
    the next sample moves the position again *)
Theorem C98_position_accepted_iff : forall (rot tv : bool) (resetVel resetPos : evS R -> vpst R -> vpst R) (gate : R) (E Re : Mat R) (off : Vec R) (s0 : evS R) (m : evmem R) (v0 : vpst R),
  let s := evPosCorrect Re off s0 in let q := vision_position rot E s in let d := ev_pvar s in
  (forall w, reset_block 7 2 q d w (resetPos s w)) -> (forall k, (k < 2)%nat -> 0 <= d k) ->
  let r := snd (evPosFuse false rot true tv resetVel resetPos gate E Re off s0 m v0) in
  r_ok r = true <-> forall k, (k < 2)%nat -> (xp v0 k - q k) ^ 2 <= Rmax gate 1 ^ 2 * (d k + position_var rot E s k).
Proof.
  intros until v0. cbv zeta. intros HR HD. rewrite pos_fuse. cbv zeta. set (s := evPosCorrect Re off s0) in *.
  match goal with |- context [fuseHorizontalPosition _ _ _ _ _ _ ?x] => set (v1 := x) in * end.
  set (q := vision_position rot E s) in *. set (o := position_var rot E s) in *.
  assert (O : forall k, 0 < o k) by (intro; apply pv_pos). pose proof (Rmax_r gate 1) as G. set (g := Rmax gate 1) in *.
  assert (RB : reset_block 7 2 q (ev_pvar s) (if tv then resetVel s (setOdom false v0) else setOdom false v0) v1) by apply HR.
  destruct RB as (_ & D & _). pose proof (D 0%nat ltac:(lia)) as D0. pose proof (D 1%nat ltac:(lia)) as D1. cbn [Nat.add] in D0, D1.
  pose proof (HD 0%nat ltac:(lia)) as H0. pose proof (HD 1%nat ltac:(lia)) as H1. pose proof (O 0%nat) as O0. pose proof (O 1%nat) as O1.
  assert (R : forall i p, 0 < p -> ratio i g p <= 1 <-> i ^ 2 <= g ^ 2 * p).
  { intros i p Hp. unfold ratio, sq. cbn [smul sdiv RScalar]. assert (GP : 0 < g * g * p) by (apply Rmult_lt_0_compat; [nra|exact Hp]). split; intros H.
    - apply (Rmult_le_compat_r (g * g * p)) in H; [|lra]. replace (i * i / (g * g * p) * (g * g * p)) with (i * i) in H by (field; split; [lra|nra]). nra.
    - apply Rmult_le_reg_r with (g * g * p); [exact GP|]. replace (i * i / (g * g * p) * (g * g * p)) with (i * i) by (field; split; [lra|nra]). nra. }
  unfold fuseHorizontalPosition. cbv zeta. rewrite D0, D1. cbn [sadd sfmax RScalar].
  pose proof (R (xp v0 0%nat - q 0%nat) (ev_pvar s 0%nat + o 0%nat) ltac:(lra)) as R0. pose proof (R (xp v0 1%nat - q 1%nat) (ev_pvar s 1%nat + o 1%nat) ltac:(lra)) as R1.
  destruct (sle _ _) eqn:L; cbn [orb andb r_ok].
  - split; [intros _|reflexivity]. apply sleR_true in L. rewrite slitR in L. intros [|[|k]] Hk; [apply R0|apply R1|lia]; (eapply Rle_trans; [|eapply Rle_trans; [exact L|lra]]); [apply Rmax_l|apply Rmax_r].
  - split; [discriminate|]. intros H. exfalso. assert (sle (Rmax (ratio (xp v0 0%nat - q 0%nat) g (ev_pvar s 0%nat + o 0%nat)) (ratio (xp v0 1%nat - q 1%nat) g (ev_pvar s 1%nat + o 1%nat))) (slit 1 1) = true) as C.
    { apply sleR_true. rewrite slitR. apply Rmax_lub; [assert (X := proj2 R0 (H 0%nat ltac:(lia)))|assert (X := proj2 R1 (H 1%nat ltac:(lia)))]; lra. }
    exact (Bool.diff_false_true (eq_trans (eq_sym L) C)).
Qed.
Theorem C98_position_rejected : forall (rot tv : bool) (resetVel resetPos : evS R -> vpst R -> vpst R) (gate : R) (E Re : Mat R) (off : Vec R) (s0 : evS R) (m : evmem R) (v0 : vpst R),
  let s := evPosCorrect Re off s0 in let q := vision_position rot E s in let v := setOdom false v0 in
  (forall w, reset_block 7 2 q (ev_pvar s) w (resetPos s w) /\ v_t_hpos (resetPos s w) = v_t_hpos w) -> (forall w, v_t_hpos (resetVel s w) = v_t_hpos w) ->
  let r := snd (evPosFuse false rot true tv resetVel resetPos gate E Re off s0 m v0) in r_ok r = false ->
  (forall k, (k < 2)%nat -> xp (r_v r) k = q k) /\ v_rej_hpos (r_v r) = true /\ v_t_hpos (r_v r) = v_t_hpos v0.
Proof.
  intros until v0. cbv zeta. intros HR HV. rewrite pos_fuse. cbv zeta. set (s := evPosCorrect Re off s0) in *.
  set (w := if tv then resetVel s (setOdom false v0) else setOdom false v0). destruct (HR w) as [RB T]. set (v1 := resetPos s w) in *.
  assert (TW : v_t_hpos w = v_t_hpos v0) by (unfold w; destruct tv; [rewrite HV|]; reflexivity).
  unfold fuseHorizontalPosition. cbv zeta. destruct (sle _ _); cbn [orb andb r_ok r_v]; [discriminate|]. intros _.
  split; [exact (proj1 RB)|]. cbn [v_rej_hpos v_t_hpos]. split; [reflexivity|]. rewrite T. exact TW.
Qed.

(** ** Velocity *)
(** the same for vision velocity when neither velocity nor position aiding of another kind is alive: the innovation is the
    difference from before the reset *)
Theorem C98_velocity_innovation : forall bad rot (resetVel : evS R -> vpst R -> vpst R) gate (E Re : Mat R) w off s (v : vpst R),
  let obs := evVelocity rot E Re w off s in let o := evVelFuse bad rot true resetVel gate E Re w off s v in
  (forall k, o_innov o k = xv v k - obs k) /\
  let var := fun k => Rmax (evVelVar rot E Re s k) (5 / 100 * (5 / 100)) in
  let r := fuseHorizontalVelocity (xv v 0%nat - obs 0%nat) (xv v 1%nat - obs 1%nat) (Rmax gate 1) (var 0%nat) (var 1%nat) (resetVel s v) in
  o_v o = r_v (fuseVerticalVelocity bad (xv v 2%nat - obs 2%nat) (Rmax gate 1) (var 2%nat) (r_v r)).
Proof.
  intros. subst o obs. cbv zeta. split; [reflexivity|]. unfold evVelFuse. cbv zeta. cbn [o_v].
  assert (E1 : sfmax gate (slit 1 1) = Rmax gate 1) by (cbn [sfmax RScalar]; rewrite slitR; f_equal; lra).
  assert (E2 : forall x : R, sfmax x (sq (slit 5 100)) = Rmax x (5 / 100 * (5 / 100))) by (intros x; cbn [sfmax RScalar]; unfold sq; rewrite slitR; reflexivity).
  rewrite E1, !E2. reflexivity.
Qed.
(** so the horizontal velocity, set to the measurement, is moved away from it again by the horizontal update *)
Theorem C98_velocity_overshoots : forall (obs d o : nat -> R) gate (v v1 : vpst R), reset_block 4 3 obs d v v1 -> (forall k, (k < 3)%nat -> 0 <= d k) -> (forall k, 0 < o k) ->
  let P := cP (v_s v1) in clear_of_limits (v_c v1) (v_s v1) (error_cov P (gain0 P (o 0%nat) 4) (gain1 P (o 0%nat) (o 1%nat) 4 5) (o 0%nat) (o 1%nat) 4 5) ->
  let r := fuseHorizontalVelocity (xv v 0%nat - obs 0%nat) (xv v 1%nat - obs 1%nat) gate (o 0%nat) (o 1%nat) v1 in r_ok r = true ->
  forall k, (k < 2)%nat -> xv (r_v r) k - obs k = - (d k / (d k + o k)) * (xv v k - obs k).
Proof.
  intros obs d o gate v v1 (Q & D & Z) HD O. cbv zeta. intros W OK.
  pose proof (C92_velocity_pair v1 (xv v 0%nat - obs 0%nat) (xv v 1%nat - obs 1%nat) gate (o 0%nat) (o 1%nat) (O _) (O _)) as T. cbv zeta in T.
  specialize (T W OK). destruct T as [X _].
  destruct (Z 0%nat 5%nat ltac:(lia) ltac:(lia) ltac:(lia)) as [Z1 Z2]. cbn [Nat.add] in Z1, Z2.
  pose proof (D 0%nat ltac:(lia)) as D0. pose proof (D 1%nat ltac:(lia)) as D1. pose proof (Q 0%nat ltac:(lia)) as Q0. pose proof (Q 1%nat ltac:(lia)) as Q1. cbn [Nat.add] in D0, D1, Q0, Q1.
  pose proof (HD 0%nat ltac:(lia)) as H0. pose proof (HD 1%nat ltac:(lia)) as H1. pose proof (O 0%nat) as O0. pose proof (O 1%nat) as O1.
  intros [|[|k]] Hk; [| |lia]; unfold xv at 1; cbn [Nat.add]; rewrite X by lia; rewrite ?Q0, ?Q1; unfold gain1, gain0; rewrite ?D0, ?D1, ?Z1, ?Z2; field; lra.
Qed.

(** ** The other sources take the difference after their resets *)
(** synthetic position: after the reset onto the last known position nothing is left to correct *)
Theorem C98_synthetic_after_reset : forall in_air tilt at_rest noaid gps_noise (last : Vec R) (v : vpst R), (forall k, (k < 2)%nat -> xp v k = last k) ->
  fakeFuse in_air tilt at_rest noaid gps_noise last v = fuseHorizontalPosition true 0 0 (slit 3 1) (fakeVar in_air tilt at_rest noaid gps_noise) (fakeVar in_air tilt at_rest noaid gps_noise) v.
Proof. intros. unfold fakeFuse. cbn [ssub RScalar]. rewrite !H by lia. rewrite !Rminus_diag_eq by reflexivity. reflexivity. Qed.

(** ** A case: 1 m from a measurement with a variance of 2 m^2 *)
Definition exReset (s : evS R) (w : vpst R) : vpst R :=
  mkVp (setState (fun i => if (i =? 7)%nat then ev_p s 0%nat else if (i =? 8)%nat then ev_p s 1%nat else x_st (v_c w) i) (v_c w)) (setP (uncorrelateSet 2 7 (ev_pvar s) (cP (v_s w))) (v_s w))
    (v_rej_hvel w) (v_rej_vvel w) (v_rej_hpos w) (v_rej_vpos w) (v_t_hvel w) (v_t_vvel w) (v_t_hpos w) (v_t_delpos w) (v_t_hgt w) (v_bad w) (v_fail0 w) (v_fail1 w)
    (v_vvel_ratio w) (v_vpos_ratio w) (v_vvel_time w) (v_vpos_time w) (v_odom w).
Definition exSample : evS R := EvS (fun _ => 0) (fun _ => 2) (fun _ => 0) (fun _ _ => 0) false.
Definition exV : vpst R := mkVp (setState (fun i => if (i =? 7)%nat then 1 else x_st exC i) exC) exS false false false false 0%Z 0%Z 0%Z 0%Z 0%Z (fun _ => false) 0 0 0 0 0%Z 0%Z false.
Lemma exReset_ok s w : reset_block 7 2 (ev_p s) (ev_pvar s) w (exReset s w).
Proof.
  split; [|split].
  - intros [|[|k]] Hk; [reflexivity|reflexivity|lia].
  - intros [|[|k]] Hk; [reflexivity|reflexivity|lia].
  - intros k j Hk Hj N. unfold exReset. cbn [v_s cP setP]. unfold uncorrelateSet. assert (I : inb 7 2 (7 + k) = true) by (rewrite inb_iff; lia). rewrite I, Bool.orb_true_r. cbn [orb].
    replace (7 + k =? j)%nat with false by (symmetry; apply Nat.eqb_neq; lia). replace (j =? 7 + k)%nat with false by (symmetry; apply Nat.eqb_neq; lia).
    unfold szero. rewrite slitR. lra.
Qed.

Lemma exP : uncorrelateSet 2 7 (fun _ => 2) exM = exM.
Proof.
  apply functional_extensionality. intros i. apply functional_extensionality. intros j. unfold uncorrelateSet. destruct (inb 7 2 i || inb 7 2 j) eqn:B; [|reflexivity].
  unfold exM, ev, szero. rewrite slitR. apply Bool.orb_true_iff in B. rewrite !inb_iff in B. destruct (Nat.eqb_spec i j) as [->|N].
  - assert (j = 7 \/ j = 8)%nat as [->| ->] by lia; cbn -[IZR]; lra.
  - replace (i =? 4)%nat with (if (i =? 4)%nat then true else false) by (destruct (i =? 4)%nat; reflexivity).
    destruct (Nat.eqb_spec i 4), (Nat.eqb_spec i 5), (Nat.eqb_spec j 4), (Nat.eqb_spec j 5); try lia; cbn -[IZR]; try lra.
Qed.
Lemma exAfter : v_c (exReset (evPosCorrect (fun _ _ => 0) (fun _ => 0) exSample) (setOdom false exV)) = exC /\ v_s (exReset (evPosCorrect (fun _ _ => 0) (fun _ => 0) exSample) (setOdom false exV)) = exS.
Proof.
  split.
  - transitivity (setState (x_st exC) exC); [|reflexivity]. unfold exReset. cbn [v_c setOdom exV]. unfold exV. cbn [v_c]. 
    transitivity (setState (fun i : nat => if (i =? 7)%nat then ev_p (evPosCorrect (fun _ _ => 0) (fun _ => 0) exSample) 0%nat else if (i =? 8)%nat then ev_p (evPosCorrect (fun _ _ => 0) (fun _ => 0) exSample) 1%nat else if (i =? 7)%nat then 1 else x_st exC i) exC); [reflexivity|].
    f_equal. apply functional_extensionality. intros i. cbn [evPosCorrect ev_p exSample]. unfold vsubT, mvec, szero. rewrite slitR. cbn [ssub sadd smul RScalar].
    destruct (Nat.eqb_spec i 7) as [->|N7]; [cbn -[IZR]; lra|]. destruct (Nat.eqb_spec i 8) as [->|N8]; [cbn -[IZR]; lra|]. reflexivity.
  - transitivity (setP (uncorrelateSet 2 7 (fun _ => 2) exM) exS); [reflexivity|]. rewrite exP. reflexivity.
Qed.
Example C98_case : let r := snd (evPosFuse false false true false (fun _ w => w) exReset 3 (fun _ _ => 0) (fun _ _ => 0) (fun _ => 0) exSample (EvMem false (fun _ => 0) (fun _ => 0) (fun _ => 0)) exV) in
  xp exV 0%nat = 1 /\ r_ok r = true /\ xp (r_v r) 0%nat = - 1 / 2.
Proof.
  cbv zeta. set (m := EvMem _ _ _ _).
  assert (M : forall k, ev_p (evPosCorrect (fun _ _ => 0) (fun _ => 0) exSample) k = 0) by (intros k; cbn [evPosCorrect ev_p exSample]; unfold vsubT, mvec, szero; rewrite slitR; cbn [ssub sadd smul RScalar]; lra).
  assert (PV : forall k, position_var false (fun _ _ => 0) (evPosCorrect (fun _ _ => 0) (fun _ => 0) exSample) k = 2) by (intros k; unfold position_var; cbn [evPosCorrect ev_pvar exSample]; apply Rmax_left; lra).
  assert (OK : r_ok (snd (evPosFuse false false true false (fun _ w => w) exReset 3 (fun _ _ => 0) (fun _ _ => 0) (fun _ => 0) exSample m exV)) = true).
  { apply C98_position_accepted_iff; [intros w; apply exReset_ok|intros; cbn; lra|]. intros k Hk. rewrite PV. unfold vision_position. rewrite M. cbn [evPosCorrect ev_pvar exSample]. rewrite Rmax_left by lra.
    destruct k as [|[|k]]; [| |lia]; cbn -[IZR]; lra. }
  split; [reflexivity|]. split; [exact OK|].
  rewrite (C98_position_half false (fun _ w => w) exReset 3 (fun _ _ => 0) (fun _ _ => 0) (fun _ => 0) exSample m exV); [|intros w; apply exReset_ok|intros; cbn; lra| |exact OK|lia].
  - rewrite M. cbn -[IZR]. lra.
  - cbv zeta. destruct exAfter as [A B]. rewrite A, B, !PV. apply ex_clear. intros i Hi. rewrite error_cov_eq by lia.
    assert (i = 4 \/ i = 5 \/ i = 6 \/ i = 7 \/ i = 8 \/ i = 9)%nat as E by lia.
    destruct E as [->|[->|[->|[->|[->| ->]]]]]; unfold gain1, gain0; cbn [cP exS wst]; unfold exM, ev, inb; cbn -[IZR]; field_simplify; lra.
Qed.
Print Assumptions C98_position_overshoots. Print Assumptions C98_position_half. Print Assumptions C98_position_accepted_iff. Print Assumptions C98_position_rejected.
Print Assumptions C98_velocity_innovation. Print Assumptions C98_velocity_overshoots. Print Assumptions C98_synthetic_after_reset. Print Assumptions C98_case.

(** * C76-C79: observation noise, ground effect, barometer offset, height sources

    C76 and the NaN facts are about the binary32 code, the rest about exact
    reals.  ObsModel.v (control.cpp, ekf_helper.cpp). *)
From Coq Require Import Reals Lra Lia List.
From Flocq Require Import Core BinarySingleNaN.
From Verif Require Import RealGeom CBase Scalar F32 F32More F32Sign F32Err CovPredGen CovModel CovProofsR VelPosModel VelPosProofs FusionModel ObsModel ObsSpec ObsProofs.
Import ListNotations.
Open Scope R_scope.

(** ** C76: observation noise is bounded below whatever the sensor reports.
    [atleast c x]: x is a number of at least c, or +infinity *)
Theorem C76_gps_position_noise : forall pn na hacc : f32,
  atleast (98 / 1000000) (gpsPosVar true pn na hacc) /\
  (is_nan hacc = false -> atleast (98 / 1000000) (gpsPosVar false pn na hacc)).
Proof.
  intros. unfold gpsPosVar. cbn [sfmax FScalar].
  assert (L : atleast (99 / 10000) (c_fmaxf pn (flit 1 100))) by (apply fmax_atleast; [lra|apply centi]).
  split; [|intro N]; apply sq_centi.
  - apply fmax_atleast; [lra|exact L].
  - apply constrain_atleast; [lra|exact N|exact L|]. apply fmax_atleast; [lra|exact L].
Qed.
Theorem C76_height_noise : forall (p : hgtpar f32) (i : hgtin f32) (d : f32),
  (forall src, let '(_, var, gate) := hgtObs src p i d in
     (src = HGps -> is_nan (h_vacc i) = false) -> atleast (98 / 1000000) var) /\
  (forall src, let '(_, var, gate) := hgtObs src p i d in atleast 1 gate) /\
  (let '(_, var, _) := hgtObs HRange p i d in atleast (99 / 10000) var).
Proof.
  intros p i d. assert (RG : let '(_, var, _) := hgtObs HRange p i d in atleast (99 / 10000) var).
  { cbn [hgtObs]. cbn [sfmax FScalar]. apply fmax_atleast; [lra|apply centi]. }
  split; [|split; [|exact RG]].
  - intros []; cbn [hgtObs]; intro H.
    + apply sq_centi. apply fmax_atleast; [lra|apply centi].
    + unfold gpsHgtVar. apply sq_centi.
      assert (L : atleast (99 / 10000) (sfmax (smul (slit 15 10) (hp_gps_noise p)) (slit 1 100))) by (apply fmax_atleast; [lra|apply centi]).
      apply constrain_atleast; [lra|apply H; reflexivity|exact L|]. apply fmax_atleast; [lra|exact L].
    + cbn [hgtObs] in RG. apply (atleast_weaken (99 / 10000)); [exact RG|lra].
    + apply fmax_atleast; [lra|]. apply sq_centi, centi.
  - intros []; apply gate_atleast.
Qed.
Lemma sq_half : atleast (24 / 100) (sq (flit 1 2)).
Proof. apply (atleast_weaken (rnd32 (499 / 1000 * (499 / 1000)))); [apply sq_atleast; [lra|apply lit_atleast; [lia|lia|lra]]|]. apply rnd_lower; lra. Qed.
Lemma sq_5c : atleast (24 / 10000) (sq (flit 5 100)).
Proof. apply (atleast_weaken (rnd32 (499 / 10000 * (499 / 10000)))); [apply sq_atleast; [lra|apply lit_atleast; [lia|lia|lra]]|]. apply rnd_lower; lra. Qed.
Theorem C76_vision_noise : forall rot E Re (s : evS f32) m pos k,
  (let '(_, o, _) := evAbsObs rot E s m pos in atleast (98 / 1000000) (o k)) /\
  (e_avail m = true -> let '(_, o, _) := evOdomObs E s m pos in atleast (24 / 100) (o k)) /\
  (forall bv t rv gate w off v, atleast (24 / 10000) (o_obsvar (evVelFuse bv rot t rv gate E Re w off s v) k)).
Proof.
  intros. split; [|split].
  - cbn [evAbsObs]. apply fmax_atleast; [lra|]. apply sq_centi, centi.
  - intro A. unfold evOdomObs. rewrite A. apply fmax_atleast; [lra|apply sq_half].
  - intros. unfold evVelFuse. cbn [o_obsvar]. apply fmax_atleast; [lra|apply sq_5c].
Qed.
(** consequence: for a variance P that is not negative the published innovation
    variance and the divisor of the gate test are positive *)
Theorem C76_divisor_positive : forall (P o gate : f32), fnn P -> is_nan P = false -> atleast (98 / 1000000) o ->
  flt f0 (fadd P o) = true /\ flt f0 (fmul (sq (c_fmaxf gate (flit 1 1))) (fadd P o)) = true.
Proof.
  intros P o gate Hp Np Ho. assert (A : atleast (98 / 1000000) (fadd P o)) by (apply add_atleast; [lra|exact Hp|exact Np|exact Ho]).
  split; [apply (atleast_pos (98 / 1000000)); [lra|exact A]|].
  assert (G : atleast (9 / 10) (sq (c_fmaxf gate (flit 1 1)))).
  { apply (atleast_weaken (rnd32 (1 * 1))); [apply sq_atleast; [lra|apply gate_atleast]|]. apply rnd_lower; lra. }
  apply (atleast_pos (rnd32 (9 / 10 * (98 / 1000000)))); [|apply mul_atleast; [lra|lra|exact G|exact A]].
  apply Rlt_le_trans with (8 / 100000); [lra|]. apply rnd_lower; lra.
Qed.
(** an accuracy that is NaN is taken for the best possible one (a defect) ... *)
Theorem C76_nan_accuracy_is_best : forall pn na vn : f32, is_nan pn = false ->
  gpsPosVar true pn na fnan = gpsPosVar true pn na f0 /\
  gpsVelVar vn fnan 0%nat = sq vn /\ 
  (forall bv rot t rv gate E Re w off (s : evS f32) v k, is_nan (evVelVar rot E Re s k) = true ->
     o_obsvar (evVelFuse bv rot t rv gate E Re w off s v) k = sq (flit 5 100)) /\
  (forall p (i : hgtin f32) d, is_nan (h_evvar i) = true -> snd (fst (hgtObs HVision p i d)) = sq (flit 1 100)).
Proof.
  intros pn na vn N. split; [|split; [|split]].
  - unfold gpsPosVar. f_equal. cbn [sfmax FScalar].
    assert (L : atleast (99 / 10000) (c_fmaxf pn (flit 1 100))) by (apply fmax_atleast; [lra|apply centi]).
    change (slit 1 100) with (flit 1 100). set (l := c_fmaxf pn (flit 1 100)) in *.
    unfold c_fmaxf. rewrite (atleast_nan _ _ L). change (is_nan fnan) with true. change (is_nan f0) with false. cbv iota.
    rewrite (atleast_pos (99 / 10000) l) by (lra || exact L). reflexivity.
  - unfold gpsVelVar. cbn. reflexivity.
  - intros. unfold evVelFuse. cbn [o_obsvar sfmax FScalar]. unfold c_fmaxf. rewrite H. reflexivity.
  - intros p i d H. cbn [hgtObs fst snd sfmax FScalar]. unfold c_fmaxf. rewrite H. reflexivity.
Qed.
(** ... except by the height and the single-source position observations, where
    it makes the test ratio NaN, so that the sample is rejected *)
Lemma fadd_nan_r (a : f32) : is_nan (fadd a fnan) = true. Proof. destruct a as [[]|[]| |[] ? ? ?]; reflexivity. Qed.
Lemma fmul_nan_r (a b : f32) : is_nan b = true -> is_nan (fmul a b) = true.
Proof. destruct b; try discriminate. destruct a as [[]|[]| |[] ? ? ?]; reflexivity. Qed.
Lemma fdiv_nan_r (a b : f32) : is_nan b = true -> is_nan (fdiv a b) = true.
Proof. destruct b; try discriminate. destruct a as [[]|[]| |[] ? ? ?]; reflexivity. Qed.
Lemma fle_nan_l (a b : f32) : is_nan a = true -> fle a b = false.
Proof. destruct a; try discriminate. reflexivity. Qed.
Lemma is_nan_eq (a : f32) : is_nan a = true -> a = fnan. Proof. destruct a; try discriminate. reflexivity. Qed.
Lemma sq_constrain_nan (lo hi : f32) : is_nan (sq (sconstrain fnan lo hi)) = true.
Proof. unfold sconstrain. cbn [slt FScalar]. assert (A : flt fnan lo = false) by reflexivity. assert (B : flt hi fnan = false) by (destruct hi; reflexivity). rewrite A, B. reflexivity. Qed.
Lemma ratio_nan (i g v : f32) : is_nan v = true -> is_nan (ratio i g v) = true.
Proof. intro H. unfold ratio. cbn [smul sdiv FScalar]. apply fdiv_nan_r, fmul_nan_r, H. Qed.
Theorem C76_nan_accuracy_rejected : forall (pn na gate i0 i1 : f32) (p : hgtpar f32) (i : hgtin f32) (v : vpst f32),
  (let o := gpsPosVar false pn na fnan in r_ok (fuseHorizontalPosition false i0 i1 gate o o v) = false) /\
  (is_nan (h_vacc i) = true -> r_ok (hgtFuse false HGps p i v) = false).
Proof.
  intros. split.
  - cbv zeta. assert (N : is_nan (gpsPosVar false pn na fnan) = true) by apply sq_constrain_nan.
    apply is_nan_eq in N. rewrite N. unfold fuseHorizontalPosition. cbn [sadd sfmax FScalar sle].
    assert (A : forall j g P, ratio j g (fadd P fnan) = fnan) by (intros; apply is_nan_eq, ratio_nan, fadd_nan_r).
    rewrite !A. reflexivity.
  - intro N. apply is_nan_eq in N. unfold hgtFuse. cbn [hgtObs]. unfold gpsHgtVar. rewrite N.
    set (o := sq (sconstrain fnan _ _)). assert (No : is_nan o = true) by apply sq_constrain_nan. apply is_nan_eq in No. rewrite No.
    unfold fuseVerticalPosition. cbn [sadd FScalar sle]. rewrite (fle_nan_l (ratio _ _ _)) by (apply ratio_nan, fadd_nan_r). reflexivity.
Qed.
(** the speed accuracy and the auxiliary velocity have no floor (a defect): with
    zero parameters or variances a velocity is fused as if it were exact *)
Theorem C76_velocity_noise_floor_refuted :
  gpsVelVar f0 f0 0%nat = f0 /\ (forall vel (vp : Vec f32) v, r_var0 (fuseHorizontalVelocity (fsub (xv v 0%nat) (vel 0%nat)) (fsub (xv v 1%nat) (vel 1%nat)) (flit 1 1) f0 f0 v)
     = fadd (cP (v_s v) 4%nat 4%nat) f0 /\ o_var (auxFuse (flit 1 1) vel (fun _ => f0) vp v) 0%nat = fadd (cP (v_s v) 4%nat 4%nat) f0).
Proof.
  split; [reflexivity|]. intros. split; [|unfold auxFuse; cbn [o_var]]; unfold fuseHorizontalVelocity; cbn [sadd sfmax FScalar];
  destruct (sle _ _); reflexivity.
Qed.
Example C76_ex : atleast (98 / 1000000) (gpsPosVar true f0 f0 fnan) /\ fnn f0.
Proof. split; [apply C76_gps_position_noise|]. unfold fnn. reflexivity. Qed.

(** ** C77: ground effect.  While it is active, the barometer reading too low
    (a negative innovation) is forgiven up to the dead zone *)
Lemma zeroR : @szero R RScalar = 0. Proof. unfold szero. rewrite slitR. field. Qed.
Theorem C77_deadzone : forall (on : bool) (d x : R), 0 <= d ->
  deadzone on d x = (if on then (if Rle_dec 0 x then x else Rmin 0 (x + d)) else x).
Proof.
  intros on d x H. unfold deadzone. rewrite zeroR. cbn [sadd sopp slt sle RScalar]. destruct on; [|reflexivity].
  destruct (Rlt_dec x (- 0)); destruct (Rle_dec 0 x); try lra. destruct (Rle_dec x (- (0 + d))).
  - rewrite Rmin_right; lra.
  - rewrite Rmin_left; lra.
Qed.
(** never changes sign, never grows, keeps the order of measurements and never amplifies a difference *)
Theorem C77_deadzone_shape : forall on (d x y : R), 0 <= d ->
  0 <= deadzone on d x * x /\ Rabs (deadzone on d x) <= Rabs x /\ Rabs (deadzone on d x - x) <= d /\
  (x <= y -> deadzone on d x <= deadzone on d y) /\ Rabs (deadzone on d x - deadzone on d y) <= Rabs (x - y).
Proof.
  intros on d x y H. rewrite !C77_deadzone by exact H. destruct on.
  2:{ replace (x - x) with 0 by ring. rewrite Rabs_R0. split; [nra|]. split; [lra|]. split; [lra|]. split; [tauto|lra]. }
  destruct (Rle_dec 0 x), (Rle_dec 0 y); unfold Rmin; destruct (Rle_dec 0 (x + d)); try destruct (Rle_dec 0 (y + d));
  unfold Rabs; repeat (destruct (Rcase_abs _)); repeat split; intros; try lra; nra.
Qed.
(** binary32: an innovation that is not negative, or NaN, is passed on unchanged, and so is every innovation outside ground effect *)
Theorem C77_f32_unchanged : forall (on : bool) (d x : f32), on = false \/ flt x f0 = false -> deadzone on d x = x.
Proof.
  intros on d x H. unfold deadzone. destruct on; [|reflexivity]. destruct H as [H|H]; [discriminate|].
  cbn [slt sopp FScalar]. change (@szero f32 FScalar) with f0.
  assert (E : flt x (fneg f0) = flt x f0) by (destruct x as [[]|[]| |[] ? ? ?]; reflexivity). rewrite E, H. reflexivity.
Qed.
Example C77_ex : deadzone true 5 (-3) = 0 /\ deadzone true 5 (-7) = -2 /\ deadzone true 5 2 = 2.
Proof. rewrite !C77_deadzone by lra. destruct (Rle_dec 0 (-3)), (Rle_dec 0 (-7)), (Rle_dec 0 2); try lra. unfold Rmin. destruct (Rle_dec 0 (-3+5)), (Rle_dec 0 (-7+5)); try lra; repeat split; lra. Qed.

(** ** C78: offset of the barometer while another sensor provides height.
    [t] is the offset that would make the barometer agree with the estimate *)
Lemma constrainR (x lo hi : R) : lo <= hi -> sconstrain x lo hi = Rmax lo (Rmin hi x).
Proof.
  intro H. unfold sconstrain. cbn [slt RScalar]. unfold Rmax, Rmin.
  destruct (Rle_dec hi x); destruct (Rle_dec lo _); destruct (Rlt_dec x lo); destruct (Rlt_dec hi x); lra.
Qed.
Definition unit_clip (x : R) : R := Rmax 0 (Rmin 1 x).
Definition tenth_clip (x : R) : R := Rmax (- (1 / 10)) (Rmin (1 / 10) x).
Lemma baroOffsetR (dt hgt posD off : R) :
  baroOffset false true dt hgt posD off = off + unit_clip dt * tenth_clip (1 / 10 * (hgt + posD - off)).
Proof.
  unfold baroOffset. rewrite zeroR. cbn [negb andb sadd ssub smul sopp RScalar]. rewrite !slitR.
  rewrite !constrainR by lra. unfold unit_clip, tenth_clip. replace (IZR 1 / IZR 1) with 1 by field. reflexivity.
Qed.
Lemma unit_clip_range x : 0 <= unit_clip x <= 1.
Proof. unfold unit_clip, Rmax, Rmin. repeat destruct (Rle_dec _ _); lra. Qed.
(** one step: never overshoots, moves by at most 0.1 m/s, and removes at least the fraction 0.1*dt/max(1, error) of the error *)
Theorem C78_offset_step : forall dt hgt posD off : R, let t := hgt + posD in
  let off' := baroOffset false true dt hgt posD off in
  0 <= (t - off') * (t - off) /\ Rabs (off' - off) <= unit_clip dt / 10 /\
  Rabs (t - off') <= Rabs (t - off) * (1 - unit_clip dt / 10 / Rmax 1 (Rabs (t - off))) /\
  (Rabs (t - off) <= 1 -> t - off' = (1 - unit_clip dt / 10) * (t - off)).
Proof.
  intros dt hgt posD off t off'. unfold off'. rewrite baroOffsetR. fold t. pose proof (unit_clip_range dt) as D. set (d := unit_clip dt) in *. clearbody d.
  replace (t - (off + d * tenth_clip (1 / 10 * (t - off)))) with ((t - off) - d * tenth_clip (1 / 10 * (t - off))) by ring.
  replace (off + d * tenth_clip (1 / 10 * (t - off)) - off) with (d * tenth_clip (1 / 10 * (t - off))) by ring.
  set (e := t - off). clearbody e. clear t off off'.
  assert (C : (1 < e /\ tenth_clip (1 / 10 * e) = 1 / 10 /\ Rmax 1 (Rabs e) = e /\ Rabs e = e) \/
              (e < -1 /\ tenth_clip (1 / 10 * e) = - (1 / 10) /\ Rmax 1 (Rabs e) = - e /\ Rabs e = - e) \/
              (-1 <= e <= 1 /\ tenth_clip (1 / 10 * e) = 1 / 10 * e /\ Rmax 1 (Rabs e) = 1)).
  { unfold tenth_clip. destruct (Rlt_dec 1 e); [left|destruct (Rlt_dec e (-1)); right; [left|right]].
    - repeat split; [lra| | |apply Rabs_pos_eq; lra].
      + unfold Rmax, Rmin. repeat destruct (Rle_dec _ _); lra.
      + rewrite Rabs_pos_eq by lra. apply Rmax_right. lra.
    - repeat split; [lra| | |apply Rabs_left; lra].
      + unfold Rmax, Rmin. repeat destruct (Rle_dec _ _); lra.
      + rewrite Rabs_left by lra. apply Rmax_right. lra.
    - repeat split; [lra|lra| |].
      + unfold Rmax, Rmin. repeat destruct (Rle_dec _ _); lra.
      + apply Rmax_left. apply Rabs_le. lra. }
  destruct C as [(H & -> & -> & ->)|[(H & -> & -> & ->)|(H & -> & ->)]].
  - split; [nra|]. split; [rewrite Rabs_pos_eq; nra|]. split; [|lra]. rewrite Rabs_pos_eq by nra. apply Req_le. field. lra.
  - split; [nra|]. split; [rewrite Rabs_left1; nra|]. split; [|lra]. rewrite Rabs_left1 by nra. apply Req_le. field. lra.
  - replace (e - d * (1 / 10 * e)) with ((1 - d / 10) * e) by field. split; [pose proof (Rle_0_sqr e); unfold Rsqr in *; nra|].
    split; [rewrite !Rabs_mult, (Rabs_pos_eq d), (Rabs_pos_eq (1 / 10)) by lra; assert (Rabs e <= 1) by (apply Rabs_le; lra); nra|].
    split; [|reflexivity]. rewrite Rabs_mult, (Rabs_pos_eq (1 - d / 10)) by lra. apply Req_le. field.
Qed.
(** a history of barometer samples: time step, reading and height estimate; other samples do not change the offset *)
Record bsample := BS { b_hgt_src : bool; b_ready : bool; b_dt : R; b_hgt : R; b_posD : R }.
Fixpoint offset_run (l : list bsample) (off : R) : R := match l with
  | [] => off
  | b :: l' => offset_run l' (baroOffset (b_hgt_src b) (b_ready b) (b_dt b) (b_hgt b) (b_posD b) off) end.
Definition b_used (b : bsample) : bool := negb (b_hgt_src b) && b_ready b.
Fixpoint used_time (l : list bsample) : R := match l with [] => 0 | b :: l' => (if b_used b then unit_clip (b_dt b) else 0) + used_time l' end.
Lemma offset_unused b off : b_used b = false -> baroOffset (b_hgt_src b) (b_ready b) (b_dt b) (b_hgt b) (b_posD b) off = off.
Proof. unfold b_used, baroOffset. intros ->. reflexivity. Qed.
Lemma offset_used b off : b_used b = true -> baroOffset (b_hgt_src b) (b_ready b) (b_dt b) (b_hgt b) (b_posD b) off = baroOffset false true (b_dt b) (b_hgt b) (b_posD b) off.
Proof. unfold b_used. destruct b as [[] [] dt h d]; cbn; try discriminate; reflexivity. Qed.
(** the offset is frozen while the barometer is the height reference *)
Theorem C78_frozen_as_reference : forall (l : list bsample) (off : R), (forall b, In b l -> b_hgt_src b = true \/ b_ready b = false) -> offset_run l off = off.
Proof.
  induction l as [|b l IH]; intros off H; [reflexivity|]. cbn [offset_run]. rewrite offset_unused.
  - apply IH. intros b' I. apply H. right. exact I.
  - unfold b_used. destruct (H b (or_introl eq_refl)) as [-> | ->]; [reflexivity|apply Bool.andb_false_r].
Qed.
(** bounded tracking: the offset never leaves an interval that contains its start and every sample's offset, and its speed is limited *)
Theorem C78_offset_bounded : forall (l : list bsample) (off lo hi : R), lo <= off <= hi ->
  (forall b, In b l -> b_used b = true -> lo <= b_hgt b + b_posD b <= hi) ->
  lo <= offset_run l off <= hi /\ Rabs (offset_run l off - off) <= used_time l / 10.
Proof.
  induction l as [|b l IH]; intros off lo hi H0 H; cbn [offset_run used_time].
  - split; [exact H0|]. rewrite Rminus_eq_0, Rabs_R0. lra.
  - destruct (b_used b) eqn:U.
    + rewrite offset_used by exact U. destruct (C78_offset_step (b_dt b) (b_hgt b) (b_posD b) off) as (S1 & S2 & S3 & _).
      set (off' := baroOffset false true (b_dt b) (b_hgt b) (b_posD b) off) in *. set (t := b_hgt b + b_posD b) in *.
      pose proof (H b (or_introl eq_refl) U) as T. fold t in T. pose proof (unit_clip_range (b_dt b)) as D.
      assert (M : Rabs (t - off') <= Rabs (t - off)).
      { eapply Rle_trans; [exact S3|]. rewrite <- (Rmult_1_r (Rabs (t - off))) at 3. apply Rmult_le_compat_l; [apply Rabs_pos|].
        assert (0 <= unit_clip (b_dt b) / 10 / Rmax 1 (Rabs (t - off))); [|lra].
        apply Rmult_le_pos; [lra|]. apply Rlt_le, Rinv_0_lt_compat. pose proof (Rmax_l 1 (Rabs (t - off))). lra. }
      assert (B : lo <= off' <= hi).
      { clearbody off' t. unfold Rabs in M. destruct (Rcase_abs (t - off')), (Rcase_abs (t - off)); split; nra. }
      destruct (IH off' lo hi B) as [I1 I2]; [intros b' I U'; apply H; [right; exact I|exact U']|].
      split; [exact I1|]. replace (offset_run l off' - off) with ((offset_run l off' - off') + (off' - off)) by ring.
      eapply Rle_trans; [apply Rabs_triang|]. lra.
    + rewrite offset_unused by exact U. rewrite Rplus_0_l. apply IH; [exact H0|]. intros b' I. apply H. right. exact I.
Qed.
(** convergence: with a constant target the error decays at least like
    prod (1 - 0.1 dt_k / M), M = max(1, initial error); so exp(-T/(10 M)) over T seconds of samples *)
Theorem C78_offset_converges : forall (l : list bsample) (off t : R),
  (forall b, In b l -> b_used b = true -> b_hgt b + b_posD b = t) ->
  Rabs (t - offset_run l off) <= Rabs (t - off) * exp (- (used_time l / (10 * Rmax 1 (Rabs (t - off))))).
Proof.
  intros l off t H. set (M := Rmax 1 (Rabs (t - off))). assert (HM : 1 <= M) by apply Rmax_l.
  assert (B : Rabs (t - off) <= M) by apply Rmax_r. clearbody M. revert off H B.
  induction l as [|b l IH]; intros off H B; cbn [offset_run used_time].
  - replace (- (0 / (10 * M))) with 0 by (field; lra). rewrite exp_0. lra.
  - assert (H' : forall b', In b' l -> b_used b' = true -> b_hgt b' + b_posD b' = t) by (intros; apply H; [right|]; assumption).
    destruct (b_used b) eqn:U.
    + rewrite offset_used by exact U. destruct (C78_offset_step (b_dt b) (b_hgt b) (b_posD b) off) as (_ & _ & S3 & _).
      rewrite (H b (or_introl eq_refl) U) in S3. set (off' := baroOffset false true (b_dt b) (b_hgt b) (b_posD b) off) in *. clearbody off'.
      pose proof (unit_clip_range (b_dt b)) as D. set (d := unit_clip (b_dt b)) in *. clearbody d.
      assert (P : 0 <= Rabs (t - off)) by apply Rabs_pos.
      assert (Q : d / 10 / M <= d / 10 / Rmax 1 (Rabs (t - off))).
      { unfold Rdiv. apply Rmult_le_compat_l; [lra|]. apply Rinv_le_contravar; [pose proof (Rmax_l 1 (Rabs (t - off))); lra|]. apply Rmax_lub; lra. }
      assert (E : 1 - d / 10 / M <= exp (- (d / (10 * M)))).
      { replace (d / 10 / M) with (d / (10 * M)) by (field; lra). pose proof (exp_ineq1_le (- (d / (10 * M)))). lra. }
      assert (S4 : Rabs (t - off') <= Rabs (t - off) * exp (- (d / (10 * M)))).
      { eapply Rle_trans; [exact S3|]. apply Rmult_le_compat_l; [exact P|lra]. }
      assert (E1 : exp (- (d / (10 * M))) <= 1).
      { rewrite <- exp_0. destruct (Rle_lt_or_eq_dec 0 d) as [L|L]; [lra| |].
        - apply Rlt_le, exp_increasing. assert (0 < d / (10 * M)); [|lra]. apply Rdiv_lt_0_compat; lra.
        - rewrite <- L. right. f_equal. field. lra. }
      eapply Rle_trans; [apply IH; [exact H'|nra]|].
      replace (- ((d + used_time l) / (10 * M))) with (- (d / (10 * M)) + - (used_time l / (10 * M))) by (field; lra).
      rewrite exp_plus. rewrite <- Rmult_assoc. apply Rmult_le_compat_r; [apply Rlt_le, exp_pos|exact S4].
    + rewrite offset_unused by exact U. rewrite Rplus_0_l. apply IH; assumption.
Qed.
(** binary32: a NaN reading or height estimate makes the offset NaN for good (a defect) *)
Lemma fadd_nan_any (a b : f32) : is_nan a = true \/ is_nan b = true -> is_nan (fadd a b) = true.
Proof. intros [H|H]; [destruct a; try discriminate; destruct b as [[]|[]| |[] ? ? ?]; reflexivity|destruct b; try discriminate; destruct a as [[]|[]| |[] ? ? ?]; reflexivity]. Qed.
Lemma fsub_nan_any (a b : f32) : is_nan a = true \/ is_nan b = true -> is_nan (fsub a b) = true.
Proof. intros [H|H]; [destruct a; try discriminate; destruct b as [[]|[]| |[] ? ? ?]; reflexivity|destruct b; try discriminate; destruct a as [[]|[]| |[] ? ? ?]; reflexivity]. Qed.
Lemma constrain_nan (x lo hi : f32) : is_nan x = true -> is_nan (sconstrain x lo hi) = true.
Proof. intro H. unfold sconstrain. cbn [slt FScalar]. assert (A : flt x lo = false) by (destruct x; try discriminate; reflexivity). assert (B : flt hi x = false) by (destruct x; try discriminate; destruct hi as [[]|[]| |[] ? ? ?]; reflexivity). rewrite A, B. exact H. Qed.
Theorem C78_nan_is_permanent : forall dt hgt posD off : f32, is_nan hgt = true \/ is_nan posD = true \/ is_nan off = true ->
  is_nan (baroOffset false true dt hgt posD off) = true.
Proof.
  intros dt hgt posD off H. unfold baroOffset. cbn [negb andb sadd smul ssub sopp FScalar].
  apply fadd_nan_any. right. apply fmul_nan_r, constrain_nan, fmul_nan_r, fsub_nan_any.
  destruct H as [H|[H|H]]; [left; apply fadd_nan_any; tauto|left; apply fadd_nan_any; tauto|right; exact H].
Qed.
Example C78_ex : let l := [BS false true (1/2) 3 (-1); BS true true 1 7 7; BS false true (1/2) 3 (-1)] in
  used_time l = 1 /\ forall b, In b l -> b_used b = true -> b_hgt b + b_posD b = 2.
Proof.
  cbn -[unit_clip]. unfold unit_clip, Rmax, Rmin. split.
  - repeat destruct (Rle_dec _ _); lra.
  - intros b [<-|[<-|[<-|[]]]]; cbn; try discriminate; intros; lra.
Qed.

(** *** Static pressure.  Specification: moving through the air with velocity
    [a] (body axes) the static pressure is wrong by half the air density times
    the sum of coefficient times squared speed, the coefficient depending on
    the direction along x and y *)
Definition pressure_error (c : pscoef R) (rho : R) (a : nat -> R) : R :=
  1 / 2 * rho * ((if Rle_dec 0 (a 0%nat) then k_xp c else k_xn c) * a 0%nat ^ 2 +
                 (if Rle_dec 0 (a 1%nat) then k_yp c else k_yn c) * a 1%nat ^ 2 + k_z c * a 2%nat ^ 2).
Definition airspeed_body (Rb : nat -> nat -> R) (vel : nat -> R) (wn we : R) : nat -> R :=
  rot3 Rb (fun k => vel k - match k with O => wn | 1%nat => we | _ => 0 end).
Lemma miniR (a b : R) : smini a b = Rmin a b.
Proof. unfold smini. cbn [sle slt RScalar negb]. destruct (Rle_dec a a) as [|n]; [|exfalso; apply n; lra]. cbn [negb]. unfold Rmin. destruct (Rlt_dec b a), (Rle_dec a b); lra. Qed.
Lemma bodyAirspeedR Rb (vel : Vec R) wn we k : bodyAirspeed Rb vel wn we k = airspeed_body Rb vel wn we k.
Proof. unfold bodyAirspeed, airspeed_body, mvec, rot3. rewrite zeroR. cbn [sadd smul ssub RScalar]. ring. Qed.
Lemma pstaticR c rho a : pstatic c rho a = 1 / 2 * rho * ((if Rle_dec 0 (a 0%nat) then k_xp c else k_xn c) * Rmin (a 0%nat ^ 2) (k_max c ^ 2) +
                 (if Rle_dec 0 (a 1%nat) then k_yp c else k_yn c) * Rmin (a 1%nat ^ 2) (k_max c ^ 2) + k_z c * Rmin (a 2%nat ^ 2) (k_max c ^ 2)).
Proof.
  unfold pstatic, sq. rewrite !miniR, zeroR, slitR. cbn [sadd smul sle RScalar].
  replace (a 0%nat * a 0%nat) with (a 0%nat ^ 2) by ring. replace (a 1%nat * a 1%nat) with (a 1%nat ^ 2) by ring.
  replace (a 2%nat * a 2%nat) with (a 2%nat ^ 2) by ring. replace (k_max c * k_max c) with (k_max c ^ 2) by ring.
  replace (IZR 1 / IZR 2) with (1 / 2) by field.
  assert (S : forall x : R, (if (if Rle_dec 0 x then true else false) then k_xp c else k_xn c) = (if Rle_dec 0 x then k_xp c else k_xn c)) by (intro x; destruct (Rle_dec 0 x); reflexivity).
  assert (S' : forall x : R, (if (if Rle_dec 0 x then true else false) then k_yp c else k_yn c) = (if Rle_dec 0 x then k_yp c else k_yn c)) by (intro x; destruct (Rle_dec 0 x); reflexivity).
  rewrite S, S'. ring.
Qed.
(** an altitude that is wrong by exactly that pressure is corrected exactly, at
    speeds up to the maximum (per axis); beyond it the correction is that of the maximum speed *)
Theorem C78_pressure_exact : forall c rho Rb (vel : Vec R) wn we alt, 0 < rho ->
  let a := airspeed_body Rb vel wn we in (forall k, (k < 3)%nat -> Rabs (a k) <= Rabs (k_max c)) ->
  baroCompensate c rho Rb vel wn we (alt - pressure_error c rho a / (rho * (980665 / 100000))) = alt.
Proof.
  intros c rho Rb vel wn we alt Hr a H. unfold baroCompensate. rewrite slitR. cbn [sadd smul sdiv RScalar]. rewrite pstaticR, !bodyAirspeedR. fold a.
  assert (M : forall k, (k < 3)%nat -> Rmin (a k ^ 2) (k_max c ^ 2) = a k ^ 2).
  { intros k Hk. apply Rmin_left. rewrite <- (pow2_abs (a k)), <- (pow2_abs (k_max c)). apply pow_incr. split; [apply Rabs_pos|apply H, Hk]. }
  rewrite !M by lia. unfold pressure_error. replace (980665 / 100000) with (980665 / 100000) by reflexivity. field. lra.
Qed.
(** the correction does not depend on the air density, is bounded whatever the speed and the wind, and is absent when all coefficients are zero *)
Theorem C78_pressure_bounded : forall c rho rho' Rb (vel : Vec R) wn we alt, 0 < rho -> 0 < rho' ->
  baroCompensate c rho Rb vel wn we alt = baroCompensate c rho' Rb vel wn we alt /\
  Rabs (baroCompensate c rho Rb vel wn we alt - alt) <=
    (Rmax (Rabs (k_xp c)) (Rabs (k_xn c)) + Rmax (Rabs (k_yp c)) (Rabs (k_yn c)) + Rabs (k_z c)) * k_max c ^ 2 / (2 * (980665 / 100000)) /\
  (k_xp c = 0 -> k_xn c = 0 -> k_yp c = 0 -> k_yn c = 0 -> k_z c = 0 -> baroCompensate c rho Rb vel wn we alt = alt).
Proof.
  intros c rho rho' Rb vel wn we alt H H'. unfold baroCompensate. rewrite slitR. cbn [sadd smul sdiv RScalar]. rewrite !pstaticR, !bodyAirspeedR.
  set (a := airspeed_body Rb vel wn we). set (kx := if Rle_dec 0 (a 0%nat) then _ else _). set (ky := if Rle_dec 0 (a 1%nat) then _ else _).
  split; [|split].
  - field. lra.
  - replace (alt + _ - alt) with ((kx * Rmin (a 0%nat ^ 2) (k_max c ^ 2) + ky * Rmin (a 1%nat ^ 2) (k_max c ^ 2) + k_z c * Rmin (a 2%nat ^ 2) (k_max c ^ 2)) * / (2 * (980665 / 100000))) by (field; lra).
    assert (X : Rabs kx <= Rmax (Rabs (k_xp c)) (Rabs (k_xn c))) by (unfold kx; destruct (Rle_dec 0 (a 0%nat)); [apply Rmax_l|apply Rmax_r]).
    assert (Y : Rabs ky <= Rmax (Rabs (k_yp c)) (Rabs (k_yn c))) by (unfold ky; destruct (Rle_dec 0 (a 1%nat)); [apply Rmax_l|apply Rmax_r]).
    assert (M : forall x, 0 <= Rmin (x ^ 2) (k_max c ^ 2) <= k_max c ^ 2) by (intro x; split; [apply Rmin_glb; apply pow2_ge_0|apply Rmin_r]).
    assert (P : forall k x b, Rabs k <= b -> Rabs (k * Rmin (x ^ 2) (k_max c ^ 2)) <= b * k_max c ^ 2).
    { intros k x b B. rewrite Rabs_mult, (Rabs_pos_eq (Rmin _ _)) by apply M. apply Rmult_le_compat; [apply Rabs_pos|apply M|exact B|apply M]. }
    rewrite Rabs_mult, (Rabs_pos_eq (/ _)) by (apply Rlt_le, Rinv_0_lt_compat; lra). unfold Rdiv at 3. apply Rmult_le_compat_r; [apply Rlt_le, Rinv_0_lt_compat; lra|].
    rewrite !Rmult_plus_distr_r. eapply Rle_trans; [apply Rabs_triang|]. apply Rplus_le_compat; [|apply P; lra].
    eapply Rle_trans; [apply Rabs_triang|]. apply Rplus_le_compat; apply P; assumption.
  - intros X1 X2 Y1 Y2 Z. assert (kx = 0) as -> by (unfold kx; destruct (Rle_dec _ _); assumption). assert (ky = 0) as -> by (unfold ky; destruct (Rle_dec _ _); assumption).
    rewrite Z. field. lra.
Qed.
Example C78_pressure_ex : forall Rb, let c := PsCoef (1/2) (-1/2) 0 0 0 20 in
  (forall k, (k < 3)%nat -> Rabs (airspeed_body Rb (fun _ => 0) 0 0 k) <= Rabs (k_max c)).
Proof. intros Rb c k _. unfold airspeed_body, rot3, c, k_max. rewrite (Rabs_pos_eq 20) by lra. apply Rabs_le. lra. Qed.
Print Assumptions C76_gps_position_noise. Print Assumptions C76_height_noise. Print Assumptions C76_vision_noise. Print Assumptions C76_divisor_positive.
Print Assumptions C76_nan_accuracy_is_best. Print Assumptions C76_nan_accuracy_rejected. Print Assumptions C76_velocity_noise_floor_refuted.
Print Assumptions C77_deadzone. Print Assumptions C77_deadzone_shape. Print Assumptions C77_f32_unchanged.
Print Assumptions C78_offset_step. Print Assumptions C78_frozen_as_reference. Print Assumptions C78_offset_bounded. Print Assumptions C78_offset_converges.
Print Assumptions C78_nan_is_permanent. Print Assumptions C78_pressure_exact. Print Assumptions C78_pressure_bounded.

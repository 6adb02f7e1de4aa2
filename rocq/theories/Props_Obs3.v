(** * C79: changing and resetting the height source

    How the offsets set when a height source is started (ObsModel.offsetGps,
    offsetRange, offsetBaro), the resets to a source (ResetModel.resetHeight)
    and the height observations (ObsModel.hgtObs) fit together.  Exact reals.
    [d] is the vertical position estimate (down). *)
From Coq Require Import Reals Lra Lia List ZArith Bool.
From Verif Require Import RealGeom CBase Scalar CovPredGen CovModel CovProofsR VelPosModel FusionModel RotModel GeoModel OutputModel OutputReset Props_Rot
  ResetModel Props_Reset ObsModel ObsSpec Props_Obs2.
Open Scope R_scope.

(** the innovation of the height observation *)
Definition height_innovation (src : hgtsrc) (p : hgtpar R) (i : hgtin R) (d : R) : R := fst (fst (hgtObs src p i d)).

(** ** Starting a source.  GPS: continuous; later innovations measure the
    movement of the estimate against the movement of the GPS height since then *)
Theorem C79_start_gps : forall p (i0 i : hgtin R) (d0 d : R),
  h_ref i = h_ref i0 -> h_off i = offsetGps (h_gps i0) (h_ref i0) d0 ->
  height_innovation HGps p i d = (d - d0) + (h_gps i - h_gps i0).
Proof. intros p i0 i d0 d Hr Ho. unfold height_innovation. cbn [hgtObs fst]. rewrite Hr, Ho. unfold offsetGps. cbn [sadd ssub RScalar]. ring. Qed.
Corollary C79_start_gps_continuous : forall p (i : hgtin R) (d : R),
  h_off i = offsetGps (h_gps i) (h_ref i) d -> height_innovation HGps p i d = 0.
Proof. intros p i d H. rewrite (C79_start_gps p i i d d eq_refl H). ring. Qed.
(** range finder: with an offset taken from the range, continuous while the
    range is above the ground clearance; taken from the terrain estimate, the
    innovation is the measured minus the estimated height above ground; on the
    ground, zero at the origin while the sensor reads no more than the clearance *)
Theorem C79_start_range : forall p (i : hgtin R) always air valid terrain (d : R),
  h_off i = offsetRange always air valid terrain (h_dist i) (hp_clear p) d -> hp_clear p <= h_dist i ->
  height_innovation HRange p i d =
    if always || (air && valid) then h_dist i - (terrain - d) else if air then 0 else d + (h_dist i - hp_clear p).
Proof.
  intros p i always air valid terrain d H C. unfold height_innovation. cbn [hgtObs fst]. rewrite H. unfold offsetRange, smaxi. cbn [slt ssub sopp sadd RScalar].
  assert (M : (if (if Rlt_dec (hp_clear p) (h_dist i) then true else false) then h_dist i else hp_clear p) = h_dist i) by (destruct (Rlt_dec _ _); lra).
  rewrite M. destruct always, air, valid; cbn [andb orb]; cbn [sadd RScalar]; lra.
Qed.
(** below the clearance the observation saturates: the same offset gives a
    positive innovation although nothing moved (a defect of the airborne start) *)
Theorem C79_start_range_below_clearance : forall p (i : hgtin R) terrain (d : R), h_dist i < hp_clear p ->
  (h_off i = offsetRange false true false terrain (h_dist i) (hp_clear p) d -> height_innovation HRange p i d = hp_clear p - h_dist i) /\
  (h_off i = offsetRange false false false terrain (h_dist i) (hp_clear p) d -> height_innovation HRange p i d = d).
Proof.
  intros p i terrain d C. unfold height_innovation. cbn [hgtObs fst]. unfold offsetRange, smaxi. cbn [slt ssub sopp sadd RScalar andb].
  destruct (Rlt_dec (hp_clear p) (h_dist i)); [lra|]. split; intros ->; lra.
Qed.

(** ** Resets.  What the sensors said at the reset, as height observation *)
Definition same_sensors (i : rin) (s' : rs) (h : hgtin R) : Prop :=
  h_baro h = bn_hgt i /\ h_boff h = r_boff s' /\ h_gps h = gn_hgt i /\ h_ref h = gps_alt_ref i /\ h_off h = hgt_offset i /\
  h_dist h = dist_bottom i /\ h_ev h = (if (ev_t i <=? en_t i)%Z then en_z i else vz (ev_pos i)).
Definition down (s : rs) : R := e_p (r_o s) 2%nat.
(** the measurement used for a reset has no innovation afterwards, and after a
    reset to range or GPS the barometer agrees as well *)
Theorem C79_reset_consistent : forall i p c s hp h, let s' := resetHeight i p c s in same_sensors i s' h -> 0 <= hp_dz hp ->
  (c_rng_hgt c = true -> hp_clear hp <= dist_bottom i -> height_innovation HRange hp h (down s') = 0 /\ height_innovation HBaro hp h (down s') = 0) /\
  (c_rng_hgt c = false -> c_baro_hgt c = true -> baro_faulty i = false -> height_innovation HBaro hp h (down s') = 0) /\
  (c_rng_hgt c = false -> c_baro_hgt c = false -> c_gps_hgt c = true -> gps_intermittent i = false ->
     height_innovation HGps hp h (down s') = 0 /\ height_innovation HBaro hp h (down s') = 0) /\
  (c_rng_hgt c = false -> c_baro_hgt c = false -> c_gps_hgt c = false -> c_ev_hgt c = true -> height_innovation HVision hp h (down s') = 0).
Proof.
  intros i p c s hp h s' (Eb & Ebo & Eg & Er & Eo & Ed & Ee) Dz. pose proof (C72_height_reset i p c s) as H. cbv zeta in H. fold s' in H.
  destruct H as (_ & _ & _ & _ & _ & _ & Hr & Hb & _ & Hg & _ & He & _).
  assert (B : bn_hgt i - r_boff s' = - down s' -> height_innovation HBaro hp h (down s') = 0).
  { intro E. unfold height_innovation. cbn [hgtObs fst]. rewrite C77_deadzone by exact Dz. rewrite Eb, Ebo. cbn [sadd ssub RScalar].
    replace (down s' + bn_hgt i - r_boff s') with 0 by lra. destruct (h_gnd h); [|reflexivity]. destruct (Rle_dec 0 0); lra. }
  split; [|split; [|split]].
  - intros R C. destruct (Hr R) as ((P & _) & _ & O). fold (down s') in *. split; [|apply B, O].
    unfold height_innovation. cbn [hgtObs fst]. rewrite P, Ed, Eo. unfold smaxi. cbn [slt ssub sopp RScalar]. destruct (Rlt_dec _ _); lra.
  - intros R1 R2 F. destruct (Hb R1 R2 F) as ((P & _) & _ & O). fold (down s') in *. apply B. rewrite O. lra.
  - intros R1 R2 R3 F. destruct (Hg R1 R2 R3 F) as ((P & _) & _ & O). fold (down s') in *. split; [|apply B, O].
    unfold height_innovation. cbn [hgtObs fst]. rewrite P, Eg, Er, Eo. cbn [ssub sadd RScalar]. ring.
  - intros R1 R2 R3 R4. destruct (He R1 R2 R3 R4) as ((P & _) & _). fold (down s') in *.
    unfold height_innovation. cbn [hgtObs fst]. rewrite P, Ee. cbn [ssub RScalar]. ring.
Qed.
(** the "reset to GPS" of the failure handling (control.cpp l.810-815, 893)
    first starts GPS height, which makes the offset absorb the height error:
    whatever the error of the failed barometer was, the estimate moves only by
    the difference of the two GPS samples (a defect: the height is not corrected),
    yet its variance is set to that of the GPS *)
Theorem C79_fallback_to_gps_keeps_error : forall i p c s (delayed : R), let s' := resetHeight i p c s in
  c_rng_hgt c = false -> c_baro_hgt c = false -> c_gps_hgt c = true -> gps_intermittent i = false ->
  hgt_offset i = offsetGps delayed (gps_alt_ref i) (down s) ->
  down s' = down s + (delayed - gn_hgt i) /\ posD_change (o_rst (r_o s')) = delayed - gn_hgt i /\ r_P s' 9%nat 9%nat = gn_vacc i ^ 2.
Proof.
  intros i p c s delayed s' R1 R2 R3 F O. pose proof (C72_height_reset i p c s) as H. cbv zeta in H. fold s' in H.
  destruct H as (_ & _ & _ & _ & _ & _ & _ & _ & _ & Hg & _). destruct (Hg R1 R2 R3 F) as ((P & _ & C & _) & V & _).
  unfold down in *. rewrite O in P, C. unfold offsetGps in P, C. cbn [sadd ssub RScalar] in P, C. split; [rewrite P; ring|]. split; [rewrite C; ring|exact V].
Qed.
(** falling back to the barometer moves the height by the tracking error of the
    barometer offset, which C78 bounds *)
Theorem C79_fallback_to_baro : forall i p c s, let s' := resetHeight i p c s in
  c_rng_hgt c = false -> c_baro_hgt c = true -> baro_faulty i = false ->
  down s' - down s = r_boff s - (bn_hgt i + down s).
Proof.
  intros i p c s s' R1 R2 F. pose proof (C72_height_reset i p c s) as H. cbv zeta in H. fold s' in H.
  destruct H as (_ & _ & _ & _ & _ & _ & _ & Hb & _). destruct (Hb R1 R2 F) as ((P & _) & _). unfold down in *. rewrite P. ring.
Qed.
(** together: after a history in which the barometer reading followed the height
    estimate up to a constant [t], the jump has decayed exponentially *)
Theorem C79_fallback_to_baro_bounded : forall i p c s (l : list bsample) (off0 t : R), let s' := resetHeight i p c s in
  c_rng_hgt c = false -> c_baro_hgt c = true -> baro_faulty i = false ->
  r_boff s = offset_run l off0 -> (forall b, In b l -> b_used b = true -> b_hgt b + b_posD b = t) -> bn_hgt i + down s = t ->
  Rabs (down s' - down s) <= Rabs (t - off0) * exp (- (used_time l / (10 * Rmax 1 (Rabs (t - off0))))).
Proof.
  intros i p c s l off0 t s' R1 R2 F O H T. unfold s'. rewrite (C79_fallback_to_baro i p c s R1 R2 F), T, O, Rabs_minus_sym.
  apply C78_offset_converges. exact H.
Qed.
(** after a reset to a range below the ground clearance the same range has a positive innovation (a defect) *)
Theorem C79_reset_range_below_clearance : forall i p c s hp h, let s' := resetHeight i p c s in same_sensors i s' h ->
  c_rng_hgt c = true -> dist_bottom i < hp_clear hp -> height_innovation HRange hp h (down s') = hp_clear hp - dist_bottom i.
Proof.
  intros i p c s hp h s' (_ & _ & _ & _ & Eo & Ed & _) R C. pose proof (C72_height_reset i p c s) as H. cbv zeta in H. fold s' in H.
  destruct H as (_ & _ & _ & _ & _ & _ & Hr & _). destruct (Hr R) as ((P & _) & _). fold (down s') in *.
  unfold height_innovation. cbn [hgtObs fst]. rewrite P, Ed, Eo. unfold smaxi. cbn [slt ssub sopp RScalar]. destruct (Rlt_dec _ _); lra.
Qed.
Example C79_ex : exists h : hgtin R, h_off h = offsetGps (h_gps h) (h_ref h) (-30) /\ h_gps h = 530 /\ h_ref h = 490 /\ height_innovation HGps (HgtPar 0 0 0 0 0 0 0 0 0 0) h (-30) = 0.
Proof.
  exists (HgtIn 0 0 530 1 490 (offsetGps 530 490 (-30)) 0 0 0 false). repeat split. apply C79_start_gps_continuous. reflexivity.
Qed.
Print Assumptions C79_start_gps. Print Assumptions C79_start_range. Print Assumptions C79_reset_consistent. Print Assumptions C79_fallback_to_gps_keeps_error.
Print Assumptions C79_fallback_to_baro_bounded. Print Assumptions C79_reset_range_below_clearance. Print Assumptions C79_start_range_below_clearance.

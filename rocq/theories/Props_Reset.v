(** * Property C72: resets of velocity, position and height to a source *)
From Coq Require Import Reals Lra Psatz ZArith List Lia Bool.
From Verif Require Import CBase Scalar RingBufferModel RealGeom RotModel RotProofs GeoModel OutputModel OutputReset Props_Rot CovModel CovSpec CovUpdProofs CovProofs CovQuat CovQuat2 FusionModel ResetModel ResetProofs.
Open Scope R_scope.

(** ** Specification *)
(** the first [n] velocity components (n = 2: horizontal, n = 3: all) become [v], the others stay; the change is published,
    the newest output is moved by it, the reset counters count it; attitude, position and biases stay *)
Definition velocity_becomes (n : nat) (v : nat -> R) (s s' : rs) : Prop :=
  let o := r_o s in let o' := r_o s' in
  (forall k, (k < n)%nat -> e_v o' k = v k) /\ (forall k, (n <= k < 3)%nat -> e_v o' k = e_v o k) /\
  (forall k, (k < 2)%nat -> velNE_change (o_rst o') k = v k - e_v o k) /\ (n = 3%nat -> velD_change (o_rst o') = v 2%nat - e_v o 2%nat) /\
  (forall k, (k < 3)%nat -> ov (payload (o_new o')) k = ov (payload (o_new o)) k + (e_v o' k - e_v o k)) /\
  velNE_counter (o_rst o') = ((velNE_counter (o_rst o) + 1) mod 256)%Z /\
  velD_counter (o_rst o') = (if (n =? 3)%nat then ((velD_counter (o_rst o) + 1) mod 256)%Z else velD_counter (o_rst o)) /\
  e_p o' = e_p o /\ e_q o' = e_q o /\ e_ab o' = e_ab o /\ e_vb o' = e_vb o /\
  posNE_counter (o_rst o') = posNE_counter (o_rst o) /\ posD_counter (o_rst o') = posD_counter (o_rst o) /\ quat_counter (o_rst o') = quat_counter (o_rst o).
(** the same for the horizontal position *)
Definition position_becomes (v : nat -> R) (s s' : rs) : Prop :=
  let o := r_o s in let o' := r_o s' in
  (forall k, (k < 2)%nat -> e_p o' k = v k /\ posNE_change (o_rst o') k = v k - e_p o k) /\ e_p o' 2%nat = e_p o 2%nat /\
  (forall k, (k < 3)%nat -> op (payload (o_new o')) k = op (payload (o_new o)) k + (e_p o' k - e_p o k)) /\
  posNE_counter (o_rst o') = ((posNE_counter (o_rst o) + 1) mod 256)%Z /\
  e_v o' = e_v o /\ e_q o' = e_q o /\ e_ab o' = e_ab o /\ e_vb o' = e_vb o /\
  velNE_counter (o_rst o') = velNE_counter (o_rst o) /\ velD_counter (o_rst o') = velD_counter (o_rst o) /\
  posD_counter (o_rst o') = posD_counter (o_rst o) /\ quat_counter (o_rst o') = quat_counter (o_rst o).
(** nothing but the estimates, the outputs and the covariance changes *)
Definition only_estimates (s s' : rs) : Prop := s' = setPm (r_P s') (setO (r_o s') s).

Ltac kcase := match goal with |- forall k, _ -> _ => intros [|[|[|k]]] ?; try (exfalso; lia); try reflexivity end.
Lemma vel3 v P' s : velocity_becomes 3 (vec3 v) s (setPm P' (setO (resetVelocityTo (vec3 v) (r_o s)) s)).
Proof.
  unfold velocity_becomes, resetVelocityTo, resetVerticalVelocityTo, resetHorizontalVelocityTo. cbv zeta.
  cbn [setPm setO r_o setRst setOut setVert setEV e_v e_p e_q e_ab e_vb o_new o_rst velNE_change velD_change velNE_counter velD_counter posNE_counter posD_counter quat_counter smap payload withV ov].
  split; [kcase|]. split; [kcase|]. split; [kcase|]. split; [reflexivity|]. split; [kcase|]. repeat split; reflexivity.
Qed.
Lemma vel2 v P' s : velocity_becomes 2 (vec3 v) s (setPm P' (setO (resetHorizontalVelocityTo (vec3 v) (r_o s)) s)).
Proof.
  unfold velocity_becomes, resetHorizontalVelocityTo. cbv zeta.
  cbn [setPm setO r_o setRst setOut setVert setEV e_v e_p e_q e_ab e_vb o_new o_rst velNE_change velD_change velNE_counter velD_counter posNE_counter posD_counter quat_counter smap payload withV ov].
  split; [kcase|]. split; [kcase|]. split; [kcase|]. split; [discriminate|]. split; [kcase; cbn [Nat.ltb Nat.leb addXY]; unfold addXY; cbn [Nat.ltb Nat.leb]; ring|]. repeat split; reflexivity.
Qed.
Lemma pos2 v P' s : position_becomes (vec3 v) s (setPm P' (setO (resetHorizontalPositionTo (vec3 v) (r_o s)) s)).
Proof.
  unfold position_becomes, resetHorizontalPositionTo. cbv zeta.
  cbn [setPm setO r_o setRst setOut setVert setEP e_v e_p e_q e_ab e_vb o_new o_rst posNE_change velNE_counter velD_counter posNE_counter posD_counter quat_counter smap payload withP op].
  split; [kcase; split; reflexivity|]. split; [reflexivity|]. split; [kcase; unfold addXY; cbn [Nat.ltb Nat.leb]; ring|]. repeat split; reflexivity.
Qed.

(** C72, velocity: the source is the GPS if it is used and has not failed recently, else the optical flow if used (horizontal
    only), else vision velocity if used, else zero (horizontal only); the variances are those of the source *)
Theorem C72_velocity_reset : forall i c s, let s' := resetVelocity i c s in
  only_estimates s s' /\
  (c_gps c = true /\ gps_healthy i = true -> velocity_becomes 3 (vec3 (gps_vel i)) s s' /\ block_set 3 4 (fun _ => gps_sacc i ^ 2) (r_P s) (r_P s')) /\
  (~ (c_gps c = true /\ gps_healthy i = true) -> c_flow c = true ->
     velocity_becomes 2 (vec3 (flowVelocity i s)) s s' /\ block_set 2 4 (fun _ => flowRange i s ^ 2 * flow_var i) (r_P s) (r_P s')) /\
  (~ (c_gps c = true /\ gps_healthy i = true) -> c_flow c = false -> c_ev_vel c = true ->
     velocity_becomes 3 (vec3 (visionVelocity i (r_R s))) s s' /\ block_set 3 4 (diag3 (visionCov i (r_R s))) (r_P s) (r_P s')) /\
  (~ (c_gps c = true /\ gps_healthy i = true) -> c_flow c = false -> c_ev_vel c = false ->
     velocity_becomes 2 (fun _ => 0) s s' /\ block_set 2 4 (fun _ => 25) (r_P s) (r_P s')).
Proof.
  intros i c s. cbv zeta. unfold resetVelocity, resetVelocityToGps, resetVelocityToFlow, resetVelocityToVision, resetVelocityToZero, cov.
  cbn [setO r_P]. assert (SQ : forall x : R, sqr x = x ^ 2) by (intros; unfold sqr; ring).
  assert (Z2 : forall P' s, velocity_becomes 2 (fun _ => 0) s (setPm P' (setO (resetHorizontalVelocityTo (vec3 vzero) (r_o s)) s))).
  { intros P' s0. destruct (vel2 vzero P' s0) as (A & B & C & D & E). split; [intros [|[|k]] K; [rewrite A by lia; reflexivity..|lia]|]. split; [exact B|]. split; [intros [|[|k]] K; [rewrite C by lia; reflexivity..|lia]|]. split; [discriminate|exact E]. }
  destruct (c_gps c) eqn:G; destruct (gps_healthy i) eqn:H; cbn [andb].
  1: { split; [reflexivity|]. split; [intros _; split; [apply vel3|rewrite <- SQ; apply block_ok]|]. split; [intros N; exfalso; apply N; auto|]. split; intros N; exfalso; apply N; auto. }
  all: (destruct (c_flow c) eqn:F; [|destruct (c_ev_vel c) eqn:V]).
  all: split; [reflexivity|]; split; [intros (A & B); discriminate|]; split; [|split].
  all: intros N; intros; try discriminate; split; try apply vel2; try apply vel3; try apply Z2; rewrite <- ?SQ; apply block_ok.
Qed.

(** C72, optical flow: with the flow of a camera looking along the body z axis at flat ground (rates of the true body-frame
    velocity [u] over the slant range), the reset gives the true velocity without its component along the optical axis:
    exact if that component vanishes; off by it times the sine of the tilt otherwise *)
Theorem C72_flow_velocity : forall i s u, is_rotation (r_R s) -> flow_dt i <> 0 -> 0 < m22 (r_R s) -> cos_tilt i = m22 (r_R s) ->
  let h := terrain i - e_p (r_o s) 2%nat in let range := h / m22 (r_R s) in
  clearance i <= h -> 3 / 10 < range - clearance i -> range <> 0 ->
  flow_x i / flow_dt i = vy u / range -> flow_y i / flow_dt i = - vx u / range ->
  let got := flowVelocity i s in let true := mapp (r_R s) u in
  flowRange i s = range /\
  vx got = vx true - vz u * m02 (r_R s) /\ vy got = vy true - vz u * m12 (r_R s) /\
  (vx got - vx true) ^ 2 + (vy got - vy true) ^ 2 = vz u ^ 2 * (1 - m22 (r_R s) ^ 2) /\
  (vz u = 0 -> got = true).
Proof.
  intros i s u RO DT M C. cbv zeta. intros H1 H2 RN FX FY. set (h := terrain i - e_p (r_o s) 2%nat) in *.
  assert (E : flowRange i s = h / m22 (r_R s)) by (unfold flowRange; fold h; rewrite Rmax_left, C by lra; reflexivity).
  set (rg := h / m22 (r_R s)) in *.
  assert (G : flowVelocity i s = mapp (r_R s) (mkV (vx u) (vy u) 0)).
  { unfold flowVelocity. rewrite E. destruct (Rlt_dec _ _) as [_|X]; [|exfalso; lra]. f_equal. f_equal.
    - unfold Rdiv in *. rewrite Rmult_assoc, FY. field. exact RN.
    - unfold Rdiv in *. rewrite Rmult_assoc, FX. field. exact RN. }
  split; [exact E|]. rewrite G. destruct u as [a b d]. unfold mapp. cbn [vx vy vz].
  split; [ring|]. split; [ring|]. split.
  -
    assert (K : m02 (r_R s) * m02 (r_R s) + m12 (r_R s) * m12 (r_R s) + m22 (r_R s) * m22 (r_R s) = 1).
    { destruct RO as (_ & T & _). apply (f_equal m22) in T. unfold mmul, mtr, mident in T. cbn [m00 m01 m02 m10 m11 m12 m20 m21 m22] in T. exact T. }
    transitivity (d ^ 2 * (m02 (r_R s) * m02 (r_R s) + m12 (r_R s) * m12 (r_R s))); [ring|]. replace (m02 (r_R s) * m02 (r_R s) + m12 (r_R s) * m12 (r_R s)) with (1 - m22 (r_R s) ^ 2) by lra. reflexivity.
  - intros ->. f_equal; ring.
Qed.
(** close to the ground it is zero *)
Theorem C72_flow_near_ground : forall i s, flowRange i s - clearance i <= 3 / 10 -> flowVelocity i s = vzero.
Proof. intros i s H. unfold flowVelocity. destruct (Rlt_dec _ _); [lra|reflexivity]. Qed.

(** C72, vision velocity: a vision sensor with lever arm [l] on a vehicle moving with velocity [v] and rate [w], reporting in
    the body frame, in a frame aligned with the filter's, or in its own frame to be rotated, gives exactly [v]; the
    variances are those of the sensor's covariance along the earth axes *)
Definition axis (k : nat) : V3 := match k with O => mkV 1 0 0 | 1%nat => mkV 0 1 0 | _ => mkV 0 0 1 end.
Theorem C72_vision_velocity : forall i r v, is_rotation r -> is_rotation (ev_R i) ->
  let point := vadd v (mapp r (cross (raw_rate i) (ev_lever i))) in
  (ev_body i = true -> ev_vel i = mapp (mtr r) point) ->
  (ev_body i = false -> ev_rotate i = true -> ev_vel i = mapp (mtr (ev_R i)) point) ->
  (ev_body i = false -> ev_rotate i = false -> ev_vel i = point) ->
  visionVelocity i r = v /\
  (forall k, (k < 3)%nat ->
     let to_sensor := if ev_body i then mtr r else if ev_rotate i then mtr (ev_R i) else mident in
     let a := mapp to_sensor (axis k) in diag3 (visionCov i r) k = vdot a (mapp (ev_cov i) a)).
Proof.
  intros i r v RO RE. cbv zeta. intros B C D. split.
  - assert (I : forall m x, is_rotation m -> mapp m (mapp (mtr m) x) = x).
    { intros m x (E & _ & _). rewrite <- mapp_mmul, E. destruct x as [a b d]. unfold mapp, mident. cbn [vx vy vz m00 m01 m02 m10 m11 m12 m20 m21 m22]. f_equal; ring. }
    assert (J : forall m a b, mapp m (vsub a b) = vsub (mapp m a) (mapp m b)) by (intros m a b; unfold mapp, vsub; cbn [vx vy vz]; f_equal; ring).
    assert (K : forall a b, vsub (vadd a b) b = a) by (intros [a1 a2 a3] [b1 b2 b3]; unfold vsub, vadd; cbn [vx vy vz]; f_equal; ring).
    unfold visionVelocity. destruct (ev_body i); [rewrite B by reflexivity; rewrite J, (I r _ RO); apply K|].
    destruct (ev_rotate i); [rewrite C by reflexivity; rewrite (I (ev_R i) _ RE); apply K|rewrite D by reflexivity; apply K].
  - intros k K. unfold visionCov, diag3, axis. destruct (ev_cov i) as [c00 c01 c02 c10 c11 c12 c20 c21 c22].
    destruct (ev_body i); [|destruct (ev_rotate i)]; (destruct k as [|[|[|k]]]; [| | |lia]); unfold vdot, mapp, mmul, mtr, mident; cbn [vx vy vz m00 m01 m02 m10 m11 m12 m20 m21 m22]; ring.
Qed.

(** C72, horizontal position: the GPS if used (whether healthy or not), else vision if used, else with optical flow the last
    known position (in the air) or the origin (on ground) with zero variance, else the last known position *)
Theorem C72_position_reset : forall i p c s, let s' := resetHorizontalPosition i p c s in
  only_estimates (setHprev false s) s' /\
  (c_gps c = true -> position_becomes (vec3 (gps_pos i)) s s' /\ block_set 2 7 (fun _ => gps_hacc i ^ 2) (r_P s) (r_P s')) /\
  (c_gps c = false -> c_ev_pos c = true ->
     position_becomes (vec3 (mapp (if ev_rotate i then ev_R i else mident) (ev_pos i))) s s' /\ block_set 2 7 (vec3 (ev_posvar i)) (r_P s) (r_P s')) /\
  (c_gps c = false -> c_ev_pos c = false -> c_flow c = true ->
     position_becomes (vec3 (if c_air c then last_known i else mkV 0 0 0)) s s' /\ block_set 2 7 (fun _ => 0) (r_P s) (r_P s')) /\
  (c_gps c = false -> c_ev_pos c = false -> c_flow c = false ->
     position_becomes (vec3 (last_known i)) s s' /\ block_set 2 7 (fun _ => pos_noaid_noise p ^ 2) (r_P s) (r_P s')).
Proof.
  intros i p c s. cbv zeta. unfold resetHorizontalPosition, resetPositionToGps, resetPositionToVision, cov. cbn [setHprev setO r_P].
  assert (SQ : forall x : R, sqr x = x ^ 2) by (intros; unfold sqr; ring).
  assert (Q : forall v P', position_becomes (vec3 v) s (setPm P' (setO (resetHorizontalPositionTo (vec3 v) (r_o s)) (setHprev false s)))) by (intros v P'; exact (pos2 v P' s)).
  assert (I : mapp (if ev_rotate i then ev_R i else mident) (ev_pos i) = if ev_rotate i then mapp (ev_R i) (ev_pos i) else ev_pos i).
  { destruct (ev_rotate i); [reflexivity|]. destruct (ev_pos i) as [a b d]. unfold mapp, mident. cbn [vx vy vz m00 m01 m02 m10 m11 m12 m20 m21 m22]. f_equal; ring. }
  rewrite I. destruct (c_gps c); [|destruct (c_ev_pos c); [|destruct (c_flow c)]].
  all: split; [reflexivity|]; split; [|split; [|split]]; intros; try discriminate.
  all: split; [apply Q|rewrite <- ?SQ; apply block_ok].
Qed.

(** C72, height: the vertical position becomes the source's height; with range finder and GPS height the barometer is
    re-referenced to it; a faulty barometer or intermittent GPS leaves the position alone.  The vertical velocity becomes the
    newest GPS one if GPS is used and its height is not intermittent, else zero, whatever the height source *)
Definition height_becomes (z : R) (s s' : rs) : Prop :=
  let o := r_o s in let o' := r_o s' in
  e_p o' 2%nat = z /\ (forall k, (k < 2)%nat -> e_p o' k = e_p o k) /\ posD_change (o_rst o') = z - e_p o 2%nat /\ posD_counter (o_rst o') = ((posD_counter (o_rst o) + 1) mod 256)%Z.
Definition height_kept (s s' : rs) : Prop :=
  e_p (r_o s') = e_p (r_o s) /\ posD_counter (o_rst (r_o s')) = posD_counter (o_rst (r_o s)) /\ r_boff s' = r_boff s.
Theorem C72_height_reset : forall i p c s, let s' := resetHeight i p c s in
  only_estimates (setBoff (r_boff s') s) s' /\ e_q (r_o s') = e_q (r_o s) /\ (forall k, (k < 2)%nat -> e_v (r_o s') k = e_v (r_o s) k) /\
  e_ab (r_o s') = e_ab (r_o s) /\ e_vb (r_o s') = e_vb (r_o s) /\
  (** velocity *)
  (let v := if c_gps c && negb (gps_intermittent i) then gn_vz i else 0 in
   e_v (r_o s') 2%nat = v /\ velD_change (o_rst (r_o s')) = v - e_v (r_o s) 2%nat /\ r_P s' 6%nat 6%nat = (if c_gps c && negb (gps_intermittent i) then (15 / 10 * gn_sacc i) ^ 2 else 10) /\
   (forall j, j <> 6%nat -> r_P s' 6%nat j = 0 /\ r_P s' j 6%nat = 0)) /\
  (** position *)
  (c_rng_hgt c = true -> height_becomes (hgt_offset i - dist_bottom i) s s' /\ r_P s' 9%nat 9%nat = range_noise p ^ 2 /\ bn_hgt i - r_boff s' = - e_p (r_o s') 2%nat) /\
  (c_rng_hgt c = false -> c_baro_hgt c = true -> baro_faulty i = false ->
     height_becomes (r_boff s - bn_hgt i) s s' /\ r_P s' 9%nat 9%nat = baro_noise p ^ 2 /\ r_boff s' = r_boff s) /\
  (c_rng_hgt c = false -> c_baro_hgt c = true -> baro_faulty i = true -> height_kept s s' /\ r_P s' 9%nat 9%nat = r_P s 9%nat 9%nat) /\
  (c_rng_hgt c = false -> c_baro_hgt c = false -> c_gps_hgt c = true -> gps_intermittent i = false ->
     height_becomes (hgt_offset i - (gn_hgt i - gps_alt_ref i)) s s' /\ r_P s' 9%nat 9%nat = gn_vacc i ^ 2 /\ bn_hgt i - r_boff s' = - e_p (r_o s') 2%nat) /\
  (c_rng_hgt c = false -> c_baro_hgt c = false -> c_gps_hgt c = true -> gps_intermittent i = true -> height_kept s s' /\ r_P s' 9%nat 9%nat = r_P s 9%nat 9%nat) /\
  (** the newest vision height unless the delayed one is more recent; as received, and without its variance (a defect) *)
  (c_rng_hgt c = false -> c_baro_hgt c = false -> c_gps_hgt c = false -> c_ev_hgt c = true ->
     height_becomes (if (ev_t i <=? en_t i)%Z then en_z i else vz (ev_pos i)) s s' /\ r_P s' 9%nat 9%nat = r_P s 9%nat 9%nat /\ r_boff s' = r_boff s) /\
  (c_rng_hgt c = false -> c_baro_hgt c = false -> c_gps_hgt c = false -> c_ev_hgt c = false -> height_kept s s' /\ r_P s' 9%nat 9%nat = r_P s 9%nat 9%nat) /\
  (** the covariance of the other states *)
  (forall a b, a <> 6%nat -> b <> 6%nat -> a <> 9%nat -> b <> 9%nat -> r_P s' a b = r_P s a b).
Proof.
  intros i p c s. cbv zeta.
  set (s1 := resetHeightPos i p c s). unfold resetHeight. fold s1.
  assert (SQ : forall x : R, sqr x = x ^ 2) by (intros; unfold sqr; ring).
  (* the velocity part *)
  assert (V : forall t, let t' := resetHeightVel i c t in
    only_estimates t t' /\ e_q (r_o t') = e_q (r_o t) /\ e_p (r_o t') = e_p (r_o t) /\ e_ab (r_o t') = e_ab (r_o t) /\ e_vb (r_o t') = e_vb (r_o t) /\ (forall k, (k < 2)%nat -> e_v (r_o t') k = e_v (r_o t) k) /\
    posD_change (o_rst (r_o t')) = posD_change (o_rst (r_o t)) /\ posD_counter (o_rst (r_o t')) = posD_counter (o_rst (r_o t)) /\ r_boff t' = r_boff t /\
    (let v := if c_gps c && negb (gps_intermittent i) then gn_vz i else 0 in e_v (r_o t') 2%nat = v /\ velD_change (o_rst (r_o t')) = v - e_v (r_o t) 2%nat) /\
    block_set 1 6 (fun _ => if c_gps c && negb (gps_intermittent i) then (15 / 10 * gn_sacc i) ^ 2 else 10) (r_P t) (r_P t')).
  { intros t. cbv zeta. unfold resetHeightVel. destruct (c_gps c && negb (gps_intermittent i));
    (split; [reflexivity|]; split; [reflexivity|]; split; [reflexivity|]; split; [reflexivity|]; split; [reflexivity|]; split; [kcase|];
     split; [reflexivity|]; split; [reflexivity|]; split; [reflexivity|]; split; [split; reflexivity|]); rewrite <- ?SQ; apply block_ok. }
  (* the position part *)
  assert (E1 : only_estimates (setBoff (r_boff s1) s) s1 /\ e_q (r_o s1) = e_q (r_o s) /\ e_v (r_o s1) = e_v (r_o s) /\ e_ab (r_o s1) = e_ab (r_o s) /\ e_vb (r_o s1) = e_vb (r_o s) /\
    (forall a b, a <> 9%nat -> b <> 9%nat -> r_P s1 a b = r_P s a b)).
  { unfold s1, resetHeightPos.
    assert (K : forall v (P : Mat R) a b, a <> 9%nat -> b <> 9%nat -> uncorrelateSet 1 9 v P a b = P a b).
    { intros v P a b A B. apply (proj2 (proj2 (block_ok 1 9 v P))); lia. }
    destruct (c_rng_hgt c); [|destruct (c_baro_hgt c); [destruct (baro_faulty i)|destruct (c_gps_hgt c); [destruct (gps_intermittent i)|destruct (c_ev_hgt c)]]];
    (split; [destruct s; reflexivity|]; split; [reflexivity|]; split; [reflexivity|]; split; [reflexivity|]; split; [reflexivity|]; intros a b A B; try reflexivity; apply K; assumption). }
  destruct E1 as (E1 & Q1 & V1 & AB1 & VB1 & P1). destruct (V s1) as (E2 & Q2 & P2 & AB2 & VB2 & H2 & C2 & N2 & B2 & (VV & VC) & (BV & BO & BK)).
  set (s' := resetHeightVel i c s1) in *.
  assert (P9 : forall a b, a <> 6%nat -> b <> 6%nat -> r_P s' a b = r_P s1 a b) by (intros; apply BK; lia).
  split. { rewrite B2. unfold only_estimates in *. rewrite E2 at 1. rewrite E1. destruct s; reflexivity. }
  split; [congruence|]. split; [intros k K; rewrite H2 by exact K; rewrite V1; reflexivity|]. split; [congruence|]. split; [congruence|].
  split. { split; [exact VV|]. split; [rewrite VC, V1; reflexivity|]. split; [exact (BV 0%nat ltac:(lia))|]. intros j J. apply BO; lia. }
  assert (HB : forall z (s1' := height_to z s), s1 = s1' -> False -> True) by auto. clear HB.
  assert (HB : forall z t, r_o t = resetVerticalPositionTo z (r_o s) -> t = s1 -> height_becomes z s s').
  { intros z t OT ->. unfold height_becomes. rewrite P2, C2, N2, OT. split; [reflexivity|]. split; [kcase|]. split; reflexivity. }
  assert (HK : s1 = s -> height_kept s s' /\ r_P s' 9%nat 9%nat = r_P s 9%nat 9%nat).
  { intros ES. unfold height_kept. rewrite P2, N2, B2, (P9 9%nat 9%nat) by lia. rewrite ES. repeat split. }
  assert (D9 : forall v (P : Mat R), uncorrelateSet 1 9 v P 9%nat 9%nat = v 0%nat) by (intros v P; exact (proj1 (block_ok 1 9 v P) 0%nat ltac:(lia))).
  split. { intros A. assert (S1 : s1 = rebaro i (cov 1 9 (fun _ => sqr (range_noise p)) (height_to (hgt_offset i - dist_bottom i) s))) by (unfold s1, resetHeightPos; rewrite A; reflexivity).
    split; [apply (HB _ s1); [rewrite S1; reflexivity|reflexivity]|]. split; [rewrite (P9 9%nat 9%nat) by lia; rewrite S1, <- SQ; apply D9|]. rewrite B2, P2, S1. cbn [rebaro setBoff r_boff r_o cov setPm height_to setO resetVerticalPositionTo setVert setOut setRst setEP e_p Nat.eqb]. ring. }
  split. { intros A B C. assert (S1 : s1 = cov 1 9 (fun _ => sqr (baro_noise p)) (height_to (- bn_hgt i + r_boff s) s)) by (unfold s1, resetHeightPos; rewrite A, B, C; reflexivity).
    split; [replace (r_boff s - bn_hgt i) with (- bn_hgt i + r_boff s) by ring; apply (HB _ s1); [rewrite S1; reflexivity|reflexivity]|]. split; [rewrite (P9 9%nat 9%nat) by lia; rewrite S1, <- SQ; apply D9|]. rewrite B2, S1. reflexivity. }
  split. { intros A B C. apply HK. unfold s1, resetHeightPos. rewrite A, B, C. reflexivity. }
  split. { intros A B C D. assert (S1 : s1 = rebaro i (cov 1 9 (fun _ => sqr (gn_vacc i)) (height_to (hgt_offset i - gn_hgt i + gps_alt_ref i) s))) by (unfold s1, resetHeightPos; rewrite A, B, C, D; reflexivity).
    split; [replace (hgt_offset i - (gn_hgt i - gps_alt_ref i)) with (hgt_offset i - gn_hgt i + gps_alt_ref i) by ring; apply (HB _ s1); [rewrite S1; reflexivity|reflexivity]|]. split; [rewrite (P9 9%nat 9%nat) by lia; rewrite S1, <- SQ; apply D9|]. rewrite B2, P2, S1. cbn [rebaro setBoff r_boff r_o cov setPm height_to setO resetVerticalPositionTo setVert setOut setRst setEP e_p Nat.eqb]. ring. }
  split. { intros A B C D. apply HK. unfold s1, resetHeightPos. rewrite A, B, C, D. reflexivity. }
  split. { intros A B C D. assert (S1 : s1 = height_to (if (ev_t i <=? en_t i)%Z then en_z i else vz (ev_pos i)) s) by (unfold s1, resetHeightPos; rewrite A, B, C, D; reflexivity).
    split; [apply (HB _ s1); [rewrite S1; reflexivity|reflexivity]|]. split; [rewrite (P9 9%nat 9%nat) by lia; rewrite S1; reflexivity|rewrite B2, S1; reflexivity]. }
  split. { intros A B C D. apply HK. unfold s1, resetHeightPos. rewrite A, B, C, D. reflexivity. }
  intros a b A6 B6 A9 B9. rewrite P9 by assumption. apply P1; assumption.
Qed.

(** C72: none of these resets makes the covariance indefinite (for non-negative source variances) *)
Theorem C72_covariance_stays_psd : forall i p c s, psd (r_P s) -> 0 <= flow_var i ->
  (forall k, (k < 3)%nat -> 0 <= diag3 (visionCov i (r_R s)) k) -> (forall k, (k < 2)%nat -> 0 <= vec3 (ev_posvar i) k) ->
  psd (r_P (resetVelocity i c s)) /\ psd (r_P (resetHorizontalPosition i p c s)) /\ psd (r_P (resetHeight i p c s)).
Proof.
  intros i p c s HP HF HV HE. assert (Q : forall x : R, 0 <= sqr x) by (intros x; unfold sqr; nra).
  assert (U : forall w f v (P : Mat R), psd P -> (forall k, (k < w)%nat -> 0 <= v k) -> psd (uncorrelateSet w f v P)) by (intros; apply psd_uncorrelateSet; assumption).
  split; [|split].
  - unfold resetVelocity, resetVelocityToGps, resetVelocityToFlow, resetVelocityToVision, resetVelocityToZero, cov.
    destruct (c_gps c && gps_healthy i); [|destruct (c_flow c); [|destruct (c_ev_vel c)]]; cbn [setPm setO r_P]; (apply U; [exact HP|]); intros k K; [apply Q| |apply HV; exact K|lra].
    apply Rmult_le_pos; [apply Q|exact HF].
  - unfold resetHorizontalPosition, resetPositionToGps, resetPositionToVision, cov.
    destruct (c_gps c); [|destruct (c_ev_pos c); [|destruct (c_flow c)]]; cbn [setPm setO setHprev r_P]; (apply U; [exact HP|]); intros k K; [apply Q|apply HE; exact K|lra|apply Q].
  - assert (H1 : psd (r_P (resetHeightPos i p c s))).
    { unfold resetHeightPos, rebaro, cov, height_to. destruct (c_rng_hgt c); [|destruct (c_baro_hgt c); [destruct (baro_faulty i)|destruct (c_gps_hgt c); [destruct (gps_intermittent i)|destruct (c_ev_hgt c)]]];
      cbn [setPm setO setBoff r_P]; try exact HP; (apply U; [exact HP|]); intros k K; apply Q. }
    unfold resetHeight, resetHeightVel, cov. destruct (c_gps c && negb (gps_intermittent i)); cbn [setPm setO r_P]; (apply U; [exact H1|]); intros k K; [apply Q|lra].
Qed.
(** so the flow reset is not exact in tilted flight (a defect): flying north at 1 m/s, pitched down so that sine = 3/5, it gives 16/25 m/s *)
Definition tilted : M3 := mkM (4 / 5) 0 (- (3 / 5))  0 1 0  (3 / 5) 0 (4 / 5).
Definition fl_ost : ost R := mkO (fun _ => 0) (fun _ => 0) (vec3 vzero) (fun _ => 0) (fun _ => 0)
  {| time_us := 0; payload := mkOut (fun _ => 0) (fun _ => 0) (fun _ => 0) |} {| time_us := 0; payload := mkVert 0 0 0 |}
  {| buffer := nil; head := 0; tail := 0; size := 0; first_write := true |} {| buffer := nil; head := 0; tail := 0; size := 0; first_write := true |}
  (mkRst (fun _ => 0) 0 0 255 (fun _ => 0) 0 0 0 (fun _ => 0) 0) (fun _ => 0) (fun _ => 0) (fun _ => 0) (fun _ => 0) (fun _ => 0) 0.
Definition fl_s : rs := RS fl_ost (fun i j => if (i =? j)%nat then 1 else 0) tilted vzero vzero 0 0 0 0 vzero (fun _ => 0) (fun _ _ => 0) true true false false true 0 false.
(** ground 4 m below, slant range 5 m *)
Definition fl_i : rin := RIn vzero vzero 1 1 0 0 0 0 0 false false 0 false 0 0 (4 / 5) 0 0 0 vzero vzero vzero mident false qone (1 / 100) mident false vzero vzero
  0 (- (4 / 5) / 5) 1 (1 / 100) 4 (1 / 10) vzero vzero vzero false 100 false 0.
Lemma tilted_rot : is_rotation tilted.
Proof. unfold is_rotation, mmul, mtr, mident, mdet, tilted. cbn [m00 m01 m02 m10 m11 m12 m20 m21 m22]. split; [f_equal; field|split; [f_equal; field|field]]. Qed.
Theorem C72_flow_velocity_exact_refuted :
  ~ (forall i s u, is_rotation (r_R s) -> flow_dt i <> 0 -> 0 < m22 (r_R s) -> cos_tilt i = m22 (r_R s) ->
      let h := terrain i - e_p (r_o s) 2%nat in let range := h / m22 (r_R s) in
      clearance i <= h -> 3 / 10 < range - clearance i -> range <> 0 ->
      flow_x i / flow_dt i = vy u / range -> flow_y i / flow_dt i = - vx u / range ->
      vx (flowVelocity i s) = vx (mapp (r_R s) u)).
Proof.
  intros H. specialize (H fl_i fl_s (mkV (4 / 5) 0 (- (3 / 5))) tilted_rot). cbn [fl_i fl_s r_R tilted flow_dt m22 cos_tilt terrain r_o fl_ost e_p vec3 vzero vx vy vz clearance flow_x flow_y] in H.
  cbv zeta in H. specialize (H ltac:(lra) ltac:(lra) eq_refl ltac:(lra) ltac:(lra) ltac:(lra) ltac:(lra) ltac:(lra)).
  pose proof (C72_flow_velocity fl_i fl_s (mkV (4 / 5) 0 (- (3 / 5))) tilted_rot) as E. cbn [fl_i fl_s r_R tilted flow_dt m22 cos_tilt terrain r_o fl_ost e_p vec3 vzero vx vy vz clearance flow_x flow_y] in E.
  cbv zeta in E. specialize (E ltac:(lra) ltac:(lra) eq_refl ltac:(lra) ltac:(lra) ltac:(lra) ltac:(lra) ltac:(lra)). destruct E as (_ & E & _).
  fold tilted fl_ost in E, H. unfold mapp in E, H. cbn [vx vy vz m00 m01 m02 tilted] in E, H. lra.
Qed.
Print Assumptions C72_velocity_reset. Print Assumptions C72_flow_velocity. Print Assumptions C72_flow_near_ground. Print Assumptions C72_vision_velocity.
Print Assumptions C72_position_reset. Print Assumptions C72_height_reset. Print Assumptions C72_covariance_stays_psd. Print Assumptions C72_flow_velocity_exact_refuted.

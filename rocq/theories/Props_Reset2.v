(** * Properties C73 (heading resets) and C74 (bias and wind resets) *)
From Coq Require Import Reals Lra Psatz ZArith List Lia Bool.
From Verif Require Import CBase Scalar RingBufferModel RealGeom RotModel RotProofs GeoModel GeoProofs OutputModel OutputReset Props_Rot CovModel CovSpec CovUpdProofs CovProofs CovQuat CovQuat2 FusionModel ResetModel ResetProofs ResetProofs2 Props_Reset.
Open Scope R_scope.

(** ** Specification *)
(** the attitude is consistent: unit quaternion, and its matrix *)
Definition attitude_ok (s : rs) : Prop := qnorm2 (attq s) = 1 /\ r_R s = dcm (attq s).
(** rotation about the vertical by [a] *)
Definition turn (a : R) : M3 := mkM (cos a) (- sin a) 0  (sin a) (cos a) 0  0 0 1.
(** same direction of down in body axes, i.e. same roll and pitch *)
Definition same_tilt (r r' : M3) : Prop := m20 r' = m20 r /\ m21 r' = m21 r /\ m22 r' = m22 r.
(** velocity, position, biases and wind are kept *)
Definition motion_kept (s s' : rs) : Prop :=
  e_v (r_o s') = e_v (r_o s) /\ e_p (r_o s') = e_p (r_o s) /\ e_ab (r_o s') = e_ab (r_o s) /\ e_vb (r_o s') = e_vb (r_o s) /\ r_wn s' = r_wn s /\ r_we s' = r_we s /\ r_boff s' = r_boff s.
(** the attitude variance after a heading reset: the attitude is uncorrelated from the other states, its own block grows by the
    yaw variance (at most 0.01 rad^2, not at all if below 2^-23) along the yaw derivative of the quaternion *)
Definition yaw_variance (var : R) (s s' : rs) : Prop :=
  (forall i j, ((i < 4)%nat /\ (4 <= j)%nat) \/ ((4 <= i)%nat /\ (j < 4)%nat) -> r_P s' i j = 0) /\
  (forall i j, (i < 4)%nat -> (j < 4)%nat ->
     let q := attq s' in let D := fun k : nat => match k with O => - q3 q / 2 | 1%nat => - q2 q / 2 | 2%nat => q1 q / 2 | _ => q0 q / 2 end in
     r_P s' i j = r_P s i j + (if Rlt_dec (1 / 2 ^ 23) var then Rmin var (1 / 100) else 0) * D i * D j).
(** the magnetic field covariance is reset, that of the states 4..15 and 22, 23 kept *)
Definition mag_cov_reset (noise : R) (s s' : rs) : Prop :=
  (forall i, (16 <= i < 22)%nat -> r_P s' i i = noise ^ 2 /\ forall j, j <> i -> r_P s' i j = 0 /\ r_P s' j i = 0) /\
  (forall i j, (4 <= i)%nat -> (4 <= j)%nat -> ~ (16 <= i < 22)%nat -> ~ (16 <= j < 22)%nat -> r_P s' i j = r_P s i j).

Lemma ok_rot s : attitude_ok s -> is_rotation (r_R s).
Proof. intros (U & E). rewrite E. apply dcm_rotation. exact U. Qed.
Lemma yawReset_yv yaw var upd s : qnorm2 (attq s) = 1 -> yaw_variance var s (yawReset yaw var upd s).
Proof.
  intros U. destruct (yawReset_cov yaw var upd s U) as (A & B & C & _). split; [exact A|]. intros i j I J. cbv zeta.
  destruct (Rlt_dec (1 / 2 ^ 23) var) as [L|L]; [apply yawReset_var; assumption|]. rewrite C by (assumption || lra). ring.
Qed.
(** a heading reset followed by setting the field and resetting its covariance *)
Lemma heading_then_mag yaw var upd mi mb p c s : attitude_ok s ->
  let s1 := yawReset yaw var upd s in let s' := magCovReset p c (setMag mi mb s1) in
  attitude_ok s' /\ r_R s' = updateYawInRotMat yaw (r_R s) /\ same_tilt (r_R s) (r_R s') /\ motion_kept s s' /\ r_mi s' = mi /\ r_mb s' = mb /\
  yaw_variance var s s' /\ mag_cov_reset (mag_noise p) s s' /\ r_declreset s' = false /\ (psd (r_P s) -> psd (r_P s')).
Proof.
  intros (U & E). cbv zeta. set (s1 := yawReset yaw var upd s).
  destruct (yawReset_ok yaw var upd s U) as (N1 & D1 & M1 & T0 & T1 & T2 & _). fold s1 in N1, D1, M1, T0, T1, T2.
  destruct (yawReset_o yaw var upd s) as (O1 & O2 & O3 & O4 & _ & _ & O7 & O8 & O9 & _). fold s1 in O1, O2, O3, O4, O7, O8, O9.
  destruct (magCovReset_o p c (setMag mi mb s1)) as (K1 & K2 & K3 & K4 & K5 & K6 & K7 & K8 & _ & _ & _ & _ & _ & K14). set (s' := magCovReset p c (setMag mi mb s1)) in *.
  cbn [setMag r_o r_R r_mi r_mb r_P r_wn r_we r_boff] in *.
  assert (AQ : attq s' = attq s1) by (unfold attq; rewrite K1; reflexivity).
  destruct (magCov_ok (mag_noise p) (r_P s1)) as (B1 & B2 & B3). rewrite <- K5 in B1, B2, B3.
  split; [split; [rewrite AQ; exact N1|rewrite K2, AQ; exact D1]|]. split; [rewrite K2, E; reflexivity|].
  split; [unfold same_tilt; rewrite K2, E; repeat split; assumption|].
  split; [unfold motion_kept; rewrite K1, K7, K8, K14; repeat split; assumption|]. split; [exact K3|]. split; [exact K4|].
  destruct (yawReset_yv yaw var upd s U) as (Y1 & Y2). fold s1 in Y1, Y2. destruct (yawReset_cov yaw var upd s U) as (_ & C2 & _ & C4). fold s1 in C2, C4.
  assert (Q : forall i j, ~ (16 <= i < 22)%nat -> ~ (16 <= j < 22)%nat -> r_P s' i j = r_P s1 i j) by (intros; apply B3; lia).
  split. { split.
    - intros i j O. destruct (le_lt_dec 16 i) as [I|I]; [destruct (le_lt_dec 22 i) as [I2|I2]; [|apply (B2 i j); lia]|]; (destruct (le_lt_dec 16 j) as [J|J]; [destruct (le_lt_dec 22 j) as [J2|J2]; [|apply (B2 j i); lia]|]); rewrite Q by lia; apply Y1; lia.
    - intros i j I J. cbv zeta. rewrite AQ, Q by lia. apply Y2; assumption. }
  split. { split.
    - intros i I. split; [|intros j J; apply B2; lia]. replace i with (16 + (i - 16))%nat at 1 2 by lia. rewrite B1 by lia. ring.
    - intros i j I J NI NJ. rewrite Q by assumption. apply C2; assumption. }
  split; [exact K6|]. intros HP. rewrite K5. unfold resetMagCov, zeroMagCov.
  assert (Z : forall k : nat, (k < 3)%nat -> 0 <= @szero R RScalar) by (intros; rewrite szR; lra). assert (Z2 : forall k : nat, (k < 3)%nat -> 0 <= sq (mag_noise p)) by (intros; unfold sq; cbn [smul RScalar]; nra).
  apply psd_uncorrelateSet; [|exact Z2]. apply psd_uncorrelateSet; [|exact Z2]. apply psd_uncorrelateSet; [|exact Z]. apply psd_uncorrelateSet; [|exact Z]. apply C4. exact HP.
Qed.
(** both later steps only touch the alignment time and flags *)
Lemma align_frame t s : attq (setAlign t s) = attq s /\ r_R (setAlign t s) = r_R s /\ r_P (setAlign t s) = r_P s /\ r_mi (setAlign t s) = r_mi s /\ r_mb (setAlign t s) = r_mb s.
Proof. repeat split. Qed.

(** ** C73 *)
(** C73, compass: the heading becomes the one that puts the horizontal field at the declination; tilt, velocity, position,
    biases and wind are kept; the field states become the measured field in earth axes, of the measured strength; it is done
    only once per delayed sample time *)
Theorem C73_compass_heading : forall i p c mag incr upd s, attitude_ok s ->
  horizon i <> r_align s -> mag_none p = false -> c_ev_yaw c = false -> mag_usable p = true ->
  let decl := if r_inflight s then atan2 (vy (r_mi s)) (vx (r_mi s)) else if geo_decl p then decl_gps p else decl_param p in
  let (ok, s') := magReset i p c mag incr upd s in
  ok = true /\ attitude_ok s' /\ same_tilt (r_R s) (r_R s') /\ motion_kept s s' /\ r_align s' = horizon i /\ r_mb s' = r_mb s /\
  r_mi s' = mapp (r_R s') mag /\ vnorm2 (r_mi s') = vnorm2 mag /\
  yaw_variance (if incr then Rmax (mag_heading_noise p) (1 / 100) ^ 2 else 0) s s' /\ mag_cov_reset (mag_noise p) s s' /\ (psd (r_P s) -> psd (r_P s')) /\
  ((vx (r_mi s') <> 0 \/ vy (r_mi s') <> 0) -> exists h, 0 < h /\ vx (r_mi s') = h * cos decl /\ vy (r_mi s') = h * sin decl) /\
  (** if the tilt is right and the earth field has that declination, the attitude becomes the true one *)
  (forall rt b, is_rotation rt -> same_tilt (r_R s) rt -> mapp rt mag = b -> (exists h, 0 < h /\ vx b = h * cos decl /\ vy b = h * sin decl) -> r_R s' = rt /\ r_mi s' = b) /\
  (** a second reset at the same time does nothing *)
  magReset i p c mag incr upd s' = (true, s').
Proof.
  intros i p c mag incr upd s OK H NN EY MU. cbv zeta.
  set (decl := if r_inflight s then atan2 (vy (r_mi s)) (vx (r_mi s)) else if geo_decl p then decl_gps p else decl_param p).
  assert (DE : declination p s = decl) by (unfold declination, getMagDeclination, decl; destruct (r_inflight s); [reflexivity|destruct (geo_decl p); reflexivity]).
  destruct (magReset i p c mag incr upd s) as [ok s'] eqn:EM. unfold magReset in EM. rewrite (proj2 (Z.eqb_neq _ _) H), NN, EY, MU in EM. cbv zeta in EM. rewrite DE in EM.
  set (e := mapp (updateYawInRotMat 0 (r_R s)) mag) in *. set (yaw := - atan2 (vy e) (vx e) + decl) in *. set (var := if incr then sqr (Rmax (mag_heading_noise p) (1 / 100)) else 0) in *.
  pose proof (heading_then_mag yaw var upd (mapp (r_R (yawReset yaw var upd s)) mag) (r_mb (yawReset yaw var upd s)) p c s OK) as HM. cbv zeta in HM.
  set (s2 := magCovReset p c (setMag (mapp (r_R (yawReset yaw var upd s)) mag) (r_mb (yawReset yaw var upd s)) (yawReset yaw var upd s))) in *.
  injection EM as <- <-. destruct HM as (A & B & C & D & E & F & G & I & J & K). pose proof (ok_rot s OK) as RO. pose proof (ok_rot s2 A) as R2.
  assert (R1 : r_R (yawReset yaw var upd s) = r_R s2) by (unfold s2; rewrite (proj1 (proj2 (magCovReset_o _ _ _))); reflexivity). rewrite R1 in E.
  assert (VE : (if incr then Rmax (mag_heading_noise p) (1 / 100) ^ 2 else 0) = var) by (unfold var; destruct incr; [unfold sqr; ring|reflexivity]).
  split; [reflexivity|]. split; [exact A|]. split; [exact C|]. split; [exact D|]. split; [reflexivity|]. split; [exact F|]. split; [exact E|].
  split. { cbn [setAlign r_mi]. rewrite E. destruct R2 as (_ & T & _). destruct mag as [a b d]. set (r := r_R s2) in *.
    unfold mmul, mtr, mident in T. injection T as t1 t2 t3 t4 t5 t6 t7 t8 t9. unfold vnorm2, vdot, mapp. cbn [vx vy vz].
    transitivity (a * a * (m00 r * m00 r + m10 r * m10 r + m20 r * m20 r) + b * b * (m01 r * m01 r + m11 r * m11 r + m21 r * m21 r) + d * d * (m02 r * m02 r + m12 r * m12 r + m22 r * m22 r)
      + 2 * a * b * (m00 r * m01 r + m10 r * m11 r + m20 r * m21 r) + 2 * a * d * (m00 r * m02 r + m10 r * m12 r + m20 r * m22 r) + 2 * b * d * (m01 r * m02 r + m11 r * m12 r + m21 r * m22 r)); [ring|].
    cbn [m00 m01 m02 m10 m11 m12 m20 m21 m22] in *. rewrite t1, t2, t3, t5, t6, t9. ring. }
  split; [rewrite VE; exact G|]. split; [exact I|]. split; [exact K|]. split; [|split].
  - cbn [setAlign r_mi]. intros NZ. rewrite E, B, upd_Rz in NZ |- *.
    assert (NE : vx e <> 0 \/ vy e <> 0).
    { destruct (Req_dec (vx e) 0) as [X|X]; [|left; exact X]. destruct (Req_dec (vy e) 0) as [Y|Y]; [|right; exact Y]. exfalso. rewrite mapp_mmul in NZ. fold e in NZ. unfold mapp, Rz in NZ. cbn [vx vy m00 m01 m02 m10 m11 m12] in NZ. rewrite X, Y in NZ. destruct NZ as [N|N]; apply N; ring. }
    destruct (mag_direction (r_R s) mag decl NE) as (P & X & Y & _). eexists. split; [exact P|]. split; [exact X|exact Y].
  - intros rt b RT (T0 & T1 & T2) MB HB. cbn [setAlign r_mi r_R]. pose proof (mag_true (r_R s) rt mag decl b RO RT T0 T1 T2 MB HB) as M. cbv zeta in M. fold e yaw in M. rewrite <- upd_Rz, <- B in M. split; [exact M|]. rewrite E, M. exact MB.
  - unfold magReset. cbn [setAlign r_align]. rewrite Z.eqb_refl. reflexivity.
Qed.
(** C73, without a usable source nothing happens: magnetometer use off (false), indoor type without heading (true), other types (false) *)
Theorem C73_no_source : forall i p c mag incr upd s, horizon i <> r_align s ->
  (mag_none p = true -> magReset i p c mag incr upd s = (false, s)) /\
  (mag_none p = false -> c_ev_yaw c = false -> mag_usable p = false -> magReset i p c mag incr upd s = (indoor_inhibited p, s)).
Proof.
  intros i p c mag incr upd s H. unfold magReset. rewrite (proj2 (Z.eqb_neq _ _) H). split; [intros ->; reflexivity|intros -> -> ->]. destruct (indoor_inhibited p); reflexivity.
Qed.
(** C73, vision: when vision gives the heading, the compass reset takes the vision 312 heading, and starting vision heading
    fusion takes its 321 heading; each gives the vision attitude exactly if vision has the filter's tilt and that sequence
    is the one in use for it ... *)
Theorem C73_vision_heading : forall i p c mag incr upd s, attitude_ok s -> qnorm2 (ev_quat i) = 1 -> same_tilt (r_R s) (dcm (ev_quat i)) ->
  (let s' := evYawReset i s in attitude_ok s' /\ same_tilt (r_R s) (r_R s') /\ motion_kept s s' /\ yaw_variance (Rmax (ev_angvar i) (1 / 10000)) s s' /\
    (shouldUse321 (r_R s) = true -> r_R s' = dcm (ev_quat i))) /\
  (horizon i <> r_align s -> mag_none p = false -> c_ev_yaw c = true ->
    let (ok, s') := magReset i p c mag incr upd s in
    ok = true /\ attitude_ok s' /\ same_tilt (r_R s) (r_R s') /\ motion_kept s s' /\ r_mi s' = mapp (r_R s') mag /\
    yaw_variance (if incr then Rmax (ev_angvar i) (1 / 10000) else 0) s s' /\
    (shouldUse321 (r_R s) = false -> r_R s' = dcm (ev_quat i))).
Proof.
  intros i p c mag incr upd s OK EU (T0 & T1 & T2). pose proof (ok_rot s OK) as RO. pose proof (dcm_rotation (ev_quat i) EU) as RE.
  assert (S : forall b, shouldUse321 (r_R s) = b -> shouldUse321 (dcm (ev_quat i)) = b) by (intros b <-; unfold shouldUse321; rewrite T0, T1; reflexivity).
  pose proof (seq_true (r_R s) (dcm (ev_quat i)) RO RE T0 T1 T2) as ST. destruct (yaw_overloads (ev_quat i)) as (Y1 & Y2).
  assert (SQ : sqr (1 / 100) = 1 / 10000) by (unfold sqr; field).
  split.
  - cbv zeta. unfold evYawReset. rewrite SQ. destruct OK as (U & E). destruct (yawReset_ok (yaw321_q (ev_quat i)) (Rmax (ev_angvar i) (1 / 10000)) true s U) as (N1 & D1 & M1 & A0 & A1 & A2 & _).
    destruct (yawReset_o (yaw321_q (ev_quat i)) (Rmax (ev_angvar i) (1 / 10000)) true s) as (O1 & O2 & O3 & O4 & _ & _ & O7 & O8 & O9 & _).
    split; [split; assumption|]. split; [unfold same_tilt; rewrite E; repeat split; assumption|]. split; [repeat split; assumption|]. split; [apply yawReset_yv; exact U|].
    intros B. rewrite M1, <- upd_Rz, <- E, Y1. unfold seq_yaw in ST. rewrite (S true B) in ST. exact ST.
  - intros H NN EY. destruct (magReset i p c mag incr upd s) as [ok s'] eqn:EM. unfold magReset in EM. rewrite (proj2 (Z.eqb_neq _ _) H), NN, EY in EM. cbv zeta in EM. rewrite SQ in EM.
    set (yaw := yaw312_q (ev_quat i)) in *. set (var := if incr then Rmax (ev_angvar i) (1 / 10000) else 0) in *.
    pose proof (heading_then_mag yaw var upd (mapp (r_R (yawReset yaw var upd s)) mag) (r_mb (yawReset yaw var upd s)) p c s OK) as HM. cbv zeta in HM.
    set (s2 := magCovReset p c (setMag (mapp (r_R (yawReset yaw var upd s)) mag) (r_mb (yawReset yaw var upd s)) (yawReset yaw var upd s))) in *.
    injection EM as <- <-. destruct HM as (A & B & C & D & E & F & G & I & J & K).
    assert (R1 : r_R (yawReset yaw var upd s) = r_R s2) by (unfold s2; rewrite (proj1 (proj2 (magCovReset_o _ _ _))); reflexivity). rewrite R1 in E.
    split; [reflexivity|]. split; [exact A|]. split; [exact C|]. split; [exact D|]. split; [exact E|]. split; [exact G|].
    intros B2. cbn [setAlign r_R]. rewrite B, Y2. unfold seq_yaw in ST. rewrite (S false B2) in ST. exact ST.
Qed.
(** ... and otherwise not (a defect): with vision reporting exactly the attitude the filter already has, both turn it *)
Definition zero_out : sample (outp R) := {| time_us := 0; payload := mkOut (fun _ => 0) (fun _ => 0) (fun _ => 0) |}.
Definition zero_vert : sample (overt R) := {| time_us := 0; payload := mkVert 0 0 0 |}.
Definition ost_of (q : Q4) (v p : V3) : ost R := mkO (ofQ q) (vec3 v) (vec3 p) (fun _ => 0) (fun _ => 0) zero_out zero_vert
  {| buffer := nil; head := 0; tail := 0; size := 0; first_write := true |} {| buffer := nil; head := 0; tail := 0; size := 0; first_write := true |}
  (mkRst (fun _ => 0) 0 0 255 (fun _ => 0) 0 0 0 (fun _ => 0) 0) (ofQ q) (fun _ => 0) (fun _ => 0) (fun _ => 0) (fun _ => 0) 0.
Definition st_of (q : Q4) (v p : V3) (inflight yaw_align : bool) (bad : Z) : rs :=
  RS (ost_of q v p) (fun i j => if (i =? j)%nat then 1 else 0) (dcm q) (mkV 1 0 1) vzero 0 0 0 0 vzero (fun _ => 0) (fun _ _ => 0) true true inflight false yaw_align bad false.
(** pitched up and rolled by 73.7 degrees (pitch first / roll first) *)
Definition q_pr : Q4 := mkQ (16 / 25) (12 / 25) (12 / 25) (- (9 / 25)).
Definition q_rp : Q4 := mkQ (16 / 25) (12 / 25) (12 / 25) (9 / 25).
Lemma st_ok q v p f a b : qnorm2 q = 1 -> attitude_ok (st_of q v p f a b).
Proof. intros U. assert (E : attq (st_of q v p f a b) = q) by (destruct q; reflexivity). split; rewrite E; [exact U|reflexivity]. Qed.
Lemma pr_unit : qnorm2 q_pr = 1 /\ qnorm2 q_rp = 1. Proof. unfold qnorm2, q_pr, q_rp. cbn [q0 q1 q2 q3]. split; field. Qed.
Lemma pr_dcm : m00 (dcm q_pr) = 7 / 25 /\ m10 (dcm q_pr) = 0 /\ m01 (dcm q_pr) = 576 / 625 /\ m11 (dcm q_pr) = 7 / 25 /\ m20 (dcm q_pr) = - (24 / 25) /\ m21 (dcm q_pr) = 168 / 625.
Proof. unfold dcm, q_pr. cbn [m00 m01 m10 m11 m20 m21 q0 q1 q2 q3]. repeat split; field. Qed.
Lemma rp_dcm : m00 (dcm q_rp) = 7 / 25 /\ m10 (dcm q_rp) = 576 / 625 /\ m01 (dcm q_rp) = 0 /\ m11 (dcm q_rp) = 7 / 25 /\ m20 (dcm q_rp) = - (168 / 625) /\ m21 (dcm q_rp) = 24 / 25.
Proof. unfold dcm, q_rp. cbn [m00 m01 m10 m11 m20 m21 q0 q1 q2 q3]. repeat split; field. Qed.
Lemma pr_312 : shouldUse321 (dcm q_pr) = false.
Proof. destruct pr_dcm as (_ & _ & _ & _ & A & B). unfold shouldUse321. rewrite A, B, Rabs_left, Rabs_right by lra. destruct (Rlt_dec _ _); [lra|reflexivity]. Qed.
Lemma rp_321 : shouldUse321 (dcm q_rp) = true.
Proof. destruct rp_dcm as (_ & _ & _ & _ & A & B). unfold shouldUse321. rewrite A, B, Rabs_left, Rabs_right by lra. destruct (Rlt_dec _ _); [reflexivity|lra]. Qed.
Lemma atan2_0 x : 0 < x -> atan2 0 x = 0.
Proof. intros H. unfold atan2. destruct (Rlt_dec 0 x); [|lra]. replace (0 / x) with 0 by (field; lra). apply atan_0. Qed.
Lemma atan2_n0 y x : y <> 0 -> atan2 y x <> 0.
Proof. intros H E. destruct (atan2_polar y x (or_intror H)) as (_ & _ & S). rewrite E, sin_0 in S. lra. Qed.
Lemma pr_yaws : yaw321 (dcm q_pr) = 0 /\ yaw312 (dcm q_pr) <> 0 /\ yaw312 (dcm q_rp) = 0 /\ yaw321 (dcm q_rp) <> 0.
Proof.
  unfold yaw321, yaw312. destruct pr_dcm as (-> & -> & -> & -> & _). destruct rp_dcm as (-> & -> & -> & -> & _).
  split; [apply atan2_0; lra|]. split; [apply atan2_n0; lra|]. split; [rewrite Ropp_0; apply atan2_0; lra|apply atan2_n0; lra].
Qed.
Definition in_of (q : Q4) (gps : V3) (sacc : R) (badi : bool) : rin :=
  RIn gps vzero sacc 1 0 0 0 0 0 false true 0 false 0 0 1 0 0 0 vzero vzero vzero mident false q (1 / 100) mident false vzero vzero 0 0 (1 / 100) 0 0 0 vzero (mkV 1 0 1) (mkV 1 0 1) badi 100 false 0.
Definition par_of : rpar := RPar 1 1 1 (1 / 20) (3 / 10) 1 1 false true false false 0 0 1.
Definition flag_of (ev_yaw wind : bool) : rflag := RFlag true false false false false false false false true ev_yaw wind false.
Theorem C73_vision_heading_agrees_refuted :
  ~ (forall i s, attitude_ok s -> attq s = ev_quat i -> r_R (evYawReset i s) = r_R s) /\
  ~ (forall i p c mag incr upd s, attitude_ok s -> attq s = ev_quat i -> horizon i <> r_align s -> mag_none p = false -> c_ev_yaw c = true ->
       r_R (snd (magReset i p c mag incr upd s)) = r_R s).
Proof.
  destruct pr_unit as (U1 & U2). destruct pr_yaws as (Y1 & Y2 & Y3 & Y4). pose proof PI_RGT_0. split; intros H0.
  - specialize (H0 (in_of q_pr vzero 1 false) (st_of q_pr vzero vzero false false 0) (st_ok _ _ _ _ _ _ U1) eq_refl).
    destruct (yawReset_ok (yaw321_q q_pr) (Rmax (1 / 100) (sqr (1 / 100))) true (st_of q_pr vzero vzero false false 0) (proj1 (st_ok _ vzero vzero false false 0%Z U1))) as (_ & _ & _ & _ & _ & _ & _ & S).
    unfold evYawReset in H0. cbn [in_of ev_quat ev_angvar] in H0. rewrite H0 in S. rewrite (proj1 (yaw_overloads q_pr)), Y1 in S. specialize (S ltac:(lra)).
    cbn [st_of r_R] in S. unfold seq_yaw in S. rewrite pr_312 in S. exact (Y2 S).
  - specialize (H0 (in_of q_rp vzero 1 false) par_of (flag_of true false) vzero true true (st_of q_rp vzero vzero false false 0) (st_ok _ _ _ _ _ _ U2) eq_refl ltac:(cbn [in_of horizon st_of r_align]; lia) eq_refl eq_refl).
    unfold magReset in H0. cbn [in_of horizon st_of r_align par_of mag_none flag_of c_ev_yaw ev_quat ev_angvar Z.eqb snd setAlign r_R] in H0. rewrite (proj1 (proj2 (magCovReset_o _ _ _))) in H0. cbn [setMag r_R] in H0.
    match type of H0 with r_R (yawReset ?y ?v ?u ?s) = _ => destruct (yawReset_ok y v u s (proj1 (st_ok _ vzero vzero false false 0%Z U2))) as (_ & _ & _ & _ & _ & _ & _ & S) end.
    rewrite H0 in S. rewrite (proj2 (yaw_overloads q_rp)), Y3 in S. specialize (S ltac:(lra)). unfold seq_yaw in S. rewrite rp_321 in S. exact (Y4 S).
Qed.

(** C73, course error: turning the filter's horizontal velocity by it gives the direction of the GPS velocity *)
Theorem C73_course_error : forall i s, let v := e_v (r_o s) in
  (v 0%nat <> 0 \/ v 1%nat <> 0) -> (vx (gps_vel i) <> 0 \/ vy (gps_vel i) <> 0) ->
  - PI <= courseError i s < PI /\
  exists k, 0 < k /\ vx (mapp (turn (courseError i s)) (mkV (v 0%nat) (v 1%nat) 0)) = k * vx (gps_vel i) /\ vy (mapp (turn (courseError i s)) (mkV (v 0%nat) (v 1%nat) 0)) = k * vy (gps_vel i).
Proof.
  intros i s. cbv zeta. intros HV HG. unfold courseError. split; [apply wrap_pi_range|].
  destruct (atan2_polar _ _ HV) as (P1 & C1 & S1). destruct (atan2_polar _ _ HG) as (P2 & C2 & S2).
  destruct (wrap_pi_trig (atan2 (vy (gps_vel i)) (vx (gps_vel i)) - atan2 (e_v (r_o s) 1%nat) (e_v (r_o s) 0%nat))) as (WC & WS).
  set (g := atan2 (vy (gps_vel i)) (vx (gps_vel i))) in *. set (a := atan2 (e_v (r_o s) 1%nat) (e_v (r_o s) 0%nat)) in *.
  set (n := sqrt (e_v (r_o s) 0%nat * e_v (r_o s) 0%nat + e_v (r_o s) 1%nat * e_v (r_o s) 1%nat)) in *. set (m := sqrt (vx (gps_vel i) * vx (gps_vel i) + vy (gps_vel i) * vy (gps_vel i))) in *.
  exists (n / m). split; [apply Rdiv_lt_0_compat; assumption|]. unfold turn, mapp. cbn [vx vy m00 m01 m02 m10 m11 m12]. rewrite WC, WS, cos_minus, sin_minus, <- C1, <- S1, <- C2, <- S2.
  pose proof (sc a) as Q. split.
  - transitivity (n * cos g * (sin a * sin a + cos a * cos a)); [ring|]. rewrite Q. field. lra.
  - transitivity (n * sin g * (sin a * sin a + cos a * cos a)); [ring|]. rewrite Q. field. lra.
Qed.
(** C73, alignment to the GPS course: below 5 m/s or with a speed error above 15 % it is the compass reset; otherwise the
    heading is set from the course if it was not aligned before or if the course is off by more than 0.5 rad with failing GPS
    velocity checks, and only the field states are set otherwise *)
Theorem C73_course_alignment_needs_speed : forall i p c s, let speed := sqrt (vx (gps_vel i) ^ 2 + vy (gps_vel i) ^ 2) in
  speed <= 5 \/ 15 / 100 * speed <= gps_sacc i -> realign i p c s = magReset i p c (mag_filtered i) true true s.
Proof.
  intros i p c s. cbv zeta. intros H. unfold realign. cbv zeta. assert (E : gpsSpeed i = sqrt (vx (gps_vel i) ^ 2 + vy (gps_vel i) ^ 2)) by (unfold gpsSpeed, sqr; f_equal; ring).
  rewrite <- E in H. destruct (Rlt_dec 5 (gpsSpeed i)); destruct (Rlt_dec (gps_sacc i) (15 / 100 * gpsSpeed i)); cbn [andb negb]; try reflexivity. exfalso. lra.
Qed.
Theorem C73_course_alignment : forall i p c s, attitude_ok s -> let speed := sqrt (vx (gps_vel i) ^ 2 + vy (gps_vel i) ^ 2) in
  5 < speed -> gps_sacc i < 15 / 100 * speed ->
  let bad := 1 / 2 < Rabs (courseError i s) /\ bad_innov i = true /\ c_gps c = true in
  let (ok, s') := realign i p c s in
  ok = true /\ attitude_ok s' /\ same_tilt (r_R s) (r_R s') /\ motion_kept s s' /\ r_align s' = horizon i /\ r_yaw_align s' = r_yaw_align s /\
  r_mi s' = mapp (r_R s') (mag_delayed i) /\ mag_cov_reset (mag_noise p) s s' /\ (psd (r_P s) -> psd (r_P s')) /\
  (bad -> r_bad s' = ((r_bad s + 1) mod 256)%Z) /\ (~ bad -> r_bad s' = r_bad s) /\
  (~ bad /\ r_yaw_align s = true -> r_R s' = r_R s /\ attq s' = attq s /\ r_mb s' = r_mb s /\ r_request s' = r_request s /\ r_inflight s' = r_inflight s /\ r_fault s' = r_fault s) /\
  (bad \/ r_yaw_align s = false ->
    r_mb s' = vzero /\ (r_request s' = true <-> bad) /\ r_inflight s' = true /\
    (r_fault s' = true <-> r_fault s = true \/ (r_inflight s = true /\ (2 <= r_bad s')%Z)) /\
    yaw_variance (asin (Rmin 1 (sqrt (gps_sacc i ^ 2 + r_P s 4%nat 4%nat + r_P s 5%nat 5%nat) / speed)) ^ 2) s s' /\
    (r_inflight s = false -> r_R s' = mmul (turn (courseError i s + (yaw321 (r_R s) - seq_yaw (r_R s)))) (r_R s) /\
                             (shouldUse321 (r_R s) = true -> r_R s' = mmul (turn (courseError i s)) (r_R s))) /\
    (r_inflight s = true -> let a := if c_wind c then mkV (vx (gps_vel i) - r_wn s) (vy (gps_vel i) - r_we s) 0 else gps_vel i in
       seq_yaw (r_R s') = atan2 (vy a) (vx a) /\
       (shouldUse321 (r_R s) = true -> vx a <> 0 \/ vy a <> 0 -> exists k, 0 < k /\ m00 (r_R s') = k * vx a /\ m10 (r_R s') = k * vy a))).
Proof.
  intros i p c s OK. cbv zeta. set (speed := sqrt (vx (gps_vel i) ^ 2 + vy (gps_vel i) ^ 2)). intros SP SA.
  destruct (realign i p c s) as [ok s'] eqn:EM. unfold realign in EM. cbv zeta in EM.
  assert (ES : gpsSpeed i = speed) by (unfold speed, gpsSpeed, sqr; f_equal; ring). rewrite ES in EM.
  destruct (Rlt_dec 5 speed) as [_|X] in EM; [|exfalso; lra]. destruct (Rlt_dec (gps_sacc i) (15 / 100 * speed)) as [_|X] in EM; [|exfalso; lra]. cbn [andb negb] in EM.
  set (ce := courseError i s) in *. pose proof (ok_rot s OK) as RO.
  assert (BD : exists b : bool, ((if Rlt_dec (1 / 2) (Rabs ce) then true else false) && (bad_innov i && c_gps c)) = b /\ (b = true <-> 1 / 2 < Rabs ce /\ bad_innov i = true /\ c_gps c = true)).
  { eexists. split; [reflexivity|]. destruct (Rlt_dec (1 / 2) (Rabs ce)); destruct (bad_innov i); destruct (c_gps c); cbn [andb]; split; intros; try discriminate; try tauto; try (repeat split; assumption); decompose [and] H; try discriminate; contradiction. }
  destruct BD as (b & EB & BB). rewrite EB in EM. set (bad := 1 / 2 < Rabs ce /\ bad_innov i = true /\ c_gps c = true) in *.
  assert (NB : b = false <-> ~ bad) by (rewrite <- BB; destruct b; split; intros; [discriminate|exfalso; apply H; reflexivity|discriminate|reflexivity]).
  set (nbad := if b then ((r_bad s + 1) mod 256)%Z else r_bad s) in *.
  assert (N1 : (bad -> nbad = ((r_bad s + 1) mod 256)%Z) /\ (~ bad -> nbad = r_bad s)).
  { unfold nbad. split; intros Z; [rewrite (proj2 BB Z)|rewrite (proj2 NB Z)]; reflexivity. }
  destruct (b || negb (r_yaw_align s)) eqn:EO.
  - (* heading from the course *)
    set (fault := if r_inflight s && (2 <=? nbad)%Z && negb (r_fault s) then true else r_fault s) in *.
    set (yaw := if negb (r_inflight s) then yaw321_q (toQ (e_q (r_o s))) + ce else if c_wind c then atan2 (vy (gps_vel i) - r_we s) (vx (gps_vel i) - r_wn s) else atan2 (vy (gps_vel i)) (vx (gps_vel i))) in *.
    set (var := sqr (asin (Rmin 1 (Rmax 0 (sqrt (sqr (gps_sacc i) + r_P s 4%nat 4%nat + r_P s 5%nat 5%nat) / speed))))) in *.
    assert (RY : setRm (dcm (toQ (e_q (r_o (yawReset yaw var true s))))) (yawReset yaw var true s) = yawReset yaw var true s).
    { destruct (yawReset_ok yaw var true s (proj1 OK)) as (_ & D1 & _). unfold attq in D1. rewrite <- D1. destruct (yawReset yaw var true s); reflexivity. }
    rewrite RY in EM. clear RY.
    pose proof (heading_then_mag yaw var true (mapp (r_R (yawReset yaw var true s)) (mag_delayed i)) vzero p c s OK) as HM. cbv zeta in HM.
    set (s2 := magCovReset p c (setMag (mapp (r_R (yawReset yaw var true s)) (mag_delayed i)) vzero (yawReset yaw var true s))) in *.
    assert (R1 : r_R (yawReset yaw var true s) = r_R s2) by (unfold s2; rewrite (proj1 (proj2 (magCovReset_o _ _ _))); reflexivity).
    injection EM as <- <-. destruct HM as (A & B & C & D & E & F & G & I & J & K). rewrite R1 in E.
    split; [reflexivity|]. split; [exact A|]. split; [exact C|]. split; [exact D|]. split; [reflexivity|]. split; [reflexivity|]. split; [exact E|]. split; [exact I|]. split; [exact K|].
    split; [exact (proj1 N1)|]. split; [exact (proj2 N1)|].
    split. { intros (Z1 & Z2). apply NB in Z1. rewrite Z1, Z2 in EO. discriminate. }
    intros _. split; [exact F|]. split; [exact BB|]. split; [reflexivity|].
    split. { change (r_fault (setFlags true fault (r_yaw_align s) nbad b (setAlign (horizon i) s2))) with fault. change (r_bad (setFlags true fault (r_yaw_align s) nbad b (setAlign (horizon i) s2))) with nbad.
      unfold fault. destruct (r_inflight s); destruct (r_fault s); destruct (2 <=? nbad)%Z eqn:L; cbn [andb negb]; split; intros Z; try reflexivity; try discriminate; try (left; reflexivity); try (destruct Z as [Z|(Z1 & Z2)]; try discriminate; apply Z.leb_gt in L; lia). right. split; [reflexivity|apply Z.leb_le; exact L]. }
    split. { assert (VV : asin (Rmin 1 (sqrt (gps_sacc i ^ 2 + r_P s 4%nat 4%nat + r_P s 5%nat 5%nat) / speed)) ^ 2 = var).
      { unfold var. assert (Q0 : 0 <= sqrt (sqr (gps_sacc i) + r_P s 4%nat 4%nat + r_P s 5%nat 5%nat) / speed) by (apply Rmult_le_pos; [apply sqrt_pos|left; apply Rinv_0_lt_compat; lra]).
        rewrite (Rmax_right 0 _ Q0). replace (gps_sacc i ^ 2) with (sqr (gps_sacc i)) by (unfold sqr; ring). unfold sqr at 2. ring. }
      rewrite VV. exact G. }
    split.
    + intros IF. assert (YE : yaw = seq_yaw (r_R s) + (ce + (yaw321 (r_R s) - seq_yaw (r_R s)))) by (unfold yaw; rewrite IF; cbn [negb]; rewrite (proj1 (yaw_overloads _)); fold (attq s); rewrite <- (proj2 OK); ring).
      change (r_R (setFlags true fault (r_yaw_align s) nbad b (setAlign (horizon i) s2))) with (r_R s2).
      assert (T1 : r_R s2 = mmul (turn (ce + (yaw321 (r_R s) - seq_yaw (r_R s)))) (r_R s)) by (rewrite B, YE; apply (turn_by _ _ RO)).
      split; [exact T1|]. intros U. rewrite T1. f_equal. f_equal. unfold seq_yaw. rewrite U. ring.
    + intros IF. change (r_R (setFlags true fault (r_yaw_align s) nbad b (setAlign (horizon i) s2))) with (r_R s2).
      set (a := if c_wind c then _ else _). assert (YE : yaw = atan2 (vy a) (vx a)) by (unfold yaw, a; rewrite IF; cbn [negb]; destruct (c_wind c); reflexivity).
      split; [rewrite B, <- YE; apply (upd_heading yaw (r_R s) RO); rewrite YE; apply atan2_range|].
      intros U NZ. destruct (nose_dir yaw (r_R s) RO U) as (k & KP & M1 & M2). destruct (atan2_polar _ _ NZ) as (P & CC & SS). rewrite YE in M1, M2. rewrite B, YE, M1, M2. set (y := atan2 (vy a) (vx a)) in *. set (n := sqrt (vx a * vx a + vy a * vy a)) in *.
      exists (k / n). split; [apply Rdiv_lt_0_compat; [exact KP|exact P]|]. split; [transitivity (k / n * (n * cos y)); [field; lra|rewrite CC; reflexivity]|transitivity (k / n * (n * sin y)); [field; lra|rewrite SS; reflexivity]].
  - (* only the field *)
    apply orb_false_iff in EO. destruct EO as (B0 & YA). apply negb_false_iff in YA. pose proof (proj1 NB B0) as NBAD.
    destruct (magCovReset_o p c (setMag (mapp (r_R s) (mag_delayed i)) (r_mb s) s)) as (K1 & K2 & K3 & K4 & K5 & K6 & K7 & K8 & K9 & K10 & K11 & K12 & K13 & K14).
    set (s2 := magCovReset p c (setMag (mapp (r_R s) (mag_delayed i)) (r_mb s) s)) in *. cbn [setMag r_o r_R r_mi r_mb r_P r_wn r_we r_boff r_inflight r_bad r_fault r_yaw_align r_request] in *.
    assert (AQ : attq s2 = attq s) by (unfold attq; rewrite K1; reflexivity). destruct (magCov_ok (mag_noise p) (r_P s)) as (C1 & C2 & C3). rewrite <- K5 in C1, C2, C3.
    injection EM as <- <-.
    split; [reflexivity|]. split; [split; [change (qnorm2 (attq s2) = 1); rewrite AQ; exact (proj1 OK)|change (r_R s2 = dcm (attq s2)); rewrite K2, AQ; exact (proj2 OK)]|].
    split; [unfold same_tilt; cbn [setFlags setAlign r_R]; rewrite K2; repeat split|]. split; [unfold motion_kept; cbn [setFlags setAlign r_o r_wn r_we r_boff]; rewrite K1, K7, K8, K14; repeat split|].
    split; [reflexivity|]. split; [reflexivity|]. split; [cbn [setFlags setAlign r_mi r_R]; rewrite K3, K2; reflexivity|].
    split. { split; [intros k Hk; split; [|intros j J; apply C2; lia]|intros k j I J NI NJ; apply C3; lia]. change (r_P s2 k k = mag_noise p ^ 2). replace k with (16 + (k - 16))%nat at 1 2 by lia. rewrite C1 by lia. ring. }
    split. { intros HP. change (psd (r_P s2)). rewrite K5. unfold resetMagCov, zeroMagCov.
      assert (Z : forall k : nat, (k < 3)%nat -> 0 <= @szero R RScalar) by (intros; rewrite szR; lra). assert (Z2 : forall k : nat, (k < 3)%nat -> 0 <= sq (mag_noise p)) by (intros; unfold sq; cbn [smul RScalar]; nra).
      apply psd_uncorrelateSet; [|exact Z2]. apply psd_uncorrelateSet; [|exact Z2]. apply psd_uncorrelateSet; [|exact Z]. apply psd_uncorrelateSet; [|exact Z]. exact HP. }
    split; [exact (proj1 N1)|]. split; [exact (proj2 N1)|].
    split. { intros _. cbn [setFlags setAlign r_R r_mb r_request r_inflight r_fault]. split; [exact K2|]. split; [exact AQ|]. split; [exact K4|]. repeat split. }
    intros [Z|Z]; [contradiction|congruence].
Qed.
(** so with the 312 sequence in use the first in-flight alignment turns the attitude although the course agrees (a defect) *)
Theorem C73_course_alignment_agrees_refuted :
  ~ (forall i p c s, attitude_ok s -> r_inflight s = false -> courseError i s = 0 -> 5 < sqrt (vx (gps_vel i) ^ 2 + vy (gps_vel i) ^ 2) ->
       gps_sacc i < 15 / 100 * sqrt (vx (gps_vel i) ^ 2 + vy (gps_vel i) ^ 2) -> r_R (snd (realign i p c s)) = r_R s).
Proof.
  intros H. destruct pr_unit as (U1 & _). destruct pr_yaws as (Y1 & Y2 & _).
  set (i := in_of q_pr (mkV 10 0 0) 1 false). set (s := st_of q_pr (mkV 10 0 0) vzero false false 0).
  assert (OK : attitude_ok s) by (apply st_ok; exact U1).
  assert (CE : courseError i s = 0).
  { unfold courseError. cbn [i in_of gps_vel vx vy s st_of r_o ost_of e_v vec3]. rewrite (atan2_0 10) by lra. replace (0 - 0) with 0 by ring. unfold wrap_pi. pose proof PI_RGT_0. destruct (Rle_dec (- PI) 0); [|lra]. destruct (Rlt_dec 0 PI); [reflexivity|lra]. }
  assert (SP : sqrt (vx (gps_vel i) ^ 2 + vy (gps_vel i) ^ 2) = 10) by (cbn [i in_of gps_vel vx vy]; replace (10 ^ 2 + 0 ^ 2) with (Rsqr 10) by (unfold Rsqr; ring); apply sqrt_Rsqr; lra).
  pose proof (H i par_of (flag_of false false) s OK eq_refl CE ltac:(rewrite SP; lra) ltac:(rewrite SP; cbn [i in_of gps_sacc]; lra)) as E.
  pose proof (C73_course_alignment i par_of (flag_of false false) s OK ltac:(rewrite SP; lra) ltac:(rewrite SP; cbn [i in_of gps_sacc]; lra)) as T. cbv zeta in T.
  destruct (realign i par_of (flag_of false false) s) as [ok s']. cbn [snd] in E. destruct T as (_ & _ & _ & _ & _ & _ & _ & _ & _ & _ & _ & _ & T).
  destruct (T (or_intror eq_refl)) as (_ & _ & _ & _ & _ & T2 & _). destruct (T2 eq_refl) as (T3 & _). rewrite CE, E in T3. cbn [s st_of r_R] in T3. unfold seq_yaw in T3. rewrite pr_312, Y1 in T3.
  set (y := yaw312 (dcm q_pr)) in *. replace (0 + (0 - y)) with (- y) in T3 by ring. destruct pr_dcm as (D0 & D1 & _).
  assert (S0 : sin (- y) = 0). { apply (f_equal m10) in T3. unfold mmul, turn in T3. cbn [m00 m10 m20 m11 m12] in T3. rewrite D0, D1 in T3. lra. }
  assert (C0 : cos (- y) = 1). { apply (f_equal m00) in T3. unfold mmul, turn in T3. cbn [m00 m10 m20 m01 m02] in T3. rewrite D0, D1 in T3. lra. }
  apply Y2. pose proof (atan2_range (- m01 (dcm q_pr)) (m11 (dcm q_pr))) as RG. fold (yaw312 (dcm q_pr)) in RG. fold y in RG. pose proof PI_RGT_0.
  apply angle_unique; [exact RG|lra|rewrite cos_0, <- C0, cos_neg; reflexivity|rewrite sin_0; rewrite sin_neg in S0; lra].
Qed.
(** C73, emergency heading: from the yaw estimator, only if it has an estimate that converged; heading exactly that, tilt kept,
    velocity and position reset to the source in use; the compass is then declared faulty unless it is not used at all *)
Theorem C73_emergency_heading : forall i p c g s, attitude_ok s ->
  ((g = None \/ (exists y v, g = Some (y, v) /\ gsf_err_max p ^ 2 <= v)) -> gsfReset i p c g s = (false, s)) /\
  (forall yaw var, g = Some (yaw, var) -> var < gsf_err_max p ^ 2 ->
    let (ok, s') := gsfReset i p c g s in
    ok = true /\ attitude_ok s' /\ same_tilt (r_R s) (r_R s') /\ (- PI < yaw <= PI -> seq_yaw (r_R s') = yaw) /\
    r_align s' = horizon i /\ r_yaw_align s' = true /\ r_fault s' = (if mag_none p then r_fault s else true) /\
    (exists s1 s2, attitude_ok s1 /\ motion_kept s s1 /\ yaw_variance var s s1 /\ s2 = resetVelocity i c s1 /\ r_o s' = r_o (resetHorizontalPosition i p c s2) /\ r_P s' = r_P (resetHorizontalPosition i p c s2)) /\
    (c_gps c = true -> gps_healthy i = true -> fromV (e_v (r_o s')) = gps_vel i /\ e_p (r_o s') 0%nat = vx (gps_pos i) /\ e_p (r_o s') 1%nat = vy (gps_pos i))).
Proof.
  intros i p c g s OK. split.
  - assert (Q : sqr (gsf_err_max p) = gsf_err_max p ^ 2) by (unfold sqr; ring).
    intros [->|(y & v & -> & L)]; unfold gsfReset; [reflexivity|]. rewrite Q. destruct (Rlt_dec v _); [lra|reflexivity].
  - intros yaw var -> L. destruct (gsfReset i p c (Some (yaw, var)) s) as [ok s'] eqn:EM. unfold gsfReset in EM. assert (Q : sqr (gsf_err_max p) = gsf_err_max p ^ 2) by (unfold sqr; ring). rewrite Q in EM. destruct (Rlt_dec var _) as [_|X]; [|lra]. cbv zeta in EM.
    destruct OK as (U & E). set (s1 := yawReset yaw var true s) in *. set (s2 := resetVelocity i c s1) in *. set (s3 := resetHorizontalPosition i p c s2) in *.
    destruct (yawReset_ok yaw var true s U) as (N1 & D1 & _ & T0 & T1 & T2 & _ & SY). fold s1 in N1, D1, T0, T1, T2, SY.
    destruct (yawReset_o yaw var true s) as (O1 & O2 & O3 & O4 & _ & _ & O7 & O8 & O9 & _ & _ & O12 & _). fold s1 in O1, O2, O3, O4, O7, O8, O9, O12.
    assert (V2 : e_q (r_o s2) = e_q (r_o s1) /\ r_R s2 = r_R s1 /\ r_fault s2 = r_fault s1 /\ e_p (r_o s2) = e_p (r_o s1)).
    { unfold s2, resetVelocity, resetVelocityToGps, resetVelocityToFlow, resetVelocityToVision, resetVelocityToZero. destruct (c_gps c && gps_healthy i); [|destruct (c_flow c); [|destruct (c_ev_vel c)]]; repeat split. }
    assert (V3 : e_q (r_o s3) = e_q (r_o s2) /\ r_R s3 = r_R s2 /\ r_fault s3 = r_fault s2 /\ e_v (r_o s3) = e_v (r_o s2)).
    { unfold s3, resetHorizontalPosition, resetPositionToGps, resetPositionToVision. destruct (c_gps c); [|destruct (c_ev_pos c); [|destruct (c_flow c)]]; repeat split. }
    destruct V2 as (Q2 & R2 & F2 & P2). destruct V3 as (Q3 & R3 & F3 & V3).
    assert (AQ : attq s3 = attq s1) by (unfold attq; rewrite Q3, Q2; reflexivity).
    injection EM as <- <-.
    split; [reflexivity|]. split; [split; [change (qnorm2 (attq s3) = 1); rewrite AQ; exact N1|change (r_R s3 = dcm (attq s3)); rewrite R3, R2, AQ; exact D1]|].
    split; [unfold same_tilt; cbn [setFlags setAlign r_R]; rewrite R3, R2, E; repeat split; assumption|].
    split; [cbn [setFlags setAlign r_R]; rewrite R3, R2; exact SY|]. split; [reflexivity|]. split; [reflexivity|].
    split; [cbn [setFlags setAlign r_fault]; rewrite F3, F2, O12; reflexivity|].
    split. { exists s1, s2. split; [split; assumption|]. split; [repeat split; assumption|]. split; [apply yawReset_yv; exact U|]. repeat split. }
    intros G H. cbn [setFlags setAlign r_o]. rewrite V3. split.
    + destruct (proj1 (proj2 (C72_velocity_reset i c s1)) (conj G H)) as ((A & _) & _). fold s2 in A. unfold fromV. rewrite !A by lia. destruct (gps_vel i); reflexivity.
    + destruct (proj1 (proj2 (C72_position_reset i p c s2)) G) as ((A & _) & _). fold s3 in A. split; [rewrite (proj1 (A 0%nat ltac:(lia)))|rewrite (proj1 (A 1%nat ltac:(lia)))]; reflexivity.
Qed.

(** ** C74 *)
(** C74, IMU biases: all six become zero with the parameters' uncertainty (per 10 ms sample), nothing else changes *)
Theorem C74_imu_bias_reset : forall p s, let s' := resetImuBias p s in
  (forall k, e_ab (r_o s') k = 0 /\ e_vb (r_o s') k = 0) /\ e_q (r_o s') = e_q (r_o s) /\ e_v (r_o s') = e_v (r_o s) /\ e_p (r_o s') = e_p (r_o s) /\ o_rst (r_o s') = o_rst (r_o s) /\
  block_set 6 10 (fun k => (if (k <? 3)%nat then gyro_bias_unc p * (1 / 100) else accel_bias_unc p * (1 / 100)) ^ 2) (r_P s) (r_P s') /\
  r_prevb s' = mkV ((accel_bias_unc p * (1 / 100)) ^ 2) ((accel_bias_unc p * (1 / 100)) ^ 2) ((accel_bias_unc p * (1 / 100)) ^ 2) /\
  r_mi s' = r_mi s /\ r_mb s' = r_mb s /\ r_wn s' = r_wn s /\ r_we s' = r_we s /\ (psd (r_P s) -> psd (r_P s')).
Proof.
  intros p s. cbv zeta. split; [intros k; split; reflexivity|]. split; [reflexivity|]. split; [reflexivity|]. split; [reflexivity|]. split; [reflexivity|].
  assert (SQ : forall x : R, sqr x = x ^ 2) by (intros; unfold sqr; ring).
  split.
  { unfold resetImuBias, resetAccelBias, resetGyroBias, cov. cbn [setPrevb setPm setO r_P]. destruct (block_ok 3 10 (fun _ => sqr (gyro_bias_unc p * (1 / 100))) (r_P s)) as (A1 & A2 & A3).
    set (P1 := uncorrelateSet 3 10 (fun _ => sqr (gyro_bias_unc p * (1 / 100))) (r_P s)) in *. destruct (block_ok 3 13 (fun _ => sqr (accel_bias_unc p * (1 / 100))) P1) as (B1 & B2 & B3). set (P2 := uncorrelateSet 3 13 _ P1) in *.
    split; [|split].
    - intros k K. destruct (Nat.ltb_spec k 3).
      + rewrite B3 by lia. rewrite A1 by lia. apply SQ.
      + replace (10 + k)%nat with (13 + (k - 3))%nat by lia. rewrite B1 by lia. apply SQ.
    - intros a b I N. destruct (le_lt_dec 13 a) as [L|L]; [apply B2; lia|].
      assert (J : (13 <= b < 16)%nat \/ ~ (13 <= b < 16)%nat) by lia. destruct J as [J|J]; [destruct (B2 b a J ltac:(congruence)); split; assumption|]. rewrite !B3 by lia. apply A2; lia.
    - intros a b I J. rewrite B3 by lia. apply A3; lia. }
  split. { unfold resetImuBias, resetAccelBias. cbn [setPrevb r_prevb]. unfold cov. cbn [setPm setO r_P]. destruct (block_ok 3 13 (fun _ => sqr (accel_bias_unc p * (1 / 100))) (r_P (resetGyroBias p s))) as (A & _).
    f_equal; rewrite <- SQ; [exact (A 0%nat ltac:(lia))|exact (A 1%nat ltac:(lia))|exact (A 2%nat ltac:(lia))]. }
  split; [reflexivity|]. split; [reflexivity|]. split; [reflexivity|]. split; [reflexivity|].
  intros HP. unfold resetImuBias, resetAccelBias, resetGyroBias, cov. cbn [setPrevb setPm setO r_P].
  apply psd_uncorrelateSet; [apply psd_uncorrelateSet; [exact HP|]|]; intros; unfold sqr; apply Rle_0_sqr.
Qed.
(** C74, magnetometer bias: zero, with the magnetometer noise as uncertainty; the variances kept for later three-axis fusion are cleared,
    so that restoring them afterwards leaves the bias with zero variance *)
Theorem C74_mag_bias_reset : forall p s, let s' := resetMagBias p s in
  r_mb s' = vzero /\ r_mi s' = r_mi s /\ r_o s' = r_o s /\ r_R s' = r_R s /\ block_set 3 19 (fun _ => mag_noise p ^ 2) (r_P s) (r_P s') /\ (psd (r_P s) -> psd (r_P s')) /\
  (forall k, (19 <= k < 22)%nat -> r_P (loadMagCov s') k k = 0) /\ r_P (loadMagCov s') 18%nat 18%nat = r_savb s 0%nat.
Proof.
  intros p s. cbv zeta. split; [reflexivity|]. split; [reflexivity|]. split; [reflexivity|]. split; [reflexivity|].
  split; [replace (mag_noise p ^ 2) with (sqr (mag_noise p)) by (unfold sqr; ring); apply block_ok|].
  split; [intros HP; unfold resetMagBias, cov; cbn [setSaved setPm setMag r_P]; apply psd_uncorrelateSet; [exact HP|intros; unfold sqr; apply Rle_0_sqr]|].
  split; [|reflexivity]. intros k K. assert (J : (k = 19 \/ k = 20 \/ k = 21)%nat) by lia. destruct J as [->|[->| ->]]; reflexivity.
Qed.
(** C74: the magnetic field covariance kept while three-axis fusion is off comes back unchanged: the earth field block (north, east)
    and the variances of the down component and of the bias; whatever happened to the covariance in between stays elsewhere *)
Theorem C74_saved_mag_covariance : forall s P, let s' := loadMagCov (setPm P (saveMagCov s)) in
  (forall i j, (16 <= i < 18)%nat -> (16 <= j < 18)%nat -> r_P s' i j = r_P s i j) /\
  (forall i, (18 <= i < 22)%nat -> r_P s' i i = r_P s i i) /\
  (forall i j, ~ ((16 <= i < 18)%nat /\ (16 <= j < 18)%nat) -> ~ (i = j /\ (18 <= i < 22)%nat) -> r_P s' i j = P i j).
Proof.
  intros s P. cbv zeta. unfold loadMagCov, saveMagCov. cbn [setPm setSaved r_P r_savef r_savb]. split; [|split].
  - intros i j I J. rewrite (inb_true 16 2 i), (inb_true 16 2 j) by lia. cbn [andb]. f_equal; lia.
  - intros i I. rewrite (inb_false 16 2 i), (inb_true 18 4 i), Nat.eqb_refl by lia. cbn [andb]. f_equal; lia.
  - intros i j A B. assert (E : inb 16 2 i && inb 16 2 j = false).
    { apply andb_false_iff. destruct (le_lt_dec 16 i); destruct (le_lt_dec 18 i); try (left; apply inb_false; lia). right. apply inb_false. lia. }
    rewrite E. destruct (Nat.eqb_spec i j) as [Q|Q]; cbn [andb]; [|reflexivity]. rewrite (inb_false 18 4 i); [reflexivity|]. intros K. apply B. split; [exact Q|lia].
Qed.
(** C74, wind: with a recent airspeed the wind becomes the ground velocity minus the airspeed along the heading: the predicted
    airspeed is then the measured one up to the vertical velocity, and with wings level there is no sideslip; zero otherwise *)
Theorem C74_wind_reset : forall i s, attitude_ok s -> let s' := resetWindStates i s in
  r_o s' = r_o s /\ r_P s' = r_P s /\ r_R s' = r_R s /\ r_mi s' = r_mi s /\ r_mb s' = r_mb s /\
  (tas_recent i = false -> r_wn s' = 0 /\ r_we s' = 0) /\
  (tas_recent i = true ->
    let air := mkV (e_v (r_o s) 0%nat - r_wn s') (e_v (r_o s) 1%nat - r_we s') (e_v (r_o s) 2%nat) in
    vnorm2 air = tas i ^ 2 + e_v (r_o s) 2%nat ^ 2 /\
    (m00 (r_R s) <> 0 \/ m10 (r_R s) <> 0 ->
      (exists k, 0 < k /\ k * vx air = tas i * m00 (r_R s) /\ k * vy air = tas i * m10 (r_R s)) /\
      (m21 (r_R s) = 0 -> vy (mapp (mtr (r_R s)) air) = 0))).
Proof.
  intros i s OK. cbv zeta. split; [unfold resetWindStates; destruct (tas_recent i); reflexivity|]. split; [unfold resetWindStates; destruct (tas_recent i); reflexivity|].
  split; [unfold resetWindStates; destruct (tas_recent i); reflexivity|]. split; [unfold resetWindStates; destruct (tas_recent i); reflexivity|]. split; [unfold resetWindStates; destruct (tas_recent i); reflexivity|].
  split; [intros H; unfold resetWindStates; rewrite H; split; reflexivity|]. intros H. unfold resetWindStates. rewrite H. cbn [setWind r_wn r_we vx vy vz].
  rewrite (proj1 (yaw_overloads _)). fold (attq s). rewrite <- (proj2 OK). pose proof (ok_rot s OK) as RO. set (r := r_R s) in *. set (y := yaw321 r). set (v0 := e_v (r_o s) 0%nat). set (v1 := e_v (r_o s) 1%nat). set (v2 := e_v (r_o s) 2%nat).
  replace (v0 - (v0 - tas i * cos y)) with (tas i * cos y) by ring. replace (v1 - (v1 - tas i * sin y)) with (tas i * sin y) by ring.
  pose proof (sc y) as Q. split; [unfold vnorm2, vdot; cbn [vx vy vz]; transitivity (tas i ^ 2 * (sin y * sin y + cos y * cos y) + v2 ^ 2); [ring|rewrite Q; ring]|].
  intros NZ. destruct (atan2_polar _ _ NZ) as (P & C & S). fold (yaw321 r) in C, S. fold y in C, S. set (k := sqrt (m00 r * m00 r + m10 r * m10 r)) in *.
  split. { exists k. split; [exact P|]. split; [rewrite <- C; ring|rewrite <- S; ring]. }
  intros M. unfold mapp, mtr. cbn [vx vy vz m00 m01 m02 m10 m11 m12 m20 m21 m22]. rewrite M.
  assert (O : m01 r * m00 r + m11 r * m10 r + m21 r * m20 r = 0). { destruct RO as (_ & T & _). apply (f_equal m10) in T. unfold mmul, mtr, mident in T. cbn [m00 m01 m02 m10 m11 m12 m20 m21 m22] in T. exact T. }
  rewrite M in O. apply (Rmult_eq_reg_l k); [|lra]. transitivity (tas i * (m01 r * (k * cos y) + m11 r * (k * sin y))); [ring|]. rewrite C, S. transitivity (tas i * (m01 r * m00 r + m11 r * m10 r + 0 * m20 r)); [ring|]. rewrite O. ring.
Qed.

(** ** Non-vacuity *)
(** flying north at 10 m/s, GPS says north-east, failing velocity checks, second bad event: heading realigned, compass declared faulty *)
Example ex_bad_course : let i := in_of q_rp (mkV 10 10 0) 1 true in let s := st_of q_rp (mkV 10 0 0) vzero true true 1 in
  attitude_ok s /\ 5 < sqrt (vx (gps_vel i) ^ 2 + vy (gps_vel i) ^ 2) /\ gps_sacc i < 15 / 100 * sqrt (vx (gps_vel i) ^ 2 + vy (gps_vel i) ^ 2) /\ 1 / 2 < Rabs (courseError i s) /\
  r_fault (snd (realign i par_of (flag_of false false) s)) = true.
Proof.
  cbv zeta. set (i := in_of q_rp (mkV 10 10 0) 1 true). set (s := st_of q_rp (mkV 10 0 0) vzero true true 1).
  assert (OK : attitude_ok s) by (apply st_ok; apply pr_unit).
  assert (S5 : 10 < sqrt (vx (gps_vel i) ^ 2 + vy (gps_vel i) ^ 2)).
  { cbn [i in_of gps_vel vx vy]. rewrite <- (sqrt_Rsqr 10) at 1 by lra. apply sqrt_lt_1; unfold Rsqr; lra. }
  assert (CE : courseError i s = PI / 4).
  { unfold courseError. cbn [i in_of gps_vel vx vy s st_of r_o ost_of e_v vec3]. rewrite (atan2_0 10) by lra. unfold atan2. destruct (Rlt_dec 0 10); [|lra]. replace (10 / 10) with 1 by field. rewrite atan_1. replace (PI / 4 - 0) with (PI / 4) by ring.
    unfold wrap_pi. pose proof PI_RGT_0. destruct (Rle_dec (- PI) (PI / 4)); [|lra]. destruct (Rlt_dec (PI / 4) PI); [reflexivity|lra]. }
  assert (BE : 1 / 2 < Rabs (courseError i s)) by (rewrite CE; pose proof PI_4; pose proof PI2_3_2 as PP; pose proof PI_RGT_0; rewrite Rabs_right by lra; unfold PI2 in *; lra).
  assert (SA : gps_sacc i < 15 / 100 * sqrt (vx (gps_vel i) ^ 2 + vy (gps_vel i) ^ 2)) by (change (gps_sacc i) with 1; lra).
  split; [exact OK|]. split; [lra|]. split; [exact SA|]. split; [exact BE|].
  pose proof (C73_course_alignment i par_of (flag_of false false) s OK ltac:(lra) SA) as T. cbv zeta in T.
  destruct (realign i par_of (flag_of false false) s) as [ok s']. cbn [snd]. destruct T as (_ & _ & _ & _ & _ & _ & _ & _ & _ & TB & _ & _ & T).
  assert (BAD : 1 / 2 < Rabs (courseError i s) /\ bad_innov i = true /\ c_gps (flag_of false false) = true) by (split; [exact BE|split; reflexivity]).
  destruct (T (or_introl BAD)) as (_ & _ & _ & F & _). apply F. right. split; [reflexivity|]. rewrite (TB BAD). cbn. lia.
Qed.
Print Assumptions C73_compass_heading. Print Assumptions C73_no_source. Print Assumptions C73_vision_heading. Print Assumptions C73_vision_heading_agrees_refuted.
Print Assumptions C73_course_error. Print Assumptions C73_course_alignment_needs_speed. Print Assumptions C73_course_alignment. Print Assumptions C73_course_alignment_agrees_refuted. Print Assumptions C73_emergency_heading.
Print Assumptions C74_imu_bias_reset. Print Assumptions C74_mag_bias_reset. Print Assumptions C74_saved_mag_covariance. Print Assumptions C74_wind_reset.

(** * C94: exact measurements do not disturb a correct estimate *)
From Coq Require Import Reals Lra Lia List ZArith Bool FunctionalExtensionality.
From Coquelicot Require Import Coquelicot.
From Verif Require Import CBase F32 Scalar CovPredGen RealGeom RotModel RotProofs GeoModel GeoProofs CovSpec PsdLib CovModel CovQuat CovQuat2 CovProofsR FusionGen FusionModel FusionSpec
  Props_Fusion Props_Fusion2 HeadingModel Props_Fusion3 OutputModel NanModel NanProofs PredictModel PredictProofs VelPosModel ObsModel TerrainModel EngineModel ExactProofs Props_Shift.
From Verif Require Import RealGeom.
Import ListNotations.
Open Scope R_scope.

(** ** Specification *)
(** operations that fuse a measurement into the states *)
Definition fusion (e : event) : bool :=
  match e with
  | EAirspeed _ _ _ | ESideslip _ _ _ _ | EDrag _ _ _ _ _ _ | EFlow _ _ _ _ _ _ _ _ | EMag _ _ _ _ _ | EDeclination _ _ | EGpsYaw _ _ _ _
  | EHeading _ _ _ | EGps _ _ _ _ _ _ _ _ | EHeight _ _ _ | EVelocity _ _ _ _ | EPosition _ _ _ _ _ | EVisionStep _ _ _ => true
  | _ => false
  end.
(** what an ideal sensor reads on a vehicle whose states are x: t is that vehicle (states and angular rate), s the estimator,
    whose terrain height, vision memory, remembered heading and covariance also matter *)
Definition reads (e : event) (t s : engine) : Prop :=
  let x := state t in
  let v := ground_vel x in let p := mkV (x 7%nat) (x 8%nat) (x 9%nat) in
  let air := to_body x (air_vel x) in
  let dt := x_dt_ekf_avg (fc (n_f s)) in
  match e with
  (* true airspeed; the covariance is one (symmetric, no negative variance), so that the fusion does not reset the wind *)
  | EAirspeed _ a _ => ts_tas a = airspeed_model x /\ symmetric24 (covariance s) /\ psd (covariance s)
  (* coordinated flight *)
  | ESideslip _ _ _ _ => vx air <> 0 /\ vy air = 0 /\ symmetric24 (covariance s) /\ psd (covariance s)
  (* accelerometer with its bias feels the drag *)
  | EDrag _ rho bcx bcy ax ay => ax = drag_force bcx (Rmax rho (1 / 10)) (vx air) + x 13%nat / dt /\ ay = drag_force bcy (Rmax rho (1 / 10)) (vy air) + x 14%nat / dt
  (* velocity of the flow sensor over its range, turned by the gyro bias; the terrain height is the estimated one *)
  | EFlow _ _ gnd fdt gyro off comp bias =>
      let w := mkV (- gyro 0%nat / fdt) (- gyro 1%nat / fdt) (- gyro 2%nat / fdt) in
      let u := to_body x (vadd v (to_earth x (cross w (vec_of off)))) in
      let range := Rmax (h_vpos (n_t s) - vz p - vz (to_earth x (vec_of off))) (Rmax gnd (1 / 10)) / m22 (dcm (quat_of x)) in
      comp 0%nat / fdt + bias 0%nat = vy u / range /\ comp 1%nat / fdt + bias 1%nat = - (vx u / range)
  (* earth field in body axes plus body field; the field is inside its limits *)
  | EMag d _ synth _ m => m 0%nat = vx (mag_model x) /\ m 1%nat = vy (mag_model x) /\ (synth = false -> m 2%nat = vz (mag_model x)) /\ field_in_limits d x
  | EDeclination d _ => (d_in_flight d = false -> atan2 (x 17%nat) (x 16%nat) = decl_reference d) /\ field_in_limits d x
  (* horizontal direction of the baseline between the antennas *)
  | EGpsYaw yaw off _ _ => let b := to_earth x (mkV (cos off) (sin off) 0) in exists r, 0 < r /\ vx b = r * cos (yaw + off) /\ vy b = r * sin (yaw + off)
  | EHeading _ d i => heading_exact d i (n_yaw s) x
  (* velocity and position of the antenna *)
  | EGps _ _ _ _ _ _ off g =>
      let w := vec_of (g_rate (n_g t)) in
      vec_of (s_vel g) = vadd v (to_earth x (cross w (vec_of off))) /\
      (let a := vadd p (to_earth x (vec_of off)) in s_pos g 0%nat = vx a /\ s_pos g 1%nat = vy a)
  (* height above the datum of the source in use *)
  | EHeight HBaro _ i => h_baro i - h_boff i = - vz p
  | EHeight HGps _ i => h_gps i - h_ref i - h_off i = - vz p
  | EHeight HRange c i => Rmax (h_dist i) (hp_clear c) - h_off i = - vz p
  | EHeight HVision _ i => h_ev i = vz p
  | EVelocity u _ _ vertical => u 0%nat = vx v /\ u 1%nat = vy v /\ (vertical = true -> u 2%nat = vz v)
  | EPosition _ u _ _ _ => u 0%nat = vx p /\ u 1%nat = vy p
  (* the displacement since the previous vision sample; on the first one nothing was left to fuse *)
  | EVisionStep E m _ =>
      if e_avail (n_e s)
      then let d := mapp (mat_of E) (vec_of (fun k => ev_p m k - e_meas (n_e s) k)) in
           vx d = vx p - e_pred (n_e s) 0%nat /\ vy d = vy p - e_pred (n_e s) 1%nat
      else e_innov (n_e s) 0%nat = 0 /\ e_innov (n_e s) 1%nat = 0
  | _ => True
  end.
(** the vehicle: states moved by the inertial measurements, the limits and the commanded resets only *)
Definition move (k : rcfg) (e : event) (t : engine) : engine := if fusion e then t else step k e t.
Fixpoint ideal (k : rcfg) (l : list event) (t s : engine) : Prop :=
  match l with [] => True | e :: l' => reads e t s /\ ideal k l' (move k e t) (step k e s) end.
(** attitude a unit quaternion, the rotation matrix stored is that of the attitude *)
Definition proper (s : engine) : Prop := qnorm2 (quat_of (state s)) = 1 /\ mat_of (Re s) = dcm (quat_of (state s)).

(** ** One step *)
(** same vehicle *)
Definition same (t s : engine) : Prop := state s = state t /\ g_R (n_g s) = g_R (n_g t) /\ g_lpn (n_g s) = g_lpn (n_g t) /\ g_lpe (n_g s) = g_lpe (n_g t) /\
  g_dt (n_g s) = g_dt (n_g t) /\ g_rate (n_g s) = g_rate (n_g t).
Lemma same_gview t s : same t s -> gview s = gview t.
Proof. intros (A & B & C & D & E & F). unfold gview. rewrite A, B, C, D, E, F. reflexivity. Qed.
Lemma same_putF f t s : same t s -> fx f = state t -> same t (putF f s).
Proof. intros (A & B) E. split; [exact E|exact B]. Qed.
Lemma same_putV v t s : same t s -> vx_ v = state t -> same t (putV v s).
Proof. intros (A & B) E. split; [exact E|exact B]. Qed.
Lemma m3_mat M : m3of M = mat_of M. Proof. reflexivity. Qed.
Lemma q4_quat x : q4of x = quat_of x. Proof. reflexivity. Qed.
Lemma mvec_vec (M : nat -> nat -> R) v k : (k < 3)%nat -> FusionModel.mvec M v k = match k with 0%nat => vx (mapp (mat_of M) (vec_of v)) | 1%nat => vy (mapp (mat_of M) (vec_of v)) | _ => vz (mapp (mat_of M) (vec_of v)) end.
Proof.
  intros Hk. unfold FusionModel.mvec, mapp, mat_of, vec_of. rewrite szeroR. cbn [vx vy vz m00 m01 m02 m10 m11 m12 m20 m21 m22 sadd smul RScalar].
  destruct k as [|[|[|k]]]; [| | |lia]; ring.
Qed.
Lemma vec_cross w off : vec_of (crossT w off) = cross (vec_of w) (vec_of off). Proof. reflexivity. Qed.

Lemma move_proper k e t : proper t -> proper (move k e t).
Proof.
  intros [U M]. unfold move. destruct (fusion e) eqn:F; [split; assumption|].
  destruct e; try discriminate F; unfold step; cbv zeta.
  - (* prediction *)
    set (g := predictG _ _ _ _ _ _ _).
    assert (P : prof g = predictState acc_lim (v3of earth) (imuof i) (prof (gview t))) by apply predictG_real.
    destruct (predict_attitude acc_lim (v3of earth) (imuof i) (prof (gview t)) U) as (_ & A & B). rewrite <- P in A, B. split; [exact A|exact B].
  - split; assumption.
  - split; [|exact M]. exact U.
  - split; assumption.
  - split; assumption.
  - (* yaw *)
    set (x' := yawResetG _ _ _ _ _ _ _). destruct (yawResetG_real yaw (state t)) as [Q _]. fold x' in Q.
    assert (Ux : qnorm2 (quat_of x') = 1).
    { change (quat_of x') with (q4of x'). rewrite Q. destruct (yaw_reset yaw (q4of (state t)) U) as (_ & _ & _ & _ & _ & N). exact N. }
    split; [exact Ux|]. change (m3of (dcmv x') = dcm (quat_of x')). rewrite m3_dcm. reflexivity.
  - destruct gyro, accel; split; assumption.
  - split; assumption.
  - split; assumption.
  - split; assumption.
Qed.

Lemma neg_innov (a b : R) : a = b -> a - b = 0. Proof. lra. Qed.
Lemma step_same k e t s : proper t -> same t s -> reads e t s -> same (move k e t) (step k e s).
Proof.
  intros [U M] Sm Hr. pose proof Sm as (A & RG & LN & LE & DT & RT).
  assert (U' : unitx (fx (n_f s))) by (change (fx (n_f s)) with (state s); rewrite A; exact U).
  assert (UV : unitx (vx_ (vview s))) by exact U'.
  assert (RM : mat_of (Re s) = dcm (quat_of (state t))) by (unfold Re; rewrite RG; exact M).
  assert (Ev : mapp (mat_of (Re s)) = to_earth (state t)) by (unfold to_earth; rewrite RM; reflexivity).
  assert (Ax : fx (n_f s) = state t) by exact A.
  unfold move. destruct e; cbn [fusion]; cbv iota; cbn [reads] in Hr; cbv zeta in Hr.
  - (* predict *)
    unfold step. cbv zeta. rewrite (same_gview t s Sm). set (g := predictG _ _ _ _ _ _ _). split; [reflexivity|]. repeat split.
  - destruct Hr as (E & Sy & Hp). apply same_putF; [exact Sm|]. rewrite airspeed0; [exact Ax|exact U'|split; assumption|]. rewrite Ax. exact E.
  - destruct Hr as (N & E & Sy & Hp). apply same_putF; [exact Sm|]. rewrite sideslip0; [exact Ax|exact U'|split; assumption| |]; rewrite Ax; assumption.
  - destruct Hr as (E1 & E2). apply same_putF; [exact Sm|]. rewrite drag0; [exact Ax|exact U'| |]; rewrite Ax; lra.
  - destruct Hr as (E1 & E2). apply same_putF; [exact Sm|].
    assert (SV : sensor_vel (Re s) (mkV (- gyro 0%nat / dt) (- gyro 1%nat / dt) (- gyro 2%nat / dt)) (vec_of off) (fx (n_f s)) =
      to_body (state t) (vadd (ground_vel (state t)) (to_earth (state t) (cross (mkV (- gyro 0%nat / dt) (- gyro 1%nat / dt) (- gyro 2%nat / dt)) (vec_of off))))).
    { unfold sensor_vel. rewrite Ev, Ax. reflexivity. }
    assert (FR : flow_range gnd (h_vpos (n_t s)) (Re s) (vec_of off) (fx (n_f s)) =
      Rmax (h_vpos (n_t s) - state t 9%nat - vz (to_earth (state t) (vec_of off))) (Rmax gnd (1 / 10)) / m22 (dcm (quat_of (state t)))).
    { unfold flow_range. rewrite <- Ev, Ax. unfold mapp. cbn [vz mat_of m20 m21 m22]. reflexivity. }
    rewrite flow0; [exact Ax|exact U'| |]; rewrite SV, FR; [exact E1|]. rewrite E2. cbn [vz]. unfold Rdiv. ring.
  - destruct Hr as (E0 & E1 & E2 & L). apply same_putF; [exact Sm|]. rewrite mag0; [exact Ax|exact U'|..]; rewrite Ax; assumption.
  - destruct Hr as (D & L). apply same_putF; [exact Sm|]. rewrite declination0; [exact Ax|exact U'|..]; rewrite Ax; assumption.
  - apply same_putF; [exact Sm|]. rewrite gpsYaw0; [exact Ax|exact U'|]. unfold baseline. rewrite Ev. exact Hr.
  - unfold step. cbv zeta. pose proof (heading0 (allReset k) on_ground d i (n_yaw s) (n_f s) U') as H. rewrite Ax in H. specialize (H Hr).
    destruct (headingFusion _ _ _ _ _ _) as [f' y]. split; [exact H|]. exact (proj2 Sm).
  - (* GPS *)
    destruct Hr as (HV & HP0 & HP1). unfold step. cbv zeta.
    assert (W : g_rate (n_g s) = g_rate (n_g t)) by exact RT.
    assert (V3 : forall j, (j < 3)%nat -> s_vel (gpsCorrect (Re s) (g_rate (n_g s)) off g) j = state t (4 + j)%nat).
    { intros j Hj. unfold gpsCorrect. cbn [s_vel]. unfold vsubT. rewrite mvec_vec by exact Hj. rewrite vec_cross, Ev, W. cbn [ssub RScalar].
      pose proof (f_equal vx HV) as X. pose proof (f_equal vy HV) as Y. pose proof (f_equal vz HV) as Z.
      cbn [vec_of vx vy vz ground_vel vadd] in X, Y, Z. destruct j as [|[|[|j]]]; [| | |lia]; cbn [Nat.add]; fold (vec_of off) in X, Y, Z; fold (vec_of (g_rate (n_g t))) in X, Y, Z; lra. }
    assert (P3 : forall j, (j < 2)%nat -> s_pos (gpsCorrect (Re s) (g_rate (n_g s)) off g) j = state t (7 + j)%nat).
    { intros j Hj. unfold gpsCorrect. cbn [s_pos]. rewrite mvec_vec by lia. rewrite Ev. cbn [ssub RScalar].
      cbn [vx vy vz vadd] in HP0, HP1. destruct j as [|[|j]]; [| |lia]; cbn [Nat.add]; lra. }
    unfold gpsFuse. cbv zeta.
    assert (XV : forall j, xv (vview s) j = state t (4 + j)%nat) by (intros j; change (xv (vview s) j) with (state s (4 + j)%nat); rewrite A; reflexivity).
    assert (XP : forall j, xp (vview s) j = state t (7 + j)%nat) by (intros j; change (xp (vview s) j) with (state s (7 + j)%nat); rewrite A; reflexivity).
    unfold vsubT. rewrite !XV, !XP, !V3, !P3 by lia. cbn [ssub RScalar]. rewrite !Rminus_eq_0. cbn [o_v].
    apply same_putV; [exact Sm|].
    match goal with |- vx_ (r_v (fuseHorizontalPosition _ _ _ _ _ _ (r_v (fuseVerticalVelocity _ _ _ _ (r_v (fuseHorizontalVelocity _ _ ?g ?a ?b ?v)))))) = _ => 
      pose proof (hvel0 g a b v UV) as H1; set (v1 := r_v (fuseHorizontalVelocity 0 0 g a b v)) in * end.
    match goal with |- vx_ (r_v (fuseHorizontalPosition _ _ _ _ _ _ (r_v (fuseVerticalVelocity _ _ ?g ?a v1)))) = _ => 
      pose proof (vvel0 g a v1 ltac:(rewrite H1; exact UV)) as H2; set (v2 := r_v (fuseVerticalVelocity false 0 g a v1)) in * end.
    rewrite hpos0 by (rewrite H2, H1; exact UV). rewrite H2, H1. exact Ax.
  - (* height *)
    unfold step. cbv zeta. unfold hgtFuse. change (xp (vview s) 2%nat) with (state s 9%nat). rewrite A.
    assert (Z : fst (fst (hgtObs src p i (state t 9%nat))) = 0).
    { destruct src; cbn [hgtObs fst reads vz] in *.
      - cbn [sadd ssub RScalar]. replace (state t 9%nat + h_baro i - h_boff i) with 0 by lra. unfold deadzone. destruct (h_gnd i); [|reflexivity]. rewrite szeroR. cbn [sopp RScalar slt].
        destruct (Rlt_dec 0 (- 0)); [lra|reflexivity].
      - cbn [sadd ssub RScalar]. lra.
      - cbn [ssub sopp RScalar]. rewrite smaxi_R. lra.
      - cbn [ssub RScalar]. lra. }
    destruct (hgtObs _ _ _ _) as [[innov var] gate]. cbn [fst] in Z. rewrite Z. apply same_putV; [exact Sm|]. rewrite vpos0 by exact UV. exact Ax.
  - (* velocity *)
    destruct Hr as (E0 & E1 & E2). unfold step. cbv zeta. rewrite A. cbn [ground_vel vx vy vz] in E0, E1, E2.
    replace (state t 4%nat - vel 0%nat) with 0 by lra. replace (state t 5%nat - vel 1%nat) with 0 by lra.
    apply same_putV; [exact Sm|]. pose proof (hvel0 gate (var 0%nat) (var 1%nat) (vview s) UV) as H1. destruct vertical.
    + replace (state t 6%nat - vel 2%nat) with 0 by (rewrite E2 by reflexivity; lra). rewrite vvel0 by (rewrite H1; exact UV). rewrite H1. exact Ax.
    + rewrite H1. exact Ax.
  - destruct Hr as (E0 & E1). unfold step. cbv zeta. rewrite A. cbn [vx vy] in E0, E1.
    replace (state t 7%nat - pos 0%nat) with 0 by lra. replace (state t 8%nat - pos 1%nat) with 0 by lra.
    apply same_putV; [exact Sm|]. rewrite hpos0 by exact UV. exact Ax.
  - (* vision *)
    unfold step. cbv zeta. unfold evOdomObs. destruct (e_avail (n_e s)).
    + destruct Hr as (E0 & E1). cbn [vx vy] in E0, E1. apply same_putV; [exact Sm|].
      rewrite !mvec_vec by lia. cbn [Nat.add ssub RScalar]. unfold vsubT. cbn [ssub RScalar]. rewrite A.
      rewrite E0, E1. 
      match goal with |- context [fuseHorizontalPosition false ?a ?b] => replace a with 0 by lra; replace b with 0 by lra end.
      rewrite hpos0 by exact UV. exact Ax.
    + destruct Hr as (E0 & E1). apply same_putV; [exact Sm|]. rewrite E0, E1. rewrite hpos0 by exact UV. exact Ax.
  - split; [exact A|exact (proj2 Sm)].
  - unfold step. cbv zeta. rewrite A. split; [reflexivity|exact (proj2 Sm)].
  - unfold step. cbv zeta. rewrite A. split; [reflexivity|exact (proj2 Sm)].
  - unfold step. cbv zeta. rewrite A. split; [reflexivity|exact (proj2 Sm)].
  - unfold step. cbv zeta. rewrite A. split; [reflexivity|]. split; [reflexivity|]. exact (proj2 (proj2 Sm)).
  - unfold step. cbv zeta. rewrite A. split; [destruct gyro, accel; reflexivity|exact (proj2 Sm)].
  - unfold step. cbv zeta. rewrite A. split; [reflexivity|exact (proj2 Sm)].
  - unfold step. cbv zeta. split; [|exact (proj2 Sm)]. change (fx (windReset k a (n_f s)) = fx (windReset k a (n_f t))). unfold windReset. cbv zeta. rewrite Ax. change (fx (n_f t)) with (state t). reflexivity.
  - unfold step. cbv zeta. rewrite A. split; [exact A|exact (proj2 Sm)].
Qed.

(** ** C94 *)
(** the estimator starts in agreement with the vehicle; every sensor reads what it should on the vehicle; then after every
    history of predictions, fusions and resets the estimator still agrees with the vehicle in every state *)
Theorem C94_exact_measurements : forall (k : rcfg) (l : list event) (t s : engine), proper t -> same t s -> ideal k l t s ->
  forall i, state (run k l s) i = state (run k (filter (fun e => negb (fusion e)) l) t) i.
Proof.
  intros k l. induction l as [|e l IH]; intros t s P Sm I i.
  - cbn. rewrite (proj1 Sm). reflexivity.
  - destruct I as [R I]. pose proof (step_same k e t s P Sm R) as S1. pose proof (move_proper k e t P) as P1.
    specialize (IH _ _ P1 S1 I i). cbn [run fold_left] in *. unfold run in IH at 1. rewrite IH. cbn [filter]. unfold move. destruct (fusion e); reflexivity.
Qed.

(** ** A case that meets the hypotheses: cruise north at 12 m/s in a wind of 2 m/s, airspeed, GPS with an antenna 1 m ahead,
    magnetometer, magnetic heading, barometer, then a prediction and vision height and velocity *)
Definition cruise_x : Vec R := fun i => match i with 0%nat => 1 | 4%nat => 12 | 9%nat => -100 | 16%nat => 1 / 5 | 18%nat => 2 / 5 | 22%nat => 2 | _ => 0 end.
Definition cruise : engine := putF (setX cruise_x (n_f start)) start.
Definition grid_decl : declin R := mkDecl false false 0 0 0 0.
Definition imu_still : gimu R := Gimu (fun _ => 0) (fun _ => 0) (1 / 100) (1 / 100).
Definition coast : event := EPredict flat 1 (fun _ => 0) imu_still.
Definition after_coast : engine := step plain_cfg coast cruise.
Definition readings : list event :=
  [ EAirspeed false (TasS true 10 1) 3;
    EGps false 1 10 1 5 5 (fun k => if (k =? 0)%nat then 1 else 0) (GpsS (fun k => if (k =? 0)%nat then 12 else 0) (fun k => if (k =? 0)%nat then 1 else 0) 0 1 1 1);
    EMag grid_decl true false 3 (fun k => match k with 0%nat => 1 / 5 | 1%nat => 0 | _ => 2 / 5 end);
    EHeading false grid_decl (mkHead true false false false (3 / 10) 1 1 3 (mkV (1 / 5) 0 (2 / 5)) (mkQ 1 0 0 0));
    EHeight HBaro (HgtPar 1 3 0 1 1 1 1 1 3 3) (HgtIn 150 50 0 0 0 0 0 0 0 true);
    coast;
    EHeight HVision (HgtPar 1 3 0 1 1 1 1 1 3 3) (HgtIn 0 0 0 0 0 0 0 (state after_coast 9%nat) 1 false);
    EVelocity (fun k => state after_coast (4 + k)%nat) 3 (fun _ => 1) true ].
Lemma cruise_mag : mag_model cruise_x = mkV (1 / 5) 0 (2 / 5).
Proof. unfold mag_model, to_body, vadd, mapp, mtr, dcm, quat_of, cruise_x. cbn [vx vy vz m00 m01 m02 m10 m11 m12 m20 m21 m22 q0 q1 q2 q3]. f_equal; field. Qed.
Lemma cruise_field : field_in_limits grid_decl cruise_x.
Proof.
  unfold field_in_limits, field_floor, decl_reference, grid_decl, cruise_x. cbn [d_geo d_param]. split.
  - replace (1 / 5 * (1 / 5) + 0 * 0) with (1 / 5 * (1 / 5)) by ring. rewrite sqrt_square by lra. lra.
  - unfold atan2. destruct (Rlt_dec 0 (1 / 5)) as [_|N]; [|lra]. replace (0 / (1 / 5)) with 0 by field. rewrite atan_0. rewrite Rabs_pos_eq; lra.
Qed.
Lemma cruise_decl : atan2 (cruise_x 17%nat) (cruise_x 16%nat) = decl_reference grid_decl.
Proof. unfold decl_reference, grid_decl, cruise_x. cbn [d_geo d_param]. unfold atan2. destruct (Rlt_dec 0 (1 / 5)) as [_|N]; [|lra]. replace (0 / (1 / 5)) with 0 by field. apply atan_0. Qed.
Lemma cruise_speed : airspeed_model cruise_x = 10.
Proof. unfold airspeed_model, air_vel, vnorm2, vdot, cruise_x. cbn [vx vy vz]. replace ((12 - 2) * (12 - 2) + (0 - 0) * (0 - 0) + 0 * 0) with (10 * 10) by ring. apply sqrt_square. lra. Qed.
#[local] Opaque fuseAirspeed fuseMag headingFusion gpsFuse hgtFuse fuseHorizontalVelocity fuseVerticalVelocity predictG predictCovariance.
Example readings_hyps : proper cruise /\ same cruise cruise /\ ideal plain_cfg readings cruise cruise /\ existsb fusion readings = true.
Proof.
  split.
  { split; [unfold quat_of, qnorm2; cbn; ring|]. cbn. unfold mat_of, dcm, quat_of. cbn. f_equal; ring. }
  split; [repeat split|]. split; [|reflexivity].
  split.
  { cbn [reads]. split; [symmetry; exact cruise_speed|]. split.
    - intros i j Hi Hj. change ((if (i =? j)%nat then 1 else 0) = (if (j =? i)%nat then 1 else 0)). rewrite Nat.eqb_sym. reflexivity.
    - change (psd (fun i j => if (i =? j)%nat then 1 else 0)). apply (psd_diag (fun _ => 1)). intros; lra. }
  split.
  { cbn [reads]. change (state (move plain_cfg _ cruise)) with cruise_x. unfold ground_vel, to_earth, vec_of, vadd, mapp, dcm, quat_of, cross, cruise_x.
    cbn. split; [f_equal; ring|]. split; ring. }
  split.
  { cbn [reads]. change (state _) with cruise_x. rewrite cruise_mag. cbn [vx vy vz]. repeat (split; [reflexivity|]). exact cruise_field. }
  split.
  { cbn [reads]. change (state _) with cruise_x. unfold heading_exact. cbn [hi_inhibit hi_rest hi_mag andb hi_sample]. split; [symmetry; exact cruise_mag|].
    split; [left; unfold cruise_x; lra|]. intros _. exact cruise_decl. }
  split.
  { cbn [reads vz h_baro h_boff]. change (state _) with cruise_x. unfold cruise_x. lra. }
  split; [exact I|].
  split.
  { cbn [reads vz h_ev]. reflexivity. }
  split; [|exact I].
  cbn [reads ground_vel vx vy vz]. split; [reflexivity|]. split; [reflexivity|]. intros _. reflexivity.
Qed.
Print Assumptions C94_exact_measurements.

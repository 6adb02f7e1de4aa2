(** * The whole estimator driven by an arbitrary sequence of operations

    Composition of the models of the single steps into one object: prediction
    (EKF/ekf.cpp l.116-117: predictState, then predictCovariance), every fusion
    that controlFusionModes may call, every reset of a state, and the terrain
    estimator (l.123).  Which operation is called when is ControlModel.v; here the
    sequence is arbitrary, so that a statement about all sequences covers every
    decision of the control logic.  Exact reals. *)
From Coq Require Import Reals List ZArith.
From Verif Require Import CBase Scalar CovPredGen RealGeom RotModel GeoModel CovModel CovQuat CovQuat2 FusionGen FusionModel FusionSpec OutputModel NanModel VelPosModel ObsModel
  TerrainModel HeadingModel.
Import ListNotations.
Open Scope R_scope.

(** the estimator: states, covariance, innovations and fault flags (FusionModel.v); bookkeeping of the velocity and position
    fusion (VelPosModel.v; its copies v_c, v_s are refreshed before use); memory of the predictor (NanModel.v; g_x is
    refreshed before use); terrain estimator; memory of the vision odometry; _last_static_yaw *)
Record engine := Eng { n_f : fus R; n_v : vpst R; n_g : predG R; n_t : tst R; n_e : evmem R; n_yaw : R }.
Definition state (s : engine) : Vec R := fx (n_f s).
Definition covariance (s : engine) : Mat R := fP (n_f s).

(** parameters used by the resets: initial_tilt_err, gps_vel_noise, gps_pos_noise, variance of the height source,
    switch_on_gyro_bias, switch_on_accel_bias, mag_noise, initial_wind_uncertainty, eas_noise *)
Record rcfg := Rcfg { rc_tilt : R; rc_vel : R; rc_pos : R; rc_hgt : R; rc_gyro : R; rc_acc : R; rc_mag : R; rc_wind : R; rc_eas : R }.
(** initialiseCovariance, covariance.cpp l.46-98 *)
Definition allReset (k : rcfg) (x : Vec R) (P : Mat R) : Mat R :=
  initialiseCovariance x (rc_tilt k) (rc_vel k) (rc_pos k) (rc_hgt k) (rc_gyro k) (rc_acc k) (rc_mag k) (rc_wind k).
(** resetMagRelatedCovariances, l.1036-1040, with resetQuatCov l.1042-1050 *)
Definition magReset (k : rcfg) (x : Vec R) (P : Mat R) : Mat R :=
  resetMagCov (rc_mag k) (initQuatCov x (fun _ => sq (rc_tilt k)) (zeroQuatCov P)).
(** resetWindStates (airspeed_fusion.cpp l.174-187) and resetWindCovariance (covariance.cpp l.1087-1121); the airspeed sample:
    whether it is recent, true airspeed, eas2tas *)
Record tasS := TasS { ts_recent : bool; ts_tas : R; ts_e2t : R }.
Definition windReset (k : rcfg) (a : tasS) (f : fus R) : fus R :=
  let x := fx f in
  let yaw := yaw321_q (quat_of x) in
  let wn := if ts_recent a then x 4%nat - ts_tas a * cos yaw else 0 in
  let we := if ts_recent a then x 5%nat - ts_tas a * sin yaw else 0 in
  setM (resetWindCovariance (ts_recent a) (rc_eas k) (ts_e2t a) (sq (ts_tas a * sin (15 * PI / 180))) (sq (10 * PI / 180)) (cos yaw) (sin yaw) wn we (rc_wind k) (fP f))
    (setX (fun i => if (i =? 22)%nat then wn else if (i =? 23)%nat then we else x i) f).

(** the context of the covariance prediction: flags and parameters of the moment (from t), the states, the IMU sample, the
    third row of _R_to_earth and the average time step of the predictor *)
Definition imuCtx (t : covctx R) (i : gimu R) (g : predG R) : covctx R :=
  mkCtx (g_x g) (gi_da i) (gi_dv i) (x_clip t) (g_R g 2%nat)
    (p_gyro_bias_p_noise t) (p_accel_bias_p_noise t) (p_acc_bias_learn_tc t) (p_acc_bias_learn_gyr_lim t)
    (p_acc_bias_learn_acc_lim t) (p_mage_p_noise t) (p_magb_p_noise t) (p_wind_vel_p_noise t)
    (p_wind_vel_p_noise_scaler t) (p_initial_wind_uncertainty t) (p_gyro_noise t) (p_accel_noise t) (p_acc_bias_lim t)
    (p_inhibit_acc_bias t) (f_bad_acc_vertical t) (f_in_air t) (f_mag_3D t) (f_wind t) (f_gps t) (f_ev_vel t)
    (f_gps_hgt t) (f_baro_hgt t) (f_rng_hgt t) (f_ev_hgt t) (i_gps_vel t) (i_ev_vel t) (i_gps_pos t) (i_baro t)
    (i_rng t) (i_ev_pos t) (g_dt g) (x_time_last_imu t).

(** the views of the estimator that the models of the steps work on *)
Definition vview (s : engine) : vpst R :=
  let v := n_v s in
  mkVp (fc (n_f s)) (fs (n_f s)) (v_rej_hvel v) (v_rej_vvel v) (v_rej_hpos v) (v_rej_vpos v) (v_t_hvel v) (v_t_vvel v) (v_t_hpos v)
    (v_t_delpos v) (v_t_hgt v) (v_bad v) (v_fail0 v) (v_fail1 v) (v_vvel_ratio v) (v_vpos_ratio v) (v_vvel_time v) (v_vpos_time v) (v_odom v).
Definition gview (s : engine) : predG R :=
  let g := n_g s in PredG (state s) (g_R g) (g_lpn g) (g_lpe g) (g_dt g) (g_rate g).
Definition putV (v : vpst R) (s : engine) : engine := Eng (setCS (v_c v) (v_s v) (n_f s)) v (n_g s) (n_t s) (n_e s) (n_yaw s).
Definition putF (f : fus R) (s : engine) : engine := Eng f (n_v s) (n_g s) (n_t s) (n_e s) (n_yaw s).
Definition putR (r : Mat R) (s : engine) : engine :=
  let g := n_g s in Eng (n_f s) (n_v s) (PredG (g_x g) r (g_lpn g) (g_lpe g) (g_dt g) (g_rate g)) (n_t s) (n_e s) (n_yaw s).
Definition Re (s : engine) : Mat R := g_R (n_g s).
(** the terrain estimator reads position, velocity, attitude and P(9,9) of the estimator *)
Definition tview (i : tin R) (s : engine) : tin R :=
  mkTi (t_now i) (t_air i) (state s 9%nat) (fun k => match k with O => state s 4%nat | 1%nat => state s 5%nat | _ => state s 6%nat end)
    (fun k => match k with O => state s 0%nat | 1%nat => state s 1%nat | 2%nat => state s 2%nat | _ => state s 3%nat end) (Re s) (covariance s 9%nat 9%nat) (t_dt i) (t_healthy i)
    (t_dist i) (t_range i) (t_flow_ready i) (t_comp i) (t_fdt i) (t_gbias i) (t_gyro i) (t_off i) (t_qual i).

(** operations.  Absolute positions and heights appear in: EGps (s_pos), EHeight (h_boff, h_off, h_ev), EPosition, EVision,
    ESetPosition, ESetHeight *)
Inductive event :=
  | EPredict (t : covctx R) (acc_lim : R) (earth : Vec R) (i : gimu R)
  | EAirspeed (full : bool) (a : tasS) (gate : R)
  | ESideslip (full : bool) (a : tasS) (noise gate : R)
  | EDrag (noise density bcx bcy accx accy : R)
  | EFlow (rn gate gnd dt : R) (gyro off comp bias : Vec R)
  | EMag (d : declin R) (all synth : bool) (gate : R) (meas : Vec R)
  | EDeclination (d : declin R) (sigma : R)
  | EGpsYaw (yaw off noise gate : R)
  | EHeading (on_ground : bool) (d : declin R) (i : headin)
  | EGps (other : bool) (pos_noise noaid vel_noise pos_gate vel_gate : R) (off : Vec R) (g : gpsS R)
  | EHeight (src : hgtsrc) (p : hgtpar R) (i : hgtin R)
  | EVelocity (vel : Vec R) (gate : R) (var : Vec R) (vertical : bool)
  | EPosition (inhibit : bool) (pos : Vec R) (gate var0 var1 : R)
  | EVisionStep (E : Mat R) (s : evS R) (gate : R)
  | ETerrain (p : tpar R) (i : tin R)
  | ESetVelocity (v : Vec R) (var : Vec R)
  | ESetPosition (n e var : R)
  | ESetHeight (d var : R)
  | ESetYaw (yaw var : R)
  | EZeroBiases (gyro accel : bool) (vg va : R)
  | ESetField (earthf bodyf : Vec R)
  | ESetWind (a : tasS)
  | ECovReset (all : bool).

Definition step (k : rcfg) (e : event) (s : engine) : engine :=
  let f := n_f s in let x := state s in let P := covariance s in
  match e with
  (* ekf.cpp l.116-117 *)
  | EPredict t lim earth i =>
      let g := predictG sin cos (20 * PI / 180) lim earth i (gview s) in
      let c := imuCtx t i g in
      Eng (setCS c (predictCovariance c (fs f)) f) (n_v s) g (n_t s) (n_e s) (n_yaw s)
  | EAirspeed full a gate => putF (fuseAirspeed (windReset k a) (allReset k) full (rc_eas k) gate (ts_tas a) (ts_e2t a) f) s
  | ESideslip full a noise gate => putF (fuseSideslip (windReset k a) (allReset k) full noise gate f) s
  | EDrag noise rho bcx bcy ax ay => putF (fuseDrag noise rho bcx bcy ax ay f) s
  | EFlow rn gate gnd dt gyro off comp bias => putF (fuseOptFlow (allReset k) rn gate gnd (h_vpos (n_t s)) dt (Re s) gyro off comp bias f) s
  | EMag d all synth gate meas => putF (fuseMag cos sin atan2 (magReset k) d all synth (rc_mag k) gate meas f) s
  | EDeclination d sigma => putF (fuseDeclination cos sin atan2 d sigma f) s
  | EGpsYaw yaw off noise gate => putF (fuseGpsYaw cos sin atan2 wrap_pi (allReset k) (cos (30 * PI / 180)) (Re s) yaw off noise gate f) s
  | EHeading gnd d i =>
      let '(f', y) := headingFusion (allReset k) gnd d i (n_yaw s) f in Eng f' (n_v s) (n_g s) (n_t s) (n_e s) y
  | EGps other pn na vn pg vg off g =>
      let '(_, o, _) := gpsFuse false other pn na vn pg vg (Re s) (g_rate (n_g s)) off g (vview s) in putV (o_v o) s
  | EHeight src p i => putV (r_v (hgtFuse false src p i (vview s))) s
  | EVelocity vel gate var vertical =>
      let v := vview s in
      let r := fuseHorizontalVelocity (x 4%nat - vel 0%nat) (x 5%nat - vel 1%nat) gate (var 0%nat) (var 1%nat) v in
      putV (if vertical then r_v (fuseVerticalVelocity false (x 6%nat - vel 2%nat) gate (var 2%nat) (r_v r)) else r_v r) s
  | EPosition inhibit pos gate v0 v1 => putV (r_v (fuseHorizontalPosition inhibit (x 7%nat - pos 0%nat) (x 8%nat - pos 1%nat) gate v0 v1 (vview s))) s
  | EVisionStep E m gate =>
      let '(i, o, e') := evOdomObs E m (n_e s) (fun j => x (7 + j)%nat) in
      let s' := Eng f (n_v s) (n_g s) (n_t s) e' (n_yaw s) in
      putV (r_v (fuseHorizontalPosition false (i 0%nat) (i 1%nat) (sfmax gate (slit 1 1)) (o 0%nat) (o 1%nat) (setOdom true (vview s)))) s'
  | ETerrain p i => Eng f (n_v s) (n_g s) (runTerrain p (tview i s) (n_t s)) (n_e s) (n_yaw s)
  (* ekf_helper.cpp l.122-157, l.219-255: the states; l.66-120, l.197-217, l.258-330: the variances *)
  | ESetVelocity v var => putF (setM (uncorrelateSet 3 4 var P) (setX (fun i => if inb 4 3 i then v (i - 4)%nat else x i) f)) s
  | ESetPosition n e var => putF (setM (uncorrelateSet 2 7 (fun _ => var) P) (setX (fun i => if (i =? 7)%nat then n else if (i =? 8)%nat then e else x i) f)) s
  | ESetHeight d var => putF (setM (uncorrelateSet 1 9 (fun _ => var) P) (setX (fun i => if (i =? 9)%nat then d else x i) f)) s
  (* resetQuatStateYaw, ekf_helper.cpp l.1549-1592 *)
  | ESetYaw yaw var =>
      let x' := yawResetG sin cos asin atan2 (PI / 2) yaw x in
      let P1 := uncorrelateQuat P in
      putR (dcmv x') (putF (setM (if Rlt_dec (1 / 2 ^ 23) var then increaseYawVar x' var P1 else P1) (setX x' f)) s)
  (* resetImuBias, ekf_helper.cpp l.875-902 *)
  | EZeroBiases g a vg va =>
      let P1 := if g then uncorrelateSet 3 10 (fun _ => vg) P else P in
      putF (setM (if a then uncorrelateSet 3 13 (fun _ => va) P1 else P1)
        (setX (fun i => if (g && inb 10 3 i) || (a && inb 13 3 i) then 0 else x i)%bool f)) s
  (* resetMagHeading, ekf_helper.cpp l.469-526, resetMagBias l.904-920: field states *)
  | ESetField m b => putF (setM (resetMagCov (rc_mag k) P) (setX (fun i => if inb 16 3 i then m (i - 16)%nat else if inb 19 3 i then b (i - 19)%nat else x i) f)) s
  | ESetWind a => putF (windReset k a f) s
  | ECovReset all => putF (setM (if all then allReset k x P else magReset k x P) f) s
  end.
Definition run (k : rcfg) (l : list event) (s : engine) : engine := fold_left (fun s e => step k e s) l s.

(** * C87: re-initialising the estimator (Ekf::init called again, ekf.cpp l.47-99)

    The control part is the step [Reinit] of ControlModel.v: all history theorems about
    [run] and [reachable] now range over executions with re-initialisations.  The
    start-up part continues PredictModel.v: Ekf::reset leaves _is_first_imu_sample,
    _accel_lpf, _gyro_lpf, _mag_lpf, _mag_counter and _baro_counter alone, and nothing but
    initialiseFilter writes them; _baro_hgt_offset may have been changed in between. *)
From Coq Require Import Reals Lra Lia ZArith List Bool.
From Verif Require Import CBase RealGeom RotModel PredictModel StartProofs Props_Predict ControlModel ControlSpec ControlProofs.
Import ListNotations.

(** ** Status word *)
Open Scope Z_scope.
(** after a re-initialisation nothing is reported as used or aligned, whatever happened before *)
Theorem C87_status_cleared : forall l, let s := run (l ++ [Reinit]) st0 in
  count (height_sources s) = 0 /\ horizontal_aiding s = false /\ mag_on s = false /\ other_yaw_on s = false /\
  gb s F_tilt_align = false /\ gb s F_yaw_align = false /\ gb s F_mag_fault = false /\ gb s F_bad_acc_vertical = false.
Proof. intros l. cbv zeta. rewrite run_app. cbn [run do_step]. unfold reinit, horizontal_aiding, mag_on, other_yaw_on, height_sources, count. cbn. repeat split. Qed.
(** the first height source after it is the barometer *)
Theorem C87_first_height_source : forall l p i, let s := run (l ++ [Reinit; Init p i]) st0 in
  gb s F_baro_hgt = true /\ count (height_sources s) = 1.
Proof.
  intros l p i. cbv zeta. rewrite run_app. cbn [run do_step].
  assert (E : gb (initialiseFilter p i (reinit (run l st0))) F_baro_hgt = true).
  { unfold initialiseFilter. destruct (bk_eq_dec F_baro_hgt F_baro_hgt); [|congruence].
    match goal with |- gb ?x F_baro_hgt = true => change (gb (alignYawToMag p i (setControlBaroHeight (reinit (run l st0)))) F_baro_hgt = true) end.
    unfold alignYawToMag, resetMagHeading, stopMagFusion, stopMag3DFusion, stopMagHdgFusion, if_. cbv zeta.
    repeat match goal with |- context [if ?b then _ else _] => destruct b end; reflexivity. }
  split; [exact E|].
  pose proof (one_height_source (run (l ++ [Reinit; Init p i]) st0) (ex_intro _ _ eq_refl)) as O. rewrite run_app in O. cbn [run do_step] in O.
  unfold height_sources, count in *. cbn [fold_right] in *. rewrite E in *. cbn [Z.b2z] in *.
  repeat match goal with |- context [Z.b2z ?b] => destruct b; cbn [Z.b2z] in * end; lia.
Qed.
(** DEFECT: latched failures, observability decisions, counters and time stamps survive *)
Theorem C87_latches_survive_refuted : forall s,
  (forall k, In k [L_is_gps_yaw_faulty; L_baro_hgt_faulty; L_velpos_reset_request; L_mag_yaw_reset_req; L_yaw_angle_observable; L_mag_bias_observable;
                   L_is_range_aid_suitable; L_inhibit_flow_use; L_do_ekfgsf_yaw_reset; L_is_dead_reckoning] -> gb (reinit s) k = gb s k) /\
  (forall k, gz (reinit s) k = gz s k).
Proof. intros s. split; [|reflexivity]. intros k H. repeat (destruct H as [<-|H]; [reflexivity|]). destruct H. Qed.
(** ... so the emergency yaw resets used up before count against the limit afterwards (C28 ranges over re-initialisations) *)

(** ** Start-up *)
Open Scope R_scope.
(** the retained start-up state, with whatever barometer offset the flight left *)
Definition retained (o : R) (s : startst) : startst := StartSt (u_first s) (u_acc s) (u_gyr s) (u_mag s) (u_magc s) (u_baroc s) o.
Definition force_of (i : startin) : V3 := vscale (/ pi_dvdt (st_imu i)) (pi_dv (st_imu i)).
Definition rate_of (i : startin) : V3 := vscale (/ pi_dadt (st_imu i)) (pi_da (st_imu i)).
Definition in_limits (acc gyr : V3) : Prop := 8 / 10 * gravity <= vnorm acc <= 12 / 10 * gravity /\ vnorm gyr <= 15 * PI / 180.

Lemma startStep_eq um n i s : usable i = true -> (u_magc s + 1 < 2 ^ 32)%Z -> (u_baroc s + 1 < 2 ^ 32)%Z -> (0 <= u_magc s)%Z -> (0 <= u_baroc s)%Z ->
  (um = true -> n <= u_magc s)%Z -> (n <= u_baroc s)%Z -> u_first s = false ->
  exists s', (startStep um n i s = (s', Some (tiltQuat (lpf (u_acc s) (force_of i)))) /\ in_limits (lpf (u_acc s) (force_of i)) (lpf (u_gyr s) (rate_of i)) \/
              startStep um n i s = (s', None) /\ ~ in_limits (lpf (u_acc s) (force_of i)) (lpf (u_gyr s) (rate_of i))) /\
    u_first s' = false /\ u_acc s' = lpf (u_acc s) (force_of i) /\ u_gyr s' = lpf (u_gyr s) (rate_of i) /\
    u_off s' = match st_baro i with Some (t, h) => if (t =? 0)%Z then u_off s else if (u_baroc s =? 0)%Z then h else 9 / 10 * u_off s + 1 / 10 * h | None => u_off s end.
Proof.
  intros US M1 B1 M0 B0 HM HB F. unfold usable in US. destruct (Rle_dec (1 / 10000) (pi_dvdt (st_imu i))) as [D1|]; [|discriminate]. destruct (Rle_dec (1 / 10000) (pi_dadt (st_imu i))) as [D2|]; [|discriminate].
  unfold startStep. cbv zeta. destruct (Rlt_dec (pi_dvdt (st_imu i)) _) as [X|_]; [lra|]. destruct (Rlt_dec (pi_dadt (st_imu i)) _) as [X|_]; [lra|].
  rewrite F. fold (force_of i) (rate_of i).
  set (mm := match st_mag i with Some _ => _ | None => _ end).
  assert (GM : exists m c, mm = (m, c) /\ (u_magc s <= c)%Z).
  { unfold mm. destruct (st_mag i) as [[t b]|]; [|eexists _, _; split; [reflexivity|lia]]. destruct (t =? 0)%Z; [eexists _, _; split; [reflexivity|lia]|].
    eexists _, _. split; [reflexivity|]. rewrite Z.mod_small by lia. lia. }
  destruct GM as (m & c & GM & C). rewrite GM. clear GM mm.
  set (bb := match st_baro i with Some _ => _ | None => _ end).
  assert (GB : exists o k, bb = (o, k) /\ (u_baroc s <= k)%Z /\
     o = match st_baro i with Some (t, h) => if (t =? 0)%Z then u_off s else if (u_baroc s =? 0)%Z then h else 9 / 10 * u_off s + 1 / 10 * h | None => u_off s end).
  { unfold bb. destruct (st_baro i) as [[t b]|]; [|eexists _, _; split; [reflexivity|split; [lia|reflexivity]]]. destruct (t =? 0)%Z; [eexists _, _; split; [reflexivity|split; [lia|reflexivity]]|].
    eexists _, _. split; [reflexivity|]. split; [|reflexivity]. rewrite Z.mod_small by lia. lia. }
  destruct GB as (o & k & GB & K & EO). rewrite GB. clear GB bb. rewrite <- EO.
  assert (N1 : (um && (c <? n)%Z)%bool = false). { destruct um; [|reflexivity]. cbn [andb]. apply Z.ltb_ge. specialize (HM eq_refl). lia. }
  assert (N2 : (k <? n)%Z = false) by (apply Z.ltb_ge; lia). rewrite N1, N2.
  set (s' := StartSt _ _ _ _ _ _ _). exists s'.
  split; [|unfold s'; cbn; auto].
  unfold tiltOk, in_limits, s'. cbn [u_acc u_gyr].
  destruct (Rlt_dec (vnorm (lpf (u_acc s) (force_of i))) _); [right; split; [reflexivity|lra]|]. destruct (Rlt_dec (12 / 10 * gravity) _); [right; split; [reflexivity|lra]|].
  destruct (Rlt_dec (15 * PI / 180) _); [right; split; [reflexivity|lra]|]. left. split; [reflexivity|lra].
Qed.

(** DEFECT: after a completed start-up, a re-initialisation completes on the first usable
    inertial sample, without any new barometer or magnetometer sample, as soon as the OLD
    smoothed specific force and rate mixed with one tenth of the new sample are within
    limits; the initial attitude is computed from this mixture, and the height reference
    is not taken from a new barometer sample either *)
Theorem C87_restart_skips_startup_refuted : forall (use_mag : bool) (n : Z) (l : list startin) (s : startst) (q : Q4) (o : R) (i : startin),
  (0 < n)%Z -> (Z.of_nat (length l) + 1 < 2 ^ 32)%Z -> startRun use_mag n l start0 = (s, Some q) -> usable i = true ->
  let acc := lpf (u_acc s) (force_of i) in let gyr := lpf (u_gyr s) (rate_of i) in
  exists s', (in_limits acc gyr -> startStep use_mag n i (retained o s) = (s', Some (tiltQuat acc))) /\
    (~ in_limits acc gyr -> startStep use_mag n i (retained o s) = (s', None)) /\
    u_acc s' = acc /\
    u_off s' = match st_baro i with Some (t, h) => if (t =? 0)%Z then o else 9 / 10 * o + 1 / 10 * h | None => o end.
Proof.
  intros um n l s q o i NP LEN H US acc gyr. assert (LEN' : (Z.of_nat (length l) < 2 ^ 32)%Z) by lia.
  apply (C71_completes_exactly um n l s q LEN') in H. destruct H as (a & j & b & E & UJ & (RM & RB & _ & _) & _ & ES & _).
  assert (LM : forall B (f : startin -> option (Z * B)) l0, (length (flat_map (fun i => stamped (f i)) (filter usable l0)) <= length l0)%nat).
  { intros B f. induction l0 as [|x l0 IH]; [cbn; lia|]. cbn [filter]. destruct (usable x); cbn [flat_map length]; [|lia]. rewrite app_length.
    unfold stamped at 1. destruct (f x) as [[t y]|]; [destruct (t =? 0)%Z|]; cbn [length]; lia. }
  pose proof (LM V3 st_mag (a ++ [j])) as LM1. pose proof (LM R st_baro (a ++ [j])) as LB1. fold (mags (a ++ [j])) in LM1. fold (baros (a ++ [j])) in LB1.
  assert (LA : (length (a ++ [j]) <= length l)%nat) by (rewrite E, !app_length; cbn [length]; lia).
  assert (FM : u_magc s = Z.of_nat (length (mags (a ++ [j])))) by (rewrite ES; reflexivity).
  assert (FB : u_baroc s = Z.of_nat (length (baros (a ++ [j])))) by (rewrite ES; reflexivity).
  assert (FF : u_first s = false) by (rewrite ES; reflexivity).
  destruct (startStep_eq um n i (retained o s)) as (s' & A & _ & B & _ & D); unfold retained; cbn [u_magc u_baroc u_first]; try lia; try assumption; try (intros U; specialize (RM U); lia).
  exists s'. cbn [retained u_acc u_gyr u_off u_baroc] in *. fold acc gyr in A. split; [|split; [|split; [exact B|]]].
  - intros L. destruct A as [[A1 A2]|[A1 A2]]; try contradiction; exact A1.
  - intros L. destruct A as [[A1 A2]|[A1 A2]]; try contradiction; exact A1.
  - rewrite D. destruct (u_baroc s =? 0)%Z eqn:Z0; [|reflexivity]. apply Z.eqb_eq in Z0. lia.
Qed.

(** ... so a vehicle that started level and is re-initialised at rest lying on its side is
    believed to be rolled by only 6.3 degrees (atan (1/9)) instead of 90 *)
Theorem C87_restart_attitude_refuted :
  let rest (truth : V3) := StartIn (Pimu vzero (vscale (1 / 100) truth) (1 / 100) (1 / 100)) in
  let level := rest (mkV 0 0 (- gravity)) in let side := rest (mkV 0 (- gravity) 0) in
  exists s q s', startRun true 1 [level (Some (5%Z, mkV (1 / 5) 0 (2 / 5))) (Some (7%Z, 400))] start0 = (s, Some q) /\
    startStep true 1 (side None None) (retained (u_off s) s) = (s', Some (tiltQuat (mkV 0 (- (1 / 10) * gravity) (- (9 / 10) * gravity)))) /\
    tiltQuat (mkV 0 (- (1 / 10) * gravity) (- (9 / 10) * gravity)) = quatOfEuler (atan (1 / 9)) 0 0.
Proof.
  cbv zeta. set (i := StartIn (Pimu vzero (vscale (1 / 100) (mkV 0 0 (- gravity))) (1 / 100) (1 / 100)) (Some (5%Z, mkV (1 / 5) 0 (2 / 5))) (Some (7%Z, 400))).
  set (j := StartIn (Pimu vzero (vscale (1 / 100) (mkV 0 (- gravity) 0)) (1 / 100) (1 / 100)) None None).
  assert (US : usable i = true) by (unfold usable, i; cbn [st_imu pi_dvdt pi_dadt]; destruct (Rle_dec _ _); [|lra]; reflexivity).
  assert (UJ : usable j = true) by (unfold usable, j; cbn [st_imu pi_dvdt pi_dadt]; destruct (Rle_dec _ _); [|lra]; reflexivity).
  assert (FI : force_of i = mkV 0 0 (- gravity)) by (unfold force_of, i, vscale; cbn [st_imu pi_dvdt pi_dv vx vy vz]; f_equal; field).
  assert (FJ : force_of j = mkV 0 (- gravity) 0) by (unfold force_of, j, vscale; cbn [st_imu pi_dvdt pi_dv vx vy vz]; f_equal; field).
  assert (RI : rate_of i = vzero) by (unfold rate_of, i, vscale, vzero; cbn [st_imu pi_dadt pi_da vx vy vz]; f_equal; field).
  assert (RJ : rate_of j = vzero) by (unfold rate_of, j, vscale, vzero; cbn [st_imu pi_dadt pi_da vx vy vz]; f_equal; field).
  assert (NZ : vnorm vzero = 0). { unfold vnorm, vnorm2, vdot, vzero. cbn [vx vy vz]. replace (0 * 0 + 0 * 0 + 0 * 0) with 0 by ring. apply sqrt_0. }
  assert (GP : 0 < gravity) by (unfold gravity; lra). pose proof PI_RGT_0 as PP.
  assert (NI : vnorm (mkV 0 0 (- gravity)) = gravity).
  { unfold vnorm, vnorm2, vdot. cbn [vx vy vz]. replace (0 * 0 + 0 * 0 + - gravity * - gravity) with (Rsqr gravity) by (unfold Rsqr; ring). apply sqrt_Rsqr. lra. }
  assert (R1 : exists s, startRun true 1 [i] start0 = (s, Some (tiltQuat (mkV 0 0 (- gravity)))) /\ u_acc s = mkV 0 0 (- gravity) /\ u_gyr s = vzero).
  { cbn [startRun]. unfold startStep, i. cbv zeta. cbn [st_imu pi_dvdt pi_dadt pi_dv pi_da st_mag st_baro start0 u_first u_magc u_baroc].
    destruct (Rlt_dec (1 / 100) (1 / 10000)) as [X|_]; [lra|].
    change ((5 =? 0)%Z) with false. change ((7 =? 0)%Z) with false. change ((0 =? 0)%Z) with true. change ((0 + 1) mod 2 ^ 32)%Z with 1%Z. cbn iota. cbn [andb]. change ((1 <? 1)%Z) with false. cbn iota.
    assert (EA : vscale (/ (1 / 100)) (vscale (1 / 100) (mkV 0 0 (- gravity))) = mkV 0 0 (- gravity)) by (unfold vscale; cbn [vx vy vz]; f_equal; field).
    assert (EG : vscale (/ (1 / 100)) vzero = vzero) by (unfold vscale, vzero; cbn [vx vy vz]; f_equal; field).
    rewrite ?EA, ?EG. unfold tiltOk. cbn [u_acc u_gyr]. rewrite NI, NZ.
    destruct (Rlt_dec gravity _); [lra|]. destruct (Rlt_dec _ gravity); [lra|]. destruct (Rlt_dec (15 * PI / 180) 0); [lra|].
    eexists. split; [reflexivity|]. split; reflexivity. }
  destruct R1 as (s & ER & EA & EG). exists s, (tiltQuat (mkV 0 0 (- gravity))).
  destruct (C87_restart_skips_startup_refuted true 1 [i] s (tiltQuat (mkV 0 0 (- gravity))) (u_off s) j) as (s' & A & _ & _); [lia|cbn; lia|exact ER|exact UJ|].
  cbv zeta in A. rewrite EA, EG, FJ, RJ in A.
  assert (L1 : lpf (mkV 0 0 (- gravity)) (mkV 0 (- gravity) 0) = mkV 0 (- (1 / 10) * gravity) (- (9 / 10) * gravity)) by (unfold lpf, vadd, vscale; cbn [vx vy vz]; f_equal; field).
  assert (L2 : lpf vzero vzero = vzero) by (unfold lpf, vadd, vscale, vzero; cbn [vx vy vz]; f_equal; field).
  rewrite L1, L2 in A. exists s'. split; [exact ER|].
  set (w := mkV 0 (- (1 / 10) * gravity) (- (9 / 10) * gravity)) in *.
  assert (NW : vnorm2 w = 82 / 100 * (gravity * gravity)) by (unfold w, vnorm2, vdot; cbn [vx vy vz]; field).
  assert (BW : 8 / 10 * gravity <= vnorm w <= 12 / 10 * gravity).
  { unfold vnorm. rewrite NW. split.
    - replace (8 / 10 * gravity) with (sqrt (Rsqr (8 / 10 * gravity))) by (apply sqrt_Rsqr; lra). apply sqrt_le_1; unfold Rsqr; nra.
    - replace (12 / 10 * gravity) with (sqrt (Rsqr (12 / 10 * gravity))) by (apply sqrt_Rsqr; lra). apply sqrt_le_1; unfold Rsqr; nra. }
  split; [apply A; split; [exact BW|rewrite NZ; lra]|].
  unfold tiltQuat. cbv zeta. set (m := / vnorm w). assert (MP : 0 < m) by (apply Rinv_0_lt_compat; lra).
  unfold w, vscale. cbn [vx vy vz]. replace (m * 0) with 0 by ring. rewrite asin_0. f_equal.
  unfold atan2. destruct (Rlt_dec 0 (- (m * (- (9 / 10) * gravity)))) as [_|X]; [|exfalso; apply X; nra].
  f_equal. field. split; lra.
Qed.
(** the roll believed is below 7 degrees *)
Example C87_roll_believed : atan (1 / 9) < 7 * PI / 180.
Proof.
  assert (B : atan (1 / 9) < 1 / 9).
  { destruct (MVT_cor2 atan (fun x => / (1 + x ^ 2)) 0 (1 / 9)) as (c & E & C); [lra|intros c _; apply derivable_pt_lim_atan|].
    rewrite atan_0 in E. assert (/ (1 + c ^ 2) < 1). { rewrite <- Rinv_1 at 2. apply Rinv_lt_contravar; nra. } nra. }
  pose proof PI2_3_2. unfold PI2 in *. lra.
Qed.
Print Assumptions C87_status_cleared. Print Assumptions C87_first_height_source. Print Assumptions C87_restart_skips_startup_refuted. Print Assumptions C87_restart_attitude_refuted.

(** * Property C69: vibration metrics and at-rest detection from IMU data *)
From Coq Require Import Lra Psatz.
From Verif Require Import CBase F32 F32More F32Err InterfaceModel InterfaceSpec VibeModel VibeProofs VibeProofs2 VibeProofs3 VibeProofs4.
Open Scope R_scope.

(** C69: after any sane history, 2100 quiet samples on the ground (jitter at most
    90 %, angular rate at most 98 % of the thresholds 1/40000 rad, 1/210 m/s and
    0.05 rad/s times the scaler) settle the metrics, and the vehicle is reported at
    rest once more than another second of quiet samples has passed. *)
Theorem C69_quiet_vehicle_is_at_rest :
  forall sc l0 a0 u0 l1 l2 u, scaler_ok sc -> sane_hist 0 (l0 ++ [(a0, u0)]) ->
  quiet (R32 sc) u0 (l1 ++ l2 ++ [u]) -> (2100 <= length l1)%nat ->
  (im_t u > im_t (last l1 u0) + 1000000)%Z ->
  r_rest (rest_hist sc ((l0 ++ [(a0, u0)]) ++ map (pair false) (l1 ++ l2 ++ [u])) rest_init) = true.
Proof. exact quiet_at_rest. Qed.

(** C69: one sample turning at 2 % more than the rate threshold prevents the
    report for the next second, whatever else happens. *)
Theorem C69_rotation_is_movement :
  forall sc l0 a0 u0 a u l, scaler_ok sc -> sane_hist 0 ((l0 ++ [(a0, u0)]) ++ (a, u) :: l) ->
  (500 <= im_t u - im_t u0 <= 20000)%Z ->
  51 / 1000 * R32 sc * (IZR (im_t u - im_t u0) / 1000000) <= vnorm (im_da u) ->
  Forall (fun x => (im_t (snd x) <= im_t u + 1000000)%Z) l ->
  r_rest (rest_hist sc ((l0 ++ [(a0, u0)]) ++ (a, u) :: l) rest_init) = false.
Proof. exact rotation_not_rest. Qed.

(** C69: 400 or more samples with gyroscope (accelerometer) jitter of 110 % of the
    threshold: not at rest. *)
Theorem C69_vibration_is_movement :
  forall gyro sc l0 a0 u0 l, scaler_ok sc -> sane_hist 0 (l0 ++ [(a0, u0)]) ->
  sane_hist (im_t u0) l -> shaking gyro (R32 sc) u0 l -> (400 <= length l)%nat ->
  r_rest (rest_hist sc ((l0 ++ [(a0, u0)]) ++ l) rest_init) = false.
Proof. exact vibration_not_rest. Qed.

(** C69: the reported high-frequency metrics follow the jitter as first-order
    filters with factor 0.99 per sample and never exceed the largest jitter. *)
Theorem C69_metrics_filter_jitter :
  forall sc l0 a0 u0 a u, sane_hist 0 ((l0 ++ [(a0, u0)]) ++ [(a, u)]) ->
  let s := rest_hist sc (l0 ++ [(a0, u0)]) rest_init in
  let s' := rest_hist sc ((l0 ++ [(a0, u0)]) ++ [(a, u)]) rest_init in
  0 <= R32 (r_vib1 s') <= 401 /\ 0 <= R32 (r_vib2 s') <= 401 /\
  Rabs (R32 (r_vib1 s') - (99 / 100 * R32 (r_vib1 s) + 1 / 100 * vdiff (im_da u) (im_da u0)))
    <= / 100000 * (R32 (r_vib1 s) / 10 + vdiff (im_da u) (im_da u0) + / 10000) /\
  Rabs (R32 (r_vib2 s') - (99 / 100 * R32 (r_vib2 s) + 1 / 100 * vdiff (im_dv u) (im_dv u0)))
    <= / 100000 * (R32 (r_vib2 s) / 10 + vdiff (im_dv u) (im_dv u0) + / 10000).
Proof.
  intros sc l0 a0 u0 a u H s s'. destruct (sane_app _ _ _ _ _ H) as (H0 & O1 & O2 & TL & _).
  destruct (inv_last sc l0 a0 u0 H0) as (I & E1 & E2 & E3). fold s in I, E1, E2, E3. unfold s'. rewrite hist_app. fold s. cbn [rest_hist].
  destruct I as ((F1 & B1) & (F2 & B2) & P1 & P2 & _). unfold rest_step. cbv zeta. destruct (check_at_rest _ _ _ _) as [r mv]. cbn [r_vib1 r_vib2].
  destruct (metric_step _ _ _ F1 B1 O1 P1) as (_ & G1 & K1). destruct (metric_step _ _ _ F2 B2 O2 P2) as (_ & G2 & K2).
  pose proof (vdiff_bound _ _ O1 P1). pose proof (vdiff_bound _ _ O2 P2). rewrite E2, E3 in *. unfold fl, mini in *.
  split; [exact G1|]. split; [exact G2|]. split; apply Rabs_le; lra.
Qed.
(** C69: and the coning metric follows the magnitude of the cross product of
    consecutive delta angles (up to 1 rad). *)
Theorem C69_coning_metric :
  forall sc a u s, is_finite (r_vib0 s) = true -> 0 <= R32 (r_vib0 s) <= 6 -> unitv (im_da u) -> unitv (r_pa s) ->
  is_finite (r_vib0 (rest_step sc a u s)) = true /\ 0 <= R32 (r_vib0 (rest_step sc a u s)) <= 6 /\
  Rabs (R32 (r_vib0 (rest_step sc a u s)) - (99 / 100 * R32 (r_vib0 s) + 1 / 100 * vcross (im_da u) (r_pa s))) <= 12 / 1000000 /\
  r_pa (rest_step sc a u s) = im_da u.
Proof.
  intros sc a u s A B C D. destruct (coning_step sc a u s A B C D) as (E & F & G). split; [exact E|]. split; [exact F|]. split; [exact G|].
  unfold rest_step. cbv zeta. destruct (check_at_rest _ _ _ _). reflexivity.
Qed.

(** C69: the time step used for one IMU sample lies between 0.1 ms and 20 ms for
    every pair of time stamps and is the elapsed time when that lies in between;
    the reported average follows it with factor 0.8 and stays within [0, 20.1 ms]. *)
Theorem C69_time_step :
  forall t tl, is_finite (imu_dt t tl) = true /\ 99999 / 1000000000 <= R32 (imu_dt t tl) <= 200001 / 10000000 /\
  ((0 <= tl)%Z -> (t < 2 ^ 64)%Z -> (100 <= t - tl <= 20000)%Z ->
   Rabs (R32 (imu_dt t tl) - IZR (t - tl) / 1000000) <= IZR (t - tl) / 1000000 * (1 / 50000)).
Proof.
  intros t tl. destruct (dt_finite t tl) as [F B]. split; [exact F|]. split; [exact B|]. intros A1 A2 A3. pose proof (dt_value t tl A1 A2 A3). apply Rabs_le. lra.
Qed.
Theorem C69_average_time_step :
  forall sc l a u, let s := rest_hist sc l rest_init in let s' := rest_hist sc (l ++ [(a, u)]) rest_init in
  0 <= R32 (r_avg s') <= 201 / 10000 /\
  ((0 < im_t u)%Z -> Rabs (R32 (r_avg s') - (8 / 10 * R32 (r_avg s) + 2 / 10 * R32 (imu_dt (im_t u) (r_imu s)))) <= / 100000000).
Proof.
  intros sc l a u s s'. unfold s'. rewrite hist_app. fold s. cbn [rest_hist]. destruct (avg_range sc l rest_init) as [F B]; [reflexivity|cbn [r_avg rest_init]; rewrite R32_f0; lra|].
  fold s in F, B. destruct (avg_step sc a u s F B) as (_ & B' & K & _). auto.
Qed.

(** ** Non-vacuity *)
Lemma scaler_one : scaler_ok (f_of_Z 1).
Proof. destruct (f_of_Z_exact 1) as [E F]; [lia|]. split; [exact F|]. rewrite E. lra. Qed.
Example C69_standing_still : r_rest (rest_hist (f_of_Z 1) (([] ++ [(true, still 0)]) ++ map (pair false) (stills 1 2100 ++ stills 2101 300 ++ [still 2401])) rest_init) = true.
Proof.
  destruct (f_of_Z_exact 1) as [E F]; [lia|]. apply C69_quiet_vehicle_is_at_rest.
  - apply scaler_one.
  - cbn [app sane_hist]. split; [apply okv_zero|]. split; [apply okv_still|]. split; [cbn [still im_t]; lia|exact I].
  - replace (stills 1 2100 ++ stills 2101 300 ++ [still 2401]) with (stills 1 (2100 + (300 + 1))); [apply (stills_quiet (R32 (f_of_Z 1)) _); [rewrite E; lra|lia]|].
    rewrite !stills_app. reflexivity.
  - rewrite stills_len. lia.
  - replace 2100%nat with (S 2099) by lia. rewrite stills_last. cbn [still im_t]. lia.
Qed.
(** shaking: the delta velocity alternates between two values *)
Fixpoint shakes (b : bool) (t : Z) (n : nat) : list (bool * imuf) :=
  match n with O => nil | S n => (false, {| im_t := t; im_da := v3f_zero; im_dv := if b then still_dv else v3f_zero |}) :: shakes (negb b) (t + 4000)%Z n end.
Lemma still_neg : R32 (flit (-4) 100) <= - (39 / 1000).
Proof.
  destruct (flit_R (-4) 100 ltac:(lia) ltac:(lia)) as [E F]. rewrite E. pose proof (rnd32_error (IZR (-4) / IZR 100)) as R. rewrite two24 in R. pose proof small150.
  replace (IZR (-4) / IZR 100) with (- (4 / 100)) in * by field. rewrite Rabs_Ropp, (Rabs_pos_eq (4 / 100)) in R by lra. apply Rabs_le_inv in R. lra.
Qed.
Lemma shakes_shaking n : forall (b : bool) t p, im_dv p = (if b then v3f_zero else still_dv) -> shaking false 1 p (shakes b t n).
Proof.
  induction n as [|n IH]; intros b t p H; [exact I|]. cbn [shakes shaking im_dv]. split.
  - rewrite H. unfold vdiff. pose proof still_neg. destruct b; cbn [fx fy fz v3f_zero still_dv]; rewrite ?R32_f0; unfold norm3; apply Rsqr_incr_0_var; try apply sqrt_pos; unfold Rsqr; rewrite sqrt_sqrt by nra; nra.
  - apply IH. destruct b; reflexivity.
Qed.
Lemma shakes_sane n : forall b t t0, (0 <= t0 <= t)%Z -> (t + 4000 * Z.of_nat n < 2 ^ 64)%Z -> sane_hist t0 (shakes b t n).
Proof.
  induction n as [|n IH]; intros b t t0 A B; [exact I|]. cbn [shakes sane_hist im_da im_dv im_t]. split; [apply okv_zero|]. split; [destruct b; [apply okv_still|apply okv_zero]|]. split; [lia|]. apply IH; lia.
Qed.
Example C69_shaking_not_at_rest : r_rest (rest_hist (f_of_Z 1) (([] ++ [(false, still 0)]) ++ shakes false 4000 5000) rest_init) = false.
Proof.
  destruct (f_of_Z_exact 1) as [E F]; [lia|]. apply (C69_vibration_is_movement false).
  - apply scaler_one.
  - cbn [app sane_hist]. split; [apply okv_zero|]. split; [apply okv_still|]. split; [cbn [still im_t]; lia|exact I].
  - apply shakes_sane; cbn [still im_t]; lia.
  - rewrite E. apply shakes_shaking. reflexivity.
  - assert (L : forall n b t, length (shakes b t n) = n) by (induction n as [|n IH]; intros b t; [reflexivity|cbn [shakes length]; rewrite IH; reflexivity]). rewrite L. lia.
Qed.
Example C69_rotation_case : r_rest (rest_hist (f_of_Z 1) (([] ++ [(false, still 500)]) ++ (false, {| im_t := 2004000; im_da := V3f f0 f0 (flit 1 100); im_dv := still_dv |}) :: []) rest_init) = false.
Proof.
  destruct (f_of_Z_exact 1) as [E F]; [lia|]. destruct (lit_rel 1 100 ltac:(lia) ltac:(lia) ltac:(lia)) as [FL HL]. apply Rabs_le_inv in HL.
  apply C69_rotation_is_movement.
  - apply scaler_one.
  - cbn [app sane_hist still im_da im_dv im_t]. split; [apply okv_zero|]. split; [apply okv_still|]. split; [lia|]. split.
    { split; [split; [reflexivity|cbn [fx]; rewrite R32_f0, Rabs_R0; lra]|]. split; [split; [reflexivity|cbn [fy]; rewrite R32_f0, Rabs_R0; lra]|]. split; [exact FL|]. cbn [fz]. apply Rabs_le. lra. }
    split; [apply okv_still|]. split; [lia|exact I].
  - cbn [still im_t]. lia.
  - cbn [still im_t im_da]. change (2004000 - 4000 * Z.of_nat 500)%Z with 4000%Z. rewrite E. unfold vnorm. cbn [fx fy fz]. rewrite !R32_f0.
    apply Rle_trans with (9 / 1000); [lra|]. unfold norm3. apply Rsqr_incr_0_var; [|apply sqrt_pos]. unfold Rsqr. rewrite sqrt_sqrt by nra. nra.
  - constructor.
Qed.
Print Assumptions C69_quiet_vehicle_is_at_rest.
Print Assumptions C69_rotation_is_movement.
Print Assumptions C69_vibration_is_movement.
Print Assumptions C69_metrics_filter_jitter.
Print Assumptions C69_coning_metric.
Print Assumptions C69_average_time_step.

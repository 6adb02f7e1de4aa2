(** * Property C12 (continued): the GPS drift checks over histories, in real terms *)
From Coq Require Import Lra.
From Verif Require Import CBase F32 F32More F32Err InterfaceModel GpsModel GpsProofs GpsDrift GpsDrift2 GpsDrift3 GpsDrift4.
Open Scope R_scope.

(** specification: values limited to ten times the limit and low-passed with a time constant of 10 s *)
Definition limited (b x : R) : R := Rmax (- b) (Rmin b x).
Definition filtered (dt limit x old : R) : R := dt / 10 * limited (10 * limit) x + (1 - dt / 10) * old.

(** C12: one message at rest on the ground: each metric is the filtered velocity, position drift rate or vertical speed error,
    up to 1.5e-6 of the largest value [B]; the time step is the time since the previous message. *)
Theorem C12_drift_metrics : forall p m s B, let s' := snd (gps_is_good p m s) in let dt := gps_dt (g_now m) (gs_prev_time s) in let h := gp_hdrift p in let v := gp_vdrift p in
  g_in_air m = false -> g_at_rest m = true ->
  is_finite h = true -> / 1000000 <= R32 h <= 1000 -> is_finite v = true -> / 1000000 <= R32 v <= 1000 -> 10 * R32 h <= B -> 10 * R32 v <= B -> B <= 90000 ->
  (forall x : f32, In x [gs_vn s; gs_ve s; gs_dn s; gs_de s; gs_dd s; gs_vdiff s] -> is_finite x = true /\ Rabs (R32 x) <= B) ->
  (forall x : f32, In x [g_vn m; g_ve m; g_dn m; g_de m; g_vd m; g_vz m; gs_alt_prev s; alt_m (g_alt m)] -> is_finite x = true /\ Rabs (R32 x) <= 1000000) ->
  gs_prev_time s <> 0%Z ->
  near (gs_vn s') (filtered (R32 dt) (R32 h) (R32 (g_vn m)) (R32 (gs_vn s))) (B * (15 / 10000000)) /\
  near (gs_ve s') (filtered (R32 dt) (R32 h) (R32 (g_ve m)) (R32 (gs_ve s))) (B * (15 / 10000000)) /\
  near (gs_dn s') (filtered (R32 dt) (R32 h) (R32 (g_dn m) / R32 dt) (R32 (gs_dn s))) (B * (15 / 10000000)) /\
  near (gs_de s') (filtered (R32 dt) (R32 h) (R32 (g_de m) / R32 dt) (R32 (gs_de s))) (B * (15 / 10000000)) /\
  near (gs_vdiff s') (filtered (R32 dt) (R32 v) (R32 (g_vd m) - R32 (g_vz m)) (R32 (gs_vdiff s))) (B * (15 / 10000000)) /\
  near (gs_dd s') (filtered (R32 dt) (R32 v) (R32 (fsub (gs_alt_prev s) (alt_m (g_alt m))) / R32 dt) (R32 (gs_dd s))) (B * (15 / 10000000)) /\
  gs_alt_prev s' = alt_m (g_alt m).
Proof. exact drift_metrics. Qed.
Theorem C12_altitude_in_metres : forall a, (Z.abs a <= 2 ^ 24)%Z -> near (alt_m a) (IZR a / 1000) (Rabs (IZR a) / 1000 * (23 / 10 * ulp1) + 2 * tiny).
Proof. exact alt_m_near. Qed.
Theorem C12_time_step : forall now prev, (0 <= prev)%Z -> (now < 2 ^ 63)%Z -> (1000 <= now - prev <= 10000000)%Z ->
  Rabs (R32 (gps_dt now prev) - IZR (now - prev) / 1000000) <= IZR (now - prev) / 1000000 / 5000000.
Proof. exact gps_dt_value. Qed.
Theorem C12_time_step_bounded : forall now prev, is_finite (gps_dt now prev) = true /\ 999 / 1000000 <= R32 (gps_dt now prev) <= 10.
Proof. exact gps_dt_range. Qed.

(** a limit from 1e-6 to 1000 m/s *)
Definition sane_limit (l : f32) : Prop := is_finite l = true /\ / 1000000 <= R32 l <= 1000.
(** C12: while the reported horizontal speed components never exceed half the limit, whatever else the messages contain and whenever they
    arrive, the horizontal speed check never fails *)
Theorem C12_no_false_speed_alarm : forall p ms, sane_limit (gp_hdrift p) ->
  Forall (fun m => is_finite (g_vn m) = true /\ is_finite (g_ve m) = true /\ Rabs (R32 (g_vn m)) <= R32 (gp_hdrift p) / 2 /\ Rabs (R32 (g_ve m)) <= R32 (gp_hdrift p) / 2) ms ->
  ff_hspeed (gs_flags (gst p ms)) = false.
Proof.
  intros p ms [F L] H. apply hspeed_quiet; auto. unfold Vel. cbn [gps_init gs_vn gs_ve]. destruct f0_zero as [Z1 Z2]. rewrite Z1, Z2, Rabs_R0. repeat split; lra.
Qed.
(** C12: a receiver at rest that reports a north speed of at least twice the limit for 30 s fails the check, whatever happened before *)
Theorem C12_lasting_speed_is_detected : forall p l0 ms m, sane_limit (gp_hdrift p) ->
  Forall (fun m => is_finite (g_vn m) = true /\ is_finite (g_ve m) = true) l0 ->
  Forall (fun m => g_in_air m = false /\ g_at_rest m = true /\ is_finite (g_vn m) = true /\ is_finite (g_ve m) = true /\ 2 * R32 (gp_hdrift p) <= R32 (g_vn m)) (ms ++ [m]) ->
  (0 <= gs_prev_time (gst p l0))%Z -> gaps (gs_prev_time (gst p l0)) (ms ++ [m]) -> (g_now m < 2 ^ 63)%Z -> (30000000 <= g_now m - gs_prev_time (gst p l0))%Z ->
  ff_hspeed (gs_flags (gst p (l0 ++ ms ++ [m]))) = true.
Proof.
  intros p l0 ms m [F L] H0 H T G TB N. assert (RA : forall a b s, gps_run p (a ++ b) s = gps_run p b (gps_run p a s)) by (induction a as [|x a IH]; intros b s; [reflexivity|]; cbn [app gps_run]; apply IH).
  unfold gst in *. rewrite RA. apply drift_detected; auto. apply vel_bounded; auto. unfold Vel. cbn [gps_init gs_vn gs_ve]. destruct f0_zero as [Z1 Z2]. rewrite Z1, Z2, Rabs_R0. repeat split; lra.
Qed.
Definition msg_v (t : Z) (v : f32) : gps_msg := {| g_now := t; g_in_air := false; g_at_rest := true; g_vz := f0;
  g_fix := 3; g_nsats := 10; g_pdop := f1; g_eph := f1; g_epv := f1; g_sacc := flit 1 10;
  g_vn := v; g_ve := f0; g_vd := f0; g_alt := 488000; g_dn := f0; g_de := f0 |}.
Definition par1 : gps_params := {| gp_mask := 21; gp_nsats := 6; gp_pdop := f_of_Z 2; gp_hacc := f_of_Z 5;
  gp_vacc := f_of_Z 8; gp_sacc := f1; gp_hdrift := f1; gp_vdrift := f1; gp_health_us := 10000000 |}.
Definition moving_hist : list gps_msg := map (fun k => msg_v (Z.of_nat k * 5000000) (f_of_Z 2)) (seq 2 7).
Example C12_speed_nontrivial : sane_limit (gp_hdrift par1) /\ gaps (gs_prev_time (gst par1 [msg_v 5000000 f0])) moving_hist /\
  ff_hspeed (gs_flags (gst par1 [msg_v 5000000 f0])) = false /\ ff_hspeed (gs_flags (gst par1 ([msg_v 5000000 f0] ++ moving_hist))) = true.
Proof.
  split; [|split; [cbn; lia|split; vm_compute; reflexivity]].
  destruct (f_of_Z_exact 1) as [V F]; [lia|]. split; [exact F|]. change (gp_hdrift par1) with (f_of_Z 1). rewrite V. lra.
Qed.
Print Assumptions C12_drift_metrics.
Print Assumptions C12_no_false_speed_alarm.
Print Assumptions C12_lasting_speed_is_detected.
Print Assumptions C12_time_step.
Print Assumptions C12_time_step_bounded.
Print Assumptions C12_altitude_in_metres.

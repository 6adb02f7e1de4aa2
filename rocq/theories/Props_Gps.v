(** * Properties C12, C13: GPS quality gate and local origin *)
From Verif Require Import CBase F32 InterfaceSpec InterfaceModel GpsModel GpsProofs.
Open Scope Z_scope.

(** C12: the checks are declared passed for a message exactly if the very first
    message and every message with an enabled failing check is older than the
    minimum health time.  [gst p l] is the check state after the messages [l]. *)
Theorem C12_good_iff_no_enabled_failure_for_health_time :
  forall p, 0 <= gp_health_us p < 2 ^ 32 -> forall l m, msgs_timely (l ++ [m]) ->
  (fst (gps_is_good p m (gst p l)) = true <->
   forall l1 j l2, l ++ [m] = l1 ++ j :: l2 ->
     (l1 = [] \/ enabled_failure (gp_mask p) (gs_flags (gst p (l1 ++ [j])))) ->
     g_now j + gp_health_us p < g_now m).
Proof. exact gps_good_iff. Qed.

(** C12: what each fail flag means; drift checks are passed in air and keep
    their last value when moving on ground. *)
Theorem C12_fail_flags_meaning :
  forall p m s, let f := gs_flags (snd (gps_is_good p m s)) in
  (ff_fix f = true <-> g_fix m < 3) /\ (ff_nsats f = true <-> g_nsats m < gp_nsats p) /\
  ff_pdop f = fgt (g_pdop m) (gp_pdop p) /\ ff_hacc f = fgt (g_eph m) (gp_hacc p) /\
  ff_vacc f = fgt (g_epv m) (gp_vacc p) /\ ff_sacc f = fgt (g_sacc m) (gp_sacc p) /\
  (g_in_air m = true -> ff_hdrift f = false /\ ff_vdrift f = false /\ ff_hspeed f = false) /\
  (g_in_air m = false -> g_at_rest m = false ->
     ff_hdrift f = ff_hdrift (gs_flags s) /\ ff_vdrift f = ff_vdrift (gs_flags s) /\ ff_hspeed f = ff_hspeed (gs_flags s)).
Proof. exact flags_meaning. Qed.

(** C12 weakness: unknown (NaN) accuracies count as passing. *)
Theorem C12_unknown_accuracy_fails_refuted :
  forall p m s, g_eph m = fnan -> g_epv m = fnan -> g_sacc m = fnan ->
  let f := gs_flags (snd (gps_is_good p m s)) in ff_hacc f = false /\ ff_vacc f = false /\ ff_sacc f = false.
Proof.
  intros p m s H1 H2 H3. cbv zeta. destruct (flags_meaning p m s) as (_ & _ & _ & -> & -> & -> & _).
  rewrite H1, H2, H3. unfold fgt. change (@Bltb 24 128) with flt. rewrite !flt_nan_r. auto.
Qed.

(** C12 weakness: one NaN vertical velocity disables the vertical speed check for ever. *)
Theorem C12_vertical_speed_check_survives_nan_refuted :
  forall p m s l, g_vd m = fnan -> ff_vspeed (gs_flags (gps_run p l (snd (gps_is_good p m s)))) = false.
Proof. exact nan_velocity_sticky. Qed.

(** C13: after initialisation no sequence of GPS messages changes the origin. *)
Theorem C13_origin_fixed_once_initialised :
  forall (LL : Type) (ll : Z -> Z -> LL) reproject l (o : origin LL),
  o_ned o = true -> Forall is_gps l -> origin_run ll reproject l o = o.
Proof. exact @origin_fixed. Qed.

Theorem C13_user_origin_position_kept :
  forall (LL : Type) (ll : Z -> Z -> LL) reproject l (o : origin LL) pos alt,
  Forall is_gps l -> o_ref (origin_run ll reproject l (set_origin pos alt o)) = Some pos.
Proof. exact @user_origin_position_kept. Qed.

Theorem C13_first_good_fix_sets_origin :
  forall (LL : Type) (ll : Z -> Z -> LL) reproject (o : origin LL) fi la lo al px py pz,
  o_ned o = false -> o_ref o = None ->
  let '(use, o') := collect_gps ll reproject true true false fi la lo al px py pz o in
  o_ref o' = Some (ll la lo) /\ o_alt o' = fadd (alt_m al) pz /\ o_ned o' = true /\ use = (3 <=? fi).
Proof. exact @first_good_fix_sets_origin. Qed.

Theorem C13_gps_used_only_with_origin_and_3d_fix :
  forall (LL : Type) (ll : Z -> Z -> LL) reproject (o : origin LL) fi pa ai ft la lo al px py pz,
  let '(use, o') := collect_gps ll reproject fi pa ai ft la lo al px py pz o in
  use = true -> o_ned o' = true /\ 3 <= ft /\ (o_ned o = true \/ (fi = true /\ pa = true)).
Proof. exact @gps_used_only_with_origin. Qed.

(** C13 is false for the altitude of a user-set origin. *)
Theorem C13_user_origin_altitude_kept_refuted :
  forall (LL : Type) (ll : Z -> Z -> LL) reproject (o : origin LL) pos alt fi la lo al px py pz,
  o_ned o = false ->
  o_alt (origin_step ll reproject (CollectGps true true fi 3 la lo al px py pz) (set_origin pos alt o)) = fadd (alt_m al) pz.
Proof. exact @user_origin_altitude_lost. Qed.

(** ** Non-vacuity: default parameters, one good message per second *)
Definition par0 : gps_params := {| gp_mask := 21; gp_nsats := 6; gp_pdop := f_of_Z 2; gp_hacc := f_of_Z 5;
  gp_vacc := f_of_Z 8; gp_sacc := f1; gp_hdrift := flit 3 10; gp_vdrift := flit 1 2; gp_health_us := 10000000 |}.
Definition msg0 (t ns : Z) : gps_msg := {| g_now := t; g_in_air := false; g_at_rest := true; g_vz := f0;
  g_fix := 3; g_nsats := ns; g_pdop := f1; g_eph := f1; g_epv := f1; g_sacc := flit 1 10;
  g_vn := f0; g_ve := f0; g_vd := f0; g_alt := 488000; g_dn := f0; g_de := f0 |}.
Definition hist (ns : Z) := map (fun k => msg0 (Z.of_nat k * 1000000) (if Nat.eqb k 5 then ns else 10)) (seq 1 11).
Example C12_good_case : fst (gps_is_good par0 (msg0 12000000 10) (gst par0 (hist 10))) = true.
Proof. vm_compute. reflexivity. Qed.
Example C12_bad_case : fst (gps_is_good par0 (msg0 12000000 10) (gst par0 (hist 3))) = false.
Proof. vm_compute. reflexivity. Qed.
Example C12_timely_case : msgs_timely (hist 10 ++ [msg0 12000000 10]).
Proof. split; [cbn; lia|repeat constructor]. Qed.
Example C13_case :
  snd (collect_gps (fun a b => (a, b)) (fun r _ _ => r) true true false 3 1 2 488000 f0 f0 f0 origin_init)
  = {| o_ref := Some (1, 2); o_alt := fadd (alt_m 488000) f0; o_ned := true |}.
Proof. reflexivity. Qed.

Print Assumptions C12_good_iff_no_enabled_failure_for_health_time.
Print Assumptions C12_vertical_speed_check_survives_nan_refuted.
Print Assumptions C13_origin_fixed_once_initialised.

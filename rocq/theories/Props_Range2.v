(** * Property C10 (continued): tilt and range correction in real terms; the ground bypass *)
From Coq Require Import Lra.
From Verif Require Import CBase F32 F32More F32Err InterfaceSpec RangeModel RangeProofs RangeProofs2 RangeProofs3 RangeReal.
Open Scope R_scope.

(** [axis_z p r20 r22]: vertical component of the sensor axis (mounting pitch and attitude matrix); [unit_entry]: finite, at most 2 in magnitude *)
(** C10: with healthy data the sensor axis is within the tilt limit, up to rounding *)
Theorem C10_healthy_within_tilt_limit : forall l k, timely (l ++ [k]) -> is_data_healthy (state (l ++ [k])) = true ->
  unit_entry (tk_r20 k) -> unit_entry (tk_r22 k) -> unit_entry (rp_sin_pitch (tk_par k)) -> unit_entry (rp_cos_pitch (tk_par k)) -> is_finite (rp_cos_max_tilt (tk_par k)) = true ->
  R32 (rp_cos_max_tilt (tk_par k)) - 2 / 1000000 < R32 (tk_r20 k) * R32 (rp_sin_pitch (tk_par k)) + R32 (tk_r22 k) * R32 (rp_cos_pitch (tk_par k)).
Proof. exact healthy_tilt. Qed.
(** C10: the vertical distance of a healthy sample is the measured one plus the vertical offset of the sensor, within 5 mm *)
Theorem C10_height_corrected_for_offset : forall l k x, timely (l ++ [k]) -> is_data_healthy (state (l ++ [k])) = true -> tk_new k = Some x ->
  unit_entry (tk_r20 k) -> unit_entry (tk_r22 k) -> unit_entry (rp_sin_pitch (tk_par k)) -> unit_entry (rp_cos_pitch (tk_par k)) ->
  is_finite (rp_cos_max_tilt (tk_par k)) = true -> / 10 <= R32 (rp_cos_max_tilt (tk_par k)) -> is_finite (rs_rng x) = true -> Rabs (R32 (rs_rng x)) <= 1000 -> is_finite (tk_off k) = true -> Rabs (R32 (tk_off k)) <= 100 ->
  let z := R32 (tk_r20 k) * R32 (rp_sin_pitch (tk_par k)) + R32 (tk_r22 k) * R32 (rp_cos_pitch (tk_par k)) in
  Rabs (R32 (rs_rng (rf_sample (state (l ++ [k])))) * z - (R32 (rs_rng x) * z + R32 (tk_off k))) <= 5 / 1000.
Proof. exact corrected_height. Qed.
(** C10: an unhealthy sample is kept as measured *)
Theorem C10_unhealthy_not_corrected : forall k s x, is_data_healthy (tick_step k s) = false -> tk_new k = Some x -> rf_sample (tick_step k s) = x.
Proof. exact unhealthy_stored. Qed.
(** C10: the bypass acts only on the ground, with range height active and timed out, and unhealthy but regular data; the range is then the ground clearance *)
Theorem C10_bypass_only_on_ground : forall rng_hgt timed_out in_air clearance s, ground_bypass rng_hgt timed_out in_air clearance s <> s ->
  rng_hgt = true /\ timed_out = true /\ is_data_healthy s = false /\ is_regularly_sending s = true /\ in_air = false.
Proof. exact bypass_only. Qed.
Theorem C10_bypass_uses_clearance : forall rng_hgt timed_out in_air clearance s, is_data_healthy s = false -> is_data_healthy (ground_bypass rng_hgt timed_out in_air clearance s) = true ->
  rs_rng (rf_sample (ground_bypass rng_hgt timed_out in_air clearance s)) = clearance /\ rs_time (rf_sample (ground_bypass rng_hgt timed_out in_air clearance s)) = rs_time (rf_sample s).
Proof. exact bypass_range. Qed.
Example C10_real_nontrivial : let k := demo_tick 5010000 f1 in let l := [demo_tick 5000000 f1] in
  timely (l ++ [k]) /\ is_data_healthy (state (l ++ [k])) = true /\ tk_new k = Some (mk_range 5010000 f1 100) /\
  unit_entry (tk_r20 k) /\ unit_entry (tk_r22 k) /\ unit_entry (rp_sin_pitch (tk_par k)) /\ unit_entry (rp_cos_pitch (tk_par k)) /\ is_finite (rp_cos_max_tilt (tk_par k)) = true.
Proof.
  cbv zeta. destruct (f_of_Z_exact 1) as [V F]; [lia|]. assert (U1 : unit_entry f1) by (split; [exact F|change f1 with (f_of_Z 1); rewrite V, Rabs_R1; lra]).
  assert (U0 : unit_entry f0) by (split; [reflexivity|cbn; rewrite Rabs_R0; lra]).
  split; [split; [cbn; lia|repeat constructor; vm_compute; reflexivity]|]. split; [vm_compute; reflexivity|]. split; [reflexivity|]. repeat split; try exact (proj1 U1); try exact (proj2 U1); try exact (proj1 U0); try exact (proj2 U0).
Qed.
Print Assumptions C10_healthy_within_tilt_limit.
Print Assumptions C10_height_corrected_for_offset.
Print Assumptions C10_unhealthy_not_corrected.
Print Assumptions C10_bypass_only_on_ground.
Print Assumptions C10_bypass_uses_clearance.

(** * Properties C10, C11: range finder *)
From Verif Require Import CBase F32 InterfaceSpec RangeModel RangeProofs RangeProofs2 RangeProofs3.
Open Scope Z_scope.

(** [state l] is the sensor object after the filter updates [l] from boot. *)

(** C10: new data are reported healthy only if all conditions hold. *)
Theorem C10_data_healthy_only_if :
  forall l k, timely (l ++ [k]) -> is_data_healthy (state (l ++ [k])) = true ->
  exists x, tk_new k = Some x /\
    (tk_now k - rs_time x) mod 2 ^ 64 <= 400000 /\
    is_regularly_sending (state (l ++ [k])) = true /\
    rs_quality x <> 0 /\
    (forall l1 j l2 y, l = l1 ++ j :: l2 -> tk_new j = Some y -> rs_quality y = 0 ->
       is_regularly_sending (state (l1 ++ [j])) = true -> tk_now j + rp_hyst (tk_par k) < tk_now k) /\
    fgt (cos_tilt_of (tk_par k) (tk_r20 k) (tk_r22 k)) (rp_cos_max_tilt (tk_par k)) = true /\
    fge (rs_rng x) (rp_min (tk_par k)) = true /\ fle (rs_rng x) (rp_max (tk_par k)) = true.
Proof. exact data_healthy_only_if. Qed.

(** C10: the sensor is healthy only while its last healthy sample is the newest
    sample and at most 400 ms old at every update since. *)
Theorem C10_healthy_only_if :
  forall l, is_healthy (state l) = true ->
  exists l1 k l2, l = l1 ++ k :: l2 /\ is_data_healthy (state (l1 ++ [k])) = true /\
    Forall (fun j => tk_new j = None) l2 /\
    Forall (fun j => (tk_now j - last_sample_time 0 (l1 ++ [k])) mod 2 ^ 64 <= 400000) (k :: l2).
Proof. exact healthy_history. Qed.

(** C10: regularity is exactly freshness and a filtered interval below 2 s. *)
Theorem C10_regular_iff :
  forall k s, is_regularly_sending (tick_step k s) =
  (sub64 (tk_now k) (rs_time (rf_sample (tick_step k s))) <=? 400000) && flt (rf_dt (tick_step k s)) (f_of_Z 2000000).
Proof. exact step_regular. Qed.

(** C10: the filtered interval is never NaN and stays in [0, 4 s]. *)
Theorem C10_filtered_interval_bounded :
  forall l, is_finite (rf_dt (state l)) = true /\ (0 <= R32 (rf_dt (state l)) <= 4000000)%R.
Proof. exact dt_history. Qed.

(** C10: fresh samples keep the sensor regular; after any outage 300 updates suffice. *)
Theorem C10_fresh_data_are_regular :
  forall l k s, (is_finite (rf_dt s) = true /\ (0 <= R32 (rf_dt s) <= 4000000)%R) ->
  fresh_all (rs_time (rf_sample s)) (l ++ [k]) ->
  (R32 (rf_dt s) < 2000000)%R \/ (300 <= length l)%nat ->
  is_regularly_sending (ticks (l ++ [k]) s) = true.
Proof. exact regular_when_fresh. Qed.

(** C10 exception: on the ground with range height active the checks are bypassed. *)
Theorem C10_ground_bypass_refuted :
  forall s cl, is_regularly_sending s = true -> is_data_healthy s = false ->
  is_data_healthy (ground_bypass true true false cl s) = true.
Proof. exact ground_bypass_unchecked. Qed.

(** C11: after more than 10 s without healthy data, data become healthy only if
    two readings checked in between differ by more than the threshold. *)
Theorem C11_rejected_until_moved :
  forall l1 j y l2 k x,
  is_data_healthy (state (l1 ++ [j])) = true -> tk_new j = Some y ->
  nonneg_min l2 -> unhealthy_after (l1 ++ [j]) l2 -> tk_new k = Some x ->
  (rs_time x - rs_time y) mod 2 ^ 64 > 10000000 ->
  is_data_healthy (state ((l1 ++ [j]) ++ l2 ++ [k])) = true ->
  exists k1 k2 a b, In k1 l2 /\ In k2 l2 /\ checked_reading k1 a /\ checked_reading k2 b /\
    fgt (fsub a b) stuck_threshold = true.
Proof. exact stuck_after_valid. Qed.

Theorem C11_rejected_after_boot_until_moved :
  forall l2 k x,
  nonneg_min l2 -> unhealthy_after [] l2 -> tk_new k = Some x ->
  10000000 < rs_time x < 2 ^ 64 ->
  is_data_healthy (state (l2 ++ [k])) = true ->
  exists k1 k2 a b, In k1 l2 /\ In k2 l2 /\ checked_reading k1 a /\ checked_reading k2 b /\
    fgt (fsub a b) stuck_threshold = true.
Proof. exact stuck_after_boot. Qed.

(** C11 converse is false: a sensor that moved by more than the threshold can
    stay rejected for ever (the minimum is overwritten while below 10 cm). *)
Theorem C11_accepted_once_moved_refuted :
  fgt (fsub (flit 16 100) (flit 5 100)) stuck_threshold = true /\
  forall ts, Forall (fun t => 20000000 <= t < 2 ^ 64) ts ->
    is_data_healthy (state (demo_tick 20000000 (flit 5 100) :: demo_tick 20010000 (flit 16 100)
                          :: map (fun t => demo_tick t (flit 16 100)) ts)) = false.
Proof. exact moved_but_rejected. Qed.

(** ** Non-vacuity *)
Example C10_case : is_data_healthy (state [demo_tick 5000000 f1; demo_tick 5010000 f1]) = true
  /\ timely [demo_tick 5000000 f1; demo_tick 5010000 f1].
Proof.
  split; [vm_compute; reflexivity|]. split; [cbn; lia|]. repeat constructor; vm_compute; reflexivity.
Qed.
Example C11_case :
  is_data_healthy (state [demo_tick 5000000 f1]) = true /\
  is_data_healthy (state [demo_tick 5000000 f1; demo_tick 16000000 f1]) = false /\
  is_data_healthy (state [demo_tick 5000000 f1; demo_tick 16000000 f1; demo_tick 16050000 (f_of_Z 2)]) = false /\
  is_data_healthy (state [demo_tick 5000000 f1; demo_tick 16000000 f1; demo_tick 16050000 (f_of_Z 2); demo_tick 16100000 f1]) = true.
Proof. vm_compute. auto. Qed.

Print Assumptions C10_data_healthy_only_if.
Print Assumptions C10_filtered_interval_bounded.
Print Assumptions C10_fresh_data_are_regular.
Print Assumptions C11_rejected_until_moved.
Print Assumptions C11_accepted_once_moved_refuted.

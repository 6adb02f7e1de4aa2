(** * Properties C05, C06, C07, C40, C41: sensor interface *)
From Verif Require Import CBase F32 RingBufferModel RingBufferSpec RingBufferProofs RingBufferHistory.
From Verif Require Import InterfaceModel InterfaceSpec InterfaceProofs InterfaceProofs2 InterfaceProofs3.
Open Scope Z_scope.

(** C05: within this parameter region everything is defined, the IMU buffer
    covers the largest delay, the observation buffer is no longer than it, and
    the minimum interval never divides by zero. *)
Theorem C05_sizing_defined_and_covering :
  forall p, let maxd := max_time_delay p in
  is_finite maxd = true -> (1 <= R32 maxd <= 2540)%R -> 1 <= sensor_interval_min_ms p <= 2 ^ 24 ->
  (1.001 * IZR (sensor_interval_min_ms p) <= 1.5 * R32 maxd <= 254 * IZR (sensor_interval_min_ms p))%R ->
  exists il ol, initialise_interface p = Ok (il, ol) /\ 2 <= ol <= il /\ il <= 255 /\
    (R32 maxd <= 10 * IZR il)%R /\ (forall t td, min_obs_interval t td ol <> UB).
Proof. exact (fun p H1 H2 => sizing_defined p (conj H1 H2)). Qed.

(** C05: the delay that is covered bounds the delay of each sensor selected by
    the parameters the code looks at. *)
Theorem C05_selected_delays_covered :
  forall p, delays_finite p ->
  let m := max_time_delay p in
  is_finite m = true /\
  (R32 (baro_delay_ms p) <= R32 m)%R /\ (R32 (auxvel_delay_ms p) <= R32 m)%R /\
  (R32 (airspeed_delay_ms p) <= R32 m)%R /\
  (mag_fusion_type p <> MAG_FUSE_TYPE_NONE -> (R32 (mag_delay_ms p) <= R32 m)%R) /\
  (range_aid p <> 0 \/ vdist_sensor_type p = VDIST_SENSOR_RANGE -> (R32 (range_delay_ms p) <= R32 m)%R) /\
  (mask (fusion_mode p) MASK_USE_GPS = true -> (R32 (gps_delay_ms p) <= R32 m)%R) /\
  (mask (fusion_mode p) MASK_USE_OF = true -> (R32 (flow_delay_ms p) <= R32 m)%R) /\
  (mask (fusion_mode p) (Z.lor MASK_USE_EVPOS (Z.lor MASK_USE_EVYAW MASK_USE_EVVEL)) = true ->
     (R32 (ev_delay_ms p) <= R32 m)%R).
Proof. exact max_covers. Qed.

(** C05 is false in general: GPS buffered for height only is not covered. *)
Theorem C05_gps_height_delay_covered_refuted :
  exists p il ol, initialise_interface p = Ok (il, ol) /\
    (mask (fusion_mode p) MASK_USE_GPS || (vdist_sensor_type p =? VDIST_SENSOR_GPS)) = true /\
    (10 * IZR il < R32 (gps_delay_ms p))%R.
Proof. exact gps_height_delay_not_covered. Qed.

(** C05: a largest delay of at most 2/3 of the minimum interval makes the first
    IMU update divide by zero. *)
Theorem C05_division_by_zero_region :
  forall p, let maxd := max_time_delay p in
  is_finite maxd = true -> (1 <= R32 maxd <= 2540)%R -> 1 <= sensor_interval_min_ms p <= 2 ^ 24 ->
  (1.5 * R32 maxd <= IZR (sensor_interval_min_ms p))%R ->
  exists il, initialise_interface p = Ok (il, 1) /\ forall t td, min_obs_interval t td 1 = UB.
Proof. exact (fun p H1 H2 => sizing_div0 p (conj H1 H2)). Qed.

Theorem C05_always_defined_refuted :
  exists p il ol, initialise_interface p = Ok (il, ol) /\ min_obs_interval 1000000 990000 ol = UB.
Proof. exact (ex_intro _ small_delay_params small_delay_div0). Qed.

Theorem C05_division_by_zero_iff_one_slot :
  forall t td n, 0 <= n <= 255 -> (min_obs_interval t td n = UB <-> n = 1).
Proof. exact min_interval_ub_iff. Qed.

(** C05: delays above 2540 ms overflow the 8-bit buffer length. *)
Theorem C05_overflow_above_2540ms :
  forall p, let maxd := max_time_delay p in
  is_finite maxd = true -> (2540 < R32 maxd <= 10000)%R -> initialise_interface p = UB.
Proof. exact sizing_overflow. Qed.

(** C05: with the computed interval a full observation buffer only ever drops
    samples that arrived earlier than the fusion horizon. *)
Theorem C05_no_sample_lost :
  forall (A : Type) (t td n m : Z) (l : deliveries A) (k : nat),
  2 <= n <= 255 -> 0 <= td <= t -> t < two64 -> t - td < two32 ->
  min_obs_interval t td n = Ok m ->
  Forall (fun x => fst x = m) l ->
  Forall (fun x => time_us (snd x) < 2 ^ 64) l ->
  nondecreasing 0 (map (fun x => time_us (snd x)) l) ->
  let a := map time_us (accepted 0 l) in
  (k + Z.to_nat n < length a)%nat ->
  nth (k + Z.to_nat n) a 0 - nth k a 0 > t - td.
Proof. exact @no_sample_lost. Qed.

(** C06: a channel holds the last [n] accepted, delay-compensated samples. *)
Theorem C06_channel_holds_accepted_samples :
  forall (A : Type) (z : A) n d (l : deliveries A) l', 1 <= n <= 255 -> l <> [] ->
  Forall2 (compensated d) (accepted 0 l) l' ->
  exists c', deliver_all z n d l (chan_init z) = Ok c' /\
    forall os, Forall op_ok os ->
      snd (run z (ch_ring c') os) = snd (q_run (Z.to_nat n) (firstn (Z.to_nat n) (rev l')) os).
Proof. exact @channel_history. Qed.

Theorem C06_accepted_in_order :
  forall (A : Type) (l : deliveries A) last, subseq (accepted last l) (map snd l).
Proof. exact @accepted_subseq. Qed.

Theorem C06_accepted_rate_limited :
  forall (A : Type) m (l : deliveries A), 0 <= m -> forall last, 0 <= last ->
  Forall (fun x => fst x = m) l ->
  Forall (fun x => time_us (snd x) < 2 ^ 64) l ->
  nondecreasing last (map (fun x => time_us (snd x)) l) ->
  gaps_exceed m (last :: map time_us (accepted last l)).
Proof. exact @accepted_gaps. Qed.

(** C06: without monotone time stamps the rate limit can be bypassed. *)
Theorem C06_rate_limit_all_histories_refuted :
  exists l : deliveries Z, Forall (fun x => fst x = 15000) l /\
    map time_us (accepted 0 l) = [1000000; 999999; 999998].
Proof. exact backward_accepted. Qed.

(** C06: accuracy of the stored time stamp: the subtraction is done in float. *)
Theorem C06_stamp_accuracy :
  forall (d : f32) (t : Z), is_finite d = true -> (0 <= R32 d <= 1000000)%R -> 0 <= t < 2 ^ 62 ->
  (1000 * R32 d + 5000 + IZR t / IZR (2 ^ 22) + 1 <= IZR t)%R ->
  exists t', stamp d t = Ok t' /\ 0 <= t' < two64 - 100000 /\
    (Rabs (IZR t' - (IZR t - 1000 * R32 d - 5000)) <= IZR t / IZR (2 ^ 22) + 1)%R.
Proof. exact stamp_value. Qed.

Theorem C06_stamp_exact_first_16s :
  forall dm t, 0 <= dm <= 16000 -> 0 <= t <= 2 ^ 24 -> 1000 * dm + 5000 <= t ->
  stamp (f_of_Z dm) t = Ok (t - 1000 * dm - 5000).
Proof. exact stamp_exact_early. Qed.

(** C06: exactness fails later: one day after boot the error exceeds 1.8 ms. *)
Theorem C06_stamp_exact_refuted :
  exists t', stamp (f_of_Z 110) 86400115001 = Ok t' /\ Z.abs (t' - (86400115001 - 110 * 1000 - 5000)) > 1800.
Proof. exact stamp_day_error. Qed.

(** C07: up to 255 samples between two pushes the buffered sample is their mean. *)
Theorem C07_average_is_mean :
  forall (A : Type) (z : A) plus divn post n m d c l s t',
  av_count c = 0 -> av_sum c = z -> av_tsum c = 0 ->
  Forall (held m (av_last c)) l -> ~ held m (av_last c) s ->
  Z.of_nat (length l) < 255 ->
  let all := l ++ [s] in
  let k := Z.of_nat (length all) in
  let tsum := fold_right Z.add 0 (map (fun s => time_us s / 1000) all) in
  0 <= tsum < two64 ->
  stamp d (u64 (1000 * (tsum / k))) = Ok t' ->
  exists c', accumulate z plus divn post n m d all c = Ok c' /\
    av_ring c' = push {| time_us := t'; payload := post (divn (fold_left plus (map payload all) z) k) |}
                      (ensure z n (av_ring c)) /\
    av_count c' = 0 /\ av_sum c' = z /\ av_tsum c' = 0 /\ av_last c' = time_us s.
Proof. exact @average_value. Qed.

(** C07 is false for 256: integer division by zero. *)
Theorem C07_average_256_samples_refuted :
  forall (A : Type) (z : A) plus divn post n m d c l s,
  av_count c = 0 -> Forall (held m (av_last c)) l -> ~ held m (av_last c) s ->
  Z.of_nat (length l) = 255 -> accumulate z plus divn post n m d (l ++ [s]) c = UB.
Proof. exact @average_div0. Qed.

(** C40: aiding-source bookkeeping. *)
Theorem C40_other_source_iff :
  forall a h, is_other_source a (src_active a h) = true <-> exists h', h' <> h /\ src_active a h' = true.
Proof. exact other_source_iff. Qed.
Theorem C40_only_source_iff :
  forall a h, is_only_source a (src_active a h) = true <->
  src_active a h = true /\ forall h', src_active a h' = true -> h' = h.
Proof. exact only_source_iff. Qed.
Theorem C40_aiding_active_iff :
  forall a, is_horizontal_aiding_active a = true <-> exists h, src_active a h = true.
Proof. exact aiding_active_iff. Qed.

(** C41: at rest is reported exactly after more than one second on ground without movement. *)
Theorem C41_at_rest_iff_quiet_for_one_second :
  forall l in_air moving t, nondecreasing 0 (map snd (l ++ [(in_air, moving, t)])) -> t < two64 ->
  (fst (check_at_rest in_air moving t (snd (rest_run l 0))) = true <->
   in_air = false /\ moving = false /\ 1000000 < t /\
   forall x, In x l -> movement x = true -> snd x + 1000000 < t).
Proof. exact at_rest_iff. Qed.

(** ** Non-vacuity *)
Example C05_default_parameters : initialise_interface default_params = Ok (12, 9)
  /\ is_finite (max_time_delay default_params) = true /\ R32 (max_time_delay default_params) = 110%R.
Proof.
  split; [vm_compute; reflexivity|]. split; [vm_compute; reflexivity|].
  assert (E : B2SF (max_time_delay default_params) = B2SF (f_of_Z 110)) by (vm_compute; reflexivity).
  transitivity (R32 (f_of_Z 110)); [|apply (f_of_Z_exact 110); lia].
  transitivity (SF2R radix2 (B2SF (max_time_delay default_params))); [symmetry; apply SF2R_B2SF|]. rewrite E. apply SF2R_B2SF.
Qed.
Example C05_no_sample_lost_case : min_obs_interval 1120000 1000000 9 = Ok 15000.
Proof. vm_compute. reflexivity. Qed.
Example C06_case :
  match deliver_all 0 9 (f_of_Z 110) [(15000, mk_sample 1000000 1); (15000, mk_sample 1010000 2); (15000, mk_sample 1020000 3)] (chan_init 0) with
  | Ok c => snd (run 0 (ch_ring c) [Pop 890000; Pop 910000])
            = [OPopped (mk_sample 885000 1); OPopped (mk_sample 905000 3)]
  | UB => False
  end.
Proof. vm_compute. reflexivity. Qed.
Example C07_case :
  match accumulate 0 Z.add Z.div (fun x => x) 9 15000 f0
     [mk_sample 1000000 1; mk_sample 1004000 2; mk_sample 1020000 6]
     {| av_ring := fresh_ring 0 9; av_last := 999000; av_count := 0; av_sum := 0; av_tsum := 0 |} with
  | Ok c => snd (run 0 (av_ring c) [Pop 1010000]) = [OPopped (mk_sample 1003000 3)]
  | UB => False
  end.
Proof. vm_compute. reflexivity. Qed.
Example C41_case : fst (check_at_rest false false 2500000
   (snd (rest_run [(false, true, 1000000); (false, false, 2000000)] 0))) = true.
Proof. vm_compute. reflexivity. Qed.

Print Assumptions C05_sizing_defined_and_covering.
Print Assumptions C05_selected_delays_covered.
Print Assumptions C05_overflow_above_2540ms.
Print Assumptions C05_no_sample_lost.
Print Assumptions C06_channel_holds_accepted_samples.
Print Assumptions C06_stamp_accuracy.
Print Assumptions C07_average_is_mean.
Print Assumptions C40_other_source_iff.
Print Assumptions C41_at_rest_iff_quiet_for_one_second.

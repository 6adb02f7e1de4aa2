(** * Model of EKF/sensor_range_finder.{hpp,cpp} and of its use in
      EKF/control.cpp l.118-142 and l.1084-1097.

    Floats are binary32.  [sinf]/[cosf] of the mounting pitch are inputs. *)
From Verif Require Export CBase F32.
Open Scope Z_scope.

(** EKF/common.h l.125-129 *)
Record range_sample := mk_range { rs_time : Z; rs_rng : f32; rs_quality : Z }.

(** parameters pushed into the sensor object before every check:
    sensor_range_finder.hpp l.81-102 (setPitchOffset, setCosMaxTilt, setLimits,
    setQualityHysteresis) *)
Record rf_params := {
  rp_sin_pitch : f32; rp_cos_pitch : f32; rp_cos_max_tilt : f32;
  rp_min : f32; rp_max : f32; rp_hyst : Z }.

(** sensor_range_finder.hpp l.121-163: private members *)
Record rf_state := {
  rf_sample : range_sample;
  rf_ready : bool; rf_valid : bool; rf_regular : bool;
  rf_last_valid : Z;
  rf_stuck : bool; rf_smin : f32; rf_smax : f32;
  rf_dt : f32;
  rf_cos_tilt : f32;
  rf_bad_quality : Z }.

(** initial member values, same lines *)
Definition rf_init : rf_state :=
  {| rf_sample := mk_range 0 f0 0; rf_ready := false; rf_valid := false; rf_regular := false;
     rf_last_valid := 0; rf_stuck := false; rf_smin := f0; rf_smax := f0; rf_dt := f0;
     rf_cos_tilt := f0; rf_bad_quality := 0 |}.

(** hpp l.74-76 *)
Definition is_healthy (s : rf_state) : bool := rf_valid s.
Definition is_data_healthy (s : rf_state) : bool := rf_ready s && rf_valid s.
Definition is_regularly_sending (s : rf_state) : bool := rf_regular s.

(** RNG_MAX_INTERVAL, common.h l.205 *)
Definition RNG_MAX_INTERVAL := 200000.
(** hpp l.133 *)
Definition stuck_threshold : f32 := flit 1 10.

(** updateSensorToEarthRotation, cpp l.54-59 *)
Definition cos_tilt_of (p : rf_params) (r20 r22 : f32) : f32 :=
  fadd (fmul r20 (rp_sin_pitch p)) (fmul r22 (rp_cos_pitch p)).

(** updateDtDataLpf, cpp l.95-103; alpha = 0.5f * 0.01f *)
Definition rng_alpha : f32 := fmul (flit 1 2) (flit 1 100).
Definition dt_lpf (dt : f32) (now t : Z) : f32 :=
  c_fminf (fadd (fmul dt (fsub f1 rng_alpha)) (fmul rng_alpha (f_of_Z (sub64 now t))))
          (f_of_Z 4000000).

(** isSampleOutOfDate l.105-108, isDataContinuous hpp l.114,
    isTiltOk hpp l.115, isDataInRange cpp l.110-113 *)
Definition out_of_date (now t : Z) : bool := sub64 now t >? 2 * RNG_MAX_INTERVAL.
Definition continuous (dt : f32) : bool := flt dt (f_of_Z 2000000).
Definition tilt_ok (p : rf_params) (c : f32) : bool := fgt c (rp_cos_max_tilt p).
Definition in_range (p : rf_params) (r : f32) : bool := fge r (rp_min p) && fle r (rp_max p).

(** updateStuckCheck, cpp l.115-139: returns (stuck, min, max) *)
Definition stuck_check (t last_valid : Z) (rng : f32) (stuck : bool) (smin smax : f32) : bool * f32 * f32 :=
  if sub64 t last_valid >? 10000000 then
    if fgt (fsub smax smin) stuck_threshold then (false, f0, f0)
    else (true, if flt smin (flit 1 10) || flt rng smin then rng else smin,
                if fgt rng smax then rng else smax)
  else (stuck, smin, smax).

(** runChecks l.48-52 / updateValidity l.61-93 *)
Definition run_checks (p : rf_params) (now : Z) (r20 r22 : f32) (s : rf_state) : rf_state :=
  let c := cos_tilt_of p r20 r22 in
  let dt := dt_lpf (rf_dt s) now (rs_time (rf_sample s)) in
  let t := rs_time (rf_sample s) in
  let r := rs_rng (rf_sample s) in
  if out_of_date now t || negb (continuous dt) then
    {| rf_sample := rf_sample s; rf_ready := rf_ready s; rf_valid := false; rf_regular := false;
       rf_last_valid := rf_last_valid s; rf_stuck := rf_stuck s; rf_smin := rf_smin s; rf_smax := rf_smax s;
       rf_dt := dt; rf_cos_tilt := c; rf_bad_quality := rf_bad_quality s |}
  else if negb (rf_ready s) then
    {| rf_sample := rf_sample s; rf_ready := rf_ready s; rf_valid := rf_valid s; rf_regular := true;
       rf_last_valid := rf_last_valid s; rf_stuck := rf_stuck s; rf_smin := rf_smin s; rf_smax := rf_smax s;
       rf_dt := dt; rf_cos_tilt := c; rf_bad_quality := rf_bad_quality s |}
  else if rs_quality (rf_sample s) =? 0 then
    {| rf_sample := rf_sample s; rf_ready := rf_ready s; rf_valid := false; rf_regular := true;
       rf_last_valid := rf_last_valid s; rf_stuck := rf_stuck s; rf_smin := rf_smin s; rf_smax := rf_smax s;
       rf_dt := dt; rf_cos_tilt := c; rf_bad_quality := now |}
  else if (sub64 now (rf_bad_quality s) >? rp_hyst p) && (tilt_ok p c && in_range p r) then
    let '(st, mn, mx) := stuck_check t (rf_last_valid s) r (rf_stuck s) (rf_smin s) (rf_smax s) in
    {| rf_sample := rf_sample s; rf_ready := rf_ready s; rf_valid := negb st; rf_regular := true;
       rf_last_valid := if st then rf_last_valid s else t; rf_stuck := st; rf_smin := mn; rf_smax := mx;
       rf_dt := dt; rf_cos_tilt := c; rf_bad_quality := rf_bad_quality s |}
  else
    {| rf_sample := rf_sample s; rf_ready := rf_ready s; rf_valid := false; rf_regular := true;
       rf_last_valid := rf_last_valid s; rf_stuck := rf_stuck s; rf_smin := rf_smin s; rf_smax := rf_smax s;
       rf_dt := dt; rf_cos_tilt := c; rf_bad_quality := rf_bad_quality s |}.

(** One filter update: control.cpp l.120-142.  [tk_new] is the sample popped
    from the range buffer, if any; [tk_off] is pos_offset_earth(2).  The range
    correction l.137-142 is applied after the checks. *)
Record tick := {
  tk_now : Z; tk_new : option range_sample; tk_par : rf_params; tk_r20 : f32; tk_r22 : f32; tk_off : f32 }.

Definition load (o : option range_sample) (s : rf_state) : rf_state :=
  match o with
  | Some x =>
    {| rf_sample := x; rf_ready := true; rf_valid := rf_valid s; rf_regular := rf_regular s;
       rf_last_valid := rf_last_valid s; rf_stuck := rf_stuck s; rf_smin := rf_smin s; rf_smax := rf_smax s;
       rf_dt := rf_dt s; rf_cos_tilt := rf_cos_tilt s; rf_bad_quality := rf_bad_quality s |}
  | None =>
    {| rf_sample := rf_sample s; rf_ready := false; rf_valid := rf_valid s; rf_regular := rf_regular s;
       rf_last_valid := rf_last_valid s; rf_stuck := rf_stuck s; rf_smin := rf_smin s; rf_smax := rf_smax s;
       rf_dt := rf_dt s; rf_cos_tilt := rf_cos_tilt s; rf_bad_quality := rf_bad_quality s |}
  end.

(** setRange, hpp l.106 *)
Definition set_range (r : f32) (s : rf_state) : rf_state :=
  {| rf_sample := mk_range (rs_time (rf_sample s)) r (rs_quality (rf_sample s));
     rf_ready := rf_ready s; rf_valid := rf_valid s; rf_regular := rf_regular s;
     rf_last_valid := rf_last_valid s; rf_stuck := rf_stuck s; rf_smin := rf_smin s; rf_smax := rf_smax s;
     rf_dt := rf_dt s; rf_cos_tilt := rf_cos_tilt s; rf_bad_quality := rf_bad_quality s |}.

Definition tick_step (k : tick) (s : rf_state) : rf_state :=
  let s1 := run_checks (tk_par k) (tk_now k) (tk_r20 k) (tk_r22 k) (load (tk_new k) s) in
  if is_data_healthy s1
  then set_range (fadd (rs_rng (rf_sample s1)) (fdiv (tk_off k) (rf_cos_tilt s1))) s1
  else s1.

Fixpoint ticks (l : list tick) (s : rf_state) : rf_state :=
  match l with
  | [] => s
  | k :: r => ticks r (tick_step k s)
  end.

(** control.cpp l.1084-1097: on ground with range height active and no accepted
    height for 0.4 s the checks are bypassed *)
Definition ground_bypass (rng_hgt hgt_timed_out in_air : bool) (clearance : f32) (s : rf_state) : rf_state :=
  if rng_hgt && hgt_timed_out && negb (is_data_healthy s) && is_regularly_sending s && negb in_air then
    let s' := set_range clearance s in
    {| rf_sample := rf_sample s'; rf_ready := true; rf_valid := true; rf_regular := rf_regular s';
       rf_last_valid := rf_last_valid s'; rf_stuck := rf_stuck s'; rf_smin := rf_smin s'; rf_smax := rf_smax s';
       rf_dt := rf_dt s'; rf_cos_tilt := rf_cos_tilt s'; rf_bad_quality := rf_bad_quality s' |}
  else s.

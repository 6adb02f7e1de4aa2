(** * Model of EKF/estimator_interface.cpp: buffer sizing, observation rate
      limiting, delay compensation, mag/baro averaging, at-rest detection and
      aiding-source bookkeeping.

    Floats are binary32 ([F32]).  Memory allocation is assumed to succeed. *)
From Verif Require Export CBase F32 RingBufferModel.

(** ** Parameters read by this file (EKF/common.h l.217-231, 271, 294) *)
Record if_params := {
  fusion_mode : Z;              (* int32_t bit mask *)
  vdist_sensor_type : Z;
  sensor_interval_min_ms : Z;   (* int32_t *)
  mag_delay_ms : f32; baro_delay_ms : f32; gps_delay_ms : f32;
  airspeed_delay_ms : f32; flow_delay_ms : f32; range_delay_ms : f32;
  ev_delay_ms : f32; auxvel_delay_ms : f32;
  mag_fusion_type : Z;
  range_aid : Z }.

(** EKF/common.h l.168-192, 198-205 *)
Definition VDIST_SENSOR_BARO := 0.
Definition VDIST_SENSOR_GPS := 1.
Definition VDIST_SENSOR_RANGE := 2.
Definition VDIST_SENSOR_EV := 3.
Definition MASK_USE_GPS := 1.
Definition MASK_USE_OF := 2.
Definition MASK_INHIBIT_ACC_BIAS := 4.
Definition MASK_USE_EVPOS := 8.
Definition MASK_USE_EVYAW := 16.
Definition MASK_USE_DRAG := 32.
Definition MASK_ROTATE_EV := 64.
Definition MASK_USE_GPSYAW := 128.
Definition MASK_USE_EVVEL := 256.
Definition MAG_FUSE_TYPE_NONE := 5.
Definition mask (m b : Z) : bool := negb (Z.land m b =? 0).

(** estimator_interface.cpp l.477-505: largest configured delay *)
Definition max_time_delay (p : if_params) : f32 :=
  let m0 := math_max (baro_delay_ms p) (math_max (auxvel_delay_ms p) (airspeed_delay_ms p)) in
  let m1 := if mag_fusion_type p =? MAG_FUSE_TYPE_NONE then m0 else math_max (mag_delay_ms p) m0 in
  let m2 := if negb (range_aid p =? 0) || (vdist_sensor_type p =? VDIST_SENSOR_RANGE)
            then math_max (range_delay_ms p) m1 else m1 in
  let m3 := if mask (fusion_mode p) MASK_USE_GPS then math_max (gps_delay_ms p) m2 else m2 in
  let m4 := if mask (fusion_mode p) MASK_USE_OF then math_max (flow_delay_ms p) m3 else m3 in
  if mask (fusion_mode p) (Z.lor MASK_USE_EVPOS (Z.lor MASK_USE_EVYAW MASK_USE_EVVEL))
  then math_max (ev_delay_ms p) m4 else m4.

(** l.508: [_imu_buffer_length = ceilf(max_time_delay_ms / 10) + 1], float
    arithmetic, converted to uint8_t *)
Definition imu_buffer_length (maxd : f32) : outcome Z :=
  f_to_uint 8 (fadd (fceil (fdiv maxd (f_of_Z 10))) f1).

(** l.513-514 *)
Definition obs_buffer_length_raw (maxd : f32) (interval_min : Z) : outcome Z :=
  f_to_uint 8 (fceil (fdiv (fmul maxd (flit 3 2)) (f_of_Z interval_min))).

(** initialise_interface l.475-525: (imu length, observation length).
    [UB] = float to uint8_t conversion out of range. *)
Definition initialise_interface (p : if_params) : outcome (Z * Z) :=
  let maxd := max_time_delay p in
  match imu_buffer_length maxd with
  | UB => UB
  | Ok il =>
      match obs_buffer_length_raw maxd (sensor_interval_min_ms p) with
      | UB => UB
      | Ok ol => Ok (il, Z.min ol il)
      end
  end.

(** setIMUData l.82: [(imu.time_us - delayed.time_us) / (_obs_buffer_length - 1)],
    divisor int converted to uint64_t, result stored in an unsigned (32 bit) *)
Definition min_obs_interval (t_now t_delayed obs_len : Z) : outcome Z :=
  let d := u64 (obs_len - 1) in
  if d =? 0 then UB else Ok (u32 (sub64 t_now t_delayed / d)).

(** ** Time stamps: [x.time_us -= delay_ms * 1000; x.time_us -= 5000]
    l.156-157, 206-207, 268-269, 297-298, 325-326, 361-362, 392-393, 425-426.
    [delay_ms] is a float, so the first subtraction is done in float and
    converted back to uint64_t (undefined if negative). *)
Definition stamp (delay : f32) (t : Z) : outcome Z :=
  match f_to_uint 64 (fsub (f_of_Z t) (fmul delay (f_of_Z 1000))) with
  | Ok x => Ok (sub64 x 5000)
  | UB => UB
  end.

(** ** A rate-limited channel: setAirspeedData l.280-303, setRangeData l.305-330,
    setOpticalFlowData l.332-366 (with [buf_len] = IMU buffer length),
    setExtVisionData l.368-397, setAuxVelData l.399-430; setGpsData l.172-238
    adds a guard, see [set_gps]. *)
Section Chan.
Context {A : Type} (z : A).

Record chan := {
  ch_ring : ring A;
  ch_last : Z }.

Definition fresh_ring (n : nat) : ring A :=
  {| buffer := repeat (zero_sample z) n; head := 0; tail := 0; size := n; first_write := true |}.

(** RingBuffer default constructor: allocate(1), RingBuffer.h l.50 *)
Definition chan_init : chan := {| ch_ring := fresh_ring 1; ch_last := 0 |}.

(** allocation guard: [if (get_length() < n) allocate(n)] *)
Definition ensure (n : Z) (r : ring A) : ring A :=
  if Z.of_nat (size r) <? n then fresh_ring (Z.to_nat n) else r.

(** one delivery; [initialised] is _initialised *)
Definition set_data (initialised : bool) (buf_len interval : Z) (delay : f32)
                    (s : sample A) (c : chan) : outcome chan :=
  if negb initialised then Ok c else
  let r := ensure buf_len (ch_ring c) in
  if sub64 (time_us s) (ch_last c) >? interval then
    match stamp delay (time_us s) with
    | UB => UB
    | Ok t => Ok {| ch_ring := push {| time_us := t; payload := payload s |} r;
                    ch_last := time_us s |}
    end
  else Ok {| ch_ring := r; ch_last := ch_last c |}.

(** setGpsData: same, guarded by need_gps and fix_type > 2 (l.190-193) *)
Definition set_gps (initialised : bool) (p : if_params) (fix_type : Z) (buf_len interval : Z) (delay : f32)
                   (s : sample A) (c : chan) : outcome chan :=
  if negb initialised then Ok c else
  let need := mask (fusion_mode p) MASK_USE_GPS || (vdist_sensor_type p =? VDIST_SENSOR_GPS) in
  if (sub64 (time_us s) (ch_last c) >? interval) && need && (2 <? fix_type)
  then set_data true buf_len interval delay s c
  else Ok {| ch_ring := ensure buf_len (ch_ring c); ch_last := ch_last c |}.

(** ** Averaging channels: setMagData l.122-170, setBaroData l.240-278.
    The payload arithmetic is a parameter: [plus], the zero and division by
    the sample count. *)
Variable plus : A -> A -> A.
Variable divn : A -> Z -> A.
Variable post : A -> A.    (* compensateBaroForDynamicPressure; identity for mag *)

Record avg_chan := {
  av_ring : ring A;
  av_last : Z;
  av_count : Z;        (* uint8_t *)
  av_sum : A;
  av_tsum : Z }.       (* uint64_t *)

(** the averaged time stamp before delay compensation, l.155: integer division
    of a uint64_t by a uint8_t; undefined for a zero count *)
Definition avg_time (tsum count : Z) : outcome Z :=
  if count =? 0 then UB else Ok (u64 (1000 * (tsum / count))).

Definition set_avg (initialised : bool) (buf_len interval : Z) (delay : f32)
                   (s : sample A) (c : avg_chan) : outcome avg_chan :=
  if negb initialised then Ok c else
  let r := ensure buf_len (av_ring c) in
  let count := u8 (av_count c + 1) in
  let sum := plus (av_sum c) (payload s) in
  let tsum := add64 (av_tsum c) (time_us s / 1000) in
  if sub64 (time_us s) (av_last c) >? interval then
    match avg_time tsum count with
    | UB => UB
    | Ok ta =>
        match stamp delay ta with
        | UB => UB
        | Ok t => Ok {| av_ring := push {| time_us := t; payload := post (divn sum count) |} r;
                        av_last := time_us s; av_count := 0; av_sum := z; av_tsum := 0 |}
        end
    end
  else Ok {| av_ring := r; av_last := av_last c; av_count := count; av_sum := sum; av_tsum := tsum |}.
End Chan.
Arguments chan A : clear implicits.
Arguments avg_chan A : clear implicits.

(** ** checkIfVehicleAtRest l.104-120.  [moving] is the disjunction of the three
    movement tests (l.108-110) computed from the vibration metrics. *)
Definition check_at_rest (in_air moving : bool) (t t_move : Z) : bool * Z :=
  if negb in_air then
    let tm := if moving then t else t_move in
    (sub64 t tm >? 1000000, tm)
  else (false, t).

(** the movement tests themselves, on binary32 *)
Definition moving_test (vibe1 vibe2 dang_norm dt scaler : f32) : bool :=
  fgt (fmul vibe1 (f_of_Z 40000)) scaler
  || fgt (fmul vibe2 (f_of_Z 210)) scaler
  || fgt (fdiv dang_norm dt) (fmul (flit 5 100) scaler).

(** ** Horizontal aiding sources, l.527-560 *)
Record aiding := {
  a_gps : bool; a_flow : bool; a_ev_pos : bool; a_ev_vel : bool; a_aspd : bool; a_beta : bool }.
Definition n_horizontal_aiding (a : aiding) : Z :=
  Z.b2z (a_gps a) + Z.b2z (a_flow a) + Z.b2z (a_ev_pos a) + Z.b2z (a_ev_vel a)
  + Z.b2z (a_aspd a && a_beta a).
Definition is_other_source (a : aiding) (flag : bool) : bool :=
  if flag then n_horizontal_aiding a >? 1 else n_horizontal_aiding a >? 0.
Definition is_only_source (a : aiding) (flag : bool) : bool := flag && negb (is_other_source a flag).
Definition is_horizontal_aiding_active (a : aiding) : bool := n_horizontal_aiding a >? 0.

(** ** setDragData l.432-473 (counters only): ratio of IMU to drag samples *)
Definition drag_ratio (imu_len obs_len : Z) : outcome Z :=
  match f_to_uint 8 (fceil (fdiv (f_of_Z imu_len) (f_of_Z obs_len))) with
  | UB => UB
  | Ok r => Ok (if r <? 5 then 5 else r)
  end.

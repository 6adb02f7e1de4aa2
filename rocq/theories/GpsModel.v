(** * Model of EKF/gps_checks.cpp and of the origin handling in
      EKF/gps_checks.cpp l.59-146 and EKF/ekf_helper.cpp l.696-733.

    Floats are binary32.  The result of map_projection_project between two
    fixes (l.193) is part of the input: [g_dn], [g_de]. *)
From Verif Require Export CBase F32 InterfaceModel.
Open Scope Z_scope.

(** the two time predicates, EKF/ekf.h l.924-932; [now] is _time_last_imu *)
Definition is_timed_out (now ts timeout : Z) : bool := add64 ts timeout <? now.
Definition is_recent (now ts interval : Z) : bool := add64 ts interval >? now.

(** gps_checks.cpp l.49-57 *)
Definition MASK_GPS_NSATS := 1.
Definition MASK_GPS_PDOP := 2.
Definition MASK_GPS_HACC := 4.
Definition MASK_GPS_VACC := 8.
Definition MASK_GPS_SACC := 16.
Definition MASK_GPS_HDRIFT := 32.
Definition MASK_GPS_VDRIFT := 64.
Definition MASK_GPS_HSPD := 128.
Definition MASK_GPS_VSPD := 256.

(** the parameters used, EKF/common.h l.311-319 *)
Record gps_params := {
  gp_mask : Z; gp_nsats : Z; gp_pdop : f32; gp_hacc : f32; gp_vacc : f32; gp_sacc : f32;
  gp_hdrift : f32; gp_vdrift : f32; gp_health_us : Z }.

(** gps_message, EKF/common.h l.63-79, plus vehicle status at the time of the
    call: [g_now] = _time_last_imu, [g_vz] = _state.vel(2) *)
Record gps_msg := {
  g_now : Z; g_in_air : bool; g_at_rest : bool; g_vz : f32;
  g_fix : Z; g_nsats : Z; g_pdop : f32; g_eph : f32; g_epv : f32; g_sacc : f32;
  g_vn : f32; g_ve : f32; g_vd : f32; g_alt : Z; g_dn : f32; g_de : f32 }.

(** _gps_check_fail_status flags, EKF/common.h l.436-449 *)
Record gps_flags := {
  ff_fix : bool; ff_nsats : bool; ff_pdop : bool; ff_hacc : bool; ff_vacc : bool; ff_sacc : bool;
  ff_hdrift : bool; ff_vdrift : bool; ff_hspeed : bool; ff_vspeed : bool }.
Definition no_flags := {| ff_fix := false; ff_nsats := false; ff_pdop := false; ff_hacc := false; ff_vacc := false;
  ff_sacc := false; ff_hdrift := false; ff_vdrift := false; ff_hspeed := false; ff_vspeed := false |}.

Record gps_state := {
  gs_flags : gps_flags;
  gs_prev_time : Z; gs_alt_prev : f32;
  gs_dn : f32; gs_de : f32; gs_dd : f32;      (* _gps_pos_deriv_filt *)
  gs_vn : f32; gs_ve : f32;                   (* _gps_velNE_filt *)
  gs_vdiff : f32;                             (* _gps_velD_diff_filt *)
  gs_last_fail : Z; gs_last_pass : Z }.
Definition gps_init := {| gs_flags := no_flags; gs_prev_time := 0; gs_alt_prev := f0; gs_dn := f0; gs_de := f0;
  gs_dd := f0; gs_vn := f0; gs_ve := f0; gs_vdiff := f0; gs_last_fail := 0; gs_last_pass := 0 |}.

(** l.178-180; the time difference is a signed 64-bit integer *)
Definition s64 (n : Z) : Z := let m := u64 n in if m <? 2 ^ 63 then m else m - two64.
Definition gps_dt (now prev : Z) : f32 :=
  math_constrain (fmul (f_of_Z (s64 (now - prev))) (flit 1 1000000)) (flit 1 1000) (f_of_Z 10).
Definition gps_coef (dt : f32) : f32 := fdiv dt (f_of_Z 10).
(** low pass used for all metrics *)
Definition lp (c new old : f32) : f32 := fadd (fmul new c) (fmul old (fsub f1 c)).
Definition norm2f (a b : f32) : f32 := fsqrt (fadd (fmul a a) (fmul b b)).
Definition lim10 (v l : f32) : f32 := math_constrain v (fmul (fneg (f_of_Z 10)) l) (fmul (f_of_Z 10) l).
Definition alt_m (a : Z) : f32 := fmul (flit 1 1000) (f_of_Z a).

(** gps_is_good, l.155-280 *)
Definition gps_is_good (p : gps_params) (m : gps_msg) (s : gps_state) : bool * gps_state :=
  let dt := gps_dt (g_now m) (gs_prev_time s) in
  let c := gps_coef dt in
  let rest := negb (g_in_air m) && g_at_rest m in
  (* l.186-225 *)
  let first := gs_prev_time s =? 0 in
  let alt_prev := if first then alt_m (g_alt m) else gs_alt_prev s in
  let dn0 := if first then f0 else g_dn m in
  let de0 := if first then f0 else g_de m in
  let dn := lp c (lim10 (fdiv dn0 dt) (gp_hdrift p)) (gs_dn s) in
  let de := lp c (lim10 (fdiv de0 dt) (gp_hdrift p)) (gs_de s) in
  let dd := lp c (lim10 (fdiv (fsub alt_prev (alt_m (g_alt m))) dt) (gp_vdrift p)) (gs_dd s) in
  let vn := lp c (lim10 (g_vn m) (gp_hdrift p)) (gs_vn s) in
  let ve := lp c (lim10 (g_ve m) (gp_hdrift p)) (gs_ve s) in
  let fl := gs_flags s in
  (* l.249-252 *)
  let vdiff := lp c (lim10 (fsub (g_vd m) (g_vz m)) (gp_vdrift p)) (gs_vdiff s) in
  let fl' := {|
    ff_fix := g_fix m <? 3; ff_nsats := g_nsats m <? gp_nsats p; ff_pdop := fgt (g_pdop m) (gp_pdop p);
    ff_hacc := fgt (g_eph m) (gp_hacc p); ff_vacc := fgt (g_epv m) (gp_vacc p); ff_sacc := fgt (g_sacc m) (gp_sacc p);
    ff_hdrift := if rest then fgt (norm2f dn de) (gp_hdrift p) else if g_in_air m then false else ff_hdrift fl;
    ff_vdrift := if rest then fgt (fabs dd) (gp_vdrift p) else if g_in_air m then false else ff_vdrift fl;
    ff_hspeed := if rest then fgt (norm2f vn ve) (gp_hdrift p) else if g_in_air m then false else ff_hspeed fl;
    ff_vspeed := fgt (fabs vdiff) (gp_vdrift p) |} in
  (* l.255-276 *)
  let last0 := if gs_last_fail s =? 0 then g_now m else gs_last_fail s in
  let k b bit := b && mask (gp_mask p) bit in
  let failed := ff_fix fl' || k (ff_nsats fl') MASK_GPS_NSATS || k (ff_pdop fl') MASK_GPS_PDOP
    || k (ff_hacc fl') MASK_GPS_HACC || k (ff_vacc fl') MASK_GPS_VACC || k (ff_sacc fl') MASK_GPS_SACC
    || k (ff_hdrift fl') MASK_GPS_HDRIFT || k (ff_vdrift fl') MASK_GPS_VDRIFT
    || k (ff_hspeed fl') MASK_GPS_HSPD || k (ff_vspeed fl') MASK_GPS_VSPD in
  let last := if failed then g_now m else last0 in
  let s' := {| gs_flags := fl'; gs_prev_time := g_now m; gs_alt_prev := alt_m (g_alt m);
     gs_dn := if rest then dn else f0; gs_de := if rest then de else f0; gs_dd := if rest then dd else f0;
     gs_vn := if rest then vn else f0; gs_ve := if rest then ve else f0; gs_vdiff := vdiff;
     gs_last_fail := last; gs_last_pass := if failed then gs_last_pass s else g_now m |} in
  (is_timed_out (g_now m) last (gp_health_us p), s').

(** state after a history of messages *)
Fixpoint gps_run (p : gps_params) (l : list gps_msg) (s : gps_state) : gps_state :=
  match l with
  | [] => s
  | m :: r => gps_run p r (snd (gps_is_good p m s))
  end.

(** ** Origin: collect_gps l.59-146, setEkfGlobalOrigin (ekf_helper.cpp l.696-733),
    getEkfGlobalOrigin (ekf_helper.cpp l.686-694).
    Geographic positions are abstract; [reproject ref pos] is
    map_projection_reproject; map_projection_init_timestamped always succeeds
    (geo.cpp l.71-82). *)
Section Origin.
Context {LL : Type}.
Variable ll_of_msg : Z -> Z -> LL.               (* gps.lat*1e-7, gps.lon*1e-7 *)
Variable reproject : LL -> f32 -> f32 -> LL.

Record origin := {
  o_ref : option LL;          (* _pos_ref, None when not initialised *)
  o_alt : f32;                (* _gps_alt_ref *)
  o_ned : bool }.             (* _NED_origin_initialised *)
Definition origin_init := {| o_ref := None; o_alt := f0; o_ned := false |}.

Inductive origin_op :=
| CollectGps (filter_init checks_passed aiding : bool) (fix_type lat lon alt : Z) (px py pz : f32)
| SetOrigin (pos : LL) (alt : f32).

Definition collect_gps (filter_init passed aiding : bool) (fix_type lat lon alt : Z) (px py pz : f32) (o : origin)
  : bool * origin :=
  let o' :=
    if filter_init && negb (o_ned o) && passed then
      let ref := match o_ref o with
                 | Some r => r
                 | None => let r := ll_of_msg lat lon in
                           if aiding then reproject r (fneg px) (fneg py) else r
                 end in
      {| o_ref := Some ref; o_alt := fadd (alt_m alt) pz; o_ned := true |}
    else o in
  (o_ned o' && (3 <=? fix_type), o').

Definition set_origin (pos : LL) (alt : f32) (o : origin) : origin :=
  {| o_ref := Some pos; o_alt := alt; o_ned := o_ned o |}.

Definition origin_step (op : origin_op) (o : origin) : origin :=
  match op with
  | CollectGps fi pa ai ft la lo al px py pz => snd (collect_gps fi pa ai ft la lo al px py pz o)
  | SetOrigin pos alt => set_origin pos alt o
  end.
Fixpoint origin_run (l : list origin_op) (o : origin) : origin :=
  match l with [] => o | op :: r => origin_run r (origin_step op o) end.
End Origin.
Arguments origin LL : clear implicits.
Arguments origin_op LL : clear implicits.

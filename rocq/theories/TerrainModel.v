(** * Terrain estimator, EKF/terrain_estimator.cpp *)
From Coq Require Import ZArith Bool List.
From Verif Require Import CBase F32 Scalar GpsModel.
Open Scope nat_scope.
Open Scope scal_scope.

Section Terrain.
Context (T : Type) {SC : Scalar T}.

(** parameters used here: common.h, struct parameters *)
Record tpar := mkTp { p_clr : T;      (** rng_gnd_clearance *)
  p_rn : T;                           (** range_noise *)
  p_rns : T;                          (** range_noise_scaler *)
  p_vvs : T;                          (** vehicle_variance_scaler *)
  p_rgate : T;                        (** range_innov_gate *)
  p_fgate : T;                        (** flow_innov_gate *)
  p_pnoise : T;                       (** terrain_p_noise *)
  p_grad : T;                         (** terrain_gradient *)
  p_use_rng : bool; p_use_flow : bool;(** terrain_fusion_mode bits; ekf.h l.656-657 *)
  p_fn : T; p_fnq : T; p_qmin : T }.  (** flow_noise, flow_noise_qual_min, (float)flow_qual_min *)
(** what the estimator reads from the rest of the filter in one run *)
Record tin := mkTi { t_now : Z;       (** _time_last_imu *)
  t_air : bool;                       (** _control_status.flags.in_air *)
  t_posd : T; t_vel : Vec T;          (** _state.pos(2), _state.vel *)
  t_q : Vec T; t_Rte : Mat T;         (** _state.quat_nominal, _R_to_earth *)
  t_P99 : T; t_dt : T;                (** P(9,9), _imu_sample_delayed.delta_vel_dt *)
  t_healthy : bool;                   (** _range_sensor.isDataHealthy() *)
  t_dist : T; t_range : T;            (** getDistBottom(), getRange() *)
  t_flow_ready : bool;                (** _flow_for_terrain_data_ready *)
  t_comp : Vec T; t_fdt : T;          (** _flow_compensated_XY_rad, _flow_sample_delayed.dt *)
  t_gbias : Vec T; t_gyro : Vec T;    (** _flow_gyro_bias, _flow_sample_delayed.gyro_xyz *)
  t_off : Vec T;                      (** _params.flow_pos_body - _params.imu_pos_body *)
  t_qual : T }.                       (** (float)_flow_sample_delayed.quality *)
(** estimator state: ekf.h l.361, 445-447, 511-517 *)
Record tst := mkTs { h_vpos : T; h_var : T; h_init : bool; h_t_hagl : Z; h_t_fake : Z; h_t_flow : Z;
  h_valid : bool; h_rng_bit : bool; h_flow_bit : bool;
  h_reject : bool }.                  (** _innov_check_fail_status.flags.reject_hagl *)

Definition setEst (v p : T) (s : tst) : tst := mkTs v p (h_init s) (h_t_hagl s) (h_t_fake s) (h_t_flow s) (h_valid s) (h_rng_bit s) (h_flow_bit s) (h_reject s).
Definition setHagl (t : Z) (s : tst) : tst := mkTs (h_vpos s) (h_var s) (h_init s) t (h_t_fake s) (h_t_flow s) (h_valid s) (h_rng_bit s) (h_flow_bit s) (h_reject s).
Definition setFake (t : Z) (s : tst) : tst := mkTs (h_vpos s) (h_var s) (h_init s) (h_t_hagl s) t (h_t_flow s) (h_valid s) (h_rng_bit s) (h_flow_bit s) (h_reject s).
Definition setFlowT (t : Z) (s : tst) : tst := mkTs (h_vpos s) (h_var s) (h_init s) (h_t_hagl s) (h_t_fake s) t (h_valid s) (h_rng_bit s) (h_flow_bit s) (h_reject s).
Definition setReject (b : bool) (s : tst) : tst := mkTs (h_vpos s) (h_var s) (h_init s) (h_t_hagl s) (h_t_fake s) (h_t_flow s) (h_valid s) (h_rng_bit s) (h_flow_bit s) b.
Definition setInit (b : bool) (s : tst) : tst := mkTs (h_vpos s) (h_var s) b (h_t_hagl s) (h_t_fake s) (h_t_flow s) (h_valid s) (h_rng_bit s) (h_flow_bit s) (h_reject s).
Definition setValid (v r f : bool) (s : tst) : tst := mkTs (h_vpos s) (h_var s) (h_init s) (h_t_hagl s) (h_t_fake s) (h_t_flow s) v r f (h_reject s).

(** initHagl, l.47-85: new state and result *)
Definition initHagl (p : tpar) (i : tin) (s : tst) : tst * bool :=
  if negb (t_air i) then
    (setHagl (t_now i) (setFake (t_now i) (setEst (t_posd i + p_clr p) (sq (p_clr p)) s)), true)
  else if p_use_rng p && t_healthy i then
    (setHagl (t_now i) (setEst (t_posd i + t_dist i) (sq (p_rn p)) s), true)
  else if p_use_flow p && t_flow_ready i then
    (setHagl (t_now i) (setEst (sfmax szero (t_posd i)) (slit 100 1) s), true)
  else (s, false).

(** variance prediction, l.100-110 *)
Definition predictVar (p : tpar) (i : tin) (v : T) : T :=
  let v := v + sq (t_dt i * p_pnoise p) in
  let v := v + sq (t_dt i * p_grad p) * (sq (t_vel i 0) + sq (t_vel i 1)) in
  sconstrain v szero (slit 10000 1).

(** fuseHagl, l.134-177 *)
Definition obsVar (p : tpar) (i : tin) : T := sfmax (t_P99 i * p_vvs p) szero + sq (p_rn p) + sq (p_rns p * t_range i).
Definition haglInnov (i : tin) (s : tst) : T := (h_vpos s - t_posd i) - t_dist i.
Definition haglVar (p : tpar) (i : tin) (s : tst) : T := sfmax (h_var s + obsVar p i) (obsVar p i).
Definition haglRatio (p : tpar) (i : tin) (s : tst) : T := sq (haglInnov i s) / (sq (sfmax (p_rgate p) sone) * haglVar p i s).
Definition fuseHagl (p : tpar) (i : tin) (s : tst) : tst :=
  if sle (haglRatio p i s) sone then
    let gain := h_var s / haglVar p i s in
    setReject false (setHagl (t_now i) (setEst (h_vpos s - gain * haglInnov i s) (sfmax (h_var s * (sone - gain)) szero) s))
  else if is_timed_out (t_now i) (h_t_hagl s) 10000000 then setEst (t_posd i + t_dist i) (obsVar p i) s
  else setReject true s.

(** quatToInverseRotMat, utils.cpp l.35-60, rows 0-2 *)
Definition invRot (q : Vec T) : Mat T := fun i j =>
  let q00 := q 0 * q 0 in let q11 := q 1 * q 1 in let q22 := q 2 * q 2 in let q33 := q 3 * q 3 in
  let q01 := q 0 * q 1 in let q02 := q 0 * q 2 in let q03 := q 0 * q 3 in let q12 := q 1 * q 2 in let q13 := q 1 * q 3 in let q23 := q 2 * q 3 in
  match i, j with
  | 0, 0 => q00 + q11 - q22 - q33 | 0, 1 => slit 2 1 * (q12 + q03) | 0, 2 => slit 2 1 * (q13 - q02)
  | 1, 0 => slit 2 1 * (q12 - q03) | 1, 1 => q00 - q11 + q22 - q33 | 1, 2 => slit 2 1 * (q23 + q01)
  | 2, 0 => slit 2 1 * (q13 + q02) | 2, 1 => slit 2 1 * (q23 - q01) | 2, 2 => q00 - q11 - q22 + q33
  | _, _ => szero
  end.
(** matrix times vector (products accumulated from zero), cross product *)
Definition mv (M : Mat T) (v : Vec T) : Vec T := fun i => szero + M i 0%nat * v 0%nat + M i 1%nat * v 1%nat + M i 2%nat * v 2%nat.
Definition cross (a b : Vec T) : Vec T := fun k => match k with
  | 0 => a 1%nat * b 2%nat - a 2%nat * b 1%nat | 1 => - a 0%nat * b 2%nat + a 2%nat * b 0%nat | _ => a 0%nat * b 1%nat - a 1%nat * b 0%nat end.
(** calcOptFlowMeasVar, optflow_fusion.cpp l.374-395 *)
Definition flowMeasVar (p : tpar) (i : tin) : T :=
  let best := sfmax (p_fn p) (slit 5 100) in let worst := sfmax (p_fnq p) (slit 5 100) in
  let w := slit 255 1 - p_qmin p in
  let w := if sle sone w then sconstrain ((t_qual i - p_qmin p) / w) szero sone else szero in
  sq (best * w + worst * (sone - w)).
(** fuseFlowForTerrain, l.182, 196-208: measured line of sight rate and sensor velocity in body frame *)
Definition flowRate (i : tin) : Vec T := fun k => t_comp i k / t_fdt i + t_gbias i k.
Definition velBody (i : tin) : Vec T :=
  let rel_body := cross (fun k => - t_gyro i k / t_fdt i) (t_off i) in
  mv (invRot (t_q i)) (fun k => t_vel i k + mv (t_Rte i) rel_body k).
(** one axis of fuseFlowForTerrain, l.216-251 (x) and 253-280 (y): [vb] is vel_body(1) for x and
    -vel_body(0) for y; [inv] the inverse predicted height above ground *)
Definition flowH (vb t0 inv : T) : T := vb * t0 * inv * inv.
Definition flowS (p : tpar) (i : tin) (h var : T) : T := h * h * var + flowMeasVar p i.
Definition flowInnov (vb e22 inv rate : T) : T := vb * e22 * inv - rate.
Definition flowRatio (p : tpar) (innov s : T) : T := sq innov / (sq (sfmax (p_fgate p) sone) * s).
Definition flowAxis (p : tpar) (i : tin) (vb rate inv : T) (s : tst) : tst :=
  let t0 := invRot (t_q i) 2%nat 2%nat in
  let H := flowH vb t0 inv in let S := flowS p i H (h_var s) in let K := h_var s * H / S in
  let innov := flowInnov vb t0 inv rate in
  if sle (flowRatio p innov S) sone then
    setFlowT (t_now i) (setEst (h_vpos s + K * innov) (sfmax (h_var s - K * H * h_var s) szero) s)
  else s.
(** l.212-213, 219: terrain limited to the clearance, variance to zero; the inverse height is
    computed once and used for both axes *)
Definition fuseFlow (p : tpar) (i : tin) (s : tst) : tst :=
  let s := setEst (sfmax (h_vpos s) (p_clr p + t_posd i)) (sfmax (h_var s) szero) s in
  let inv := sone / (h_vpos s - t_posd i) in
  let s := flowAxis p i (velBody i 1%nat) (flowRate i 0%nat) inv s in
  flowAxis p i (- velBody i 0%nat) (flowRate i 1%nat) inv s.

(** l.126-129 *)
Definition limitClr (p : tpar) (i : tin) (s : tst) : tst :=
  if slt (h_vpos s - t_posd i) (p_clr p) then setEst (p_clr p + t_posd i) (h_var s) s else s.
(** updateTerrainValidity, l.283-299 *)
Definition updateValidity (p : tpar) (i : tin) (s : tst) : tst :=
  let rr := is_recent (t_now i) (h_t_hagl s) 5000000 in
  let rf := is_recent (t_now i) (h_t_flow s) 5000000 in
  setValid (h_init s && (rr || rf)) (p_use_rng p && rr && negb (h_t_fake s =? h_t_hagl s)%Z) (p_use_flow p && rf) s.

(** runTerrainEstimator, l.87-132 *)
Definition use_rng_now (p : tpar) (i : tin) : bool := p_use_rng p && t_healthy i.
Definition use_flow_now (p : tpar) (i : tin) : bool := p_use_flow p && t_flow_ready i.
Definition runTerrain (p : tpar) (i : tin) (s : tst) : tst :=
  let s' :=
    if negb (h_init s) || negb (t_air i) then let (s1, b) := initHagl p i s in setInit b s1
    else
      let s1 := setEst (h_vpos s) (predictVar p i (h_var s)) s in
      let s2 := if use_rng_now p i then fuseHagl p i s1 else s1 in
      let s3 := if use_flow_now p i then fuseFlow p i s2 else s2 in
      limitClr p i s3 in
  updateValidity p i s'.
Definition runAll (p : tpar) (l : list tin) (s : tst) : tst := fold_left (fun s i => runTerrain p i s) l s.
End Terrain.
Arguments mkTp {T}. Arguments mkTi {T}. Arguments mkTs {T}.
Arguments p_clr {T}. Arguments p_rn {T}. Arguments p_rns {T}. Arguments p_vvs {T}. Arguments p_rgate {T}. Arguments p_fgate {T}. Arguments p_pnoise {T}. Arguments p_grad {T}.
Arguments p_use_rng {T}. Arguments p_use_flow {T}. Arguments p_fn {T}. Arguments p_fnq {T}. Arguments p_qmin {T}.
Arguments t_now {T}. Arguments t_air {T}. Arguments t_posd {T}. Arguments t_vel {T}. Arguments t_q {T}. Arguments t_Rte {T}. Arguments t_P99 {T}. Arguments t_dt {T}.
Arguments t_healthy {T}. Arguments t_dist {T}. Arguments t_range {T}. Arguments t_flow_ready {T}. Arguments t_comp {T}. Arguments t_fdt {T}. Arguments t_gbias {T}. Arguments t_gyro {T}. Arguments t_off {T}. Arguments t_qual {T}.
Arguments h_vpos {T}. Arguments h_var {T}. Arguments h_init {T}. Arguments h_t_hagl {T}. Arguments h_t_fake {T}. Arguments h_t_flow {T}. Arguments h_valid {T}. Arguments h_rng_bit {T}. Arguments h_flow_bit {T}. Arguments h_reject {T}.
Arguments setEst {T}. Arguments setHagl {T}. Arguments setFake {T}. Arguments setFlowT {T}. Arguments setReject {T}. Arguments setInit {T}. Arguments setValid {T}.
Arguments initHagl {T SC}. Arguments predictVar {T SC}. Arguments obsVar {T SC}. Arguments haglInnov {T SC}. Arguments haglVar {T SC}. Arguments haglRatio {T SC}. Arguments fuseHagl {T SC}.
Arguments invRot {T SC}. Arguments mv {T SC}. Arguments cross {T SC}. Arguments flowMeasVar {T SC}. Arguments flowRate {T SC}. Arguments velBody {T SC}. Arguments flowH {T SC}. Arguments flowS {T SC}.
Arguments flowInnov {T SC}. Arguments flowRatio {T SC}. Arguments flowAxis {T SC}. Arguments fuseFlow {T SC}. Arguments limitClr {T SC}. Arguments updateValidity {T}. Arguments use_rng_now {T}. Arguments use_flow_now {T}.
Arguments runTerrain {T SC}. Arguments runAll {T SC}.

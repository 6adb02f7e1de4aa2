(** * Status words, test ratios, accuracies and control limits reported by the filter *)
From Coq Require Import ZArith Bool List.
From Verif Require Import CBase F32 Scalar.
Import ListNotations.
Open Scope Z_scope.

(** ** Fault status word: common.h l.389-412.
    union of 18 one-bit flags (bits 0-17, allocated from the least significant bit) and a
    uint16_t that overlays bits 0-15 *)
Definition fault_value (w : Z) : Z := Z.land w 65535.
(** _fault_status.value = 0, ekf.cpp l.89 (reset), estimator_interface.cpp l.529 *)
Definition fault_reset (w : Z) : Z := Z.land w (Z.lnot 65535).
(** _fault_status.flags.<k> = b *)
Definition wbit (k : Z) (b : bool) (w : Z) : Z := if b then Z.setbit w k else Z.clearbit w k.

(** the control flags read here; filter_control_status_u, common.h l.453-484 *)
Record sflags := mkSf { s_tilt : bool; s_yaw : bool; s_gps : bool; s_flow : bool; s_baro_hgt : bool; s_rng_hgt : bool; s_gps_hgt : bool;
  s_ev_pos : bool; s_ev_hgt : bool; s_beta : bool; s_aspd : bool; s_ev_vel : bool }.
(** estimator_interface.cpp l.534-559 *)
Definition n_sources (c : sflags) : Z :=
  Z.b2z (s_gps c) + Z.b2z (s_flow c) + Z.b2z (s_ev_pos c) + Z.b2z (s_ev_vel c) + Z.b2z (s_aspd c && s_beta c).
Definition other_source (c : sflags) (flag : bool) : bool := if flag then 1 <? n_sources c else 0 <? n_sources c.
Definition only_source (c : sflags) (flag : bool) : bool := flag && negb (other_source c flag).
Definition aiding_active (c : sflags) : bool := 0 <? n_sources c.

(** Vector3f::max of PX4-Matrix: starts from element 0, replaced when greater *)
Definition vmax3 (a b c : f32) : f32 :=
  let m := a in let m := if fgt a m then a else m in let m := if fgt b m then b else m in if fgt c m then c else m.

(** get_ekf_soln_status, ekf_helper.cpp l.957-981; ekf_solution_status, common.h l.487-503.
    [junk] is the initial content of the automatic variable soln_status, which has no
    initialiser; fault is the fault flag word *)
Definition soln_status (c : sflags) (fault : Z) (hagl_valid : bool) (gv0 gv1 gp0 m0 m1 m2 y : f32) (junk : Z) : Z :=
  let nofault := fault_value fault =? 0 in
  let att := s_tilt c && s_yaw c && nofault in
  let vh := (aiding_active c || (s_beta c && s_aspd c)) && nofault in
  let vv := (s_baro_hgt c || s_ev_hgt c || s_gps_hgt c || s_rng_hgt c) && nofault in
  let pr := (s_gps c || s_ev_pos c || s_flow c) && nofault in
  let pa := (s_gps c || s_ev_pos c) && nofault in
  let vel_bad := fgt gv0 f1 || fgt gv1 f1 in
  let pos_bad := fgt gp0 f1 in
  let mag_good := flt (vmax3 m0 m1 m2) f1 && flt y f1 in
  wbit 11 (Z.testbit fault 16) (wbit 10 ((vel_bad || pos_bad) && mag_good) (wbit 9 pa (wbit 8 pr (wbit 7 (negb vh)
    (wbit 6 hagl_valid (wbit 5 vv (wbit 4 pa (wbit 3 pr (wbit 2 vv (wbit 1 vh (wbit 0 att junk))))))))))).

(** ** Innovation check word: innovation_fault_status_u, common.h l.415-433 *)
(** value |= 1 << k / value &= ~(1 << k), k given as index + offset *)
Definition or_bit (k : Z) (w : Z) : Z := Z.lor w (Z.shiftl 1 k).
Definition clr_bit (k : Z) (w : Z) : Z := Z.land w (Z.lnot (Z.shiftl 1 k)).
(** mag_fusion.cpp l.171-184: loop body for one index *)
Definition mag_step (index : Z) (ratio : f32) (w : Z) : Z := if fgt ratio f1 then or_bit (index + 3) w else clr_bit (index + 3) w.
(** optflow_fusion.cpp l.245-254 *)
Definition flow_step (index : Z) (ratio : f32) (w : Z) : Z := if fgt ratio f1 then or_bit (index + 10) w else clr_bit (index + 10) w.

(** one consistency check, with the test ratio(s) it computed *)
Inductive chk :=
| HorVel (r : f32) | VerVel (r : f32) | HorPos (r : f32) | VerPos (r : f32)
| Mag (r0 r1 r2 : f32) | Yaw (r : f32) | Airspeed (r : f32) | Sideslip (r : f32)
| Hagl (r : f32) (timed_out : bool) | Flow (r0 r1 : f32).
(** vel_pos_fusion.cpp l.61-71, 99-106, 134-142, 170-176; mag_fusion.cpp l.171-184, 644-661; gps_yaw_fusion.cpp
    l.151-168; airspeed_fusion.cpp l.147-153; sideslip_fusion.cpp l.165-171; terrain_estimator.cpp l.156-176;
    optflow_fusion.cpp l.245-254 *)
Definition chk_step (c : chk) (w : Z) : Z :=
  match c with
  | HorVel r => wbit 0 (negb (fle r f1)) w
  | VerVel r => wbit 1 (negb (fle r f1)) w
  | HorPos r => wbit 2 (negb (fle r f1)) w
  | VerPos r => wbit 3 (negb (fle r f1)) w
  | Mag r0 r1 r2 => mag_step 2 r2 (mag_step 1 r1 (mag_step 0 r0 w))
  | Yaw r => wbit 7 (fgt r f1) w
  | Airspeed r => wbit 8 (fgt r f1) w
  | Sideslip r => wbit 9 (fgt r f1) w
  | Hagl r tout => if fle r f1 then wbit 10 false w else if tout then w else wbit 10 true w
  | Flow r0 r1 => flow_step 1 r1 (flow_step 0 r0 w)
  end.
(** the measurement is within its gates: it is fused (on the ground, yaw is fused with a
    limited innovation even outside its gate: not part of this predicate) *)
Definition within_gate (c : chk) : bool :=
  match c with
  | HorVel r | VerVel r | HorPos r | VerPos r | Hagl r _ => fle r f1
  | Mag r0 r1 r2 => negb (fgt r0 f1 || fgt r1 f1 || fgt r2 f1)
  | Yaw r | Airspeed r | Sideslip r => negb (fgt r f1)
  | Flow r0 r1 => negb (fgt r0 f1 || fgt r1 f1)
  end.
Definition chk_run (l : list chk) (w : Z) : Z := fold_left (fun w c => chk_step c w) l w.

(** ** Reported test ratios: get_innovation_test_status, ekf_helper.cpp l.925-955 *)
Definition rep_mag (y m0 m1 m2 : f32) : f32 := fsqrt (math_max y (vmax3 m0 m1 m2)).
Definition rep_vel (g0 g1 e0 e1 : f32) : f32 := math_max (fsqrt (math_max g0 g1)) (fsqrt (math_max e0 e1)).
Definition rep_pos (g e : f32) : f32 := math_max (fsqrt g) (fsqrt e).
(** old: what the caller's variable held before (it is not assigned without a height source) *)
Definition rep_hgt (c : sflags) (b g r e old : f32) : f32 :=
  if s_baro_hgt c then fsqrt b else if s_gps_hgt c then fsqrt g else if s_rng_hgt c then fsqrt r else if s_ev_hgt c then fsqrt e else old.
Definition rep_one (r : f32) : f32 := fsqrt r.

(** ** Control limits: get_ekf_ctrl_limits, ekf_helper.cpp l.833-875.
    Range sensor limits rmin, rmax; flow sensor limits fmin, fmax, rate; terrain and vehicle
    down position.  Result: (vxy_max, vz_max, hagl_min, hagl_max) *)
Definition ctrl_limits (c : sflags) (range_aid : bool) (rmin rmax fmin fmax rate terrain pos_d : f32) : f32 * f32 * f32 * f32 :=
  let rng_max := fmul (flit 75 100) rmax in
  let flow_v := c_fmaxf (fmul (fmul (flit 1 2) rate) (fsub terrain pos_d)) f0 in
  let on_rng := s_rng_hgt c && negb range_aid in
  let on_flow := only_source c (s_flow c) in
  let r := (fnan, fnan, fnan, fnan) in
  let r := if on_rng then (fnan, fnan, rmin, rng_max) else r in
  if on_flow then (flow_v, fnan, c_fmaxf rmin fmin, c_fminf rng_max fmax) else r.

(** ** Reported accuracies, ekf_helper.cpp l.754-824 (generic scalar) *)
Section Acc.
Context {T : Type} {SC : Scalar T}.
Open Scope scal_scope.
Definition smaxm (a b : T) : T := if slt b a then a else b.
Definition inn2 (a b : T) : T := ssqrt (sq a + sq b).
(** get_ekf_gpos_accuracy, l.754-773 *)
Definition gpos_accuracy (c : sflags) (dead_reck : bool) (P77 P88 P99 o_eph o_epv g0 g1 e0 e1 : T) : T * T :=
  let h := ssqrt (P77 + P88 + sq o_eph) in
  let h := if dead_reck && s_gps c then smaxm h (inn2 g0 g1) else if dead_reck && s_ev_pos c then smaxm h (inn2 e0 e1) else h in
  (h, ssqrt (P99 + sq o_epv)).
(** get_ekf_lpos_accuracy, l.776-790 *)
Definition lpos_accuracy (c : sflags) (too_long : bool) (P77 P88 P99 g0 g1 : T) : T * T :=
  let h := ssqrt (P77 + P88) in
  let h := if too_long && s_gps c then smaxm h (inn2 g0 g1) else h in
  (h, ssqrt P99).
(** get_ekf_vel_accuracy, l.793-824; f0 f1: flow innovations; v0 v1: vision velocity innovations;
    Vector2f::norm: sqrt of 0 + f0*f0 + f1*f1 *)
Definition vel_accuracy (c : sflags) (too_long : bool) (P44 P55 P66 clearance terrain pos_d f0 f1 g0 g1 e0 e1 v0 v1 : T) : T * T :=
  let h := ssqrt (P44 + P55) in
  let h := if too_long then
      let con := szero in
      let con := if s_flow c then smaxm (terrain - pos_d) (smaxm clearance (slit 1 10)) * ssqrt (szero + f0 * f0 + f1 * f1) else con in
      let con := if s_gps c then smaxm con (inn2 g0 g1) else if s_ev_pos c then smaxm con (inn2 e0 e1) else con in
      let con := if s_ev_vel c then smaxm con (inn2 v0 v1) else con in
      smaxm h con
    else h in
  (h, ssqrt P66).
End Acc.

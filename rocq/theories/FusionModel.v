(** * The scalar measurement fusions of the EKF

    EKF/mag_fusion.cpp, gps_yaw_fusion.cpp, airspeed_fusion.cpp,
    sideslip_fusion.cpp, drag_fusion.cpp, optflow_fusion.cpp.  The innovation
    variances, Jacobians and gains are those of FusionGen.v (generated from the
    C++ text); this file has the surrounding control flow: observation noise,
    conditioning checks, innovations, gates and the call of measurementUpdate
    (CovModel.v).  Parametric in the scalar; cosf, sinf, atan2f, wrap_pi and the
    covariance resets called on a badly conditioned variance are parameters. *)
From Verif Require Import CBase Scalar CovPredGen CovModel FusionGen.
Open Scope nat_scope.

(** the part of the Ekf object touched by the fusions.  Indices of
    observations: 0 1 2 magnetometer X Y Z, 3 heading (magnetometer, vision or
    GPS yaw), 4 airspeed, 5 sideslip, 6 7 drag X Y, 8 9 optical flow X Y,
    10 declination *)
Record fus (T : Type) := mkFus {
  (** states, covariance *)
  fc : covctx T; fs : covst T;
  (** _mag_innov, _heading_innov, _airspeed_innov, _beta_innov, _drag_innov, _flow_innov *)
  fi : nat -> T;
  (** the corresponding innovation variances and test ratios (_optflow_test_ratio: 8) *)
  fv : nat -> T; fr : nat -> T;
  (** _fault_status: bad_mag_x/y/z, bad_hdg, bad_airspeed, bad_sideslip, bad_optflow_X/Y, bad_mag_decl *)
  fbad : nat -> bool;
  (** _innov_check_fail_status: reject_mag_x/y/z, reject_yaw, reject_airspeed,
      reject_sideslip, reject_optflow_X/Y *)
  frej : nat -> bool;
  (** _time_last_gps_yaw_fuse (3), _time_last_arsp_fuse (4), _time_last_beta_fuse (5), _time_last_of_fuse (8) *)
  ftime : nat -> Z;
  (** _control_status.flags.fuse_aspd *)
  faspd : bool }.
Arguments mkFus {T}. Arguments fc {T}. Arguments fs {T}. Arguments fi {T}. Arguments fv {T}. Arguments fr {T}.
Arguments fbad {T}. Arguments frej {T}. Arguments ftime {T}. Arguments faspd {T}.

Section Fus.
Context {T : Type} {S : Scalar T}.
Open Scope scal_scope.

Definition put {A} (k : nat) (v : A) (f : nat -> A) : nat -> A := fun i => if i =? k then v else f i.
Definition setInnov k v (f : fus T) : fus T := mkFus (fc f) (fs f) (put k v (fi f)) (fv f) (fr f) (fbad f) (frej f) (ftime f) (faspd f).
Definition setVar k v (f : fus T) : fus T := mkFus (fc f) (fs f) (fi f) (put k v (fv f)) (fr f) (fbad f) (frej f) (ftime f) (faspd f).
Definition setRatio k v (f : fus T) : fus T := mkFus (fc f) (fs f) (fi f) (fv f) (put k v (fr f)) (fbad f) (frej f) (ftime f) (faspd f).
Definition setBad k v (f : fus T) : fus T := mkFus (fc f) (fs f) (fi f) (fv f) (fr f) (put k v (fbad f)) (frej f) (ftime f) (faspd f).
Definition setRej k v (f : fus T) : fus T := mkFus (fc f) (fs f) (fi f) (fv f) (fr f) (fbad f) (put k v (frej f)) (ftime f) (faspd f).
Definition setTime k v (f : fus T) : fus T := mkFus (fc f) (fs f) (fi f) (fv f) (fr f) (fbad f) (frej f) (put k v (ftime f)) (faspd f).
Definition setAspd v (f : fus T) : fus T := mkFus (fc f) (fs f) (fi f) (fv f) (fr f) (fbad f) (frej f) (ftime f) v.
Definition setCS c s (f : fus T) : fus T := mkFus c s (fi f) (fv f) (fr f) (fbad f) (frej f) (ftime f) (faspd f).
(** covariance and state replaced *)
Definition setM (M : Mat T) (f : fus T) : fus T := setCS (fc f) (setP M (fs f)) f.
Definition setX (x : Vec T) (f : fus T) : fus T := setCS (setState x (fc f)) (fs f) f.
(** state and covariance *)
Definition fx (f : fus T) : Vec T := x_st (fc f).
Definition fP (f : fus T) : Mat T := cP (fs f).
(** measurementUpdate, ekf.h l.721-747: new object and whether it was applied *)
Definition mupd (K : Vec T) (H : list (nat * T)) (innov : T) (f : fus T) : fus T * bool :=
  let '(c, s, ok) := measurementUpdate K H innov (fc f) (fs f) in (setCS c s f, ok).
(** math::max(a, b) of mathlib.h l.60-63: a > b ? a : b *)
Definition smaxi (a b : T) : T := if slt b a then a else b.
(** sq(innov) / (sq(gate) * var) *)
Definition ratio (innov gate var : T) : T := sq innov / (sq gate * var).

(** quatToInverseRotMat, utils.cpp l.35-60, row-major *)
Definition invRot (x : Vec T) (i j : nat) : T :=
  let q00 := sq (x 0) in let q11 := sq (x 1) in let q22 := sq (x 2) in let q33 := sq (x 3) in
  let q01 := x 0 * x 1 in let q02 := x 0 * x 2 in let q03 := x 0 * x 3 in
  let q12 := x 1 * x 2 in let q13 := x 1 * x 3 in let q23 := x 2 * x 3 in
  match i, j with
  | 0, 0 => q00 + q11 - q22 - q33 | 0, 1 => slit 2 1 * (q12 + q03) | 0, _ => slit 2 1 * (q13 - q02)
  | 1, 0 => slit 2 1 * (q12 - q03) | 1, 1 => q00 - q11 + q22 - q33 | 1, _ => slit 2 1 * (q23 + q01)
  | _, 0 => slit 2 1 * (q13 + q02) | _, 1 => slit 2 1 * (q23 - q01) | _, _ => q00 - q11 - q22 + q33
  end.
(** matrix-vector product of PX4-Matrix (sums start at 0) *)
Definition mvec (M : Mat T) (v : Vec T) (i : nat) : T := szero + M i 0 * v 0 + M i 1 * v 1 + M i 2 * v 2.
(** velocity relative to the air, rotated into the body frame: sideslip_fusion.cpp
    l.66-69, drag_fusion.cpp l.75-80 *)
Definition relWindBody (x : Vec T) : Vec T :=
  mvec (invRot x) (fun k => match k with 0 => x 4 - x 22 | 1 => x 5 - x 23 | _ => x 6 end).

(** ** Airspeed *)
(** R_TAS, airspeed_fusion.cpp l.57-58 *)
Definition tasVar (eas_noise eas2tas : T) : T :=
  sq (sconstrain eas_noise (slit 1 2) (slit 5 1) * sconstrain eas2tas (slit 9 10) (slit 10 1)).
(** fuseAirspeed, l.48-163.  full: _is_wind_dead_reckoning; resetWind: what
    resetWindStates and resetWindCovariance do; resetAll: initialiseCovariance;
    tas, eas2tas: the delayed sample *)
Definition fuseAirspeed (resetWind : fus T -> fus T) (resetAll : Vec T -> Mat T -> Mat T)
    (full : bool) (eas_noise gate tas eas2tas : T) (f : fus T) : fus T :=
  let rn := tasVar eas_noise eas2tas in
  let pred := as_v_tas_pred (fx f) in
  if slt pred (slit 1 1) then f else
  let var := as_S (fx f) (fP f) rn in
  let f1 := setVar 4 var f in
  if slt var rn then
    setBad 4 true
      (if full then
         let g := setM (resetAll (fx f) (fP f)) f1 in
         setX (fun i => if inb 22 2 i then szero else fx g i) g
       else resetWind f1)
  else
  let f2 := setBad 4 false f1 in
  let innov := pred - tas in
  let rt := ratio innov (sfmax gate (slit 1 1)) var in
  let f3 := setRatio 4 rt (setInnov 4 innov f2) in
  if slt (slit 1 1) rt then setRej 4 true f3 else
  let f4 := setRej 4 false f3 in
  let '(f5, ok) := mupd (as_K (fx f) (fP f) rn full) (as_H (fx f)) innov f4 in
  let f6 := setBad 4 (negb ok) f5 in
  if ok then setAspd true (setTime 4 (x_time_last_imu (fc f)) f6) else f6.

(** get_true_airspeed, l.165-169 *)
Definition getTrueAirspeed (x : Vec T) : T := ssqrt (sq (x 4 - x 22) + sq (x 5 - x 23) + sq (x 6)).

(** ** Sideslip *)
(** fuseSideslip, sideslip_fusion.cpp l.48-217 *)
Definition fuseSideslip (resetWind : fus T -> fus T) (resetAll : Vec T -> Mat T -> Mat T)
    (full : bool) (beta_noise gate : T) (f : fus T) : fus T :=
  let rel := relWindBody (fx f) in
  if slt (slit 7 1) (norm3 rel) then
    let rn := sq beta_noise in
    let var := ss_S (fx f) (fP f) rn in
    let f1 := setVar 5 var f in
    if slt var rn then
      let f2 := setBad 5 true f1 in
      if full then
        let g := setM (resetAll (fx f) (fP f)) f2 in
        setX (fun i => if inb 22 2 i then szero else fx g i) g
      else resetWind f2
    else
    let f2 := setBad 5 false f1 in
    let innov := rel 1 / rel 0 in
    let rt := ratio innov (sfmax gate (slit 1 1)) var in
    let f3 := setRatio 5 rt (setInnov 5 innov f2) in
    if slt (slit 1 1) rt then setRej 5 true f3 else
    let f4 := setRej 5 false f3 in
    let '(f5, ok) := mupd (ss_K (fx f) (fP f) rn full) (ss_H (fx f)) innov f4 in
    let f6 := setBad 5 (negb ok) f5 in
    if ok then setTime 5 (x_time_last_imu (fc f)) f6 else f6
  else f.

(** ** Drag *)
(** per-axis part, drag_fusion.cpp l.83-91: bias-corrected specific force and Kacc *)
Definition dragMeas (acc bias dt : T) : T := acc - bias / dt.
Definition dragK (rho binv mea : T) : T :=
  let airSpd := ssqrt ((slit 2 1 * sabs mea) / (binv * rho)) in
  sfmax (slit 1 10) (rho * binv * airSpd).
(** l.259-262 *)
Definition dragPred (binv rho v : T) : T :=
  let sign := if sle szero v then slit 1 1 else - slit 1 1 in
  - slit 1 2 * binv * rho * sq v * sign.
(** one pass of the loop l.83-270; ax: 0 or 1; rel: rel_wind_body, computed
    before the loop.  Result: new object, and whether the function returned *)
Definition dragAxis (ax : nat) (rn rho binv acc : T) (rel : Vec T) (f : fus T) : fus T * bool :=
  let x := fx f in let P := fP f in
  let mea := dragMeas acc (x (13 + ax)%nat) (x_dt_ekf_avg (fc f)) in
  let ka := dragK rho binv mea in
  let var := if ax =? 0 then dx_S x P rn ka else dy_S x P rn ka in
  let f1 := setVar (6 + ax) var f in
  if slt var rn then (f1, true) else
  let H := if ax =? 0 then dx_H x ka else dy_H x ka in
  let K := if ax =? 0 then dx_K x P rn ka else dy_K x P rn ka in
  let innov := dragPred binv rho (rel ax) - mea in
  let rt := sq innov / (slit 25 1 * var) in
  let f2 := setRatio (6 + ax) rt (setInnov (6 + ax) innov f1) in
  if sle rt (slit 1 1) then (fst (mupd K H innov f2), false) else (f2, false).
(** fuseDrag, l.47-272 *)
Definition fuseDrag (drag_noise air_density bcoef_x bcoef_y acc_x acc_y : T) (f : fus T) : fus T :=
  let rn := sfmax drag_noise (slit 1 2) in
  let rho := sfmax air_density (slit 1 10) in
  if slt bcoef_x (slit 1 1) || slt bcoef_y (slit 1 1) then f else
  let rel := relWindBody (fx f) in
  let '(f1, stop) := dragAxis 0 rn rho (slit 1 1 / bcoef_x) acc_x rel f in
  if stop then f1 else fst (dragAxis 1 rn rho (slit 1 1 / bcoef_y) acc_y rel f1).

(** ** Optical flow *)
(** calcOptFlowMeasVar, optflow_fusion.cpp l.372-396; qual, qual_min: uint8 / int as floats *)
Definition flowVar (noise noise_min qual qual_min : T) : T :=
  let best := sfmax noise (slit 5 100) in
  let worst := sfmax noise_min (slit 5 100) in
  let w := slit 255 1 - qual_min in
  let w' := if sle (slit 1 1) w then sconstrain ((qual - qual_min) / w) szero (slit 1 1) else szero in
  sq (best * w' + worst * (slit 1 1 - w')).
(** l.76-99: range of the sensor; Rz: row 2 of _R_to_earth *)
Definition flowRange (gnd terrain : T) (Rz off : Vec T) (x : Vec T) : T :=
  let h := terrain - x 9 - dot3 Rz off in
  smaxi h (sfmax gnd (slit 1 10)) / invRot x 2 2.
(** l.79-88: velocity of the sensor in body axes; Re: _R_to_earth; gyro, dt: flow sample *)
Definition flowVel (Re : Mat T) (gyro off : Vec T) (dt : T) (x : Vec T) : Vec T :=
  let w := fun k => (- gyro k) / dt in
  let vr := fun k => match k with
    | 0 => w 1 * off 2 - w 2 * off 1 | 1 => w 2 * off 0 - w 0 * off 2 | _ => w 0 * off 1 - w 1 * off 0 end in
  mvec (invRot x) (fun k => x (4 + k)%nat + mvec Re vr k).
(** one fused flow axis (8 or 9), l.313-329 *)
Definition flowAxis (ax : nat) (K : Vec T) (H : list (nat * T)) (innov : T) (f : fus T) : fus T :=
  let '(f1, ok) := mupd K H innov f in
  let f2 := setBad ax (negb ok) f1 in
  if ok then setTime 8 (x_time_last_imu (fc f)) f2 else f2.
(** fuseOptFlow l.108-114, 170-330: what follows the computation of the
    innovations i0 i1; v0 v1, H0 H1, K0 K1: variances, Jacobians, gains (the gain
    of the second axis reads the covariance again after the first update) *)
Definition flowApply (resetAll : Vec T -> Mat T -> Mat T) (rn gate i0 i1 v0 v1 : T) (K0 : Vec T) (H0 : list (nat * T))
    (K1 : Mat T -> Vec T) (H1 : list (nat * T)) (f : fus T) : fus T :=
  let f1 := setInnov 9 i1 (setInnov 8 i0 f) in
  let f2 := setVar 8 v0 f1 in
  if slt v0 rn then setM (resetAll (fx f) (fP f)) f2 else
  let f3 := setVar 9 v1 f2 in
  if slt v1 rn then setM (resetAll (fx f) (fP f)) f3 else
  let g := smaxi gate (slit 1 1) in
  let r0 := ratio i0 g v0 in let r1 := ratio i1 g v1 in
  let f4 := setRej 9 (slt (slit 1 1) r1) (setRej 8 (slt (slit 1 1) r0) (setRatio 8 (smaxi r0 r1) f3)) in
  if slt (slit 1 1) r0 || slt (slit 1 1) r1 then f4 else
  let f5 := flowAxis 8 K0 H0 i0 f4 in
  flowAxis 9 (K1 (fP f5)) H1 i1 f5.
(** fuseOptFlow, l.50-330.  comp: _flow_compensated_XY_rad, bias: _flow_gyro_bias *)
Definition fuseOptFlow (resetAll : Vec T -> Mat T -> Mat T)
    (rn gate gnd terrain dt : T) (Re : Mat T) (gyro off comp bias : Vec T) (f : fus T) : fus T :=
  let x := fx f in let P := fP f in
  let rg := flowRange gnd terrain (Re 2) off x in
  let vb := flowVel Re gyro off dt x in
  let rate := fun k => comp k / dt + bias k in
  flowApply resetAll rn gate (vb 1 / rg - rate 0) ((- vb 0) / rg - rate 1) (ox_S x P rn rg) (oy_S x P rn rg)
    (ox_K x P rn rg) (ox_H x rg) (fun M => oy_K x P M rn rg) (oy_H x rg) f.

(** calcOptFlowBodyRateComp, l.333-369: SenseModel.v, bodyRateComp *)

(** ** Magnetometer *)
Section Trig.
Variables (tcos tsin : T -> T) (tatan2 : T -> T -> T) (twrap : T -> T).

(** getMagDeclination, ekf_helper.cpp l.528-548; geo: the table value is used
    (MASK_USE_GEO_DECL and an origin or a finite value); decl_gps, decl_param in rad *)
Definition getMagDeclination (in_flight geo : bool) (decl_gps decl_param : T) (x : Vec T) : T :=
  if in_flight then tatan2 (x 17) (x 16) else if geo then decl_gps else decl_param.
(** limitDeclination, mag_fusion.cpp l.896-948: h_field_min *)
Definition hFieldMin (geo : bool) (strength incl : T) : T :=
  if geo then sfmax (slit 1 1000) (slit 1 2 * strength * tcos incl) else slit 1 1000.
(** l.917-934: horizontal field (N, E) and its length after the circular limit *)
Definition limitField (hmin decl n e : T) : T * T * T :=
  let h := ssqrt (n * n + e * e) in
  if slt h hmin then
    if slt (slit 1 1000 * hmin) h then (n * (hmin / h), e * (hmin / h), hmin)
    else (slit 2 1 * hmin * tcos decl, slit 2 1 * hmin * tsin decl, hmin)
  else (n, e, h).
(** l.936-948 *)
Definition limitAngle (ref : T) (neh : T * T * T) : T * T :=
  let '(n, e, h) := neh in
  let dmax := ref + slit 1 2 in let dmin := ref - slit 1 2 in
  let est := tatan2 e n in
  if slt dmax est then (h * tcos dmax, h * tsin dmax)
  else if slt est dmin then (h * tcos dmin, h * tsin dmin)
  else (n, e).
Record declin := mkDecl { d_in_flight : bool; d_geo : bool; d_gps : T; d_param : T; d_strength : T; d_incl : T }.
Definition limitDeclination (d : declin) (x : Vec T) : Vec T :=
  let ref := if d_geo d then d_gps d else d_param d in
  let hmin := hFieldMin (d_geo d) (d_strength d) (d_incl d) in
  let decl := getMagDeclination (d_in_flight d) (d_geo d) (d_gps d) (d_param d) x in
  let '(n, e) := limitAngle ref (limitField hmin decl (x 16) (x 17)) in
  fun i => if i =? 16 then n else if i =? 17 then e else x i.

(** one fused axis, l.402-419 *)
Definition magAxis (d : declin) (ax : nat) (K : Vec T) (H : list (nat * T)) (innov : T) (f : fus T) : fus T :=
  let '(f1, ok) := mupd K H innov f in
  let f2 := setBad ax (negb ok) f1 in
  if ok then setX (limitDeclination d (fx f2)) f2 else f2.
(** l.137-163: the three innovations *)
Definition magInnov (synth : bool) (meas x : Vec T) (k : nat) : T :=
  if synth && (k =? 2) then szero else mvec (invRot x) (fun j => x (16 + j)%nat) k + x (19 + k)%nat - meas k.
(** l.165-417: the three axes in turn once all innovations passed; the variances
    of the second and third are recomputed and checked again *)
Definition magAxes (resetMag : Vec T -> Mat T -> Mat T) (d : declin) (all synth : bool) (rn : T) (inn : Vec T) (f : fus T) : fus T :=
  let f1 := magAxis d 0 (mx_K (fx f) (fP f) rn all) (mx_H (fx f)) (inn 0) f in
  let w1 := my_S (fx f1) (fP f1) rn in
  let f2 := setVar 1 w1 f1 in
  if slt w1 rn then setM (resetMag (fx f2) (fP f2)) (setBad 1 true f2) else
  let f3 := magAxis d 1 (my_K (fx f1) (fP f1) rn all) (my_H (fx f1)) (inn 1) f2 in
  if synth then f3 else
  let w2 := mz_S (fx f3) (fP f3) rn in
  let f4 := setVar 2 w2 f3 in
  if slt w2 rn then setM (resetMag (fx f4) (fP f4)) (setBad 2 true f4) else
  magAxis d 2 (mz_K (fx f3) (fP f3) rn all) (mz_H (fx f3)) (inn 2) f4.
(** fuseMag, l.48-417.  resetMag: resetMagRelatedCovariances; all: more than 5 s
    since the in-flight alignment *)
Definition fuseMag (resetMag : Vec T -> Mat T -> Mat T) (d : declin) (all synth : bool) (mag_noise gate : T) (meas : Vec T)
    (f : fus T) : fus T :=
  let x := fx f in let P := fP f in
  let rn := sq (sfmax mag_noise szero) in
  let v0 := mx_S x P rn in
  let f1 := setVar 0 v0 f in
  if slt v0 rn then setM (resetMag x P) (setBad 0 true f1) else
  let f2 := setBad 0 false f1 in
  let v1 := iv_S1 x P rn in let v2 := iv_S2 x P rn in
  let f3 := setVar 2 v2 (setVar 1 v1 f2) in
  if slt v1 rn then setM (resetMag x P) (setBad 1 true f3) else
  let f4 := setBad 1 false f3 in
  if slt v2 rn then setM (resetMag x P) (setBad 2 true f4) else
  let f5 := setBad 2 false f4 in
  let inn := magInnov synth meas x in
  let g := smaxi gate (slit 1 1) in
  let vv := fun k => match k with 0 => v0 | 1 => v1 | _ => v2 end in
  let rt := fun k => ratio (inn k) g (vv k) in
  let rj := fun k => slt (slit 1 1) (rt k) in
  let f6 := setInnov 2 (inn 2) (setInnov 1 (inn 1) (setInnov 0 (inn 0) f5)) in
  let f7 := setRej 2 (rj 2) (setRej 1 (rj 1) (setRej 0 (rj 0)
             (setRatio 3 szero (setRatio 2 (rt 2) (setRatio 1 (rt 1) (setRatio 0 (rt 0) f6)))))) in
  if rj 0 || rj 1 || rj 2 then f7 else
  magAxes resetMag d all synth rn inn f7.

(** field predicted from the magnetic table, control.cpp l.105: Dcmf(Eulerf(0, -inclination, declination)) * (strength, 0, 0);
    only the first column of the matrix matters *)
Definition tableField (strength incl decl : T) : Vec T := fun k =>
  (match k with 0 => tcos (- incl) * tcos decl | 1 => tcos (- incl) * tsin decl | _ => - tsin (- incl) end) * strength.
(** calculate_synthetic_mag_z_measurement, l.948-960; col2: column 2 of _R_to_earth *)
Definition syntheticMagZ (meas pred col2 : Vec T) : T :=
  let a := ssqrt (smaxi (sq (norm3 pred) - sq (meas 0) - sq (meas 1)) szero) in
  if slt (dot3 pred col2) szero then - a else a.

(** ** Declination: fuseDeclination, l.830-894 *)
Definition fuseDeclination (d : declin) (sigma : T) (f : fus T) : fus T :=
  let x := fx f in let P := fP f in
  let rn := sq sigma in
  if slt (sabs (x 16)) (sq (slit 1 1000)) then f else
  let var := de_S x P rn in
  if slt rn var then
    let innov := sconstrain (tatan2 (x 17) (x 16) - getMagDeclination (d_in_flight d) (d_geo d) (d_gps d) (d_param d) x)
                   (- slit 1 2) (slit 1 2) in
    let '(f1, ok) := mupd (de_K x P rn) (de_H x) innov f in
    let f2 := setBad 10 (negb ok) f1 in
    if ok then setX (limitDeclination d (fx f2)) f2 else f2
  else f.

(** ** GPS yaw: fuseGpsYaw, gps_yaw_fusion.cpp l.48-196.  Re: _R_to_earth; yaw:
    _gps_sample_delayed.yaw, off: _gps_yaw_offset; cos30 = cosf(radians(30)) *)
Definition antEf (Re : Mat T) (off : T) : Vec T :=
  mvec Re (fun k => match k with 0 => tcos off | 1 => tsin off | _ => szero end).
Definition fuseGpsYaw (resetAll : Vec T -> Mat T -> Mat T) (cos30 : T) (Re : Mat T) (yaw off hdg_noise gate : T) (f : fus T) : fus T :=
  let x := fx f in let P := fP f in
  let meas := twrap (yaw + off) in
  let ant := antEf Re off in
  if slt cos30 (sabs (ant 2)) then f else
  let pred := tatan2 (ant 1) (ant 0) in
  let rn := sq (sfmax hdg_noise (slit 1 100)) in
  let so := tsin off in let co := tcos off in
  if slt (sabs (ga_HK9 x so co)) (slit 1 1000) then f else
  if slt (sabs (ga_HK17 x so co)) (slit 1 1000) then f else
  if slt (sabs (ga_HK19_inverse x so co)) (slit 1 1000000) then f else
  let var := ga_S x P rn so co in
  let f1 := setVar 3 var f in
  if slt var rn then setM (resetAll x P) (setBad 3 true f1) else
  let f2 := setBad 3 false f1 in
  let g := smaxi gate (slit 1 1) in
  let innov := twrap (pred - meas) in
  let rt := ratio innov g var in
  let f3 := setRatio 2 szero (setRatio 1 szero (setRatio 0 szero (setRatio 3 rt (setInnov 3 innov f2)))) in
  let rej := slt (slit 1 1) rt in
  let f4 := setRej 3 rej f3 in
  if rej && f_in_air (fc f) then f4 else
  let lim := ssqrt (sq g * var) in
  let innov' := if rej then sconstrain innov (- lim) lim else innov in
  let '(f5, ok) := mupd (ga_K x P rn so co) (ga_H x so co) innov' (setInnov 3 innov' f4) in
  let f6 := setBad 3 (negb ok) f5 in
  if ok then setTime 3 (x_time_last_imu (fc f)) f6 else f6.

(** ** Heading: fuseYaw321 / fuseYaw312, mag_fusion.cpp l.420-579 *)
(** l.432-455 / 513-536: the two scaled numerators and denominators; None: the
    path cannot be used *)
Definition pathOk (a b : T) : option T :=
  (* a: SA2 / SB4, b: SA3 / SB2; result SA5_inv / SB5_inv *)
  if slt (slit 1 1000000) (sq b) then
    let inv := sq a * (slit 1 1 / sq b) + slit 1 1 in
    if slt (slit 1 1000000) (sabs inv) then Some inv else None
  else None.
(** SB5_inv multiplies in the other order: SB3*sq(SB4) + 1 *)
Definition pathOkB (a b : T) : option T :=
  if slt (slit 1 1000000) (sq b) then
    let inv := (slit 1 1 / sq b) * sq a + slit 1 1 in
    if slt (slit 1 1000000) (sabs inv) then Some inv else None
  else None.
(** the choice of l.459, 471 / 540, 552: Some true = A, Some false = B *)
Definition pathChoice (a b : option T) : option (bool * T) :=
  match a, b with
  | Some ia, None => Some (true, ia)
  | Some ia, Some ib => if sle (sabs ib) (sabs ia) then Some (true, ia)
                        else if slt (sabs ia) (sabs ib) then Some (false, ib) else None
  | None, Some ib => Some (false, ib)
  | None, None => None
  end.
Definition two : T := slit 2 1.
(** l.432-482 *)
Definition H321 (x : Vec T) : option (Vec T) :=
  let q0 := x 0 in let q1 := x 1 in let q2 := x 2 in let q3 := x 3 in
  let SA0 := two * q3 in let SA1 := two * q2 in
  let SA2 := SA0 * q0 + SA1 * q1 in
  let SA3 := sq q0 + sq q1 - sq q2 - sq q3 in
  let SB0 := two * q0 in let SB1 := two * q1 in
  let SB2 := SB0 * q3 + SB1 * q2 in
  let SB4 := sq q0 + sq q1 - sq q2 - sq q3 in
  match pathChoice (pathOk SA2 SA3) (pathOkB SB4 SB2) with
  | Some (true, inv) =>
      let SA4 := slit 1 1 / sq SA3 in
      let SA5 := slit 1 1 / inv in let SA6 := slit 1 1 / SA3 in let SA7 := SA2 * SA4 in
      let SA8 := two * SA7 in let SA9 := two * SA6 in
      Some (fun k => match k with
        | 0 => SA5 * (SA0 * SA6 - SA8 * q0) | 1 => SA5 * (SA1 * SA6 - SA8 * q1)
        | 2 => SA5 * (SA1 * SA7 + SA9 * q1) | _ => SA5 * (SA0 * SA7 + SA9 * q0) end)
  | Some (false, inv) =>
      let SB3 := slit 1 1 / sq SB2 in
      let SB5 := slit 1 1 / inv in let SB6 := slit 1 1 / SB2 in let SB7 := SB3 * SB4 in
      let SB8 := two * SB7 in let SB9 := two * SB6 in
      Some (fun k => match k with
        | 0 => - SB5 * (SB0 * SB6 - SB8 * q3) | 1 => - SB5 * (SB1 * SB6 - SB8 * q2)
        | 2 => - SB5 * (- SB1 * SB7 - SB9 * q2) | _ => - SB5 * (- SB0 * SB7 - SB9 * q3) end)
  | None => None
  end.
(** l.513-563 *)
Definition H312 (x : Vec T) : option (Vec T) :=
  let q0 := x 0 in let q1 := x 1 in let q2 := x 2 in let q3 := x 3 in
  let SA0 := two * q3 in let SA1 := two * q2 in
  let SA2 := SA0 * q0 - SA1 * q1 in
  let SA3 := sq q0 - sq q1 + sq q2 - sq q3 in
  let SB0 := two * q0 in let SB1 := two * q1 in
  let SB2 := - SB0 * q3 + SB1 * q2 in
  let SB4 := - sq q0 + sq q1 - sq q2 + sq q3 in
  match pathChoice (pathOk SA2 SA3) (pathOkB SB4 SB2) with
  | Some (true, inv) =>
      let SA4 := slit 1 1 / sq SA3 in
      let SA5 := slit 1 1 / inv in let SA6 := slit 1 1 / SA3 in let SA7 := SA2 * SA4 in
      let SA8 := two * SA7 in let SA9 := two * SA6 in
      Some (fun k => match k with
        | 0 => SA5 * (SA0 * SA6 - SA8 * q0) | 1 => SA5 * (- SA1 * SA6 + SA8 * q1)
        | 2 => SA5 * (- SA1 * SA7 - SA9 * q1) | _ => SA5 * (SA0 * SA7 + SA9 * q0) end)
  | Some (false, inv) =>
      let SB3 := slit 1 1 / sq SB2 in
      let SB5 := slit 1 1 / inv in let SB6 := slit 1 1 / SB2 in let SB7 := SB3 * SB4 in
      let SB8 := two * SB7 in let SB9 := two * SB6 in
      Some (fun k => match k with
        | 0 => - SB5 * (- SB0 * SB6 + SB8 * q3) | 1 => - SB5 * (SB1 * SB6 - SB8 * q2)
        | 2 => - SB5 * (- SB1 * SB7 - SB9 * q2) | _ => - SB5 * (SB0 * SB7 + SB9 * q3) end)
  | None => None
  end.
(** updateQuaternion, l.582-697.  sum over the four quaternion columns, from 0 *)
Definition ph4 (M : Mat T) (h : Vec T) (row : nat) : T :=
  szero + M row 0 * h 0 + M row 1 * h 1 + M row 2 * h 2 + M row 3 * h 3.
Definition yawVar (M : Mat T) (h : Vec T) (variance : T) : T :=
  variance + h 0 * ph4 M h 0 + h 1 * ph4 M h 1 + h 2 * ph4 M h 2 + h 3 * ph4 M h 3.
Definition yawGain (wind : bool) (M : Mat T) (h : Vec T) (var : T) (row : nat) : T :=
  if row <=? 15 then ph4 M h row * (slit 1 1 / var)
  else if inb 22 2 row && wind then ph4 M h row * (slit 1 1 / var) else szero.
Definition yawKHP (M : Mat T) (K h : Vec T) (row column : nat) : T :=
  K row * h 0 * M 0 column + K row * h 1 * M 1 column + K row * h 2 * M 2 column + K row * h 3 * M 3 column.
(** on_ground: not in air, and the last time in air is more than 5 s ago *)
Definition updateQuaternion (resetAll : Vec T -> Mat T -> Mat T) (on_ground : bool) (innov variance gate : T) (h : Vec T) (f : fus T) : fus T :=
  let x := fx f in let P := fP f in
  let var := yawVar P h variance in
  let f1 := setVar 3 var f in
  if sle variance var then
    let f2 := setBad 3 false f1 in
    let K := yawGain (f_wind (fc f)) P h var in
    let rt := ratio innov gate var in
    let f3 := setRatio 2 szero (setRatio 1 szero (setRatio 0 szero (setRatio 3 rt f2))) in
    let rej := slt (slit 1 1) rt in
    let f4 := setRej 3 rej f3 in
    if rej && negb on_ground then f4 else
    let lim := ssqrt (sq gate * var) in
    let innov' := if rej then sconstrain innov (- lim) lim else innov in
    let f5 := setInnov 3 innov' f4 in
    let '(c, s, ok) := applyUpdate (yawKHP P K h) K innov' (fc f5) (fs f5) in
    setBad 3 (negb ok) (setCS c s f5)
  else setM (resetAll x P) (setBad 3 true f1).
(** fuseYaw321, fuseYaw312: h = H321 / H312 at the state; pred: the predicted
    yaw angle of _R_to_earth *)
Definition fuseYaw (resetAll : Vec T -> Mat T -> Mat T) (on_ground : bool) (h : option (Vec T)) (pred yaw variance gate : T) (zero_innov : bool) (f : fus T) : fus T :=
  let rn := sfmax variance (slit 1 10000) in
  let meas := twrap yaw in
  match h with
  | None => f
  | Some h =>
      let innov := if zero_innov then szero else twrap (pred - meas) in
      updateQuaternion resetAll on_ground innov rn (smaxi gate (slit 1 1)) h f
  end.

(** fuseHeading, l.699-828 (both branches have the same structure).  hdg_mag:
    -atan2f(...) + declination; hdg_ev: the yaw of the vision quaternion; pred:
    the predicted yaw; static: _last_static_yaw *)
Record hdgin := mkHdg { h_mag : bool; h_ev : bool; h_inhibit : bool; h_rest : bool;
  h_noise : T; h_ev_var : T; h_max_var : T; h_meas_mag : T; h_meas_ev : T }.
Definition hdgVar (i : hdgin) : T :=
  if h_mag i then sq (h_noise i) else if h_ev i then h_ev_var i else slit 1 100.
Definition hdgMeas (i : hdgin) (pred : T) : T :=
  if h_mag i then h_meas_mag i else if h_ev i then h_meas_ev i else pred.
(** (measurement, variance, zero innovation, new _last_static_yaw) *)
Definition hdgSelect (i : hdgin) (M : Mat T) (pred static : T) : T * T * bool * T :=
  if h_inhibit i then
    if negb (h_rest i) then
      if slt (h_max_var i) (M 0 0 + M 1 1 + M 2 2 + M 3 3)
      then (hdgMeas i pred, slit 1 4, true, pred) else (hdgMeas i pred, hdgVar i, false, pred)
    else (static, hdgVar i, false, static)
  else (hdgMeas i pred, hdgVar i, false, pred).
Definition fuseHeading (resetAll : Vec T -> Mat T -> Mat T) (use321 on_ground : bool) (i : hdgin) (pred static gate : T) (f : fus T) : fus T * T :=
  let '(meas, var, z, st) := hdgSelect i (fP f) pred static in
  (fuseYaw resetAll on_ground (if use321 then H321 (fx f) else H312 (fx f)) pred meas var gate z f, st).
End Trig.
End Fus.
Arguments declin : clear implicits. Arguments hdgin : clear implicits.

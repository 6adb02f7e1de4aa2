(** * Emergency yaw estimator, EKF/EKFGSF_yaw.{h,cpp}

    A bank of five 3-state EKFs (velocity north, east, yaw), each with its own
    AHRS, combined by Gaussian-sum weights.  Over exact reals: cosf, sinf,
    expf, sqrtf, atan2f and wrap_pi are read as the real functions; float
    rounding is not modelled here (the weight update is also given over any
    scalar, [weigh]).  Vector/matrix operations are those of PX4-Matrix. *)
From Coq Require Import Reals Lra Bool List Arith ZArith.
From Verif Require Import Scalar RealGeom RotModel GeoModel.
Import ListNotations.
Open Scope R_scope.

(** EKFGSF_yaw.h l.19-24, 59-62; CONSTANTS_ONE_G (geo.h), FLT_EPSILON *)
Definition NM : nat := 5.
Definition m_2pi_inv : R := 159154943 / 1000000000.
Definition m_pi : R := 314159265 / 100000000.
Definition m_pi2 : R := 157079632 / 100000000.
Definition gyro_noise : R := 1 / 10.
Definition accel_noise : R := 2.
Definition tilt_gain : R := 2 / 10.
Definition gyro_bias_gain : R := 4 / 100.
Definition one_g : R := 980665 / 100000.
Definition flt_eps : R := / 8388608.
Definition rsq (x : R) : R := x * x.

(** one filter of the bank: _ekf_gsf_struct l.100-106 and _ahrs_ekf_gsf_struct l.72-79 (its members vel_NE, fuse_gps,
    accel_dt are never used) *)
Record bank := mkB { b_X : V3; b_P : Mat R; b_Si : Mat R; b_Sdet : R; b_in : V3 (* third component unused *);
  b_R : M3; b_gb : V3; b_al : bool }.
(** the whole estimator *)
Record gsf := mkG { g_tilt : bool; g_accel : V3; g_bank : nat -> bank; g_w : nat -> R; g_yaw : R; g_var : R;
  g_velup : bool; g_vn : R; g_ve : R; g_acc : R; g_started : bool }.
(** arguments of update() *)
Record gin := mkGin { i_da : V3; i_dv : V3; i_dadt : R; i_dvdt : R; i_run : bool; i_tas : R; i_gb : V3 }.

Definition mzero : Mat R := fun _ _ => 0.
Definition zeroM3 : M3 := mkM 0 0 0 0 0 0 0 0 0.
Definition bank0 : bank := mkB vzero mzero mzero 0 vzero zeroM3 vzero false.
(** constructor, EKFGSF_yaw.cpp l.4-14, and member initialisers *)
Definition gsf0 : gsf := mkG false vzero (fun _ => bank0) (fun _ => 0) 0 0 false 0 0 0 false.

Definition setAhrs (R : M3) (gb : V3) (b : bank) : bank := mkB (b_X b) (b_P b) (b_Si b) (b_Sdet b) (b_in b) R gb (b_al b).
Definition setBank (f : nat -> bank) (g : gsf) : gsf := mkG (g_tilt g) (g_accel g) f (g_w g) (g_yaw g) (g_var g) (g_velup g) (g_vn g) (g_ve g) (g_acc g) (g_started g).
Definition setW (w : nat -> R) (g : gsf) : gsf := mkG (g_tilt g) (g_accel g) (g_bank g) w (g_yaw g) (g_var g) (g_velup g) (g_vn g) (g_ve g) (g_acc g) (g_started g).
Definition setStarted (v : bool) (g : gsf) : gsf := mkG (g_tilt g) (g_accel g) (g_bank g) (g_w g) (g_yaw g) (g_var g) (g_velup g) (g_vn g) (g_ve g) (g_acc g) v.

(** initialiseEKFGSF, l.374-399 *)
Definition initBank (vn ve acc : R) (k : nat) (b : bank) : bank :=
  let yaw_increment := 2 * m_pi / INR NM in
  mkB (mkV vn ve (- m_pi + (1 / 2 * yaw_increment) + (INR k * yaw_increment)))
      (mset 2 2 (rsq (1 / 2 * yaw_increment)) (mset 1 1 (rsq acc) (mset 0 0 (rsq acc) mzero)))
      mzero 0 vzero (b_R b) (b_gb b) (b_al b).
Definition initialiseEKFGSF (g : gsf) : gsf :=
  mkG (g_tilt g) (g_accel g) (fun k => initBank (g_vn g) (g_ve g) (g_acc g) k (g_bank g k)) (fun _ => 1 / INR NM)
      0 (m_pi2 * m_pi2) (g_velup g) (g_vn g) (g_ve g) (g_acc g) false.

(** ahrsAlignTilt, l.182-212 *)
Definition vunit (v : V3) : V3 := vscale (/ sqrt (vnorm2 v)) v.
Definition tiltMatrix (dv : V3) : M3 :=
  let down := vneg (vunit dv) in
  let i := mkV 1 0 0 in
  let north := vunit (vsub i (vscale (vdot i down) down)) in
  let east := cross down north in
  mkM (vx north) (vy north) (vz north) (vx east) (vy east) (vz east) (vx down) (vy down) (vz down).
Definition ahrsAlignTilt (dv : V3) (g : gsf) : gsf := setBank (fun k => setAhrs (tiltMatrix dv) (b_gb (g_bank g k)) (g_bank g k)) g.

(** ahrsAlignYaw, l.214-224 *)
Definition alignYawBank (b : bank) : bank :=
  mkB (b_X b) (b_P b) (b_Si b) (b_Sdet b) (b_in b) (updateYawInRotMat (wrap_pi (vz (b_X b))) (b_R b)) (b_gb b) true.
Definition ahrsAlignYaw (g : gsf) : gsf := setBank (fun k => alignYawBank (g_bank g k)) g.

(** ahrsCalcAccelGain, l.425-445 *)
Definition accelGain (tas norm : R) : R :=
  let att := if (if Rlt_dec flt_eps tas then true else false) && (if Rlt_dec one_g norm then true else false) then 1 else 2 in
  tilt_gain * rsq (1 - Rmin (att * Rabs ((norm - one_g) / one_g)) 1).

(** ahrsPredictRotMat, l.447-472: R + R [g x], rows rescaled by 1.5 - 0.5 |row|^2 *)
Definition row0 (m : M3) := mkV (m00 m) (m01 m) (m02 m).
Definition row1 (m : M3) := mkV (m10 m) (m11 m) (m12 m).
Definition row2 (m : M3) := mkV (m20 m) (m21 m) (m22 m).
Definition ofRows (a b c : V3) : M3 := mkM (vx a) (vy a) (vz a) (vx b) (vy b) (vz b) (vx c) (vy c) (vz c).
Definition turned (r g : V3) : V3 := mkV (vx r + (vy r * vz g - vz r * vy g)) (vy r + (vz r * vx g - vx r * vz g)) (vz r + (vx r * vy g - vy r * vx g)).
Definition renorm (r : V3) : V3 := if Rlt_dec flt_eps (vnorm2 r) then vscale (3 / 2 - 1 / 2 * vnorm2 r) r else r.
Definition predictRotMat (m : M3) (g : V3) : M3 := ofRows (renorm (turned (row0 m) g)) (renorm (turned (row1 m) g)) (renorm (turned (row2 m) g)).

(** ahrsPredict, l.141-180 *)
Definition vclamp (lim : R) (v : V3) : V3 := mkV (rconstrain (vx v) (- lim) lim) (rconstrain (vy v) (- lim) lim) (rconstrain (vz v) (- lim) lim).
Definition ahrsPredict (i : gin) (accel : V3) (norm gain : R) (b : bank) : bank :=
  let ang_rate := vsub (vscale (/ Rmax (i_dadt i) (1 / 1000)) (i_da i)) (b_gb b) in
  let gravity_direction := row2 (b_R b) in
  let tilt := if Rlt_dec 0 gain then
      let a := if Rlt_dec flt_eps (i_tas i) then vsub accel (mkV 0 (i_tas i * vz ang_rate) (- i_tas i * vy ang_rate)) else accel in
      vscale (gain / norm) (cross gravity_direction a)
    else vzero in
  let gb := if Rlt_dec (sqrt (vnorm2 ang_rate)) (175 / 1000) then vclamp (5 / 100) (vsub (b_gb b) (vscale (gyro_bias_gain * i_dadt i) tilt)) else b_gb b in
  let corrected := vadd (i_da i) (vscale (i_dadt i) (vsub tilt gb)) in
  setAhrs (predictRotMat (b_R b) corrected) gb b.

(** constrain variances, l.291-295, 337-341 *)
Definition floorVar (P : Mat R) : Mat R := mset 2 2 (Rmax (P 2%nat 2%nat) (1 / 1000000)) (mset 1 1 (Rmax (P 1%nat 1%nat) (1 / 1000000)) (mset 0 0 (Rmax (P 0%nat 0%nat) (1 / 1000000)) P)).
(** covariance prediction, l.250-289.  P00 .. P22 are references into P: every assignment sees the earlier ones *)
Definition predictP (psi dvx dvy dvxVar dvyVar dazVar : R) (P : Mat R) : Mat R :=
  let S0 := cos psi in
  let S1 := pow2 S0 in
  let S2 := sin psi in
  let S3 := pow2 S2 in
  let S4 := S0 * dvy + S2 * dvx in
  let S5 := P 0%nat 2%nat - P 2%nat 2%nat * S4 in
  let S6 := S0 * dvx - S2 * dvy in
  let S7 := S0 * S2 in
  let S8 := P 0%nat 1%nat + S7 * dvxVar - S7 * dvyVar in
  let S9 := P 1%nat 2%nat + P 2%nat 2%nat * S6 in
  let P := mset 0 0 (P 0%nat 0%nat - P 0%nat 2%nat * S4 + S1 * dvxVar + S3 * dvyVar - S4 * S5) P in
  let P := mset 0 1 (- P 1%nat 2%nat * S4 + S5 * S6 + S8) P in
  let P := mset 1 1 (P 1%nat 1%nat + P 1%nat 2%nat * S6 + S1 * dvyVar + S3 * dvxVar + S6 * S9) P in
  let P := mset 0 2 S5 P in
  let P := mset 1 2 S9 P in
  let P := mset 2 2 (P 2%nat 2%nat + dazVar) P in
  let P := mset 1 0 (P 0%nat 1%nat) P in
  let P := mset 2 0 (P 0%nat 2%nat) P in
  let P := mset 2 1 (P 1%nat 2%nat) P in P.
(** predictEKF, l.226-296 *)
Definition predictEKF (i : gin) (started : bool) (accel : V3) (norm gain : R) (b : bank) : bank :=
  let b := ahrsPredict i accel norm gain b in
  if negb started then b else
  let psi := if shouldUse321 (b_R b) then yaw321 (b_R b) else yaw312 (b_R b) in
  let dv := mapp (b_R b) (i_dv i) in
  let dvx := vx dv * cos psi + vy dv * sin psi in
  let dvy := - vx dv * sin psi + vy dv * cos psi in
  let dvxVar := rsq (accel_noise * i_dvdt i) in
  let dazVar := rsq (gyro_noise * i_dadt i) in
  mkB (mkV (vx (b_X b) + vx dv) (vy (b_X b) + vy dv) psi) (floorVar (predictP psi dvx dvy dvxVar dvxVar dazVar (b_P b)))
      (b_Si b) (b_Sdet b) (b_in b) (b_R b) (b_gb b) (b_al b).

(** updateEKF, l.299-372: covariance and gain, l.308-341; None when |det| < 1e-6 *)
Record upd := mkU { u_Si : Mat R; u_det : R; u_K : Mat R; u_P : Mat R }.
Definition updateP (velObsVar : R) (P : Mat R) : option upd :=
  let P00 := P 0%nat 0%nat in let P01 := P 0%nat 1%nat in let P02 := P 0%nat 2%nat in let P11 := P 1%nat 1%nat in let P12 := P 1%nat 2%nat in let P22 := P 2%nat 2%nat in
  let t0 := pow2 P01 in
  let t1 := - t0 in
  let t2 := P00 * P11 + P00 * velObsVar + P11 * velObsVar + t1 + pow2 velObsVar in
  if Rlt_dec (Rabs t2) (1 / 1000000) then None else
  let t3 := 1 / t2 in
  let t4 := P11 + velObsVar in
  let t5 := P01 * t3 in
  let t6 := - t5 in
  let t7 := P00 + velObsVar in
  let t8 := P00 * t4 + t1 in
  let t9 := t5 * velObsVar in
  let t10 := P11 * t7 in
  let t11 := t1 + t10 in
  let t12 := P01 * P12 in
  let t13 := P02 * t4 in
  let t14 := P01 * P02 in
  let t15 := P12 * t7 in
  let t16 := t0 * velObsVar in
  let t17 := 1 / (t2 * t2) in
  let t18 := t4 * velObsVar + t8 in
  let t19 := t17 * t18 in
  let t20 := t17 * (t16 + t7 * t8) in
  let t21 := t0 - t10 in
  let t22 := t17 * t21 in
  let t23 := t14 - t15 in
  let t24 := P01 * t23 in
  let t25 := t12 - t13 in
  let t26 := t16 - t21 * t4 in
  let t27 := t17 * t26 in
  let t28 := t11 + t7 * velObsVar in
  let t30 := t17 * t28 in
  let t31 := P01 * t25 in
  let t32 := t23 * t4 + t31 in
  let t33 := t17 * t32 in
  let t35 := t24 + t25 * t7 in
  let t36 := t17 * t35 in
  let Si := mset 0 0 (t3 * t4) (mset 0 1 t6 (mset 1 1 (t3 * t7) (mset 1 0 t6 mzero))) in
  let K := mset 0 0 (t3 * t8) (mset 1 0 t9 (mset 2 0 (t3 * (- t12 + t13)) (mset 0 1 t9 (mset 1 1 (t11 * t3) (mset 2 1 (t3 * (- t14 + t15)) mzero))))) in
  let P := mset 0 0 (P 0%nat 0%nat - t16 * t19 - t20 * t8) P in
  let P := mset 0 1 (P 0%nat 1%nat * (t18 * t22 - t20 * velObsVar + 1)) P in
  let P := mset 1 1 (P 1%nat 1%nat - t16 * t30 + t22 * t26) P in
  let P := mset 0 2 (P 0%nat 2%nat + t19 * t24 + t20 * t25) P in
  let P := mset 1 2 (P 1%nat 2%nat + t23 * t27 + t30 * t31) P in
  let P := mset 2 2 (P 2%nat 2%nat - t23 * t33 - t25 * t36) P in
  let P := mset 1 0 (P 0%nat 1%nat) P in
  let P := mset 2 0 (P 0%nat 2%nat) P in
  let P := mset 2 1 (P 1%nat 2%nat) P in
  Some (mkU Si t3 K (floorVar P)).
(** innovation^T S^-1 innovation (l.344, l.404) *)
Definition normDist (Si : Mat R) (n : V3) : R := vx n * (Si 0%nat 0%nat * vx n + Si 0%nat 1%nat * vy n) + vy n * (Si 1%nat 0%nat * vx n + Si 1%nat 1%nat * vy n).
(** yaw rotation of the AHRS matrix, l.357-369 *)
Definition rotYaw (d : R) (r : M3) : M3 :=
  mkM (m00 r * cos d - m10 r * sin d) (m01 r * cos d - m11 r * sin d) (m02 r * cos d - m12 r * sin d)
      (m00 r * sin d + m10 r * cos d) (m01 r * sin d + m11 r * cos d) (m02 r * sin d + m12 r * cos d) (m20 r) (m21 r) (m22 r).
(** the result and whether the update succeeded; a failed update has already replaced the innovations (l.305-306) *)
Definition updateEKF (vn ve acc : R) (b : bank) : bank * bool :=
  let velObsVar := rsq (Rmax acc (1 / 2)) in
  let n := mkV (vx (b_X b) - vn) (vy (b_X b) - ve) 0 in
  match updateP velObsVar (b_P b) with
  | None => (mkB (b_X b) (b_P b) (b_Si b) (b_Sdet b) n (b_R b) (b_gb b) (b_al b), false)
  | Some u =>
    let test_ratio := normDist (u_Si u) n in
    let scale := if Rlt_dec 25 test_ratio then sqrt (25 / test_ratio) else 1 in
    let corr k := (u_K u k 0%nat * vx n + u_K u k 1%nat * vy n) * scale in
    let X' := mkV (vx (b_X b) - corr 0%nat) (vy (b_X b) - corr 1%nat) (vz (b_X b) - corr 2%nat) in
    (mkB X' (u_P u) (u_Si u) (u_det u) n (rotYaw (vz X' - vz (b_X b)) (b_R b)) (b_gb b) (b_al b), true)
  end.

(** gaussianDensity, l.401-407 *)
Definition gaussianDensity (b : bank) : R := m_2pi_inv * sqrt (b_Sdet b) * exp (- (1 / 2) * normDist (b_Si b) (b_in b)).

(** weight update and normalisation, l.84-105, over any scalar; [dens k] is gaussianDensity(k); None: all weights were
    clipped.  _model_weights /= total multiplies by 1/total *)
Section Weigh.
Context {T : Type} {SC : Scalar T}.
Open Scope scal_scope.
Definition rawWeight (dens w : nat -> T) (k : nat) : T := dens k * w k.
Definition clipWeight (x : T) : T := if slt x (slit 1 100000) then slit 1 100000 else x.
Definition clipped (x : T) : bool := slt x (slit 1 100000).
Definition totalWeight (x : nat -> T) : T := szero + clipWeight (x 0%nat) + clipWeight (x 1%nat) + clipWeight (x 2%nat) + clipWeight (x 3%nat) + clipWeight (x 4%nat).
Definition weigh (dens w : nat -> T) : option (nat -> T) :=
  let x := rawWeight dens w in
  if clipped (x 0%nat) && clipped (x 1%nat) && clipped (x 2%nat) && clipped (x 3%nat) && clipped (x 4%nat) then None
  else Some (fun k => clipWeight (x k) * (sone / totalWeight x)).
End Weigh.

(** the five filters one after the other *)
Definition allBanks (f : nat -> bank) : list bank := [f 0%nat; f 1%nat; f 2%nat; f 3%nat; f 4%nat].
(** velocity fusion part of update(), l.62-110 *)
Definition fuse (i : gin) (g : gsf) : gsf :=
  if i_run i && g_velup g then
    if negb (g_started g) then
      let g := ahrsAlignYaw (initialiseEKFGSF g) in
      setStarted true (setBank (fun k => setAhrs (b_R (g_bank g k)) (i_gb i) (g_bank g k)) g)
    else
      let bad := negb (forallb (fun b => snd (updateEKF (g_vn g) (g_ve g) (g_acc g) b)) (allBanks (g_bank g))) in
      let g := setBank (fun k => fst (updateEKF (g_vn g) (g_ve g) (g_acc g) (g_bank g k))) g in
      if bad then g else
      match weigh (fun k => gaussianDensity (g_bank g k)) (g_w g) with
      | Some w => setW w g
      | None => initialiseEKFGSF g
      end
  else if g_started g && negb (i_run i) then setStarted false g else g.
(** composite yaw and variance, l.112-133 *)
Definition sum5 (f : nat -> R) : R := 0 + f 0%nat + f 1%nat + f 2%nat + f 3%nat + f 4%nat.
Definition composite (g : gsf) : gsf :=
  let yx := sum5 (fun k => g_w g k * cos (vz (b_X (g_bank g k)))) in
  let yy := sum5 (fun k => g_w g k * sin (vz (b_X (g_bank g k)))) in
  let yaw := atan2 yy yx in
  let var := sum5 (fun k => g_w g k * (b_P (g_bank g k) 2%nat 2%nat + wrap_pi (vz (b_X (g_bank g k)) - yaw) * wrap_pi (vz (b_X (g_bank g k)) - yaw))) in
  mkG (g_tilt g) (g_accel g) (g_bank g) (g_w g) yaw var (g_velup g) (g_vn g) (g_ve g) (g_acc g) (g_started g).
(** update(), l.16-139, in pieces: acceleration low-pass filter, l.29-32 *)
Definition accelOf (i : gin) : V3 := vscale (/ Rmax (i_dvdt i) (1 / 1000)) (i_dv i).
Definition filterAccel (i : gin) (g : gsf) : gsf :=
  let coef := Rmin (10 * i_dvdt i * tilt_gain) 1 in
  mkG (g_tilt g) (vadd (vscale (1 - coef) (g_accel g)) (vscale coef (accelOf i))) (g_bank g) (g_w g) (g_yaw g) (g_var g) (g_velup g) (g_vn g) (g_ve g) (g_acc g) (g_started g).
(** l.38-41 *)
Definition okToAlign (i : gin) : bool :=
  (if Rlt_dec (rsq (one_g * (9 / 10))) (vnorm2 (accelOf i)) then true else false) && (if Rlt_dec (vnorm2 (accelOf i)) (rsq (one_g * (11 / 10))) then true else false).
(** l.42-46 *)
Definition setTilt (g : gsf) : gsf := mkG true (g_accel g) (g_bank g) (g_w g) (g_yaw g) (g_var g) (g_velup g) (g_vn g) (g_ve g) (g_acc g) (g_started g).
Definition alignTilt (i : gin) (g : gsf) : gsf := setTilt (ahrsAlignTilt (i_dv i) (initialiseEKFGSF g)).
(** l.51-59 *)
Definition predictAll (i : gin) (g : gsf) : gsf :=
  let norm := sqrt (vnorm2 (g_accel g)) in
  setBank (fun k => predictEKF i (g_started g) (g_accel g) norm (accelGain (i_tas i) norm) (g_bank g k)) g.
(** l.138 *)
Definition clearVel (g : gsf) : gsf := mkG (g_tilt g) (g_accel g) (g_bank g) (g_w g) (g_yaw g) (g_var g) false (g_vn g) (g_ve g) (g_acc g) (g_started g).
Definition update (i : gin) (g : gsf) : gsf :=
  let g := filterAccel i g in
  if negb (g_tilt g) then (if okToAlign i then alignTilt i g else g)
  else clearVel (composite (fuse i (predictAll i g))).
(** setVelocity, l.519-524 *)
Definition setVelocity (vn ve acc : R) (g : gsf) : gsf :=
  mkG (g_tilt g) (g_accel g) (g_bank g) (g_w g) (g_yaw g) (g_var g) true vn ve acc (g_started g).
(** getYawData, l.509-517, and getLogData, l.409-423: yaw, variance, and per filter yaw, innovations, weight *)
Definition getYawData (g : gsf) : option (R * R) := if g_started g then Some (g_yaw g, g_var g) else None.
Definition getLogData (g : gsf) : option (R * R * (nat -> R * R * R * R)) :=
  if g_started g then Some (g_yaw g, g_var g, fun k => (vz (b_X (g_bank g k)), vx (b_in (g_bank g k)), vy (b_in (g_bank g k)), g_w g k)) else None.

(** Ekf::runYawEKFGSF, ekf_helper.cpp l.1642-1661.  GPS sample: velocity north/east, vertical position accuracy, speed
    accuracy.  ISFINITE of a real is true *)
Record gpsin := mkGps { gps_ready : bool; gps_vn : R; gps_ve : R; gps_vacc : R; gps_sacc : R }.
Definition runYaw (asp_timed_out fixed_wing in_air : bool) (tas_default tas : R) (i : gin) (p : gpsin) (g : gsf) : gsf :=
  let t := if asp_timed_out && fixed_wing then tas_default else tas in
  let g := update (mkGin (i_da i) (i_dv i) (i_dadt i) (i_dvdt i) in_air t (i_gb i)) g in
  if gps_ready p && (if Rlt_dec flt_eps (gps_vacc p) then true else false) then setVelocity (gps_vn p) (gps_ve p) (gps_vacc p) g else g.

(** calls on the estimator *)
Inductive gop := OUpdate (i : gin) | OVelocity (vn ve acc : R).
Definition gstep (o : gop) (g : gsf) : gsf := match o with OUpdate i => update i g | OVelocity vn ve acc => setVelocity vn ve acc g end.
Definition grun (l : list gop) : gsf := fold_left (fun g o => gstep o g) l gsf0.

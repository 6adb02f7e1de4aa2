(** * Rotation utilities, EKF/utils.cpp, over the reals

    Angles in radians.  cosf, sinf, asinf, atan2f are read as the real
    functions; Eulerf(Dcmf), Dcmf(Eulerf) and Quatf(Dcmf) are those of PX4-Matrix
    (not part of /repo). *)
From Coq Require Import Reals Lra Bool.
From Verif Require Import RealGeom.
Open Scope R_scope.

(** atan2f *)
Definition atan2 (y x : R) : R :=
  if Rlt_dec 0 x then atan (y / x)
  else if Rlt_dec x 0 then (if Rle_dec 0 y then atan (y / x) + PI else atan (y / x) - PI)
  else if Rlt_dec 0 y then PI / 2 else if Rlt_dec y 0 then - (PI / 2) else 0.

(** taitBryan312ToRotMat, utils.cpp l.3-25 *)
Definition taitBryan312ToRotMat (yaw roll pitch : R) : M3 :=
  let c2 := cos pitch in let s2 := sin pitch in
  let s1 := sin roll in let c1 := cos roll in
  let s0 := sin yaw in let c0 := cos yaw in
  mkM (c0 * c2 - s0 * s1 * s2) (- c1 * s0) (s2 * c0 + c2 * s1 * s0)
      (c2 * s0 + s2 * s1 * c0) (c0 * c1) (s0 * s2 - s1 * c0 * c2)
      (- s2 * c1) s1 (c2 * c1).

(** quatToInverseRotMat, l.35-60 *)
Definition quatToInverseRotMat (q : Q4) : M3 :=
  let q00 := q0 q * q0 q in let q11 := q1 q * q1 q in let q22 := q2 q * q2 q in let q33 := q3 q * q3 q in
  let q01 := q0 q * q1 q in let q02 := q0 q * q2 q in let q03 := q0 q * q3 q in
  let q12 := q1 q * q2 q in let q13 := q1 q * q3 q in let q23 := q2 q * q3 q in
  mkM (q00 + q11 - q22 - q33) (2 * (q12 + q03)) (2 * (q13 - q02))
      (2 * (q12 - q03)) (q00 - q11 + q22 - q33) (2 * (q23 + q01))
      (2 * (q13 + q02)) (2 * (q23 - q01)) (q00 - q11 - q22 + q33).

(** shouldUse321RotationSequence, l.62-64 *)
Definition shouldUse321 (r : M3) : bool := if Rlt_dec (Rabs (m20 r)) (Rabs (m21 r)) then true else false.

(** getEuler321Yaw, l.66-76, and getEuler312Yaw, l.78-88 *)
Definition yaw321_q (q : Q4) : R :=
  atan2 (2 * (q0 q * q3 q + q1 q * q2 q)) (q0 q * q0 q + q1 q * q1 q - q2 q * q2 q - q3 q * q3 q).
Definition yaw321 (r : M3) : R := atan2 (m10 r) (m00 r).
Definition yaw312_q (q : Q4) : R :=
  atan2 (2 * (q0 q * q3 q - q1 q * q2 q)) (q0 q * q0 q - q1 q * q1 q + q2 q * q2 q - q3 q * q3 q).
Definition yaw312 (r : M3) : R := atan2 (- m01 r) (m11 r).

(** Eulerf(Dcmf), PX4-Matrix: roll, pitch, yaw *)
Definition euler321 (r : M3) : V3 :=
  let pitch := asin (- m20 r) in
  if Rlt_dec (Rabs (pitch - PI / 2)) (1 / 1000) then mkV 0 pitch (atan2 (m12 r) (m02 r))
  else if Rlt_dec (Rabs (pitch + PI / 2)) (1 / 1000) then mkV 0 pitch (atan2 (- m12 r) (- m02 r))
  else mkV (atan2 (m21 r) (m22 r)) pitch (atan2 (m10 r) (m00 r)).
(** Dcmf(Eulerf), PX4-Matrix *)
Definition dcm321 (roll pitch yaw : R) : M3 :=
  mkM (cos pitch * cos yaw) (- cos roll * sin yaw + sin roll * sin pitch * cos yaw) (sin roll * sin yaw + cos roll * sin pitch * cos yaw)
      (cos pitch * sin yaw) (cos roll * cos yaw + sin roll * sin pitch * sin yaw) (- sin roll * cos yaw + cos roll * sin pitch * sin yaw)
      (- sin pitch) (sin roll * cos pitch) (cos roll * cos pitch).

(** updateEuler321YawInRotMat, l.90-94 *)
Definition updateYaw321 (yaw : R) (r : M3) : M3 := let e := euler321 r in dcm321 (vx e) (vy e) yaw.
(** updateEuler312YawInRotMat, l.96-101 *)
Definition updateYaw312 (yaw : R) (r : M3) : M3 := taitBryan312ToRotMat yaw (asin (m21 r)) (atan2 (- m20 r) (m22 r)).
(** updateYawInRotMat, l.103-107 *)
Definition updateYawInRotMat (yaw : R) (r : M3) : M3 := if shouldUse321 r then updateYaw321 yaw r else updateYaw312 yaw r.

(** Quatf(Dcmf), PX4-Matrix *)
Definition quatOfDcm (r : M3) : Q4 :=
  if Rlt_dec 0 (m00 r + m11 r + m22 r) then
    let t := sqrt (1 + (m00 r + m11 r + m22 r)) in let u := 1 / 2 / t in
    mkQ (1 / 2 * t) ((m21 r - m12 r) * u) ((m02 r - m20 r) * u) ((m10 r - m01 r) * u)
  else if andb (if Rlt_dec (m11 r) (m00 r) then true else false) (if Rlt_dec (m22 r) (m00 r) then true else false) then
    let t := sqrt (1 + m00 r - m11 r - m22 r) in let u := 1 / 2 / t in
    mkQ ((m21 r - m12 r) * u) (1 / 2 * t) ((m10 r + m01 r) * u) ((m02 r + m20 r) * u)
  else if Rlt_dec (m22 r) (m11 r) then
    let t := sqrt (1 - m00 r + m11 r - m22 r) in let u := 1 / 2 / t in
    mkQ ((m02 r - m20 r) * u) ((m10 r + m01 r) * u) (1 / 2 * t) ((m21 r + m12 r) * u)
  else
    let t := sqrt (1 - m00 r - m11 r + m22 r) in let u := 1 / 2 / t in
    mkQ ((m10 r - m01 r) * u) ((m02 r + m20 r) * u) ((m21 r + m12 r) * u) (1 / 2 * t).

(** resetQuatStateYaw, ekf_helper.cpp l.1549-1563: the attitude after a yaw reset *)
Definition yawResetQuat (yaw : R) (q : Q4) : Q4 := quatOfDcm (updateYawInRotMat yaw (dcm q)).

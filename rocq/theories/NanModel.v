(** * State prediction and yaw reset, parametric in the scalar

    EKF/ekf.cpp l.257-308 (predictState), EKF/ekf_helper.cpp l.550-565
    (constrainStates) and l.1549-1563 with EKF/utils.cpp l.3-25, 62-64, 90-107
    (attitude after a yaw reset).  PredictModel.v and RotModel.v have the same
    functions over the reals; NanProofs.v proves that this model read over the
    reals is the one of PredictModel.v.  sinf, cosf, asinf, atan2f are
    parameters.  The 24 states are numbered as in the covariance matrix. *)
From Verif Require Import CBase Scalar CovModel OutputModel.
Open Scope nat_scope.

Record predG (T : Type) := PredG { g_x : Vec T; g_R : Mat T; g_lpn : T; g_lpe : T; g_dt : T; g_rate : Vec T }.
Arguments PredG {T}. Arguments g_x {T}. Arguments g_R {T}. Arguments g_lpn {T}. Arguments g_lpe {T}. Arguments g_dt {T}. Arguments g_rate {T}.
(** the delayed IMU sample *)
Record gimu (T : Type) := Gimu { gi_da : Vec T; gi_dv : Vec T; gi_dadt : T; gi_dvdt : T }.
Arguments Gimu {T}. Arguments gi_da {T}. Arguments gi_dv {T}. Arguments gi_dadt {T}. Arguments gi_dvdt {T}.

Section Nan.
Context {T : Type} {S : Scalar T}.
Open Scope scal_scope.
Variables (tsin tcos tasin : T -> T) (tatan2 : T -> T -> T) (pi2 : T).

(** Quatf(AxisAnglef v), PX4-Matrix *)
Definition expqG (v : Vec T) : Vec T :=
  let a := nrm3 v in
  if slt a (slit 1 10000000000) then fun k => if k =? 0 then sone else szero
  else fun k => match k with 0 => tcos (a / slit 2 1) | Datatypes.S j => v j / a * tsin (a / slit 2 1) end.
(** limit of the state number i, ekf_helper.cpp l.552-564; rad20 = math::radians(20.f) *)
Definition limitG (rad20 acc_bias_lim dt : T) (i : nat) : T :=
  if i <? 4 then slit 1 1 else if i <? 7 then slit 1000 1 else if i <? 10 then slit 1000000 1
  else if i <? 13 then rad20 * dt else if i <? 16 then acc_bias_lim * dt
  else if i <? 19 then slit 1 1 else if i <? 22 then slit 1 2 else slit 100 1.
Definition constrainG (rad20 acc_bias_lim dt : T) (x : Vec T) : Vec T :=
  fun i => sconstrain (x i) (- limitG rad20 acc_bias_lim dt i) (limitG rad20 acc_bias_lim dt i).
(** ekf.cpp l.260-263 *)
Definition corrected_daG (earth : Vec T) (i : gimu T) (s : predG T) : Vec T :=
  fun k => gi_da i k - g_x s (10 + k)%nat - mvec (fun a b => g_R s b a) earth k * gi_dadt i.
(** l.268 *)
Definition predQuat (earth : Vec T) (i : gimu T) (s : predG T) : Vec T := qnormv (qmulv (g_x s) (expqG (corrected_daG earth i s))).
(** l.273-274 *)
Definition predDv (earth : Vec T) (i : gimu T) (s : predG T) : Vec T :=
  mvec (dcmv (predQuat earth i s)) (fun k => gi_dv i k - g_x s (13 + k)%nat).
(** l.285-288 *)
Definition predVel (earth : Vec T) (i : gimu T) (s : predG T) : Vec T := fun k =>
  let v := g_x s (4 + k)%nat + predDv earth i s k in
  if k =? 2 then v + slit 980665 100000 * gi_dvdt i else v.
(** l.291 *)
Definition predPos (earth : Vec T) (i : gimu T) (s : predG T) : Vec T := fun k =>
  g_x s (7 + k)%nat + (g_x s (4 + k)%nat + predVel earth i s k) * gi_dvdt i * slit 1 2.
Definition predRaw (earth : Vec T) (i : gimu T) (s : predG T) : Vec T := fun j =>
  if j <? 4 then predQuat earth i s j else if j <? 7 then predVel earth i s (j - 4)%nat
  else if j <? 10 then predPos earth i s (j - 7)%nat else g_x s j.
(** predictState, l.257-308 *)
Definition predictG (rad20 acc_bias_lim : T) (earth : Vec T) (i : gimu T) (s : predG T) : predG T :=
  let dve := predDv earth i s in
  let alpha := slit 1 1 - gi_dvdt i in
  let input := sconstrain (slit 1 2 * (gi_dvdt i + gi_dadt i)) (slit 1 2 * slit 1 100) (slit 2 1 * slit 1 100) in
  PredG (constrainG rad20 acc_bias_lim (g_dt s) (predRaw earth i s)) (dcmv (predQuat earth i s))
    (g_lpn s * alpha + dve 0) (g_lpe s * alpha + dve 1) (slit 99 100 * g_dt s + slit 1 100 * input)
    (if slt (slit 1 4 * slit 1 100) (gi_dadt i) then fun k => gi_da i k / gi_dadt i else g_rate s).

(** ** Yaw reset *)
(** taitBryan312ToRotMat, utils.cpp l.3-25 *)
Definition rot312G (yaw roll pitch : T) : Mat T :=
  let c2 := tcos pitch in let s2 := tsin pitch in let s1 := tsin roll in let c1 := tcos roll in let s0 := tsin yaw in let c0 := tcos yaw in
  fun i j => match i, j with
  | 0, 0 => c0 * c2 - s0 * s1 * s2 | 0, 1 => - c1 * s0 | 0, _ => s2 * c0 + c2 * s1 * s0
  | 1, 0 => c2 * s0 + s2 * s1 * c0 | 1, 1 => c0 * c1 | 1, _ => s0 * s2 - s1 * c0 * c2
  | _, 0 => - s2 * c1 | _, 1 => s1 | _, _ => c2 * c1 end.
(** Dcmf(Eulerf), PX4-Matrix *)
Definition rot321G (roll pitch yaw : T) : Mat T :=
  let cp := tcos roll in let sp := tsin roll in let ct := tcos pitch in let st := tsin pitch in let cy := tcos yaw in let sy := tsin yaw in
  fun i j => match i, j with
  | 0, 0 => ct * cy | 0, 1 => - cp * sy + sp * st * cy | 0, _ => sp * sy + cp * st * cy
  | 1, 0 => ct * sy | 1, 1 => cp * cy + sp * st * sy | 1, _ => - sp * cy + cp * st * sy
  | _, 0 => - st | _, 1 => sp * ct | _, _ => cp * ct end.
(** roll of Eulerf(Dcmf), PX4-Matrix; pi2: pi / 2 *)
Definition rollG (r : Mat T) : T :=
  let pitch := tasin (- r 2 0) in
  if slt (sabs (pitch - pi2)) (slit 1 1000) then szero else if slt (sabs (pitch + pi2)) (slit 1 1000) then szero
  else tatan2 (r 2 1) (r 2 2).
(** updateYawInRotMat, utils.cpp l.90-107 *)
Definition updateYawG (yaw : T) (r : Mat T) : Mat T :=
  if slt (sabs (r 2 0)) (sabs (r 2 1)) then rot321G (rollG r) (tasin (- r 2 0)) yaw
  else rot312G yaw (tasin (r 2 1)) (tatan2 (- r 2 0) (r 2 2)).
(** Quatf(Dcmf), PX4-Matrix *)
Definition quatOfG (r : Mat T) : Vec T :=
  let t := r 0 0 + r 1 1 + r 2 2 in
  let fin t f := let u := slit 1 2 / t in f (slit 1 2 * t) u in
  if slt szero t then
    fin (ssqrt (slit 1 1 + t)) (fun h u k => match k with 0 => h | 1 => (r 2 1 - r 1 2) * u | 2 => (r 0 2 - r 2 0) * u | _ => (r 1 0 - r 0 1) * u end)
  else if slt (r 1 1) (r 0 0) && slt (r 2 2) (r 0 0) then
    fin (ssqrt (slit 1 1 + r 0 0 - r 1 1 - r 2 2))
      (fun h u k => match k with 0 => (r 2 1 - r 1 2) * u | 1 => h | 2 => (r 1 0 + r 0 1) * u | _ => (r 0 2 + r 2 0) * u end)
  else if slt (r 2 2) (r 1 1) then
    fin (ssqrt (slit 1 1 - r 0 0 + r 1 1 - r 2 2))
      (fun h u k => match k with 0 => (r 0 2 - r 2 0) * u | 1 => (r 1 0 + r 0 1) * u | 2 => h | _ => (r 2 1 + r 1 2) * u end)
  else
    fin (ssqrt (slit 1 1 - r 0 0 - r 1 1 + r 2 2))
      (fun h u k => match k with 0 => (r 1 0 - r 0 1) * u | 1 => (r 0 2 + r 2 0) * u | 2 => (r 2 1 + r 1 2) * u | _ => h end).
(** resetQuatStateYaw, ekf_helper.cpp l.1549-1563: states after a yaw reset *)
Definition yawResetG (yaw : T) (x : Vec T) : Vec T := let q := quatOfG (updateYawG yaw (dcmv x)) in fun i => if i <? 4 then q i else x i.
End Nan.

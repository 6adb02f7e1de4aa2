(** * Published outputs

    estimator_interface.h l.170-200 (getQuaternion, getVelocity, getVelocityDerivative,
    getVerticalPositionDerivative, getPosition), ekf.h l.110-232, 283-286 (state, covariance,
    bias and vision alignment getters), ekf.cpp l.348-353, 380-391 (velocity
    derivative and velocity of the IMU relative to the body origin), 529-538
    (calculate_quaternion), ekf_helper.cpp l.597-602 (calcEarthRateNED) and l.673-685.
    Parametric in the scalar where the scalar matters; otherwise exact reals. *)
From Coq Require Import Reals.
From Verif Require Import CBase Scalar RingBufferModel OutputModel ObsModel RealGeom RotModel PredictModel.
Open Scope nat_scope.

(** the output predictor state with the two vectors it keeps for the getters:
    _vel_deriv and _vel_imu_rel_body_ned (zero-initialised vectors) *)
Record pub (T : Type) := Pub { pb_o : ost T; pb_acc : Vec T; pb_rel : Vec T }.
Arguments Pub {T}. Arguments pb_o {T}. Arguments pb_acc {T}. Arguments pb_rel {T}.

Section Publish.
Context {T : Type} {S : Scalar T}.
Variable expq : Vec T -> Vec T.
(** _params.imu_pos_body *)
Variable lever : Vec T.
Open Scope scal_scope.

(** calculateOutputStates, ekf.cpp l.321-462, with l.350-353 and l.380-391 *)
Definition publishStep (i : imuin T) (s : pub T) : pub T :=
  let o := propagate expq i (pb_o s) in
  let acc := if slt (slit 1 10000) (i_dvdt i) then (fun k => dvel_earth expq i (pb_o s) k * (slit 1 1 / i_dvdt i)) else pb_acc s in
  let rel := if slt (slit 1 10000) (i_dadt i)
             then mvec (dcmv (o_Rq o)) (crossT (fun k => i_da i k * (slit 1 1 / i_dadt i)) lever) else pb_rel s in
  Pub (calculateOutputStates expq i (pb_o s)) acc rel.

(** getQuaternion, estimator_interface.h l.173 *)
Definition getQuaternion (s : pub T) : Vec T := oq (payload (o_new (pb_o s))).
(** getVelocity, l.176 *)
Definition getVelocity (s : pub T) : Vec T := fun k => ov (payload (o_new (pb_o s))) k - pb_rel s k.
(** getVelocityDerivative, l.179 *)
Definition getVelocityDerivative (s : pub T) : Vec T := pb_acc s.
(** getVerticalPositionDerivative, l.182 *)
Definition getVerticalPositionDerivative (s : pub T) : T := vv (payload (w_new (pb_o s))) - pb_rel s 2.
(** getPosition, l.185-191; _R_to_earth_now is the matrix of [o_Rq] *)
Definition getPosition (s : pub T) : Vec T :=
  let off := mvec (dcmv (o_Rq (pb_o s))) lever in fun k => op (payload (o_new (pb_o s))) k - off k.
(** calculate_quaternion, ekf.cpp l.529-538; i: the newest IMU sample with the average intervals *)
Definition calculate_quaternion (i : imuin T) (s : pub T) : Vec T :=
  let da := fun k => i_da i k - e_ab (pb_o s) k * (i_dt_imu_avg i / i_dt_ekf_avg i) + o_dacorr (pb_o s) k in
  qnormv (qmulv (oq (payload (o_new (pb_o s)))) (expq da)).
End Publish.

Section Getters.
Context {T : Type} {S : Scalar T}.
Open Scope scal_scope.
(** getGyroBias, getAccelBias, ekf.h l.223-224; [b]: the bias states, [dt]: _dt_ekf_avg *)
Definition getBias (b : Vec T) (dt : T) : Vec T := fun k => b k / dt.
(** getGyroBiasVariance, getAccelBiasVariance, ekf.h l.227-228; [first]: 10 or 13 *)
Definition getBiasVariance (P : Mat T) (first : nat) (dt : T) : Vec T := fun k => P (first + k)%nat (first + k)%nat / dt.
(** getVelocityVariance l.181, getPositionVariance l.183, getMagBiasVariance l.229, getWindVelocityVariance l.129 (ekf.h) *)
Definition getVariance (P : Mat T) (first : nat) : Vec T := fun k => P (first + k)%nat (first + k)%nat.
(** orientation_covariances, velocity_covariances, position_covariances, ekf.h l.140-147: slice<w,w>(first, first) *)
Definition covariances (P : Mat T) (first : nat) : Mat T := fun r c => P (first + r)%nat (first + c)%nat.
(** getStateAtFusionHorizonAsVector, ekf_helper.cpp l.673-685; slices of 4, 3, 3, 3, 3, 3, 3 and 2 *)
Definition stateVector (q v p ab vb mi mb w : Vec T) : Vec T := fun k =>
  if (k <? 4)%nat then q k else if (k <? 7)%nat then v (k - 4)%nat else if (k <? 10)%nat then p (k - 7)%nat
  else if (k <? 13)%nat then ab (k - 10)%nat else if (k <? 16)%nat then vb (k - 13)%nat
  else if (k <? 19)%nat then mi (k - 16)%nat else if (k <? 22)%nat then mb (k - 19)%nat else w (k - 22)%nat.
End Getters.

(** calcEarthRateNED, ekf_helper.cpp l.597-602 (exact reals); CONSTANTS_EARTH_SPIN_RATE, geo.h l.64 *)
Definition spin_rate : R := (72921150 / 1000000000000)%R.
Definition calcEarthRateNED (lat : R) : V3 := mkV (spin_rate * cos lat) 0 (- spin_rate * sin lat).
(** getVisionAlignmentQuaternion, ekf.h l.283: Quatf of _R_ev_to_ekf as calcExtVisRotMat left it *)
Definition visionAlignment (q ev : Q4) : Q4 := quatOfDcm (extVisRotMat q ev).

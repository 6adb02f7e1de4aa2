(** * Models of AlphaFilter/AlphaFilter.hpp and EKF/imu_down_sampler.{hpp,cpp} *)
From Coq Require Import Reals.
From Verif Require Export CBase F32 RealGeom.
Open Scope Z_scope.

(** ** AlphaFilter, scalar instance (vectors are filtered componentwise) *)
(** updateCalculation, AlphaFilter.hpp l.101, exact arithmetic *)
Definition af_step (alpha x y : R) : R := ((1 - alpha) * x + alpha * y)%R.
(** a sequence of update() calls, l.91-95 *)
Definition af_run (alpha : R) (l : list R) (x : R) : R := fold_left (af_step alpha) l x.
(** the same in binary32 *)
Definition af_step_f (alpha x y : f32) : f32 := fadd (fmul (fsub f1 alpha) x) (fmul alpha y).
Definition af_run_f (alpha : f32) (l : list f32) (x : f32) : f32 := fold_left (af_step_f alpha) l x.
(** FLT_EPSILON = 2^-23 *)
Definition flt_epsilon : f32 := flit 1 (2 ^ 23).
(** setParameters, l.64-71: the new value of _alpha *)
Definition af_set_parameters (interval time_constant alpha : f32) : f32 :=
  let den := fadd time_constant interval in
  if fgt den flt_epsilon then fdiv interval den else alpha.

(** ** ImuDownSampler.  Integration periods are binary32; the vectors and
    quaternions are exact (RealGeom).  [delta_vel_clipping] is a bool array, so
    [+=] is a logical or. *)
Record imu_sample := {
  i_time : Z; i_dang : V3; i_dvel : V3; i_dang_dt : f32; i_dvel_dt : f32;
  i_clip0 : bool; i_clip1 : bool; i_clip2 : bool }.

Record ds_state := {
  ds_acc : imu_sample;       (* _imu_down_sampled *)
  ds_q : Q4;                 (* _delta_angle_accumulated *)
  ds_adj : f32;              (* _imu_collection_time_adj *)
  ds_do_reset : bool }.

(** reset(), imu_down_sampler.cpp l.54-65 (time_us is not touched) *)
Definition ds_reset (s : ds_state) : ds_state :=
  {| ds_acc := {| i_time := i_time (ds_acc s); i_dang := vzero; i_dvel := vzero; i_dang_dt := f0; i_dvel_dt := f0;
                  i_clip0 := false; i_clip1 := false; i_clip2 := false |};
     ds_q := qone; ds_adj := ds_adj s; ds_do_reset := false |}.

(** constructor l.3 with member initialisers hpp l.64-68 *)
Definition ds_init : ds_state := ds_reset
  {| ds_acc := {| i_time := 0; i_dang := vzero; i_dvel := vzero; i_dang_dt := f0; i_dvel_dt := f0;
                  i_clip0 := false; i_clip1 := false; i_clip2 := false |};
     ds_q := qone; ds_adj := f0; ds_do_reset := true |}.

(** inverse of Quaternion(AxisAngle): the rotation vector of a unit quaternion.
    Only its existence matters here: [qlog] is a parameter of [ds_update]. *)
Section DS.
Variable qlog : Q4 -> V3.
Variable target : f32.   (* _target_dt *)

(** update(), l.8-52 *)
Definition ds_update (x : imu_sample) (s0 : ds_state) : bool * ds_state :=
  let s := if ds_do_reset s0 then ds_reset s0 else s0 in
  let a := ds_acc s in
  let dang_dt := fadd (i_dang_dt a) (i_dang_dt x) in
  let dvel_dt := fadd (i_dvel_dt a) (i_dvel_dt x) in
  let dq := qexp (i_dang x) in
  let q := qnormalize (qmul (ds_q s) dq) in
  let dR := dcm (qinv dq) in
  let dv := vadd (mapp dR (i_dvel a)) (vscale (1 / 2) (vadd (i_dvel x) (mapp dR (i_dvel x)))) in
  if fge dang_dt (fsub target (ds_adj s)) then
    let adj := fadd (ds_adj s) (fmul (flit 1 100) (fsub dang_dt target)) in
    let adj' := math_constrain adj (fmul (fneg (flit 1 2)) target) (fmul (flit 1 2) target) in
    (true, {| ds_acc := {| i_time := i_time x; i_dang := qlog q; i_dvel := dv; i_dang_dt := dang_dt; i_dvel_dt := dvel_dt;
                           i_clip0 := i_clip0 a || i_clip0 x; i_clip1 := i_clip1 a || i_clip1 x; i_clip2 := i_clip2 a || i_clip2 x |};
              ds_q := q; ds_adj := adj'; ds_do_reset := ds_do_reset s |})
  else
    (false, {| ds_acc := {| i_time := i_time x; i_dang := i_dang a; i_dvel := dv; i_dang_dt := dang_dt; i_dvel_dt := dvel_dt;
                           i_clip0 := i_clip0 a || i_clip0 x; i_clip1 := i_clip1 a || i_clip1 x; i_clip2 := i_clip2 a || i_clip2 x |};
              ds_q := q; ds_adj := ds_adj s; ds_do_reset := ds_do_reset s |}).

(** getDownSampledImuAndTriggerReset(), hpp l.55-59 *)
Definition ds_get (s : ds_state) : imu_sample * ds_state :=
  (ds_acc s, {| ds_acc := ds_acc s; ds_q := ds_q s; ds_adj := ds_adj s; ds_do_reset := true |}).

(** setIMUData, estimator_interface.cpp l.70-76: read out whenever update()
    reports true.  Returns the emitted samples, oldest first. *)
Fixpoint ds_run (l : list imu_sample) (s : ds_state) : list imu_sample * ds_state :=
  match l with
  | [] => ([], s)
  | x :: r =>
      let '(b, s1) := ds_update x s in
      if b then let '(o, s2) := ds_get s1 in let '(os, s3) := ds_run r s2 in (o :: os, s3)
      else ds_run r s1
  end.
End DS.

(** * IMU vibration metrics and the at-rest detection they drive
    (/repo/EKF/estimator_interface.cpp l.49-120, binary32) *)
From Verif Require Import CBase F32 F32More InterfaceModel.
Open Scope Z_scope.

(** Vector3f (PX4-Matrix): difference, cross product and norm.  The dot product
    accumulates from zero. *)
Record v3f := V3f { fx : f32; fy : f32; fz : f32 }.
Definition v3f_zero : v3f := V3f f0 f0 f0.
Definition v3f_sub (a b : v3f) : v3f := V3f (fsub (fx a) (fx b)) (fsub (fy a) (fy b)) (fsub (fz a) (fz b)).
Definition v3f_cross (a b : v3f) : v3f :=
  V3f (fsub (fmul (fy a) (fz b)) (fmul (fz a) (fy b)))
      (fsub (fmul (fz a) (fx b)) (fmul (fx a) (fz b)))
      (fsub (fmul (fx a) (fy b)) (fmul (fy a) (fx b))).
Definition v3f_norm (a : v3f) : f32 :=
  fsqrt (fadd (fadd (fadd f0 (fmul (fx a) (fx a))) (fmul (fy a) (fy a))) (fmul (fz a) (fz a))).

(** one IMU sample: time stamp, delta angle, delta velocity *)
Record imuf := Imuf { im_t : Z; im_da : v3f; im_dv : v3f }.

(** _vibe_metrics, _delta_ang_prev, _delta_vel_prev (estimator_interface.h
    l.411-413, vectors are zero-initialised), _time_last_move_detect_us (l.342),
    _time_last_imu (l.363), _dt_imu_avg (l.274), the vehicle_at_rest flag *)
Record rest_state := {
  r_vib0 : f32; r_vib1 : f32; r_vib2 : f32;
  r_pa : v3f; r_pv : v3f;
  r_move : Z; r_imu : Z; r_avg : f32; r_rest : bool }.
Definition rest_init : rest_state :=
  {| r_vib0 := f0; r_vib1 := f0; r_vib2 := f0; r_pa := v3f_zero; r_pv := v3f_zero;
     r_move := 0; r_imu := 0; r_avg := f0; r_rest := false |}.

(** [0.99f * m + 0.01f * n], l.92, 97, 102 *)
Definition lowpass (m n : f32) : f32 := fadd (fmul (flit 99 100) m) (fmul (flit 1 100) n).

(** setIMUData l.56: time step, limited to [1e-4 s, 0.02 s] *)
Definition imu_dt (t t_last : Z) : f32 :=
  math_constrain (fdiv (f_of_Z (sub64 t t_last)) (f_of_Z 1000000)) (flit 1 10000) (flit 2 100).

(** setIMUData l.49-69 (up to the down-sampler): time step, average, metrics
    (computeVibrationMetric l.88-103) and at-rest flag (checkIfVehicleAtRest
    l.104-120) *)
Definition rest_step (scaler : f32) (in_air : bool) (u : imuf) (s : rest_state) : rest_state :=
  let dt := imu_dt (im_t u) (r_imu s) in
  let avg := if im_t u >? 0 then fadd (fmul (flit 8 10) (r_avg s)) (fmul (flit 2 10) dt) else r_avg s in
  let v0 := lowpass (r_vib0 s) (v3f_norm (v3f_cross (im_da u) (r_pa s))) in
  let v1 := lowpass (r_vib1 s) (v3f_norm (v3f_sub (im_da u) (r_pa s))) in
  let v2 := lowpass (r_vib2 s) (v3f_norm (v3f_sub (im_dv u) (r_pv s))) in
  let '(rest, mv) := check_at_rest in_air (moving_test v1 v2 (v3f_norm (im_da u)) dt scaler) (im_t u) (r_move s) in
  {| r_vib0 := v0; r_vib1 := v1; r_vib2 := v2; r_pa := im_da u; r_pv := im_dv u;
     r_move := mv; r_imu := im_t u; r_avg := avg; r_rest := rest |}.

(** a history: whether the vehicle was flying, and the sample *)
Fixpoint rest_hist (scaler : f32) (l : list (bool * imuf)) (s : rest_state) : rest_state :=
  match l with
  | [] => s
  | (a, u) :: r => rest_hist scaler r (rest_step scaler a u s)
  end.

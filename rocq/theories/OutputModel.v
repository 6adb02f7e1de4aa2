(** * State resets and the output predictor

    EKF/ekf_helper.cpp l.121-255, 335-358, 1549-1592 (resets, alignment of the output
    filter) and EKF/ekf.cpp l.321-524 (output predictor).  Parametric in the
    scalar.  Vectors and quaternions are functions of the component index.  The
    output buffers are the ring buffers of RingBufferModel.v. *)
From Verif Require Import CBase Scalar RingBufferModel.
Open Scope nat_scope.

(** outputSample without the time stamp, common.h l.81-86 *)
Record outp (T : Type) := mkOut { oq : Vec T; ov : Vec T; op : Vec T }.
Arguments mkOut {T}. Arguments oq {T}. Arguments ov {T}. Arguments op {T}.
(** outputVert without the time stamp, common.h l.88-93 *)
Record overt (T : Type) := mkVert { vv : T; vi : T; vdt : T }.
Arguments mkVert {T}. Arguments vv {T}. Arguments vi {T}. Arguments vdt {T}.

(** the published reset record _state_reset_status, ekf.h l.314-325; the counters are uint8_t *)
Record rstat (T : Type) := mkRst {
  velNE_change : Vec T; velNE_counter : Z; velD_change : T; velD_counter : Z;
  posNE_change : Vec T; posNE_counter : Z; posD_change : T; posD_counter : Z;
  quat_change : Vec T; quat_counter : Z }.
Arguments mkRst {T}. Arguments velNE_change {T}. Arguments velNE_counter {T}. Arguments velD_change {T}. Arguments velD_counter {T}.
Arguments posNE_change {T}. Arguments posNE_counter {T}. Arguments posD_change {T}. Arguments posD_counter {T}.
Arguments quat_change {T}. Arguments quat_counter {T}.

Record ost (T : Type) := mkO {
  (** EKF states: quaternion, velocity, position, delta angle and delta velocity bias *)
  e_q : Vec T; e_v : Vec T; e_p : Vec T; e_ab : Vec T; e_vb : Vec T;
  (** _output_new, _output_vert_new, _output_buffer, _output_vert_buffer *)
  o_new : sample (outp T); w_new : sample (overt T); o_buf : ring (outp T); w_buf : ring (overt T);
  o_rst : rstat T;
  (** _R_to_earth_now as the quaternion it was computed from, _delta_angle_corr,
      _vel_err_integ, _pos_err_integ, _output_tracking_error, _yaw_delta_ef *)
  o_Rq : Vec T; o_dacorr : Vec T; o_vint : Vec T; o_pint : Vec T; o_track : Vec T; o_yaw_delta : T }.
Arguments mkO {T}. Arguments e_q {T}. Arguments e_v {T}. Arguments e_p {T}. Arguments e_ab {T}. Arguments e_vb {T}.
Arguments o_new {T}. Arguments w_new {T}. Arguments o_buf {T}. Arguments w_buf {T}. Arguments o_rst {T}. Arguments o_Rq {T}.
Arguments o_dacorr {T}. Arguments o_vint {T}. Arguments o_pint {T}. Arguments o_track {T}. Arguments o_yaw_delta {T}.

(** one call of calculateOutputStates: the newest IMU sample, whether the
    filter ran (_imu_updated), time of the delayed sample, averages and
    parameters vel_Tau, pos_Tau *)
Record imuin (T : Type) := mkImu {
  i_da : Vec T; i_dv : Vec T; i_dadt : T; i_dvdt : T; i_time : Z; i_updated : bool; i_tdelayed : Z;
  i_dt_imu_avg : T; i_dt_ekf_avg : T; i_velTau : T; i_posTau : T }.
Arguments mkImu {T}. Arguments i_da {T}. Arguments i_dv {T}. Arguments i_dadt {T}. Arguments i_dvdt {T}. Arguments i_time {T}.
Arguments i_updated {T}. Arguments i_tdelayed {T}. Arguments i_dt_imu_avg {T}. Arguments i_dt_ekf_avg {T}.
Arguments i_velTau {T}. Arguments i_posTau {T}.

Section Out.
Context {T : Type} {S : Scalar T}.
Open Scope scal_scope.

Definition vplus (a b : Vec T) : Vec T := fun k => a k + b k.
Definition vminus (a b : Vec T) : Vec T := fun k => a k - b k.
(** v.xy() += d *)
Definition addXY (d v : Vec T) : Vec T := fun k => if k <? 2 then v k + d k else v k.
(** v(2) += d *)
Definition addZ (d : T) (v : Vec T) : Vec T := fun k => if k =? 2 then v k + d else v k.
Definition withV (f : Vec T -> Vec T) (o : outp T) : outp T := mkOut (oq o) (f (ov o)) (op o).
Definition withP (f : Vec T -> Vec T) (o : outp T) : outp T := mkOut (oq o) (ov o) (f (op o)).
Definition withQ (f : Vec T -> Vec T) (o : outp T) : outp T := mkOut (f (oq o)) (ov o) (op o).
Definition smap {A} (f : A -> A) (s : sample A) : sample A := {| time_us := time_us s; payload := f (payload s) |}.

(** value-initialised array elements: Quatf() is the identity, vectors and floats are zero *)
Definition zero_out : outp T := mkOut (fun k => if k =? 0 then sone else szero) (fun _ => szero) (fun _ => szero).
Definition zero_vert : overt T := mkVert szero szero szero.

(** record updates *)
Definition setEV (v : Vec T) (s : ost T) := mkO (e_q s) v (e_p s) (e_ab s) (e_vb s) (o_new s) (w_new s) (o_buf s) (w_buf s) (o_rst s) (o_Rq s) (o_dacorr s) (o_vint s) (o_pint s) (o_track s) (o_yaw_delta s).
Definition setEP (p : Vec T) (s : ost T) := mkO (e_q s) (e_v s) p (e_ab s) (e_vb s) (o_new s) (w_new s) (o_buf s) (w_buf s) (o_rst s) (o_Rq s) (o_dacorr s) (o_vint s) (o_pint s) (o_track s) (o_yaw_delta s).
Definition setEQ (q : Vec T) (s : ost T) := mkO q (e_v s) (e_p s) (e_ab s) (e_vb s) (o_new s) (w_new s) (o_buf s) (w_buf s) (o_rst s) (o_Rq s) (o_dacorr s) (o_vint s) (o_pint s) (o_track s) (o_yaw_delta s).
Definition setOut (n : sample (outp T)) (b : ring (outp T)) (s : ost T) := mkO (e_q s) (e_v s) (e_p s) (e_ab s) (e_vb s) n (w_new s) b (w_buf s) (o_rst s) (o_Rq s) (o_dacorr s) (o_vint s) (o_pint s) (o_track s) (o_yaw_delta s).
Definition setVert (n : sample (overt T)) (b : ring (overt T)) (s : ost T) := mkO (e_q s) (e_v s) (e_p s) (e_ab s) (e_vb s) (o_new s) n (o_buf s) b (o_rst s) (o_Rq s) (o_dacorr s) (o_vint s) (o_pint s) (o_track s) (o_yaw_delta s).
Definition setRst (r : rstat T) (s : ost T) := mkO (e_q s) (e_v s) (e_p s) (e_ab s) (e_vb s) (o_new s) (w_new s) (o_buf s) (w_buf s) r (o_Rq s) (o_dacorr s) (o_vint s) (o_pint s) (o_track s) (o_yaw_delta s).

(** uint8_t counter++ *)
Definition inc8 (n : Z) : Z := ((n + 1) mod 256)%Z.

(** ** Resets *)
(** resetHorizontalVelocityTo, ekf_helper.cpp l.127-141 *)
Definition resetHorizontalVelocityTo (new : Vec T) (s : ost T) : ost T :=
  let d := vminus new (e_v s) in
  let r := o_rst s in
  setRst (mkRst d (inc8 (velNE_counter r)) (velD_change r) (velD_counter r) (posNE_change r) (posNE_counter r)
           (posD_change r) (posD_counter r) (quat_change r) (quat_counter r))
   (setOut (smap (withV (addXY d)) (o_new s)) (map_all (withV (addXY d)) (o_buf s))
     (setEV (fun k => if k <? 2 then new k else e_v s k) s)).
(** resetVerticalVelocityTo, l.143-158 *)
Definition addVV (d : T) (w : overt T) : overt T := mkVert (vv w + d) (vi w) (vdt w).
Definition addVI (d : T) (w : overt T) : overt T := mkVert (vv w) (vi w + d) (vdt w).
Definition resetVerticalVelocityTo (new : T) (s : ost T) : ost T :=
  let d := new - e_v s 2 in
  let r := o_rst s in
  setRst (mkRst (velNE_change r) (velNE_counter r) d (inc8 (velD_counter r)) (posNE_change r) (posNE_counter r)
           (posD_change r) (posD_counter r) (quat_change r) (quat_counter r))
   (setVert (smap (addVV d) (w_new s)) (map_all (addVV d) (w_buf s))
    (setOut (smap (withV (addZ d)) (o_new s)) (map_all (withV (addZ d)) (o_buf s))
     (setEV (fun k => if k =? 2 then new else e_v s k) s))).
(** resetVelocityTo, l.121-125 *)
Definition resetVelocityTo (new : Vec T) (s : ost T) : ost T :=
  resetVerticalVelocityTo (new 2) (resetHorizontalVelocityTo new s).
(** resetHorizontalPositionTo, l.218-232 *)
Definition resetHorizontalPositionTo (new : Vec T) (s : ost T) : ost T :=
  let d := vminus new (e_p s) in
  let r := o_rst s in
  setRst (mkRst (velNE_change r) (velNE_counter r) (velD_change r) (velD_counter r) d (inc8 (posNE_counter r))
           (posD_change r) (posD_counter r) (quat_change r) (quat_counter r))
   (setOut (smap (withP (addXY d)) (o_new s)) (map_all (withP (addXY d)) (o_buf s))
     (setEP (fun k => if k <? 2 then new k else e_p s k) s)).
(** resetVerticalPositionTo, l.234-255: the newest vertical output is set to
    the new state instead of being shifted *)
Definition resetVerticalPositionTo (new : T) (s : ost T) : ost T :=
  let d := new - e_p s 2 in
  let r := o_rst s in
  setVert (smap (fun w => mkVert (vv w) new (vdt w)) (w_new s)) (map_all (addVI d) (w_buf s))
   (setOut (smap (withP (addZ d)) (o_new s)) (map_all (withP (addZ d)) (o_buf s))
    (setRst (mkRst (velNE_change r) (velNE_counter r) (velD_change r) (velD_counter r) (posNE_change r) (posNE_counter r)
           d (inc8 (posD_counter r)) (quat_change r) (quat_counter r))
     (setEP (fun k => if k =? 2 then new else e_p s k) s))).

(** ** Quaternions (PX4-Matrix) *)
Definition qmulv (p q : Vec T) : Vec T := fun k => match k with
  | 0 => p 0 * q 0 - p 1 * q 1 - p 2 * q 2 - p 3 * q 3
  | 1 => p 0 * q 1 + p 1 * q 0 + p 2 * q 3 - p 3 * q 2
  | 2 => p 0 * q 2 - p 1 * q 3 + p 2 * q 0 + p 3 * q 1
  | _ => p 0 * q 3 + p 1 * q 2 - p 2 * q 1 + p 3 * q 0 end.
Definition qdot (p q : Vec T) : T := szero + p 0 * q 0 + p 1 * q 1 + p 2 * q 2 + p 3 * q 3.
Definition qnormv (q : Vec T) : Vec T := let n := ssqrt (qdot q q) in fun k => q k / n.
Definition qinvv (q : Vec T) : Vec T := let n := qdot q q in fun k => match k with 0 => q 0 / n | _ => - q k / n end.
(** Dcm(Quaternion) *)
Definition dcmv (q : Vec T) : Mat T := fun i j => match i, j with
  | 0, 0 => q 0 * q 0 + q 1 * q 1 - q 2 * q 2 - q 3 * q 3
  | 0, 1 => slit 2 1 * (q 1 * q 2 - q 0 * q 3)
  | 0, _ => slit 2 1 * (q 1 * q 3 + q 0 * q 2)
  | 1, 0 => slit 2 1 * (q 1 * q 2 + q 0 * q 3)
  | 1, 1 => q 0 * q 0 - q 1 * q 1 + q 2 * q 2 - q 3 * q 3
  | 1, _ => slit 2 1 * (q 2 * q 3 - q 0 * q 1)
  | _, 0 => slit 2 1 * (q 1 * q 3 - q 0 * q 2)
  | _, 1 => slit 2 1 * (q 2 * q 3 + q 0 * q 1)
  | _, _ => q 0 * q 0 - q 1 * q 1 - q 2 * q 2 + q 3 * q 3 end.
Definition mvec (M : Mat T) (v : Vec T) : Vec T := fun i => szero + M i 0 * v 0 + M i 1 * v 1 + M i 2 * v 2.

(** resetQuatStateYaw, l.1549-1592, the attitude part; [after]: the quaternion of
    updateYawInRotMat(yaw, R) (RotModel.v); update_buffer as in the code.  The
    covariance part is CovQuat.v *)
Definition resetQuat (after : Vec T) (update_buffer : bool) (s : ost T) : ost T :=
  let d := qnormv (qmulv after (qinvv (e_q s))) in
  let r := o_rst s in
  let s1 := setRst (mkRst (velNE_change r) (velNE_counter r) (velD_change r) (velD_counter r) (posNE_change r) (posNE_counter r)
           (posD_change r) (posD_counter r) d (inc8 (quat_counter r))) (setEQ after s) in
  if update_buffer
  then setOut (smap (withQ (qmulv d)) (o_new s)) (map_all (withQ (qmulv d)) (o_buf s)) s1
  else s1.

(** alignOutputFilter, l.335-358 *)
Definition alignOutputFilter (s : ost T) : ost T :=
  let od := payload (get_oldest zero_out (o_buf s)) in
  let dq := qnormv (qmulv (e_q s) (qinvv (oq od))) in
  let dv := vminus (e_v s) (ov od) in
  let dp := vminus (e_p s) (op od) in
  let b := map_all (fun o => mkOut (qnormv (qmulv dq (oq o))) (vplus (ov o) dv) (vplus (op o) dp)) (o_buf s) in
  setOut (get_newest zero_out b) b s.

(** ** Output predictor, ekf.cpp *)
(** applyCorrectionToOutputBuffer, l.511-524 *)
Definition applyCorrection (cv cp : Vec T) (s : ost T) : ost T :=
  let b := map_all (fun o => mkOut (oq o) (vplus (ov o) cv) (vplus (op o) cp)) (o_buf s) in
  setOut (get_newest zero_out b) b s.

(** applyCorrectionToVerticalOutputBuffer, l.472-504: one turn of the loop *)
Definition vertTurn (sz : nat) (corr : T) (first : bool) (index : nat) (l : list (sample (overt T))) : list (sample (overt T)) :=
  let nx := ((index + 1) mod sz)%nat in
  let l1 := if first then store index (smap (addVV corr) (load zero_vert index l)) l else l in
  let cur := payload (load zero_vert index l1) in
  let nxt := load zero_vert nx l1 in
  let nv := vv (payload nxt) + corr in
  store nx {| time_us := time_us nxt;
              payload := mkVert nv (vi cur + (vv cur + nv) * slit 1 2 * vdt (payload nxt)) (vdt (payload nxt)) |} l1.
(** n turns starting at [index]; [first] on the first one *)
Fixpoint vertLoop (sz : nat) (corr : T) (n : nat) (first : bool) (index : nat) (l : list (sample (overt T))) : list (sample (overt T)) :=
  match n with
  | O => l
  | Datatypes.S m => vertLoop sz corr m false ((index + 1) mod sz)%nat (vertTurn sz corr first index l)
  end.
Definition vertBuf (corr : T) (b : ring (overt T)) : ring (overt T) :=
  {| buffer := vertLoop (size b) corr (size b - 1)%nat true (tail b) (buffer b);
     head := head b; tail := tail b; size := size b; first_write := first_write b |}.
Definition applyVertCorrection (corr : T) (s : ost T) : ost T :=
  let b := vertBuf corr (w_buf s) in
  let n := get_newest zero_vert b in
  setVert {| time_us := time_us n; payload := mkVert (vv (payload n)) (vi (payload n)) szero |} b s.

(** calculateOutputStates, l.321-462.  [expq]: Quatf(AxisAnglef(v)).  The
    filtered yaw rate is in SenseModel.v, the velocity derivative and the IMU
    offset velocity in PublishModel.v. *)
Section Step.
Variable expq : Vec T -> Vec T.
Definition dscale (i : imuin T) : T := i_dt_imu_avg i / i_dt_ekf_avg i.
Definition dangle (i : imuin T) (s : ost T) : Vec T := fun k => i_da i k - e_ab s k * dscale i + o_dacorr s k.
Definition new_quat (i : imuin T) (s : ost T) : Vec T := qnormv (qmulv (oq (payload (o_new s))) (expq (dangle i s))).
(** earth-frame delta velocity, l.342-348 *)
Definition dvel_earth (i : imuin T) (s : ost T) : Vec T :=
  let body := fun k => i_dv i k - e_vb s k * dscale i in
  let e := mvec (dcmv (new_quat i s)) body in
  fun k => if k =? 2 then e k + slit 980665 100000 * i_dvdt i else e k.
(** l.321-392: propagation of the newest states *)
Definition propagate (i : imuin T) (s : ost T) : ost T :=
  let dve := dvel_earth i s in
  let o := payload (o_new s) in
  let v' := vplus (ov o) dve in
  let dpos := fun k => (v' k + ov o k) * (i_dvdt i * slit 1 2) in
  let w := payload (w_new s) in
  let q' := new_quat i s in
  mkO (e_q s) (e_v s) (e_p s) (e_ab s) (e_vb s)
    {| time_us := i_time i; payload := mkOut q' v' (vplus (op o) dpos) |}
    {| time_us := time_us (w_new s); payload := mkVert (vv w + dve 2) (vi w + dpos 2) (vdt w + i_dvdt i) |}
    (o_buf s) (w_buf s) (o_rst s) q' (o_dacorr s) (o_vint s) (o_pint s) (o_track s)
    (o_yaw_delta s + (szero + dangle i s 0 * dcmv (o_Rq s) 2 0 + dangle i s 1 * dcmv (o_Rq s) 2 1 + dangle i s 2 * dcmv (o_Rq s) 2 2)).
(** l.432-433 *)
Definition gain (i : imuin T) (tau : T) : T := i_dt_ekf_avg i / sconstrain tau (i_dt_ekf_avg i) (slit 10 1).
Definition nrm3 (v : Vec T) : T := ssqrt (szero + v 0 * v 0 + v 1 * v 1 + v 2 * v 2).
(** l.395-461: corrections, when the filter ran *)
Definition observe (i : imuin T) (s0 : ost T) : ost T :=
  let s := setVert (w_new s0) (push (w_new s0) (w_buf s0)) (setOut (o_new s0) (push (o_new s0) (o_buf s0)) s0) in
  let od := payload (get_oldest zero_out (o_buf s)) in
  let wd := payload (get_oldest zero_vert (w_buf s)) in
  let qe := qnormv (qmulv (qinvv (e_q s)) (oq od)) in
  let sc := if sle szero (qe 0) then - slit 2 1 else slit 2 1 in
  let dae := fun k => sc * qe (Datatypes.S k) in
  let delay := sfmax (slit (sub64 (i_time i) (i_tdelayed i)) 1 * slit 1 1000000) (i_dt_imu_avg i) in
  let ag := slit 1 2 * i_dt_imu_avg i / delay in
  let vg := gain i (i_velTau i) in
  let pg := gain i (i_posTau i) in
  let vcorr := (e_p s 2 - vi wd) * pg + (e_v s 2 - vv wd) * vg * slit 11 10 in
  let s1 := applyVertCorrection vcorr s in
  let ve := vminus (e_v s) (ov od) in
  let pe := vminus (e_p s) (op od) in
  let vint := vplus (o_vint s) ve in
  let pint := vplus (o_pint s) pe in
  let cv := fun k => ve k * vg + vint k * sq vg * slit 1 10 in
  let cp := fun k => pe k * pg + pint k * sq pg * slit 1 10 in
  let s2 := applyCorrection cv cp s1 in
  mkO (e_q s2) (e_v s2) (e_p s2) (e_ab s2) (e_vb s2) (o_new s2) (w_new s2) (o_buf s2) (w_buf s2) (o_rst s2) (o_Rq s2)
    (fun k => dae k * ag) vint pint
    (fun k => match k with 0 => nrm3 dae | 1 => nrm3 ve | _ => nrm3 pe end) (o_yaw_delta s2).
Definition calculateOutputStates (i : imuin T) (s : ost T) : ost T :=
  let s1 := propagate i s in if i_updated i then observe i s1 else s1.
End Step.
End Out.

(** * Direct velocity / position / height fusion: gates and bookkeeping

    EKF/vel_pos_fusion.cpp l.48-249.  Parametric in the scalar. *)
From Verif Require Import CBase Scalar CovPredGen CovModel.
Open Scope nat_scope.

Record vpst (T : Type) := mkVp {
  v_c : covctx T; v_s : covst T;
  (** _innov_check_fail_status.flags.reject_{hor_vel,ver_vel,hor_pos,ver_pos} *)
  v_rej_hvel : bool; v_rej_vvel : bool; v_rej_hpos : bool; v_rej_vpos : bool;
  (** _time_last_{hor_vel,ver_vel,hor_pos,delpos,hgt}_fuse *)
  v_t_hvel : Z; v_t_vvel : Z; v_t_hpos : Z; v_t_delpos : Z; v_t_hgt : Z;
  (** _fault_status.flags.bad_vel_N/E/D, bad_pos_N/E/D, indexed 0..5 *)
  v_bad : nat -> bool;
  (** _last_fail_hvel_innov *)
  v_fail0 : T; v_fail1 : T;
  (** _vert_vel_innov_ratio, _vert_pos_innov_ratio and the times they were set *)
  v_vvel_ratio : T; v_vpos_ratio : T; v_vvel_time : Z; v_vpos_time : Z;
  (** _fuse_hpos_as_odom *)
  v_odom : bool }.
Arguments mkVp {T}. Arguments v_c {T}. Arguments v_s {T}. Arguments v_rej_hvel {T}. Arguments v_rej_vvel {T}.
Arguments v_rej_hpos {T}. Arguments v_rej_vpos {T}. Arguments v_t_hvel {T}. Arguments v_t_vvel {T}. Arguments v_t_hpos {T}.
Arguments v_t_delpos {T}. Arguments v_t_hgt {T}. Arguments v_bad {T}. Arguments v_fail0 {T}. Arguments v_fail1 {T}.
Arguments v_vvel_ratio {T}. Arguments v_vpos_ratio {T}. Arguments v_vvel_time {T}. Arguments v_vpos_time {T}. Arguments v_odom {T}.

Section VP.
Context {T : Type} {S : Scalar T}.
Open Scope scal_scope.

(** sq(innov) / (sq(gate) * innov_var) *)
Definition ratio (innov gate var : T) : T := sq innov / (sq gate * var).

(** fuseVelPosHeight with setVelPosFaultStatus, l.181-249 *)
Definition vpFuse (innov var : T) (k : nat) (v : vpst T) : vpst T :=
  let '(c', s', healthy) := fuseVelPosHeight innov var k (v_c v) (v_s v) in
  mkVp c' s' (v_rej_hvel v) (v_rej_vvel v) (v_rej_hpos v) (v_rej_vpos v) (v_t_hvel v) (v_t_vvel v) (v_t_hpos v)
    (v_t_delpos v) (v_t_hgt v) (fun i => if i =? k then negb healthy else v_bad v i) (v_fail0 v) (v_fail1 v)
    (v_vvel_ratio v) (v_vpos_ratio v) (v_vvel_time v) (v_vpos_time v) (v_odom v).

(** the results written through the reference arguments: innovation variances and test ratio *)
Record vpres := mkRes { r_v : vpst T; r_var0 : T; r_var1 : T; r_ratio : T; r_ok : bool }.

(** fuseHorizontalVelocity, l.48-76 *)
Definition fuseHorizontalVelocity (i0 i1 gate o0 o1 : T) (v : vpst T) : vpres :=
  let P := cP (v_s v) in let now := x_time_last_imu (v_c v) in
  let v0 := P 4 4 + o0 in let v1 := P 5 5 + o1 in
  let tr := sfmax (ratio i0 gate v0) (ratio i1 gate v1) in
  if sle tr (slit 1 1) then
    let v' := mkVp (v_c v) (v_s v) false (v_rej_vvel v) (v_rej_hpos v) (v_rej_vpos v) now (v_t_vvel v) (v_t_hpos v)
      (v_t_delpos v) (v_t_hgt v) (v_bad v) (v_fail0 v) (v_fail1 v) (v_vvel_ratio v) (v_vpos_ratio v) (v_vvel_time v) (v_vpos_time v) (v_odom v) in
    mkRes (vpFuse i1 v1 1 (vpFuse i0 v0 0 v')) v0 v1 tr true
  else
    mkRes (mkVp (v_c v) (v_s v) true (v_rej_vvel v) (v_rej_hpos v) (v_rej_vpos v) (v_t_hvel v) (v_t_vvel v) (v_t_hpos v)
      (v_t_delpos v) (v_t_hgt v) (v_bad v) i0 i1 (v_vvel_ratio v) (v_vpos_ratio v) (v_vvel_time v) (v_vpos_time v) (v_odom v)) v0 v1 tr false.

(** the innovation used by the vertical functions, l.92-99, l.160-167 *)
Definition usedInnov (bad_vert pass : bool) (innov gate var : T) : T :=
  if bad_vert && negb pass then sconstrain innov (- (gate * ssqrt var)) (gate * ssqrt var) else innov.

(** fuseVerticalVelocity, l.78-113; bad_vert: _bad_vert_accel_detected *)
Definition fuseVerticalVelocity (bad_vert : bool) (i2 gate o2 : T) (v : vpst T) : vpres :=
  let P := cP (v_s v) in let now := x_time_last_imu (v_c v) in
  let v2 := P 6 6 + o2 in
  let tr := ratio i2 gate v2 in
  let vr := i2 / ssqrt v2 in
  let pass := sle tr (slit 1 1) in
  let ok := pass || bad_vert in
  if ok then
    mkRes (vpFuse (usedInnov bad_vert pass i2 gate v2) v2 2
      (mkVp (v_c v) (v_s v) (v_rej_hvel v) false (v_rej_hpos v) (v_rej_vpos v) (v_t_hvel v) now (v_t_hpos v)
        (v_t_delpos v) (v_t_hgt v) (v_bad v) (v_fail0 v) (v_fail1 v) vr (v_vpos_ratio v) now (v_vpos_time v) (v_odom v))) v2 v2 tr true
  else
    mkRes (mkVp (v_c v) (v_s v) (v_rej_hvel v) true (v_rej_hpos v) (v_rej_vpos v) (v_t_hvel v) (v_t_vvel v) (v_t_hpos v)
        (v_t_delpos v) (v_t_hgt v) (v_bad v) (v_fail0 v) (v_fail1 v) vr (v_vpos_ratio v) now (v_vpos_time v) (v_odom v)) v2 v2 tr false.

(** fuseHorizontalPosition, l.115-149 *)
Definition fuseHorizontalPosition (inhibit_gate : bool) (i0 i1 gate o0 o1 : T) (v : vpst T) : vpres :=
  let P := cP (v_s v) in let now := x_time_last_imu (v_c v) in
  let v0 := P 7 7 + o0 in let v1 := P 8 8 + o1 in
  let tr := sfmax (ratio i0 gate v0) (ratio i1 gate v1) in
  if sle tr (slit 1 1) || inhibit_gate then
    if inhibit_gate && sgt tr (sq (slit 100 1 / gate)) then mkRes v v0 v1 tr false
    else
      let v' := mkVp (v_c v) (v_s v) (v_rej_hvel v) (v_rej_vvel v) false (v_rej_vpos v) (v_t_hvel v) (v_t_vvel v)
        (if v_odom v then v_t_hpos v else now) (if v_odom v then now else v_t_delpos v) (v_t_hgt v) (v_bad v) (v_fail0 v) (v_fail1 v)
        (v_vvel_ratio v) (v_vpos_ratio v) (v_vvel_time v) (v_vpos_time v) (v_odom v) in
      mkRes (vpFuse i1 v1 4 (vpFuse i0 v0 3 v')) v0 v1 tr true
  else
    mkRes (mkVp (v_c v) (v_s v) (v_rej_hvel v) (v_rej_vvel v) true (v_rej_vpos v) (v_t_hvel v) (v_t_vvel v) (v_t_hpos v)
      (v_t_delpos v) (v_t_hgt v) (v_bad v) (v_fail0 v) (v_fail1 v) (v_vvel_ratio v) (v_vpos_ratio v) (v_vvel_time v) (v_vpos_time v) (v_odom v)) v0 v1 tr false.

(** fuseVerticalPosition, l.151-178 *)
Definition fuseVerticalPosition (bad_vert : bool) (i2 gate o2 : T) (v : vpst T) : vpres :=
  let P := cP (v_s v) in let now := x_time_last_imu (v_c v) in
  let v2 := P 9 9 + o2 in
  let tr := ratio i2 gate v2 in
  let vr := i2 / ssqrt v2 in
  let pass := sle tr (slit 1 1) in
  let ok := pass || bad_vert in
  if ok then
    mkRes (vpFuse (usedInnov bad_vert pass i2 gate v2) v2 5
      (mkVp (v_c v) (v_s v) (v_rej_hvel v) (v_rej_vvel v) (v_rej_hpos v) false (v_t_hvel v) (v_t_vvel v) (v_t_hpos v)
        (v_t_delpos v) now (v_bad v) (v_fail0 v) (v_fail1 v) (v_vvel_ratio v) vr (v_vvel_time v) now (v_odom v))) v2 v2 tr true
  else
    mkRes (mkVp (v_c v) (v_s v) (v_rej_hvel v) (v_rej_vvel v) (v_rej_hpos v) true (v_t_hvel v) (v_t_vvel v) (v_t_hpos v)
        (v_t_delpos v) (v_t_hgt v) (v_bad v) (v_fail0 v) (v_fail1 v) (v_vvel_ratio v) vr (v_vvel_time v) now (v_odom v)) v2 v2 tr false.
End VP.
Arguments vpres : clear implicits.

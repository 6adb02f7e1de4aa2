(** * Heading measurement, EKF/mag_fusion.cpp fuseHeading, over the reals

    The sources of the heading measurement on top of fuseHeading of
    FusionModel.v.  atan2f, cosf, sinf, wrap_pi are the real functions. *)
From Coq Require Import Reals.
From Verif Require Import CBase Scalar RealGeom RotModel GeoModel CovModel FusionModel FusionSpec.
Open Scope R_scope.

(** mag_fusion.cpp l.726-733, 778-786 (the same expression with the yaw function
    of the sequence, updateYawInRotMat): magnetic heading of the bias-corrected
    sample in an attitude with the yaw removed *)
Definition magHeading (r : M3) (mag bias : V3) (decl : R) : R :=
  let e := mapp (updateYawInRotMat 0 r) (vsub mag bias) in - atan2 (vy e) (vx e) + decl.
Record headin := mkHead {
  (** control flags mag_hdg, ev_yaw, vehicle_at_rest and _is_yaw_fusion_inhibited *)
  hi_mag : bool; hi_ev : bool; hi_rest : bool; hi_inhibit : bool;
  (** _params.mag_heading_noise, _ev_sample_delayed.angVar, _params.quat_max_variance, _params.heading_innov_gate *)
  hi_noise : R; hi_ev_var : R; hi_max_var : R; hi_gate : R;
  (** _mag_sample_delayed.mag, _ev_sample_delayed.quat *)
  hi_sample : V3; hi_evq : Q4 }.
(** fuseHeading, l.702-828: new object and new _last_static_yaw *)
Definition headingFusion (resetAll : Vec R -> Mat R -> Mat R) (on_ground : bool) (d : declin R) (i : headin) (static : R) (f : fus R) : fus R * R :=
  let x := fx f in
  let r := dcm (quat_of x) in
  let use321 := shouldUse321 r in
  let pred := if use321 then yaw321 r else yaw312 r in
  let decl := getMagDeclination atan2 (d_in_flight d) (d_geo d) (d_gps d) (d_param d) x in
  let meas_mag := magHeading r (hi_sample i) (mkV (x 19%nat) (x 20%nat) (x 21%nat)) decl in
  let meas_ev := if use321 then yaw321_q (hi_evq i) else yaw312_q (hi_evq i) in
  fuseHeading wrap_pi resetAll use321 on_ground
    (mkHdg (hi_mag i) (hi_ev i) (hi_inhibit i) (hi_rest i) (hi_noise i) (hi_ev_var i) (hi_max_var i) meas_mag meas_ev)
    pred static (hi_gate i) f.

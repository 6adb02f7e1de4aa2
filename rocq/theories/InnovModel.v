(** * Reported innovations, innovation variances and test ratios

    EKF/control.cpp l.258-326, 710-720, 1105-1168, 1323-1350; EKF/ekf_helper.cpp
    l.604-670 (getters), 1438-1452, 1513-1547; EKF/ekf.h l.68-120 (getters);
    EKF/mag_fusion.cpp l.585, 637-662; EKF/optflow_fusion.cpp l.111-112, 173-243;
    EKF/terrain_estimator.cpp l.220-272.  Parametric in the scalar.  The values of
    the innovations and observation variances are arguments (ObsModel.v,
    FusionModel.v, TerrainModel.v compute them); airspeed, sideslip, drag,
    magnetometer and height above ground reports are not modelled here. *)
From Coq Require Import ZArith List Bool.
From Verif Require Import CBase Scalar CovPredGen CovModel VelPosModel.
Import ListNotations.
Open Scope nat_scope.

(** the reports: _gps_vel_*, _gps_pos_*, _ev_vel_*, _ev_pos_*, _baro_hgt_*, _rng_hgt_*, _aux_vel_* *)
Inductive src := GpsVel | GpsPos | EvVel | EvPos | Baro | Rng | Aux.
Definition src_eqb (a b : src) : bool := match a, b with
  | GpsVel, GpsVel | GpsPos, GpsPos | EvVel, EvVel | EvPos, EvPos | Baro, Baro | Rng, Rng | Aux, Aux => true | _, _ => false end.
(** height sources of controlHeightFusion *)
Inductive hsrc := HBaro | HGps | HRng | HEv.
Definition hrep (h : hsrc) : src := match h with HBaro => Baro | HGps => GpsPos | HRng => Rng | HEv => EvPos end.

Section I.
Context {T : Type} {S : Scalar T}.
Open Scope scal_scope.
(** X_innov, X_innov_var, X_test_ratio(0), X_test_ratio(1) *)
Record rep := Rep { ri : Vec T; rv : Vec T; rh : T; rz : T }.
Definition rep0 : rep := Rep (fun _ => szero) (fun _ => szero) szero szero.
(** filter, reports, heading (innovation, variance, ratio), flow (innovations, variances, ratio) *)
Record ist := Ist { st_v : vpst T; st_r : src -> rep; hd_i : T; hd_v : T; hd_r : T; fl_i : Vec T; fl_v : Vec T; fl_r : T }.
Definition upd (s : src) (r : rep) (f : src -> rep) : src -> rep := fun k => if src_eqb k s then r else f k.
Definition setV (v : vpst T) (f : src -> rep) (x : ist) : ist := Ist v f (hd_i x) (hd_v x) (hd_r x) (fl_i x) (fl_v x) (fl_r x).
Definition xy (a b : T) (f : Vec T) : Vec T := fun k => match k with 0 => a | 1 => b | _ => f k end.
Definition zz (a : T) (f : Vec T) : Vec T := fun k => match k with 2 => a | _ => f k end.

Inductive iop :=
  (** GPS (true) or vision velocity: control.cpp l.710-719, 310-326; innovations, gate parameter, observation variances *)
  | IVel (gps bad : bool) (i : Vec T) (gate : T) (o : Vec T)
  (** auxiliary velocity, l.1346-1350 *)
  | IAux (i : Vec T) (gate : T) (o : Vec T)
  (** GPS (true) or vision horizontal position: l.711, 720, 258-301 *)
  | IPos (gps : bool) (i0 i1 gate o0 o1 : T)
  (** synthetic position, l.1323-1328 *)
  | ISynth (i0 i1 o : T)
  (** height, l.1105-1168 *)
  | IHgt (h : hsrc) (bad : bool) (i gate o : T)
  (** stopGpsFusion, stopEvFusion, stopFlowFusion, ekf_helper.cpp l.1431-1452, 1506-1527, 1541-1547 *)
  | IStopGps | IStopEv | IStopFlow
  (** fuseHeading, mag_fusion.cpp l.585, 637-662; ground: not in the air for five seconds *)
  | IHeading (ground : bool) (i var gate : T)
  (** fuseOptFlow, optflow_fusion.cpp l.111-112, 173, 229, 241-243 *)
  | IFlow (i v : Vec T) (gate : T)
  (** fuseFlowForTerrain, terrain_estimator.cpp l.224-263 *)
  | ITerrain (i v : Vec T)
  (** everything else the filter does *)
  | IOther (v : vpst T).

Definition istep (op : iop) (x : ist) : ist :=
  let v := st_v x in let f := st_r x in
  match op with
  | IVel gps bad i gate o =>
      let g := sfmax gate (slit 1 1) in let s := if gps then GpsVel else EvVel in
      let r1 := fuseHorizontalVelocity (i 0) (i 1) g (o 0) (o 1) v in
      let r2 := fuseVerticalVelocity bad (i 2) g (o 2) (r_v r1) in
      setV (r_v r2) (upd s (Rep i (zz (r_var0 r2) (xy (r_var0 r1) (r_var1 r1) (rv (f s)))) (r_ratio r1) (r_ratio r2)) f) x
  | IAux i gate o =>
      let r1 := fuseHorizontalVelocity (i 0) (i 1) gate (o 0) (o 1) v in
      setV (r_v r1) (upd Aux (Rep i (xy (r_var0 r1) (r_var1 r1) (rv (f Aux))) (r_ratio r1) (rz (f Aux))) f) x
  | IPos gps i0 i1 gate o0 o1 =>
      let s := if gps then GpsPos else EvPos in
      let r := fuseHorizontalPosition false i0 i1 (sfmax gate (slit 1 1)) o0 o1 v in
      setV (r_v r) (upd s (Rep (xy i0 i1 (ri (f s))) (xy (r_var0 r) (r_var1 r) (rv (f s))) (r_ratio r) (rz (f s))) f) x
  | ISynth i0 i1 o =>
      let r := fuseHorizontalPosition true i0 i1 (slit 3 1) o o v in
      setV (r_v r) (upd GpsPos (Rep (xy i0 i1 (ri (f GpsPos))) (xy (r_var0 r) (r_var1 r) (rv (f GpsPos))) (r_ratio r) (rz (f GpsPos))) f) x
  | IHgt h bad i gate o =>
      let s := hrep h in let r := fuseVerticalPosition bad i (sfmax gate (slit 1 1)) o v in
      setV (r_v r) (upd s (Rep (zz i (ri (f s))) (zz (r_var0 r) (rv (f s))) (rh (f s)) (r_ratio r)) f) x
  | IStopGps => setV v (upd GpsVel rep0 (upd GpsPos rep0 f)) x
  | IStopEv => setV v (upd EvVel rep0 (upd EvPos rep0 f)) x
  | IStopFlow => Ist v f (hd_i x) (hd_v x) (hd_r x) (fun _ => szero) (fun _ => szero) szero
  | IHeading ground i var gate =>
      let tr := sq i / (sq gate * var) in
      let i' := if sgt tr (slit 1 1)
                then (if ground then let l := ssqrt (sq gate * var) in sconstrain i (- l) l else hd_i x)
                else i in
      Ist v f i' var tr (fl_i x) (fl_v x) (fl_r x)
  | IFlow i w gate =>
      let g := (if sgt gate (slit 1 1) then gate else slit 1 1) in
      let t0 := sq (i 0) / (sq g * w 0) in let t1 := sq (i 1) / (sq g * w 1) in
      Ist v f (hd_i x) (hd_v x) (hd_r x) i w (if sgt t0 t1 then t0 else t1)
  | ITerrain i w => Ist v f (hd_i x) (hd_v x) (hd_r x) i w (fl_r x)
  | IOther v' => setV v' f x
  end.
Definition irun (l : list iop) (x : ist) : ist := fold_left (fun x o => istep o x) l x.
(** start: all reports zero (member initialisers) *)
Definition istart (v : vpst T) : ist := Ist v (fun _ => rep0) szero szero szero (fun _ => szero) (fun _ => szero) szero.
End I.
Arguments rep : clear implicits. Arguments ist : clear implicits. Arguments iop : clear implicits.

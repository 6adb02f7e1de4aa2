(** * Down-sampling of the specific force used by drag fusion:
      EKF/estimator_interface.cpp setDragData l.428-476 and its call in setIMUData l.70-85 *)
From Coq Require Import ZArith List Bool.
From Verif Require Import CBase Scalar F32 RealGeom FilterModel.
Import ListNotations.
Open Scope Z_scope.

Section D.
Context {T : Type} {S : Scalar T}.

(** the fields of imuSample that setDragData reads: time_us, delta_vel(0), delta_vel(1), delta_vel_dt *)
Record dragIn := DragIn { di_t : Z; di_x : T; di_y : T; di_dt : T }.
(** _drag_sample_count, _drag_down_sampled.accelXY / time_us, _drag_sample_time_dt
    (estimator_interface.h l.287, l.424-425) *)
Record dragSt := DragSt { dr_n : Z; dr_x : T; dr_y : T; dr_t : Z; dr_dt : T }.
(** dragSample: time_us, accelXY (common.h) *)
Record dragOut := DragOut { do_t : Z; do_x : T; do_y : T }.
(** member initialisers and l.469-473 *)
Definition drag0 : dragSt := DragSt 0 szero szero 0 szero.

(** setDragData l.428-476: [on] is MASK_USE_DRAG, [ratio] is min_sample_ratio
    ([InterfaceModel.drag_ratio], l.453-457).  Simplification: the buffer is
    allocated (l.436-443), and the pushed sample is returned instead of stored. *)
Definition setDragData (on : bool) (ratio : Z) (x : dragIn) (s : dragSt) : dragSt * option dragOut :=
  if negb on then (s, None) else
  let n := u8 (dr_n s + 1) in
  let ax := sadd (dr_x s) (di_x x) in
  let ay := sadd (dr_y s) (di_y x) in
  let t := add64 (dr_t s) (di_t x) in
  let dt := sadd (dr_dt s) (di_dt x) in
  if n >=? ratio then (drag0, Some (DragOut (t / n) (sdiv ax dt) (sdiv ay dt)))
  else (DragSt n ax ay t dt, None).

Fixpoint dragRun (ratio : Z) (l : list (bool * dragIn)) (s : dragSt) : list dragOut * dragSt :=
  match l with
  | [] => ([], s)
  | (on, x) :: r =>
      let '(s1, o) := setDragData on ratio x s in
      let '(os, s2) := dragRun ratio r s1 in
      (match o with Some y => y :: os | None => os end, s2)
  end.
End D.
Arguments dragIn T : clear implicits.
Arguments dragSt T : clear implicits.
Arguments dragOut T : clear implicits.

(** setIMUData l.70-85: setDragData receives the RAW imu_sample, and only when the
    down-sampler has just completed a sample.  The vectors of [FilterModel] are
    exact; the integration period enters by its real value. *)
Section I.
Variable qlog : Q4 -> V3.
Variable target : f32.
Definition rawDrag (x : imu_sample) : dragIn R := DragIn (i_time x) (vx (i_dvel x)) (vy (i_dvel x)) (R32 (i_dvel_dt x)).
(** the raw samples on which update() returns true *)
Fixpoint completing (l : list imu_sample) (s : ds_state) : list imu_sample :=
  match l with
  | [] => []
  | x :: r =>
      let '(b, s1) := ds_update qlog target x s in
      if b then x :: completing r (snd (ds_get s1)) else completing r s1
  end.
(** the drag samples buffered for a stream of setIMUData calls, with drag fusion selected *)
Definition dragStream (ratio : Z) (l : list imu_sample) : list (dragOut R) :=
  fst (dragRun ratio (map (fun x => (true, rawDrag x)) (completing l ds_init)) drag0).
End I.

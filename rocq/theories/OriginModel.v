(** * The local origin and its effect on the states

    EKF/ekf_helper.cpp l.686-733 (getEkfGlobalOrigin, setEkfGlobalOrigin),
    EKF/gps_checks.cpp l.59-146 (collect_gps), EKF/estimator_interface.cpp
    l.216-230 (local position of a GPS sample).  Exact reals: rounding of
    double to float is not modelled.  The GPS checks are GpsModel.v; the map
    projection GeoModel.v; the state resets OutputModel.v.  The magnetic
    tables looked up, heading reset requests, origin uncertainty and events
    are not modelled here. *)
From Coq Require Import Reals ZArith Bool.
From Verif Require Import CBase Scalar GeoModel RingBufferModel OutputModel.
Open Scope R_scope.

(** _pos_ref, _gps_alt_ref, _NED_origin_initialised, latitude (rad) for which _earth_rate_NED was computed; states and
    outputs; _terrain_vpos, _baro_hgt_offset, _hgt_sensor_offset *)
Record org := Org { g_map : mapref; g_alt : R; g_ned : bool; g_rate : R; g_o : ost R; g_terrain : R; g_boff : R; g_hoff : R }.
Definition pos (s : org) (k : nat) : R := e_p (g_o s) k.

(** setEkfGlobalOrigin, ekf_helper.cpp l.696-733; aiding: isHorizontalAidingActive(); map_projection_init_timestamped
    always succeeds.  An uninitialised map gives None in reproject/project, which the code has excluded *)
Definition setGlobalOrigin (lat lon alt : R) (now : Z) (aiding : bool) (s : org) : org :=
  let m := map_init lat lon now in
  match (if mr_init (g_map s) && aiding then reproject (g_map s) (pos s 0%nat) (pos s 1%nat) else None) with
  | Some (clat, clon) =>
      let calt := - pos s 2%nat + g_alt s in
      match project m clat clon with
      | Some (x, y) =>
          let o1 := resetHorizontalPositionTo (fun k => match k with O => x | _ => y end) (g_o s) in
          Org m alt (g_ned s) (g_rate s) (resetVerticalPositionTo (alt - calt) o1) (g_terrain s) (g_boff s) (g_hoff s)
      | None => s
      end
  | None => Org m alt (g_ned s) (g_rate s) (g_o s) (g_terrain s) (g_boff s) (g_hoff s)
  end.

(** collect_gps, gps_checks.cpp l.59-146; passed: gps_is_good; alt in metres.  Before the origin is set a 2D fix sets the earth
    rate (l.118-141; rough: fix_type >= 2 and eph < 1000).  Result: state and whether the sample may be given a local position *)
Definition collectGps (filter_init passed aiding rough : bool) (fix_type : Z) (lat lon alt : R) (now : Z) (s : org) : org * bool :=
  let s' :=
    if filter_init && negb (g_ned s) && passed then
      let m := if mr_init (g_map s) then g_map s
               else let m0 := map_init lat lon now in
                    if aiding then match reproject m0 (- pos s 0%nat) (- pos s 1%nat) with
                                   | Some (a, b) => map_init a b now | None => m0 end
                    else m0 in
      Org m (alt + pos s 2%nat) true (mr_lat m) (g_o s) (g_terrain s) (g_boff s) (g_hoff s)
    else if negb (g_ned s) && rough then Org (g_map s) (g_alt s) (g_ned s) (radians lat) (g_o s) (g_terrain s) (g_boff s) (g_hoff s)
    else s in
  (s', g_ned s' && (3 <=? fix_type)%Z).

(** setGpsData, estimator_interface.cpp l.216-230: local position stored in the sample *)
Definition gpsLocal (collected : bool) (lat lon : R) (s : org) : R * R :=
  if collected then match project (g_map s) lat lon with Some xy => xy | None => (0, 0) end else (0, 0).

(** setGpsData, l.191-233: a message is looked at only if the data rate allows it (rate_ok), GPS is needed for something
    (need) and the fix is better than 2D; then origin handling and the local position pushed into the buffer *)
Definition deliverGps (rate_ok need filter_init passed aiding rough : bool) (fix_type : Z) (lat lon alt : R) (now : Z) (s : org)
  : org * option (R * R) :=
  if rate_ok && need && (2 <? fix_type)%Z then
    let '(s', c) := collectGps filter_init passed aiding rough fix_type lat lon alt now s in (s', Some (gpsLocal c lat lon s'))
  else (s, None).

(** getEkfGlobalOrigin, ekf_helper.cpp l.686-694 (the time stamp is not modelled) *)
Definition getGlobalOrigin (s : org) : R * R * R * bool := (degrees (mr_lat (g_map s)), degrees (mr_lon (g_map s)), g_alt s, g_ned s).

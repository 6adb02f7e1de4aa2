(** * Geodesy helpers, geo/geo.cpp, over the reals

    double/float rounding is not modelled; sin, cos, asin, acos, atan2, sqrt
    are the real functions.  Latitudes and longitudes are in degrees.  out
    parameters are returned; an uninitialised reference gives None (return
    value -1, outputs untouched). *)
From Coq Require Import Reals Lra Bool ZArith.
From Verif Require Import RotModel.
Open Scope R_scope.

(** CONSTANTS_RADIUS_OF_EARTH, geo.h l.61 *)
Definition RE : R := 6371000.
(** math::radians, math::degrees, mathlib.h l.78-89 *)
Definition radians (d : R) : R := d / 180 * PI.
Definition degrees (r : R) : R := r * 180 / PI.
(** math::constrain, mathlib.h l.72-76 *)
Definition rconstrain (v lo hi : R) : R := if Rlt_dec v lo then lo else if Rlt_dec hi v then hi else v.
(** matrix::wrap_pi (PX4-Matrix): wrap into [-pi, pi) *)
Definition wrap_pi (x : R) : R :=
  if Rle_dec (- PI) x then (if Rlt_dec x PI then x else x - 2 * PI * IZR (Int_part ((x - - PI) * / (2 * PI))))
  else x - 2 * PI * IZR (Int_part ((x - - PI) * / (2 * PI))).
(** matrix::wrap_2pi: into [0, 2 pi) *)
Definition wrap_2pi (x : R) : R :=
  if Rle_dec 0 x then (if Rlt_dec x (2 * PI) then x else x - 2 * PI * IZR (Int_part ((x - 0) * / (2 * PI))))
  else x - 2 * PI * IZR (Int_part ((x - 0) * / (2 * PI))).

(** map_projection_reference_s, geo.h l.75-82 *)
Record mapref := mkMap { mr_lat : R; mr_lon : R; mr_sin : R; mr_cos : R; mr_time : Z; mr_init : bool }.
(** map_projection_init_timestamped, geo.cpp l.71-82 *)
Definition map_init (lat_0 lon_0 : R) (t : Z) : mapref :=
  mkMap (radians lat_0) (radians lon_0) (sin (radians lat_0)) (cos (radians lat_0)) t true.
(** map_projection_reference, l.90-100 *)
Definition map_reference (r : mapref) : option (R * R) := if mr_init r then Some (mr_lat r, mr_lon r) else None.
(** map_projection_project, l.102-129 *)
Definition project (r : mapref) (lat lon : R) : option (R * R) :=
  if mr_init r then
    let lat_rad := radians lat in let lon_rad := radians lon in
    let sin_lat := sin lat_rad in let cos_lat := cos lat_rad in
    let cos_d_lon := cos (lon_rad - mr_lon r) in
    let arg := rconstrain (mr_sin r * sin_lat + mr_cos r * cos_lat * cos_d_lon) (-1) 1 in
    let c := acos arg in
    let k := if Rlt_dec 0 (Rabs c) then c / sin c else 1 in
    Some (k * (mr_cos r * sin_lat - mr_sin r * cos_lat * cos_d_lon) * RE, k * cos_lat * sin (lon_rad - mr_lon r) * RE)
  else None.
(** map_projection_reproject, l.131-157 *)
Definition reproject (r : mapref) (x y : R) : option (R * R) :=
  if mr_init r then
    let x_rad := x / RE in let y_rad := y / RE in
    let c := sqrt (x_rad * x_rad + y_rad * y_rad) in
    if Rlt_dec 0 (Rabs c) then
      let sin_c := sin c in let cos_c := cos c in
      let lat_rad := asin (cos_c * mr_sin r + x_rad * sin_c * mr_cos r / c) in
      let lon_rad := mr_lon r + atan2 (y_rad * sin_c) (c * mr_cos r * cos_c - x_rad * mr_sin r * sin_c) in
      Some (degrees lat_rad, degrees lon_rad)
    else Some (degrees (mr_lat r), degrees (mr_lon r))
  else None.

(** get_distance_to_next_waypoint, l.159-172 *)
Definition get_distance (lat_now lon_now lat_next lon_next : R) : R :=
  let d_lat := radians lat_next - radians lat_now in
  let d_lon := radians lon_next - radians lon_now in
  let a := sin (d_lat / 2) * sin (d_lat / 2) + sin (d_lon / 2) * sin (d_lon / 2) * cos (radians lat_now) * cos (radians lat_next) in
  let c := atan2 (sqrt a) (sqrt (1 - a)) in
  RE * 2 * c.
(** get_bearing_to_next_waypoint, l.203-217 *)
Definition get_bearing (lat_now lon_now lat_next lon_next : R) : R :=
  let lat_now_rad := radians lat_now in let lat_next_rad := radians lat_next in
  let cos_lat_next := cos lat_next_rad in
  let d_lon := radians (lon_next - lon_now) in
  let y := sin d_lon * cos_lat_next in
  let x := cos lat_now_rad * sin lat_next_rad - sin lat_now_rad * cos_lat_next * cos d_lon in
  wrap_pi (atan2 y x).
(** waypoint_from_heading_and_distance, l.186-201 *)
Definition waypoint_from_heading (lat_start lon_start bearing dist : R) : R * R :=
  let b := wrap_2pi bearing in
  let rr := dist / RE in
  let la := radians lat_start in let lo := radians lon_start in
  let lat_t := asin (sin la * cos rr + cos la * sin rr * cos b) in
  let lon_t := lo + atan2 (sin b * sin rr * cos la) (cos rr - sin la * sin lat_t) in
  (degrees lat_t, degrees lon_t).
(** FLT_EPSILON *)
Definition flt_eps : R := / 8388608.
(** create_waypoint_from_line_and_dist, l.174-184 *)
Definition waypoint_on_line (lat_A lon_A lat_B lon_B dist : R) : R * R :=
  if Rlt_dec (Rabs dist) flt_eps then (lat_A, lon_A)
  else waypoint_from_heading lat_A lon_A (get_bearing lat_A lon_A lat_B lon_B) dist.
(** get_vector_to_next_waypoint, l.219-229 *)
Definition get_vector (lat_now lon_now lat_next lon_next : R) : R * R :=
  let a := radians lat_now in let b := radians lat_next in
  let d_lon := radians lon_next - radians lon_now in
  (RE * (cos a * sin b - sin a * cos b * cos d_lon), RE * sin d_lon * cos b).
(** get_vector_to_next_waypoint_fast, l.231-245 *)
Definition get_vector_fast (lat_now lon_now lat_next lon_next : R) : R * R :=
  let d_lat := radians lat_next - radians lat_now in
  let d_lon := radians lon_next - radians lon_now in
  (RE * d_lat, RE * d_lon * cos (radians lat_now)).
(** add_vector_to_global_position, l.247-254 *)
Definition add_vector (lat_now lon_now v_n v_e : R) : R * R :=
  (degrees (radians lat_now + v_n / RE), degrees (radians lon_now + v_e / (RE * cos (radians lat_now)))).

(** crosstrack_error_s, geo.h l.68-72 *)
Record xtrack := mkX { past_end : bool; xdist : R; xbearing : R }.
(** get_distance_to_line, l.258-300: return value and result *)
Definition get_distance_to_line (lat_now lon_now lat_start lon_start lat_end lon_end : R) : Z * xtrack :=
  let dist_to_end := get_distance lat_now lon_now lat_end lon_end in
  if Rlt_dec dist_to_end (1 / 10) then ((-1)%Z, mkX false 0 0) else
  let bearing_end := get_bearing lat_now lon_now lat_end lon_end in
  let bearing_track := get_bearing lat_start lon_start lat_end lon_end in
  let bearing_diff := wrap_pi (bearing_track - bearing_end) in
  if orb (if Rlt_dec (PI / 2) bearing_diff then true else false) (if Rlt_dec bearing_diff (- (PI / 2)) then true else false) then (0%Z, mkX true 0 0) else
  (0%Z, mkX false (dist_to_end * sin bearing_diff)
     (if Rle_dec 0 (sin bearing_diff) then wrap_pi (bearing_track - PI / 2) else wrap_pi (bearing_track + PI / 2))).
(** get_distance_to_arc, l.302-404 *)
Definition get_distance_to_arc (lat_now lon_now lat_center lon_center radius arc_start_bearing arc_sweep : R) : Z * xtrack :=
  let bearing_now := get_bearing lat_now lon_now lat_center lon_center in
  if Rlt_dec radius (1 / 10) then ((-1)%Z, mkX false 0 0) else
  let '(s, e) :=
    if Rle_dec 0 arc_sweep then
      let e := arc_start_bearing + arc_sweep in
      (arc_start_bearing, if Rlt_dec (2 * PI) e then e - 2 * PI else e)
    else
      let s := arc_start_bearing - arc_sweep in
      ((if Rlt_dec s 0 then s + 2 * PI else s), arc_start_bearing) in
  let in_sector :=
    orb (andb (if Rle_dec s e then true else false) (andb (if Rle_dec s bearing_now then true else false) (if Rle_dec bearing_now e then true else false)))
        (andb (if Rlt_dec e s then true else false) (orb (if Rlt_dec s bearing_now then true else false) (if Rlt_dec bearing_now e then true else false))) in
  if in_sector then
    let dc := get_distance lat_now lon_now lat_center lon_center in
    if Rle_dec dc radius then (0%Z, mkX false (radius - dc) (wrap_pi (bearing_now + PI)))
    else (0%Z, mkX false (dc - radius) (wrap_pi bearing_now))
  else
    let start_disp_x := radius * sin arc_start_bearing in
    let start_disp_y := radius * cos arc_start_bearing in
    let end_disp_x := radius * sin (wrap_pi (arc_start_bearing + arc_sweep)) in
    let end_disp_y := radius * cos (wrap_pi (arc_start_bearing + arc_sweep)) in
    let lon_start := lon_now + start_disp_x / 111111 in
    let lat_start := lat_now + start_disp_y * cos lat_now / 111111 in
    let lon_end := lon_now + end_disp_x / 111111 in
    let lat_end := lat_now + end_disp_y * cos lat_now / 111111 in
    let ds := get_distance lat_now lon_now lat_start lon_start in
    let de := get_distance lat_now lon_now lat_end lon_end in
    if Rlt_dec ds de then (0%Z, mkX false ds (wrap_pi (get_bearing lat_now lon_now lat_start lon_start)))
    else (0%Z, mkX true de (wrap_pi (get_bearing lat_now lon_now lat_end lon_end))).
(** get_distance_to_point_global_wgs84, l.406-428: distance, horizontal, vertical *)
Definition distance_global (lat_now lon_now alt_now lat_next lon_next alt_next : R) : R * R * R :=
  let cx := radians lat_next in let cy := radians lon_next in let x := radians lat_now in let y := radians lon_now in
  let d_lat := x - cx in let d_lon := y - cy in
  let a := sin (d_lat / 2) * sin (d_lat / 2) + sin (d_lon / 2) * sin (d_lon / 2) * cos cx * cos x in
  let c := 2 * atan2 (sqrt a) (sqrt (1 - a)) in
  let dxy := RE * c in let dz := alt_now - alt_next in
  (sqrt (dxy * dxy + dz * dz), Rabs dxy, Rabs dz).
(** mavlink_wpm_distance_to_point_local, l.430-442 *)
Definition distance_local (xn yn zn x y z : R) : R * R * R :=
  let dx := xn - x in let dy := yn - y in let dz := zn - z in
  (sqrt (dx * dx + dy * dy + dz * dz), sqrt (dx * dx + dy * dy), Rabs dz).

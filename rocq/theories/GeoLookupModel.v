(** * Magnetic field tables, geo_lookup/geo_mag_declination.cpp *)
From Coq Require Import ZArith Bool List Reals.
From Flocq Require Import Core IEEE754.BinarySingleNaN.
From Verif Require Import CBase F32 Scalar GeoTables.
Import ListNotations.

Definition obind {A B} (x : outcome A) (f : A -> outcome B) : outcome B := match x with Ok a => f a | UB => UB end.

(** table[i][j] with dimensions 19 x 37 (geo_magnetic_tables.hpp l.42-43): reading outside is undefined *)
Definition entry (tab : list (list Z)) (i j : Z) : outcome Z :=
  if ((0 <=? i) && (i <? 19) && (0 <=? j) && (j <? 37))%Z then Ok (nth (Z.to_nat j) (nth (Z.to_nat i) tab []) 0%Z) else UB.

Section Lookup.
(** one definition for binary32 and for real arithmetic; [fl]: floorf, [ofZ]: integer to float,
    [trunc]: static_cast<unsigned> *)
Context {T : Type} {SC : Scalar T} (fl : T -> T) (ofZ : Z -> T) (trunc : T -> outcome Z).
Open Scope scal_scope.
(** geo_magnetic_tables.hpp l.36-40 *)
Definition g_RES : T := ofZ 10. Definition g_MIN_LAT : T := ofZ (-90). Definition g_MAX_LAT : T := ofZ 90. Definition g_MIN_LON : T := ofZ (-180). Definition g_MAX_LON : T := ofZ 180.
(** get_lookup_table_index, l.57-69: limited value and index *)
Definition lookup_index (val mn mx : T) : outcome (T * Z) :=
  let v := sconstrain val mn (mx - g_RES) in
  obind (trunc ((- mn + v) / g_RES)) (fun k => Ok (v, k)).
(** get_table_data, l.71-107: part finding the cell, l.73-90, 98-99 *)
Definition wrap_lon (lon : T) : T :=
  let lon := if slt g_MAX_LON lon then lon - ofZ 360 else lon in
  if slt lon g_MIN_LON then lon + ofZ 360 else lon.
Definition cell (lat lon : T) : outcome (Z * Z * T * T) :=
  let lat := sconstrain lat g_MIN_LAT g_MAX_LAT in
  let lon := wrap_lon lon in
  let min_lat := fl (lat / g_RES) * g_RES in
  let min_lon := fl (lon / g_RES) * g_RES in
  obind (lookup_index min_lat g_MIN_LAT g_MAX_LAT) (fun a => obind (lookup_index min_lon g_MIN_LON g_MAX_LON) (fun b =>
    Ok (snd a, snd b, sconstrain ((lat - fst a) / g_RES) szero sone, sconstrain ((lon - fst b) / g_RES) szero sone))).
(** l.92-95, 101-106 *)
Definition bilinear (sw se ne nw la lo : T) : T :=
  let data_min := lo * (se - sw) + sw in
  let data_max := lo * (ne - nw) + nw in
  la * (data_max - data_min) + data_min.
Definition get_table_data (tab : list (list Z)) (lat lon : T) : outcome T :=
  obind (cell lat lon) (fun c => let '(i, j, la, lo) := c in
    obind (entry tab i j) (fun sw => obind (entry tab i (j + 1)) (fun se => obind (entry tab (i + 1) (j + 1)) (fun ne => obind (entry tab (i + 1) j) (fun nw =>
      Ok (bilinear (ofZ sw) (ofZ se) (ofZ ne) (ofZ nw) la lo)))))).
(** get_mag_declination_radians etc., l.109-135: times 1e-4f *)
Definition get_scaled (tab : list (list Z)) (lat lon : T) : outcome T := obind (get_table_data tab lat lon) (fun d => Ok (d * slit 1 10000)).
Definition get_mag_declination_radians := get_scaled declination_table.
Definition get_mag_inclination_radians := get_scaled inclination_table.
Definition get_mag_strength_gauss := get_scaled strength_table.
Definition get_mag_strength_tesla (lat lon : T) : outcome T := obind (get_mag_strength_gauss lat lon) (fun g => Ok (g * slit 1 10000)).
(** get_mag_declination_degrees, l.113-115; math::degrees, mathlib.h l.85-88; [pi] is Type(M_PI) *)
Definition get_mag_degrees (pi : T) (tab : list (list Z)) (lat lon : T) : outcome T := obind (get_scaled tab lat lon) (fun r => Ok (r * ofZ 180 / pi)).
End Lookup.

(** floorf *)
Definition ffloor (a : f32) : f32 := Bnearbyint mode_DN a.
(** binary32 instance; unsigned has 32 bits *)
Definition lookupF := get_table_data ffloor f_of_Z (f_to_uint 32).
(** real instance *)
Definition rtrunc (x : R) : outcome Z := if (0 <=? Ztrunc x)%Z && (Ztrunc x <? 2 ^ 32)%Z then Ok (Ztrunc x) else UB.
Definition lookupR := get_table_data (fun x => IZR (Zfloor x)) IZR rtrunc.

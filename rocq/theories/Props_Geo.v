(** * Properties C32, C53, C54, C55: geodesy helpers (exact arithmetic) *)
From Coq Require Import Reals Lra Bool ZArith Lia.
From Verif Require Import RealGeom RotModel RotProofs GeoModel GeoProofs.
Open Scope R_scope.

(** ** Specification: points on the unit sphere and the great-circle angle *)
Definition sphere (lat lon : R) : V3 :=
  mkV (cos (lat / 180 * PI) * cos (lon / 180 * PI)) (cos (lat / 180 * PI) * sin (lon / 180 * PI)) (sin (lat / 180 * PI)).
Definition central_angle (lat1 lon1 lat2 lon2 : R) : R := acos (vdot (sphere lat1 lon1) (sphere lat2 lon2)).
Definition antipodal (lat1 lon1 lat2 lon2 : R) : Prop := sphere lat2 lon2 = vneg (sphere lat1 lon1).

Lemma dot_cA lat1 lon1 lat2 lon2 : vdot (sphere lat1 lon1) (sphere lat2 lon2) = cA (radians lat1) (radians lat2) (radians lon2 - radians lon1).
Proof. unfold vdot, sphere, cA. cbn [vx vy vz]. fold (radians lat1) (radians lat2) (radians lon1) (radians lon2). rewrite cos_minus. ring. Qed.
Lemma sphere_unit lat lon : vdot (sphere lat lon) (sphere lat lon) = 1.
Proof. rewrite dot_cA. unfold cA. replace (radians lon - radians lon) with 0 by ring. rewrite cos_0. pose proof (sc (radians lat)). lra. Qed.
Lemma sum3_sqr_0 x y z : x * x + y * y + z * z = 0 -> x = 0 /\ y = 0 /\ z = 0.
Proof.
  intros E. pose proof (Rle_0_sqr x) as A. pose proof (Rle_0_sqr y) as B. pose proof (Rle_0_sqr z) as C. unfold Rsqr in *.
  repeat split; apply Rsqr_0_uniq; unfold Rsqr; lra.
Qed.
Lemma sq2_pos a b : 0 <= a * a + b * b.
Proof. pose proof (Rle_0_sqr a). pose proof (Rle_0_sqr b). unfold Rsqr in *. lra. Qed.
Lemma sq3_pos a b c : 0 <= a * a + b * b + c * c.
Proof. pose proof (Rle_0_sqr c). pose proof (sq2_pos a b). unfold Rsqr in *. lra. Qed.
Lemma not_antipodal lat1 lon1 lat2 lon2 : ~ antipodal lat1 lon1 lat2 lon2 -> cA (radians lat1) (radians lat2) (radians lon2 - radians lon1) <> -1.
Proof.
  intros H E. apply H. rewrite <- dot_cA in E. unfold antipodal. pose proof (sphere_unit lat1 lon1) as U1. pose proof (sphere_unit lat2 lon2) as U2.
  destruct (sphere lat1 lon1) as [a b c], (sphere lat2 lon2) as [d e f]. unfold vdot, vneg in *. cbn [vx vy vz] in *.
  assert (Z : (a + d) * (a + d) + (b + e) * (b + e) + (c + f) * (c + f) = 0) by lra.
  destruct (sum3_sqr_0 _ _ _ Z) as (Za & Zb & Zc). f_equal; lra.
Qed.
Lemma same_point lat1 lon1 lat2 lon2 : cA (radians lat1) (radians lat2) (radians lon2 - radians lon1) = 1 -> sphere lat2 lon2 = sphere lat1 lon1.
Proof.
  intros E. rewrite <- dot_cA in E. pose proof (sphere_unit lat1 lon1) as U1. pose proof (sphere_unit lat2 lon2) as U2.
  destruct (sphere lat1 lon1) as [a b c], (sphere lat2 lon2) as [d e f]. unfold vdot in *. cbn [vx vy vz] in *.
  assert (Z : (a - d) * (a - d) + (b - e) * (b - e) + (c - f) * (c - f) = 0) by lra.
  destruct (sum3_sqr_0 _ _ _ Z) as (Za & Zb & Zc). f_equal; lra.
Qed.

(** ** C32: map projection *)
(** projecting and reprojecting returns the same coordinates, for every
    reference and every point that is neither a pole nor antipodal to the
    reference, with the longitude within 180 degrees of the reference *)
Theorem C32_reproject_inverts_project : forall lat0 lon0 t lat lon,
  -90 <= lat0 <= 90 -> -90 < lat < 90 -> -180 < lon - lon0 <= 180 -> ~ antipodal lat0 lon0 lat lon ->
  exists x y, project (map_init lat0 lon0 t) lat lon = Some (x, y) /\ reproject (map_init lat0 lon0 t) x y = Some (lat, lon).
Proof.
  intros lat0 lon0 t lat lon H0 H1 H2 HA. apply not_antipodal in HA.
  pose proof (project_eq lat0 lon0 t lat lon) as PE. cbv zeta in PE. pose proof (k_facts _ _ _ HA) as KF. cbv zeta in KF.
  set (p := radians lat0) in *. set (q := radians lat) in *. set (L := radians lon - radians lon0) in *.
  set (c := acos (cA p q L)) in *. set (k := if Rlt_dec 0 (Rabs c) then c / sin c else 1) in *.
  destruct KF as (Kp & Kc & Cpi & XY). do 2 eexists. split; [exact PE|].
  pose proof (rad_range_o lat H1) as Q. fold q in Q. assert (LR : - PI < L <= PI) by (unfold L; rewrite <- rad_minus; apply rad_range_lon; exact H2).
  assert (Cq : 0 < cos q) by (apply cos_gt_0; lra).
  destruct (c_inv p q L) as [I1 I2]. pose proof RE_pos as HRE. pose proof (acos_bd (cA p q L)) as CB. fold c in CB.
  destruct (Req_dec c 0) as [Z|Z].
  - (* the reference itself *)
    rewrite Z, sin_0 in XY. assert (X0 : cX p q L = 0) by nra. assert (Y0 : cY q L = 0) by nra. rewrite X0, Y0.
    replace (k * 0 * RE) with 0 by ring.
    assert (A1 : cA p q L = 1) by (rewrite <- (cos_acos (cA p q L)) by apply cA_range; fold c; rewrite Z; apply cos_0).
    rewrite A1, X0 in I1, I2.
    assert (Eq : q = p). { pose proof (rad_range lat0 H0) as P. fold p in P. rewrite <- (asin_sin' q), <- (asin_sin' p) by lra. f_equal. lra. }
    assert (EL : L = 0). { apply angle_unique; [exact LR|pose proof PI_pos; lra| |]; rewrite ?cos_0, ?sin_0.
      - rewrite Eq in *. apply (Rmult_eq_reg_l (cos p)); lra.
      - unfold cY in Y0. apply (Rmult_eq_reg_l (cos q)); lra. }
    unfold reproject, map_init. cbn [mr_init mr_lat mr_lon]. unfold Rdiv. rewrite Rmult_0_l. replace (0 * 0 + 0 * 0) with 0 by ring. rewrite sqrt_0, Rabs_R0.
    destruct (Rlt_dec 0 0); [lra|]. f_equal. f_equal.
    + unfold p in Eq. rewrite <- Eq. apply deg_rad.
    + unfold L in EL. replace (radians lon0) with (radians lon) by lra. apply deg_rad.
  - assert (Cp : 0 < c) by lra. assert (Sp : 0 < sin c) by (apply sin_gt_0; lra).
    set (x := k * cX p q L * RE). set (y := k * cY q L * RE).
    assert (Ex : x / RE = k * cX p q L) by (unfold x; field; lra). assert (Ey : y / RE = k * cY q L) by (unfold y; field; lra).
    assert (Ec : sqrt (x / RE * (x / RE) + y / RE * (y / RE)) = c).
    { rewrite Ex, Ey. rewrite <- Kc. rewrite <- (sqrt_square (k * sin c)) by (apply Rmult_le_pos; lra). f_equal.
      transitivity (k * k * (cX p q L * cX p q L + cY q L * cY q L)); [ring|]. rewrite XY. ring. }
    assert (NZ : x <> 0 \/ y <> 0).
    { destruct (Req_dec x 0) as [E|E]; [right|left; exact E]. intros F. rewrite E, F in Ec. unfold Rdiv in Ec. rewrite Rmult_0_l in Ec. replace (0 * 0 + 0 * 0) with 0 in Ec by ring. rewrite sqrt_0 in Ec. lra. }
    destruct (reproject_eq lat0 lon0 t x y NZ) as (_ & _ & RE1). rewrite Ec in RE1. rewrite RE1. fold p.
    assert (U : x / RE / c * sin c = cX p q L) by (rewrite Ex; apply (Rmult_eq_reg_r k); [|lra]; transitivity (k * cX p q L * (k * sin c) / c); [field; lra|rewrite Kc; field; lra]).
    assert (V : y / RE / c * sin c = cY q L) by (rewrite Ey; apply (Rmult_eq_reg_r k); [|lra]; transitivity (k * cY q L * (k * sin c) / c); [field; lra|rewrite Kc; field; lra]).
    assert (CA : cos c = cA p q L) by (unfold c; apply cos_acos; apply cA_range).
    f_equal. f_equal.
    + unfold dlat. rewrite U, CA, I1, asin_sin' by lra. apply deg_rad.
    + unfold dlon. rewrite V, CA. replace (cos p * cA p q L - x / RE / c * sin p * sin c) with (cos p * cA p q L - sin p * (x / RE / c * sin c)) by ring.
      rewrite U, I2. unfold cY. rewrite atan2_unique by assumption. unfold L. replace (radians lon0 + (radians lon - radians lon0)) with (radians lon) by ring. apply deg_rad.
Qed.
(** the other way round, within half the circumference *)
Theorem C32_project_inverts_reproject : forall lat0 lon0 t x y,
  sqrt (x * x + y * y) < PI * RE ->
  exists lat lon, reproject (map_init lat0 lon0 t) x y = Some (lat, lon) /\ project (map_init lat0 lon0 t) lat lon = Some (x, y) /\
   (-90 <= lat0 <= 90 -> -90 <= lat <= 90 /\ -180 < lon - lon0 <= 180).
Proof.
  intros lat0 lon0 t x y HB. pose proof RE_pos as HRE. pose proof PI_pos as HPI.
  destruct (Req_dec x 0) as [Zx|Zx]; [destruct (Req_dec y 0) as [Zy|Zy]|].
  { subst x y. exists (degrees (radians lat0)), (degrees (radians lon0)). split.
    { unfold reproject, map_init. cbn [mr_init mr_lat mr_lon]. unfold Rdiv. rewrite Rmult_0_l. replace (0 * 0 + 0 * 0) with 0 by ring. rewrite sqrt_0, Rabs_R0. destruct (Rlt_dec 0 0); [lra|reflexivity]. }
    rewrite !deg_rad. split; [|intros; lra].
    pose proof (project_eq lat0 lon0 t lat0 lon0) as PE. cbv zeta in PE. rewrite PE. replace (radians lon0 - radians lon0) with 0 by ring.
    unfold cX, cY. rewrite cos_0, sin_0. f_equal. f_equal; ring. }
  all: assert (NZ : x <> 0 \/ y <> 0) by (first [left; assumption | right; assumption]).
  all: destruct (reproject_eq lat0 lon0 t x y NZ) as (Cp & UV & RE1); cbv zeta in *; set (c := sqrt (x / RE * (x / RE) + y / RE * (y / RE))) in *.
  all: assert (Cpi : c < PI) by (apply (Rmult_lt_reg_r RE); [exact HRE|]; apply Rle_lt_trans with (2 := HB); right; unfold c;
    replace (x / RE * (x / RE) + y / RE * (y / RE)) with ((x * x + y * y) / (RE * RE)) by (field; lra);
    rewrite sqrt_div by nra; rewrite (sqrt_square RE) by lra; field; lra).
  all: assert (Sp : 0 < sin c) by (apply sin_gt_0; assumption).
  all: destruct (dest_facts (radians lat0) c _ _ UV) as (R1 & R2 & A1 & X1 & Y1); cbv zeta in *.
  all: set (qq := dlat (radians lat0) c (x / RE / c)) in *; set (LL := dlon (radians lat0) c (x / RE / c) (y / RE / c)) in *.
  all: do 2 eexists; split; [exact RE1|]; split.
  1,3: pose proof (project_eq lat0 lon0 t (degrees qq) (degrees (radians lon0 + LL))) as PE; cbv zeta in PE; rewrite PE, !rad_deg;
    replace (radians lon0 + LL - radians lon0) with LL by ring; rewrite A1, X1, Y1, acos_cos' by lra;
    (destruct (Rlt_dec 0 (Rabs c)) as [_|W]; [|exfalso; apply W; rewrite Rabs_right; lra]); f_equal; f_equal; field; lra.
  all: intros _; unfold degrees; split.
  1,3: split; (apply (Rmult_le_reg_r PI); [exact HPI|]); unfold Rdiv; try rewrite Rmult_assoc, Rinv_l by lra; lra.
  all: replace ((radians lon0 + LL) * 180 / PI - lon0) with (LL * 180 / PI) by (unfold radians; field; lra).
  all: split; [apply (Rmult_lt_reg_r PI); [exact HPI|] | apply (Rmult_le_reg_r PI); [exact HPI|]]; unfold Rdiv; rewrite Rmult_assoc, Rinv_l by lra; lra.
Qed.
(** the projection is azimuthal equidistant: local distance from the origin is
    the great-circle distance, local direction is the initial bearing *)
Theorem C32_projection_is_equidistant : forall lat0 lon0 t lat lon, ~ antipodal lat0 lon0 lat lon ->
  exists x y, project (map_init lat0 lon0 t) lat lon = Some (x, y) /\
  sqrt (x * x + y * y) = RE * central_angle lat0 lon0 lat lon /\ sqrt (x * x + y * y) = get_distance lat0 lon0 lat lon /\
  x = get_distance lat0 lon0 lat lon * cos (get_bearing lat0 lon0 lat lon) /\
  y = get_distance lat0 lon0 lat lon * sin (get_bearing lat0 lon0 lat lon).
Proof.
  intros lat0 lon0 t lat lon HA. apply not_antipodal in HA. pose proof (project_eq lat0 lon0 t lat lon) as PE. cbv zeta in PE.
  pose proof (k_facts _ _ _ HA) as KF. cbv zeta in KF. pose proof (bearing_polar lat0 lon0 lat lon) as BP. cbv zeta in BP.
  unfold central_angle. rewrite dot_cA, distance_eq.
  set (p := radians lat0) in *. set (q := radians lat) in *. set (L := radians lon - radians lon0) in *.
  set (c := acos (cA p q L)) in *. set (k := if Rlt_dec 0 (Rabs c) then c / sin c else 1) in *.
  destruct KF as (Kp & Kc & Cpi & XY). pose proof (acos_bd (cA p q L)) as CB. fold c in CB. pose proof RE_pos as HRE.
  do 2 eexists. split; [exact PE|].
  assert (D : sqrt (k * cX p q L * RE * (k * cX p q L * RE) + k * cY q L * RE * (k * cY q L * RE)) = RE * c).
  { rewrite <- (sqrt_square (RE * c)) by (apply Rmult_le_pos; lra). f_equal. rewrite <- Kc.
    transitivity (k * k * RE * RE * (cX p q L * cX p q L + cY q L * cY q L)); [ring|]. rewrite XY. ring. }
  split; [exact D|]. split; [exact D|].
  destruct (Req_dec (cA p q L) 1) as [E|E].
  - assert (Z : c = 0) by (unfold c; rewrite E; apply acos_1). rewrite Z, sin_0 in XY. assert (cX p q L = 0) by nra. assert (cY q L = 0) by nra. rewrite Z, H, H0. split; ring.
  - destruct (BP E HA) as (S & B1 & B2). rewrite <- B1, <- B2. split.
    + transitivity (k * sin c * RE * cos (get_bearing lat0 lon0 lat lon)); [ring|rewrite Kc; ring].
    + transitivity (k * sin c * RE * sin (get_bearing lat0 lon0 lat lon)); [ring|rewrite Kc; ring].
Qed.
Theorem C32_reference_is_origin : forall lat0 lon0 t,
  project (map_init lat0 lon0 t) lat0 lon0 = Some (0, 0) /\ reproject (map_init lat0 lon0 t) 0 0 = Some (lat0, lon0) /\
  map_reference (map_init lat0 lon0 t) = Some (radians lat0, radians lon0).
Proof.
  intros. split; [|split; [|reflexivity]].
  - pose proof (project_eq lat0 lon0 t lat0 lon0) as PE. cbv zeta in PE. rewrite PE. replace (radians lon0 - radians lon0) with 0 by ring.
    unfold cX, cY. rewrite cos_0, sin_0. f_equal. f_equal; ring.
  - unfold reproject, map_init. cbn [mr_init mr_lat mr_lon]. unfold Rdiv. rewrite Rmult_0_l. replace (0 * 0 + 0 * 0) with 0 by ring. rewrite sqrt_0, Rabs_R0.
    destruct (Rlt_dec 0 0); [lra|]. rewrite !deg_rad. reflexivity.
Qed.
Theorem C32_uninitialised_is_rejected : forall r, mr_init r = false -> forall a b, project r a b = None /\ reproject r a b = None /\ map_reference r = None.
Proof. intros r H a b. unfold project, reproject, map_reference. rewrite H. auto. Qed.

(** ** C53: distance, bearing, waypoints *)
Theorem C53_distance_is_great_circle : forall lat1 lon1 lat2 lon2,
  let d := get_distance lat1 lon1 lat2 lon2 in
  d = RE * central_angle lat1 lon1 lat2 lon2 /\ 0 <= d <= PI * RE /\ d = get_distance lat2 lon2 lat1 lon1 /\
  (d = 0 <-> sphere lat2 lon2 = sphere lat1 lon1).
Proof.
  intros. unfold d. pose proof RE_pos. split; [unfold central_angle; rewrite dot_cA; apply distance_eq|]. rewrite !distance_eq.
  split; [pose proof (acos_bd (cA (radians lat1) (radians lat2) (radians lon2 - radians lon1))); nra|].
  split; [rewrite cA_sym; do 3 f_equal; ring|]. split.
  - intros E. apply same_point. pose proof (cA_range (radians lat1) (radians lat2) (radians lon2 - radians lon1)) as R.
    rewrite <- (cos_acos _ R). replace (acos (cA (radians lat1) (radians lat2) (radians lon2 - radians lon1))) with 0; [apply cos_0|]. apply Rmult_integral in E. lra.
  - intros E. rewrite <- dot_cA, E, sphere_unit, acos_1. ring.
Qed.
(** the waypoint at heading b and distance d is the point the map projection
    around the start gives for d (cos b, sin b) *)
Theorem C53_waypoint_is_reprojection : forall lat lon b d t, -90 < lat < 90 -> 0 < d ->
  reproject (map_init lat lon t) (d * cos b) (d * sin b) = Some (waypoint_from_heading lat lon b d).
Proof.
  intros lat lon b d t Hl Hd. pose proof RE_pos as HRE. pose proof (sc b) as SB.
  assert (NZ : d * cos b <> 0 \/ d * sin b <> 0).
  { destruct (Req_dec (cos b) 0) as [E|E]; [right; rewrite E in SB; nra|left; nra]. }
  destruct (reproject_eq lat lon t _ _ NZ) as (Cp & _ & E). cbv zeta in *.
  assert (Ec : sqrt (d * cos b / RE * (d * cos b / RE) + d * sin b / RE * (d * sin b / RE)) = d / RE).
  { rewrite <- (sqrt_square (d / RE)) by (left; apply Rdiv_lt_0_compat; assumption). f_equal.
    transitivity (d / RE * (d / RE) * (sin b * sin b + cos b * cos b)); [field; lra|rewrite SB; ring]. }
  rewrite Ec in *. rewrite E. f_equal. unfold waypoint_from_heading.
  destruct (wrap_2pi_trig b) as [-> ->].
  replace (d * cos b / RE / (d / RE)) with (cos b) by (field; lra). replace (d * sin b / RE / (d / RE)) with (sin b) by (field; lra).
  set (p := radians lat). set (r := d / RE).
  pose proof (sc p) as SP. pose proof (rad_range_o lat Hl) as PR. fold p in PR. assert (CP : 0 < cos p) by (apply cos_gt_0; lra).
  assert (EL : asin (sin p * cos r + cos p * sin r * cos b) = dlat p r (cos b)) by (unfold dlat; f_equal; ring). rewrite EL.
  f_equal. f_equal. f_equal. unfold dlon.
  assert (SR : -1 <= cos r * sin p + cos b * sin r * cos p <= 1).
  { pose proof (sc r) as SRr.
    assert (N : (cos r * sin p + cos b * sin r * cos p) * (cos r * sin p + cos b * sin r * cos p) + (cos p * cos r - cos b * sin p * sin r) * (cos p * cos r - cos b * sin p * sin r) + sin b * sin r * (sin b * sin r) = 1).
    { transitivity ((sin p * sin p + cos p * cos p) * (cos r * cos r + cos b * cos b * (sin r * sin r)) + sin b * sin b * (sin r * sin r)); [ring|]. rewrite SP.
      transitivity (cos r * cos r + (sin b * sin b + cos b * cos b) * (sin r * sin r)); [ring|]. rewrite SB. lra. }
    revert N. generalize (cos r * sin p + cos b * sin r * cos p). generalize (cos p * cos r - cos b * sin p * sin r). generalize (sin b * sin r). intros w1 w2 w3 N.
    pose proof (Rle_0_sqr w1). pose proof (Rle_0_sqr w2). unfold Rsqr in *. split; nra. }
  rewrite <- (atan2_scale (sin b * sin r) (cos p * cos r - cos b * sin p * sin r) (cos p) CP). f_equal; [ring|].
  unfold dlat. rewrite sin_asin by exact SR. transitivity (cos r * (1 - sin p * sin p) - sin p * cos p * cos b * sin r); [|ring].
  replace (1 - sin p * sin p) with (cos p * cos p) by lra. ring.
Qed.
(** its distance from the start is d and the bearing towards it is b *)
Theorem C53_waypoint_distance_and_bearing : forall lat lon b d, -90 < lat < 90 -> 0 < d < PI * RE ->
  let w := waypoint_from_heading lat lon b d in
  get_distance lat lon (fst w) (snd w) = d /\ get_bearing lat lon (fst w) (snd w) = wrap_pi b.
Proof.
  intros lat lon b d Hl Hd w. pose proof RE_pos as HRE. pose proof (sc b) as SB.
  pose proof (C53_waypoint_is_reprojection lat lon b d 0%Z Hl ltac:(lra)) as WR. fold w in WR.
  assert (HB : sqrt (d * cos b * (d * cos b) + d * sin b * (d * sin b)) = d).
  { rewrite <- (sqrt_square d) at 5 by lra. f_equal. transitivity (d * d * (sin b * sin b + cos b * cos b)); [ring|rewrite SB; ring]. }
  destruct (C32_project_inverts_reproject lat lon 0%Z (d * cos b) (d * sin b)) as (la & lo & R1 & P1 & _); [lra|].
  assert (Ew : w = (la, lo)) by congruence. clearbody w. subst w. cbn [fst snd].
  assert (NA : ~ antipodal lat lon la lo).
  { intros A. pose proof (project_eq lat lon 0%Z la lo) as PE. cbv zeta in PE. rewrite PE in P1.
    assert (EA : cA (radians lat) (radians la) (radians lo - radians lon) = -1).
    { rewrite <- dot_cA. unfold antipodal in A. rewrite A. pose proof (sphere_unit lat lon) as U. unfold vdot, vneg in *. cbn [vx vy vz] in *. lra. }
    pose proof (c_norm (radians lat) (radians la) (radians lo - radians lon)) as N. rewrite EA in N.
    assert (X0 : cX (radians lat) (radians la) (radians lo - radians lon) = 0) by nra. assert (Y0 : cY (radians la) (radians lo - radians lon) = 0) by nra.
    rewrite X0, Y0 in P1. injection P1 as E1 E2. assert (cos b = 0) by nra. assert (sin b = 0) by nra. nra. }
  destruct (C32_projection_is_equidistant lat lon 0%Z la lo NA) as (x & y & P2 & _ & D & Ex & Ey). rewrite P1 in P2. injection P2 as <- <-.
  rewrite HB in D. split; [symmetry; exact D|]. rewrite <- D in Ex, Ey.
  destruct (wrap_pi_trig b) as [C S]. apply angle_unique_l; [apply wrap_pi_range|apply wrap_pi_range| |].
  - rewrite C. symmetry. apply (Rmult_eq_reg_l d); lra.
  - rewrite S. symmetry. apply (Rmult_eq_reg_l d); lra.
Qed.
(** the waypoint on the line from A to B at the distance of B is B; at zero distance it is A *)
Theorem C53_line_waypoint_reaches_end : forall latA lonA latB lonB,
  -90 < latA < 90 -> -90 < latB < 90 -> -180 < lonB - lonA <= 180 -> ~ antipodal latA lonA latB lonB ->
  flt_eps <= get_distance latA lonA latB lonB ->
  waypoint_on_line latA lonA latB lonB (get_distance latA lonA latB lonB) = (latB, lonB) /\ waypoint_on_line latA lonA latB lonB 0 = (latA, lonA).
Proof.
  intros latA lonA latB lonB HA HB HL NA HE. unfold waypoint_on_line. set (d := get_distance latA lonA latB lonB) in *.
  assert (EP : 0 < flt_eps) by (unfold flt_eps; apply Rinv_0_lt_compat; lra). split.
  - destruct (Rlt_dec (Rabs d) flt_eps) as [L|_]; [rewrite Rabs_right in L; lra|].
    pose proof (C53_waypoint_is_reprojection latA lonA (get_bearing latA lonA latB lonB) d 0%Z HA ltac:(lra)) as W.
    destruct (C32_projection_is_equidistant latA lonA 0%Z latB lonB NA) as (x & y & P & _ & _ & Ex & Ey). fold d in Ex, Ey. rewrite <- Ex, <- Ey in W.
    destruct (C32_reproject_inverts_project latA lonA 0%Z latB lonB ltac:(lra) HB HL NA) as (x' & y' & P' & R'). rewrite P in P'. injection P' as <- <-.
    congruence.
  - rewrite Rabs_R0. destruct (Rlt_dec 0 flt_eps); [reflexivity|lra].
Qed.
(** combined distance: horizontal part is the great-circle distance *)
Theorem C53_distance_3d : forall lat1 lon1 alt1 lat2 lon2 alt2,
  let '(d, dxy, dz) := distance_global lat1 lon1 alt1 lat2 lon2 alt2 in
  dxy = get_distance lat1 lon1 lat2 lon2 /\ dz = Rabs (alt1 - alt2) /\ d * d = dxy * dxy + dz * dz /\ 0 <= d.
Proof.
  intros. unfold distance_global.
  assert (E : sin ((radians lat1 - radians lat2) / 2) * sin ((radians lat1 - radians lat2) / 2) + sin ((radians lon1 - radians lon2) / 2) * sin ((radians lon1 - radians lon2) / 2) * cos (radians lat2) * cos (radians lat1)
     = (1 - cA (radians lat2) (radians lat1) (radians lon1 - radians lon2)) / 2) by apply haversine.
  rewrite E, atan2_half by apply cA_range. pose proof RE_pos. pose proof (acos_bd (cA (radians lat2) (radians lat1) (radians lon1 - radians lon2))).
  assert (D : RE * acos (cA (radians lat2) (radians lat1) (radians lon1 - radians lon2)) = get_distance lat1 lon1 lat2 lon2).
  { rewrite distance_eq, cA_sym. do 3 f_equal. ring. }
  rewrite D. assert (0 <= get_distance lat1 lon1 lat2 lon2) by (rewrite <- D; nra).
  split; [apply Rabs_right; lra|]. split; [reflexivity|]. split; [|apply sqrt_pos].
  rewrite sqrt_sqrt by apply sq2_pos. f_equal; [rewrite Rabs_right by lra; reflexivity|]. rewrite <- Rabs_mult. symmetry. apply Rabs_right. apply Rle_ge. apply (Rle_0_sqr (alt1 - alt2)).
Qed.
Theorem C53_distance_local : forall xn yn zn x y z,
  let '(d, dxy, dz) := distance_local xn yn zn x y z in
  dxy * dxy = (xn - x) ^ 2 + (yn - y) ^ 2 /\ d * d = (xn - x) ^ 2 + (yn - y) ^ 2 + (zn - z) ^ 2 /\ dz = Rabs (zn - z) /\ 0 <= d /\ 0 <= dxy.
Proof.
  intros. unfold distance_local. rewrite !sqrt_sqrt by (first [apply sq3_pos | apply sq2_pos]). repeat split; try ring; apply sqrt_pos.
Qed.

(** ** C54: local vectors *)
(** the fast vector and the position update are inverse to each other away from the poles *)
Theorem C54_fast_vector_roundtrip : forall lat lon v_n v_e, cos (radians lat) <> 0 ->
  let w := add_vector lat lon v_n v_e in get_vector_fast lat lon (fst w) (snd w) = (v_n, v_e).
Proof.
  intros lat lon vn ve H. cbv zeta. unfold add_vector, get_vector_fast. cbn [fst snd]. rewrite !rad_deg. pose proof RE_pos. f_equal; field; [lra|split; [exact H|lra]].
Qed.
Theorem C54_position_update_roundtrip : forall lat lon lat2 lon2, cos (radians lat) <> 0 ->
  let v := get_vector_fast lat lon lat2 lon2 in add_vector lat lon (fst v) (snd v) = (lat2, lon2).
Proof.
  intros lat lon lat2 lon2 H. cbv zeta. unfold add_vector, get_vector_fast. cbn [fst snd]. pose proof RE_pos.
  replace (radians lat + RE * (radians lat2 - radians lat) / RE) with (radians lat2) by (field; lra).
  replace (radians lon + RE * (radians lon2 - radians lon) * cos (radians lat) / (RE * cos (radians lat))) with (radians lon2) by (field; split; [exact H|lra]).
  rewrite !deg_rad. reflexivity.
Qed.
(** the accurate vector points along the bearing, its length is the sine
    projection RE sin(angle), never longer than the distance *)
Theorem C54_vector_direction_and_length : forall lat1 lon1 lat2 lon2,
  let v := get_vector lat1 lon1 lat2 lon2 in let a := central_angle lat1 lon1 lat2 lon2 in
  fst v * fst v + snd v * snd v = (RE * sin a) * (RE * sin a) /\
  sqrt (fst v * fst v + snd v * snd v) <= get_distance lat1 lon1 lat2 lon2 /\
  (0 < sin a -> fst v = RE * sin a * cos (get_bearing lat1 lon1 lat2 lon2) /\ snd v = RE * sin a * sin (get_bearing lat1 lon1 lat2 lon2)).
Proof.
  intros. unfold v, a, central_angle. rewrite dot_cA, distance_eq. unfold get_vector. cbn [fst snd].
  pose proof (bearing_polar lat1 lon1 lat2 lon2) as BP. cbv zeta in BP.
  set (p := radians lat1) in *. set (q := radians lat2) in *. set (L := radians lon2 - radians lon1) in *.
  fold (cX p q L). replace (RE * sin L * cos q) with (RE * cY q L) by (unfold cY; ring).
  pose proof (cA_range p q L) as HR. pose proof (c_norm p q L) as N. pose proof (sin_acos_sq _ HR) as SQ. pose proof (acos_bd (cA p q L)) as CB. pose proof RE_pos as HRE.
  assert (E : RE * cX p q L * (RE * cX p q L) + RE * cY q L * (RE * cY q L) = RE * sin (acos (cA p q L)) * (RE * sin (acos (cA p q L)))).
  { transitivity (RE * RE * (cX p q L * cX p q L + cY q L * cY q L)); [ring|]. transitivity (RE * RE * (sin (acos (cA p q L)) * sin (acos (cA p q L)))); [|ring]. f_equal. lra. }
  split; [exact E|].
  assert (S0 : 0 <= sin (acos (cA p q L))) by (apply sin_ge_0; lra).
  split.
  { rewrite E, sqrt_square by (apply Rmult_le_pos; lra). apply Rmult_le_compat_l; [lra|].
    destruct (Req_dec (acos (cA p q L)) 0) as [Z|Z]; [rewrite Z, sin_0; lra|]. left. apply sin_lt_x. lra. }
  intros Sp. assert (N1 : cA p q L <> 1) by (intros Z; rewrite Z, acos_1, sin_0 in Sp; lra).
  assert (N2 : cA p q L <> -1) by (intros Z; rewrite Z in SQ; assert (sin (acos (-1)) * sin (acos (-1)) = 0) by lra; rewrite Z in Sp; nra).
  destruct (BP N1 N2) as (_ & B1 & B2). rewrite <- B1, <- B2. split; ring.
Qed.

(** ** C55: cross-track error *)
(** line: error exactly when within 0.1 m of the end; past the end exactly when
    the end is more than 90 degrees off the track direction; otherwise the
    distance is that of the end times the sine of the angle, the bearing is
    perpendicular to the track, on the side that reduces the distance *)
Theorem C55_line : forall lat lon lat_s lon_s lat_e lon_e,
  let de := get_distance lat lon lat_e lon_e in
  let tr := get_bearing lat_s lon_s lat_e lon_e in
  let df := wrap_pi (tr - get_bearing lat lon lat_e lon_e) in
  let '(ret, r) := get_distance_to_line lat lon lat_s lon_s lat_e lon_e in
  (ret = (-1)%Z <-> de < 1 / 10) /\ (ret = (-1)%Z \/ ret = 0%Z) /\
  (past_end r = true <-> 1 / 10 <= de /\ (PI / 2 < df \/ df < - (PI / 2))) /\
  (past_end r = true -> xdist r = 0 /\ xbearing r = 0) /\
  (ret = 0%Z -> past_end r = false ->
     xdist r = de * sin df /\ Rabs (xdist r) <= de /\ - PI <= xbearing r < PI /\
     cos (xbearing r) = (if Rle_dec 0 (xdist r) then sin tr else - sin tr) /\ sin (xbearing r) = (if Rle_dec 0 (xdist r) then - cos tr else cos tr)).
Proof.
  intros. unfold get_distance_to_line. fold de. fold tr. fold df.
  destruct (Rlt_dec de (1 / 10)) as [L|L].
  { cbn [past_end xdist xbearing]. repeat split; try tauto; try lra; try discriminate. }
  assert (D0 : 0 < de) by lra.
  destruct (Rlt_dec (PI / 2) df) as [L1|L1]; [|destruct (Rlt_dec df (- (PI / 2))) as [L2|L2]]; cbn [orb past_end xdist xbearing].
  1,2: split; [split; [discriminate|lra]|]; split; [right; reflexivity|]; split; [split; [intros _; split; [lra|tauto]|reflexivity]|]; split; [auto|discriminate].
  split; [split; [discriminate|lra]|]. split; [right; reflexivity|]. split; [split; [discriminate|intros [_ [?|?]]; lra]|]. split; [discriminate|]. intros _ _.
  split; [reflexivity|]. split.
  { rewrite Rabs_mult, (Rabs_right de) by lra. pose proof (SIN_bound df). assert (Rabs (sin df) <= 1) by (apply Rabs_le; lra). nra. }
  split; [destruct (Rle_dec 0 (sin df)); apply wrap_pi_range|].
  destruct (Rle_dec 0 (sin df)) as [S|S].
  - destruct (Rle_dec 0 (de * sin df)) as [_|W]; [|exfalso; apply W; nra]. destruct (wrap_pi_trig (tr - PI / 2)) as [-> ->].
    rewrite cos_minus, sin_minus, cos_PI2, sin_PI2. split; ring.
  - destruct (Rle_dec 0 (de * sin df)) as [W|_]; [exfalso; nra|]. destruct (wrap_pi_trig (tr + PI / 2)) as [-> ->].
    rewrite cos_plus, sin_plus, cos_PI2, sin_PI2. split; ring.
Qed.
(** arc: error exactly for radii below 0.1 m *)
Theorem C55_arc_error : forall lat lon lat_c lon_c radius st sw,
  (fst (get_distance_to_arc lat lon lat_c lon_c radius st sw) = (-1)%Z <-> radius < 1 / 10).
Proof.
  intros. unfold get_distance_to_arc. destruct (Rlt_dec radius (1 / 10)); [cbn; tauto|].
  match goal with |- context [let '(_, _) := ?x in _] => destruct x as [s e] end.
  match goal with |- context [if ?b then _ else _] => destruct b end.
  - destruct (Rle_dec _ _); cbn; split; try discriminate; lra.
  - destruct (Rlt_dec _ _); cbn; split; try discriminate; lra.
Qed.
(** arc, inside the sector: distance to the circle, towards the nearest point of it *)
Definition arc_in_sector (lat lon lat_c lon_c st sw : R) : Prop :=
  let b := get_bearing lat lon lat_c lon_c in
  let s := if Rle_dec 0 sw then st else (if Rlt_dec (st - sw) 0 then st - sw + 2 * PI else st - sw) in
  let e := if Rle_dec 0 sw then (if Rlt_dec (2 * PI) (st + sw) then st + sw - 2 * PI else st + sw) else st in
  (s <= e /\ s <= b <= e) \/ (e < s /\ (s < b \/ b < e)).
Lemma arc_cases lat lon lat_c lon_c radius st sw : 1 / 10 <= radius ->
  (arc_in_sector lat lon lat_c lon_c st sw /\
     let dc := get_distance lat lon lat_c lon_c in let b := get_bearing lat lon lat_c lon_c in
     get_distance_to_arc lat lon lat_c lon_c radius st sw =
       (0%Z, mkX false (if Rle_dec dc radius then radius - dc else dc - radius) (if Rle_dec dc radius then wrap_pi (b + PI) else wrap_pi b))) \/
  (~ arc_in_sector lat lon lat_c lon_c st sw /\
     forall lat_c' lon_c' , ~ arc_in_sector lat lon lat_c' lon_c' st sw ->
       get_distance_to_arc lat lon lat_c lon_c radius st sw = get_distance_to_arc lat lon lat_c' lon_c' radius st sw).
Proof.
  intros HR. unfold arc_in_sector, get_distance_to_arc. cbv zeta.
  destruct (Rlt_dec radius (1 / 10)) as [|_]; [lra|].
  assert (DEC : forall s e b, let f := orb (andb (if Rle_dec s e then true else false) (andb (if Rle_dec s b then true else false) (if Rle_dec b e then true else false)))
        (andb (if Rlt_dec e s then true else false) (orb (if Rlt_dec s b then true else false) (if Rlt_dec b e then true else false))) in
        (f = true /\ ((s <= e /\ s <= b <= e) \/ (e < s /\ (s < b \/ b < e)))) \/ (f = false /\ ~ ((s <= e /\ s <= b <= e) \/ (e < s /\ (s < b \/ b < e))))).
  { intros s e b. cbv zeta. destruct (Rle_dec s e), (Rle_dec s b), (Rle_dec b e), (Rlt_dec e s), (Rlt_dec s b), (Rlt_dec b e); cbn [andb orb]; solve [left; split; [reflexivity|lra] | right; split; [reflexivity|lra] | lra]. }
  destruct (Rle_dec 0 sw) as [Hs|Hs].
  - destruct (DEC st (if Rlt_dec (2 * PI) (st + sw) then st + sw - 2 * PI else st + sw) (get_bearing lat lon lat_c lon_c)) as [[F D]|[F D]]; rewrite F.
    + left. split; [exact D|]. destruct (Rle_dec (get_distance lat lon lat_c lon_c) radius); reflexivity.
    + right. split; [exact D|]. intros lc loc D'. destruct (DEC st (if Rlt_dec (2 * PI) (st + sw) then st + sw - 2 * PI else st + sw) (get_bearing lat lon lc loc)) as [[F' D'']|[F' _]]; [contradiction|]. rewrite F'. reflexivity.
  - destruct (DEC (if Rlt_dec (st - sw) 0 then st - sw + 2 * PI else st - sw) st (get_bearing lat lon lat_c lon_c)) as [[F D]|[F D]]; rewrite F.
    + left. split; [exact D|]. destruct (Rle_dec (get_distance lat lon lat_c lon_c) radius); reflexivity.
    + right. split; [exact D|]. intros lc loc D'. destruct (DEC (if Rlt_dec (st - sw) 0 then st - sw + 2 * PI else st - sw) st (get_bearing lat lon lc loc)) as [[F' D'']|[F' _]]; [contradiction|]. rewrite F'. reflexivity.
Qed.
Theorem C55_arc_in_sector : forall lat lon lat_c lon_c radius st sw, 1 / 10 <= radius -> arc_in_sector lat lon lat_c lon_c st sw ->
  let dc := get_distance lat lon lat_c lon_c in let r := snd (get_distance_to_arc lat lon lat_c lon_c radius st sw) in
  past_end r = false /\ xdist r = Rabs (dc - radius) /\ - PI <= xbearing r < PI /\
  (exists sgn, (sgn = 1 \/ sgn = -1) /\ (dc <= radius -> sgn = -1) /\ (radius < dc -> sgn = 1) /\
     cos (xbearing r) = sgn * cos (get_bearing lat lon lat_c lon_c) /\ sin (xbearing r) = sgn * sin (get_bearing lat lon lat_c lon_c)).
Proof.
  intros lat lon lat_c lon_c radius st sw HR HS. cbv zeta. destruct (arc_cases lat lon lat_c lon_c radius st sw HR) as [[_ E]|[N _]]; [|contradiction].
  rewrite E. cbn [snd past_end xdist xbearing]. split; [reflexivity|]. destruct (Rle_dec (get_distance lat lon lat_c lon_c) radius) as [L|L].
  - split; [rewrite Rabs_left1; lra|]. split; [apply wrap_pi_range|]. exists (-1). split; [right; reflexivity|]. split; [auto|]. split; [lra|].
    destruct (wrap_pi_trig (get_bearing lat lon lat_c lon_c + PI)) as [-> ->]. rewrite neg_cos, neg_sin. split; ring.
  - split; [rewrite Rabs_right; lra|]. split; [apply wrap_pi_range|]. exists 1. split; [left; reflexivity|]. split; [lra|]. split; [auto|].
    destruct (wrap_pi_trig (get_bearing lat lon lat_c lon_c)) as [-> ->]. split; ring.
Qed.
(** arc, outside the sector (a defect): the result does not depend on the centre of the arc at all *)
Theorem C55_arc_out_of_sector_ignores_centre : forall lat lon lat_c lon_c lat_c' lon_c' radius st sw, 1 / 10 <= radius ->
  ~ arc_in_sector lat lon lat_c lon_c st sw -> ~ arc_in_sector lat lon lat_c' lon_c' st sw ->
  get_distance_to_arc lat lon lat_c lon_c radius st sw = get_distance_to_arc lat lon lat_c' lon_c' radius st sw.
Proof.
  intros lat lon lat_c lon_c lat_c' lon_c' radius st sw HR N N'. destruct (arc_cases lat lon lat_c lon_c radius st sw HR) as [[D _]|[_ E]]; [contradiction|]. apply E. exact N'.
Qed.
(** ... and the sector test uses the bearing towards the centre, so a point exactly on
    the arc (90 degrees into a half-circle starting north) is reported off it *)
Lemma bearing_west : get_bearing 0 1 0 0 = - (PI / 2).
Proof.
  pose proof PI_pos as HP. unfold get_bearing, radians. replace (0 / 180 * PI) with 0 by field. rewrite sin_0, cos_0. replace ((0 - 1) / 180 * PI) with (- (PI / 180)) by field.
  rewrite sin_neg. replace (1 * 0 - 0 * 1 * cos (- (PI / 180))) with 0 by ring.
  assert (S : 0 < sin (PI / 180)) by (apply sin_gt_0; lra).
  assert (E : atan2 (- sin (PI / 180) * 1) 0 = - (PI / 2)).
  { unfold atan2. destruct (Rlt_dec 0 0); [lra|]. destruct (Rlt_dec 0 (- sin (PI / 180) * 1)); [lra|]. destruct (Rlt_dec (- sin (PI / 180) * 1) 0); [reflexivity|lra]. }
  rewrite E. unfold wrap_pi. destruct (Rle_dec (- PI) (- (PI / 2))); [|lra]. destruct (Rlt_dec (- (PI / 2)) PI); [reflexivity|lra].
Qed.
Theorem C55_arc_point_on_arc_refuted :
  ~ (forall lat lon lat_c lon_c radius st sw, 1 / 10 <= radius -> 0 <= st < 2 * PI -> 0 < sw <= PI ->
      get_distance lat_c lon_c lat lon = radius -> st <= wrap_2pi (get_bearing lat_c lon_c lat lon) <= st + sw ->
      xdist (snd (get_distance_to_arc lat lon lat_c lon_c radius st sw)) = 0).
Proof.
  intros H. pose proof PI_pos as HP. pose proof PI2_1 as P1. pose proof PI_4 as P4. pose proof RE_pos as HRE. assert (P3 : 3 < PI) by (pose proof PI2_3_2; lra).
  assert (D : get_distance 0 0 0 1 = RE * (PI / 180)).
  { rewrite distance_eq. unfold radians. replace (0 / 180 * PI) with 0 by field. replace (1 / 180 * PI - 0) with (PI / 180) by field.
    unfold cA. rewrite sin_0, cos_0. replace (0 * 0 + 1 * 1 * cos (PI / 180)) with (cos (PI / 180)) by ring. rewrite acos_cos' by lra. reflexivity. }
  assert (B : get_bearing 0 0 0 1 = PI / 2).
  { unfold get_bearing, radians. replace (0 / 180 * PI) with 0 by field. rewrite sin_0, cos_0. replace ((1 - 0) / 180 * PI) with (PI / 180) by field.
    replace (1 * 0 - 0 * 1 * cos (PI / 180)) with 0 by ring. assert (S : 0 < sin (PI / 180)) by (apply sin_gt_0; lra).
    assert (E : atan2 (sin (PI / 180) * 1) 0 = PI / 2) by (unfold atan2; destruct (Rlt_dec 0 0); [lra|]; destruct (Rlt_dec 0 (sin (PI / 180) * 1)); [reflexivity|lra]).
    rewrite E. unfold wrap_pi. destruct (Rle_dec (- PI) (PI / 2)); [|lra]. destruct (Rlt_dec (PI / 2) PI); [reflexivity|lra]. }
  specialize (H 0 1 0 0 (RE * (PI / 180)) 0 PI ltac:(unfold RE; lra) ltac:(lra) ltac:(lra) D).
  assert (W : wrap_2pi (PI / 2) = PI / 2) by (unfold wrap_2pi; destruct (Rle_dec 0 (PI / 2)); [|lra]; destruct (Rlt_dec (PI / 2) (2 * PI)); [reflexivity|lra]).
  rewrite B, W in H. specialize (H ltac:(lra)).
  unfold get_distance_to_arc in H. rewrite bearing_west in H.
  destruct (Rlt_dec (RE * (PI / 180)) (1 / 10)) as [Z|_]; [unfold RE in Z; lra|].
  destruct (Rle_dec 0 PI) as [_|]; [|lra]. destruct (Rlt_dec (2 * PI) (0 + PI)) as [|_]; [lra|].
  destruct (Rle_dec 0 (0 + PI)) as [_|]; [|lra]. destruct (Rle_dec 0 (- (PI / 2))) as [|_]; [lra|]. destruct (Rlt_dec (0 + PI) 0) as [|_]; [lra|]. cbn [andb orb] in H.
  set (q := RE * (PI / 180) / 111111) in *.
  assert (DQ : forall lat2 lon2, cos (radians (lon2 - 1)) = 1 -> (lat2 = q \/ lat2 = - q) -> get_distance 0 1 lat2 lon2 <> 0).
  { intros lat2 lon2 HL HQ E. rewrite distance_eq, <- rad_minus in E. apply Rmult_integral in E. destruct E as [E|E]; [lra|].
    pose proof (cos_acos _ (cA_range (radians 0) (radians lat2) (radians (lon2 - 1)))) as C. rewrite E, cos_0 in C. unfold cA in C. rewrite HL in C.
    replace (radians 0) with 0 in C by (unfold radians; field). rewrite sin_0, cos_0 in C.
    assert (C2 : cos (radians q) = 1). { destruct HQ as [-> | ->]; [lra|]. replace (radians (- q)) with (- radians q) in C by (unfold radians; field). rewrite cos_neg in C. lra. }
    assert (QR : 0 < radians q < PI).
    { unfold radians, q, RE. split; [|].
      - apply Rmult_lt_0_compat; [|exact HP]. lra.
      - assert (6371000 * (PI / 180) / 111111 / 180 < 1) by lra. nra. }
    assert (N : 0 < sin (radians q)) by (apply sin_gt_0; lra). pose proof (sc (radians q)). rewrite C2 in *. nra. }
  replace (0 + PI) with PI in H by ring.
  assert (W2 : cos (wrap_pi PI) = -1 /\ sin (wrap_pi PI) = 0) by (destruct (wrap_pi_trig PI) as [-> ->]; split; [apply cos_PI|apply sin_PI]). destruct W2 as [Wc Ws].
  rewrite Wc, Ws, sin_0, cos_0 in H.
  match type of H with xdist (snd (if Rlt_dec ?a ?b then _ else _)) = 0 => destruct (Rlt_dec a b) end; cbn [snd xdist] in H; revert H; apply DQ.
  - replace (1 + RE * (PI / 180) * 0 / 111111 - 1) with 0 by field. unfold radians. replace (0 / 180 * PI) with 0 by field. apply cos_0.
  - left. unfold q. field.
  - replace (1 + RE * (PI / 180) * 0 / 111111 - 1) with 0 by field. unfold radians. replace (0 / 180 * PI) with 0 by field. apply cos_0.
  - right. unfold q. field.
Qed.

(** non-vacuity: Zurich and a point about 100 km away, from the equator example above *)
Example ex_not_antipodal : ~ antipodal 0 0 0 1.
Proof.
  unfold antipodal, sphere, vneg. cbn [vx vy vz]. intros H. injection H as H1 H2 H3. pose proof PI_pos as HP.
  replace (0 / 180 * PI) with 0 in * by field. rewrite cos_0, sin_0 in *. assert (0 < cos (1 / 180 * PI)) by (apply cos_gt_0; lra). lra.
Qed.
Example ex_domain : (-90 <= 0 <= 90) /\ (-90 < 0 < 90) /\ (-180 < 1 - 0 <= 180). Proof. lra. Qed.
Example ex_in_sector : arc_in_sector 0 1 0 0 0 (- PI).
Proof.
  unfold arc_in_sector. rewrite bearing_west. pose proof PI_pos. destruct (Rle_dec 0 (- PI)); [lra|]. destruct (Rlt_dec (0 - - PI) 0); [lra|]. right. lra.
Qed.
Example ex_out_of_sector : ~ arc_in_sector 0 1 0 0 0 PI.
Proof.
  unfold arc_in_sector. rewrite bearing_west. pose proof PI_pos. destruct (Rle_dec 0 PI); [|lra]. destruct (Rlt_dec (2 * PI) (0 + PI)); lra.
Qed.
Print Assumptions C32_reproject_inverts_project.
Print Assumptions C32_project_inverts_reproject.
Print Assumptions C32_projection_is_equidistant.
Print Assumptions C32_reference_is_origin.
Print Assumptions C32_uninitialised_is_rejected.
Print Assumptions C53_distance_is_great_circle.
Print Assumptions C53_waypoint_is_reprojection.
Print Assumptions C53_waypoint_distance_and_bearing.
Print Assumptions C53_line_waypoint_reaches_end.
Print Assumptions C53_distance_3d.
Print Assumptions C53_distance_local.
Print Assumptions C54_fast_vector_roundtrip.
Print Assumptions C54_position_update_roundtrip.
Print Assumptions C54_vector_direction_and_length.
Print Assumptions C55_line.
Print Assumptions C55_arc_error.
Print Assumptions C55_arc_in_sector.
Print Assumptions C55_arc_out_of_sector_ignores_centre.
Print Assumptions C55_arc_point_on_arc_refuted.

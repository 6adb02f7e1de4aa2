(** * C53 (continued): triangle inequality; C32 (continued): distances on the local map *)
From Coq Require Import Reals Lra.
From Verif Require Import RealGeom GeoModel GeoProofs Props_Geo GeoProofs3.
Open Scope R_scope.

(** a detour over any third point is never shorter *)
Theorem C53_triangle_inequality : forall lat1 lon1 lat2 lon2 lat3 lon3,
  get_distance lat1 lon1 lat3 lon3 <= get_distance lat1 lon1 lat2 lon2 + get_distance lat2 lon2 lat3 lon3.
Proof.
  intros. destruct (C53_distance_is_great_circle lat1 lon1 lat3 lon3) as (-> & _). destruct (C53_distance_is_great_circle lat1 lon1 lat2 lon2) as (-> & _). destruct (C53_distance_is_great_circle lat2 lon2 lat3 lon3) as (-> & _).
  pose proof RE_pos. rewrite <- Rmult_plus_distr_l. apply Rmult_le_compat_l; [lra|]. unfold central_angle.
  assert (RG : forall a b c d, -1 <= vdot (sphere a b) (sphere c d) <= 1) by (intros; rewrite dot_cA; apply cA_range).
  apply acos_triangle; try apply RG.
  pose proof (sphere_unit lat1 lon1) as U1. pose proof (sphere_unit lat2 lon2) as U2. pose proof (sphere_unit lat3 lon3) as U3. unfold vdot in *.
  apply triangle_unit; assumption.
Qed.

(** ** the local map *)
Lemma dot_local p q1 L1 q2 L2 : sin q1 * sin q2 + cos q1 * cos q2 * cos (L2 - L1) =
  cA p q1 L1 * cA p q2 L2 + cX p q1 L1 * cX p q2 L2 + cY q1 L1 * cY q2 L2.
Proof.
  unfold cA, cX, cY. rewrite cos_minus. pose proof (sin2_cos2 p) as E. unfold Rsqr in E.
  transitivity ((sin p * sin p + cos p * cos p) * (sin q1 * sin q2 + cos q1 * cos q2 * (cos L2 * cos L1)) + cos q1 * cos q2 * (sin L2 * sin L1)); [rewrite E; ring|ring].
Qed.
Lemma local_polar lat0 lon0 t lat lon : ~ antipodal lat0 lon0 lat lon ->
  let p := radians lat0 in let q := radians lat in let L := radians lon - radians lon0 in
  let c := central_angle lat0 lon0 lat lon in let B := get_bearing lat0 lon0 lat lon in
  project (map_init lat0 lon0 t) lat lon = Some (RE * c * cos B, RE * c * sin B) /\
  cA p q L = cos c /\ cX p q L = sin c * cos B /\ cY q L = sin c * sin B /\ 0 <= c < PI.
Proof.
  intros H p q L c B. destruct (C32_projection_is_equidistant lat0 lon0 t lat lon H) as (x & y & E & _ & _ & Ex & Ey).
  destruct (C53_distance_is_great_circle lat0 lon0 lat lon) as (D & _). fold c in D. fold B in Ex, Ey. rewrite D in Ex, Ey.
  assert (Ec : c = acos (cA p q L)) by (unfold c, central_angle; rewrite dot_cA; reflexivity).
  apply not_antipodal in H. fold p q L in H. pose proof (k_facts _ _ _ H) as KF. cbv zeta in KF. rewrite <- Ec in KF. destruct KF as (Kp & Kc & Cpi & XY).
  pose proof (project_eq lat0 lon0 t lat lon) as PE. cbv zeta in PE. fold p q L in PE. rewrite <- Ec in PE.
  set (k := if Rlt_dec 0 (Rabs c) then c / sin c else 1) in *. rewrite E in PE. injection PE as X1 Y1.
  pose proof RE_pos. pose proof (acos_bd (cA p q L)) as CB. rewrite <- Ec in CB.
  split; [rewrite E, Ex, Ey; reflexivity|]. split; [rewrite Ec, cos_acos; [reflexivity|apply cA_range]|].
  split; [|split; [|split; [lra|exact Cpi]]].
  - apply (Rmult_eq_reg_l (k * RE)); [|apply Rgt_not_eq; nra]. transitivity x; [rewrite X1; ring|]. rewrite Ex. replace (k * RE * (sin c * cos B)) with (k * sin c * RE * cos B) by ring. rewrite Kc. ring.
  - apply (Rmult_eq_reg_l (k * RE)); [|apply Rgt_not_eq; nra]. transitivity y; [rewrite Y1; ring|]. rewrite Ey. replace (k * RE * (sin c * sin B)) with (k * sin c * RE * sin B) by ring. rewrite Kc. ring.
Qed.
(** for any two points within the angle rho (at most 90 degrees) of the map origin the
    straight-line distance of their map coordinates is at least the true distance and at
    most rho / sin rho times it *)
Theorem C32_map_distances : forall lat0 lon0 t lat1 lon1 lat2 lon2 rho, 0 < rho <= PI / 2 ->
  get_distance lat0 lon0 lat1 lon1 <= RE * rho -> get_distance lat0 lon0 lat2 lon2 <= RE * rho ->
  exists x1 y1 x2 y2, project (map_init lat0 lon0 t) lat1 lon1 = Some (x1, y1) /\ project (map_init lat0 lon0 t) lat2 lon2 = Some (x2, y2) /\
  let m := sqrt ((x1 - x2) * (x1 - x2) + (y1 - y2) * (y1 - y2)) in let d := get_distance lat1 lon1 lat2 lon2 in
  d <= m <= rho / sin rho * d.
Proof.
  intros lat0 lon0 t lat1 lon1 lat2 lon2 rho Rh D1 D2. pose proof RE_pos as RP. pose proof PI_RGT_0 as PP.
  assert (NA : forall lat lon, get_distance lat0 lon0 lat lon <= RE * rho -> ~ antipodal lat0 lon0 lat lon /\ central_angle lat0 lon0 lat lon <= rho).
  { intros lat lon D. destruct (C53_distance_is_great_circle lat0 lon0 lat lon) as (E & _). rewrite E in D. apply Rmult_le_reg_l in D; [|lra]. split; [|exact D].
    intros A. unfold central_angle in D. rewrite A in D. assert (Z : vdot (sphere lat0 lon0) (vneg (sphere lat0 lon0)) = -1).
    { pose proof (sphere_unit lat0 lon0) as U. unfold vdot, vneg in *. cbn [vx vy vz]. lra. }
    rewrite Z in D. assert (Q : acos (-1) = PI) by (rewrite <- cos_PI; apply acos_cos; lra). lra. }
  destruct (NA _ _ D1) as (A1 & C1). destruct (NA _ _ D2) as (A2 & C2).
  destruct (local_polar lat0 lon0 t lat1 lon1 A1) as (E1 & a1 & b1 & c1 & r1). destruct (local_polar lat0 lon0 t lat2 lon2 A2) as (E2 & a2 & b2 & c2 & r2).
  set (ca := central_angle lat0 lon0 lat1 lon1) in *. set (cb := central_angle lat0 lon0 lat2 lon2) in *. set (B1 := get_bearing lat0 lon0 lat1 lon1) in *. set (B2 := get_bearing lat0 lon0 lat2 lon2) in *.
  exists (RE * ca * cos B1), (RE * ca * sin B1), (RE * cb * cos B2), (RE * cb * sin B2). split; [exact E1|]. split; [exact E2|]. cbv zeta.
  destruct (C53_distance_is_great_circle lat1 lon1 lat2 lon2) as (DD & _). rewrite DD.
  assert (CA : central_angle lat1 lon1 lat2 lon2 = acos (cos ca * cos cb + sin ca * sin cb * cos (B1 - B2))).
  { unfold central_angle. f_equal. rewrite dot_cA. unfold cA at 1.
    replace (radians lon2 - radians lon1) with ((radians lon2 - radians lon0) - (radians lon1 - radians lon0)) by ring.
    rewrite (dot_local (radians lat0)). rewrite a1, a2, b1, b2, c1, c2, cos_minus. ring. }
  assert (M : sqrt ((RE * ca * cos B1 - RE * cb * cos B2) * (RE * ca * cos B1 - RE * cb * cos B2) + (RE * ca * sin B1 - RE * cb * sin B2) * (RE * ca * sin B1 - RE * cb * sin B2))
     = RE * sqrt (ca * ca + cb * cb - 2 * ca * cb * cos (B1 - B2))).
  { rewrite <- (sqrt_square RE) at 9 by lra. rewrite <- sqrt_mult_alt by nra. f_equal. rewrite cos_minus.
    pose proof (sin2_cos2 B1) as Q1. pose proof (sin2_cos2 B2) as Q2. unfold Rsqr in Q1, Q2.
    transitivity (RE * RE * (ca * ca * (sin B1 * sin B1 + cos B1 * cos B1) + cb * cb * (sin B2 * sin B2 + cos B2 * cos B2) - 2 * ca * cb * (cos B1 * cos B2 + sin B1 * sin B2))); [ring|]. rewrite Q1, Q2. ring. }
  rewrite M, CA. pose proof (COS_bound (B1 - B2)) as KB.
  pose proof (plane_ge_sphere ca cb (cos (B1 - B2)) ltac:(lra) ltac:(lra) ltac:(lra) KB) as G1.
  pose proof (plane_le_sphere ca cb (cos (B1 - B2)) rho ltac:(lra) ltac:(lra) ltac:(lra) KB) as G2.
  split; [apply Rmult_le_compat_l; lra|]. replace (rho / sin rho * (RE * acos (cos ca * cos cb + sin ca * sin cb * cos (B1 - B2)))) with (RE * (rho / sin rho * acos (cos ca * cos cb + sin ca * sin cb * cos (B1 - B2)))) by ring.
  apply Rmult_le_compat_l; lra.
Qed.
(** within 100 km of the origin map distances are right to one part in 8000 *)
Theorem C32_map_distances_100km : forall lat0 lon0 t lat1 lon1 lat2 lon2,
  get_distance lat0 lon0 lat1 lon1 <= 100000 -> get_distance lat0 lon0 lat2 lon2 <= 100000 ->
  exists x1 y1 x2 y2, project (map_init lat0 lon0 t) lat1 lon1 = Some (x1, y1) /\ project (map_init lat0 lon0 t) lat2 lon2 = Some (x2, y2) /\
  let m := sqrt ((x1 - x2) * (x1 - x2) + (y1 - y2) * (y1 - y2)) in let d := get_distance lat1 lon1 lat2 lon2 in
  d <= m <= (1 + 1 / 8000) * d.
Proof.
  intros lat0 lon0 t lat1 lon1 lat2 lon2 D1 D2. pose proof PI2_1 as P2.
  assert (E : RE * (100000 / 6371000) = 100000) by (unfold RE; field). rewrite <- E in D1, D2.
  destruct (C32_map_distances lat0 lon0 t lat1 lon1 lat2 lon2 (100000 / 6371000) ltac:(lra) D1 D2) as (x1 & y1 & x2 & y2 & A & B & C & D).
  exists x1, y1, x2, y2. split; [exact A|]. split; [exact B|]. cbv zeta. split; [exact C|]. apply (Rle_trans _ _ _ D).
  destruct (C53_distance_is_great_circle lat1 lon1 lat2 lon2) as (_ & (D0 & _) & _). apply Rmult_le_compat_r; [exact D0|].
  set (r := 100000 / 6371000). assert (RR : 0 < r < 2 / 100) by (unfold r; lra).
  pose proof (sin_xcos r ltac:(lra)) as S. assert (CC : 1 - r * r / 2 <= cos r).
  { pose proof (half_angle r) as H. pose proof (x_le_sin (r / 2) ltac:(lra)). assert (0 <= sin (r / 2)) by (apply sin_ge_0; lra). nra. }
  assert (SP : 0 < sin r) by (apply sin_gt_0; lra).
  apply (Rmult_le_reg_r (sin r)); [exact SP|]. unfold Rdiv at 1. rewrite Rmult_assoc, Rinv_l by lra.
  assert (R2 : r * r <= 248 / 1000000) by (unfold r; lra). assert (r * (1 - r * r / 2) <= sin r) by nra. nra.
Qed.
Example C32_map_100km_case : get_distance 45 5 45 5 <= 100000 /\ get_distance 45 5 45.5 5 <= 100000.
Proof.
  split.
  - destruct (C53_distance_is_great_circle 45 5 45 5) as (_ & _ & _ & (_ & E)). rewrite E by reflexivity. lra.
  - destruct (C53_distance_is_great_circle 45 5 45.5 5) as (E & _). rewrite E. unfold central_angle. rewrite dot_cA. replace (radians 5 - radians 5) with 0 by ring.
    unfold cA. rewrite cos_0, Rmult_1_r. replace (sin (radians 45) * sin (radians 45.5) + cos (radians 45) * cos (radians 45.5)) with (cos (radians 45.5 - radians 45)) by (rewrite cos_minus; ring).
    assert (R : radians 45.5 - radians 45 = PI / 360) by (unfold radians; lra). rewrite R. pose proof PI_RGT_0. pose proof PI_4. rewrite acos_cos by lra. unfold RE. lra.
Qed.
Print Assumptions C53_triangle_inequality.
Print Assumptions C32_map_distances.

(** * C89: setting and moving the local origin *)
From Coq Require Import Reals Lra Lia ZArith List Bool.
From Verif Require Import CBase Scalar RealGeom RotModel RotProofs GeoModel GeoProofs Props_Geo RingBufferModel OutputModel OutputReset
  CovPredGen CovModel CovProofsR VelPosModel FusionModel ObsModel Props_Output OriginModel.
Import ListNotations.
Open Scope R_scope.

(** ** Where the vehicle is believed to be: point of the unit sphere and altitude *)
Definition global_point (s : org) : option (V3 * R) :=
  match reproject (g_map s) (pos s 0%nat) (pos s 1%nat) with
  | Some (lat, lon) => Some (sphere lat lon, g_alt s - pos s 2%nat)
  | None => None
  end.
Definition map_ok (m : mapref) : Prop := exists lat lon t, m = map_init lat lon t.

Lemma sphere_rad a b : sphere a b = mkV (cos (radians a) * cos (radians b)) (cos (radians a) * sin (radians b)) (sin (radians a)).
Proof. reflexivity. Qed.

(** ** C32 without restriction to a range of longitudes or away from the poles: projecting any
    point other than the antipode of the reference and reprojecting gives the same point of the sphere *)
Theorem C32_roundtrip_same_point : forall lat0 lon0 t lat lon, ~ antipodal lat0 lon0 lat lon ->
  exists x y lat' lon', project (map_init lat0 lon0 t) lat lon = Some (x, y) /\
    reproject (map_init lat0 lon0 t) x y = Some (lat', lon') /\ sphere lat' lon' = sphere lat lon.
Proof.
  intros lat0 lon0 t lat lon HA0. pose proof HA0 as HA. apply not_antipodal in HA.
  pose proof (project_eq lat0 lon0 t lat lon) as PE. cbv zeta in PE. pose proof (k_facts _ _ _ HA) as KF. cbv zeta in KF.
  set (p := radians lat0) in *. set (q := radians lat) in *. set (L := radians lon - radians lon0) in *.
  set (c := acos (cA p q L)) in *. set (k := if Rlt_dec 0 (Rabs c) then c / sin c else 1) in *.
  destruct KF as (Kp & Kc & Cpi & XY). pose proof RE_pos as HRE. pose proof (acos_bd (cA p q L)) as CB. fold c in CB.
  set (x := k * cX p q L * RE) in *. set (y := k * cY q L * RE) in *.
  destruct (Req_dec c 0) as [Z|Z].
  - exists x, y, lat0, lon0. split; [exact PE|].
    rewrite Z, sin_0 in XY. assert (X0 : cX p q L = 0) by nra. assert (Y0 : cY q L = 0) by nra.
    assert (x = 0) by (unfold x; rewrite X0; ring). assert (y = 0) by (unfold y; rewrite Y0; ring). 
    split.
    + rewrite H, H0. apply (C32_reference_is_origin lat0 lon0 t).
    + symmetry. apply same_point. fold p q L. rewrite <- (cos_acos (cA p q L)) by apply cA_range. fold c. rewrite Z. apply cos_0.
  - assert (Cp : 0 < c) by lra. assert (Sp : 0 < sin c) by (apply sin_gt_0; lra).
    assert (Ex : x / RE = k * cX p q L) by (unfold x; field; lra). assert (Ey : y / RE = k * cY q L) by (unfold y; field; lra).
    assert (Ec : sqrt (x / RE * (x / RE) + y / RE * (y / RE)) = c).
    { rewrite Ex, Ey. rewrite <- Kc. rewrite <- (sqrt_square (k * sin c)) by (apply Rmult_le_pos; lra). f_equal.
      transitivity (k * k * (cX p q L * cX p q L + cY q L * cY q L)); [ring|]. rewrite XY. ring. }
    assert (NZ : x <> 0 \/ y <> 0).
    { destruct (Req_dec x 0) as [E|E]; [right|left; exact E]. intros F. rewrite E, F in Ec. unfold Rdiv in Ec. rewrite Rmult_0_l in Ec. replace (0 * 0 + 0 * 0) with 0 in Ec by ring. rewrite sqrt_0 in Ec. lra. }
    destruct (reproject_eq lat0 lon0 t x y NZ) as (_ & UV & RE1). rewrite Ec in RE1, UV. fold p in RE1.
    destruct (dest_facts p c _ _ UV) as (_ & _ & A1 & X1 & Y1). cbv zeta in *.
    set (q' := dlat p c (x / RE / c)) in *. set (L' := dlon p c (x / RE / c) (y / RE / c)) in *.
    exists x, y, (degrees q'), (degrees (radians lon0 + L')). split; [exact PE|]. split; [exact RE1|].
    assert (U : x / RE / c * sin c = cX p q L) by (rewrite Ex; apply (Rmult_eq_reg_r k); [|lra]; transitivity (k * cX p q L * (k * sin c) / c); [field; lra|rewrite Kc; field; lra]).
    assert (V : y / RE / c * sin c = cY q L) by (rewrite Ey; apply (Rmult_eq_reg_r k); [|lra]; transitivity (k * cY q L * (k * sin c) / c); [field; lra|rewrite Kc; field; lra]).
    assert (CA : cos c = cA p q L) by (unfold c; apply cos_acos; apply cA_range).
    rewrite U in X1. rewrite V in Y1. rewrite CA in A1.
    destruct (c_inv p q L) as [I1 I2]. destruct (c_inv p q' L') as [J1 J2]. rewrite A1, X1 in J1, J2.
    assert (S1 : sin q' = sin q) by lra. assert (S2 : cos q' * cos L' = cos q * cos L) by lra. unfold cY in Y1.
    rewrite !sphere_rad, !rad_deg. fold q. replace (radians lon) with (radians lon0 + L) by (unfold L; ring).
    rewrite !cos_plus, !sin_plus, S1.
    f_equal.
    + transitivity (cos (radians lon0) * (cos q' * cos L') - sin (radians lon0) * (cos q' * sin L')); [ring|]. rewrite S2, Y1. ring.
    + transitivity (sin (radians lon0) * (cos q' * cos L') + cos (radians lon0) * (cos q' * sin L')); [ring|]. rewrite S2, Y1. ring.
Qed.

(** ** Moving the origin with setEkfGlobalOrigin *)
Lemma reset_pos x y z (o : ost R) : 
  let o' := resetVerticalPositionTo z (resetHorizontalPositionTo (fun k => match k with O => x | _ => y end) o) in
  e_p o' 0%nat = x /\ e_p o' 1%nat = y /\ e_p o' 2%nat = z /\
  posNE_change (o_rst o') 0%nat = x - e_p o 0%nat /\ posNE_change (o_rst o') 1%nat = y - e_p o 1%nat /\ posD_change (o_rst o') = z - e_p o 2%nat /\
  (forall k, (k < 3)%nat -> op (payload (o_new o')) k = op (payload (o_new o)) k + (e_p o' k - e_p o k)).
Proof.
  cbv zeta. unfold resetVerticalPositionTo, resetHorizontalPositionTo. cbn. repeat split.
  intros k Hk. do 3 (destruct k as [|k]; [cbn; lra|]). lia.
Qed.
(** while the filter is aided, moving the origin (to any place except the antipode of the vehicle)
    leaves the believed position on the globe and altitude where they were; the published output moves by
    the same vector as the state, and that vector is what is reported as reset.  The origin reported is the one asked for *)
Theorem C89_move_keeps_position : forall lat lon alt now s plat plon,
  map_ok (g_map s) -> reproject (g_map s) (pos s 0%nat) (pos s 1%nat) = Some (plat, plon) -> ~ antipodal lat lon plat plon ->
  let s' := setGlobalOrigin lat lon alt now true s in
  global_point s' = global_point s /\ g_alt s' = alt /\ map_reference (g_map s') = Some (radians lat, radians lon) /\
  posNE_change (o_rst (g_o s')) 0%nat = pos s' 0%nat - pos s 0%nat /\ posNE_change (o_rst (g_o s')) 1%nat = pos s' 1%nat - pos s 1%nat /\
  posD_change (o_rst (g_o s')) = pos s' 2%nat - pos s 2%nat /\
  (forall k, (k < 3)%nat -> op (payload (o_new (g_o s'))) k = op (payload (o_new (g_o s))) k + (pos s' k - pos s k)).
Proof.
  intros lat lon alt now s plat plon (lat0 & lon0 & t0 & M) RP NA. cbv zeta. unfold setGlobalOrigin.
  replace (mr_init (g_map s)) with true by (rewrite M; reflexivity). cbn [andb]. rewrite RP.
  destruct (C32_roundtrip_same_point lat lon now plat plon NA) as (x & y & lat' & lon' & E1 & E2 & E3). rewrite E1.
  pose proof (reset_pos x y (alt - (- pos s 2%nat + g_alt s)) (g_o s)) as (R0 & R1 & R2 & C0 & C1 & C2 & O).
  set (o' := resetVerticalPositionTo _ _) in *. set (s' := Org _ _ _ _ _ _ _ _).
  assert (P0 : pos s' 0%nat = x) by exact R0. assert (P1 : pos s' 1%nat = y) by exact R1. assert (P2 : pos s' 2%nat = alt - (- pos s 2%nat + g_alt s)) by exact R2.
  split; [|split; [reflexivity|split; [reflexivity|]]].
  - unfold global_point. rewrite RP, P0, P1, P2. change (g_map s') with (map_init lat lon now). change (g_alt s') with alt. rewrite E2, E3. f_equal. f_equal. lra.
  - rewrite P0, P1, P2. split; [exact C0|]. split; [exact C1|]. split; [exact C2|]. exact O.
Qed.

(** any sequence of moves *)
Theorem C89_moves_keep_position : forall (l : list (R * R * R * Z)) s plat plon,
  map_ok (g_map s) -> reproject (g_map s) (pos s 0%nat) (pos s 1%nat) = Some (plat, plon) ->
  Forall (fun m => let '(lat, lon, _, _) := m in ~ antipodal lat lon plat plon) l ->
  global_point (fold_left (fun s m => let '(lat, lon, alt, now) := m in setGlobalOrigin lat lon alt now true s) l s) = global_point s.
Proof.
  induction l as [|[[[lat lon] alt] now] l IH]; intros s plat plon M RP F; [reflexivity|]. cbn [fold_left].
  inversion F as [|? ? F1 F2]; subst. pose proof (C89_move_keeps_position lat lon alt now s plat plon M RP F1) as H. cbv zeta in H.
  set (s' := setGlobalOrigin lat lon alt now true s) in *. destruct H as (G & _ & MR & _).
  rewrite <- G.
  assert (GE : exists a b, reproject (g_map s') (pos s' 0%nat) (pos s' 1%nat) = Some (a, b) /\ sphere a b = sphere plat plon).
  { unfold global_point in G. rewrite RP in G. destruct (reproject (g_map s') _ _) as [[a b]|]; [|discriminate].
    exists a, b. split; [reflexivity|]. exact (f_equal (fun o => match o with Some p => fst p | None => sphere 0 0 end) G). }
  destruct GE as (a & b & R1 & R2). apply (IH s' a b).
  - unfold s', setGlobalOrigin. replace (mr_init (g_map s)) with true by (destruct M as (? & ? & ? & ->); reflexivity). cbn [andb]. rewrite RP.
    destruct (project _ plat plon) as [[x y]|]; [exists lat, lon, now; reflexivity|exact M].
  - exact R1.
  - apply Forall_forall. intros [[[u v] w] z] I. pose proof (proj1 (Forall_forall _ _) F2 _ I) as N. cbn in N |- *. unfold antipodal in *. rewrite R2. exact N.
Qed.
(** without aiding the local position is kept and the believed position moves with the origin *)
Theorem C89_move_without_aiding : forall lat lon alt now s,
  let s' := setGlobalOrigin lat lon alt now false s in
  g_o s' = g_o s /\ g_alt s' = alt /\ map_reference (g_map s') = Some (radians lat, radians lon).
Proof. intros. unfold s', setGlobalOrigin. rewrite andb_false_r. cbn. auto. Qed.
(** ... and in either case the origin is not thereby valid, so the global position stays reported as invalid until the GPS
    checks have passed, and the earth rate remains that of the old origin (defects) *)
Theorem C89_move_not_valid : forall lat lon alt now aiding s,
  g_ned (setGlobalOrigin lat lon alt now aiding s) = g_ned s /\ g_rate (setGlobalOrigin lat lon alt now aiding s) = g_rate s.
Proof.
  intros. unfold setGlobalOrigin. destruct (if mr_init (g_map s) && aiding then _ else _) as [[a b]|]; [|split; reflexivity].
  destruct (project _ a b) as [[x y]|]; split; reflexivity.
Qed.

(** getEkfGlobalOrigin returns what was asked for, in degrees, and whether it is valid *)
Theorem C89_reported_origin : forall lat lon alt now s plat plon,
  getGlobalOrigin (setGlobalOrigin lat lon alt now false s) = (lat, lon, alt, g_ned s) /\
  (map_ok (g_map s) -> reproject (g_map s) (pos s 0%nat) (pos s 1%nat) = Some (plat, plon) -> ~ antipodal lat lon plat plon ->
   getGlobalOrigin (setGlobalOrigin lat lon alt now true s) = (lat, lon, alt, g_ned s)).
Proof.
  intros lat lon alt now s plat plon.
  assert (DR : forall x, degrees (radians x) = x) by (intros x; unfold degrees, radians; field; apply PI_neq0).
  split.
  - unfold setGlobalOrigin. rewrite andb_false_r. unfold getGlobalOrigin. cbn. rewrite !DR. reflexivity.
  - intros (lat0 & lon0 & t0 & M) RP NA. unfold setGlobalOrigin. replace (mr_init (g_map s)) with true by (rewrite M; reflexivity). cbn [andb]. rewrite RP.
    destruct (C32_roundtrip_same_point lat lon now plat plon NA) as (x & y & lat' & lon' & E1 & E2 & E3). rewrite E1.
    unfold getGlobalOrigin. cbn [g_map g_alt g_ned map_init mr_lat mr_lon]. rewrite !DR. reflexivity.
Qed.

(** ** What does not move with the origin (defects).  [height_innov src i s]: innovation of a height sample *)
Definition height_inputs (i : hgtin R) (s : org) : hgtin R :=
  HgtIn (h_baro i) (g_boff s) (h_gps i) (h_vacc i) (g_alt s) (g_hoff s) (h_dist i) (h_ev i) (h_evvar i) (h_gnd i).
Definition height_innov (src : hgtsrc) (p : hgtpar R) (i : hgtin R) (s : org) : R := fst (fst (hgtObs src p (height_inputs i s) (pos s 2%nat))).
(** moving the origin by [d] in altitude changes the height by [d]; GPS height agrees with the new height, but the innovations of
    barometer, range finder and vision all jump by [d], and the height above ground (terrain estimate) by [-d] *)
Theorem C89_altitude_jump : forall lat lon alt now s plat plon p i,
  map_ok (g_map s) -> reproject (g_map s) (pos s 0%nat) (pos s 1%nat) = Some (plat, plon) -> h_gnd i = false ->
  let s' := setGlobalOrigin lat lon alt now true s in let d := alt - g_alt s in
  pos s' 2%nat = pos s 2%nat + d /\
  height_innov HGps p i s' = height_innov HGps p i s /\
  height_innov HBaro p i s' = height_innov HBaro p i s + d /\
  height_innov HRange p i s' = height_innov HRange p i s + d /\
  height_innov HVision p i s' = height_innov HVision p i s + d /\
  g_terrain s' - pos s' 2%nat = (g_terrain s - pos s 2%nat) - d.
Proof.
  intros lat lon alt now s plat plon p i (lat0 & lon0 & t0 & M) RP HG. cbv zeta. unfold setGlobalOrigin.
  replace (mr_init (g_map s)) with true by (rewrite M; reflexivity). cbn [andb]. rewrite RP.
  pose proof (project_eq lat lon now plat plon) as PE. cbv zeta in PE.
  destruct (project (map_init lat lon now) plat plon) as [[x y]|]; [|discriminate PE]. clear PE.
  pose proof (reset_pos x y (alt - (- pos s 2%nat + g_alt s)) (g_o s)) as (_ & _ & R2 & _).
  set (o' := resetVerticalPositionTo _ _) in *. set (s' := Org _ _ _ _ _ _ _ _).
  assert (P2 : pos s' 2%nat = pos s 2%nat + (alt - g_alt s)) by (etransitivity; [exact R2|lra]).
  unfold height_innov. rewrite P2. unfold height_inputs. cbn [s' g_alt g_boff g_hoff g_terrain].
  unfold hgtObs. cbn [fst h_baro h_boff h_gps h_ref h_off h_dist h_ev h_gnd]. rewrite HG. unfold deadzone. cbn [sadd ssub sopp RScalar].
  repeat split; lra.
Qed.
(** a GPS sample received before the move carries coordinates of the old origin: when it is fused afterwards its innovation has
    changed by the whole movement of the origin as seen in the map; a sample received after the move from where the vehicle is
    believed to be has none *)
Theorem C89_buffered_gps_jump : forall lat lon alt now s plat plon,
  map_ok (g_map s) -> reproject (g_map s) (pos s 0%nat) (pos s 1%nat) = Some (plat, plon) -> ~ antipodal lat lon plat plon ->
  let s' := setGlobalOrigin lat lon alt now true s in
  (forall (z : nat -> R) k, (k < 2)%nat -> (pos s' k - z k) = (pos s k - z k) + posNE_change (o_rst (g_o s')) k) /\
  gpsLocal true plat plon s' = (pos s' 0%nat, pos s' 1%nat).
Proof.
  intros lat lon alt now s plat plon M RP NA. pose proof (C89_move_keeps_position lat lon alt now s plat plon M RP NA) as H. cbv zeta in H |- *.
  destruct H as (_ & _ & _ & C0 & C1 & _). split.
  - intros z k Hk. assert (K : k = 0%nat \/ k = 1%nat) by lia. destruct K as [-> | ->]; [rewrite C0|rewrite C1]; lra.
  - clear C0 C1. destruct M as (lat0 & lon0 & t0 & M). unfold gpsLocal, setGlobalOrigin.
    replace (mr_init (g_map s)) with true by (rewrite M; reflexivity). cbn [andb]. rewrite RP.
    pose proof (project_eq lat lon now plat plon) as PE. cbv zeta in PE.
    destruct (project (map_init lat lon now) plat plon) as [[x y]|] eqn:E; [|discriminate PE]. cbn [g_map]. rewrite E. clear PE.
    pose proof (reset_pos x y (alt - (- pos s 2%nat + g_alt s)) (g_o s)) as (R0 & R1 & _).
    exact (f_equal2 pair (eq_sym R0) (eq_sym R1)).
Qed.
(** for instance moving the origin from (0,0) to one degree east of it, with the vehicle at the old origin: a sample in
    the buffer that was exactly right appears 111 km wrong *)
Definition demoS : org := Org (map_init 0 0 0) 0 true 0 ex_s 0 0 0.
Theorem C89_buffered_gps_refuted : exists s lat lon alt now,
  pos s 0%nat = 0 /\ pos s 1%nat = 0 /\ gpsLocal true 0 0 s = (0, 0) /\
  let s' := setGlobalOrigin lat lon alt now true s in
  pos s' 1%nat - snd (gpsLocal true 0 0 s) = - (RE * (PI / 180)) /\ gpsLocal true 0 0 s' = (pos s' 0%nat, pos s' 1%nat).
Proof.
  exists demoS, 0, 1, 0, 0%Z. pose proof PI_pos as HP.
  assert (P0 : pos demoS 0%nat = 0) by reflexivity. assert (P1 : pos demoS 1%nat = 0) by reflexivity.
  assert (G0 : gpsLocal true 0 0 demoS = (0, 0)).
  { unfold gpsLocal. change (g_map demoS) with (map_init 0 0 0). destruct (C32_reference_is_origin 0 0 0) as (-> & _). reflexivity. }
  assert (NA : ~ antipodal 0 1 0 0).
  { unfold antipodal. rewrite !sphere_rad. unfold vneg. replace (radians 0) with 0 by (unfold radians; field). rewrite cos_0, sin_0. cbn [vx vy vz].
    intros E. injection E as E1 E2 E3. assert (0 < sin (radians 1)) by (apply sin_gt_0; unfold radians; lra). lra. }
  assert (RP : reproject (g_map demoS) (pos demoS 0%nat) (pos demoS 1%nat) = Some (0, 0)).
  { rewrite P0, P1. apply (C32_reference_is_origin 0 0 0). }
  assert (OK : map_ok (g_map demoS)) by (exists 0, 0, 0%Z; reflexivity).
  destruct (C89_buffered_gps_jump 0 1 0 0%Z demoS 0 0 OK RP NA) as (_ & GL). cbv zeta in GL |- *.
  split; [exact P0|]. split; [exact P1|]. split; [exact G0|]. split; [|exact GL]. rewrite G0. cbn [snd].
  destruct (C32_projection_is_equidistant 0 1 0%Z 0 0 NA) as (x & y & E & _ & D & _ & Y).
  rewrite bearing_west, sin_neg, sin_PI2, distance_eq in Y.
  replace (radians 0) with 0 in Y by (unfold radians; field). unfold cA in Y. rewrite sin_0, cos_0 in Y.
  assert (C1 : cos (0 - radians 1) = cos (radians 1)) by (rewrite <- (cos_neg (radians 1)); f_equal; ring). rewrite C1 in Y.
  replace (0 * 0 + 1 * 1 * cos (radians 1)) with (cos (radians 1)) in Y by ring.
  rewrite acos_cos' in Y by (unfold radians; lra).
  assert (Q : gpsLocal true 0 0 (setGlobalOrigin 0 1 0 0%Z true demoS) = (x, y)).
  { unfold gpsLocal. assert (M : g_map (setGlobalOrigin 0 1 0 0%Z true demoS) = map_init 0 1 0).
    { unfold setGlobalOrigin. change (mr_init (g_map demoS) && true) with true. cbv iota. rewrite RP. rewrite E. reflexivity. }
    rewrite M, E. reflexivity. }
  rewrite GL in Q. injection Q as Q0 Q1. rewrite Q1, Y. unfold radians. field.
Qed.

(** ** The origin taken from GPS *)
(** when the checks first pass without other aiding the origin is the GPS position, so that sample is at (0,0); the
    altitude of the origin is such that the believed altitude is that of the receiver *)
Theorem C89_first_origin_at_rest : forall rough fix_type lat lon alt now s,
  g_ned s = false -> mr_init (g_map s) = false -> (3 <= fix_type)%Z ->
  let '(s', xy) := deliverGps true true true true false rough fix_type lat lon alt now s in
  g_ned s' = true /\ xy = Some (0, 0) /\ g_map s' = map_init lat lon now /\ g_alt s' - pos s' 2%nat = alt /\ g_rate s' = radians lat.
Proof.
  intros rough fix_type lat lon alt now s N M F. unfold deliverGps. cbn [andb].
  replace (2 <? fix_type)%Z with true by (symmetry; apply Z.ltb_lt; lia). cbv iota. unfold collectGps. rewrite N, M. cbn [negb andb g_ned].
  replace (3 <=? fix_type)%Z with true by (symmetry; apply Z.leb_le; lia).
  split; [reflexivity|]. split; [|split; [reflexivity|split; [|reflexivity]]].
  - unfold gpsLocal. cbn [g_map]. destruct (C32_reference_is_origin lat lon now) as (-> & _). reflexivity.
  - cbn [g_alt]. unfold pos. cbn [g_o]. lra.
Qed.
(** when the filter is already aided (vision, flow) its local position [pos] is kept and the origin placed accordingly.  The
    receiver is then at exactly the distance |pos| from the origin, but its East coordinate is pos_E * cos(lat) / cos(lat of
    the origin) instead of pos_E: the direction is off by the convergence of the meridians (a defect near the poles) *)
Theorem C89_first_origin_aided : forall rough fix_type lat lon alt now s,
  g_ned s = false -> mr_init (g_map s) = false -> (3 <= fix_type)%Z ->
  sqrt (pos s 0%nat * pos s 0%nat + pos s 1%nat * pos s 1%nat) < PI * RE ->
  let '(s', xy) := deliverGps true true true true true rough fix_type lat lon alt now s in
  g_ned s' = true /\ g_o s' = g_o s /\ g_alt s' - pos s' 2%nat = alt /\
  exists x y, xy = Some (x, y) /\
    sqrt (x * x + y * y) = sqrt (pos s 0%nat * pos s 0%nat + pos s 1%nat * pos s 1%nat) /\
    y * cos (mr_lat (g_map s')) = pos s 1%nat * cos (radians lat).
Proof.
  intros rough fix_type lat lon alt now s N M F D. unfold deliverGps. cbn [andb].
  replace (2 <? fix_type)%Z with true by (symmetry; apply Z.ltb_lt; lia). cbv iota. unfold collectGps. rewrite N, M. cbn [negb andb g_ned].
  replace (3 <=? fix_type)%Z with true by (symmetry; apply Z.leb_le; lia).
  split; [reflexivity|]. split; [reflexivity|]. split; [cbn [g_alt]; unfold pos; cbn [g_o]; lra|].
  cbn [g_map]. unfold gpsLocal. cbn [g_map].
  set (a := pos s 0%nat) in *. set (b := pos s 1%nat) in *. pose proof RE_pos as HRE. pose proof PI_pos as HPI.
  destruct (Req_dec a 0) as [Za|Za]; [destruct (Req_dec b 0) as [Zb|Zb]|].
  { rewrite Za, Zb, !Ropp_0. destruct (C32_reference_is_origin lat lon now) as (PO & -> & _). rewrite PO. exists 0, 0.
    split; [reflexivity|]. split; [f_equal; ring|]. ring. }
  all: assert (NZ : - a <> 0 \/ - b <> 0) by (first [right; lra | left; lra]).
  all: destruct (reproject_eq lat lon now (- a) (- b) NZ) as (Cp & UV & ->); cbv zeta in *.
  all: replace (- a / RE * (- a / RE) + - b / RE * (- b / RE)) with ((a * a + b * b) / (RE * RE)) in * by (field; lra).
  all: assert (CE : sqrt ((a * a + b * b) / (RE * RE)) = sqrt (a * a + b * b) / RE) by
         (rewrite sqrt_div by nra; rewrite (sqrt_square RE) by lra; reflexivity).
  all: rewrite CE in *; set (d := sqrt (a * a + b * b)) in *; set (c := d / RE) in *.
  all: assert (Cpi : c < PI) by (apply (Rmult_lt_reg_r RE); [exact HRE|]; unfold c, Rdiv; rewrite Rmult_assoc, Rinv_l by lra; lra).
  all: assert (Sp : 0 < sin c) by (apply sin_gt_0; assumption).
  all: destruct (dest_facts (radians lat) c _ _ UV) as (R1 & R2 & A1 & X1 & Y1); cbv zeta in *.
  all: set (qq := dlat (radians lat) c (- a / RE / c)) in *; set (LL := dlon (radians lat) c (- a / RE / c) (- b / RE / c)) in *.
  all: pose proof (project_eq (degrees qq) (degrees (radians lon + LL)) now lat lon) as PE; cbv zeta in PE; rewrite PE, !rad_deg;
    replace (radians lon - (radians lon + LL)) with (- LL) by ring; rewrite <- cA_sym, A1, acos_cos' by lra;
    (destruct (Rlt_dec 0 (Rabs c)) as [_|W]; [|exfalso; apply W; rewrite Rabs_right; lra]).
  all: do 2 eexists; split; [reflexivity|].
  all: assert (NQ : cX qq (radians lat) (- LL) * cX qq (radians lat) (- LL) + cY (radians lat) (- LL) * cY (radians lat) (- LL) = sin c * sin c)
    by (pose proof (c_norm qq (radians lat) (- LL)) as CN; rewrite <- cA_sym, A1 in CN; pose proof (sc c); lra).
  all: assert (DC : d = c * RE) by (unfold c; field; lra).
  all: split.
  1, 3: rewrite DC; rewrite <- (sqrt_square (c * RE)) by (apply Rmult_le_pos; lra); f_equal;
    transitivity (c / sin c * (c / sin c) * RE * RE * (cX qq (radians lat) (- LL) * cX qq (radians lat) (- LL) + cY (radians lat) (- LL) * cY (radians lat) (- LL)));
    [ring|rewrite NQ; field; lra].
  all: unfold map_init; cbn [mr_lat]; rewrite rad_deg; unfold cY in *; rewrite sin_neg;
    transitivity (- (c / sin c * RE * cos (radians lat)) * (cos qq * sin LL)); [ring|]; rewrite Y1; field; repeat split; lra.
Qed.
(** ** Samples delivered before the origin is valid *)
(** a message with a 2D fix is ignored altogether, although the code intends to take the declination and the earth rate from
    it (a defect) *)
Theorem C89_2d_fix_ignored : forall rate_ok need fi passed aiding rough fix_type lat lon alt now s, (fix_type <= 2)%Z ->
  deliverGps rate_ok need fi passed aiding rough fix_type lat lon alt now s = (s, None).
Proof.
  intros. unfold deliverGps. replace (2 <? fix_type)%Z with false by (symmetry; apply Z.ltb_ge; lia). rewrite andb_false_r. reflexivity.
Qed.
(** a sample delivered before the origin is valid is stored with local position (0,0), whatever the receiver reports.  If the
    user has set an origin elsewhere, such a sample - still in the buffer when the checks pass - places the vehicle at
    the origin, wrong by its whole distance from it (a defect) *)
Theorem C89_early_sample : forall aiding rough fix_type lat lon alt now s, g_ned s = false -> (3 <= fix_type)%Z ->
  snd (deliverGps true true true false aiding rough fix_type lat lon alt now s) = Some (0, 0) /\
  (forall alt0 lat0 lon0 t0 lat1 lon1 alt1 now1, ~ antipodal lat0 lon0 lat1 lon1 ->
    let s1 := setGlobalOrigin lat0 lon0 alt0 t0 false s in
    let s2 := fst (deliverGps true true true false aiding rough fix_type lat lon alt now s1) in
    let '(s3, xy) := deliverGps true true true true aiding rough fix_type lat1 lon1 alt1 now1 s2 in
    snd (deliverGps true true true false aiding rough fix_type lat lon alt now s1) = Some (0, 0) /\
    exists x y, xy = Some (x, y) /\ sqrt (x * x + y * y) = RE * central_angle lat0 lon0 lat1 lon1).
Proof.
  intros aiding rough fix_type lat lon alt now s N F.
  assert (F2 : (2 <? fix_type)%Z = true) by (apply Z.ltb_lt; lia). assert (F3 : (3 <=? fix_type)%Z = true) by (apply Z.leb_le; lia).
  assert (A : forall s0, g_ned s0 = false -> snd (deliverGps true true true false aiding rough fix_type lat lon alt now s0) = Some (0, 0) /\
     let s2 := fst (deliverGps true true true false aiding rough fix_type lat lon alt now s0) in g_ned s2 = false /\ g_map s2 = g_map s0).
  { intros s0 N0. unfold deliverGps, collectGps. rewrite F2, N0. cbn [andb negb]. destruct rough; cbn [andb fst snd g_ned]; rewrite ?N0; auto. }
  split; [apply A; exact N|]. intros alt0 lat0 lon0 t0 lat1 lon1 alt1 now1 NA. cbv zeta.
  set (s1 := setGlobalOrigin lat0 lon0 alt0 t0 false s).
  assert (N1 : g_ned s1 = false) by (unfold s1; rewrite (proj1 (C89_move_not_valid _ _ _ _ _ _)); exact N).
  assert (M1 : g_map s1 = map_init lat0 lon0 t0) by (unfold s1, setGlobalOrigin; rewrite andb_false_r; reflexivity).
  destruct (A s1 N1) as (X & N2 & M2). set (s2 := fst (deliverGps _ _ _ _ _ _ _ _ _ _ _ s1)) in *.
  unfold deliverGps at 1. rewrite F2. cbn [andb]. unfold collectGps. rewrite N2, M2, M1, F3. cbn [negb andb g_ned].
  split; [exact X|]. unfold gpsLocal. cbn [g_map mr_init map_init].
  destruct (C32_projection_is_equidistant lat0 lon0 t0 lat1 lon1 NA) as (x & y & E & D & _).
  change (mkMap _ _ _ _ _ _) with (map_init lat0 lon0 t0). rewrite E. exists x, y. split; [reflexivity|exact D].
Qed.

(** a case that meets the hypotheses *)
Example C89_hypotheses_met : exists s plat plon, map_ok (g_map s) /\ reproject (g_map s) (pos s 0%nat) (pos s 1%nat) = Some (plat, plon) /\
  ~ antipodal 0 1 plat plon /\ g_ned s = true.
Proof.
  exists demoS, 0, 0. split; [exists 0, 0, 0%Z; reflexivity|]. split; [apply (C32_reference_is_origin 0 0 0)|]. split; [|reflexivity].
  unfold antipodal. rewrite !sphere_rad. unfold vneg. replace (radians 0) with 0 by (unfold radians; field). rewrite cos_0, sin_0. cbn [vx vy vz].
  intros E. injection E as E1 E2 E3. pose proof PI_pos. assert (0 < sin (radians 1)) by (apply sin_gt_0; unfold radians; lra). lra.
Qed.
Print Assumptions C32_roundtrip_same_point.
Print Assumptions C89_move_keeps_position.
Print Assumptions C89_moves_keep_position.
Print Assumptions C89_altitude_jump.
Print Assumptions C89_buffered_gps_jump.
Print Assumptions C89_buffered_gps_refuted.
Print Assumptions C89_first_origin_at_rest.
Print Assumptions C89_first_origin_aided.
Print Assumptions C89_early_sample.
Print Assumptions C89_reported_origin.

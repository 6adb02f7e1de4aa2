(** C33: magnetic field table lookup *)
From Coq Require Import ZArith Bool List Reals Lra Lia Psatz.
From Flocq Require Import Core IEEE754.BinarySingleNaN.
From Verif Require Import CBase F32 F32More Scalar GeoTables GeoLookupModel FilterProofs2 GeoLookupProofs GeoLookupProofs2.
Import ListNotations.
Open Scope R_scope.

(** ** Specification *)
(** value of a table at grid point (-90 + 10 i, -180 + 10 j), in table units (1e-4 rad, 1e-4 gauss) *)
Definition grid (tab : list (list Z)) (i j : Z) : R := IZR (nth (Z.to_nat j) (nth (Z.to_nat i) tab []) 0%Z).
(** [y] is the bilinear interpolation of the table at latitude [lat] and longitude [lon] *)
Definition interpolated (tab : list (list Z)) (lat lon y : R) : Prop :=
  exists i j u v, (0 <= i < 18)%Z /\ (0 <= j < 36)%Z /\ 0 <= u <= 1 /\ 0 <= v <= 1 /\
    lat = -90 + 10 * IZR i + 10 * u /\ lon = -180 + 10 * IZR j + 10 * v /\
    y = (1 - u) * (1 - v) * grid tab i j + (1 - u) * v * grid tab i (j + 1) + u * v * grid tab (i + 1) (j + 1) + u * (1 - v) * grid tab (i + 1) j.
(** [w] is [lon] moved by at most one turn into [-180, 180] *)
Definition same_meridian (lon w : R) : Prop := -180 <= w <= 180 /\ exists k, (-1 <= k <= 1)%Z /\ w = lon + 360 * IZR k.
Definition lat_clamped (lat : R) : R := Rmax (-90) (Rmin 90 lat).
Definition magtable (tab : list (list Z)) : Prop := tab = declination_table \/ tab = inclination_table \/ tab = strength_table.
(** largest difference between neighbouring entries *)
Definition slope (tab : list (list Z)) (D : R) : Prop := (tab = declination_table /\ D = 61086) \/ (tab = inclination_table /\ D = 4456) \/ (tab = strength_table /\ D = 884).

(** ** Facts of the tables, by computation *)
Definition zs (n : nat) : list Z := map Z.of_nat (seq 0 n).
Lemma zs_in n k : (0 <= k < Z.of_nat n)%Z -> In k (zs n).
Proof. intros H. unfold zs. apply in_map_iff. exists (Z.to_nat k). split; [lia|]. apply in_seq. lia. Qed.
Definition ent (tab : list (list Z)) (i j : Z) : Z := nth (Z.to_nat j) (nth (Z.to_nat i) tab []) 0%Z.
Definition check (tab : list (list Z)) (lo hi D : Z) : bool :=
  forallb (fun i => forallb (fun j => (lo <=? ent tab i j) && (ent tab i j <=? hi)
     && ((i =? 18) || (Z.abs (ent tab (i + 1) j - ent tab i j) <=? D)) && ((j =? 36) || (Z.abs (ent tab i (j + 1) - ent tab i j) <=? D)))%Z (zs 37)) (zs 19)
  && forallb (fun i => (ent tab i 36 =? ent tab i 0)%Z) (zs 19).
Lemma check_spec tab lo hi D : check tab lo hi D = true -> (-32768 <= lo)%Z -> (hi <= 32767)%Z ->
  entries16 tab /\ steps tab (IZR D) /\ dateline tab /\ (forall i j, (0 <= i <= 18)%Z -> (0 <= j <= 36)%Z -> IZR lo <= tabR tab i j <= IZR hi).
Proof.
  intros C L1 L2. unfold check in C. apply andb_true_iff in C. destruct C as [C C2].
  assert (Q : forall i j, (0 <= i <= 18)%Z -> (0 <= j <= 36)%Z -> (lo <= ent tab i j <= hi)%Z /\ (i = 18%Z \/ Z.abs (ent tab (i + 1) j - ent tab i j) <= D)%Z /\ (j = 36%Z \/ Z.abs (ent tab i (j + 1) - ent tab i j) <= D)%Z).
  { intros i j Hi Hj. rewrite forallb_forall in C. specialize (C i (zs_in 19 i ltac:(lia))). rewrite forallb_forall in C. specialize (C j (zs_in 37 j ltac:(lia))). rewrite !andb_true_iff, !orb_true_iff, !Z.leb_le, !Z.eqb_eq in C. tauto. }
  split; [|split; [split|split]].
  - intros i j Hi Hj. destruct (Q i j Hi Hj) as [A _]. unfold int16. unfold ent in A. lia.
  - intros i j Hi Hj. destruct (Q i j ltac:(lia) Hj) as (_ & [A|A] & _); [lia|]. unfold tabR. rewrite <- minus_IZR, <- abs_IZR. apply IZR_le. exact A.
  - intros i j Hi Hj. destruct (Q i j Hi ltac:(lia)) as (_ & _ & [A|A]); [lia|]. unfold tabR. rewrite <- minus_IZR, <- abs_IZR. apply IZR_le. exact A.
  - intros i Hi. rewrite forallb_forall in C2. specialize (C2 i (zs_in 19 i ltac:(lia))). apply Z.eqb_eq in C2. unfold tabR. f_equal. exact C2.
  - intros i j Hi Hj. destruct (Q i j Hi Hj) as [A _]. split; apply IZR_le; apply A.
Qed.
Lemma table_facts tab D : slope tab D -> entries16 tab /\ steps tab D /\ dateline tab /\ 0 <= D.
Proof.
  intros [[-> ->]|[[-> ->]|[-> ->]]].
  - destruct (check_spec declination_table (-30377) 31259 61086) as (A & B & C & _); [vm_compute; reflexivity|lia|lia|split; [exact A|split; [exact B|split; [exact C|lra]]]].
  - destruct (check_spec inclination_table (-15243) 15412 4456) as (A & B & C & _); [vm_compute; reflexivity|lia|lia|split; [exact A|split; [exact B|split; [exact C|lra]]]].
  - destruct (check_spec strength_table 2232 6692 884) as (A & B & C & _); [vm_compute; reflexivity|lia|lia|split; [exact A|split; [exact B|split; [exact C|lra]]]].
Qed.
Lemma magtable_slope tab : magtable tab -> exists D, slope tab D.
Proof. unfold slope. intros [E|[E|E]]; rewrite E; eexists; eauto. Qed.

Lemma interp_cell (x : R) (h : Z) : (0 < h)%Z -> 0 <= x <= IZR h -> exists n u, (0 <= n < h)%Z /\ 0 <= u <= 1 /\ x = IZR n + u.
Proof.
  intros Hh H. destruct (Rle_lt_or_eq_dec _ _ (proj2 H)) as [L|E].
  - exists (Zfloor x), (x - IZR (Zfloor x)). pose proof (Zfloor_lb x). pose proof (Zfloor_ub x). split; [split; [apply Zfloor_lub; lra|apply lt_IZR; lra]|split; lra].
  - exists (h - 1)%Z, 1. split; [lia|]. split; [lra|]. rewrite minus_IZR. lra.
Qed.
Lemma interpolated_bilin tab lat lon : -90 <= lat <= 90 -> -180 <= lon <= 180 -> interpolated tab lat lon (bilin tab lat lon).
Proof.
  intros H1 H2. destruct (interp_cell ((lat + 90) / 10) 18 ltac:(lia) ltac:(lra)) as (i & u & Hi & Hu & Ei). destruct (interp_cell ((lon + 180) / 10) 36 ltac:(lia) ltac:(lra)) as (j & v & Hj & Hv & Ej).
  exists i, j, u, v. split; [exact Hi|]. split; [exact Hj|]. split; [exact Hu|]. split; [exact Hv|]. split; [lra|]. split; [lra|].
  unfold bilin. rewrite (lin_cell _ _ i) by lra. rewrite !(lin_cell _ _ j) by lra. change grid with tabR. rewrite Ei, Ej. ring.
Qed.
(** the interpolated value is unique *)
Lemma interpolated_unique tab lat lon y : interpolated tab lat lon y -> y = bilin tab lat lon.
Proof.
  intros (i & j & u & v & Hi & Hj & Hu & Hv & El & Eo & Ey). unfold bilin. assert (P1 : (lat + 90) / 10 = IZR i + u) by lra. assert (P2 : (lon + 180) / 10 = IZR j + v) by lra.
  rewrite P1, P2. rewrite (lin_cell _ _ i) by lra. rewrite !(lin_cell _ _ j) by lra. rewrite Ey. change grid with tabR. ring.
Qed.
Lemma wrapR_spec lon : -540 <= lon <= 540 -> same_meridian lon (wrapR lon).
Proof.
  intros H. split; [apply wrapR_range; exact H|]. unfold wrapR. destruct (Rlt_dec 180 lon); [exists (-1)%Z; split; [lia|lra]|]. destruct (Rlt_dec lon (-180)); [exists 1%Z; split; [lia|lra]|exists 0%Z; split; [lia|lra]].
Qed.

(** ** Theorems: exact arithmetic *)
(** the lookup is bilinear interpolation at the clamped latitude and at the longitude on the same meridian; beyond one and
    a half turns (where the code subtracts only one turn) the date line is used *)
Theorem C33_interpolates : forall tab lat lon, exists w y, lookupR tab lat lon = Ok y /\ interpolated tab (lat_clamped lat) w y /\
  (-540 <= lon <= 540 -> same_meridian lon w) /\ (540 < lon -> w = 180) /\ (lon < -540 -> w = -180).
Proof.
  intros tab lat lon. exists (clampR (wrapR lon) (-180) 180). eexists. split; [apply lookupR_all|]. pose proof (clampR_range lat (-90) 90 ltac:(lra)) as C1. pose proof (clampR_range (wrapR lon) (-180) 180 ltac:(lra)) as C2.
  split; [apply interpolated_bilin; [exact C1|exact C2]|]. split; [|split].
  - intros H. pose proof (wrapR_range lon H). replace (clampR (wrapR lon) (-180) 180) with (wrapR lon); [apply wrapR_spec; exact H|]. unfold clampR. rewrite Rmin_right by lra. rewrite Rmax_right by lra. reflexivity.
  - intros H. unfold wrapR. destruct (Rlt_dec 180 lon); [|lra]. unfold clampR. rewrite Rmin_left by lra. apply Rmax_right. lra.
  - intros H. unfold wrapR. destruct (Rlt_dec 180 lon); [lra|]. destruct (Rlt_dec lon (-180)); [|lra]. unfold clampR. rewrite Rmin_right by lra. apply Rmax_left. lra.
Qed.
(** at the grid points the table entry itself is returned *)
Theorem C33_exact_at_grid_points : forall tab i j, (0 <= i <= 18)%Z -> (0 <= j <= 36)%Z -> lookupR tab (-90 + 10 * IZR i) (-180 + 10 * IZR j) = Ok (grid tab i j).
Proof.
  intros tab i j Hi Hj. assert (0 <= IZR i <= 18) by (split; apply IZR_le; lia). assert (0 <= IZR j <= 36) by (split; apply IZR_le; lia).
  rewrite lookupR_spec by lra. unfold clampR. rewrite Rmin_right by lra. rewrite Rmax_right by lra. unfold wrapR. destruct (Rlt_dec 180 _); [lra|]. destruct (Rlt_dec _ (-180)); [lra|].
  unfold bilin. replace ((-90 + 10 * IZR i + 90) / 10) with (IZR i) by field. replace ((-180 + 10 * IZR j + 180) / 10) with (IZR j) by field. rewrite !lin_node. reflexivity.
Qed.
(** between the smallest and the largest of the four surrounding entries *)
Theorem C33_between_corners : forall tab lat lon y lo hi, interpolated tab lat lon y ->
  (forall i j, (0 <= i <= 18)%Z -> (0 <= j <= 36)%Z -> Rabs (lat - (-90 + 10 * IZR i)) <= 10 -> Rabs (lon - (-180 + 10 * IZR j)) <= 10 -> lo <= grid tab i j <= hi) -> lo <= y <= hi.
Proof.
  intros tab lat lon y lo hi (i & j & u & v & Hi & Hj & Hu & Hv & -> & -> & ->) HC.
  assert (A : lo <= grid tab i j <= hi) by (apply HC; [lia|lia|apply Rabs_le; lra|apply Rabs_le; lra]).
  assert (B : lo <= grid tab i (j + 1) <= hi) by (apply HC; [lia|lia|apply Rabs_le; lra|rewrite plus_IZR; apply Rabs_le; lra]).
  assert (C : lo <= grid tab (i + 1) (j + 1) <= hi) by (apply HC; [lia|lia|rewrite plus_IZR; apply Rabs_le; lra|rewrite plus_IZR; apply Rabs_le; lra]).
  assert (D : lo <= grid tab (i + 1) j <= hi) by (apply HC; [lia|lia|rewrite plus_IZR; apply Rabs_le; lra|apply Rabs_le; lra]).
  set (a := grid tab i j) in *. set (b := grid tab i (j + 1)) in *. set (c := grid tab (i + 1) (j + 1)) in *. set (d := grid tab (i + 1) j) in *. clearbody a b c d.
  assert (P1 : lo <= (1 - v) * a + v * b <= hi) by (split; nra). assert (P2 : lo <= (1 - v) * d + v * c <= hi) by (split; nra).
  replace ((1 - u) * (1 - v) * a + (1 - u) * v * b + u * v * c + u * (1 - v) * d) with ((1 - u) * ((1 - v) * a + v * b) + u * ((1 - v) * d + v * c)) by ring.
  set (p := (1 - v) * a + v * b) in *. set (q := (1 - v) * d + v * c) in *. clearbody p q. split; nra.
Qed.
(** hence the published ranges *)
Theorem C33_output_ranges : forall lat lon, exists d i s,
  get_mag_declination_radians (fun x => IZR (Zfloor x)) IZR rtrunc lat lon = Ok d /\ -3.0377 <= d <= 3.1259 /\
  get_mag_inclination_radians (fun x => IZR (Zfloor x)) IZR rtrunc lat lon = Ok i /\ -1.5243 <= i <= 1.5412 /\
  get_mag_strength_gauss (fun x => IZR (Zfloor x)) IZR rtrunc lat lon = Ok s /\ 0.2232 <= s <= 0.6692.
Proof.
  intros lat lon. assert (G : forall tab lo hi D, check tab lo hi D = true -> (-32768 <= lo)%Z -> (hi <= 32767)%Z -> exists y, lookupR tab lat lon = Ok y /\ IZR lo <= y <= IZR hi).
  { intros tab lo hi D HC L1 L2. destruct (check_spec tab lo hi D HC L1 L2) as (_ & _ & _ & B). destruct (C33_interpolates tab lat lon) as (w & y & E & I & _). exists y. split; [exact E|]. eapply C33_between_corners; [exact I|]. intros i j Hi Hj _ _. apply B; assumption. }
  destruct (G declination_table (-30377)%Z 31259%Z 61086%Z ltac:(vm_compute; reflexivity) ltac:(lia) ltac:(lia)) as (d & Ed & Rd).
  destruct (G inclination_table (-15243)%Z 15412%Z 4456%Z ltac:(vm_compute; reflexivity) ltac:(lia) ltac:(lia)) as (i & Ei & Ri).
  destruct (G strength_table 2232%Z 6692%Z 884%Z ltac:(vm_compute; reflexivity) ltac:(lia) ltac:(lia)) as (s & Es & Rs).
  unfold get_mag_declination_radians, get_mag_inclination_radians, get_mag_strength_gauss, get_scaled. unfold lookupR in Ed, Ei, Es. rewrite Ed, Ei, Es. cbn [obind smul slit RScalar].
  exists (d * (1 / 10000)), (i * (1 / 10000)), (s * (1 / 10000)). split; [reflexivity|]. split; [lra|]. split; [reflexivity|]. split; [lra|]. split; [reflexivity|]. lra.
Qed.
(** continuous, also across the date line: Lipschitz with the largest difference of neighbouring entries per 10 degrees *)
Theorem C33_continuous : forall tab D lat lon lat' lon' y y', slope tab D -> -540 <= lon <= 540 -> -540 <= lon' <= 540 ->
  lookupR tab lat lon = Ok y -> lookupR tab lat' lon' = Ok y' -> Rabs (y - y') <= D / 10 * (Rabs (lat - lat') + Rabs (lon - lon')).
Proof.
  intros tab D lat lon lat' lon' y y' HS H1 H2 E1 E2. destruct (table_facts tab D HS) as (_ & ST & DL & D0). rewrite lookupR_spec in E1, E2 by assumption. injection E1 as <-. injection E2 as <-.
  pose proof (clampR_range lat (-90) 90 ltac:(lra)) as C1. pose proof (clampR_range lat' (-90) 90 ltac:(lra)) as C2.
  pose proof (bilin_lip_lat tab D _ _ (wrapR lon) ST C1 C2 (wrapR_range _ H1)) as A. pose proof (bilin_lip_wrap tab D _ ST DL D0 C2 lon lon' H1 H2) as B. pose proof (clampR_lip lat lat' (-90) 90 ltac:(lra)) as C.
  assert (K : D / 10 * Rabs (clampR lat (-90) 90 - clampR lat' (-90) 90) <= D / 10 * Rabs (lat - lat')) by (apply Rmult_le_compat_l; lra).
  match goal with |- Rabs (?x - ?z) <= _ => replace (x - z) with ((x - bilin tab (clampR lat' (-90) 90) (wrapR lon)) + (bilin tab (clampR lat' (-90) 90) (wrapR lon) - z)) by ring end.
  eapply Rle_trans; [apply Rabs_triang|]. lra.
Qed.
(** longitudes one turn apart give the same value *)
Theorem C33_periodic : forall tab lat lon, magtable tab -> -540 <= lon -> lon + 360 <= 540 -> lookupR tab lat (lon + 360) = lookupR tab lat lon.
Proof.
  intros tab lat lon HM H1 H2. destruct (magtable_slope tab HM) as [D HS]. destruct (table_facts tab D HS) as (_ & _ & DL & _). rewrite !lookupR_spec by lra. f_equal.
  pose proof (clampR_range lat (-90) 90 ltac:(lra)) as C1. pose proof (bilin_dateline tab _ DL C1) as E. set (a := clampR lat (-90) 90) in *. clearbody a. unfold wrapR.
  destruct (Rlt_dec 180 lon); [lra|]. destruct (Rlt_dec 180 (lon + 360)); destruct (Rlt_dec lon (-180)); try destruct (Rlt_dec (lon + 360) (-180)); try lra.
  - f_equal. lra.
  - replace lon with (-180) by lra. replace (-180 + 360) with 180 by lra. exact E.
Qed.
(** units of the six getters *)
Theorem C33_getter_units : forall lat lon, exists d i s, lookupR declination_table lat lon = Ok d /\ lookupR inclination_table lat lon = Ok i /\ lookupR strength_table lat lon = Ok s /\
  get_mag_declination_radians (fun x => IZR (Zfloor x)) IZR rtrunc lat lon = Ok (d / 10000) /\ get_mag_degrees (fun x => IZR (Zfloor x)) IZR rtrunc PI declination_table lat lon = Ok (d / 10000 * (180 / PI)) /\
  get_mag_inclination_radians (fun x => IZR (Zfloor x)) IZR rtrunc lat lon = Ok (i / 10000) /\ get_mag_degrees (fun x => IZR (Zfloor x)) IZR rtrunc PI inclination_table lat lon = Ok (i / 10000 * (180 / PI)) /\
  get_mag_strength_gauss (fun x => IZR (Zfloor x)) IZR rtrunc lat lon = Ok (s / 10000) /\ get_mag_strength_tesla (fun x => IZR (Zfloor x)) IZR rtrunc lat lon = Ok (s / 10000 / 10000).
Proof.
  intros lat lon. destruct (C33_interpolates declination_table lat lon) as (_ & d & Ed & _). destruct (C33_interpolates inclination_table lat lon) as (_ & i & Ei & _). destruct (C33_interpolates strength_table lat lon) as (_ & s & Es & _).
  exists d, i, s. split; [exact Ed|]. split; [exact Ei|]. split; [exact Es|]. unfold get_mag_strength_tesla, get_mag_declination_radians, get_mag_inclination_radians, get_mag_strength_gauss, get_mag_degrees, get_scaled.
  unfold lookupR in Ed, Ei, Es. rewrite Ed, Ei, Es. cbn [obind smul sdiv slit RScalar]. pose proof PI_RGT_0.
  split; [f_equal; field|]. split; [f_equal; field; lra|]. split; [f_equal; field|]. split; [f_equal; field; lra|]. split; f_equal; field.
Qed.

(** ** Theorems: binary32 *)
(** no undefined behaviour (all table accesses in bounds, the float-to-unsigned conversion in range) for every input that
    is not NaN, including infinities and out-of-range values; the result is finite and between the four corners up to 1/256
    of a table unit *)
Theorem C33_binary32_safe : forall tab (lat lon : f32), magtable tab -> is_nan lat = false -> is_nan lon = false ->
  exists i j r, lookupF tab lat lon = Ok r /\ (0 <= i < 18)%Z /\ (0 <= j < 36)%Z /\ is_finite r = true /\
    forall lo hi, (-32768 <= lo)%Z -> (hi <= 32767)%Z -> (forall a b, (a = i \/ a = i + 1)%Z -> (b = j \/ b = j + 1)%Z -> IZR lo <= grid tab a b <= IZR hi) -> IZR lo - / 256 <= R32 r <= IZR hi + / 256.
Proof.
  intros tab lat lon HM N1 N2. destruct (magtable_slope tab HM) as [D HS]. destruct (table_facts tab D HS) as (E16 & _). destruct (lookupF_safe tab lat lon N1 N2 E16) as (i & j & r & E & Hi & Hj & Fr & B).
  exists i, j, r. split; [exact E|]. split; [exact Hi|]. split; [exact Hj|]. split; [exact Fr|]. intros lo hi L1 L2 HC. 
  assert (HC' : forall a b, (a = i \/ a = i + 1)%Z -> (b = j \/ b = j + 1)%Z -> (lo <= nth (Z.to_nat b) (nth (Z.to_nat a) tab []) 0 <= hi)%Z).
  { intros a b Ha Hb. destruct (HC a b Ha Hb) as [X Y]. split; [apply le_IZR; exact X|apply le_IZR; exact Y]. }
  pose proof (HC' i j (or_introl eq_refl) (or_introl eq_refl)) as Q. assert (lo <= hi)%Z by lia. pose proof (E16 i j ltac:(lia) ltac:(lia)) as Q2. unfold int16 in Q2.
  apply B; [unfold int16; lia|unfold int16; lia|exact HC'].
Qed.
(** a NaN coordinate is converted to unsigned: undefined behaviour *)
Theorem C33_nan_is_undefined_refuted : forall tab (lat lon : f32), is_nan lat = true \/ is_nan lon = true -> lookupF tab lat lon = UB.
Proof. exact lookupF_nan. Qed.
(** rounding moves the result by less than 3.1, 0.25 and 0.07 table units from the exact interpolation *)
Theorem C33_binary32_accuracy : forall tab D (lat lon : f32), slope tab D -> is_finite lat = true -> is_finite lon = true -> -540 <= R32 lon <= 540 ->
  exists r w y, lookupF tab lat lon = Ok r /\ is_finite r = true /\ same_meridian (R32 lon) w /\ interpolated tab (lat_clamped (R32 lat)) w y /\ Rabs (R32 r - y) <= 25 / 1000 + D / 20000.
Proof.
  intros tab D lat lon HS F1 F2 HL. destruct (table_facts tab D HS) as (E16 & ST & _ & D0). destruct (lookupF_acc tab D lat lon E16 ST D0 F1 F2 HL) as (r & E & Fr & A).
  exists r, (wrapR (R32 lon)). eexists. split; [exact E|]. split; [exact Fr|]. split; [apply wrapR_spec; exact HL|]. split; [apply interpolated_bilin; [apply clampR_range; lra|apply wrapR_range; exact HL]|exact A].
Qed.
(** ... and the published declination, inclination and strength by less than 0.00032 rad, 0.00003 rad and 0.00001 gauss *)
Theorem C33_binary32_getters_accuracy : forall tab D (lat lon : f32), slope tab D -> is_finite lat = true -> is_finite lon = true -> -540 <= R32 lon <= 540 ->
  exists r w y, get_scaled ffloor f_of_Z (f_to_uint 32) tab lat lon = Ok r /\ is_finite r = true /\ same_meridian (R32 lon) w /\ interpolated tab (lat_clamped (R32 lat)) w y /\ Rabs (R32 r - y / 10000) <= 4 / 1000000 + D / 200000000.
Proof.
  intros tab D lat lon HS F1 F2 HL. destruct (C33_binary32_accuracy tab D lat lon HS F1 F2 HL) as (r & w & y & E & Fr & SM & I & A).
  destruct (table_facts tab D HS) as (E16 & _ & _ & D0). unfold get_scaled. unfold lookupF in E. rewrite E. cbn [obind]. eexists. exists w, y. split; [reflexivity|]. cbn [smul slit FScalar].
  destruct (flit_R 1 10000 ltac:(lia) ltac:(lia)) as [EL FL]. replace (1 / 10000) with (/ 10000) in EL by field.
  pose proof (rnd32_error (/ 10000)) as ER. rewrite two24 in ER. pose proof small150 as S150. rewrite (Rabs_right (/ 10000)) in ER by lra. rewrite <- EL in ER. apply Rabs_le_inv in ER.
  assert (YB : -32768 <= y <= 32767).
  { eapply C33_between_corners; [exact I|]. intros i j Hi Hj _ _. pose proof (E16 i j Hi Hj) as Q. unfold int16 in Q. unfold grid. split; apply IZR_le; lia. }
  assert (DB : D <= 61086) by (destruct HS as [[_ ->]|[[_ ->]|[_ ->]]]; lra). apply Rabs_le_inv in A.
  set (L := R32 (flit 1 10000)) in *. assert (RB : -33000 <= R32 r <= 33000) by lra.
  assert (PB : - (33 / 10) - 1/10 <= R32 r * L <= 33 / 10 + 1/10) by (split; nra).
  assert (PE : - (3 / 10000000) <= R32 r * (L - / 10000) <= 3 / 10000000).
  { set (e := L - / 10000) in *. assert (- (1 / 100000000000) <= e <= 1 / 100000000000) by lra. split; nra. }
  destruct (fmul_R r (flit 1 10000) Fr FL) as [EM FM]. { apply smallb. fold L. apply Rabs_le. lra. } fold L in EM.
  split; [exact FM|]. split; [exact SM|]. split; [exact I|].
  pose proof (rnd32_error (R32 r * L)) as ER2. rewrite two24, <- EM in ER2. assert (RA : Rabs (R32 r * L) <= 34 / 10) by (apply Rabs_le; lra). assert (ER3 : Rabs (R32 (fmul r (flit 1 10000)) - R32 r * L) <= / 16777216 * (34/10) + / 1000000000000000000000) by lra. apply Rabs_le_inv in ER3.
  apply Rabs_le. lra.
Qed.

(** ** Defect: declination is interpolated through zero between entries on either side of +-180 degrees *)
(** near the south magnetic pole (70 S, 135 E): the neighbours are -2.6063 and 3.0852 rad, 34 degrees apart on the circle;
    the lookup returns 0.23945 rad, more than 160 degrees from both *)
Theorem C33_declination_wraps_wrong_refuted :
  lookupR declination_table (-70) 135 = Ok (23945 / 10) /\ grid declination_table 2 31 = -26063 /\ grid declination_table 2 32 = 30852 /\
  Rabs (-2.6063 - (3.0852 - 2 * PI)) <= 0.8 /\
  forall k : Z, 2.8 <= Rabs (0.23945 - (-2.6063) + 2 * PI * IZR k) /\ 2.8 <= Rabs (0.23945 - 3.0852 + 2 * PI * IZR k).
Proof.
  assert (G1 : grid declination_table 2 31 = -26063) by reflexivity. assert (G2 : grid declination_table 2 32 = 30852) by reflexivity.
  assert (P : 3 < PI < 3.24).
  { split; [pose proof PI2_3_2; lra|]. pose proof (PI_ineq 6) as [_ B]. unfold tg_alt, PI_tg in B. cbn [Nat.mul Nat.add sum_f_R0 pow INR] in B. lra. }
  split; [|split; [exact G1|split; [exact G2|split]]].
  - rewrite lookupR_spec by lra. f_equal. unfold clampR. rewrite Rmin_right by lra. rewrite Rmax_right by lra. unfold wrapR. destruct (Rlt_dec 180 135); [lra|]. destruct (Rlt_dec 135 (-180)); [lra|].
    symmetry. apply interpolated_unique. exists 2%Z, 31%Z, 0, (1 / 2). split; [lia|]. split; [lia|]. split; [lra|]. split; [lra|]. split; [lra|]. split; [lra|]. change (31 + 1)%Z with 32%Z. rewrite G1, G2. lra.
  - apply Rabs_le. lra.
  - intros k. assert (K : (k <= -2 \/ k = -1 \/ k = 0 \/ k = 1 \/ 2 <= k)%Z) by lia.
    destruct K as [K|[->|[->|[->|K]]]]; [apply IZR_le in K| | | |apply IZR_le in K]; split; unfold Rabs; destruct (Rcase_abs _); try lra; nra.
Qed.

(** ** Examples *)
Example C33_example_zurich : exists y, lookupR declination_table 47 8 = Ok y /\ interpolated declination_table 47 8 y /\ y = 0.3 * 0.2 * grid declination_table 13 18 + 0.3 * 0.8 * grid declination_table 13 19 + 0.7 * 0.8 * grid declination_table 14 19 + 0.7 * 0.2 * grid declination_table 14 18.
Proof.
  assert (I : interpolated declination_table 47 8 (0.3 * 0.2 * grid declination_table 13 18 + 0.3 * 0.8 * grid declination_table 13 19 + 0.7 * 0.8 * grid declination_table 14 19 + 0.7 * 0.2 * grid declination_table 14 18)).
  { exists 13%Z, 18%Z, 0.7, 0.8. split; [lia|]. split; [lia|]. split; [lra|]. split; [lra|]. split; [lra|]. split; [lra|]. change (13 + 1)%Z with 14%Z. change (18 + 1)%Z with 19%Z. lra. }
  eexists. split; [|split; [exact I|reflexivity]]. rewrite lookupR_spec by lra. f_equal. unfold clampR. rewrite Rmin_right by lra. rewrite Rmax_right by lra. unfold wrapR. destruct (Rlt_dec 180 8); [lra|]. destruct (Rlt_dec 8 (-180)); [lra|].
  symmetry. apply interpolated_unique. exact I.
Qed.
Example C33_example_float : match lookupF strength_table (f_of_Z 47) (f_of_Z 8) with Ok r => B2SF r | UB => SpecFloat.S754_nan end = match lookupF strength_table (f_of_Z 47) (f_of_Z 368) with Ok r => B2SF r | UB => SpecFloat.S754_nan end
  /\ match lookupF strength_table (f_of_Z 47) (f_of_Z 8) with Ok r => is_finite r | UB => false end = true.
Proof. split; vm_compute; reflexivity. Qed.

Print Assumptions C33_interpolates.
Print Assumptions C33_continuous.
Print Assumptions C33_binary32_safe.
Print Assumptions C33_binary32_getters_accuracy.
Print Assumptions C33_declination_wraps_wrong_refuted.

(** * Geodesy helpers: proofs *)
From Coq Require Import Reals Lra Bool ZArith Lia.
From Verif Require Import RealGeom RotModel RotProofs GeoModel.
Open Scope R_scope.

Lemma PI_pos : 0 < PI. Proof. exact PI_RGT_0. Qed.
Lemma RE_pos : 0 < RE. Proof. unfold RE. lra. Qed.
Lemma deg_rad d : degrees (radians d) = d. Proof. unfold degrees, radians. field. apply PI_neq0. Qed.
Lemma rad_deg r : radians (degrees r) = r. Proof. unfold degrees, radians. field. apply PI_neq0. Qed.
Lemma rad_minus a b : radians (a - b) = radians a - radians b. Proof. unfold radians. field. Qed.
Lemma rad_range a : -90 <= a <= 90 -> - (PI / 2) <= radians a <= PI / 2.
Proof. intros H. unfold radians. pose proof PI_pos. nra. Qed.
Lemma rad_range_o a : -90 < a < 90 -> - (PI / 2) < radians a < PI / 2.
Proof. intros H. unfold radians. pose proof PI_pos. nra. Qed.
Lemma rad_range_lon a : -180 < a <= 180 -> - PI < radians a <= PI.
Proof. intros H. unfold radians. pose proof PI_pos. nra. Qed.

(** components of the target direction in the local frame of the reference:
    A up, X north, Y east; [p] latitude of the reference, [q] of the point, [L] longitude difference *)
Definition cA (p q L : R) : R := sin p * sin q + cos p * cos q * cos L.
Definition cX (p q L : R) : R := cos p * sin q - sin p * cos q * cos L.
Definition cY (q L : R) : R := cos q * sin L.
Lemma c_norm p q L : cA p q L * cA p q L + cX p q L * cX p q L + cY q L * cY q L = 1.
Proof.
  unfold cA, cX, cY. pose proof (sc p) as Hp. pose proof (sc q) as Hq. pose proof (sc L) as HL.
  transitivity ((sin p * sin p + cos p * cos p) * (sin q * sin q + cos q * cos q * (cos L * cos L)) + cos q * cos q * (sin L * sin L)); [ring|].
  rewrite Hp. transitivity (sin q * sin q + cos q * cos q * (sin L * sin L + cos L * cos L)); [ring|]. rewrite HL. lra.
Qed.
Lemma cA_range p q L : -1 <= cA p q L <= 1. Proof. pose proof (c_norm p q L). nra. Qed.
Lemma c_inv p q L : cA p q L * sin p + cX p q L * cos p = sin q /\ cos p * cA p q L - sin p * cX p q L = cos q * cos L.
Proof.
  pose proof (sc p) as Hp. unfold cA, cX. split.
  - transitivity ((sin p * sin p + cos p * cos p) * sin q); [ring|rewrite Hp; ring].
  - transitivity ((sin p * sin p + cos p * cos p) * (cos q * cos L)); [ring|rewrite Hp; ring].
Qed.
Lemma rconstrain_id v : -1 <= v <= 1 -> rconstrain v (-1) 1 = v.
Proof. intros H. unfold rconstrain. destruct (Rlt_dec v (-1)); [lra|]. destruct (Rlt_dec 1 v); [lra|reflexivity]. Qed.
Lemma acos_bd x : 0 <= acos x <= PI. Proof. apply acos_bound. Qed.
Lemma sin_acos_sq x : -1 <= x <= 1 -> sin (acos x) * sin (acos x) = 1 - x * x.
Proof. intros H. pose proof (sc (acos x)) as Z. rewrite cos_acos in Z by exact H. lra. Qed.
Lemma sin_acos_pos x : -1 < x < 1 -> 0 < sin (acos x).
Proof.
  intros H. pose proof (acos_bd x). assert (cos (acos x) = x) by (apply cos_acos; lra).
  apply sin_gt_0.
  - destruct (Req_dec (acos x) 0) as [E|E]; [rewrite E, cos_0 in *; lra|lra].
  - destruct (Req_dec (acos x) PI) as [E|E]; [rewrite E, cos_PI in *; lra|lra].
Qed.
Lemma acos_pos x : -1 <= x < 1 -> 0 < acos x.
Proof. intros H. pose proof (acos_bd x). destruct (Req_dec (acos x) 0) as [E|E]; [|lra]. assert (cos (acos x) = x) by (apply cos_acos; lra). rewrite E, cos_0 in *. lra. Qed.
Lemma acos_1' : acos 1 = 0. Proof. apply acos_1. Qed.
Lemma asin_sin' x : - (PI / 2) <= x <= PI / 2 -> asin (sin x) = x. Proof. apply asin_sin. Qed.
Lemma acos_cos' x : 0 <= x <= PI -> acos (cos x) = x. Proof. apply acos_cos. Qed.

(** the projection in terms of the local components *)
Lemma project_eq lat0 lon0 t lat lon :
  let p := radians lat0 in let q := radians lat in let L := radians lon - radians lon0 in
  let c := acos (cA p q L) in let k := if Rlt_dec 0 (Rabs c) then c / sin c else 1 in
  project (map_init lat0 lon0 t) lat lon = Some (k * cX p q L * RE, k * cY q L * RE).
Proof.
  cbv zeta. unfold project, map_init. cbn [mr_init mr_lat mr_lon mr_sin mr_cos].
  set (p := radians lat0). set (q := radians lat). set (L := radians lon - radians lon0).
  fold (cA p q L). rewrite rconstrain_id by apply cA_range. fold (cX p q L). unfold cY. f_equal. f_equal. ring.
Qed.
(** distance factor *)
Lemma k_facts p q L : cA p q L <> -1 ->
  let c := acos (cA p q L) in let k := if Rlt_dec 0 (Rabs c) then c / sin c else 1 in
  0 < k /\ k * sin c = c /\ c < PI /\ (cX p q L * cX p q L + cY q L * cY q L = sin c * sin c).
Proof.
  intros H. cbv zeta. pose proof (cA_range p q L) as HR. pose proof (c_norm p q L) as N.
  set (A := cA p q L) in *. pose proof (acos_bd A) as B.
  assert (LP : acos A < PI) by (destruct (Req_dec (acos A) PI) as [E|E]; [|lra]; exfalso; apply H; rewrite <- (cos_acos A HR), E, cos_PI; reflexivity).
  assert (SQ : sin (acos A) * sin (acos A) = 1 - A * A) by (apply sin_acos_sq; exact HR).
  destruct (Rlt_dec 0 (Rabs (acos A))) as [P|P].
  - assert (P' : 0 < acos A) by (rewrite Rabs_right in P; lra). assert (S : 0 < sin (acos A)) by (apply sin_gt_0; lra).
    split; [apply Rdiv_lt_0_compat; assumption|]. split; [field; lra|]. split; [exact LP|lra].
  - assert (Z : acos A = 0) by (pose proof (Rabs_pos (acos A)); destruct (Req_dec (acos A) 0) as [E|E]; [exact E|exfalso; apply P; apply Rabs_pos_lt; exact E]).
    rewrite Z in *. rewrite sin_0 in *. split; [lra|]. split; [ring|]. split; [exact LP|lra].
Qed.
(** ** distance: haversine = great-circle angle *)
Lemma half_angle x : sin (x / 2) * sin (x / 2) = (1 - cos x) / 2.
Proof. assert (F : cos (2 * (x / 2)) = 1 - 2 * sin (x / 2) * sin (x / 2)) by apply cos_2a_sin. replace (2 * (x / 2)) with x in F by field. lra. Qed.
Lemma haversine p q L : sin ((q - p) / 2) * sin ((q - p) / 2) + sin (L / 2) * sin (L / 2) * cos p * cos q = (1 - cA p q L) / 2.
Proof. rewrite !half_angle. rewrite cos_minus. unfold cA. field. Qed.
Lemma atan2_half A : -1 <= A <= 1 -> 2 * atan2 (sqrt ((1 - A) / 2)) (sqrt (1 - (1 - A) / 2)) = acos A.
Proof.
  intros H. set (a := (1 - A) / 2). assert (Ha : 0 <= a <= 1) by (unfold a; lra).
  assert (N : sqrt (1 - a) <> 0 \/ sqrt a <> 0).
  { destruct (Req_dec (1 - a) 0) as [E|E]; [right|left]; apply Rgt_not_eq; apply sqrt_lt_R0; lra. }
  destruct (atan2_polar _ _ N) as (P & C & S).
  rewrite !sqrt_sqrt in * by lra. replace (1 - a + a) with 1 in * by ring. rewrite sqrt_1 in *.
  set (t := atan2 (sqrt a) (sqrt (1 - a))) in *.
  assert (T : 0 <= t <= PI / 2).
  { pose proof PI_pos. pose proof (sqrt_pos a). pose proof (sqrt_pos (1 - a)). unfold t, atan2.
    destruct (Rlt_dec 0 (sqrt (1 - a))) as [Q|Q].
    - pose proof (atan_bound (sqrt a / sqrt (1 - a))). assert (0 <= atan (sqrt a / sqrt (1 - a))); [|lra].
      rewrite <- atan_0. destruct (Req_dec (sqrt a / sqrt (1 - a)) 0) as [E|E]; [rewrite E; lra|]. left. apply atan_increasing.
      assert (0 <= sqrt a / sqrt (1 - a)) by (apply Rmult_le_pos; [assumption|left; apply Rinv_0_lt_compat; exact Q]). lra.
    - destruct (Rlt_dec (sqrt (1 - a)) 0); [lra|]. destruct (Rlt_dec 0 (sqrt a)); [lra|]. destruct (Rlt_dec (sqrt a) 0); lra. }
  assert (E : cos (2 * t) = A).
  { rewrite cos_2a. assert (C' : cos t = sqrt (1 - a)) by lra. assert (S' : sin t = sqrt a) by lra. rewrite C', S', !sqrt_sqrt by lra. unfold a. field. }
  rewrite <- E. symmetry. apply acos_cos'. lra.
Qed.
Lemma distance_eq lat1 lon1 lat2 lon2 :
  get_distance lat1 lon1 lat2 lon2 = RE * acos (cA (radians lat1) (radians lat2) (radians lon2 - radians lon1)).
Proof. unfold get_distance. rewrite haversine, Rmult_assoc, atan2_half by apply cA_range. reflexivity. Qed.
Lemma cA_sym p q L : cA p q L = cA q p (- L). Proof. unfold cA. rewrite cos_neg. ring. Qed.

(** ** wrapping *)
Lemma wrap_pi_range x : - PI <= wrap_pi x < PI.
Proof.
  pose proof PI_pos as HP. unfold wrap_pi.
  assert (G : - PI <= x - 2 * PI * IZR (Int_part ((x - - PI) * / (2 * PI))) < PI).
  { set (z := (x - - PI) * / (2 * PI)). destruct (base_Int_part z) as [B1 B2]. assert (E : x = z * (2 * PI) - PI) by (unfold z; field; lra). set (I := IZR (Int_part z)) in *. clearbody z I. subst x. nra. }
  destruct (Rle_dec (- PI) x); [destruct (Rlt_dec x PI); [lra|exact G]|exact G].
Qed.
Lemma cos_sin_period x n : cos (x - 2 * PI * IZR n) = cos x /\ sin (x - 2 * PI * IZR n) = sin x.
Proof.
  assert (W : forall (k : nat) y, cos (y + 2 * PI * INR k) = cos y /\ sin (y + 2 * PI * INR k) = sin y).
  { intros k y. split; [rewrite <- (cos_period y k)|rewrite <- (sin_period y k)]; f_equal; ring. }
  destruct (Z_le_gt_dec 0 n) as [H|H].
  - rewrite <- (Z2Nat.id n H), <- INR_IZR_INZ. destruct (W (Z.to_nat n) (x - 2 * PI * INR (Z.to_nat n))) as [C S].
    replace (x - 2 * PI * INR (Z.to_nat n) + 2 * PI * INR (Z.to_nat n)) with x in * by ring. split; congruence.
  - assert (E : IZR n = - INR (Z.to_nat (- n))) by (rewrite INR_IZR_INZ, Z2Nat.id, opp_IZR by lia; ring). rewrite E.
    replace (x - 2 * PI * - INR (Z.to_nat (- n))) with (x + 2 * PI * INR (Z.to_nat (- n))) by ring. apply W.
Qed.
Lemma wrap_pi_trig x : cos (wrap_pi x) = cos x /\ sin (wrap_pi x) = sin x.
Proof. unfold wrap_pi. destruct (Rle_dec (- PI) x); [destruct (Rlt_dec x PI); [auto|]|]; apply cos_sin_period. Qed.
Lemma wrap_2pi_trig x : cos (wrap_2pi x) = cos x /\ sin (wrap_2pi x) = sin x.
Proof. unfold wrap_2pi. destruct (Rle_dec 0 x); [destruct (Rlt_dec x (2 * PI)); [auto|]|]; apply cos_sin_period. Qed.
Lemma wrap_2pi_range x : 0 <= wrap_2pi x < 2 * PI.
Proof.
  pose proof PI_pos as HP. unfold wrap_2pi.
  assert (G : 0 <= x - 2 * PI * IZR (Int_part ((x - 0) * / (2 * PI))) < 2 * PI).
  { set (z := (x - 0) * / (2 * PI)). destruct (base_Int_part z) as [B1 B2]. assert (E : x = z * (2 * PI)) by (unfold z; field; lra). set (I := IZR (Int_part z)) in *. clearbody z I. subst x. nra. }
  destruct (Rle_dec 0 x); [destruct (Rlt_dec x (2 * PI)); [lra|exact G]|exact G].
Qed.
(** angles in [-pi, pi) are determined by sine and cosine *)
Lemma angle_unique_l a b : - PI <= a < PI -> - PI <= b < PI -> cos a = cos b -> sin a = sin b -> a = b.
Proof.
  intros Ha Hb Hc Hs. assert (E : - a = - b); [|lra]. apply angle_unique; [lra|lra|rewrite !cos_neg; exact Hc|rewrite !sin_neg; lra].
Qed.

(** ** bearing *)
Lemma bearing_polar lat1 lon1 lat2 lon2 :
  let p := radians lat1 in let q := radians lat2 in let L := radians lon2 - radians lon1 in
  let b := get_bearing lat1 lon1 lat2 lon2 in let s := sin (acos (cA p q L)) in
  cA p q L <> 1 -> cA p q L <> -1 -> 0 < s /\ s * cos b = cX p q L /\ s * sin b = cY q L.
Proof.
  cbv zeta. unfold get_bearing. rewrite rad_minus.
  set (p := radians lat1). set (q := radians lat2). set (L := radians lon2 - radians lon1). intros H1 H2.
  pose proof (cA_range p q L) as HR. pose proof (c_norm p q L) as N.
  assert (S : 0 < sin (acos (cA p q L))) by (apply sin_acos_pos; lra).
  assert (SQ := sin_acos_sq _ HR). split; [exact S|].
  replace (sin L * cos q) with (cY q L) by (unfold cY; ring). fold (cX p q L).
  assert (NZ : cX p q L <> 0 \/ cY q L <> 0).
  { destruct (Req_dec (cX p q L) 0) as [E|E]; [right|left; exact E]. rewrite E in N. intros F. rewrite F in N. assert (cA p q L * cA p q L = 1) by lra.
    assert ((cA p q L - 1) * (cA p q L + 1) = 0) by lra. apply Rmult_integral in H0. lra. }
  destruct (atan2_polar _ _ NZ) as (_ & C & S').
  assert (W : sqrt (cX p q L * cX p q L + cY q L * cY q L) = sin (acos (cA p q L))).
  { rewrite <- (sqrt_square (sin (acos (cA p q L)))) by lra. f_equal. lra. }
  rewrite W in *. destruct (wrap_pi_trig (atan2 (cY q L) (cX p q L))) as [-> ->]. split; assumption.
Qed.

(** ** reprojection: the point at angle c in direction (u, v), u^2 + v^2 = 1, c <> 0 possibly negative *)
Definition dlat (p c u : R) : R := asin (cos c * sin p + u * sin c * cos p).
Definition dlon (p c u v : R) : R := atan2 (v * sin c) (cos p * cos c - u * sin p * sin c).
Lemma dest_facts p c u v : u * u + v * v = 1 ->
  let q := dlat p c u in let L := dlon p c u v in
  - (PI / 2) <= q <= PI / 2 /\ - PI < L <= PI /\ cA p q L = cos c /\ cX p q L = u * sin c /\ cY q L = v * sin c.
Proof.
  intros H. cbv zeta. set (S := cos c * sin p + u * sin c * cos p). set (C1 := cos p * cos c - u * sin p * sin c). set (Y := v * sin c).
  pose proof (sc p) as Hp. pose proof (sc c) as Hc.
  assert (N : S * S + C1 * C1 + Y * Y = 1).
  { unfold S, C1, Y. transitivity ((sin p * sin p + cos p * cos p) * (cos c * cos c + u * u * (sin c * sin c)) + v * v * (sin c * sin c)); [ring|].
    rewrite Hp. transitivity (cos c * cos c + (u * u + v * v) * (sin c * sin c)); [ring|]. rewrite H. lra. }
  assert (SR : -1 <= S <= 1) by nra.
  assert (EQ : sin (dlat p c u) = S) by (unfold dlat; fold S; apply sin_asin; exact SR).
  assert (EC : cos (dlat p c u) = sqrt (1 - S * S)) by (unfold dlat; fold S; rewrite cos_asin by exact SR; reflexivity).
  assert (R1 : - (PI / 2) <= dlat p c u <= PI / 2) by (unfold dlat; apply asin_bound).
  split; [exact R1|]. split; [apply atan2_range|].
  assert (K : cos (dlat p c u) * cos (dlon p c u v) = C1 /\ cos (dlat p c u) * sin (dlon p c u v) = Y).
  { rewrite EC. unfold dlon. fold Y C1. destruct (Req_dec C1 0) as [Z1|Z1].
    - destruct (Req_dec Y 0) as [Z2|Z2].
      + assert (E0 : 1 - S * S = 0) by (rewrite Z1, Z2 in N; lra). rewrite E0, sqrt_0, Z1, Z2. split; ring.
      + destruct (atan2_polar Y C1 (or_intror Z2)) as (_ & A & B). replace (C1 * C1 + Y * Y) with (1 - S * S) in * by lra. split; assumption.
    - destruct (atan2_polar Y C1 (or_introl Z1)) as (_ & A & B). replace (C1 * C1 + Y * Y) with (1 - S * S) in * by lra. split; assumption. }
  destruct K as [K1 K2]. unfold cA, cX, cY. rewrite EQ.
  replace (cos p * cos (dlat p c u) * cos (dlon p c u v)) with (cos p * (cos (dlat p c u) * cos (dlon p c u v))) by ring.
  replace (sin p * cos (dlat p c u) * cos (dlon p c u v)) with (sin p * (cos (dlat p c u) * cos (dlon p c u v))) by ring.
  rewrite K1, K2. unfold S, C1. split; [|split].
  - transitivity ((sin p * sin p + cos p * cos p) * cos c); [ring|rewrite Hp; ring].
  - transitivity ((sin p * sin p + cos p * cos p) * (u * sin c)); [ring|rewrite Hp; ring].
  - reflexivity.
Qed.
Lemma atan2_scale y x c : 0 < c -> atan2 (c * y) (c * x) = atan2 y x.
Proof.
  intros Hc. unfold atan2.
  assert (Q : x <> 0 -> c * y / (c * x) = y / x) by (intros; field; split; lra).
  destruct (Rlt_dec 0 x), (Rlt_dec 0 (c * x)); try nra.
  - rewrite Q by lra. reflexivity.
  - destruct (Rlt_dec x 0), (Rlt_dec (c * x) 0); try nra.
    + rewrite Q by lra. destruct (Rle_dec 0 y), (Rle_dec 0 (c * y)); try nra; reflexivity.
    + destruct (Rlt_dec 0 y), (Rlt_dec 0 (c * y)); try nra; try reflexivity. destruct (Rlt_dec y 0), (Rlt_dec (c * y) 0); try nra; reflexivity.
Qed.
Lemma reproject_eq lat0 lon0 t x y : (x <> 0 \/ y <> 0) ->
  let p := radians lat0 in let c := sqrt (x / RE * (x / RE) + y / RE * (y / RE)) in
  0 < c /\ (x / RE / c) * (x / RE / c) + (y / RE / c) * (y / RE / c) = 1 /\
  reproject (map_init lat0 lon0 t) x y = Some (degrees (dlat p c (x / RE / c)), degrees (radians lon0 + dlon p c (x / RE / c) (y / RE / c))).
Proof.
  intros H. cbv zeta. pose proof RE_pos as HR. set (a := x / RE). set (b := y / RE).
  assert (N : 0 < a * a + b * b).
  { assert (a <> 0 \/ b <> 0); [|destruct H0; nra]. unfold a, b. destruct H; [left|right]; apply Rmult_integral_contrapositive_currified; try assumption; apply Rinv_neq_0_compat; lra. }
  set (c := sqrt (a * a + b * b)). assert (Hc : 0 < c) by (apply sqrt_lt_R0; exact N). assert (Cc : c * c = a * a + b * b) by (apply sqrt_sqrt; lra).
  split; [exact Hc|]. split; [transitivity ((a * a + b * b) / (c * c)); [field; lra|rewrite <- Cc; field; lra]|].
  unfold reproject, map_init. cbn [mr_init mr_lat mr_lon mr_sin mr_cos]. fold a b. fold c.
  destruct (Rlt_dec 0 (Rabs c)) as [_|L]; [|exfalso; apply L; rewrite Rabs_right; lra].
  unfold dlat, dlon. f_equal. f_equal.
  - f_equal. f_equal. unfold Rdiv. ring.
  - f_equal. f_equal. rewrite <- (atan2_scale (b / c * sin c) (cos (radians lat0) * cos c - a / c * sin (radians lat0) * sin c) c Hc). f_equal; field; lra.
Qed.

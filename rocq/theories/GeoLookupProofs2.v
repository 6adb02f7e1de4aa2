(** more about the table lookup: continuity and accuracy *)
From Coq Require Import ZArith Bool List Reals Lra Lia Psatz.
From Flocq Require Import Core IEEE754.BinarySingleNaN.
From Verif Require Import CBase F32 F32More Scalar GeoTables GeoLookupModel FilterProofs2 GeoLookupProofs.
Import ListNotations.
Open Scope R_scope.

(** neighbouring table entries differ by at most D *)
Definition steps (tab : list (list Z)) (D : R) : Prop :=
  (forall i j, (0 <= i < 18)%Z -> (0 <= j <= 36)%Z -> Rabs (tabR tab (i + 1) j - tabR tab i j) <= D) /\
  (forall i j, (0 <= i <= 18)%Z -> (0 <= j < 36)%Z -> Rabs (tabR tab i (j + 1) - tabR tab i j) <= D).
(** first and last column (180 degrees west and east) agree *)
Definition dateline (tab : list (list Z)) : Prop := forall i, (0 <= i <= 18)%Z -> tabR tab i 36 = tabR tab i 0.

Lemma lin_diff t1 t2 x : lin t1 x - lin t2 x = lin (fun k => t1 k - t2 k) x.
Proof. unfold lin. ring. Qed.
Lemma lin_abs t x D (h : Z) : (0 < h)%Z -> 0 <= x <= IZR h -> (forall k, (0 <= k <= h)%Z -> Rabs (t k) <= D) -> Rabs (lin t x) <= D.
Proof.
  intros Hh Hx HD. pose proof (Zfloor_lb x). pose proof (Zfloor_ub x). assert (F0 : (0 <= Zfloor x)%Z) by (apply Zfloor_lub; lra). assert (F1 : (Zfloor x <= h)%Z) by (apply le_IZR; lra).
  apply Rabs_le. apply lin_between.
  - apply Rabs_le_inv, HD. lia.
  - intros L. assert (Zfloor x < h)%Z by (apply lt_IZR; lra). apply Rabs_le_inv, HD. lia.
Qed.
Lemma bilin_lip_lat tab D a a' b : steps tab D -> -90 <= a <= 90 -> -90 <= a' <= 90 -> -180 <= b <= 180 -> Rabs (bilin tab a b - bilin tab a' b) <= D / 10 * Rabs (a - a').
Proof.
  intros [S1 S2] Ha Ha' Hb. unfold bilin. replace (D / 10 * Rabs (a - a')) with (D * Rabs ((a + 90) / 10 - (a' + 90) / 10)).
  2: { replace ((a + 90) / 10 - (a' + 90) / 10) with ((a - a') * / 10) by field. rewrite Rabs_mult. rewrite (Rabs_right (/ 10)) by lra. field. }
  apply lin_lip with 18%Z; [|lia|lra|lra]. intros m Hm. rewrite lin_diff. apply lin_abs with 36%Z; [lia|lra|]. intros k Hk. apply S1; lia.
Qed.
Lemma bilin_lip_lon tab D a b b' : steps tab D -> -90 <= a <= 90 -> -180 <= b <= 180 -> -180 <= b' <= 180 -> Rabs (bilin tab a b - bilin tab a b') <= D / 10 * Rabs (b - b').
Proof.
  intros [S1 S2] Ha Hb Hb'. unfold bilin. rewrite lin_diff. apply lin_abs with 18%Z; [lia|lra|]. intros k Hk.
  replace (D / 10 * Rabs (b - b')) with (D * Rabs ((b + 180) / 10 - (b' + 180) / 10)).
  2: { replace ((b + 180) / 10 - (b' + 180) / 10) with ((b - b') * / 10) by field. rewrite Rabs_mult. rewrite (Rabs_right (/ 10)) by lra. field. }
  apply lin_lip with 36%Z; [|lia|lra|lra]. intros m Hm. apply S2; lia.
Qed.
Lemma bilin_dateline tab a : dateline tab -> -90 <= a <= 90 -> bilin tab a 180 = bilin tab a (-180).
Proof.
  intros HD Ha. unfold bilin. assert (E : forall i, (0 <= i <= 18)%Z -> lin (fun j => tabR tab i j) ((180 + 180) / 10) = lin (fun j => tabR tab i j) ((-180 + 180) / 10)).
  { intros i Hi. replace ((180 + 180) / 10) with (IZR 36) by lra. replace ((-180 + 180) / 10) with (IZR 0) by lra. rewrite !lin_node. apply HD. exact Hi. }
  assert (Z : Rabs (lin (fun i => lin (fun j => tabR tab i j) ((180 + 180) / 10)) ((a + 90) / 10) - lin (fun i => lin (fun j => tabR tab i j) ((-180 + 180) / 10)) ((a + 90) / 10)) <= 0).
  { rewrite lin_diff. apply lin_abs with 18%Z; [lia|lra|]. intros k Hk. rewrite (E k Hk). rewrite Rminus_eq_0, Rabs_R0. lra. }
  apply Rabs_le_inv in Z. lra.
Qed.
Lemma clampR_range x lo hi : lo <= hi -> lo <= clampR x lo hi <= hi.
Proof. intros H. unfold clampR, Rmin, Rmax. destruct (Rle_dec hi x); destruct (Rle_dec lo _); lra. Qed.
Lemma clampR_lip x y lo hi : lo <= hi -> Rabs (clampR x lo hi - clampR y lo hi) <= Rabs (x - y).
Proof. intros H. unfold clampR, Rmin, Rmax. destruct (Rle_dec hi x), (Rle_dec hi y); repeat match goal with |- context [Rle_dec ?a ?b] => destruct (Rle_dec a b) end; unfold Rabs; repeat destruct (Rcase_abs _); lra. Qed.
Lemma glue (f : R -> R) L a c b : 0 <= L -> (forall x y, a <= x <= c -> a <= y <= c -> Rabs (f x - f y) <= L * Rabs (x - y)) -> (forall x y, c <= x <= b -> c <= y <= b -> Rabs (f x - f y) <= L * Rabs (x - y)) ->
  forall x y, a <= x <= b -> a <= y <= b -> Rabs (f x - f y) <= L * Rabs (x - y).
Proof.
  intros HL H1 H2. assert (M : forall x y, a <= x <= c -> c <= y <= b -> Rabs (f x - f y) <= L * Rabs (x - y)).
  { intros x y Hx Hy. pose proof (H1 x c Hx ltac:(lra)). pose proof (H2 c y ltac:(lra) Hy). replace (f x - f y) with ((f x - f c) + (f c - f y)) by ring. eapply Rle_trans; [apply Rabs_triang|].
    rewrite (Rabs_left1 (x - c)) in * by lra. rewrite (Rabs_left1 (c - y)) in * by lra. rewrite (Rabs_left1 (x - y)) by lra. lra. }
  intros x y Hx Hy. destruct (Rle_dec x c), (Rle_dec y c).
  - apply H1; lra.
  - apply M; lra.
  - rewrite Rabs_minus_sym, (Rabs_minus_sym x y). apply M; lra.
  - apply H2; lra.
Qed.
Lemma bilin_lip_wrap tab D a : steps tab D -> dateline tab -> 0 <= D -> -90 <= a <= 90 -> forall b b', -540 <= b <= 540 -> -540 <= b' <= 540 -> Rabs (bilin tab a (wrapR b) - bilin tab a (wrapR b')) <= D / 10 * Rabs (b - b').
Proof.
  intros HS HD D0 Ha. pose proof (bilin_dateline tab a HD Ha) as E.
  assert (W1 : forall b, -540 <= b <= -180 -> bilin tab a (wrapR b) = bilin tab a (b + 360)).
  { intros b Hb. unfold wrapR. destruct (Rlt_dec 180 b); [lra|]. destruct (Rlt_dec b (-180)); [reflexivity|]. replace b with (-180) by lra. rewrite <- E. f_equal. lra. }
  assert (W2 : forall b, -180 <= b <= 180 -> bilin tab a (wrapR b) = bilin tab a b).
  { intros b Hb. unfold wrapR. destruct (Rlt_dec 180 b); [lra|]. destruct (Rlt_dec b (-180)); [lra|reflexivity]. }
  assert (W3 : forall b, 180 <= b <= 540 -> bilin tab a (wrapR b) = bilin tab a (b - 360)).
  { intros b Hb. unfold wrapR. destruct (Rlt_dec 180 b); [reflexivity|]. destruct (Rlt_dec b (-180)); [lra|]. replace b with 180 by lra. rewrite E. f_equal. lra. }
  apply (glue (fun b => bilin tab a (wrapR b)) (D / 10) (-540) (-180) 540); [lra| |apply (glue (fun b => bilin tab a (wrapR b)) (D / 10) (-180) 180 540); [lra| |]]; intros x y Hx Hy.
  - rewrite !W1 by assumption. replace (x - y) with ((x + 360) - (y + 360)) by ring. apply bilin_lip_lon; [exact HS|exact Ha|lra|lra].
  - rewrite !W2 by assumption. apply bilin_lip_lon; assumption.
  - rewrite !W3 by assumption. replace (x - y) with ((x - 360) - (y - 360)) by ring. apply bilin_lip_lon; [exact HS|exact Ha|lra|lra].
Qed.

(** ** Accuracy *)
Lemma errZ (x : R) : Rabs x <= 70000 -> Rabs (rnd32 x - x) <= 42 / 10000.
Proof. intros H. pose proof (rnd32_error x) as E. rewrite two24 in E. pose proof small150. lra. Qed.
Lemma edge_acc (a b : Z) (s : f32) : int16 a -> int16 b -> is_finite s = true -> 0 <= R32 s <= 1 ->
  Rabs (R32 (fadd (fmul s (fsub (f_of_Z b) (f_of_Z a))) (f_of_Z a)) - (R32 s * (IZR b - IZR a) + IZR a)) <= 84 / 10000.
Proof.
  intros Ha Hb Fs Hs. unfold int16 in *. destruct (f_of_Z_exact a ltac:(lia)) as [Ea Fa]. destruct (f_of_Z_exact b ltac:(lia)) as [Eb Fb].
  assert (A1 : -32768 <= IZR a <= 32767) by (split; apply IZR_le; lia). assert (A2 : -32768 <= IZR b <= 32767) by (split; apply IZR_le; lia).
  destruct (fsub_R (f_of_Z b) (f_of_Z a) Fb Fa) as [E1 F1]. { apply smallb. rewrite Ea, Eb. apply Rabs_le. lra. }
  rewrite Ea, Eb, <- minus_IZR, rnd32_Z, minus_IZR in E1 by lia.
  assert (SD : -65535 <= R32 s * (IZR b - IZR a) <= 65535) by (split; nra).
  destruct (fmul_R s (fsub (f_of_Z b) (f_of_Z a)) Fs F1) as [E2 F2]. { apply smallb. rewrite E1. apply Rabs_le. lra. }
  rewrite E1 in E2. assert (D2 := errZ (R32 s * (IZR b - IZR a)) ltac:(apply Rabs_le; lra)). rewrite <- E2 in D2. apply Rabs_le_inv in D2.
  assert (SE : -32768 <= R32 s * (IZR b - IZR a) + IZR a <= 32767) by (split; nra).
  destruct (fadd_R (fmul s (fsub (f_of_Z b) (f_of_Z a))) (f_of_Z a) F2 Fa) as [E3 F3]. { apply smallb. rewrite Ea. apply Rabs_le. lra. }
  rewrite Ea in E3. assert (D3 := errZ (R32 (fmul s (fsub (f_of_Z b) (f_of_Z a))) + IZR a) ltac:(apply Rabs_le; lra)). rewrite <- E3 in D3. apply Rabs_le_inv in D3. apply Rabs_le. lra.
Qed.
Lemma bilinear_acc (sw se ne nw : Z) (la lo : f32) : int16 sw -> int16 se -> int16 ne -> int16 nw ->
  is_finite la = true -> 0 <= R32 la <= 1 -> is_finite lo = true -> 0 <= R32 lo <= 1 ->
  Rabs (R32 (bilinear (f_of_Z sw) (f_of_Z se) (f_of_Z ne) (f_of_Z nw) la lo) - bilinear (IZR sw) (IZR se) (IZR ne) (IZR nw) (R32 la) (R32 lo)) <= 25 / 1000.
Proof.
  intros I1 I2 I3 I4 Fla Rla Flo Rlo. unfold bilinear. cbn [sadd ssub smul FScalar RScalar].
  pose proof (edge_acc sw se lo I1 I2 Flo Rlo) as A1. pose proof (edge_acc nw ne lo I4 I3 Flo Rlo) as A2. destruct (edge_F sw se lo I1 I2 Flo Rlo) as [F1 R1]. destruct (edge_F nw ne lo I4 I3 Flo Rlo) as [F2 R2].
  set (m := fadd (fmul lo (fsub (f_of_Z se) (f_of_Z sw))) (f_of_Z sw)) in *. set (M := fadd (fmul lo (fsub (f_of_Z ne) (f_of_Z nw))) (f_of_Z nw)) in *. clearbody m M.
  set (mr := R32 lo * (IZR se - IZR sw) + IZR sw) in *. set (Mr := R32 lo * (IZR ne - IZR nw) + IZR nw) in *. clearbody mr Mr. apply Rabs_le_inv in A1, A2. unfold int16 in *.
  assert (Am : -32768 <= R32 m <= 32767). { assert (-32768 <= IZR (Z.min sw se)) by (apply IZR_le; lia). assert (IZR (Z.max sw se) <= 32767) by (apply IZR_le; lia). lra. }
  assert (AM : -32768 <= R32 M <= 32767). { assert (-32768 <= IZR (Z.min nw ne)) by (apply IZR_le; lia). assert (IZR (Z.max nw ne) <= 32767) by (apply IZR_le; lia). lra. }
  destruct (fsub_R M m F2 F1) as [E3 F3]. { apply smallb. apply Rabs_le. lra. }
  assert (D3 := errZ (R32 M - R32 m) ltac:(apply Rabs_le; lra)). rewrite <- E3 in D3. apply Rabs_le_inv in D3. set (D := fsub M m) in *. clearbody D.
  assert (LD : -65536 <= R32 la * R32 D <= 65536) by (split; nra).
  destruct (fmul_R la D Fla F3) as [E4 F4]. { apply smallb. apply Rabs_le. lra. }
  assert (D4 := errZ (R32 la * R32 D) ltac:(apply Rabs_le; lra)). rewrite <- E4 in D4. apply Rabs_le_inv in D4. set (p := fmul la D) in *. clearbody p.
  assert (LE : - (42 / 10000) <= R32 la * (R32 D - (R32 M - R32 m)) <= 42 / 10000) by (split; nra).
  assert (LS : -32768 <= R32 la * (R32 M - R32 m) + R32 m <= 32767) by (split; nra).
  destruct (fadd_R p m F4 F1) as [E5 F5]. { apply smallb. apply Rabs_le. lra. }
  assert (D5 := errZ (R32 p + R32 m) ltac:(apply Rabs_le; lra)). rewrite <- E5 in D5. apply Rabs_le_inv in D5.
  assert (CC : - (84 / 10000) <= R32 la * ((R32 M - Mr) - (R32 m - mr)) + (R32 m - mr) <= 84 / 10000) by (split; nra).
  apply Rabs_le. lra.
Qed.
Lemma wrap_F (lon : f32) : is_finite lon = true -> -540 <= R32 lon <= 540 ->
  is_finite (wrap_lon f_of_Z lon) = true /\ -180 <= R32 (wrap_lon f_of_Z lon) <= 180 /\ Rabs (R32 (wrap_lon f_of_Z lon) - wrapR (R32 lon)) <= 61 / 1000000.
Proof.
  intros F H. destruct (f_of_Z_exact 360 ltac:(lia)) as [E1 F1]. destruct (f_of_Z_exact (-180) ltac:(lia)) as [E2 F2]. destruct (f_of_Z_exact 180 ltac:(lia)) as [E3 F3].
  unfold wrap_lon, g_MAX_LON, g_MIN_LON. cbn [slt ssub sadd FScalar]. rewrite (flt_R (f_of_Z 180) lon) by assumption. rewrite E3. unfold wrapR. case Rlt_bool_spec; intros G.
  - destruct (fsub_R lon (f_of_Z 360) F F1) as [E4 F4]. { apply smallb. rewrite E1. apply Rabs_le. lra. } rewrite E1 in E4.
    assert (B : -180 <= R32 (fsub lon (f_of_Z 360)) <= 180). { rewrite E4. split; [apply rnd32_ge_Z; [lia|lra]|apply rnd32_le_Z; [lia|lra]]. }
    rewrite flt_R by assumption. rewrite E2. rewrite Rlt_bool_false by apply B. split; [exact F4|]. split; [exact B|]. destruct (Rlt_dec 180 (R32 lon)); [|lra]. rewrite E4. apply err18. apply Rabs_le. lra.
  - rewrite flt_R by assumption. rewrite E2. destruct (Rlt_dec 180 (R32 lon)); [lra|]. case Rlt_bool_spec; intros G2.
    + destruct (fadd_R lon (f_of_Z 360) F F1) as [E4 F4]. { apply smallb. rewrite E1. apply Rabs_le. lra. } rewrite E1 in E4.
      split; [exact F4|]. rewrite E4. split; [split; [apply rnd32_ge_Z; [lia|lra]|apply rnd32_le_Z; [lia|lra]]|]. destruct (Rlt_dec (R32 lon) (-180)); [|lra]. apply err18. apply Rabs_le. lra.
    + split; [exact F|]. split; [lra|]. destruct (Rlt_dec (R32 lon) (-180)); [lra|]. rewrite Rminus_eq_0, Rabs_R0. lra.
Qed.
(** every entry fits int16_t *)
Definition entries16 (tab : list (list Z)) : Prop := forall i j, (0 <= i <= 18)%Z -> (0 <= j <= 36)%Z -> int16 (nth (Z.to_nat j) (nth (Z.to_nat i) tab []) 0%Z).
Lemma entry_ok tab a b : (0 <= a < 19)%Z -> (0 <= b < 37)%Z -> entry tab a b = Ok (nth (Z.to_nat b) (nth (Z.to_nat a) tab []) 0%Z).
Proof. intros Ha Hb. unfold entry. rewrite (proj2 (Z.leb_le 0 a)), (proj2 (Z.ltb_lt a 19)), (proj2 (Z.leb_le 0 b)), (proj2 (Z.ltb_lt b 37)) by lia. reflexivity. Qed.
Lemma lookupF_acc tab D (lat lon : f32) : entries16 tab -> steps tab D -> 0 <= D -> is_finite lat = true -> is_finite lon = true -> -540 <= R32 lon <= 540 ->
  exists r, lookupF tab lat lon = Ok r /\ is_finite r = true /\ Rabs (R32 r - bilin tab (clampR (R32 lat) (-90) 90) (wrapR (R32 lon))) <= 25 / 1000 + D / 20000.
Proof.
  intros H16 HS HD F1 F2 HL. destruct (f_of_Z_exact (-90) ltac:(lia)) as [E5 F5]. destruct (f_of_Z_exact 90 ltac:(lia)) as [E6 F6].
  destruct (wrap_F lon F2 HL) as (Fo & Ro & Eo). pose proof (wrapR_range _ HL) as WR.
  unfold lookupF, get_table_data, cell. cbv zeta. set (a := sconstrain lat (g_MIN_LAT f_of_Z) (g_MAX_LAT f_of_Z)). set (o := wrap_lon f_of_Z lon) in *.
  assert (A : is_finite a = true /\ R32 a = clampR (R32 lat) (-90) 90).
  { unfold a, sconstrain, clampR, g_MIN_LAT, g_MAX_LAT, Rmin, Rmax. cbn [slt FScalar]. rewrite !flt_R by assumption. rewrite E5, E6.
    case Rlt_bool_spec; intros; [|case Rlt_bool_spec; intros]; (split; [assumption|]); destruct (Rle_dec 90 (R32 lat)); destruct (Rle_dec (-90) _); lra. }
  destruct A as [Fa Ra]. pose proof (clampR_range (R32 lat) (-90) 90 ltac:(lra)) as RC. rewrite <- Ra in *. clearbody a o.
  destruct (axis_F 9 a ltac:(lia) Fa) as (v1 & i & X1 & Hi & Fv1 & Fla & Rla & Ela). { change (IZR (10 * 9)) with 90. lra. }
  destruct (axis_F 18 o ltac:(lia) Fo) as (v2 & j & X2 & Hj & Fv2 & Flo & Rlo & Elo). { change (IZR (10 * 18)) with 180. lra. }
  change (f_of_Z (- (10 * 9))) with (g_MIN_LAT f_of_Z) in X1. change (f_of_Z (10 * 9)) with (g_MAX_LAT f_of_Z) in X1. rewrite X1.
  change (f_of_Z (- (10 * 18))) with (g_MIN_LON f_of_Z) in X2. change (f_of_Z (10 * 18)) with (g_MAX_LON f_of_Z) in X2. cbn [obind fst snd]. rewrite X2. cbn [obind fst snd].
  set (la := sconstrain (sdiv (ssub a v1) (g_RES f_of_Z)) szero sone) in *. set (lo := sconstrain (sdiv (ssub o v2) (g_RES f_of_Z)) szero sone) in *. clearbody la lo.
  rewrite !entry_ok by lia. cbn [obind].
  pose proof (H16 i j ltac:(lia) ltac:(lia)) as G1. pose proof (H16 i (j + 1)%Z ltac:(lia) ltac:(lia)) as G2. pose proof (H16 (i + 1)%Z (j + 1)%Z ltac:(lia) ltac:(lia)) as G3. pose proof (H16 (i + 1)%Z j ltac:(lia) ltac:(lia)) as G4.
  pose proof (bilinear_acc _ _ _ _ la lo G1 G2 G3 G4 Fla Rla Flo Rlo) as ACC.
  eexists. split; [reflexivity|]. split.
  { eapply proj1. apply (bilinear_F _ _ _ _ (-32768) 32767); try assumption; try (unfold int16; lia). intros x [<-|[<-|[<-|[<-|[]]]]]; (split; [|assumption]); assumption. }
  set (a1 := 10 * R32 la + IZR (10 * i - 10 * 9)) in *. set (o1 := 10 * R32 lo + IZR (10 * j - 10 * 18)) in *.
  assert (B : bilinear (IZR (nth (Z.to_nat j) (nth (Z.to_nat i) tab []) 0%Z)) (IZR (nth (Z.to_nat (j + 1)) (nth (Z.to_nat i) tab []) 0%Z)) (IZR (nth (Z.to_nat (j + 1)) (nth (Z.to_nat (i + 1)) tab []) 0%Z)) (IZR (nth (Z.to_nat j) (nth (Z.to_nat (i + 1)) tab []) 0%Z)) (R32 la) (R32 lo) = bilin tab a1 o1).
  { assert (P1 : (a1 + 90) / 10 = IZR i + R32 la) by (unfold a1; rewrite minus_IZR, mult_IZR; change (IZR (10 * 9)) with 90; field). assert (P2 : (o1 + 180) / 10 = IZR j + R32 lo) by (unfold o1; rewrite minus_IZR, mult_IZR; change (IZR (10 * 18)) with 180; field).
    unfold bilin. rewrite P1, P2. rewrite (lin_cell _ _ i) by lra. rewrite !(lin_cell _ _ j) by lra. unfold bilinear, tabR. cbn [sadd ssub smul RScalar]. ring. }
  rewrite B in ACC. clear B.
  assert (RA1 : -90 <= a1 <= 90). { unfold a1. assert (0 <= IZR i <= 17) by (split; apply IZR_le; lia). rewrite minus_IZR, mult_IZR. change (IZR (10 * 9)) with 90. lra. }
  assert (RO1 : -180 <= o1 <= 180). { unfold o1. assert (0 <= IZR j <= 35) by (split; apply IZR_le; lia). rewrite minus_IZR, mult_IZR. change (IZR (10 * 18)) with 180. lra. }
  pose proof (bilin_lip_lat tab D a1 (R32 a) o1 HS RA1 RC RO1) as L1. pose proof (bilin_lip_lon tab D (R32 a) o1 (wrapR (R32 lon)) HS RC RO1 WR) as L2.
  assert (K1 : D / 10 * Rabs (a1 - R32 a) <= D / 10 * (2 / 10000)) by (apply Rmult_le_compat_l; lra).
  assert (K3 : Rabs (o1 - wrapR (R32 lon)) <= 2 / 10000 + 61 / 1000000). { replace (o1 - wrapR (R32 lon)) with ((o1 - R32 o) + (R32 o - wrapR (R32 lon))) by ring. eapply Rle_trans; [apply Rabs_triang|]. lra. }
  assert (K2 : D / 10 * Rabs (o1 - wrapR (R32 lon)) <= D / 10 * (2 / 10000 + 61 / 1000000)) by (apply Rmult_le_compat_l; lra).
  match goal with |- Rabs (?x - ?y) <= _ => replace (x - y) with ((x - bilin tab a1 o1) + ((bilin tab a1 o1 - bilin tab (R32 a) o1) + (bilin tab (R32 a) o1 - y))) by ring end.
  eapply Rle_trans; [apply Rabs_triang|]. eapply Rle_trans; [apply Rplus_le_compat_l, Rabs_triang|]. lra.
Qed.

(** any longitude: beyond one turn the value at the date line is returned *)
Lemma index_R_all (h : Z) (x : R) : (1 <= h <= 100)%Z ->
  exists n : Z, (0 <= n < 2 * h)%Z /\
    lookup_index IZR rtrunc (IZR (Zfloor (x / 10)) * 10) (IZR (- (10 * h))) (IZR (10 * h)) = Ok (IZR (10 * n - 10 * h), n) /\
    sconstrain (((x - IZR (10 * n - 10 * h)) / IZR 10)%scal) szero sone = (clampR x (- IZR (10 * h)) (IZR (10 * h)) + IZR (10 * h)) / 10 - IZR n.
Proof.
  intros Hh. assert (S0 : forall (x : R), sconstrain x szero sone = clampR x 0 1). { intros y. unfold szero, sone. cbn [slit RScalar]. rewrite sconstrain_R by lra. unfold clampR. f_equal; [lra|f_equal; lra]. }
  assert (HB0 : 1 <= IZR h) by (apply IZR_le; lia).
  destruct (Rle_dec (- IZR (10 * h)) x) as [A|A]; [destruct (Rle_dec x (IZR (10 * h))) as [B|B]|].
  - destruct (index_R h x Hh (conj A B)) as (n & Hn & R1 & E). exists n. split; [exact Hn|]. split; [exact E|]. rewrite S0. cbn [ssub sdiv RScalar]. unfold clampR. rewrite minus_IZR, !mult_IZR in *. rewrite (Rmin_right (10 * IZR h) x) by lra. rewrite (Rmax_right _ x) by lra. rewrite Rmin_right by lra. rewrite Rmax_right by lra. lra.
  - exists (2 * h - 1)%Z. split; [lia|]. rewrite mult_IZR in B.
    assert (F : (h <= Zfloor (x / 10))%Z) by (apply Zfloor_lub; lra).
    assert (P : sconstrain (IZR (Zfloor (x / 10)) * 10) (IZR (- (10 * h))) ((IZR (10 * h) - g_RES IZR)%scal) = IZR (10 * (2 * h - 1) - 10 * h)).
    { unfold g_RES. cbn [ssub RScalar]. rewrite <- !mult_IZR, <- minus_IZR. rewrite sconstrain_R by (apply IZR_le; lia). unfold clampR. rewrite Rmin_left by (apply IZR_le; lia). rewrite Rmax_right by (apply IZR_le; lia). f_equal. lia. }
    split.
    + unfold lookup_index. rewrite P. assert (E : sdiv (sadd (sopp (IZR (- (10 * h)))) (IZR (10 * (2 * h - 1) - 10 * h))) (g_RES IZR) = IZR (2 * h - 1)).
      { unfold g_RES. cbn [sdiv sadd sopp RScalar]. rewrite opp_IZR, minus_IZR, !mult_IZR, minus_IZR, !mult_IZR. lra. }
      rewrite E. unfold rtrunc. rewrite Ztrunc_IZR. rewrite (proj2 (Z.leb_le 0 (2 * h - 1))) by lia. rewrite (proj2 (Z.ltb_lt (2 * h - 1) (2 ^ 32))) by lia. reflexivity.
    + rewrite S0. cbn [ssub sdiv RScalar]. unfold clampR. rewrite minus_IZR, !mult_IZR, minus_IZR, !mult_IZR. rewrite (Rmin_left (10 * IZR h) x) by lra. rewrite (Rmax_right (- (10 * IZR h))) by lra. rewrite Rmin_left by lra. rewrite Rmax_right by lra. lra.
  - exists 0%Z. split; [lia|]. rewrite mult_IZR in A.
    assert (F : (Zfloor (x / 10) < - h)%Z). { apply lt_IZR. rewrite opp_IZR. pose proof (Zfloor_lb (x / 10)). lra. }
    assert (P : sconstrain (IZR (Zfloor (x / 10)) * 10) (IZR (- (10 * h))) ((IZR (10 * h) - g_RES IZR)%scal) = IZR (10 * 0 - 10 * h)).
    { unfold g_RES. cbn [ssub RScalar]. rewrite <- !mult_IZR, <- minus_IZR. rewrite sconstrain_R by (apply IZR_le; lia). unfold clampR. rewrite Rmin_right by (apply IZR_le; lia). rewrite Rmax_left by (apply IZR_le; lia). f_equal. }
    split.
    + unfold lookup_index. rewrite P. assert (E : sdiv (sadd (sopp (IZR (- (10 * h)))) (IZR (10 * 0 - 10 * h))) (g_RES IZR) = IZR 0).
      { unfold g_RES. cbn [sdiv sadd sopp RScalar]. rewrite opp_IZR, minus_IZR, !mult_IZR. lra. }
      rewrite E. unfold rtrunc. rewrite Ztrunc_IZR. reflexivity.
    + rewrite S0. cbn [ssub sdiv RScalar]. unfold clampR. rewrite minus_IZR, !mult_IZR. rewrite (Rmin_right (10 * IZR h) x) by lra. rewrite (Rmax_left (- (10 * IZR h))) by lra. rewrite Rmin_right by lra. rewrite Rmax_left by lra. lra.
Qed.
Lemma wrap_lon_R_all lon : wrap_lon IZR lon = wrapR lon.
Proof.
  unfold wrap_lon, wrapR, g_MAX_LON, g_MIN_LON. cbn [slt ssub sadd RScalar].
  destruct (Rlt_dec 180 lon); [destruct (Rlt_dec (lon - 360) (-180)); [lra|reflexivity]|destruct (Rlt_dec lon (-180)); reflexivity].
Qed.
Lemma lookupR_all tab lat lon : lookupR tab lat lon = Ok (bilin tab (clampR lat (-90) 90) (clampR (wrapR lon) (-180) 180)).
Proof.
  unfold lookupR, get_table_data, cell. unfold g_MIN_LAT, g_MAX_LAT. rewrite sconstrain_R by lra. rewrite wrap_lon_R_all. cbv zeta.
  pose proof (clampR_range lat (-90) 90 ltac:(lra)) as HC.
  set (la := clampR lat (-90) 90) in *. set (lo := wrapR lon) in *. clearbody la lo.
  destruct (index_R_all 9 la ltac:(lia)) as (i & Hi & Ei & Si). destruct (index_R_all 18 lo ltac:(lia)) as (j & Hj & Ej & Sj).
  cbn [sdiv smul ssub RScalar] in *. unfold g_RES. unfold g_MIN_LON, g_MAX_LON.
  change (IZR (- (10 * 9))) with (IZR (-90)) in Ei. change (IZR (10 * 9)) with (IZR 90) in Ei, Si. change (IZR (- (10 * 18))) with (IZR (-180)) in Ej. change (IZR (10 * 18)) with (IZR 180) in Ej, Sj.
  rewrite Ei, Ej. cbn [obind fst snd]. rewrite Si, Sj. rewrite !entry_ok by lia. cbn [obind]. f_equal.
  change (- (180)) with (-180) in *. change (- (90)) with (-90) in *.
  assert (CL : clampR la (-90) 90 = la) by (unfold clampR; rewrite Rmin_right by lra; apply Rmax_right; lra). rewrite CL in *. pose proof (clampR_range lo (-180) 180 ltac:(lra)) as HO. set (lc := clampR lo (-180) 180) in *. clearbody lc.
  assert (U : forall y : R, 0 <= sconstrain y szero sone <= 1). { intros y. unfold szero, sone. cbn [slit RScalar]. rewrite sconstrain_R by lra. replace (0 / 1) with 0 by field. replace (1 / 1) with 1 by field. apply clampR_range. lra. }
  assert (Ui := U ((la - IZR (10 * i - 10 * 9)) / 10)). assert (Uj := U ((lo - IZR (10 * j - 10 * 18)) / 10)). rewrite Si in Ui. rewrite Sj in Uj.
  unfold bilin, bilinear. fold (tabR tab i j) (tabR tab i (j + 1)) (tabR tab (i + 1) (j + 1)) (tabR tab (i + 1) j).
  rewrite (lin_cell _ _ i) by lra. rewrite !(lin_cell _ _ j) by lra. cbn [sadd ssub smul RScalar]. ring.
Qed.
(** four corners *)
Lemma lookupF_safe tab (lat lon : f32) : is_nan lat = false -> is_nan lon = false -> entries16 tab ->
  exists i j r, lookupF tab lat lon = Ok r /\ (0 <= i < 18)%Z /\ (0 <= j < 36)%Z /\ is_finite r = true /\
    forall lo hi, int16 lo -> int16 hi -> (forall a b, (a = i \/ a = i + 1)%Z -> (b = j \/ b = j + 1)%Z -> (lo <= nth (Z.to_nat b) (nth (Z.to_nat a) tab []) 0 <= hi)%Z) -> IZR lo - / 256 <= R32 r <= IZR hi + / 256.
Proof.
  intros N1 N2 H16. destruct (cell_F lat lon N1 N2) as (i & j & la & lo & E & Hi & Hj & Fla & Rla & Flo & Rlo). unfold lookupF, get_table_data. rewrite E. cbn [obind]. rewrite !entry_ok by lia. cbn [obind].
  pose proof (H16 i j ltac:(lia) ltac:(lia)) as G1. pose proof (H16 i (j + 1)%Z ltac:(lia) ltac:(lia)) as G2. pose proof (H16 (i + 1)%Z (j + 1)%Z ltac:(lia) ltac:(lia)) as G3. pose proof (H16 (i + 1)%Z j ltac:(lia) ltac:(lia)) as G4.
  exists i, j. eexists. split; [reflexivity|]. split; [exact Hi|]. split; [exact Hj|]. split.
  - eapply proj1. apply (bilinear_F _ _ _ _ (-32768) 32767); try assumption; try (unfold int16; lia). intros x [<-|[<-|[<-|[<-|[]]]]]; (split; [|assumption]); assumption.
  - intros lo' hi' L1 L2 HC. eapply proj2. apply (bilinear_F _ _ _ _ lo' hi'); try assumption. intros x [<-|[<-|[<-|[<-|[]]]]]; (split; [|assumption]); apply HC; auto.
Qed.
Lemma lookupF_nan tab (lat lon : f32) : is_nan lat = true \/ is_nan lon = true -> lookupF tab lat lon = UB.
Proof.
  intros [H|H]; [destruct lat; try discriminate|destruct lon; try discriminate]; unfold lookupF, get_table_data, cell; cbv zeta.
  - assert (E : forall w, lookup_index f_of_Z (f_to_uint 32) (smul (ffloor (sdiv (sconstrain (B754_nan : f32) (g_MIN_LAT f_of_Z) (g_MAX_LAT f_of_Z)) (g_RES f_of_Z))) w) (g_MIN_LAT f_of_Z) (g_MAX_LAT f_of_Z) = UB) by (intros w; reflexivity).
    rewrite E. reflexivity.
  - assert (E : lookup_index f_of_Z (f_to_uint 32) (smul (ffloor (sdiv (wrap_lon f_of_Z (B754_nan : f32)) (g_RES f_of_Z))) (g_RES f_of_Z)) (g_MIN_LON f_of_Z) (g_MAX_LON f_of_Z) = UB) by reflexivity.
    rewrite E. match goal with |- obind (obind ?x _) _ = _ => destruct x end; reflexivity.
Qed.

(** proofs about the table lookup *)
From Coq Require Import ZArith Bool List Reals Lra Lia Psatz.
From Flocq Require Import Core IEEE754.BinarySingleNaN.
From Verif Require Import CBase F32 F32More Scalar GeoTables GeoLookupModel FilterProofs2.
Import ListNotations.
Open Scope R_scope.

(** ** Real arithmetic *)
(** linear interpolation between the two neighbouring integers *)
Definition lin (t : Z -> R) (x : R) : R := t (Zfloor x) + (x - IZR (Zfloor x)) * (t (Zfloor x + 1)%Z - t (Zfloor x)).
Lemma lin_cell t x n : IZR n <= x <= IZR n + 1 -> lin t x = t n + (x - IZR n) * (t (n + 1)%Z - t n).
Proof.
  intros [A B]. destruct (Rle_lt_or_eq_dec _ _ B) as [L|E].
  - assert (F : Zfloor x = n) by (apply Zfloor_imp; rewrite plus_IZR; lra). unfold lin. rewrite F. reflexivity.
  - assert (F : Zfloor x = (n + 1)%Z) by (rewrite E; rewrite <- (plus_IZR n 1); apply Zfloor_IZR). unfold lin. rewrite F, plus_IZR. replace x with (IZR n + 1) by lra. ring.
Qed.
Lemma lin_node t n : lin t (IZR n) = t n.
Proof. rewrite (lin_cell t (IZR n) n) by lra. ring. Qed.
Lemma lin_between t x lo hi : lo <= t (Zfloor x) <= hi -> (IZR (Zfloor x) < x -> lo <= t (Zfloor x + 1)%Z <= hi) -> lo <= lin t x <= hi.
Proof.
  intros A B. unfold lin. pose proof (Zfloor_lb x). pose proof (Zfloor_ub x). destruct (Rle_lt_or_eq_dec _ _ H) as [L|E].
  - specialize (B L). set (s := x - IZR (Zfloor x)). assert (0 <= s <= 1) by (unfold s; lra). nra.
  - replace (x - IZR (Zfloor x)) with 0 by lra. rewrite Rmult_0_l. lra.
Qed.
(** Lipschitz on a range of cells *)
Lemma lin_lip1 t D n x y : Rabs (t (n + 1)%Z - t n) <= D -> IZR n <= x <= IZR n + 1 -> IZR n <= y <= IZR n + 1 -> Rabs (lin t x - lin t y) <= D * Rabs (x - y).
Proof.
  intros H Hx Hy. rewrite (lin_cell t x n Hx), (lin_cell t y n Hy). replace (t n + (x - IZR n) * (t (n + 1)%Z - t n) - (t n + (y - IZR n) * (t (n + 1)%Z - t n))) with ((t (n + 1)%Z - t n) * (x - y)) by ring.
  rewrite Rabs_mult. apply Rmult_le_compat_r; [apply Rabs_pos|exact H].
Qed.
Lemma lin_lip_up t D (k : nat) : forall n x y, (forall m, (n <= m <= n + Z.of_nat k)%Z -> Rabs (t (m + 1)%Z - t m) <= D) ->
  IZR n <= x <= IZR n + 1 -> IZR (n + Z.of_nat k) <= y <= IZR (n + Z.of_nat k) + 1 -> x <= y -> Rabs (lin t y - lin t x) <= D * (y - x).
Proof.
  induction k as [|k IH]; intros n x y HD Hx Hy L.
  - rewrite Z.add_0_r in Hy. rewrite <- (Rabs_right (y - x)) by lra. apply lin_lip1 with n; [apply HD; lia|exact Hy|exact Hx].
  - set (z := IZR (n + 1)). assert (Z1 : z = IZR n + 1) by (unfold z; rewrite plus_IZR; reflexivity).
    assert (A : Rabs (lin t y - lin t z) <= D * (y - z)).
    { apply (IH (n + 1)%Z); [intros m Hm; apply HD; lia|unfold z; lra| |].
      - replace (n + 1 + Z.of_nat k)%Z with (n + Z.of_nat (Datatypes.S k))%Z by lia. exact Hy.
      - assert (z <= IZR (n + Z.of_nat (Datatypes.S k))) by (unfold z; apply IZR_le; lia). lra. }
    assert (B : Rabs (lin t z - lin t x) <= D * (z - x)). { rewrite <- (Rabs_right (z - x)) by lra. apply lin_lip1 with n; [apply HD; lia|lra|exact Hx]. }
    replace (lin t y - lin t x) with ((lin t y - lin t z) + (lin t z - lin t x)) by ring. eapply Rle_trans; [apply Rabs_triang|]. lra.
Qed.
Lemma lin_lip t D (h : Z) x y : (forall m, (0 <= m < h)%Z -> Rabs (t (m + 1)%Z - t m) <= D) -> (0 < h)%Z ->
  0 <= x <= IZR h -> 0 <= y <= IZR h -> Rabs (lin t x - lin t y) <= D * Rabs (x - y).
Proof.
  intros HD Hh. assert (C : forall x, 0 <= x <= IZR h -> exists n, (0 <= n < h)%Z /\ IZR n <= x <= IZR n + 1).
  { intros w Hw. destruct (Rle_lt_or_eq_dec _ _ (proj2 Hw)) as [L|E].
    - exists (Zfloor w). pose proof (Zfloor_lb w). pose proof (Zfloor_ub w). split; [split; [apply Zfloor_lub; lra|apply lt_IZR; lra]|lra].
    - exists (h - 1)%Z. split; [lia|]. rewrite minus_IZR. lra. }
  assert (M : forall x y, 0 <= x <= IZR h -> 0 <= y <= IZR h -> x <= y -> Rabs (lin t y - lin t x) <= D * (y - x)).
  { intros u v Hu Hv L. destruct (C u Hu) as (n & Hn & Nu). destruct (C v Hv) as (m & Hm & Mv).
    assert (NM : (n <= m)%Z \/ (m < n)%Z) by lia. destruct NM as [NM|NM].
    - apply (lin_lip_up t D (Z.to_nat (m - n)) n); [intros k Hk; apply HD; lia|exact Nu| |exact L]. replace (n + Z.of_nat (Z.to_nat (m - n)))%Z with m by lia. exact Mv.
    - assert (E : IZR m + 1 <= IZR n) by (rewrite <- (plus_IZR m 1); apply IZR_le; lia). assert (u = v) by lra. subst v. replace (lin t u - lin t u) with 0 by ring. rewrite Rabs_R0. lra. }
  intros Hx Hy. destruct (Rle_dec x y) as [L|L].
  - rewrite (Rabs_minus_sym x y), (Rabs_minus_sym (lin t x)), (Rabs_right (y - x)) by lra. apply M; assumption.
  - rewrite (Rabs_right (x - y)) by lra. apply M; try assumption; lra.
Qed.

(** the index computed by the code in real arithmetic *)
Definition clampR (x lo hi : R) : R := Rmax lo (Rmin hi x).
Lemma sconstrain_R (x lo hi : R) : lo <= hi -> sconstrain x lo hi = clampR x lo hi.
Proof. intros H. unfold sconstrain, clampR. cbn [slt RScalar]. unfold Rmin. destruct (Rle_dec hi x); unfold Rmax; match goal with |- context [Rle_dec ?a ?b] => destruct (Rle_dec a b) end; destruct (Rlt_dec x lo), (Rlt_dec hi x); lra. Qed.
Lemma index_R (h : Z) (x : R) : (1 <= h <= 100)%Z -> - IZR (10 * h) <= x <= IZR (10 * h) ->
  exists n : Z, (0 <= n < 2 * h)%Z /\ IZR n <= (x + IZR (10 * h)) / 10 <= IZR n + 1 /\
    lookup_index IZR rtrunc (IZR (Zfloor (x / 10)) * 10) (IZR (- (10 * h))) (IZR (10 * h)) = Ok (IZR (10 * n - 10 * h), n).
Proof.
  intros Hh Hx. rewrite mult_IZR in Hx. set (f := Zfloor (x / 10)). pose proof (Zfloor_lb (x / 10)) as F1. pose proof (Zfloor_ub (x / 10)) as F2. fold f in F1, F2.
  assert (B1 : (- h <= f)%Z) by (apply Zfloor_lub; rewrite opp_IZR; lra). assert (B2 : (f <= h)%Z) by (apply le_IZR; lra).
  exists (Z.min (f + h) (2 * h - 1)).
  assert (N : (0 <= Z.min (f + h) (2 * h - 1) < 2 * h)%Z) by lia. split; [exact N|].
  assert (P : sconstrain (IZR f * 10) (IZR (- (10 * h))) ((IZR (10 * h) - g_RES IZR)%scal) = IZR (10 * Z.min (f + h) (2 * h - 1) - 10 * h)).
  { unfold g_RES. cbn [ssub RScalar]. rewrite <- !mult_IZR, <- minus_IZR. rewrite sconstrain_R by (apply IZR_le; lia). unfold clampR.
    destruct (Z.leb_spec f (h - 1)).
    - rewrite Rmin_right by (apply IZR_le; lia). rewrite Rmax_right by (apply IZR_le; lia). f_equal. lia.
    - assert (f = h) by lia. rewrite Rmin_left by (apply IZR_le; lia). rewrite Rmax_right by (apply IZR_le; lia). f_equal. lia. }
  split.
  - destruct (Z.leb_spec f (h - 1)).
    + rewrite Z.min_l by lia. rewrite !plus_IZR, mult_IZR. lra.
    + assert (f = h) by lia. rewrite Z.min_r by lia. assert (x = 10 * IZR h) by (rewrite H0 in F1; lra). rewrite minus_IZR, mult_IZR, mult_IZR. subst x. lra.
  - unfold lookup_index. rewrite P. set (n := Z.min (f + h) (2 * h - 1)) in *. clearbody n.
    assert (E : (sdiv (sadd (sopp (IZR (- (10 * h)))) (IZR (10 * n - 10 * h))) (g_RES IZR)) = IZR n).
    { unfold g_RES. cbn [sdiv sadd sopp RScalar]. rewrite opp_IZR, minus_IZR, !mult_IZR. lra. }
    rewrite E. unfold rtrunc. rewrite Ztrunc_IZR. rewrite (proj2 (Z.leb_le 0 n)) by lia. rewrite (proj2 (Z.ltb_lt n (2 ^ 32))) by lia. reflexivity.
Qed.
(** the table as a function (zero outside) *)
Definition tabR (tab : list (list Z)) (i j : Z) : R := IZR (nth (Z.to_nat j) (nth (Z.to_nat i) tab []) 0%Z).
Definition bilin (tab : list (list Z)) (lat lon : R) : R := lin (fun i => lin (fun j => tabR tab i j) ((lon + 180) / 10)) ((lat + 90) / 10).
Definition wrapR (lon : R) : R := if Rlt_dec 180 lon then lon - 360 else if Rlt_dec lon (-180) then lon + 360 else lon.
Lemma wrapR_range lon : -540 <= lon <= 540 -> -180 <= wrapR lon <= 180.
Proof. intros H. unfold wrapR. destruct (Rlt_dec 180 lon), (Rlt_dec lon (-180)); lra. Qed.
Lemma wrap_lon_R lon : -540 <= lon <= 540 -> wrap_lon IZR lon = wrapR lon.
Proof.
  intros H. unfold wrap_lon, wrapR, g_MAX_LON, g_MIN_LON. cbn [slt ssub sadd RScalar].
  destruct (Rlt_dec 180 lon); [destruct (Rlt_dec (lon - 360) (-180)); [lra|reflexivity]|destruct (Rlt_dec lon (-180)); reflexivity].
Qed.
Lemma lookupR_spec tab lat lon : -540 <= lon <= 540 -> lookupR tab lat lon = Ok (bilin tab (clampR lat (-90) 90) (wrapR lon)).
Proof.
  intros HL. pose proof (wrapR_range lon HL) as HW. assert (HC : -90 <= clampR lat (-90) 90 <= 90) by (unfold clampR, Rmax, Rmin; destruct (Rle_dec 90 lat); destruct (Rle_dec (-90) _); lra).
  unfold lookupR, get_table_data, cell. unfold g_MIN_LAT, g_MAX_LAT. rewrite sconstrain_R by lra. rewrite wrap_lon_R by exact HL.
  set (la := clampR lat (-90) 90) in *. set (lo := wrapR lon) in *. clearbody la lo.
  destruct (index_R 9 la) as (i & Hi & Ri & Ei); [lia|change (IZR (10 * 9)) with 90; lra|]. destruct (index_R 18 lo) as (j & Hj & Rj & Ej); [lia|change (IZR (10 * 18)) with 180; lra|].
  cbn [sdiv smul RScalar]. unfold g_RES at 1 2 3 4. unfold g_MIN_LON, g_MAX_LON.
  change (IZR (- (10 * 9))) with (IZR (-90)) in Ei. change (IZR (10 * 9)) with (IZR 90) in Ei, Ri. change (IZR (- (10 * 18))) with (IZR (-180)) in Ej. change (IZR (10 * 18)) with (IZR 180) in Ej, Rj.
  rewrite Ei, Ej. cbn [obind fst snd].
  assert (S1 : forall (x : R) n hh, IZR n <= (x + IZR hh) / 10 <= IZR n + 1 -> sconstrain (((x - IZR (10 * n - hh)) / g_RES IZR)%scal) szero sone = (x + IZR hh) / 10 - IZR n).
  { intros x n hh R1. unfold szero, sone. cbn [slit RScalar]. rewrite sconstrain_R by lra. unfold g_RES. cbn [sdiv ssub RScalar]. rewrite minus_IZR, mult_IZR. replace ((x - (10 * IZR n - IZR hh)) / 10) with ((x + IZR hh) / 10 - IZR n) by field.
    unfold clampR. rewrite Rmin_right by lra. rewrite Rmax_right by lra. reflexivity. }
  assert (C1 : sconstrain (((la - IZR (10 * i - 10 * 9)) / g_RES IZR)%scal) szero sone = (la + 90) / 10 - IZR i) by (apply (S1 la i (10 * 9)%Z); exact Ri).
  assert (C2 : sconstrain (((lo - IZR (10 * j - 10 * 18)) / g_RES IZR)%scal) szero sone = (lo + 180) / 10 - IZR j) by (apply (S1 lo j (10 * 18)%Z); exact Rj).
  unfold g_RES in C1, C2 |- *. cbn [sdiv ssub smul RScalar] in C1, C2 |- *. rewrite C1, C2.
  assert (EN : forall a b, (0 <= a < 19)%Z -> (0 <= b < 37)%Z -> entry tab a b = Ok (nth (Z.to_nat b) (nth (Z.to_nat a) tab []) 0%Z)).
  { intros a b Ha Hb. unfold entry. rewrite (proj2 (Z.leb_le 0 a)), (proj2 (Z.ltb_lt a 19)), (proj2 (Z.leb_le 0 b)), (proj2 (Z.ltb_lt b 37)) by lia. reflexivity. }
  rewrite !EN by lia. cbn [obind]. f_equal. unfold bilin, bilinear. fold (tabR tab i j) (tabR tab i (j + 1)) (tabR tab (i + 1) (j + 1)) (tabR tab (i + 1) j).
  rewrite (lin_cell _ _ i Ri), !(lin_cell _ _ j Rj). cbn [sadd ssub smul RScalar]. ring.
Qed.

(** ** Binary32 *)
Lemma finite_nn (x : f32) : is_finite x = true -> is_nan x = false. Proof. destruct x; auto. Qed.
Lemma ffloor_not_nan a : is_nan a = false -> is_nan (ffloor a) = false.
Proof.
  intros N. destruct (Bnearbyint_correct 24 128 prec_emax mode_DN a) as (_ & H & _). destruct (is_finite a) eqn:F; [apply finite_nn; exact H|].
  destruct a; try discriminate. reflexivity.
Qed.
Lemma fdiv_not_nan a b : is_nan a = false -> is_finite b = true -> R32 b <> 0 -> is_nan (fdiv a b) = false.
Proof.
  intros Na Fb Hb. destruct (is_finite a) eqn:Fa.
  - pose proof (Bdiv_correct 24 128 prec24 prec_emax mode_NE a b Hb) as H. destruct (Rlt_bool _ _).
    + destruct H as (_ & H & _). apply finite_nn. unfold fdiv. rewrite H. exact Fa.
    + unfold fdiv. unfold binary_overflow, overflow_to_inf in H. destruct (Bdiv mode_NE a b); try reflexivity; cbn in H; try discriminate. 
  - destruct a as [?|s| |? ? ? ?]; try discriminate. destruct b as [?|?| |? ? ? ?]; try discriminate; [cbn in Hb; lra|]. reflexivity.
Qed.
Lemma sconstrain_F (v lo hi : f32) : is_nan v = false -> is_finite lo = true -> is_finite hi = true -> R32 lo <= R32 hi ->
  is_finite (sconstrain v lo hi) = true /\ R32 lo <= R32 (sconstrain v lo hi) <= R32 hi.
Proof.
  intros N Fl Fh L. unfold sconstrain. cbn [slt FScalar]. destruct v as [s|s| |s m e h]; try discriminate.
  - rewrite !flt_R by (assumption || reflexivity). case Rlt_bool_spec; intros; [split; [assumption|lra]|]. case Rlt_bool_spec; intros; [split; [assumption|lra]|]. split; [reflexivity|lra].
  - destruct s.
    + replace (flt (B754_infinity true) lo) with true; [split; [exact Fl|lra]|]. destruct lo; try discriminate; reflexivity.
    + replace (flt (B754_infinity false) lo) with false; [|destruct lo as [?|?| |[] ? ? ?]; try discriminate; reflexivity]. replace (flt hi (B754_infinity false)) with true; [split; [exact Fh|lra]|]. destruct hi as [?|?| |[] ? ? ?]; try discriminate; reflexivity.
  - rewrite !flt_R by (assumption || reflexivity). case Rlt_bool_spec; intros; [split; [assumption|lra]|]. case Rlt_bool_spec; intros; [split; [assumption|lra]|]. split; [reflexivity|lra].
Qed.
Lemma smallb (x : R) : Rabs x <= 1000000 -> Rabs x <= bpow radix2 127.
Proof. intros H. pose proof big127. lra. Qed.
Lemma fneg_R (a : f32) : R32 (fneg a) = - R32 a /\ is_finite (fneg a) = is_finite a.
Proof. split; [apply B2R_Bopp|apply is_finite_Bopp]. Qed.
Lemma index_F (h : Z) (val : f32) : (1 <= h <= 100)%Z -> is_nan val = false ->
  exists v n, lookup_index f_of_Z (f_to_uint 32) val (f_of_Z (- (10 * h))) (f_of_Z (10 * h)) = Ok (v, n) /\ (0 <= n < 2 * h)%Z /\ is_finite v = true.
Proof.
  intros Hh N. destruct (f_of_Z_exact (- (10 * h)) ltac:(lia)) as [E1 F1]. destruct (f_of_Z_exact (10 * h) ltac:(lia)) as [E2 F2]. destruct (f_of_Z_exact 10 ltac:(lia)) as [E3 F3].
  assert (D : R32 (fsub (f_of_Z (10 * h)) (f_of_Z 10)) = IZR (10 * h - 10) /\ is_finite (fsub (f_of_Z (10 * h)) (f_of_Z 10)) = true).
  { destruct (fsub_R (f_of_Z (10 * h)) (f_of_Z 10) F2 F3) as [A B].
    - rewrite E2, E3, <- minus_IZR, <- abs_IZR. pose proof big127. assert (IZR (Z.abs (10 * h - 10)) <= 1000000) by (apply IZR_le; lia). lra.
    - split; [|exact B]. rewrite A, E2, E3, <- minus_IZR. apply rnd32_Z. lia. }
  destruct D as [E4 F4]. unfold lookup_index, g_RES. cbn [ssub sadd sdiv sopp FScalar].
  destruct (sconstrain_F val (f_of_Z (- (10 * h))) (fsub (f_of_Z (10 * h)) (f_of_Z 10)) N F1 F4) as [FV RV]. { rewrite E1, E4. apply IZR_le. lia. }
  set (v := sconstrain val (f_of_Z (- (10 * h))) (fsub (f_of_Z (10 * h)) (f_of_Z 10))) in *. clearbody v. rewrite E1, E4 in RV.
  destruct (fneg_R (f_of_Z (- (10 * h)))) as [E5 F5]. rewrite F1 in F5. rewrite E1, opp_IZR, Ropp_involutive in E5. rewrite opp_IZR in RV. rewrite minus_IZR in RV.
  assert (HB : IZR (10 * h) <= 1000) by (apply IZR_le; lia). assert (HB0 : 10 <= IZR (10 * h)) by (apply IZR_le; lia).
  destruct (fadd_R (fneg (f_of_Z (- (10 * h)))) v F5 FV) as [E6 F6]. { apply smallb. rewrite E5. apply Rabs_le. lra. }
  assert (R6 : 0 <= R32 (fadd (fneg (f_of_Z (- (10 * h)))) v) <= IZR (20 * h - 10)).
  { rewrite E6, E5. split; [apply rnd32_ge0; lra|]. apply rnd32_le_Z; [lia|]. rewrite minus_IZR. replace (IZR (20 * h)) with (2 * IZR (10 * h)) by (rewrite !mult_IZR; ring). lra. }
  set (w := fadd (fneg (f_of_Z (- (10 * h)))) v) in *. clearbody w. rewrite minus_IZR, mult_IZR in R6. rewrite mult_IZR in HB, HB0.
  destruct (fdiv_R w (f_of_Z 10) F6) as [E7 F7]. { rewrite E3. lra. } { apply smallb. rewrite E3. apply Rabs_le. lra. }
  assert (R7 : 0 <= R32 (fdiv w (f_of_Z 10)) <= IZR (2 * h - 1)). { rewrite E7, E3. split; [apply rnd32_ge0; lra|]. apply rnd32_le_Z; [lia|]. rewrite minus_IZR, mult_IZR. lra. }
  rewrite f_to_uint_trunc by exact F7. set (q := R32 (fdiv w (f_of_Z 10))) in *. clearbody q.
  assert (T : (0 <= Ztrunc q <= 2 * h - 1)%Z). { split; [rewrite <- (Ztrunc_IZR 0); apply Ztrunc_le; lra|rewrite <- (Ztrunc_IZR (2 * h - 1)); apply Ztrunc_le; lra]. }
  rewrite (proj2 (Z.leb_le 0 (Ztrunc q))), (proj2 (Z.ltb_lt (Ztrunc q) (2 ^ 32))) by lia. cbn [andb obind]. exists v, (Ztrunc q). split; [reflexivity|]. split; [lia|exact FV].
Qed.
Lemma fadd_not_nan_r a b : is_nan a = false -> is_finite b = true -> is_nan (fadd a b) = false.
Proof.
  intros Na Fb. destruct (is_finite a) eqn:Fa; [apply fadd_not_nan; [exact Fa|apply finite_nn; exact Fb]|].
  destruct a; try discriminate. destruct b; try discriminate; reflexivity.
Qed.
Lemma fmul_not_nan_r a b : is_nan a = false -> is_finite b = true -> R32 b <> 0 -> is_nan (fmul a b) = false.
Proof.
  intros Na Fb Zb. destruct (is_finite a) eqn:Fa.
  - pose proof (Bmult_correct 24 128 prec24 prec_emax mode_NE a b) as H. change (Bmult mode_NE a b) with (fmul a b) in H. destruct (Rlt_bool _ _) in H.
    + destruct H as (_ & F & _). rewrite Fa, Fb in F. apply finite_nn. exact F.
    + exact (overflow_not_nan _ _ H).
  - destruct a; try discriminate. destruct b; try discriminate; [cbn in Zb; lra|reflexivity].
Qed.
Lemma unit_scale (x : f32) : is_nan x = false -> is_finite (sconstrain x szero sone) = true /\ 0 <= R32 (sconstrain x szero sone) <= 1.
Proof.
  intros N. assert (Z0 : (szero : f32) = f0) by (vm_compute; reflexivity). unfold sone. cbn [slit FScalar]. rewrite Z0.
  destruct (flit_R 1 1 ltac:(lia) ltac:(lia)) as [E F]. replace (1 / 1) with (IZR 1) in E by field. rewrite rnd32_Z in E by lia.
  destruct (sconstrain_F x f0 (flit 1 1) N eq_refl F) as [A B]; [rewrite E; cbn; lra|]. rewrite E in B. cbn [B2R f0] in B. auto.
Qed.
Lemma cell_F (lat lon : f32) : is_nan lat = false -> is_nan lon = false ->
  exists i j la lo, cell ffloor f_of_Z (f_to_uint 32) lat lon = Ok (i, j, la, lo) /\ (0 <= i < 18)%Z /\ (0 <= j < 36)%Z /\
    is_finite la = true /\ 0 <= R32 la <= 1 /\ is_finite lo = true /\ 0 <= R32 lo <= 1.
Proof.
  intros N1 N2. destruct (f_of_Z_exact 10 ltac:(lia)) as [E3 F3]. destruct (f_of_Z_exact 360 ltac:(lia)) as [E4 F4].
  destruct (f_of_Z_exact (-90) ltac:(lia)) as [E5 F5]. destruct (f_of_Z_exact 90 ltac:(lia)) as [E6 F6].
  unfold cell. cbv zeta. set (a := sconstrain lat (g_MIN_LAT f_of_Z) (g_MAX_LAT f_of_Z)). set (o := wrap_lon f_of_Z lon).
  assert (Na : is_nan a = false). { apply finite_nn. apply sconstrain_F; try assumption. unfold g_MIN_LAT, g_MAX_LAT. rewrite E5, E6. lra. }
  assert (No : is_nan o = false). { unfold o, wrap_lon. cbn [slt ssub sadd FScalar]. match goal with |- context [if flt ?l ?m then fadd ?l ?x else ?l] => assert (Nl : is_nan l = false) end.
    { destruct (flt _ lon); [apply fsub_not_nan; [exact N2|exact F4]|exact N2]. }
    match goal with |- context [if flt ?l ?m then fadd ?l ?x else ?l] => destruct (flt l m) end; [apply fadd_not_nan_r; [exact Nl|exact F4]|exact Nl]. }
  assert (NV : forall x : f32, is_nan x = false -> is_nan (smul (ffloor (sdiv x (g_RES f_of_Z))) (g_RES f_of_Z)) = false).
  { intros x Nx. cbn [smul sdiv FScalar]. unfold g_RES. apply fmul_not_nan_r; [apply ffloor_not_nan, fdiv_not_nan; [exact Nx|exact F3|rewrite E3; lra]|exact F3|rewrite E3; lra]. }
  assert (ND : forall x v : f32, is_nan x = false -> is_finite v = true -> is_nan (sdiv (ssub x v) (g_RES f_of_Z)) = false).
  { intros x v Nx Fv. cbn [ssub sdiv FScalar]. unfold g_RES. apply fdiv_not_nan; [apply fsub_not_nan; assumption|exact F3|rewrite E3; lra]. }
  clearbody a o.
  destruct (index_F 9 _ ltac:(lia) (NV a Na)) as (v1 & i & X9 & Hi & Fv1). destruct (index_F 18 _ ltac:(lia) (NV o No)) as (v2 & j & X & Hj & Fv2).
  change (f_of_Z (- (10 * 18))) with (g_MIN_LON f_of_Z) in X. change (f_of_Z (10 * 18)) with (g_MAX_LON f_of_Z) in X. 
  change (f_of_Z (- (10 * 9))) with (g_MIN_LAT f_of_Z) in X9. change (f_of_Z (10 * 9)) with (g_MAX_LAT f_of_Z) in X9. rewrite X9.
  cbn [obind fst snd]. rewrite X. cbn [obind fst snd].
  destruct (unit_scale _ (ND a v1 Na Fv1)) as [U1 U2]. destruct (unit_scale _ (ND o v2 No Fv2)) as [W1 W2].
  do 4 eexists. split; [reflexivity|]. split; [lia|]. split; [lia|]. repeat (split; [assumption|]). assumption.
Qed.

(** interpolation of exact integers stays between them *)
Lemma rnd_between (x : R) a b : (- 2 ^ 24 <= a <= 2 ^ 24)%Z -> (- 2 ^ 24 <= b <= 2 ^ 24)%Z -> IZR a <= x <= IZR b -> IZR a <= rnd32 x <= IZR b.
Proof. intros Ha Hb H. split; [apply rnd32_ge_Z; [exact Ha|lra]|apply rnd32_le_Z; [exact Hb|lra]]. Qed.
Definition int16 (a : Z) : Prop := (-32768 <= a <= 32767)%Z.
Lemma edge_F (a b : Z) (s : f32) : int16 a -> int16 b -> is_finite s = true -> 0 <= R32 s <= 1 ->
  let q := fadd (fmul s (fsub (f_of_Z b) (f_of_Z a))) (f_of_Z a) in
  is_finite q = true /\ IZR (Z.min a b) <= R32 q <= IZR (Z.max a b).
Proof.
  intros Ha Hb Fs Hs q. unfold int16 in *. destruct (f_of_Z_exact a ltac:(lia)) as [Ea Fa]. destruct (f_of_Z_exact b ltac:(lia)) as [Eb Fb].
  destruct (fsub_R (f_of_Z b) (f_of_Z a) Fb Fa) as [E1 F1]. { apply smallb. rewrite Ea, Eb, <- minus_IZR, <- abs_IZR. apply IZR_le. lia. }
  rewrite Ea, Eb, <- minus_IZR, rnd32_Z in E1 by lia.
  assert (SD : IZR (Z.min 0 (b - a)) <= R32 s * IZR (b - a) <= IZR (Z.max 0 (b - a))).
  { destruct (Z.le_gt_cases 0 (b - a)) as [G|G].
    - rewrite Z.min_l, Z.max_r by lia. apply IZR_le in G. nra.
    - rewrite Z.min_r, Z.max_l by lia. apply IZR_lt in G. nra. }
  assert (B1 : IZR (Z.max 0 (b - a)) <= 70000) by (apply IZR_le; lia). assert (B2 : -70000 <= IZR (Z.min 0 (b - a))) by (apply IZR_le; lia).
  destruct (fmul_R s (fsub (f_of_Z b) (f_of_Z a)) Fs F1) as [E2 F2]. { apply smallb. rewrite E1. apply Rabs_le. lra. }
  rewrite E1 in E2. pose proof (rnd_between _ (Z.min 0 (b - a)) (Z.max 0 (b - a)) ltac:(lia) ltac:(lia) SD) as R2. rewrite <- E2 in R2.
  assert (S3 : IZR (Z.min a b) <= R32 (fmul s (fsub (f_of_Z b) (f_of_Z a))) + IZR a <= IZR (Z.max a b)).
  { assert (X1 : IZR (Z.min a b) = IZR (Z.min 0 (b - a)) + IZR a) by (rewrite <- plus_IZR; f_equal; lia). assert (X2 : IZR (Z.max a b) = IZR (Z.max 0 (b - a)) + IZR a) by (rewrite <- plus_IZR; f_equal; lia). lra. }
  assert (B3 : IZR (Z.max a b) <= 70000) by (apply IZR_le; lia). assert (B4 : -70000 <= IZR (Z.min a b)) by (apply IZR_le; lia).
  destruct (fadd_R (fmul s (fsub (f_of_Z b) (f_of_Z a))) (f_of_Z a) F2 Fa) as [E3 F3]. { apply smallb. rewrite Ea. apply Rabs_le. lra. }
  rewrite Ea in E3. split; [exact F3|]. unfold q. rewrite E3. apply (rnd_between _); [lia|lia|exact S3].
Qed.
(** multiples of 2^-8 up to 2^16 are representable *)
Lemma rnd32_256 n : (- 2 ^ 24 < n < 2 ^ 24)%Z -> rnd32 (IZR n / 256) = IZR n / 256.
Proof.
  intros H. apply round_generic; [exact vrnd|]. rewrite fexp32. apply generic_format_FLT. exists (Float radix2 n (-8)).
  - unfold F2R. cbn [Fnum Fexp]. change (bpow radix2 (-8)) with (/ 256). reflexivity.
  - cbn [Fnum]. change (Zpower radix2 24) with (2 ^ 24)%Z. lia.
  - cbn [Fexp]. lia.
Qed.
Lemma bilinear_F (sw se ne nw a b : Z) (la lo : f32) : (forall x, In x [sw; se; ne; nw] -> (a <= x <= b)%Z /\ int16 x) -> int16 a -> int16 b ->
  is_finite la = true -> 0 <= R32 la <= 1 -> is_finite lo = true -> 0 <= R32 lo <= 1 ->
  let r := bilinear (f_of_Z sw) (f_of_Z se) (f_of_Z ne) (f_of_Z nw) la lo in
  is_finite r = true /\ IZR a - / 256 <= R32 r <= IZR b + / 256.
Proof.
  intros HC HA HB Fla Rla Flo Rlo r. unfold r, bilinear. cbn [sadd ssub smul FScalar].
  destruct (HC sw ltac:(cbn; auto)) as [C1 I1]. destruct (HC se ltac:(cbn; auto)) as [C2 I2]. destruct (HC ne ltac:(cbn; auto)) as [C3 I3]. destruct (HC nw ltac:(cbn; auto)) as [C4 I4].
  destruct (edge_F sw se lo I1 I2 Flo Rlo) as [F1 R1]. destruct (edge_F nw ne lo I4 I3 Flo Rlo) as [F2 R2]. cbv zeta in *.
  set (m := fadd (fmul lo (fsub (f_of_Z se) (f_of_Z sw))) (f_of_Z sw)) in *. set (M := fadd (fmul lo (fsub (f_of_Z ne) (f_of_Z nw))) (f_of_Z nw)) in *. clearbody m M.
  assert (Am : IZR a <= R32 m <= IZR b). { assert (IZR a <= IZR (Z.min sw se)) by (apply IZR_le; lia). assert (IZR (Z.max sw se) <= IZR b) by (apply IZR_le; lia). lra. }
  assert (AM : IZR a <= R32 M <= IZR b). { assert (IZR a <= IZR (Z.min nw ne)) by (apply IZR_le; lia). assert (IZR (Z.max nw ne) <= IZR b) by (apply IZR_le; lia). lra. }
  unfold int16 in HA, HB. assert (BA : -32768 <= IZR a) by (apply IZR_le; lia). assert (BB : IZR b <= 32767) by (apply IZR_le; lia).
  destruct (fsub_R M m F2 F1) as [E3 F3]. { apply smallb. apply Rabs_le. lra. }
  pose proof (rnd32_error (R32 M - R32 m)) as ER. rewrite <- E3 in ER. rewrite two24 in ER. pose proof small150 as S150.
  set (D := R32 (fsub M m)) in *. set (d := R32 M - R32 m) in *.
  assert (Rd : Rabs d <= 65535) by (apply Rabs_le; unfold d; lra).
  assert (ED : Rabs (D - d) <= / 256) by lra. apply Rabs_le_inv in ED.
  assert (BD : Rabs D <= 65536). { apply Rabs_le. apply Rabs_le_inv in Rd. lra. } apply Rabs_le_inv in BD.
  assert (LD : Rmin 0 D <= R32 la * D <= Rmax 0 D). { unfold Rmin, Rmax. destruct (Rle_dec 0 D); nra. }
  assert (FD : rnd32 D = D) by (apply round_generic; [exact vrnd|apply generic_format_B2R]).
  destruct (fmul_R la (fsub M m) Fla F3) as [E4 F4]. { apply smallb. fold D. apply Rabs_le. unfold Rmin, Rmax in LD. destruct (Rle_dec 0 D); lra. } fold D in E4.
  assert (R4 : Rmin 0 D <= R32 (fmul la (fsub M m)) <= Rmax 0 D).
  { rewrite E4. assert (G1 : rnd32 (Rmin 0 D) = Rmin 0 D) by (unfold Rmin; destruct (Rle_dec 0 D); [apply rnd32_0|exact FD]).
    assert (G2 : rnd32 (Rmax 0 D) = Rmax 0 D) by (unfold Rmax; destruct (Rle_dec 0 D); [exact FD|apply rnd32_0]).
    rewrite <- G1, <- G2. split; apply rnd32_le; apply LD. }
  set (p := R32 (fmul la (fsub M m))) in *.
  assert (S5 : IZR a - / 256 <= p + R32 m <= IZR b + / 256). { unfold d in ED. unfold Rmin, Rmax in R4. destruct (Rle_dec 0 D); lra. }
  destruct (fadd_R (fmul la (fsub M m)) m F4 F1) as [E5 F5]. { apply smallb. fold p. apply Rabs_le. lra. }
  split; [exact F5|]. rewrite E5. fold p.
  replace (IZR a - / 256) with (IZR (256 * a - 1) / 256) in * by (rewrite minus_IZR, mult_IZR; field).
  replace (IZR b + / 256) with (IZR (256 * b + 1) / 256) in * by (rewrite plus_IZR, mult_IZR; field).
  rewrite <- (rnd32_256 (256 * a - 1)), <- (rnd32_256 (256 * b + 1)) by lia. split; apply rnd32_le; lra.
Qed.

(** ** Accuracy of the binary32 lookup against the exact interpolation *)
Lemma ffloor_R (a : f32) : is_finite a = true -> R32 (ffloor a) = IZR (Zfloor (R32 a)) /\ is_finite (ffloor a) = true.
Proof.
  intros F. destruct (Bnearbyint_correct 24 128 prec_emax mode_DN a) as (A & B & _). split; [|unfold ffloor; rewrite B; exact F].
  unfold ffloor. rewrite A. unfold round, scaled_mantissa, cexp, FIX_exp, F2R. cbn [Fnum Fexp round_mode]. cbn [Z.opp bpow]. rewrite !Rmult_1_r. reflexivity.
Qed.
Lemma err18 (x : R) : Rabs x <= 1000 -> Rabs (rnd32 x - x) <= 61 / 1000000.
Proof. intros H. pose proof (rnd32_error x) as E. rewrite two24 in E. pose proof small150. lra. Qed.
Lemma err20 (x : R) : Rabs x <= 40 -> Rabs (rnd32 x - x) <= 3 / 1000000.
Proof. intros H. pose proof (rnd32_error x) as E. rewrite two24 in E. pose proof small150. lra. Qed.
Lemma axis_F (h : Z) (x : f32) : (1 <= h <= 18)%Z -> is_finite x = true -> - IZR (10 * h) <= R32 x <= IZR (10 * h) ->
  exists (v : f32) n, lookup_index f_of_Z (f_to_uint 32) (smul (ffloor (sdiv x (g_RES f_of_Z))) (g_RES f_of_Z)) (f_of_Z (- (10 * h))) (f_of_Z (10 * h)) = Ok (v, n) /\ (0 <= n < 2 * h)%Z /\ is_finite v = true /\
    let s := sconstrain (sdiv (ssub x v) (g_RES f_of_Z)) szero sone in
    is_finite s = true /\ 0 <= R32 s <= 1 /\ Rabs (10 * R32 s + IZR (10 * n - 10 * h) - R32 x) <= 2 / 10000.
Proof.
  intros Hh Fx Hx. destruct (f_of_Z_exact (- (10 * h)) ltac:(lia)) as [E1 F1]. destruct (f_of_Z_exact (10 * h) ltac:(lia)) as [E2 F2]. destruct (f_of_Z_exact 10 ltac:(lia)) as [E3 F3].
  assert (HB : IZR h <= 18) by (apply IZR_le; lia). assert (HB0 : 1 <= IZR h) by (apply IZR_le; lia).
  rewrite mult_IZR in Hx. unfold g_RES. cbn [smul sdiv ssub FScalar].
  destruct (fdiv_R x (f_of_Z 10) Fx) as [Eq Fq]. { rewrite E3. lra. } { apply smallb. rewrite E3. apply Rabs_le. lra. }
  rewrite E3 in Eq. set (q := fdiv x (f_of_Z 10)) in *. clearbody q.
  assert (Rq : - IZR h <= R32 q <= IZR h). { rewrite Eq. split; [rewrite <- opp_IZR; apply rnd32_ge_Z; [lia|rewrite opp_IZR; lra]|apply rnd32_le_Z; [lia|lra]]. }
  assert (Qe : Rabs (R32 q - R32 x / 10) <= 3 / 1000000). { rewrite Eq. apply err20. apply Rabs_le. lra. } apply Rabs_le_inv in Qe.
  destruct (ffloor_R q Fq) as [Ef Ff]. set (f := Zfloor (R32 q)) in *. pose proof (Zfloor_lb (R32 q)) as L1. pose proof (Zfloor_ub (R32 q)) as L2. fold f in L1, L2.
  assert (B1 : (- h <= f)%Z) by (apply Zfloor_lub; rewrite opp_IZR; lra). assert (B2 : (f <= h)%Z) by (apply le_IZR; lra).
  destruct (fmul_R (ffloor q) (f_of_Z 10) Ff F3) as [Em Fm]. { apply smallb. rewrite Ef, E3, <- mult_IZR, <- abs_IZR. apply IZR_le. lia. }
  rewrite Ef, E3, <- mult_IZR, rnd32_Z in Em by lia. set (m := fmul (ffloor q) (f_of_Z 10)) in *. clearbody m. clearbody f.
  destruct (fsub_R (f_of_Z (10 * h)) (f_of_Z 10) F2 F3) as [E4 F4]. { rewrite E2, E3, <- minus_IZR. apply smallb. rewrite <- abs_IZR. apply IZR_le. lia. }
  rewrite E2, E3, <- minus_IZR, rnd32_Z in E4 by lia.
  unfold lookup_index, g_RES. cbn [ssub sadd sdiv sopp FScalar].
  set (n := Z.min (f + h) (2 * h - 1)).
  assert (V : let v := sconstrain m (f_of_Z (- (10 * h))) (fsub (f_of_Z (10 * h)) (f_of_Z 10)) in is_finite v = true /\ R32 v = IZR (10 * n - 10 * h)).
  { cbv zeta. unfold sconstrain. cbn [slt FScalar]. rewrite !flt_R by assumption. rewrite E1, E4, Em. case Rlt_bool_spec; intros G; [apply lt_IZR in G; lia|].
    case Rlt_bool_spec; intros G2; [apply lt_IZR in G2|apply le_IZR in G2]; (split; [assumption|]); [rewrite E4|rewrite Em]; f_equal; unfold n; lia. }
  cbv zeta in V. destruct V as [FV RV]. set (v := sconstrain m (f_of_Z (- (10 * h))) (fsub (f_of_Z (10 * h)) (f_of_Z 10))) in *. clearbody v.
  destruct (fneg_R (f_of_Z (- (10 * h)))) as [E5 F5]. rewrite F1 in F5. rewrite E1, opp_IZR, Ropp_involutive in E5.
  destruct (fadd_R (fneg (f_of_Z (- (10 * h)))) v F5 FV) as [E6 F6]. { apply smallb. rewrite E5, RV, <- plus_IZR, <- abs_IZR. apply IZR_le. lia. }
  rewrite E5, RV, <- plus_IZR, rnd32_Z in E6 by lia. set (w := fadd (fneg (f_of_Z (- (10 * h)))) v) in *. clearbody w. replace (10 * h + (10 * n - 10 * h))%Z with (n * 10)%Z in E6 by lia. rewrite mult_IZR in E6.
  destruct (fdiv_R w (f_of_Z 10) F6) as [E7 F7]. { rewrite E3. lra. } { apply smallb. rewrite E3, E6. replace (IZR n * 10 / 10) with (IZR n) by field. rewrite <- abs_IZR. apply IZR_le. lia. }
  rewrite E3, E6 in E7. replace (IZR n * 10 / 10) with (IZR n) in E7 by field. rewrite rnd32_Z in E7 by lia.
  assert (Nn : (0 <= n < 2 * h)%Z) by (unfold n; lia).
  rewrite f_to_uint_trunc by exact F7. rewrite E7, Ztrunc_IZR. rewrite (proj2 (Z.leb_le 0 n)), (proj2 (Z.ltb_lt n (2 ^ 32))) by lia. cbn [andb obind].
  exists v, n. split; [reflexivity|]. split; [exact Nn|]. split; [exact FV|]. cbv zeta.
  assert (XV : - (4 / 100000) <= R32 x - R32 v <= 10 + 4 / 100000).
  { rewrite RV. rewrite minus_IZR, !mult_IZR. unfold n. destruct (Z.leb_spec f (h - 1)) as [G|G].
    - rewrite Z.min_l by lia. rewrite plus_IZR. lra.
    - assert (f = h) by lia. subst f. rewrite Z.min_r by lia. rewrite minus_IZR, mult_IZR. lra. }
  destruct (fsub_R x v Fx FV) as [E8 F8]. { apply smallb. apply Rabs_le. lra. }
  assert (D8 : Rabs (R32 (fsub x v) - (R32 x - R32 v)) <= 3 / 1000000) by (rewrite E8; apply err20; apply Rabs_le; lra). apply Rabs_le_inv in D8. set (y := fsub x v) in *. clearbody y.
  destruct (fdiv_R y (f_of_Z 10) F8) as [E9 F9]. { rewrite E3. lra. } { apply smallb. rewrite E3. apply Rabs_le. lra. } rewrite E3 in E9.
  assert (D9 : Rabs (R32 (fdiv y (f_of_Z 10)) - R32 y / 10) <= 3 / 1000000) by (rewrite E9; apply err20; apply Rabs_le; lra). apply Rabs_le_inv in D9. set (z := fdiv y (f_of_Z 10)) in *. clearbody z.
  destruct (unit_scale z (finite_nn _ F9)) as [U1 U2]. split; [exact U1|]. split; [exact U2|].
  rewrite <- RV. assert (C : R32 (sconstrain z szero sone) = clampR (R32 z) 0 1).
  { assert (Z0 : (szero : f32) = f0) by (vm_compute; reflexivity). unfold sone in *. cbn [slit FScalar] in *. rewrite Z0 in *.
    destruct (flit_R 1 1 ltac:(lia) ltac:(lia)) as [Eo Fo]. replace (1 / 1) with (IZR 1) in Eo by field. rewrite rnd32_Z in Eo by lia.
    unfold sconstrain, clampR. cbn [slt FScalar]. rewrite !flt_R by (assumption || reflexivity). rewrite Eo. change (R32 f0) with 0.
    unfold Rmin, Rmax. case Rlt_bool_spec; intros; [|case Rlt_bool_spec; intros]; destruct (Rle_dec 1 (R32 z)); destruct (Rle_dec 0 _); cbn [B2R f0] in *; try rewrite Eo in *; lra. }
  rewrite C. apply Rabs_le. unfold clampR, Rmin, Rmax. destruct (Rle_dec 1 (R32 z)); destruct (Rle_dec 0 _); lra.
Qed.

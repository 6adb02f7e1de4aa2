(** * C93: the place of the origin does not matter *)
From Coq Require Import Reals Lra Lia List ZArith Bool FunctionalExtensionality.
From Verif Require Import CBase Scalar CovPredGen RealGeom RotModel GeoModel CovModel CovQuat CovQuat2 FusionGen FusionModel FusionSpec OutputModel NanModel VelPosModel ObsModel
  TerrainModel HeadingModel EngineModel EngineShift EngineShift2.
Import ListNotations.
Open Scope R_scope.

(** ** Specification *)
(** the estimator of a vehicle in the same situation, when all positions are counted from an origin displaced by -d: its
    position states are larger by d, its terrain height (down) by the vertical part of d, and the position the vision
    odometry remembers by d; everything else is the same *)
Definition seen (d : Vec R) (s : engine) : engine :=
  Eng (mfus d (n_f s)) (mvp d (n_v s)) (mpred d (n_g s)) (mter d (n_t s))
    (EvMem (e_avail (n_e s)) (e_meas (n_e s)) (fun j => if (j <? 3)%nat then e_pred (n_e s) j + d j else e_pred (n_e s) j) (e_innov (n_e s))) (n_yaw s).
(** the same operation with its absolute positions and heights (down) larger by d *)
Definition told (d : Vec R) (e : event) : event :=
  match e with
  | EGps o pn na vn pg vg off g => EGps o pn na vn pg vg off (GpsS (s_vel g) (fun k => s_pos g k + d k) (s_hgt g) (s_hacc g) (s_vacc g) (s_sacc g))
  | EHeight src p i => EHeight src p (HgtIn (h_baro i) (h_boff i + d 2%nat) (h_gps i) (h_vacc i) (h_ref i) (h_off i + d 2%nat) (h_dist i) (h_ev i + d 2%nat) (h_evvar i) (h_gnd i))
  | EPosition b pos g v0 v1 => EPosition b (fun k => pos k + d k) g v0 v1
  | ESetPosition n e var => ESetPosition (n + d 0%nat) (e + d 1%nat) var
  | ESetHeight z var => ESetHeight (z + d 2%nat) var
  | other => other
  end.
(** the position states stay away from their limit of 10^6 m *)
Definition far_from_limit (k : rcfg) (l : list event) (s : engine) : Prop :=
  forall l1 l2, l = l1 ++ l2 -> forall j, (j < 3)%nat -> Rabs (state (run k l1 s) (7 + j)%nat) < 1000000.
(** no operation makes the terrain estimator start from an optical flow sample alone *)
Definition no_flow_start (k : rcfg) (l : list event) (s : engine) : Prop :=
  forall l1 l2 p i, l = l1 ++ ETerrain p i :: l2 -> let t := n_t (run k l1 s) in
    h_init t = true \/ t_air i = false \/ (p_use_rng p = true /\ t_healthy i = true) \/ p_use_flow p = false \/ t_flow_ready i = false.

(** ** One step *)
Lemma vview_seen d s : vview (seen d s) = mvp d (vview s). Proof. reflexivity. Qed.
Lemma putV_seen d v s : putV (mvp d v) (seen d s) = seen d (putV v s). Proof. reflexivity. Qed.
Lemma putF_seen d f s : putF (mfus d f) (seen d s) = seen d (putF f s). Proof. reflexivity. Qed.
Lemma set3_moved d w x : (fun i => if inb 4 3 i then w (i - 4)%nat else moved d x i) = moved d (fun i => if inb 4 3 i then w (i - 4)%nat else x i).
Proof. apply (upd_moved d (fun i => inb 4 3 i) (fun i => w (i - 4)%nat) x). intros i H. unfold inb in *. rewrite andb_true_iff, Nat.leb_le, Nat.ltb_lt in H. apply andb_false_iff. right. apply Nat.ltb_ge. lia. Qed.
Ltac idx H := unfold inb in H; rewrite andb_true_iff, Nat.leb_le, Nat.ltb_lt in H.

#[local] Opaque fuseAirspeed fuseSideslip fuseDrag fuseOptFlow fuseMag fuseDeclination fuseGpsYaw headingFusion gpsFuse hgtFuse fuseHorizontalVelocity fuseVerticalVelocity
  fuseHorizontalPosition runTerrain predictG predictCovariance.
Lemma step_seen k d e s : (inside (state (step k e s)) /\ inside (state (step k (told d e) (seen d s)))) ->
  (forall p i, e = ETerrain p i -> d 2%nat = 0 \/ flow_start p (tview i s) (n_t s) = false) ->
  step k (told d e) (seen d s) = seen d (step k e s).
Proof.
  intros I Hf. destruct e; cbn [told].
  - (* predict *)
    destruct I as [I1 I2]. cbn [told] in I2. unfold step in I1, I2 |- *. cbv zeta in I1, I2 |- *.
    change (gview (seen d s)) with (mpred d (gview s)) in *.
    match type of I1 with inside (state ?a) => change (state a) with (g_x (predictG sin cos (20 * PI / 180) acc_lim earth i (gview s))) in I1 end.
    match type of I2 with inside (state ?a) => change (state a) with (g_x (predictG sin cos (20 * PI / 180) acc_lim earth i (mpred d (gview s)))) in I2 end.
    rewrite (predict_moved _ _ _ _ _ _ I1 I2). set (g := predictG _ _ _ _ _ _ _).
    change (imuCtx t i (mpred d g)) with (mctx d (imuCtx t i g)). change (fs (n_f (seen d s))) with (fs (n_f s)). rewrite predictCov_moved. reflexivity.
  - unfold step. cbv zeta. change (n_f (seen d s)) with (mfus d (n_f s)). rewrite airspeed_moved by (intros; apply windReset_moved). reflexivity.
  - unfold step. cbv zeta. change (n_f (seen d s)) with (mfus d (n_f s)). rewrite sideslip_moved by (intros; apply windReset_moved). reflexivity.
  - unfold step. cbv zeta. change (n_f (seen d s)) with (mfus d (n_f s)). rewrite drag_moved. reflexivity.
  - unfold step. cbv zeta. change (n_f (seen d s)) with (mfus d (n_f s)). change (h_vpos (n_t (seen d s))) with (h_vpos (n_t s) + d 2%nat). change (Re (seen d s)) with (Re s). rewrite flow_moved. reflexivity.
  - unfold step. cbv zeta. change (n_f (seen d s)) with (mfus d (n_f s)). rewrite mag_moved. reflexivity.
  - unfold step. cbv zeta. change (n_f (seen d s)) with (mfus d (n_f s)). rewrite decl_moved. reflexivity.
  - unfold step. cbv zeta. change (n_f (seen d s)) with (mfus d (n_f s)). change (Re (seen d s)) with (Re s). rewrite gpsYaw_moved. reflexivity.
  - unfold step. cbv zeta. change (n_f (seen d s)) with (mfus d (n_f s)). change (n_yaw (seen d s)) with (n_yaw s). rewrite heading_moved.
    destruct (headingFusion _ _ _ _ _ _) as [f' y]. reflexivity.
  - unfold step. cbv zeta. rewrite vview_seen. change (Re (seen d s)) with (Re s). change (g_rate (n_g (seen d s))) with (g_rate (n_g s)).
    pose proof (gps_moved other pos_noise noaid vel_noise pos_gate vel_gate (Re s) (g_rate (n_g s)) off g d (vview s)) as E. unfold mgps in E.
    destruct (gpsFuse _ _ _ _ _ _ _ _ _ _ (GpsS _ _ _ _ _ _) _) as [[a o] b]. destruct (gpsFuse _ _ _ _ _ _ _ _ _ _ g _) as [[a' o'] b']. cbn [fst snd] in E. rewrite E. apply putV_seen.
  - unfold step. cbv zeta. rewrite vview_seen. pose proof (hgt_moved src p i d (vview s)) as E. unfold mhgt in E. rewrite E. apply putV_seen.
  - unfold step. cbv zeta. rewrite vview_seen. change (state (seen d s)) with (moved d (state s)).
    change (moved d (state s) 4%nat) with (state s 4%nat). change (moved d (state s) 5%nat) with (state s 5%nat). change (moved d (state s) 6%nat) with (state s 6%nat).
    rewrite hvel_moved. cbn [mres r_v]. rewrite vvel_moved. destruct vertical; apply putV_seen.
  - unfold step. cbv zeta. rewrite vview_seen. change (state (seen d s)) with (moved d (state s)).
    change (moved d (state s) 7%nat) with (state s 7%nat + d 0%nat). change (moved d (state s) 8%nat) with (state s 8%nat + d 1%nat).
    replace (state s 7%nat + d 0%nat - (pos 0%nat + d 0%nat)) with (state s 7%nat - pos 0%nat) by ring.
    replace (state s 8%nat + d 1%nat - (pos 1%nat + d 1%nat)) with (state s 8%nat - pos 1%nat) by ring. rewrite hpos_moved. apply putV_seen.
  - (* vision odometry *)
    unfold step. cbv zeta. rewrite vview_seen. change (n_f (seen d s)) with (mfus d (n_f s)).
    assert (E' : evOdomObs E s0 (n_e (seen d s)) (fun j => state (seen d s) (7 + j)%nat) =
      let '(i, o, e') := evOdomObs E s0 (n_e s) (fun j => state s (7 + j)%nat) in
      (i, o, EvMem (e_avail e') (e_meas e') (fun j => if (j <? 3)%nat then e_pred e' j + d j else e_pred e' j) (e_innov e'))).
    { unfold evOdomObs. change (e_avail (n_e (seen d s))) with (e_avail (n_e s)). change (e_meas (n_e (seen d s))) with (e_meas (n_e s)).
      change (e_pred (n_e (seen d s))) with (fun j => if (j <? 3)%nat then e_pred (n_e s) j + d j else e_pred (n_e s) j). change (e_innov (n_e (seen d s))) with (e_innov (n_e s)).
      assert (P : (fun j => state (seen d s) (7 + j)%nat) = (fun j => if (j <? 3)%nat then state s (7 + j)%nat + d j else state s (7 + j)%nat)).
      { apply functional_extensionality. intros j. change (state (seen d s) (7 + j)%nat) with (moved d (state s) (7 + j)%nat). unfold moved, inb.
        replace (7 <=? 7 + j)%nat with true by (symmetry; apply Nat.leb_le; lia). replace (7 + j <? 7 + 3)%nat with (j <? 3)%nat by (apply eq_true_iff_eq; rewrite !Nat.ltb_lt; lia). replace (7 + j - 7)%nat with j by lia. reflexivity. }
      rewrite P. destruct (e_avail (n_e s)); [|reflexivity]. cbv zeta.
      match goal with |- (?a, _, EvMem _ _ _ ?a) = (?b, _, EvMem _ _ _ ?b') => assert (AB : a = b); [|rewrite AB; reflexivity] end.
      apply functional_extensionality. intros j. pose proof (equal_f P j) as Pj. cbv beta in Pj. rewrite Pj. cbn [ssub RScalar]. destruct (j <? 3)%nat; [|reflexivity]. ring. }
    rewrite E'. destruct (evOdomObs E s0 (n_e s) _) as [[i o] e']. cbn [fst snd].
    change (setOdom true (mvp d (vview s))) with (mvp d (setOdom true (vview s))). rewrite hpos_moved. reflexivity.
  - unfold step. cbv zeta. pose proof (terrain_moved p (tview i s) d (n_t s) (Hf p i eq_refl)) as E.
    change (tview i (seen d s)) with (mtin d (tview i s)). change (n_t (seen d s)) with (mter d (n_t s)). rewrite E. reflexivity.
  - unfold step. cbv zeta. change (state (seen d s)) with (moved d (state s)). rewrite set3_moved. reflexivity.
  - unfold step. cbv zeta. change (state (seen d s)) with (moved d (state s)).
    match goal with |- putF (setM ?M (setX ?a ?f)) _ = seen d (putF (setM _ (setX ?b _)) _) => assert (E : a = moved d b); [|rewrite E; reflexivity] end.
    apply functional_extensionality. intros j. unfold moved. destruct (Nat.eqb_spec j 7); [subst; reflexivity|]. destruct (Nat.eqb_spec j 8); [subst; reflexivity|]. reflexivity.
  - unfold step. cbv zeta. change (state (seen d s)) with (moved d (state s)).
    match goal with |- putF (setM ?M (setX ?a ?f)) _ = seen d (putF (setM _ (setX ?b _)) _) => assert (E : a = moved d b); [|rewrite E; reflexivity] end.
    apply functional_extensionality. intros j. unfold moved. destruct (Nat.eqb_spec j 9); [subst; reflexivity|]. reflexivity.
  - (* yaw *)
    unfold step. cbv zeta. change (state (seen d s)) with (moved d (state s)).
    assert (E : yawResetG sin cos asin atan2 (PI / 2) yaw (moved d (state s)) = moved d (yawResetG sin cos asin atan2 (PI / 2) yaw (state s))).
    { apply functional_extensionality. intros j. unfold yawResetG. cbv zeta. change (dcmv (moved d (state s))) with (dcmv (state s)). unfold moved.
      destruct (Nat.ltb_spec j 4); [|reflexivity]. destruct (inb 7 3 j) eqn:F; [idx F; lia|reflexivity]. }
    rewrite E. reflexivity.
  - unfold step. cbv zeta. change (state (seen d s)) with (moved d (state s)).
    rewrite (upd_moved d (fun i => ((gyro && inb 10 3 i) || (accel && inb 13 3 i))%bool) (fun _ => 0) (state s)); [reflexivity|].
    intros j F. idx F. apply orb_false_iff. split; apply andb_false_iff; right; unfold inb; apply andb_false_iff; left; apply Nat.leb_gt; lia.
  - unfold step. cbv zeta. change (state (seen d s)) with (moved d (state s)).
    match goal with |- putF (setM ?M (setX ?a ?f)) _ = seen d (putF (setM _ (setX ?b _)) _) => assert (E : a = moved d b); [|rewrite E; reflexivity] end.
    apply functional_extensionality. intros j. unfold moved. destruct (inb 7 3 j) eqn:F; [|reflexivity]. idx F.
    replace (inb 16 3 j) with false by (symmetry; unfold inb; apply andb_false_iff; left; apply Nat.leb_gt; lia).
    replace (inb 19 3 j) with false by (symmetry; unfold inb; apply andb_false_iff; left; apply Nat.leb_gt; lia). reflexivity.
  - unfold step. cbv zeta. change (n_f (seen d s)) with (mfus d (n_f s)). rewrite windReset_moved. reflexivity.
  - unfold step. cbv zeta. change (state (seen d s)) with (moved d (state s)). rewrite f_all, f_mag. reflexivity.
Qed.

(** ** Histories *)
Lemma run_seen k d l : forall s, far_from_limit k l s -> far_from_limit k (map (told d) l) (seen d s) -> (d 2%nat = 0 \/ no_flow_start k l s) ->
  run k (map (told d) l) (seen d s) = seen d (run k l s).
Proof.
  induction l as [|e l IH]; intros s H1 H2 H3; [reflexivity|].
  assert (E : step k (told d e) (seen d s) = seen d (step k e s)).
  { apply step_seen.
    - split; [exact (H1 [e] l eq_refl)|exact (H2 [told d e] (map (told d) l) eq_refl)].
    - intros p i ->. destruct H3 as [H3|H3]; [left; exact H3|]. right. pose proof (H3 [] l p i eq_refl) as G. cbn in G. unfold flow_start. cbn [tview t_air t_healthy t_flow_ready].
      destruct G as [G|[G|[[G1 G2]|[G|G]]]]; [rewrite G|rewrite G|rewrite G1, G2|rewrite G|rewrite G]; cbn; rewrite ?andb_false_r; reflexivity. }
  cbn [map]. change (run k (told d e :: map (told d) l) (seen d s)) with (run k (map (told d) l) (step k (told d e) (seen d s))).
  change (run k (e :: l) s) with (run k l (step k e s)). rewrite E. apply IH.
  - intros l1 l2 ->. exact (H1 (e :: l1) l2 eq_refl).
  - rewrite <- E. intros l1 l2 Hl. apply (H2 (told d e :: l1) l2). cbn [map]. rewrite Hl. reflexivity.
  - destruct H3 as [H3|H3]; [left; exact H3|right]. intros l1 l2 p i ->. exact (H3 (e :: l1) l2 p i eq_refl).
Qed.

(** Claim.  Two estimators see the same flight, one counting all positions from an origin displaced by -d: as long as no
    position reaches its limit (and, for a vertical displacement, the terrain estimator does not start from flow alone), after any
    sequence of predictions, fusions and resets their positions differ by d, their terrain heights by the vertical part of d, and
    all their other states, covariances, innovations, innovation variances, test ratios, rejection and fault flags and fusion
    times are the same *)
Theorem C93_origin : forall k (d : Vec R) (l : list event) (s : engine),
  far_from_limit k l s -> far_from_limit k (map (told d) l) (seen d s) -> d 2%nat = 0 \/ no_flow_start k l s ->
  let a := run k l s in let b := run k (map (told d) l) (seen d s) in
  (forall i, state b i = state a i + (if ((7 <=? i) && (i <? 10))%nat then d (i - 7)%nat else 0)) /\
  covariance b = covariance a /\ h_vpos (n_t b) = h_vpos (n_t a) + d 2%nat /\ h_var (n_t b) = h_var (n_t a) /\ h_valid (n_t b) = h_valid (n_t a) /\
  fi (n_f b) = fi (n_f a) /\ fv (n_f b) = fv (n_f a) /\ fr (n_f b) = fr (n_f a) /\ fbad (n_f b) = fbad (n_f a) /\ frej (n_f b) = frej (n_f a) /\ ftime (n_f b) = ftime (n_f a) /\
  v_rej_hvel (n_v b) = v_rej_hvel (n_v a) /\ v_rej_vvel (n_v b) = v_rej_vvel (n_v a) /\ v_rej_hpos (n_v b) = v_rej_hpos (n_v a) /\ v_rej_vpos (n_v b) = v_rej_vpos (n_v a) /\
  v_t_hvel (n_v b) = v_t_hvel (n_v a) /\ v_t_vvel (n_v b) = v_t_vvel (n_v a) /\ v_t_hpos (n_v b) = v_t_hpos (n_v a) /\ v_t_hgt (n_v b) = v_t_hgt (n_v a) /\
  v_bad (n_v b) = v_bad (n_v a) /\ g_R (n_g b) = g_R (n_g a) /\ n_yaw b = n_yaw a.
Proof.
  intros k d l s H1 H2 H3. cbv zeta. rewrite (run_seen k d l s H1 H2 H3). set (a := run k l s). clearbody a.
  split. { intros i. change (state (seen d a) i) with (moved d (state a) i). unfold moved, inb. change (7 + 3)%nat with 10%nat. destruct ((7 <=? i) && (i <? 10))%nat; [reflexivity|ring]. }
  repeat (split; [reflexivity|]). reflexivity.
Qed.

(** ** The terrain estimator started from flow alone *)
#[local] Transparent runTerrain.
(** terrain height a terrain estimator takes in the air when it starts with an optical flow sample and no usable range: never above
    the origin, whatever the origin *)
Theorem C93_flow_start : forall (p : tpar R) (i : tin R) (t : tst R), h_init t = false -> t_air i = true ->
  p_use_flow p = true -> t_flow_ready i = true -> p_use_rng p && t_healthy i = false ->
  h_vpos (runTerrain p i t) = Rmax 0 (t_posd i) /\ h_var (runTerrain p i t) = 100 /\ h_init (runTerrain p i t) = true.
Proof.
  intros p i t A B C D E. unfold runTerrain. rewrite A, B. cbn [negb orb]. unfold initHagl. rewrite B, E, C, D. cbn [negb andb].
  unfold updateValidity, setInit, setHagl, setEst, setValid. cbn [h_vpos h_var h_init]. cbn [sfmax slit RScalar szero]. unfold szero. cbn [slit RScalar].
  split; [f_equal; lra|split; [lra|reflexivity]].
Qed.
(** so the displacement matters there (a defect): a vehicle flying 50 m above the ground with the origin on the ground starts with
    the right terrain height; with an origin 30 m below the ground it starts 30 m wrong *)
Definition flow_par : tpar R := mkTp (1 / 10) (1 / 10) 0 0 5 5 5 (1 / 2) true true (15 / 100) (1 / 2) 1.
Definition flow_in (z : R) : tin R := mkTi 10000000%Z true z (fun _ => 0) (fun k => if (k =? 0)%nat then 1 else 0) (fun i j => if (i =? j)%nat then 1 else 0) 1 (1 / 100) false 0 0 true (fun _ => 0) (1 / 100)
  (fun _ => 0) (fun _ => 0) (fun _ => 0) 200.
Definition new_terrain : tst R := mkTs 0 0 false 0%Z 0%Z 0%Z false false false false.
Theorem C93_flow_start_refuted :
  ~ (forall p i t d2, h_vpos (runTerrain p (mtin (fun _ => d2) i) (mter (fun _ => d2) t)) = h_vpos (runTerrain p i t) + d2).
Proof.
  intros H. specialize (H flow_par (flow_in (-50)) new_terrain (-30)).
  destruct (C93_flow_start flow_par (mtin (fun _ => -30) (flow_in (-50))) (mter (fun _ => -30) new_terrain) eq_refl eq_refl eq_refl eq_refl eq_refl) as (E1 & _ & _).
  destruct (C93_flow_start flow_par (flow_in (-50)) new_terrain eq_refl eq_refl eq_refl eq_refl eq_refl) as (E2 & _ & _).
  rewrite E1, E2 in H. cbn [mtin flow_in t_posd] in H. rewrite !Rmax_left in H by lra. lra.
Qed.

(** ** A case that meets the hypotheses: position set, one prediction, height set, seen from an origin 1000 m and 30 m away *)
#[local] Transparent predictG.
Definition flat : covctx R := mkCtx (fun i => if (i =? 0)%nat then 1 else 0) (fun _ => 0) (fun _ => 0) (fun _ => false) (fun i => if (i =? 2)%nat then 1 else 0)
  0 0 1 1 1 0 0 0 0 1 0 0 0 false false true false false true false false true false false 0 0 0 0 0 0 (1 / 100) 1000000%Z.
Definition flat_cov : covst R := mkCov (fun i j => if (i =? j)%nat then 1 else 0) (fun _ => false) (fun _ => 0) 0 0 (fun _ => 0) 0 (fun _ => 0) (fun _ => 0) false false 0%Z false.
Definition start : engine :=
  Eng (mkFus flat flat_cov (fun _ => 0) (fun _ => 0) (fun _ => 0) (fun _ => false) (fun _ => false) (fun _ => 0%Z) false)
    (mkVp flat flat_cov false false false false 0%Z 0%Z 0%Z 0%Z 0%Z (fun _ => false) 0 0 0 0 0%Z 0%Z false)
    (PredG (fun i => if (i =? 0)%nat then 1 else 0) (fun i j => if (i =? j)%nat then 1 else 0) 0 0 (1 / 100) (fun _ => 0)) new_terrain
    (EvMem false (fun _ => 0) (fun _ => 0) (fun _ => 0)) 0.
Definition flight : list event := [ESetPosition 3 4 1; EPredict flat 1 (fun _ => 0) (Gimu (fun _ => 0) (fun _ => 0) (1 / 100) (1 / 100)); ESetHeight (-20) 1].
Definition offset : Vec R := fun k => match k with O => 1000 | 1%nat => -400 | _ => 30 end.
Definition plain_cfg : rcfg := Rcfg 1 1 1 1 1 1 1 1 1.
Lemma far_cons k e l s : inside (state s) -> far_from_limit k l (step k e s) -> far_from_limit k (e :: l) s.
Proof.
  intros A B l1 l2 H j J. destruct l1 as [|e1 l1]; [exact (A j J)|]. injection H as <- H. exact (B l1 l2 H j J).
Qed.
Lemma far_nil k s : inside (state s) -> far_from_limit k [] s.
Proof. intros A l1 l2 H j J. destruct l1; [exact (A j J)|discriminate]. Qed.
Lemma coast_inside t lim dt g (x : Vec R) : 0 <= dt <= 1 / 10 -> (forall k, (k < 3)%nat -> Rabs (x (7 + k)%nat) <= 5000) -> x 4%nat = 0 -> x 5%nat = 0 -> x 6%nat = 0 -> x 13%nat = 0 -> x 14%nat = 0 -> x 15%nat = 0 ->
  g_x g = x -> inside (g_x (predictG sin cos t lim (fun _ => 0) (Gimu (fun _ => 0) (fun _ => 0) dt dt) g)).
Proof.
  intros D H V1 V2 V3 B1 B2 B3 G k K. cbn [predictG g_x]. cbv zeta.
  assert (Q : Rabs (predRaw sin cos (fun _ => 0) (Gimu (fun _ => 0) (fun _ => 0) dt dt) g (7 + k)%nat) < 1000000).
  { unfold predRaw. replace (7 + k <? 4)%nat with false by (symmetry; apply Nat.ltb_ge; lia). replace (7 + k <? 7)%nat with false by (symmetry; apply Nat.ltb_ge; lia).
    replace (7 + k <? 10)%nat with true by (symmetry; apply Nat.ltb_lt; lia). replace (7 + k - 7)%nat with k by lia.
    assert (Z : predVel sin cos (fun _ => 0) (Gimu (fun _ => 0) (fun _ => 0) dt dt) g k = if (k =? 2)%nat then 980665 / 100000 * dt else 0).
    { unfold predVel. cbv zeta. unfold predDv, OutputModel.mvec. cbn [gi_dv gi_dvdt]. rewrite G. rewrite !Nat.add_0_r || idtac. cbn [Nat.add]. rewrite B1, B2, B3.
      unfold szero. cbn [sadd ssub smul slit RScalar]. do 3 (destruct k as [|k]; [cbn [Nat.eqb Nat.add]; rewrite ?V1, ?V2, ?V3; field|]). lia. }
    unfold predPos. rewrite Z, G. cbn [gi_dvdt]. cbn [sadd smul sdiv slit RScalar]. specialize (H k K).
    replace (x (4 + k)%nat) with 0 by (do 3 (destruct k as [|k]; [cbn [Nat.add]; congruence|]); lia).
    set (w := if (k =? 2)%nat then _ else _). assert (W : 0 <= w <= 1) by (unfold w; destruct (k =? 2)%nat; lra).
    assert (0 <= w * dt <= 1 / 10) by (split; nra). apply Rabs_def1; apply Rabs_le_between in H || idtac; revert H; unfold Rabs; destruct (Rcase_abs _); intros; nra. }
  unfold constrainG. assert (L : limitG t lim (g_dt g) (7 + k)%nat = 1000000).
  { unfold limitG. rewrite (proj2 (Nat.ltb_ge (7 + k) 4)) by lia. rewrite (proj2 (Nat.ltb_ge (7 + k) 7)) by lia. rewrite (proj2 (Nat.ltb_lt (7 + k) 10)) by lia. cbn [slit RScalar]. lra. }
  rewrite L. change (- (1000000))%scal with (- (1000000)). rewrite constrain_in by exact Q. exact Q.
Qed.
Lemma height_inside k z v s : inside (state s) -> Rabs z < 1000000 -> inside (state (step k (ESetHeight z v) s)).
Proof.
  intros H Z j J. change (state (step k (ESetHeight z v) s) (7 + j)%nat) with (if (7 + j =? 9)%nat then z else state s (7 + j)%nat).
  destruct (7 + j =? 9)%nat; [exact Z|exact (H j J)].
Qed.
Lemma flight_far n e z dt s : inside (state s) -> Rabs n <= 5000 -> Rabs e <= 5000 -> Rabs z <= 5000 -> Rabs (state s 9%nat) <= 5000 -> 0 <= dt <= 1 / 10 ->
  state s 4%nat = 0 -> state s 5%nat = 0 -> state s 6%nat = 0 -> state s 13%nat = 0 -> state s 14%nat = 0 -> state s 15%nat = 0 ->
  far_from_limit plain_cfg [ESetPosition n e 1; EPredict flat 1 (fun _ => 0) (Gimu (fun _ => 0) (fun _ => 0) dt dt); ESetHeight z 1] s.
Proof.
  intros A N E Z D DT V1 V2 V3 B1 B2 B3.
  assert (P : forall k, (k < 3)%nat -> Rabs (state (step plain_cfg (ESetPosition n e 1) s) (7 + k)%nat) <= 5000).
  { intros k K. change (state (step plain_cfg (ESetPosition n e 1) s) (7 + k)%nat) with (if (7 + k =? 7)%nat then n else if (7 + k =? 8)%nat then e else state s (7 + k)%nat).
    do 3 (destruct k as [|k]; [cbn [Nat.eqb Nat.add]; assumption|]). lia. }
  apply far_cons; [exact A|]. apply far_cons. { intros k K. specialize (P k K). lra. }
  assert (I : inside (state (step plain_cfg (EPredict flat 1 (fun _ => 0) (Gimu (fun _ => 0) (fun _ => 0) dt dt)) (step plain_cfg (ESetPosition n e 1) s)))).
  { unfold step at 1. cbv zeta. eapply (coast_inside _ _ _ _ (state (step plain_cfg (ESetPosition n e 1) s))); try reflexivity; try assumption. }
  apply far_cons; [exact I|]. apply far_nil. apply height_inside; [exact I|]. lra.
Qed.
Example flight_hyps : far_from_limit plain_cfg flight start /\ far_from_limit plain_cfg (map (told offset) flight) (seen offset start) /\ no_flow_start plain_cfg flight start.
Proof.
  assert (A0 : inside (state start)) by (intros k K; do 3 (destruct k as [|k]; [cbn; rewrite Rabs_R0; lra|]); lia).
  assert (A0' : inside (state (seen offset start))).
  { intros k K. do 3 (destruct k as [|k]; [cbn; unfold Rabs; destruct (Rcase_abs _); lra|]). lia. }
  split; [|split].
  - apply flight_far; try reflexivity; try exact A0; try lra; cbn; unfold Rabs; destruct (Rcase_abs _); lra.
  - apply flight_far; try reflexivity; try exact A0'; try lra; cbn; unfold Rabs; destruct (Rcase_abs _); lra.
  - intros l1 l2 p i H. exfalso. unfold flight in H. do 3 (destruct l1 as [|? l1]; [discriminate H|]; apply (f_equal (@tl event)) in H; cbn [app tl] in H). destruct l1; discriminate H.
Qed.
Print Assumptions C93_origin.
Print Assumptions C93_flow_start.
Print Assumptions C93_flow_start_refuted.

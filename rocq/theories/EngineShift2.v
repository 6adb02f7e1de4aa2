(** * Moving the origin: velocity and position fusion, terrain, prediction, histories *)
From Coq Require Import Reals Lra Lia List ZArith Bool FunctionalExtensionality.
From Verif Require Import CBase Scalar CovPredGen RealGeom RotModel GeoModel CovModel CovQuat CovQuat2 FusionGen FusionModel FusionSpec OutputModel NanModel VelPosModel ObsModel
  TerrainModel HeadingModel EngineModel EngineShift.
Import ListNotations.
Open Scope R_scope.

#[local] Opaque applyUpdate.
Lemma vpFuse_moved i w k d v : vpFuse i w k (mvp d v) = mvp d (vpFuse i w k v).
Proof.
  unfold vpFuse, fuseVelPosHeight. cbv zeta. change (v_c (mvp d v)) with (mctx d (v_c v)). change (v_s (mvp d v)) with (v_s v).
  rewrite apply_moved. destruct (applyUpdate _ _ _ _ _) as [[c' s'] ok]. reflexivity.
Qed.
#[local] Opaque vpFuse.
Definition mres (d : Vec R) (r : vpres R) : vpres R := mkRes (mvp d (r_v r)) (r_var0 r) (r_var1 r) (r_ratio r) (r_ok r).
Ltac vm := match goal with |- context [vpFuse ?i ?w ?k (mkVp (v_c (mvp ?d ?v)) ?b ?c1 ?c2 ?c3 ?c4 ?t1 ?t2 ?t3 ?t4 ?t5 ?bd ?f0 ?f1 ?q1 ?q2 ?q3 ?q4 ?od)] =>
  change (mkVp (v_c (mvp d v)) b c1 c2 c3 c4 t1 t2 t3 t4 t5 bd f0 f1 q1 q2 q3 q4 od) with
    (mvp d (mkVp (v_c v) (v_s v) c1 c2 c3 c4 t1 t2 t3 t4 t5 bd f0 f1 q1 q2 q3 q4 od)) end.
Lemma hvel_moved i0 i1 g o0 o1 d v : fuseHorizontalVelocity i0 i1 g o0 o1 (mvp d v) = mres d (fuseHorizontalVelocity i0 i1 g o0 o1 v).
Proof.
  unfold fuseHorizontalVelocity. cbv zeta. change (v_s (mvp d v)) with (v_s v). destruct (sle _ _); [|reflexivity].
  vm. rewrite !vpFuse_moved. reflexivity.
Qed.
Lemma vvel_moved b i g o d v : fuseVerticalVelocity b i g o (mvp d v) = mres d (fuseVerticalVelocity b i g o v).
Proof.
  unfold fuseVerticalVelocity. cbv zeta. change (v_s (mvp d v)) with (v_s v). destruct (_ || _); [|reflexivity].
  vm. rewrite !vpFuse_moved. reflexivity.
Qed.
Lemma hpos_moved b i0 i1 g o0 o1 d v : fuseHorizontalPosition b i0 i1 g o0 o1 (mvp d v) = mres d (fuseHorizontalPosition b i0 i1 g o0 o1 v).
Proof.
  unfold fuseHorizontalPosition. cbv zeta. change (v_s (mvp d v)) with (v_s v). destruct (_ || _); [|reflexivity]. destruct (_ && _); [reflexivity|].
  vm. rewrite !vpFuse_moved. reflexivity.
Qed.
Lemma vpos_moved b i g o d v : fuseVerticalPosition b i g o (mvp d v) = mres d (fuseVerticalPosition b i g o v).
Proof.
  unfold fuseVerticalPosition. cbv zeta. change (v_s (mvp d v)) with (v_s v). destruct (_ || _); [|reflexivity].
  vm. rewrite !vpFuse_moved. reflexivity.
Qed.
#[local] Opaque fuseHorizontalVelocity fuseVerticalVelocity fuseHorizontalPosition fuseVerticalPosition.

Definition mgps (d : Vec R) (g : gpsS R) : gpsS R := GpsS (s_vel g) (fun k => s_pos g k + d k) (s_hgt g) (s_hacc g) (s_vacc g) (s_sacc g).
Lemma gps_moved o pn na vn pg vg R_ w off g d v :
  o_v (snd (fst (gpsFuse false o pn na vn pg vg R_ w off (mgps d g) (mvp d v)))) = mvp d (o_v (snd (fst (gpsFuse false o pn na vn pg vg R_ w off g v)))).
Proof.
  unfold gpsFuse. cbv zeta. cbn [fst snd o_v].
  change (vsubT (xv (mvp d v)) (s_vel (gpsCorrect R_ w off (mgps d g))) 0%nat) with (vsubT (xv v) (s_vel (gpsCorrect R_ w off g)) 0%nat).
  change (vsubT (xv (mvp d v)) (s_vel (gpsCorrect R_ w off (mgps d g))) 1%nat) with (vsubT (xv v) (s_vel (gpsCorrect R_ w off g)) 1%nat).
  change (vsubT (xv (mvp d v)) (s_vel (gpsCorrect R_ w off (mgps d g))) 2%nat) with (vsubT (xv v) (s_vel (gpsCorrect R_ w off g)) 2%nat).
  assert (E0 : (xp (mvp d v) 0%nat - s_pos (gpsCorrect R_ w off (mgps d g)) 0%nat)%scal = (xp v 0%nat - s_pos (gpsCorrect R_ w off g) 0%nat)%scal).
  { unfold xp. change (x_st (v_c (mvp d v)) (7 + 0)%nat) with (x_st (v_c v) (7 + 0)%nat + d 0%nat). cbn [gpsCorrect mgps s_pos ssub RScalar]. ring. }
  assert (E1 : (xp (mvp d v) 1%nat - s_pos (gpsCorrect R_ w off (mgps d g)) 1%nat)%scal = (xp v 1%nat - s_pos (gpsCorrect R_ w off g) 1%nat)%scal).
  { unfold xp. change (x_st (v_c (mvp d v)) (7 + 1)%nat) with (x_st (v_c v) (7 + 1)%nat + d 1%nat). cbn [gpsCorrect mgps s_pos ssub RScalar]. ring. }
  rewrite E0, E1. change (s_hacc (gpsCorrect R_ w off (mgps d g))) with (s_hacc (gpsCorrect R_ w off g)). change (s_sacc (gpsCorrect R_ w off (mgps d g))) with (s_sacc (gpsCorrect R_ w off g)).
  rewrite hvel_moved. cbn [mres r_v]. rewrite vvel_moved. cbn [mres r_v]. rewrite hpos_moved. reflexivity.
Qed.
Definition mhgt (d : Vec R) (i : hgtin R) : hgtin R :=
  HgtIn (h_baro i) (h_boff i + d 2%nat) (h_gps i) (h_vacc i) (h_ref i) (h_off i + d 2%nat) (h_dist i) (h_ev i + d 2%nat) (h_evvar i) (h_gnd i).
Lemma hgt_moved src p i d v : r_v (hgtFuse false src p (mhgt d i) (mvp d v)) = mvp d (r_v (hgtFuse false src p i v)).
Proof.
  unfold hgtFuse. assert (E : hgtObs src p (mhgt d i) (xp (mvp d v) 2%nat) = hgtObs src p i (xp v 2%nat)).
  { unfold xp. change (x_st (v_c (mvp d v)) (7 + 2)%nat) with (x_st (v_c v) (7 + 2)%nat + d 2%nat). set (z := x_st (v_c v) (7 + 2)%nat).
    unfold hgtObs, mhgt. cbn [h_baro h_boff h_gps h_vacc h_ref h_off h_dist h_ev h_evvar h_gnd]. cbn [sadd ssub sopp RScalar].
    replace (z + d 2%nat + h_baro i - (h_boff i + d 2%nat)) with (z + h_baro i - h_boff i) by ring.
    replace (z + d 2%nat + h_gps i - h_ref i - (h_off i + d 2%nat)) with (z + h_gps i - h_ref i - h_off i) by ring.
    replace (z + d 2%nat - - smaxi (h_dist i) (hp_clear p) - (h_off i + d 2%nat)) with (z - - smaxi (h_dist i) (hp_clear p) - h_off i) by ring.
    replace (z + d 2%nat - (h_ev i + d 2%nat)) with (z - h_ev i) by ring. reflexivity. }
  rewrite E. destruct (hgtObs src p i (xp v 2%nat)) as [[a b] c]. rewrite vpos_moved. reflexivity.
Qed.

(** ** Terrain *)
Definition mter (d : Vec R) (t : tst R) : tst R := setEst (h_vpos t + d 2%nat) (h_var t) t.
Definition mtin (d : Vec R) (i : tin R) : tin R :=
  mkTi (t_now i) (t_air i) (t_posd i + d 2%nat) (t_vel i) (t_q i) (t_Rte i) (t_P99 i) (t_dt i) (t_healthy i) (t_dist i) (t_range i) (t_flow_ready i) (t_comp i) (t_fdt i)
    (t_gbias i) (t_gyro i) (t_off i) (t_qual i).
(** the estimator starts from an optical flow sample alone, terrain_estimator.cpp l.75-79 *)
Definition flow_start (p : tpar R) (i : tin R) (t : tst R) : bool :=
  negb (h_init t) && t_air i && negb (p_use_rng p && t_healthy i) && (p_use_flow p && t_flow_ready i).
Lemma setEst_eq v v' w w' (s : tst R) : v = v' -> w = w' -> setEst v w s = setEst v' w' s. Proof. intros -> ->. reflexivity. Qed.
Ltac tcb := unfold mter, setEst, setInit, setValid, setHagl, setFake, setReject, setFlowT;
  cbn [h_vpos h_var h_init h_t_hagl h_t_fake h_t_flow h_valid h_rng_bit h_flow_bit h_reject mtin t_now t_posd t_air t_healthy t_dist t_flow_ready].
Lemma flowAxisT_moved p i vb rt inv d t : TerrainModel.flowAxis p (mtin d i) vb rt inv (mter d t) = mter d (TerrainModel.flowAxis p i vb rt inv t).
Proof.
  unfold TerrainModel.flowAxis. cbv zeta. change (h_var (mter d t)) with (h_var t). change (t_q (mtin d i)) with (t_q i). change (flowS p (mtin d i)) with (flowS p i).
  destruct (sle _ _); [|reflexivity]. tcb. f_equal. cbn [sadd smul RScalar]. ring.
Qed.
Lemma terrain_moved p i d t : d 2%nat = 0 \/ flow_start p i t = false -> runTerrain p (mtin d i) (mter d t) = mter d (runTerrain p i t).
Proof.
  intros H. unfold runTerrain. cbv zeta.
  assert (VAL : forall u, updateValidity p (mtin d i) (mter d u) = mter d (updateValidity p i u)) by reflexivity.
  match goal with |- updateValidity _ _ ?a = mter d (updateValidity _ _ ?b) => assert (E : a = mter d b); [|rewrite E; apply VAL] end.
  change (h_init (mter d t)) with (h_init t). change (t_air (mtin d i)) with (t_air i).
  destruct (negb (h_init t) || negb (t_air i)) eqn:I.
  - unfold initHagl. cbn [mtin t_air t_healthy t_flow_ready t_now t_posd t_dist].
    destruct (negb (t_air i)) eqn:A; [tcb; f_equal; cbn [sadd RScalar]; ring|].
    destruct (p_use_rng p && t_healthy i) eqn:G; [tcb; f_equal; cbn [sadd RScalar]; ring|].
    destruct (p_use_flow p && t_flow_ready i) eqn:W; [|reflexivity].
    destruct H as [H|H].
    + tcb. rewrite H. f_equal. cbn [sfmax sadd RScalar]. rewrite !Rplus_0_r. reflexivity.
    + exfalso. unfold flow_start in H. rewrite G, W in H. rewrite orb_false_r in I. rewrite I in H. apply negb_false_iff in A. rewrite A in H. discriminate.
  - assert (L : forall u, limitClr p (mtin d i) (mter d u) = mter d (limitClr p i u)).
    { intros u. unfold limitClr. change (h_vpos (mter d u)) with (h_vpos u + d 2%nat). change (t_posd (mtin d i)) with (t_posd i + d 2%nat). cbn [ssub RScalar].
      replace (h_vpos u + d 2%nat - (t_posd i + d 2%nat)) with (h_vpos u - t_posd i) by ring. destruct (slt _ _); [|reflexivity]. tcb. f_equal. cbn [sadd RScalar]. ring. }
    set (s1 := setEst (h_vpos t) _ t).
    assert (E1 : setEst (h_vpos (mter d t)) (predictVar p (mtin d i) (h_var (mter d t))) (mter d t) = mter d s1) by reflexivity. rewrite E1.
    assert (G : forall u, fuseHagl p (mtin d i) (mter d u) = mter d (fuseHagl p i u)).
    { intros u. assert (EI : haglInnov (mtin d i) (mter d u) = haglInnov i u).
      { unfold haglInnov. change (h_vpos (mter d u)) with (h_vpos u + d 2%nat). change (t_posd (mtin d i)) with (t_posd i + d 2%nat). cbn [ssub RScalar mtin t_dist]. ring. }
      unfold fuseHagl. cbv zeta. unfold haglRatio. rewrite EI. change (haglVar p (mtin d i) (mter d u)) with (haglVar p i u). change (obsVar p (mtin d i)) with (obsVar p i).
      destruct (sle _ _).
      - tcb. f_equal. cbn [ssub smul RScalar]. ring.
      - change (t_now (mtin d i)) with (t_now i). change (h_t_hagl (mter d u)) with (h_t_hagl u). destruct (GpsModel.is_timed_out _ _ _); [|reflexivity]. tcb. f_equal. cbn [sadd RScalar]. ring. }
    assert (W : forall u, fuseFlow p (mtin d i) (mter d u) = mter d (fuseFlow p i u)).
    { intros u. unfold fuseFlow. cbv zeta.
      assert (E2 : setEst (sfmax (h_vpos (mter d u)) (p_clr p + t_posd (mtin d i))%scal) (sfmax (h_var (mter d u)) szero) (mter d u) =
        mter d (setEst (sfmax (h_vpos u) (p_clr p + t_posd i)%scal) (sfmax (h_var u) szero) u)).
      { change (h_vpos (mter d u)) with (h_vpos u + d 2%nat). change (t_posd (mtin d i)) with (t_posd i + d 2%nat). tcb. f_equal. cbn [sadd sfmax RScalar].
        unfold Rmax. destruct (Rle_dec (h_vpos u + d 2%nat) _), (Rle_dec (h_vpos u) _); lra. }
      rewrite E2. set (u1 := setEst (sfmax (h_vpos u) _) _ u).
      assert (E3 : (h_vpos (mter d u1) - t_posd (mtin d i))%scal = (h_vpos u1 - t_posd i)%scal).
      { change (h_vpos (mter d u1)) with (h_vpos u1 + d 2%nat). change (t_posd (mtin d i)) with (t_posd i + d 2%nat). cbn [ssub RScalar]. ring. }
      rewrite E3. change (velBody (mtin d i)) with (velBody i). change (flowRate (mtin d i)) with (flowRate i). rewrite !flowAxisT_moved. reflexivity. }
    change (use_rng_now p (mtin d i)) with (use_rng_now p i). change (use_flow_now p (mtin d i)) with (use_flow_now p i).
    destruct (use_rng_now p i), (use_flow_now p i); rewrite ?G, ?W, L; reflexivity.
Qed.

(** ** Prediction *)
Lemma col_moved d c M j : col (mctx d c) M j = col c M j.
Proof.
  unfold col. cbv zeta. change (x_da (mctx d c)) with (x_da c). change (x_dv (mctx d c)) with (x_dv c).
  repeat match goal with |- context [x_st (mctx d c) ?i] => change (x_st (mctx d c) i) with (x_st c i) end.
  change (daVar (mctx d c)) with (daVar c). change (dvVar (mctx d c) 0) with (dvVar c 0). change (dvVar (mctx d c) 1) with (dvVar c 1). change (dvVar (mctx d c) 2) with (dvVar c 2). reflexivity.
Qed.
Lemma wcol_moved d c M j N : wcol (mctx d c) M j N = wcol c M j N. Proof. unfold wcol. rewrite col_moved. reflexivity. Qed.
Lemma wcols_moved d c M a n N : wcols (mctx d c) M a n N = wcols c M a n N.
Proof. induction n as [|n IH]; [reflexivity|]. cbn [wcols]. rewrite IH, wcol_moved. reflexivity. Qed.
Lemma accelAxis_moved d c M inh pv pn k b : accelAxis (mctx d c) M inh pv pn k b = accelAxis c M inh pv pn k b.
Proof. unfold accelAxis. destruct b as [[N aa] av]. rewrite wcol_moved. reflexivity. Qed.
Lemma buildNext_moved d c s pn : buildNext (mctx d c) s pn = buildNext c s pn.
Proof.
  unfold buildNext. cbv zeta. rewrite !accelAxis_moved, !wcols_moved.
  change (f_mag_3D (mctx d c)) with (f_mag_3D c). change (f_wind (mctx d c)) with (f_wind c).
  destruct (accelAxis c (cP s) (c_inhibit s) (c_prev_var s) pn 2 _) as [[N aa] av]. rewrite !wcols_moved. reflexivity.
Qed.
Lemma predInhibit_moved d c s : predInhibit (mctx d c) s = predInhibit c s.
Proof. reflexivity. Qed.
#[local] Opaque buildNext fixCovarianceErrors predInhibit.
Lemma predictCov_moved d c s : predictCovariance (mctx d c) s = predictCovariance c s.
Proof.
  unfold predictCovariance. cbv zeta. rewrite predInhibit_moved, buildNext_moved. set (s1 := predInhibit c s).
  change (hrate_next (mctx d c) s1) with (hrate_next c s1). change (process_noise (mctx d c) (cP s1)) with (process_noise c (cP s1)).
  destruct (buildNext c s1 _) as [[N aa] av]. rewrite fix_moved. reflexivity.
Qed.
Lemma constrain_in (v l : R) : Rabs v < l -> sconstrain v (- l) l = v.
Proof. intros H. apply Rabs_def2 in H. unfold sconstrain. cbn [slt RScalar]. destruct (Rlt_dec v (- l)) as [A|A]; [lra|]. destruct (Rlt_dec l v) as [B|B]; [lra|reflexivity]. Qed.
Lemma constrain_out (v l : R) : 0 < l -> Rabs (sconstrain v (- l) l) < l -> Rabs v < l.
Proof.
  intros P. unfold sconstrain. cbn [slt RScalar]. destruct (Rlt_dec v (- l)) as [A|A]; [rewrite Rabs_left by lra; intros; lra|].
  destruct (Rlt_dec l v) as [B|B]; [rewrite Rabs_right by lra; intros; lra|tauto].
Qed.
Definition mpred (d : Vec R) (g : predG R) : predG R := PredG (moved d (g_x g)) (g_R g) (g_lpn g) (g_lpe g) (g_dt g) (g_rate g).
Lemma mvec_ext (M : Mat R) (a b : Vec R) k : a 0%nat = b 0%nat -> a 1%nat = b 1%nat -> a 2%nat = b 2%nat -> mvec M a k = mvec M b k.
Proof. unfold mvec. intros -> -> ->. reflexivity. Qed.
Lemma predQuat_moved d e i g : predQuat sin cos e i (mpred d g) = predQuat sin cos e i g. 
Proof.
  unfold predQuat. cbn [mpred g_x]. change (qmulv (moved d (g_x g))) with (qmulv (g_x g)). do 3 f_equal.
Qed.
Lemma predDv_moved d e i g : predDv sin cos e i (mpred d g) = predDv sin cos e i g.
Proof. unfold predDv. rewrite predQuat_moved. reflexivity. Qed.
Lemma predVel_moved d e i g k : (k < 3)%nat -> predVel sin cos e i (mpred d g) k = predVel sin cos e i g k.
Proof. intros K. unfold predVel. cbv zeta. rewrite predDv_moved. do 3 (destruct k as [|k]; [reflexivity|]). lia. Qed.
Lemma predPos_moved d e i g k : (k < 3)%nat -> predPos sin cos e i (mpred d g) k = predPos sin cos e i g k + d k.
Proof.
  intros K. unfold predPos. rewrite predVel_moved by exact K. set (v := predVel _ _ _ _ _ _).
  do 3 (destruct k as [|k]; [cbn [mpred g_x Nat.add]; unfold moved; cbn [inb Nat.leb Nat.ltb andb Nat.add Nat.sub]; cbn [sadd smul sdiv RScalar]; ring|]). lia.
Qed.
Lemma predRaw_moved d e i g : predRaw sin cos e i (mpred d g) = moved d (predRaw sin cos e i g).
Proof.
  apply functional_extensionality. intros j. unfold moved. unfold predRaw at 1. rewrite predQuat_moved.
  destruct (Nat.ltb_spec j 4) as [A|A].
  { replace (inb 7 3 j) with false by (symmetry; unfold inb; apply andb_false_iff; left; apply Nat.leb_gt; lia). unfold predRaw. rewrite (proj2 (Nat.ltb_lt _ _) A). reflexivity. }
  destruct (Nat.ltb_spec j 7) as [B|B].
  { replace (inb 7 3 j) with false by (symmetry; unfold inb; apply andb_false_iff; left; apply Nat.leb_gt; lia). rewrite predVel_moved by lia.
    unfold predRaw. rewrite (proj2 (Nat.ltb_ge _ _) A), (proj2 (Nat.ltb_lt _ _) B). reflexivity. }
  destruct (Nat.ltb_spec j 10) as [C|C].
  { replace (inb 7 3 j) with true by (symmetry; unfold inb; apply andb_true_iff; split; [apply Nat.leb_le|apply Nat.ltb_lt]; lia). rewrite predPos_moved by lia.
    unfold predRaw. rewrite (proj2 (Nat.ltb_ge _ _) A), (proj2 (Nat.ltb_ge _ _) B), (proj2 (Nat.ltb_lt _ _) C). reflexivity. }
  replace (inb 7 3 j) with false by (symmetry; unfold inb; apply andb_false_iff; right; apply Nat.ltb_ge; lia).
  unfold predRaw. rewrite (proj2 (Nat.ltb_ge _ _) A), (proj2 (Nat.ltb_ge _ _) B), (proj2 (Nat.ltb_ge _ _) C). cbn [mpred g_x]. apply moved_other.
  unfold inb. apply andb_false_iff. right. apply Nat.ltb_ge. lia.
Qed.
(** the position is not held by its limit of 10^6 m *)
Definition inside (x : Vec R) : Prop := forall k, (k < 3)%nat -> Rabs (x (7 + k)%nat) < 1000000.
Lemma predict_moved r lim d e i g : inside (g_x (predictG sin cos r lim e i g)) -> inside (g_x (predictG sin cos r lim e i (mpred d g))) ->
  predictG sin cos r lim e i (mpred d g) = mpred d (predictG sin cos r lim e i g).
Proof.
  intros I1 I2. unfold predictG. cbv zeta. rewrite predQuat_moved, predDv_moved, predRaw_moved. cbn [mpred g_lpn g_lpe g_dt g_rate].
  unfold mpred. cbn [g_x g_R g_lpn g_lpe g_dt g_rate]. f_equal.
  cbn [predictG g_x] in I1, I2. cbv zeta in I1, I2. cbn [g_x mpred g_dt] in I1, I2. rewrite predRaw_moved in I2. set (w := predRaw sin cos e i g) in *.
  apply functional_extensionality. intros j. unfold moved at 2. destruct (inb 7 3 j) eqn:F.
  - unfold inb in F. rewrite andb_true_iff, Nat.leb_le, Nat.ltb_lt in F. destruct F as [F1 F2]. specialize (I1 (j - 7)%nat ltac:(lia)). specialize (I2 (j - 7)%nat ltac:(lia)).
    replace (7 + (j - 7))%nat with j in I1, I2 by lia. unfold constrainG in *.
    assert (L : limitG r lim (g_dt g) j = 1000000).
    { unfold limitG. rewrite (proj2 (Nat.ltb_ge j 4)) by lia. rewrite (proj2 (Nat.ltb_ge j 7)) by lia. rewrite (proj2 (Nat.ltb_lt j 10)) by lia. cbn [slit RScalar]. lra. }
    rewrite L in *. apply constrain_out in I1; [|lra]. apply constrain_out in I2; [|lra]. cbn [sopp RScalar]. rewrite !constrain_in by assumption.
    unfold moved. unfold inb. replace (7 <=? j)%nat with true by (symmetry; apply Nat.leb_le; lia). replace (j <? 7 + 3)%nat with true by (symmetry; apply Nat.ltb_lt; lia). reflexivity.
  - unfold constrainG. rewrite moved_other by exact F. reflexivity.
Qed.

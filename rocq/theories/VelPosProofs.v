(** * Proofs about the direct fusion gates *)
From Coq Require Import Reals Lra.
From Verif Require Import CBase Scalar CovPredGen CovSpec CovModel CovProofs CovProofsR CovUpdProofs VelPosModel F32 F32More.
Open Scope nat_scope.

(** states, covariance, last fusion times and fault bits *)
Definition vp_same {T} (v w : vpst T) : Prop :=
  v_c w = v_c v /\ v_s w = v_s v /\ v_t_hvel w = v_t_hvel v /\ v_t_vvel w = v_t_vvel v /\ v_t_hpos w = v_t_hpos v /\
  v_t_delpos w = v_t_delpos v /\ v_t_hgt w = v_t_hgt v /\ v_bad w = v_bad v.

Section G.
Context {T : Type} {S : Scalar T}.
Lemma hvel_rejected (i0 i1 gate o0 o1 : T) v : let r := fuseHorizontalVelocity i0 i1 gate o0 o1 v in
  r_ok r = false -> vp_same v (r_v r) /\ v_rej_hvel (r_v r) = true.
Proof. unfold fuseHorizontalVelocity. cbv zeta. destruct (sle _ _); cbn [r_ok r_v]; [discriminate|]. intros _. unfold vp_same. cbn. auto 12. Qed.
Lemma vvel_rejected b (i2 gate o2 : T) v : let r := fuseVerticalVelocity b i2 gate o2 v in
  r_ok r = false -> vp_same v (r_v r) /\ v_rej_vvel (r_v r) = true.
Proof. unfold fuseVerticalVelocity. cbv zeta. destruct (_ || _); cbn [r_ok r_v]; [discriminate|]. intros _. unfold vp_same. cbn. auto 12. Qed.
Lemma hpos_rejected ig (i0 i1 gate o0 o1 : T) v : let r := fuseHorizontalPosition ig i0 i1 gate o0 o1 v in
  r_ok r = false -> vp_same v (r_v r) /\ (ig = false -> v_rej_hpos (r_v r) = true).
Proof.
  unfold fuseHorizontalPosition. cbv zeta. destruct (_ || _) eqn:E.
  - destruct ig; cbn [andb]; [|cbn [r_ok]; discriminate]. destruct (sgt _ _); cbn [r_ok r_v]; [|discriminate]. intros _. unfold vp_same. split; [auto 12|discriminate].
  - cbn [r_ok r_v]. intros _. unfold vp_same. cbn. auto 12.
Qed.
Lemma vpos_rejected b (i2 gate o2 : T) v : let r := fuseVerticalPosition b i2 gate o2 v in
  r_ok r = false -> vp_same v (r_v r) /\ v_rej_vpos (r_v r) = true.
Proof. unfold fuseVerticalPosition. cbv zeta. destruct (_ || _); cbn [r_ok r_v]; [discriminate|]. intros _. unfold vp_same. cbn. auto 12. Qed.

Lemma vpFuse_fields (i var : T) k v : let w := vpFuse i var k v in
  v_rej_hvel w = v_rej_hvel v /\ v_rej_vvel w = v_rej_vvel v /\ v_rej_hpos w = v_rej_hpos v /\ v_rej_vpos w = v_rej_vpos v /\
  v_t_hvel w = v_t_hvel v /\ v_t_vvel w = v_t_vvel v /\ v_t_hpos w = v_t_hpos v /\ v_t_delpos w = v_t_delpos v /\ v_t_hgt w = v_t_hgt v.
Proof. unfold vpFuse. cbv zeta. destruct (fuseVelPosHeight _ _ _ _ _) as [[c' s'] h]. cbn. auto 12. Qed.
Lemma fusion_now (i var : T) k (c : covctx T) s : x_time_last_imu (fst (fst (fuseVelPosHeight i var k c s))) = x_time_last_imu c.
Proof. unfold fuseVelPosHeight, applyUpdate. destruct (checkAndFix _ _ _) as [M h]. destruct h; reflexivity. Qed.

Lemma hvel_accepted (i0 i1 gate o0 o1 : T) v : let r := fuseHorizontalVelocity i0 i1 gate o0 o1 v in
  r_ok r = true -> v_rej_hvel (r_v r) = false /\ v_t_hvel (r_v r) = x_time_last_imu (v_c v) /\
  v_t_hpos (r_v r) = v_t_hpos v /\ v_t_vvel (r_v r) = v_t_vvel v /\ v_t_hgt (r_v r) = v_t_hgt v /\ v_t_delpos (r_v r) = v_t_delpos v.
Proof.
  unfold fuseHorizontalVelocity. cbv zeta. destruct (sle _ _); cbn [r_ok r_v]; [|discriminate]. intros _.
  match goal with |- context [vpFuse i1 ?a 1 (vpFuse i0 ?b 0 ?w)] => set (w0 := w); destruct (vpFuse_fields i1 a 1 (vpFuse i0 b 0 w0)) as (-> & _ & _ & _ & -> & -> & -> & -> & ->);
    destruct (vpFuse_fields i0 b 0 w0) as (-> & _ & _ & _ & -> & -> & -> & -> & ->) end. cbn. auto 12.
Qed.
Lemma hpos_accepted ig (i0 i1 gate o0 o1 : T) v : let r := fuseHorizontalPosition ig i0 i1 gate o0 o1 v in
  r_ok r = true -> v_rej_hpos (r_v r) = false /\
  v_t_hpos (r_v r) = (if v_odom v then v_t_hpos v else x_time_last_imu (v_c v)) /\
  v_t_delpos (r_v r) = (if v_odom v then x_time_last_imu (v_c v) else v_t_delpos v) /\
  v_t_hvel (r_v r) = v_t_hvel v /\ v_t_vvel (r_v r) = v_t_vvel v /\ v_t_hgt (r_v r) = v_t_hgt v.
Proof.
  unfold fuseHorizontalPosition. cbv zeta. destruct (_ || _); [destruct (_ && _)|]; cbn [r_ok r_v]; [discriminate| |discriminate]. intros _.
  match goal with |- context [vpFuse i1 ?a 4 (vpFuse i0 ?b 3 ?w)] => set (w0 := w); destruct (vpFuse_fields i1 a 4 (vpFuse i0 b 3 w0)) as (_ & _ & -> & _ & -> & -> & -> & -> & ->);
    destruct (vpFuse_fields i0 b 3 w0) as (_ & _ & -> & _ & -> & -> & -> & -> & ->) end. cbn. auto 12.
Qed.
Lemma vvel_accepted b (i2 gate o2 : T) v : let r := fuseVerticalVelocity b i2 gate o2 v in
  r_ok r = true -> v_rej_vvel (r_v r) = false /\ v_t_vvel (r_v r) = x_time_last_imu (v_c v) /\
  v_t_hpos (r_v r) = v_t_hpos v /\ v_t_hvel (r_v r) = v_t_hvel v /\ v_t_hgt (r_v r) = v_t_hgt v /\ v_t_delpos (r_v r) = v_t_delpos v.
Proof.
  unfold fuseVerticalVelocity. cbv zeta. destruct (_ || _); cbn [r_ok r_v]; [|discriminate]. intros _.
  match goal with |- context [vpFuse ?i ?a 2 ?w] => set (w0 := w); destruct (vpFuse_fields i a 2 w0) as (_ & -> & _ & _ & -> & -> & -> & -> & ->) end. cbn. auto 12.
Qed.
Lemma vpos_accepted b (i2 gate o2 : T) v : let r := fuseVerticalPosition b i2 gate o2 v in
  r_ok r = true -> v_rej_vpos (r_v r) = false /\ v_t_hgt (r_v r) = x_time_last_imu (v_c v) /\
  v_t_hpos (r_v r) = v_t_hpos v /\ v_t_hvel (r_v r) = v_t_hvel v /\ v_t_vvel (r_v r) = v_t_vvel v /\ v_t_delpos (r_v r) = v_t_delpos v.
Proof.
  unfold fuseVerticalPosition. cbv zeta. destruct (_ || _); cbn [r_ok r_v]; [|discriminate]. intros _.
  match goal with |- context [vpFuse ?i ?a 5 ?w] => set (w0 := w); destruct (vpFuse_fields i a 5 w0) as (_ & _ & _ & -> & -> & -> & -> & -> & ->) end. cbn. auto 12.
Qed.
End G.

(** ** Exact arithmetic: what passes *)
Open Scope R_scope.
Lemma ratio_le (i gate var : R) : 0 < gate -> 0 < var -> (ratio i gate var <= 1 <-> Rabs i <= gate * sqrt var).
Proof.
  intros Hg Hv. unfold ratio, sq. cbn [smul sdiv RScalar].
  assert (D : 0 < gate * gate * var) by (apply Rmult_lt_0_compat; [nra|exact Hv]).
  assert (Q : gate * sqrt var * (gate * sqrt var) = gate * gate * var).
  { replace (gate * sqrt var * (gate * sqrt var)) with (gate * gate * (sqrt var * sqrt var)) by ring. rewrite sqrt_sqrt by lra. ring. }
  assert (P : 0 < gate * sqrt var) by (apply Rmult_lt_0_compat; [lra|apply sqrt_lt_R0; exact Hv]).
  assert (A : i * i = Rabs i * Rabs i) by (unfold Rabs; destruct (Rcase_abs i); ring).
  split; intros H.
  - apply (Rmult_le_compat_r _ _ _ (Rlt_le _ _ D)) in H. unfold Rdiv in H. rewrite Rmult_assoc, Rinv_l, Rmult_1_r, Rmult_1_l in H by lra.
    rewrite A, <- Q in H. pose proof (Rabs_pos i). nra.
  - apply (Rmult_le_reg_r _ _ _ D). unfold Rdiv. rewrite Rmult_assoc, Rinv_l, Rmult_1_r, Rmult_1_l by lra.
    rewrite A, <- Q. pose proof (Rabs_pos i). nra.
Qed.
Lemma sle_true (a b : R) : sle a b = true <-> a <= b.
Proof. cbn. destruct (Rle_dec a b); split; intros; auto; discriminate. Qed.
Lemma one_lit : (slit 1 1 : R) = 1. Proof. rewrite slitR. lra. Qed.

Lemma hvel_gate i0 i1 gate o0 o1 (v : vpst R) : 0 < gate ->
  let S0 := cP (v_s v) 4%nat 4%nat + o0 in let S1 := cP (v_s v) 5%nat 5%nat + o1 in 0 < S0 -> 0 < S1 ->
  (r_ok (fuseHorizontalVelocity i0 i1 gate o0 o1 v) = true <-> Rabs i0 <= gate * sqrt S0 /\ Rabs i1 <= gate * sqrt S1).
Proof.
  intros Hg S0 S1 H0 H1. unfold fuseHorizontalVelocity. cbv zeta. cbn [sadd RScalar]. fold S0 S1.
  rewrite <- (ratio_le i0 gate S0), <- (ratio_le i1 gate S1) by assumption.
  destruct (sle _ _) eqn:E; cbn [r_ok]; (split; [intros X|intros [X Y]]; [|try reflexivity]).
  - apply sle_true in E. rewrite one_lit in E. cbn [sfmax RScalar] in E. split; (eapply Rle_trans; [|exact E]); [apply Rmax_l|apply Rmax_r].
  - discriminate.
  - exfalso. apply Bool.not_true_iff_false in E. apply E. apply sle_true. rewrite one_lit. apply Rmax_lub; assumption.
Qed.
Lemma hpos_gate ig i0 i1 gate o0 o1 (v : vpst R) : 0 < gate ->
  let S0 := cP (v_s v) 7%nat 7%nat + o0 in let S1 := cP (v_s v) 8%nat 8%nat + o1 in 0 < S0 -> 0 < S1 ->
  (r_ok (fuseHorizontalPosition ig i0 i1 gate o0 o1 v) = true <->
   let lim := if ig then 100 else gate in Rabs i0 <= lim * sqrt S0 /\ Rabs i1 <= lim * sqrt S1).
Proof.
  intros Hg S0 S1 H0 H1. unfold fuseHorizontalPosition. cbv zeta. cbn [sadd RScalar]. fold S0 S1.
  destruct ig; cbn [andb].
  - rewrite orb_true_r.
    assert (RR : forall i Sv, 0 < Sv -> (ratio i gate Sv <= sq (sdiv (slit 100 1) gate) <-> Rabs i <= 100 * sqrt Sv)).
    { intros i Sv HS. rewrite <- (ratio_le i 100 Sv) by lra. unfold ratio, sq. rewrite slitR. cbn [smul sdiv RScalar].
      assert (D : 0 < / (gate * gate * Sv)) by (apply Rinv_0_lt_compat, Rmult_lt_0_compat; [nra|exact HS]).
      assert (G : 0 < gate * gate) by nra.
      replace (i * i / (gate * gate * Sv)) with ((100 / gate) * (100 / gate) * (i * i / (100 * 100 * Sv))) by (field; lra).
      assert (C : 0 < (100 / gate) * (100 / gate)) by (assert (0 < 100 / gate) by (apply Rdiv_lt_0_compat; lra); nra).
      replace (100 / 1 / gate) with (100 / gate) by (field; lra).
      split; intros H; [apply (Rmult_le_reg_l _ _ _ C); lra|apply Rle_trans with (100 / gate * (100 / gate) * 1); [apply Rmult_le_compat_l; lra|lra]]. }
    rewrite <- (RR i0 S0), <- (RR i1 S1) by assumption.
    destruct (sgt _ _) eqn:E; cbn [r_ok]; (split; [intros X|intros [X Y]]); try discriminate; try reflexivity.
    + exfalso. unfold sgt in E. apply sltR_true in E. cbn [sfmax RScalar] in E. apply (Rlt_irrefl (Rmax (ratio i0 gate S0) (ratio i1 gate S1))).
      eapply Rle_lt_trans; [|exact E]. apply Rmax_lub; assumption.
    + unfold sgt in E. apply sltR_false in E. cbn [sfmax RScalar] in E. split; (eapply Rle_trans; [|exact E]); [apply Rmax_l|apply Rmax_r].
  - rewrite orb_false_r. rewrite <- (ratio_le i0 gate S0), <- (ratio_le i1 gate S1) by assumption.
    destruct (sle _ _) eqn:E; cbn [r_ok]; (split; [intros X|intros [X Y]]); try discriminate; try reflexivity.
    + apply sle_true in E. rewrite one_lit in E. cbn [sfmax RScalar] in E. split; (eapply Rle_trans; [|exact E]); [apply Rmax_l|apply Rmax_r].
    + exfalso. apply Bool.not_true_iff_false in E. apply E. apply sle_true. rewrite one_lit. apply Rmax_lub; assumption.
Qed.
Lemma vert_gate (pos b : bool) i2 gate o2 (v : vpst R) : 0 < gate ->
  let k := if pos then 9%nat else 6%nat in let S2 := cP (v_s v) k k + o2 in 0 < S2 ->
  (r_ok (if pos then fuseVerticalPosition b i2 gate o2 v else fuseVerticalVelocity b i2 gate o2 v) = true <-> b = true \/ Rabs i2 <= gate * sqrt S2).
Proof.
  intros Hg k S2 H2.
  assert (E : r_ok (if pos then fuseVerticalPosition b i2 gate o2 v else fuseVerticalVelocity b i2 gate o2 v) = sle (ratio i2 gate S2) 1 || b).
  { unfold S2, k. destruct pos; unfold fuseVerticalPosition, fuseVerticalVelocity; cbv zeta; rewrite one_lit; cbn [sadd RScalar]; destruct (_ || _); reflexivity. }
  rewrite E, orb_true_iff, sle_true, ratio_le by assumption. tauto.
Qed.
(** with bad vertical acceleration the innovation actually used is within the gate *)
Lemma usedInnov_bounded b i gate var : 0 < gate -> 0 < var ->
  let u := usedInnov b (sle (ratio i gate var) 1) i gate var in
  (b = true -> Rabs u <= gate * sqrt var) /\ (Rabs i <= gate * sqrt var -> u = i).
Proof.
  intros Hg Hv. cbv zeta. unfold usedInnov.
  assert (P : 0 < gate * sqrt var) by (apply Rmult_lt_0_compat; [lra|apply sqrt_lt_R0; exact Hv]).
  destruct (sle _ _) eqn:E.
  - apply sle_true in E. apply ratio_le in E; [|assumption..]. rewrite andb_false_r. auto.
  - apply Bool.not_true_iff_false in E. rewrite sle_true, ratio_le in E by assumption. destruct b; cbn [andb negb]; split; intros; try contradiction; try discriminate.
    rewrite sconstrainR. cbn [sopp smul ssqrt RScalar]. unfold Rabs. destruct (Rlt_dec _ _); [destruct (Rcase_abs _); lra|]. destruct (Rlt_dec _ _); destruct (Rcase_abs _); lra.
Qed.

(** ** binary32: NaN *)
Open Scope nat_scope.
Lemma fmul_nan_r (a : f32) : fmul a fnan = fnan. Proof. destruct a; reflexivity. Qed.
Lemma fmul_nan_l (a : f32) : fmul fnan a = fnan. Proof. destruct a; reflexivity. Qed.
Lemma fdiv_nan_l (a : f32) : fdiv fnan a = fnan. Proof. destruct a; reflexivity. Qed.
Lemma fsub_nan_r (a : f32) : fsub a fnan = fnan. Proof. destruct a; reflexivity. Qed.
Lemma fsub_nan_l (a : f32) : fsub fnan a = fnan. Proof. destruct a; reflexivity. Qed.
Lemma fle_nan_l (a : f32) : fle fnan a = false. Proof. destruct a as [[]|[]| |[]]; reflexivity. Qed.
Lemma ratio_nan (g var : f32) : ratio fnan g var = fnan.
Proof. unfold ratio, sq. cbn [smul sdiv FScalar]. rewrite fmul_nan_l. apply fdiv_nan_l. Qed.
Lemma fmax_nan_l (a : f32) : c_fmaxf fnan a = a. Proof. unfold c_fmaxf. cbn [is_nan fis_nan]. reflexivity. Qed.
Lemma fmax_nan_r (a : f32) : c_fmaxf a fnan = a.
Proof. unfold c_fmaxf. destruct a as [[]|[]| |[] ]; reflexivity. Qed.

Lemma hvel_nan_both gate o0 o1 (v : vpst f32) : r_ok (fuseHorizontalVelocity fnan fnan gate o0 o1 v) = false.
Proof. unfold fuseHorizontalVelocity. cbv zeta. rewrite !ratio_nan. cbn [sfmax sle FScalar]. rewrite fmax_nan_l, fle_nan_l. reflexivity. Qed.
Lemma hpos_nan_both gate o0 o1 (v : vpst f32) : r_ok (fuseHorizontalPosition false fnan fnan gate o0 o1 v) = false.
Proof. unfold fuseHorizontalPosition. cbv zeta. rewrite !ratio_nan. cbn [sfmax sle FScalar]. rewrite fmax_nan_l, fle_nan_l. reflexivity. Qed.
Lemma vvel_nan gate o2 (v : vpst f32) : r_ok (fuseVerticalVelocity false fnan gate o2 v) = false.
Proof. unfold fuseVerticalVelocity. cbv zeta. rewrite !ratio_nan. cbn [sle FScalar]. rewrite fle_nan_l. reflexivity. Qed.
Lemma vpos_nan gate o2 (v : vpst f32) : r_ok (fuseVerticalPosition false fnan gate o2 v) = false.
Proof. unfold fuseVerticalPosition. cbv zeta. rewrite !ratio_nan. cbn [sle FScalar]. rewrite fle_nan_l. reflexivity. Qed.
Lemma hvel_nan_masked i1 gate o0 o1 (v : vpst f32) :
  fle (ratio i1 gate (fadd (cP (v_s v) 5 5) o1)) (flit 1 1) = true -> r_ok (fuseHorizontalVelocity fnan i1 gate o0 o1 v) = true.
Proof.
  intros H. unfold fuseHorizontalVelocity. cbv zeta. rewrite ratio_nan. cbn [sfmax sle FScalar]. rewrite fmax_nan_l.
  change (sadd (cP (v_s v) 5 5) o1) with (fadd (cP (v_s v) 5 5) o1). change (slit 1 1 : f32) with (flit 1 1). rewrite H. reflexivity.
Qed.
Lemma hpos_nan_ungated gate o0 o1 (v : vpst f32) : r_ok (fuseHorizontalPosition true fnan fnan gate o0 o1 v) = true.
Proof.
  unfold fuseHorizontalPosition. cbv zeta. rewrite !ratio_nan. cbn [sfmax FScalar]. rewrite fmax_nan_l, orb_true_r. cbn [andb].
  unfold sgt. cbn [slt FScalar]. rewrite flt_nan_r. reflexivity.
Qed.

Lemma fuse_nan_innov (K x : Vec f32) i : fuse K fnan x i = fnan.
Proof.
  unfold fuse, normQuat, fuseRaw. cbv zeta. cbn [ssub smul FScalar]. rewrite fmul_nan_r, fsub_nan_r.
  destruct (i <? 4); [apply fdiv_nan_l|reflexivity].
Qed.
Lemma fuse_nan_state (K x : Vec f32) innov i : x i = fnan -> fuse K innov x i = fnan.
Proof.
  intros H. unfold fuse, normQuat, fuseRaw. cbv zeta. cbn [ssub smul FScalar]. rewrite H, fsub_nan_l.
  destruct (i <? 4); [apply fdiv_nan_l|reflexivity].
Qed.
Lemma vpFuse_nan_state innov var k (v : vpst f32) i : x_st (v_c v) i = fnan -> x_st (v_c (vpFuse innov var k v)) i = fnan.
Proof.
  intros H. unfold vpFuse, fuseVelPosHeight, applyUpdate. destruct (checkAndFix _ _ _) as [M h]. destruct h; cbn [v_c x_st setState]; [|exact H].
  apply fuse_nan_state. exact H.
Qed.
Lemma vpFuse_nan_innov var k (v : vpst f32) i : v_bad (vpFuse fnan var k v) k = false -> x_st (v_c (vpFuse fnan var k v)) i = fnan.
Proof.
  unfold vpFuse, fuseVelPosHeight, applyUpdate. destruct (checkAndFix _ _ _) as [M h]. destruct h; cbn [v_c v_bad x_st setState]; rewrite Nat.eqb_refl; [|discriminate].
  intros _. apply fuse_nan_innov.
Qed.
(** a NaN north velocity innovation next to an acceptable east one destroys all 24 states *)
Lemma hvel_nan_poison i1 gate o0 o1 (v : vpst f32) : let r := fuseHorizontalVelocity fnan i1 gate o0 o1 v in
  r_ok r = true -> v_bad (r_v r) 0 = false -> forall i, x_st (v_c (r_v r)) i = fnan.
Proof.
  unfold fuseHorizontalVelocity. cbv zeta. destruct (sle _ _); cbn [r_ok r_v]; [|discriminate]. intros _ HB i.
  apply vpFuse_nan_state. apply vpFuse_nan_innov. revert HB. unfold vpFuse at 1. destruct (fuseVelPosHeight i1 _ _ _ _) as [[c' s'] h]. cbn [v_bad Nat.eqb]. auto.
Qed.

(** * NaN propagation through the model, and agreement of NanModel.v with PredictModel.v *)
From Coq Require Import Reals Lra Lia.
From Verif Require Import CBase F32 Scalar CovModel CovPredGen FusionGen FusionModel RingBufferModel RingBufferProofs OutputModel OutputHist RealGeom RotModel PredictModel NanModel Props_Sense Props_Sense2.
Open Scope nat_scope.

(** ** Operators *)
Lemma nan_sub_r (a b : f32) : is_nan b = true -> is_nan (fsub a b) = true.
Proof. destruct b; try discriminate. destruct a as [[]|[]| |[] ? ? ?]; reflexivity. Qed.
Lemma nan_div_l (a b : f32) : is_nan a = true -> is_nan (fdiv a b) = true.
Proof. destruct a; try discriminate. destruct b as [[]|[]| |[] ? ? ?]; reflexivity. Qed.
Lemma nan_div_r (a b : f32) : is_nan b = true -> is_nan (fdiv a b) = true.
Proof. destruct b; try discriminate. destruct a as [[]|[]| |[] ? ? ?]; reflexivity. Qed.
Lemma nan_neg (a : f32) : is_nan a = true -> is_nan (fneg a) = true.
Proof. destruct a; try discriminate. reflexivity. Qed.
Lemma nan_abs (a : f32) : is_nan a = true -> is_nan (fabs a) = true.
Proof. destruct a; try discriminate. reflexivity. Qed.
Create HintDb nan.
#[export] Hint Resolve nan_add_l nan_add_r nan_sub_l nan_sub_r nan_mul_l nan_mul_r nan_div_l nan_div_r nan_neg nan_abs nan_sqrt : nan.
Ltac fsc := cbn [sadd ssub smul sdiv sopp sabs ssqrt slt sle sfmax FScalar].
Lemma nan_sq (a : f32) : is_nan a = true -> is_nan (sq a) = true. Proof. intros H. unfold sq. fsc. auto with nan. Qed.
#[export] Hint Resolve nan_sq : nan.
Lemma nan_constrain (v lo hi : f32) : is_nan v = true -> is_nan (sconstrain v lo hi) = true.
Proof. intros H. unfold sconstrain. fsc. rewrite (nan_lt_l _ _ H), (nan_lt_r _ _ H). exact H. Qed.
Definition nan_fun (f : f32 -> f32) : Prop := forall a, is_nan a = true -> is_nan (f a) = true.

Definition nan4 (x : Vec f32) : Prop := forall k, k < 4 -> is_nan (x k) = true.
Definition nan3 (x : Vec f32) : Prop := forall k, k < 3 -> is_nan (x k) = true.
Definition nan24 (x : Vec f32) : Prop := forall k, k < 24 -> is_nan (x k) = true.
Definition some4 (x : Vec f32) : Prop := exists k, k < 4 /\ is_nan (x k) = true.
Definition some3 (x : Vec f32) : Prop := exists k, k < 3 /\ is_nan (x k) = true.

Lemma qnormv_nan (q : Vec f32) : some4 q -> nan4 (qnormv q).
Proof.
  intros (k & Hk & N) j _. unfold qnormv. assert (ND : is_nan (ssqrt (qdot q q)) = true).
  { unfold qdot. fsc. apply nan_sqrt. destruct k as [|[|[|[|k]]]]; [| | | |lia]; auto 6 with nan. }
  fsc. apply nan_div_r. exact ND.
Qed.
Lemma qmulv_nan_l (p q : Vec f32) : some4 p -> nan4 (qmulv p q).
Proof. intros (k & Hk & N) j Hj. destruct k as [|[|[|[|k]]]]; [| | | |lia]; destruct j as [|[|[|[|j]]]]; try lia; cbn [qmulv]; fsc; auto 8 with nan. Qed.
Lemma qmulv_nan_r (p q : Vec f32) : some4 q -> nan4 (qmulv p q).
Proof. intros (k & Hk & N) j Hj. destruct k as [|[|[|[|k]]]]; [| | | |lia]; destruct j as [|[|[|[|j]]]]; try lia; cbn [qmulv]; fsc; auto 8 with nan. Qed.
Lemma nan4_some x : nan4 x -> some4 x. Proof. intros H. exists 0. split; [lia|apply H; lia]. Qed.
Lemma qinvv_nan (q : Vec f32) : some4 q -> nan4 (qinvv q).
Proof.
  intros (k & Hk & N) j Hj. assert (ND : is_nan (qdot q q) = true).
  { unfold qdot. fsc. destruct k as [|[|[|[|k]]]]; [| | | |lia]; auto 6 with nan. }
  unfold qinvv. destruct j; fsc; auto with nan.
Qed.
Lemma dcmv_nan (q : Vec f32) : some4 q -> forall i j, is_nan (dcmv q i j) = true.
Proof.
  intros (k & Hk & N) i j. destruct k as [|[|[|[|k]]]]; [| | | |lia]; destruct i as [|[|i]]; destruct j as [|[|j]]; cbn [dcmv]; fsc; auto 8 with nan.
Qed.
Lemma mvec_nan_m (M : Mat f32) (v : Vec f32) i : is_nan (M i 0) = true -> is_nan (OutputModel.mvec M v i) = true.
Proof. intros H. unfold OutputModel.mvec. fsc. auto 8 with nan. Qed.
Lemma mvec_nan_v (M : Mat f32) (v : Vec f32) i : some3 v -> is_nan (OutputModel.mvec M v i) = true.
Proof. intros (k & Hk & N). unfold OutputModel.mvec. fsc. destruct k as [|[|[|k]]]; [| | |lia]; auto 8 with nan. Qed.

Section Trig.
Variables (tsin tcos : f32 -> f32).
Hypotheses (Hsin : nan_fun tsin) (Hcos : nan_fun tcos).

Lemma expqG_nan (v : Vec f32) : some3 v -> nan4 (expqG tsin tcos v).
Proof.
  intros (k & Hk & N) j Hj. assert (NA : is_nan (nrm3 v) = true).
  { unfold nrm3. fsc. apply nan_sqrt. destruct k as [|[|[|k]]]; [| | |lia]; auto 6 with nan. }
  unfold expqG. fsc. rewrite (nan_lt_l _ _ NA). destruct j; [apply Hcos; auto with nan|]. apply nan_mul_l, nan_div_r, NA.
Qed.
Lemma predQuat_nan earth i (s : predG f32) : some4 (g_x s) \/ some3 (gi_da i) -> nan4 (predQuat tsin tcos earth i s).
Proof.
  intros [H|(k & Hk & N)]; apply qnormv_nan, nan4_some; [apply qmulv_nan_l, H|].
  apply qmulv_nan_r, nan4_some, expqG_nan. exists k. split; [exact Hk|]. unfold corrected_daG. fsc. auto with nan.
Qed.
Lemma predDv_nan earth i (s : predG f32) : some4 (g_x s) \/ some3 (gi_da i) \/ some3 (gi_dv i) -> nan3 (predDv tsin tcos earth i s).
Proof.
  intros H k Hk. assert (C : (some4 (g_x s) \/ some3 (gi_da i)) \/ some3 (gi_dv i)) by tauto. clear H. destruct C as [H|(j & Hj & N)]; unfold predDv.
  - apply mvec_nan_m. apply dcmv_nan, nan4_some, predQuat_nan, H.
  - apply mvec_nan_v. exists j. split; [exact Hj|]. fsc. auto with nan.
Qed.
Lemma predVel_nan earth i (s : predG f32) k : k < 3 -> some4 (g_x s) \/ some3 (gi_da i) \/ some3 (gi_dv i) -> is_nan (predVel tsin tcos earth i s k) = true.
Proof. intros Hk H. unfold predVel. pose proof (predDv_nan earth i s H k Hk) as N. destruct (k =? 2); fsc; auto with nan. Qed.
Lemma predictG_quat r20 lim earth i (s : predG f32) : some4 (g_x s) \/ some3 (gi_da i) -> nan4 (g_x (predictG tsin tcos r20 lim earth i s)).
Proof.
  intros H k Hk. cbn [predictG g_x]. unfold constrainG. apply nan_constrain. unfold predRaw. rewrite (proj2 (Nat.ltb_lt k 4) Hk).
  apply predQuat_nan; assumption.
Qed.
Lemma predictG_vp r20 lim earth i (s : predG f32) : some4 (g_x s) \/ some3 (gi_da i) \/ some3 (gi_dv i) ->
  forall k, 4 <= k < 10 -> is_nan (g_x (predictG tsin tcos r20 lim earth i s) k) = true.
Proof.
  intros H k Hk. cbn [predictG g_x]. unfold constrainG. apply nan_constrain. unfold predRaw.
  destruct (Nat.ltb_spec k 4); [lia|]. destruct (Nat.ltb_spec k 7); [apply predVel_nan; [lia|exact H]|]. destruct (Nat.ltb_spec k 10); [|lia].
  unfold predPos. fsc. apply nan_add_r, nan_mul_l, nan_mul_l, nan_add_r, predVel_nan; [lia|exact H].
Qed.
Lemma predictG_other r20 lim earth i (s : predG f32) k : 10 <= k < 24 -> is_nan (g_x s k) = true -> is_nan (g_x (predictG tsin tcos r20 lim earth i s) k) = true.
Proof.
  intros Hk H. cbn [predictG g_x]. unfold constrainG. apply nan_constrain. unfold predRaw.
  destruct (Nat.ltb_spec k 4); [lia|]. destruct (Nat.ltb_spec k 7); [lia|]. destruct (Nat.ltb_spec k 10); [lia|]. exact H.
Qed.
Variables (tasin : f32 -> f32) (tatan2 : f32 -> f32 -> f32) (pi2 : f32).
Hypotheses (Hasin : nan_fun tasin) (Hat : forall a b, is_nan a = true -> is_nan (tatan2 a b) = true).
Lemma updateYaw_nan yaw (r : Mat f32) : (forall i j, is_nan (r i j) = true) -> forall i j, is_nan (updateYawG tsin tcos tasin tatan2 pi2 yaw r i j) = true.
Proof.
  intros H i j. unfold updateYawG. fsc. rewrite (nan_lt_l (fabs (r 2 0))) by (apply nan_abs, H).
  assert (A : is_nan (tasin (r 2 1)) = true) by (apply Hasin, H). assert (B : is_nan (tatan2 (fneg (r 2 0)) (r 2 2)) = true) by (apply Hat, nan_neg, H).
  pose proof (Hsin _ A) as SA. pose proof (Hcos _ A) as CA. pose proof (Hsin _ B) as SB. pose proof (Hcos _ B) as CB.
  unfold rot312G. fsc. destruct i as [|[|i]]; destruct j as [|[|j]]; auto 8 with nan.
Qed.
Lemma quatOf_nan (r : Mat f32) : (forall i j, is_nan (r i j) = true) -> nan4 (quatOfG r).
Proof.
  intros H k Hk. unfold quatOfG. cbv zeta. fsc.
  rewrite (nan_lt_r szero) by (apply nan_add_l, nan_add_l, H). rewrite (nan_lt_l (r 1 1)) by apply H. cbn [andb]. rewrite (nan_lt_l (r 2 2)) by apply H.
  pose proof (H 0 0) as A. destruct k as [|[|[|k]]]; auto 9 with nan.
Qed.
Lemma yawReset_nan yaw (x : Vec f32) : some4 x -> nan4 (yawResetG tsin tcos tasin tatan2 pi2 yaw x).
Proof.
  intros H k Hk. unfold yawResetG. rewrite (proj2 (Nat.ltb_lt k 4) Hk). apply quatOf_nan; [|exact Hk]. apply updateYaw_nan. apply dcmv_nan, H.
Qed.
End Trig.

(** ** Fusion *)
Lemma fuse_nan (K : Vec f32) innov (x : Vec f32) : is_nan innov = true -> forall i, is_nan (fuse K innov x i) = true.
Proof.
  intros H i. unfold fuse, normQuat. assert (R : forall i, is_nan (fuseRaw K innov x i) = true) by (intros j; unfold fuseRaw; fsc; auto with nan).
  destruct (i <? 4); [fsc; auto with nan|apply R].
Qed.
Lemma fuse_keep (K : Vec f32) innov (x : Vec f32) : (forall i, 4 <= i -> is_nan (x i) = true -> is_nan (fuse K innov x i) = true) /\ (some4 x -> nan4 (fuse K innov x)).
Proof.
  split.
  - intros i Hi N. unfold fuse, normQuat. destruct (Nat.ltb_spec i 4); [lia|]. unfold fuseRaw. fsc. auto with nan.
  - intros (k & Hk & N) j Hj. unfold fuse, normQuat. cbv zeta. rewrite (proj2 (Nat.ltb_lt j 4) Hj). fsc. apply nan_div_r, nan_sqrt.
    assert (R : is_nan (fuseRaw K innov x k) = true) by (unfold fuseRaw; fsc; auto with nan).
    destruct k as [|[|[|[|k]]]]; [| | | |lia]; auto 6 with nan.
Qed.
Lemma applyUpdate_nan (KHP : Mat f32) (K : Vec f32) (innov : f32) (c : covctx f32) (s : covst f32) : is_nan innov = true ->
  let '(c', s', ok) := applyUpdate KHP K innov c s in if ok then (forall i, is_nan (x_st c' i) = true) else c' = c.
Proof.
  intros H. unfold applyUpdate. destruct (checkAndFix 24 KHP (cP s)) as [M1 ok]. destruct ok; [|reflexivity]. intros i. cbn [x_st setState]. apply fuse_nan, H.
Qed.
Lemma mupd_nan (K : Vec f32) (H : list (nat * f32)) (innov : f32) (f : fus f32) : is_nan innov = true ->
  (snd (mupd K H innov f) = true -> forall i, is_nan (fx (fst (mupd K H innov f)) i) = true) /\ (snd (mupd K H innov f) = false -> fx (fst (mupd K H innov f)) = fx f).
Proof.
  intros N. unfold mupd, measurementUpdate. set (K' := fun i => _).
  pose proof (applyUpdate_nan (computeKHP (cP (fs f)) K' H) K' innov (fc f) (fs f) N) as A.
  destruct (applyUpdate _ K' innov (fc f) (fs f)) as [[c s] ok]. cbn [fst snd]. destruct ok; split; intros; try discriminate.
  - apply A. - unfold fx. cbn [fc setCS]. rewrite A. reflexivity.
Qed.
Lemma mupd_keep (K : Vec f32) (H : list (nat * f32)) (innov : f32) (f : fus f32) : (forall i, is_nan (fx f i) = true) -> forall i, is_nan (fx (fst (mupd K H innov f)) i) = true.
Proof.
  intros N i. unfold mupd, measurementUpdate. set (K' := fun i => _). unfold applyUpdate. destruct (checkAndFix 24 _ _) as [M1 ok]. destruct ok; cbn [fst]; [|apply N].
  unfold fx. cbn [fc setCS x_st setState]. destruct (fuse_keep K' innov (x_st (fc f))) as [A B]. destruct (le_lt_dec 4 i); [apply A; [assumption|apply N]|].
  apply B; [|assumption]. exists 0. split; [lia|apply (N 0)].
Qed.
Lemma mupd_frame (K : Vec f32) (H : list (nat * f32)) (innov : f32) (f : fus f32) : let g := fst (mupd K H innov f) in
  fbad g = fbad f /\ frej g = frej f /\ ftime g = ftime f /\ fi g = fi f /\ fr g = fr f /\ fv g = fv f /\ faspd g = faspd f.
Proof. cbv zeta. unfold mupd. destruct (measurementUpdate K H innov (fc f) (fs f)) as [[c s] ok]. cbn. auto 10. Qed.
Lemma ratio_nan (innov gate var : f32) : is_nan innov = true -> is_nan (ratio innov gate var) = true.
Proof. intros H. unfold ratio. fsc. auto with nan. Qed.

(** ** Read over the reals, the functions are those of PredictModel.v and RotModel.v *)
Section Real.
Local Open Scope R_scope.
Definition v3of (v : Vec R) : V3 := mkV (v 0%nat) (v 1%nat) (v 2%nat).
Definition q4of (v : Vec R) : Q4 := mkQ (v 0%nat) (v 1%nat) (v 2%nat) (v 3%nat).
Definition m3of (m : Mat R) : M3 := mkM (m 0%nat 0%nat) (m 0%nat 1%nat) (m 0%nat 2%nat) (m 1%nat 0%nat) (m 1%nat 1%nat) (m 1%nat 2%nat) (m 2%nat 0%nat) (m 2%nat 1%nat) (m 2%nat 2%nat).
Definition stof (x : Vec R) : pstate := PState (q4of x) (v3of (fun k => x (4 + k)%nat)) (v3of (fun k => x (7 + k)%nat)) (v3of (fun k => x (10 + k)%nat)) (v3of (fun k => x (13 + k)%nat))
  (v3of (fun k => x (16 + k)%nat)) (v3of (fun k => x (19 + k)%nat)) (x 22%nat) (x 23%nat).
Definition prof (g : predG R) : pred := Pred (stof (g_x g)) (m3of (g_R g)) (g_lpn g) (g_lpe g) (g_dt g) (v3of (g_rate g)).
Definition imuof (i : gimu R) : pimu := Pimu (v3of (gi_da i)) (v3of (gi_dv i)) (gi_dadt i) (gi_dvdt i).

Ltac rsc := cbn [sadd ssub smul sdiv sopp sabs ssqrt slt sle slit sfmax RScalar].
Lemma q4_mul p q : q4of (qmulv p q) = qmul (q4of p) (q4of q).
Proof. reflexivity. Qed.
Lemma q4_norm q : q4of (qnormv q) = qnormalize (q4of q).
Proof.
  unfold q4of, qnormv, qnormalize, qscale, qdot, qnorm2, szero. rsc. cbn [q0 q1 q2 q3].
  replace (0 / 1 + q 0%nat * q 0%nat + q 1%nat * q 1%nat + q 2%nat * q 2%nat + q 3%nat * q 3%nat) with (q 0%nat ^ 2 + q 1%nat ^ 2 + q 2%nat ^ 2 + q 3%nat ^ 2) by field.
  f_equal; unfold Rdiv; ring.
Qed.
Lemma m3_dcm q : m3of (dcmv q) = dcm (q4of q).
Proof. unfold m3of, dcmv, dcm, q4of. rsc. cbn [q0 q1 q2 q3]. f_equal; field. Qed.
Lemma v3_mvec M v : v3of (OutputModel.mvec M v) = mapp (m3of M) (v3of v).
Proof. unfold v3of, OutputModel.mvec, mapp, m3of, szero. rsc. cbn [vx vy vz m00 m01 m02 m10 m11 m12 m20 m21 m22]. f_equal; field. Qed.
Lemma nrm3_real v : nrm3 v = sqrt (vnorm2 (v3of v)).
Proof. unfold nrm3, vnorm2, vdot, v3of, szero. rsc. cbn [vx vy vz]. f_equal. field. Qed.
Lemma q4_exp v : q4of (expqG sin cos v) = qexp (v3of v).
Proof.
  unfold expqG, qexp. rewrite nrm3_real. set (a := sqrt (vnorm2 (v3of v))). cbv zeta. rsc.
  replace (IZR 1 / IZR 10000000000) with (1 / 10 ^ 10) by lra.
  destruct (Rlt_dec a (1 / 10 ^ 10)).
  - unfold q4of, qone, sone, szero. rsc. cbn [Nat.eqb]. f_equal; lra.
  - unfold q4of, v3of. cbn [vx vy vz]. change (IZR 2 / IZR 1) with (2 / 1). replace (2 / 1) with 2 by lra. reflexivity.
Qed.
Lemma da_real earth i s : v3of (corrected_daG earth i s) = corrected_da (v3of earth) (imuof i) (prof s).
Proof.
  unfold corrected_daG, corrected_da. cbn [prof p_s stof s_ab p_R imuof pi_da pi_dadt].
  assert (E : mtr (m3of (g_R s)) = m3of (fun a b => g_R s b a)) by reflexivity. rewrite E, <- v3_mvec.
  unfold v3of, vsub, vscale. rsc. cbn [vx vy vz]. f_equal; ring.
Qed.
Lemma quat_real earth i s : q4of (predQuat sin cos earth i s) = qnormalize (qmul (q4of (g_x s)) (qexp (corrected_da (v3of earth) (imuof i) (prof s)))).
Proof. unfold predQuat. rewrite q4_norm, q4_mul, q4_exp, da_real. reflexivity. Qed.
Lemma dv_real earth i s : v3of (predDv sin cos earth i s) = mapp (dcm (q4of (predQuat sin cos earth i s))) (vsub (v3of (gi_dv i)) (v3of (fun k => g_x s (13 + k)%nat))).
Proof. unfold predDv. rewrite v3_mvec, m3_dcm. f_equal. Qed.
Lemma con_real (x l : R) : sconstrain x (- l)%scal l = rcon (- l) l x.
Proof. unfold sconstrain, rcon. rsc. destruct (Rlt_dec x (- l)); [reflexivity|]. destruct (Rlt_dec l x); reflexivity. Qed.
Lemma con_real2 (x lo hi : R) : sconstrain x lo hi = rcon lo hi x.
Proof. unfold sconstrain, rcon. rsc. destruct (Rlt_dec x lo); [reflexivity|]. destruct (Rlt_dec hi x); reflexivity. Qed.
Lemma st_constrain lim dt (x : Vec R) : stof (constrainG (20 * PI / 180) lim dt x) = constrainStates lim dt (stof x).
Proof.
  assert (A : (IZR 1 / IZR 1) = 1) by lra. assert (B : (IZR 1000 / IZR 1) = 1000) by lra. assert (C : (IZR 1000000 / IZR 1) = 1000000) by lra. assert (D : (IZR 100 / IZR 1) = 100) by lra.
  unfold constrainG, constrainStates, stof, q4of, v3of, qcon, vcon. cbn [s_q s_v s_p s_ab s_vb s_mi s_mb s_wn s_we vx vy vz q0 q1 q2 q3].
  rewrite !con_real. unfold limitG. cbn [Nat.ltb Nat.leb Nat.add]. rsc. rewrite A, B, C, D. reflexivity.
Qed.
Theorem predictG_real lim earth i s : prof (predictG sin cos (20 * PI / 180) lim earth i s) = predictState lim (v3of earth) (imuof i) (prof s).
Proof.
  unfold predictState. cbn [prof p_s stof s_q s_v s_p s_ab s_vb s_mi s_mb s_wn s_we p_dt p_lpn p_lpe p_rate imuof pi_dadt pi_dvdt pi_dv pi_da].
  fold (imuof i). change (Pred (stof (g_x s)) (m3of (g_R s)) (g_lpn s) (g_lpe s) (g_dt s) (v3of (g_rate s))) with (prof s).
  rewrite <- quat_real. rewrite <- dv_real. rewrite <- m3_dcm.
  unfold prof at 1. cbn [predictG g_x g_R g_lpn g_lpe g_dt g_rate]. rewrite st_constrain.
  assert (V : forall k, (k < 3)%nat -> predVel sin cos earth i s k = g_x s (4 + k)%nat + predDv sin cos earth i s k + (if (k =? 2)%nat then gravity * gi_dvdt i else 0)).
  { intros k Hk. unfold predVel, gravity. destruct (k =? 2)%nat; rsc; lra. }
  assert (E : stof (predRaw sin cos earth i s) = PState (q4of (predQuat sin cos earth i s)) (v3of (predVel sin cos earth i s)) (v3of (predPos sin cos earth i s))
     (v3of (fun k => g_x s (10 + k)%nat)) (v3of (fun k => g_x s (13 + k)%nat)) (v3of (fun k => g_x s (16 + k)%nat)) (v3of (fun k => g_x s (19 + k)%nat)) (g_x s 22%nat) (g_x s 23%nat)) by reflexivity.
  assert (VV : v3of (predVel sin cos earth i s) = mkV (g_x s 4%nat + predDv sin cos earth i s 0%nat) (g_x s 5%nat + predDv sin cos earth i s 1%nat) (g_x s 6%nat + predDv sin cos earth i s 2%nat + gravity * gi_dvdt i)).
  { unfold v3of. rewrite !V by lia. cbn [Nat.eqb Nat.add]. f_equal; ring. }
  assert (PP : v3of (predPos sin cos earth i s) = vadd (v3of (fun k => g_x s (7 + k)%nat)) (vscale (1 / 2) (vscale (gi_dvdt i) (vadd (v3of (fun k => g_x s (4 + k)%nat)) (v3of (predVel sin cos earth i s)))))).
  { unfold predPos, v3of, vadd, vscale. rsc. cbn [vx vy vz]. f_equal; field. }
  rewrite E, PP, VV. f_equal.
  - unfold v3of, vadd, vscale. cbn [vx vy vz Nat.add]. f_equal.
  - rsc. cbn [vx v3of]. lra.
  - rsc. cbn [vy v3of]. lra.
  - rsc. rewrite con_real2.
    replace (IZR 1 / IZR 2 * (IZR 1 / IZR 100)) with (1 / 200) by lra. replace (IZR 2 / IZR 1 * (IZR 1 / IZR 100)) with (2 / 100) by lra. reflexivity.
  - rsc. replace (IZR 1 / IZR 4 * (IZR 1 / IZR 100)) with (1 / 400) by lra. destruct (Rlt_dec (1 / 400) (gi_dadt i)); [|reflexivity].
    unfold v3of, vscale. cbn [vx vy vz]. f_equal; unfold Rdiv; ring.
Qed.

Lemma rot321_real roll pitch yaw : m3of (rot321G sin cos roll pitch yaw) = dcm321 roll pitch yaw.
Proof. unfold m3of, rot321G, dcm321. rsc. f_equal; ring. Qed.
Lemma rot312_real yaw roll pitch : m3of (rot312G sin cos yaw roll pitch) = taitBryan312ToRotMat yaw roll pitch.
Proof. unfold m3of, rot312G, taitBryan312ToRotMat. rsc. f_equal; ring. Qed.
Lemma updateYaw_real yaw r : m3of (updateYawG sin cos asin atan2 (PI / 2) yaw r) = updateYawInRotMat yaw (m3of r).
Proof.
  unfold updateYawG, updateYawInRotMat, shouldUse321. rsc. cbn [m3of m20 m21].
  destruct (Rlt_dec (Rabs (r 2%nat 0%nat)) (Rabs (r 2%nat 1%nat))).
  - rewrite rot321_real. unfold updateYaw321, euler321, rollG, szero. rsc. cbn [m3of m20 m21 m22 m12 m02 m10 m00].
    destruct (Rlt_dec (Rabs (asin (- r 2%nat 0%nat) - PI / 2)) (1 / 1000)) as [A|A]; [cbn [vx vy]; f_equal; lra|].
    destruct (Rlt_dec (Rabs (asin (- r 2%nat 0%nat) + PI / 2)) (1 / 1000)) as [B|B]; cbn [vx vy]; f_equal. lra.
  - rewrite rot312_real. reflexivity.
Qed.
Lemma quatOf_real r : q4of (quatOfG r) = quatOfDcm (m3of r).
Proof.
  assert (A : IZR 0 / IZR 1 = 0) by lra. assert (B : IZR 1 / IZR 1 = 1) by lra.
  unfold quatOfG, quatOfDcm, szero. cbv zeta. rsc. cbn [m3of m20 m21 m22 m12 m02 m10 m00 m01 m11]. rewrite A, B.
  destruct (Rlt_dec 0 (r 0%nat 0%nat + r 1%nat 1%nat + r 2%nat 2%nat)); [reflexivity|].
  destruct (Rlt_dec (r 1%nat 1%nat) (r 0%nat 0%nat)); destruct (Rlt_dec (r 2%nat 2%nat) (r 0%nat 0%nat)); cbn [andb]; try reflexivity;
  destruct (Rlt_dec (r 2%nat 2%nat) (r 1%nat 1%nat)); reflexivity.
Qed.
Theorem yawResetG_real yaw x : q4of (yawResetG sin cos asin atan2 (PI / 2) yaw x) = yawResetQuat yaw (q4of x) /\ forall i, (4 <= i)%nat -> yawResetG sin cos asin atan2 (PI / 2) yaw x i = x i.
Proof.
  split.
  - unfold yawResetQuat. rewrite <- m3_dcm, <- updateYaw_real, <- quatOf_real. reflexivity.
  - intros i Hi. unfold yawResetG. destruct (Nat.ltb_spec i 4); [lia|reflexivity].
Qed.
End Real.

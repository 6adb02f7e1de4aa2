(** * C37, continued: declination, GPS yaw, heading and magnetometer fusion *)
From Coq Require Import Reals Lra Lia.
From Coquelicot Require Import Coquelicot.
From Verif Require Import CBase F32 Scalar RealGeom CovSpec PsdLib CovModel CovProofsR CovUpdProofs CovPredProofs FusionGen FusionModel FusionSpec FusionProofs FusionProofs2 FusionProofs3 FusionProofs4 FusionProofs5 FusionUpd Props_Fusion.
Open Scope R_scope.

(** h is the gradient of the direction angle of the pair p (and, where the
    first component is not zero, of the arctangent of the quotient) *)
Definition direction_gradient (p : (nat -> R) -> R * R) (x h : nat -> R) : Prop :=
  angle_gradient p x h /\ (fst (p x) <> 0 -> gradient (fun y => atan (snd (p y) / fst (p y))) x h).
Lemma psd_quad h P : psd P -> 0 <= quad h P. Proof. intros A. apply A. Qed.

(** ** Declination *)
Theorem C37_declination : forall tcos tsin tatan2 (d : declin R) (sigma : R) (f : fus R),
  symmetric24 (fP f) -> psd (fP f) -> sigma <> 0 ->
  let f' := fuseDeclination tcos tsin tatan2 d sigma f in
  let rn := sigma * sigma in let x := fx f in
  let est := tatan2 (x 17%nat) (x 16%nat) in
  let ref := if d_in_flight d then est else if d_geo d then d_gps d else d_param d in
  let innov := clampR (- (1 / 2)) (1 / 2) (est - ref) in
  (Rabs (x 16%nat) < 1 / 1000000 -> f' = f) /\
  (1 / 1000000 <= Rabs (x 16%nat) -> exists h, direction_gradient decl_pair x h /\
    (quad h (fP f) = 0 -> f' = f) /\
    (0 < quad h (fP f) -> fbad f' 10%nat = false /\
       exists f1, fused (uninhibited f) h rn innov f f1 /\ fx f' = limitDeclination tcos tsin tatan2 d (fx f1) /\ fP f' = fP f1)).
Proof.
  intros tcos tsin tatan2 d sigma f Sy Hp Ns f' rn x est ref innov.
  unfold f', fuseDeclination. cbv zeta. fold x. change (sq sigma) with rn. assert (Rp : 0 < rn) by (unfold rn; nra). clearbody rn. clear f'.
  assert (T : (sq (slit 1 1000) : R) = 1 / 1000000) by (unfold sq; rewrite slitR; cbn [smul RScalar]; lra). rewrite T.
  change (sabs (x 16%nat)) with (Rabs (x 16%nat)).
  split.
  - intros L. assert (slt (Rabs (x 16%nat)) (1 / 1000000) = true) as -> by (apply sltR_true; exact L). reflexivity.
  - intros L. assert (slt (Rabs (x 16%nat)) (1 / 1000000) = false) as -> by (apply sltR_false; exact L).
    assert (N : x 16%nat <> 0) by (intros E; rewrite E, Rabs_R0 in L; lra).
    exists (hvec (de_H x)). split; [split; [apply de_gradient; exact N|intros _; apply de_gradient_atan; exact N]|].
    rewrite (de_var x (fP f) rn N Sy). pose proof (de_gain x (fP f) rn N Sy) as HK. rewrite (de_var x (fP f) rn N Sy) in HK.
    split; intros Q.
    + assert (slt rn (quad (hvec (de_H x)) (fP f) + rn) = false) as -> by (apply sltR_false; lra). reflexivity.
    + assert (slt rn (quad (hvec (de_H x)) (fP f) + rn) = true) as -> by (apply sltR_true; lra).
      assert (EI : sconstrain (ssub (tatan2 (x 17%nat) (x 16%nat)) (getMagDeclination tatan2 (d_in_flight d) (d_geo d) (d_gps d) (d_param d) x)) (sopp (slit 1 2)) (slit 1 2) = innov).
      { rewrite sconstrain_clamp by (rewrite slitR; cbn [sopp RScalar]; lra). unfold innov. rewrite slitR. cbn [sopp ssub RScalar]. unfold ref, getMagDeclination. reflexivity. }
      rewrite EI. clear EI. clearbody innov.
      destruct (fuse_step (de_K x (fP f) rn) (de_H x) all_states rn innov f f eq_refl eq_refl ltac:(unfold de_H; dfields) Sy Hp Rp HK) as (c & s & E & F).
      rewrite E. fr. split; [reflexivity|]. exists (setCS c s f). split; [|split; reflexivity].
      apply (fused_rows (fun i => all_states i && uninhibited f i)); [reflexivity|apply F; reflexivity].
Qed.

(** ** GPS yaw *)
Lemma clamp_mag g Sv innov : 1 <= g -> 0 < Sv -> g * g * Sv < innov * innov ->
  sconstrain innov (- sqrt (g * g * Sv)) (sqrt (g * g * Sv)) = sign innov * sqrt (g * g * Sv).
Proof.
  intros G HS L. assert (P : 0 < g * g * Sv) by (apply Rmult_lt_0_compat; [nra|exact HS]).
  pose proof (sqrt_lt_R0 _ P) as P1. pose proof (sqrt_sqrt _ (Rlt_le _ _ P)) as P2. set (l := sqrt (g * g * Sv)) in *.
  rewrite sconstrainR. destruct (Rlt_dec innov 0) as [I|I].
  - rewrite sign_eq_m1 by exact I. destruct (Rlt_dec innov (- l)); [lra|]. exfalso. nra.
  - assert (0 < innov) by (destruct (Req_dec innov 0); [subst innov; nra|lra]). rewrite sign_eq_1 by assumption.
    destruct (Rlt_dec innov (- l)); [lra|]. destruct (Rlt_dec l innov); [lra|]. exfalso. nra.
Qed.
(** the innovation shortened to the gate *)
Definition gated (gate innov Sv : R) : R :=
  if Rle_dec (innov * innov) (Rmax gate 1 * Rmax gate 1 * Sv) then innov else sign innov * (Rmax gate 1 * sqrt Sv).
Lemma gated_ok gate innov Sv : 0 < Sv ->
  (if slt (slit 1 1) (ratio innov (Rmax gate 1) Sv) then sconstrain innov (sopp (ssqrt (smul (sq (Rmax gate 1)) Sv))) (ssqrt (smul (sq (Rmax gate 1)) Sv)) else innov) = gated gate innov Sv.
Proof.
  intros HS. pose proof (ratio_gate (Rmax gate 1) innov Sv (Rmax_pos gate) HS) as G. unfold gated.
  destruct (Rle_dec _ _) as [L|L].
  - apply G in L. rewrite L. reflexivity.
  - destruct (slt _ _) eqn:E; [|exfalso; apply L; apply G; reflexivity].
    unfold sq. cbn [sopp ssqrt smul RScalar]. rewrite clamp_mag; [|apply Rmax_pos|exact HS|lra].
    rewrite sqrt_mult_alt by (pose proof (Rmax_pos gate); nra). rewrite sqrt_square by (pose proof (Rmax_pos gate); lra). reflexivity.
Qed.
Lemma gated_in gate innov Sv : 0 < Sv -> in_gate gate (gated gate innov Sv) Sv.
Proof.
  intros HS. unfold in_gate, gated. destruct (Rle_dec _ _) as [L|L]; [exact L|].
  pose proof (Rmax_pos gate) as G. set (g := Rmax gate 1) in *. pose proof (sqrt_sqrt Sv (Rlt_le _ _ HS)) as E.
  assert (innov <> 0). { intros ->. apply L. assert (0 < g * g * Sv) by (apply Rmult_lt_0_compat; nra). lra. }
  assert (S2 : sign innov * sign innov = 1). { destruct (Rlt_dec innov 0); [rewrite sign_eq_m1 by assumption; ring|rewrite sign_eq_1 by lra; ring]. }
  right. transitivity ((sign innov * sign innov) * (g * g * (sqrt Sv * sqrt Sv))); [ring|]. rewrite S2, E. ring.
Qed.
(** direction of the antenna baseline in the earth frame; Re: body to earth *)
Definition baseline (Re : nat -> nat -> R) (off : R) : V3 := mapp (mat_of Re) (mkV (cos off) (sin off) 0).
Lemma antEfR (Re : nat -> nat -> R) off k : (k < 3)%nat -> antEf cos sin Re off k = match k with 0%nat => RealGeom.vx (baseline Re off) | 1%nat => RealGeom.vy (baseline Re off) | _ => RealGeom.vz (baseline Re off) end.
Proof.
  intros Hk. unfold antEf, mvec, baseline, mat_of, mapp. rewrite szeroR. cbn [RealGeom.vx RealGeom.vy RealGeom.vz m00 m01 m02 m10 m11 m12 m20 m21 m22 sadd smul RScalar].
  destruct k as [|[|[|k]]]; [| | |lia]; ring.
Qed.
(** Re is the rotation matrix of the state (as stored after the last prediction or fusion, up to the quaternion correction) *)
Theorem C37_gps_yaw : forall tatan2 twrap resetAll (cos30 : R) (Re : nat -> nat -> R) (yaw off noise gate : R) (f : fus R),
  symmetric24 (fP f) -> psd (fP f) ->
  let f' := fuseGpsYaw cos sin tatan2 twrap resetAll cos30 Re yaw off noise gate f in
  let ant := baseline Re off in
  let rn := Rmax noise (1 / 100) * Rmax noise (1 / 100) in
  let innov := twrap (tatan2 (RealGeom.vy ant) (RealGeom.vx ant) - twrap (yaw + off)) in
  (cos30 < Rabs (RealGeom.vz ant) \/ Rabs (fst (antenna_pair off (fx f))) < 1 / 1000 -> f' = f) /\
  (Rabs (RealGeom.vz ant) <= cos30 -> 1 / 1000 <= Rabs (fst (antenna_pair off (fx f))) ->
   exists h, direction_gradient (antenna_pair off) (fx f) h /\
   let Sv := quad h (fP f) + rn in fv f' 3%nat = Sv /\
   (~ in_gate gate innov Sv -> f_in_air (fc f) = true ->
      same_estimate f f' /\ frej f' 3%nat = true /\ ftime f' 3%nat = ftime f 3%nat /\ fi f' 3%nat = innov) /\
   (in_gate gate innov Sv \/ f_in_air (fc f) = false ->
      fused (uninhibited f) h rn (gated gate innov Sv) f f' /\ (frej f' 3%nat = false <-> in_gate gate innov Sv) /\
      fi f' 3%nat = gated gate innov Sv /\ ftime f' 3%nat = x_time_last_imu (fc f) /\ fbad f' 3%nat = false)).
Proof.
  intros tatan2 twrap resetAll cos30 Re yaw off noise gate f Sy Hp f' ant rn innov.
  assert (Rp : 0 < rn) by (unfold rn; pose proof (Rmax_r noise (1/100)); nra).
  unfold f', fuseGpsYaw. cbv zeta. rewrite !antEfR by lia. cbv beta iota. fold ant.
  change (sq (sfmax noise (slit 1 100))) with rn. change (ssub (tatan2 (RealGeom.vy ant) (RealGeom.vx ant)) (twrap (sadd yaw off))) with (tatan2 (RealGeom.vy ant) (RealGeom.vx ant) - twrap (yaw + off)).
  fold innov. clear f'. clearbody innov rn.
  rewrite antenna_eq. cbn [fst]. rewrite ga_9, ga_19i. set (A := aX (sin off) (cos off) (fx f)).
  cbn [sabs RScalar]. rewrite Rabs_Ropp.
  assert (T1 : (slit 1 1000 : R) = 1 / 1000) by apply slitR. assert (T2 : (slit 1 1000000 : R) = 1 / 1000000) by apply slitR. rewrite T1, T2. clear T1 T2.
  split.
  - intros [L|L].
    + assert (slt cos30 (Rabs (RealGeom.vz ant)) = true) as -> by (apply sltR_true; exact L). reflexivity.
    + destruct (slt cos30 (Rabs (RealGeom.vz ant))); [reflexivity|]. assert (slt (Rabs A) (1 / 1000) = true) as -> by (apply sltR_true; exact L). reflexivity.
  - intros L1 L2. assert (slt cos30 (Rabs (RealGeom.vz ant)) = false) as -> by (apply sltR_false; exact L1).
    assert (slt (Rabs A) (1 / 1000) = false) as -> by (apply sltR_false; exact L2).
    assert (NA : A <> 0) by (intros E; rewrite E, Rabs_R0 in L2; lra).
    assert (H17 : 1 <= Rabs (ga_HK17 (fx f) (sin off) (cos off))).
    { rewrite (ga_17 (fx f) (sin off) (cos off) NA). fold A. generalize (aY (sin off) (cos off) (fx f)). intros B. clear - NA.
      assert (0 < A * A) by nra. replace ((A * A + B * B) / (A * A)) with (1 + B * B / (A * A)) by (field; exact NA).
      assert (0 <= B * B / (A * A)) by (apply Rmult_le_pos; [nra|left; apply Rinv_0_lt_compat; assumption]). rewrite Rabs_pos_eq; lra. }
    assert (slt (Rabs (ga_HK17 (fx f) (sin off) (cos off))) (1 / 1000) = false) as -> by (apply sltR_false; lra).
    assert (slt (Rabs A) (1 / 1000000) = false) as -> by (apply sltR_false; lra).
    exists (hvec (ga_H (fx f) (sin off) (cos off))).
    assert (NA' : fst (antenna_pair off (fx f)) <> 0) by (rewrite antenna_eq; exact NA).
    split; [split; [apply ga_gradient; exact NA'|intros _; apply ga_gradient_atan; exact NA']|].
    rewrite (ga_var (fx f) (fP f) rn (sin off) (cos off) NA Sy).
    pose proof (ga_gain (fx f) (fP f) rn (sin off) (cos off) Sy) as HK. rewrite (ga_var (fx f) (fP f) rn (sin off) (cos off) NA Sy) in HK.
    assert (HF : Forall (fun p => (fst p < 24)%nat) (ga_H (fx f) (sin off) (cos off))) by (unfold ga_H; dfields).
    revert HK HF. generalize (ga_H (fx f) (sin off) (cos off)) (ga_K (fx f) (fP f) rn (sin off) (cos off)). intros H K HK HF.
    set (Sv := quad (hvec H) (fP f) + rn) in *. pose proof (psd_quad (hvec H) (fP f) Hp) as Q0.
    assert (HSv : 0 < Sv) by (unfold Sv; lra).
    assert (slt Sv rn = false) as -> by (apply sltR_false; unfold Sv; lra).
    rewrite smaxi_R. assert (LL : (slit 1 1 : R) = 1) by (rewrite slitR; field). 
    pose proof (gated_ok gate innov Sv HSv) as GO. pose proof (ratio_gate (Rmax gate 1) innov Sv (Rmax_pos gate) HSv) as RG. rewrite LL in *.
    rewrite GO. clear GO.
    destruct (slt 1 (ratio innov (Rmax gate 1) Sv)) eqn:ER.
    + assert (NG : ~ in_gate gate innov Sv) by (intros IG; apply RG in IG; discriminate).
      destruct (f_in_air (fc f)); cbn [andb].
      * fr. split; [reflexivity|]. split; [|intros [C|C]; [contradiction|discriminate]].
        intros _ _. split; [split; reflexivity|]. split; [reflexivity|]. split; reflexivity.
      * match goal with |- context [mupd K H ?i ?g] => destruct (fuse_step K H all_states rn i f g eq_refl eq_refl HF Sy Hp Rp HK) as (c & s & E & F) end.
        rewrite E. fr. split; [reflexivity|]. split; [intros _ C; discriminate|]. intros _.
        split; [apply (fused_rows (fun i => all_states i && uninhibited f i)); [reflexivity|apply F; reflexivity]|].
        split; [split; intros C; [discriminate|contradiction]|]. split; [reflexivity|]. split; reflexivity.
    + assert (IG : in_gate gate innov Sv) by (apply RG; reflexivity). cbn [andb].
      match goal with |- context [mupd K H ?i ?g] => destruct (fuse_step K H all_states rn i f g eq_refl eq_refl HF Sy Hp Rp HK) as (c & s & E & F) end.
      rewrite E. fr. split; [reflexivity|]. split; [intros C; contradiction|]. intros _.
      split; [apply (fused_rows (fun i => all_states i && uninhibited f i)); [reflexivity|apply F; reflexivity]|].
      split; [split; intros _; [exact IG|reflexivity]|]. split; [reflexivity|]. split; reflexivity.
Qed.

(** ** Heading *)
Definition yaw_pair (use321 : bool) : (nat -> R) -> R * R := if use321 then yaw321_pair else yaw312_pair.
Lemma yaw_self_a x : self Xa x /\ self Ya x. Proof. split; intros i; unfold Xa, Ya; rewrite !upd_self; reflexivity. Qed.
Lemma yaw_self_b x : self Xb x /\ self Yb x. Proof. split; intros i; unfold Xb, Yb; rewrite !upd_self; reflexivity. Qed.
Lemma ext4_agrad (h g : nat -> R) X Y gx gy : (forall i, (i < 4)%nat -> h i = agrad X Y gx gy i) -> (forall i, (4 <= i)%nat -> gx i = 0 /\ gy i = 0) ->
  forall i, (i < 24)%nat -> agrad X Y gx gy i = ext4 h i.
Proof.
  intros A B i Hi. unfold ext4. destruct (Nat.ltb_spec i 4); [symmetry; apply A; assumption|].
  destruct (B i) as [B1 B2]; [assumption|]. unfold agrad. rewrite B1, B2. unfold Rdiv. ring.
Qed.
Lemma yaw_direction (use321 : bool) (x h : nat -> R) : (if use321 then H321 x else H312 x) = Some h -> direction_gradient (yaw_pair use321) x (ext4 h).
Proof.
  destruct use321; intros E.
  - pose proof (H321_spec x) as HS. rewrite E in HS. destruct (yaw_self_a x) as [S1 S2].
    assert (EE : forall i, (i < 24)%nat -> agrad (Xa x) (Ya x) (Xag x) (Yag x) i = ext4 h i).
    { apply (ext4_agrad h h); [exact HS|]. intros i Hi. destruct i as [|[|[|[|i]]]]; try lia; split; reflexivity. }
    split.
    + apply (angle_gradient_eq _ _ _ _ EE). apply (angle_gradient_of _ Xa Ya); [apply yaw321_eq|exact S1|exact S2|apply Xa_gradient|apply Ya_gradient].
    + cbn [yaw_pair]. rewrite yaw321_eq. cbn [fst]. intros N. apply (gradient_eq _ _ _ _ EE).
      apply (gradient_ext _ (fun y => atan (Ya y / Xa y))); [intros y; rewrite yaw321_eq; reflexivity|].
      apply atan_gradient; [exact S1|exact S2|exact N|apply Xa_gradient|apply Ya_gradient].
  - pose proof (H312_spec x) as HS. rewrite E in HS. destruct (yaw_self_b x) as [S1 S2].
    assert (EE : forall i, (i < 24)%nat -> agrad (Xb x) (Yb x) (Xbg x) (Ybg x) i = ext4 h i).
    { apply (ext4_agrad h h); [exact HS|]. intros i Hi. destruct i as [|[|[|[|i]]]]; try lia; split; reflexivity. }
    split.
    + apply (angle_gradient_eq _ _ _ _ EE). apply (angle_gradient_of _ Xb Yb); [apply yaw312_eq|exact S1|exact S2|apply Xb_gradient|apply Yb_gradient].
    + cbn [yaw_pair]. rewrite yaw312_eq. cbn [fst]. intros N. apply (gradient_eq _ _ _ _ EE).
      apply (gradient_ext _ (fun y => atan (Yb y / Xb y))); [intros y; rewrite yaw312_eq; reflexivity|].
      apply atan_gradient; [exact S1|exact S2|exact N|apply Xb_gradient|apply Yb_gradient].
Qed.
Lemma yaw_none (use321 : bool) (x : nat -> R) : (if use321 then H321 x else H312 x) = None <-> ~ usable (fst (yaw_pair use321 x)) (snd (yaw_pair use321 x)).
Proof.
  destruct use321; cbn [yaw_pair]; [rewrite yaw321_eq|rewrite yaw312_eq]; cbn [fst snd].
  - pose proof (H321_spec x) as HS. destruct (H321 x) eqn:E; split; try discriminate; try (intros; assumption); try reflexivity.
    intros NU. exfalso. revert E. unfold H321, two, sq. cbv zeta. rewrite !slitR. cbn [sadd ssub smul sdiv sopp RScalar]. rewrite !Rdiv_1.
    replace (2 * x 3%nat * x 0%nat + 2 * x 2%nat * x 1%nat) with (Ya x) by (unfold Ya; ring).
    replace (2 * x 0%nat * x 3%nat + 2 * x 1%nat * x 2%nat) with (Ya x) by (unfold Ya; ring). fold (Xa x).
    rewrite pathOk_spec, pathOkB_spec. unfold usable in NU. destruct (Rlt_dec _ (Xa x * Xa x)); [tauto|]. destruct (Rlt_dec _ (Ya x * Ya x)); [tauto|]. discriminate.
  - pose proof (H312_spec x) as HS. destruct (H312 x) eqn:E; split; try discriminate; try (intros; assumption); try reflexivity.
    intros NU. exfalso. revert E. unfold H312, two, sq. cbv zeta. rewrite !slitR. cbn [sadd ssub smul sdiv sopp RScalar]. rewrite !Rdiv_1.
    replace (2 * x 3%nat * x 0%nat - 2 * x 2%nat * x 1%nat) with (Yb x) by (unfold Yb; ring).
    replace (- (2 * x 0%nat) * x 3%nat + 2 * x 1%nat * x 2%nat) with (- Yb x) by (unfold Yb; ring).
    replace (- (x 0%nat * x 0%nat) + x 1%nat * x 1%nat - x 2%nat * x 2%nat + x 3%nat * x 3%nat) with (- Xb x) by (unfold Xb; ring).
    fold (Xb x). rewrite pathOkB_neg.
    rewrite pathOk_spec, pathOkB_spec. unfold usable in NU. destruct (Rlt_dec _ (Xb x * Xb x)); [tauto|]. destruct (Rlt_dec _ (Yb x * Yb x)); [tauto|]. discriminate.
Qed.
Lemma updateQuaternion_spec resetAll (on_ground : bool) (innov rn gate : R) (h : nat -> R) (f : fus R) :
  symmetric24 (fP f) -> psd (fP f) -> 0 < rn ->
  let f' := updateQuaternion resetAll on_ground innov rn (Rmax gate 1) h f in
  let Sv := quad (ext4 h) (fP f) + rn in
  fv f' 3%nat = Sv /\ fbad f' 3%nat = false /\
  (~ in_gate gate innov Sv -> on_ground = false -> same_estimate f f' /\ frej f' 3%nat = true /\ fi f' 3%nat = fi f 3%nat) /\
  (in_gate gate innov Sv \/ on_ground = true ->
     fused (yaw_rows (f_wind (fc f))) (ext4 h) rn (gated gate innov Sv) f f' /\ (frej f' 3%nat = false <-> in_gate gate innov Sv) /\
     fi f' 3%nat = gated gate innov Sv).
Proof.
  intros Sy Hp Rp f' Sv. unfold f', updateQuaternion. cbv zeta. rewrite yawVarR. fold Sv. clear f'.
  pose proof (psd_quad (ext4 h) (fP f) Hp) as Q0. assert (HSv : 0 < Sv) by (unfold Sv; lra).
  assert (EL : sle rn Sv = true). { cbn [sle RScalar]. destruct (Rle_dec rn Sv) as [L|L]; [reflexivity|exfalso; apply L; unfold Sv; lra]. }
  rewrite EL. clear EL.
  pose proof (gated_ok gate innov Sv HSv) as GO. pose proof (ratio_gate (Rmax gate 1) innov Sv (Rmax_pos gate) HSv) as RG. rewrite GO. clear GO.
  pose proof (yaw_gain (f_wind (fc f)) (fP f) h Sv) as HK.
  set (K := yawGain (f_wind (fc f)) (fP f) h Sv) in *. clearbody K.
  set (i' := gated gate innov Sv).
  set (ff := setInnov 3 i' (setRej 3 (slt (slit 1 1) (ratio innov (Rmax gate 1) Sv)) (setRatio 2 szero (setRatio 1 szero (setRatio 0 szero (setRatio 3 (ratio innov (Rmax gate 1) Sv) (setBad 3 false (setVar 3 Sv f)))))))).
  pose proof (applyUpdate_fused K (yawKHP (fP f) K h) (yaw_rows (f_wind (fc f))) (ext4 h) rn i' f Sy Hp Rp HK ltac:(intros i j _ _; apply yawKHPR)) as A.
  change (applyUpdate (yawKHP (fP f) K h) K i' (fc f) (fs f)) with (applyUpdate (yawKHP (fP f) K h) K i' (fc ff) (fs ff)) in A.
  destruct (applyUpdate (yawKHP (fP f) K h) K i' (fc ff) (fs ff)) as [[c s] ok]. destruct A as [-> F].
  destruct (slt (slit 1 1) (ratio innov (Rmax gate 1) Sv)) eqn:ER.
  - assert (NG : ~ in_gate gate innov Sv) by (intros IG; apply RG in IG; discriminate).
    destruct on_ground; cbn [andb negb]; unfold ff; fr; (split; [reflexivity|]; split; [reflexivity|]; split).
    + intros _ C; discriminate.
    + intros _. split; [|split; [split; intros C; [discriminate|contradiction]|reflexivity]].
      refine (fused_frame _ _ _ _ f _ c s f eq_refl eq_refl _ _ (setCS c s f) eq_refl eq_refl F); reflexivity.
    + intros _ _. split; [split; reflexivity|]. split; reflexivity.
    + intros [C|C]; [contradiction|discriminate].
  - assert (IG : in_gate gate innov Sv) by (apply RG; reflexivity).
    cbn [andb]. unfold ff; fr. split; [reflexivity|]. split; [reflexivity|]. split; [intros C; contradiction|].
    intros _. split; [|split; [split; intros _; [exact IG|reflexivity]|reflexivity]].
    refine (fused_frame _ _ _ _ f _ c s f eq_refl eq_refl _ _ (setCS c s f) eq_refl eq_refl F); reflexivity.
Qed.
(** what a heading measurement with innovation innov and variance rn does.
    Rejected measurements leave the reported innovation at its old value; an
    accelerometer-bias axis excluded from estimation is corrected as well *)
Definition heading_update (use321 on_ground : bool) (rn gate innov : R) (f f' : fus R) : Prop :=
  let p := yaw_pair use321 in
  (~ usable (fst (p (fx f))) (snd (p (fx f))) -> f' = f) /\
  (usable (fst (p (fx f))) (snd (p (fx f))) -> exists h, direction_gradient p (fx f) h /\ (forall i, (4 <= i)%nat -> h i = 0) /\
   let Sv := quad h (fP f) + rn in fv f' 3%nat = Sv /\ fbad f' 3%nat = false /\
   (~ in_gate gate innov Sv -> on_ground = false -> same_estimate f f' /\ frej f' 3%nat = true /\ fi f' 3%nat = fi f 3%nat) /\
   (in_gate gate innov Sv \/ on_ground = true ->
     fused (yaw_rows (f_wind (fc f))) h rn (gated gate innov Sv) f f' /\ (frej f' 3%nat = false <-> in_gate gate innov Sv) /\
     fi f' 3%nat = gated gate innov Sv)).
(** pred: the yaw of the estimated attitude, yaw: the measured one *)
Theorem C37_heading : forall twrap resetAll (use321 on_ground zero : bool) (pred yaw variance gate : R) (f : fus R),
  symmetric24 (fP f) -> psd (fP f) ->
  heading_update use321 on_ground (Rmax variance (1 / 10000)) gate (if zero then 0 else twrap (pred - twrap yaw)) f
    (fuseYaw twrap resetAll on_ground (if use321 then H321 (fx f) else H312 (fx f)) pred yaw variance gate zero f).
Proof.
  intros twrap resetAll use321 on_ground zero pred yaw variance gate f Sy Hp.
  set (rn := Rmax variance (1 / 10000)). set (innov := if zero then 0 else twrap (pred - twrap yaw)).
  assert (Rp : 0 < rn) by (unfold rn; pose proof (Rmax_r variance (1 / 10000)); lra).
  unfold fuseYaw, heading_update. cbv zeta. rewrite smaxi_R. change (sfmax variance (slit 1 10000)) with rn.
  assert (L1 : (slit 1 1 : R) = 1) by (rewrite slitR; field). rewrite L1. clear L1.
  replace (if zero then szero else twrap (ssub pred (twrap yaw))) with innov by (unfold innov; destruct zero; [symmetry; apply szeroR|reflexivity]).
  clearbody innov rn. pose proof (yaw_none use321 (fx f)) as YN. pose proof (yaw_direction use321 (fx f)) as YD.
  destruct (if use321 then H321 (fx f) else H312 (fx f)) as [h|].
  - split; [intros C; apply YN in C; discriminate|]. intros _. exists (ext4 h). split; [apply YD; reflexivity|].
    split; [intros i Hi; unfold ext4; destruct (Nat.ltb_spec i 4); [lia|reflexivity]|].
    apply updateQuaternion_spec; assumption.
  - split; [reflexivity|]. intros C. exfalso. apply (proj1 YN); [reflexivity|exact C].
Qed.
(** for a unit quaternion and the sequence chosen by the code a path always exists *)
Theorem C37_heading_observable : forall x : nat -> R, qnorm2 (quat_of x) = 1 ->
  let R_ := dcm (quat_of x) in let use321 := if Rlt_dec (Rabs (m20 R_)) (Rabs (m21 R_)) then true else false in
  let p := yaw_pair use321 x in usable (fst p) (snd p) /\ 1 / 2 <= fst p * fst p + snd p * snd p.
Proof.
  intros x U R_ use321 p. unfold p, use321. clear p use321.
  assert (S0 : Xa x * Xa x + Ya x * Ya x = 1 - m20 R_ * m20 R_).
  { transitivity (qnorm2 (quat_of x) * qnorm2 (quat_of x) - m20 R_ * m20 R_); [|rewrite U; ring].
    unfold R_, dcm, quat_of, qnorm2, Xa, Ya. cbn [m20 RealGeom.q0 RealGeom.q1 RealGeom.q2 RealGeom.q3]. ring. }
  assert (S1 : Xb x * Xb x + Yb x * Yb x = 1 - m21 R_ * m21 R_).
  { transitivity (qnorm2 (quat_of x) * qnorm2 (quat_of x) - m21 R_ * m21 R_); [|rewrite U; ring].
    unfold R_, dcm, quat_of, qnorm2, Xb, Yb. cbn [m21 RealGeom.q0 RealGeom.q1 RealGeom.q2 RealGeom.q3]. ring. }
  assert (S2 : m20 R_ * m20 R_ + m21 R_ * m21 R_ <= 1).
  { assert (E : m20 R_ * m20 R_ + m21 R_ * m21 R_ + m22 R_ * m22 R_ = 1); [|nra].
    transitivity (qnorm2 (quat_of x) * qnorm2 (quat_of x)); [|rewrite U; ring].
    unfold R_, dcm, quat_of, qnorm2. cbn [m20 m21 m22 RealGeom.q0 RealGeom.q1 RealGeom.q2 RealGeom.q3]. ring. }
  assert (UU : forall X Y, 1 / 2 <= X * X + Y * Y -> usable X Y /\ 1 / 2 <= X * X + Y * Y).
  { intros X Y A. split; [|exact A]. unfold usable. destruct (Rlt_dec (1 / 1000000) (X * X)); [left; assumption|right; lra]. }
  assert (SQ : forall a, Rabs a * Rabs a = a * a) by (intros a; rewrite <- Rabs_mult; apply Rabs_pos_eq; nra).
  pose proof (SQ (m20 R_)) as A0. pose proof (SQ (m21 R_)) as A1. pose proof (Rabs_pos (m20 R_)) as A2. pose proof (Rabs_pos (m21 R_)) as A3.
  destruct (Rlt_dec (Rabs (m20 R_)) (Rabs (m21 R_))) as [L|L]; cbn [yaw_pair].
  - rewrite yaw321_eq. cbn [fst snd]. apply UU. rewrite S0. nra.
  - rewrite yaw312_eq. cbn [fst snd]. apply UU. rewrite S1. nra.
Qed.


(** ** Magnetometer *)
Definition mag_axis (k : nat) (x : nat -> R) : R := match k with 0%nat => RealGeom.vx (mag_model x) | 1%nat => RealGeom.vy (mag_model x) | _ => RealGeom.vz (mag_model x) end.
(** the declination limit applied after each fused axis; nothing else changes *)
Definition limited (lim : (nat -> R) -> nat -> R) (f f' : fus R) : Prop :=
  fx f' = lim (fx f) /\ fs f' = fs f /\ fc f' = setState (fx f') (fc f).
(** fusion of axis k with innovation innov, linearised at the state of f *)
Definition mag_step (lim : (nat -> R) -> nat -> R) (all : bool) (k : nat) (rn innov : R) (f f' : fus R) : Prop :=
  exists h f1, gradient (mag_axis k) (fx f) h /\ fused (fun i => mag_rows all i && uninhibited f i) h rn innov f f1 /\ limited lim f1 f'.
Lemma mvec_mag (x : nat -> R) k : (k < 3)%nat -> sadd (mvec (invRot x) (fun j => x (16 + j)%nat) k) (x (19 + k)%nat) = mag_axis k x.
Proof.
  intros Hk. unfold mag_axis. destruct k as [|[|[|k]]]; [| | |lia]; [rewrite mag_model0|rewrite mag_model1|rewrite mag_model2];
    unfold mvec, invRot, b0, b1, b2, sq; rewrite szeroR; cbn [sadd ssub smul slit RScalar Nat.add]; rewrite ?Rdiv_1; ring.
Qed.
Lemma magAxis_fused tcos tsin tatan2 (d : declin R) ax K H rows rn innov (f g : fus R) : fc g = fc f -> fs g = fs f ->
  Forall (fun p => (fst p < 24)%nat) H -> symmetric24 (fP f) -> psd (fP f) -> 0 < rn ->
  kalman_gain rows (hvec H) (fP f) (quad (hvec H) (fP f) + rn) K ->
  let f' := magAxis tcos tsin tatan2 d ax K H innov g in
  (exists f1, fused (fun i => rows i && uninhibited f i) (hvec H) rn innov f f1 /\ limited (limitDeclination tcos tsin tatan2 d) f1 f') /\
  fi f' = fi g /\ fv f' = fv g /\ fbad f' ax = false.
Proof.
  intros A B HF Sy Hp Rp HK. cbv zeta. unfold magAxis.
  destruct (fuse_step K H rows rn innov f g A B HF Sy Hp Rp HK) as (c & s & E & F). rewrite E. cbn [negb].
  split; [exists (setCS c s g); split; [apply F; reflexivity|split; [reflexivity|split; reflexivity]]|].
  split; [reflexivity|]. split; [reflexivity|]. cbn [setBad setX setCS fbad]. unfold put. rewrite Nat.eqb_refl. reflexivity.
Qed.
Section Mag.
Variables (tcos tsin : R -> R) (tatan2 : R -> R -> R).
Let lim := limitDeclination tcos tsin tatan2.
Definition mag_noise_var (noise : R) := Rmax noise 0 * Rmax noise 0.
(** predicted minus measured field; zero for a synthesised Z component *)
Definition mag_residual (synth : bool) (meas x : nat -> R) (k : nat) : R := if (synth && (k =? 2)%nat)%bool then 0 else mag_axis k x - meas k.
Lemma magInnovR synth (meas x : nat -> R) k : (k < 3)%nat -> magInnov synth meas x k = mag_residual synth meas x k.
Proof. intros Hk. unfold magInnov, mag_residual. destruct (synth && (k =? 2)%nat)%bool; [apply szeroR|]. rewrite mvec_mag by exact Hk. reflexivity. Qed.
Lemma mz_step (d : declin R) all rn innov (f g : fus R) : fc g = fc f -> fs g = fs f -> symmetric24 (fP f) -> psd (fP f) -> 0 < rn ->
  let f' := magAxis tcos tsin tatan2 d 2 (mz_K (fx f) (fP f) rn all) (mz_H (fx f)) innov g in
  mag_step (lim d) all 2 rn innov f f' /\ fi f' = fi g /\ fbad f' 2%nat = false.
Proof.
  intros A B Sy Hp Rp. pose proof (mz_gain (fx f) (fP f) rn all Sy) as HK. rewrite (mz_var (fx f) (fP f) rn Sy) in HK.
  destruct (magAxis_fused tcos tsin tatan2 d 2 (mz_K (fx f) (fP f) rn all) (mz_H (fx f)) (mag_rows all) rn innov f g A B ltac:(unfold mz_H; dfields) Sy Hp Rp HK) as ((f1 & F & L) & I & V & BB).
  split; [|split; assumption]. exists (hvec (mz_H (fx f))), f1. split; [apply mz_gradient|]. split; assumption.
Qed.
Lemma my_step (d : declin R) all rn innov (f g : fus R) : fc g = fc f -> fs g = fs f -> symmetric24 (fP f) -> psd (fP f) -> 0 < rn ->
  let f' := magAxis tcos tsin tatan2 d 1 (my_K (fx f) (fP f) rn all) (my_H (fx f)) innov g in
  mag_step (lim d) all 1 rn innov f f' /\ fi f' = fi g /\ fbad f' 1%nat = false.
Proof.
  intros A B Sy Hp Rp. pose proof (my_gain (fx f) (fP f) rn all Sy) as HK. rewrite (my_var (fx f) (fP f) rn Sy) in HK.
  destruct (magAxis_fused tcos tsin tatan2 d 1 (my_K (fx f) (fP f) rn all) (my_H (fx f)) (mag_rows all) rn innov f g A B ltac:(unfold my_H; dfields) Sy Hp Rp HK) as ((f1 & F & L) & I & V & BB).
  split; [|split; assumption]. exists (hvec (my_H (fx f))), f1. split; [apply my_gradient|]. split; assumption.
Qed.
Lemma mx_step (d : declin R) all rn innov (f g : fus R) : fc g = fc f -> fs g = fs f -> symmetric24 (fP f) -> psd (fP f) -> 0 < rn ->
  let f' := magAxis tcos tsin tatan2 d 0 (mx_K (fx f) (fP f) rn all) (mx_H (fx f)) innov g in
  mag_step (lim d) all 0 rn innov f f' /\ fi f' = fi g /\ fbad f' 0%nat = false.
Proof.
  intros A B Sy Hp Rp. pose proof (mx_gain (fx f) (fP f) rn all Sy) as HK. rewrite (mx_var (fx f) (fP f) rn Sy) in HK.
  destruct (magAxis_fused tcos tsin tatan2 d 0 (mx_K (fx f) (fP f) rn all) (mx_H (fx f)) (mag_rows all) rn innov f g A B ltac:(unfold mx_H; dfields) Sy Hp Rp HK) as ((f1 & F & L) & I & V & BB).
  split; [|split; assumption]. exists (hvec (mx_H (fx f))), f1. split; [apply mx_gradient|]. split; assumption.
Qed.
End Mag.
Definition healthyP (f : fus R) : Prop := symmetric24 (fP f) /\ psd (fP f).
Lemma magAxis_fi tcos tsin tatan2 (d : declin R) ax K H innov (g : fus R) : fi (magAxis tcos tsin tatan2 d ax K H innov g) = fi g.
Proof. unfold magAxis, mupd. destruct (measurementUpdate _ _ _ _ _) as [[? ?] [|]]; reflexivity. Qed.
Lemma magAxes_fi tcos tsin tatan2 resetMag (d : declin R) all synth rn inn (g : fus R) : fi (magAxes tcos tsin tatan2 resetMag d all synth rn inn g) = fi g.
Proof.
  unfold magAxes. cbv zeta. set (fa := magAxis _ _ _ d 0 _ _ _ g). assert (E : fi fa = fi g) by apply magAxis_fi. clearbody fa.
  destruct (slt _ rn); [exact E|]. set (fb := magAxis _ _ _ d 1 _ _ _ _). assert (E2 : fi fb = fi g) by (unfold fb; rewrite magAxis_fi; exact E). clearbody fb.
  destruct synth; [exact E2|]. destruct (slt _ rn); [exact E2|]. rewrite magAxis_fi. exact E2.
Qed.
Lemma magAxes_spec tcos tsin tatan2 resetMag (d : declin R) all synth rn (inn : nat -> R) (f g : fus R) : fc g = fc f -> fs g = fs f -> healthyP f -> 0 < rn ->
  let lim := limitDeclination tcos tsin tatan2 d in
  let f' := magAxes tcos tsin tatan2 resetMag d all synth rn inn g in
  exists fa, mag_step lim all 0 rn (inn 0%nat) f fa /\
  (healthyP fa -> exists fb, mag_step lim all 1 rn (inn 1%nat) fa fb /\
     (synth = true -> f' = fb) /\ (synth = false -> healthyP fb -> mag_step lim all 2 rn (inn 2%nat) fb f')).
Proof.
  intros A B [Sy Hp] Rp lim f'. unfold f', magAxes. clear f'. cbv zeta.
  assert (X : fx g = fx f) by (unfold fx; rewrite A; reflexivity). assert (PP : fP g = fP f) by (unfold fP; rewrite B; reflexivity). rewrite X, PP.
  destruct (mx_step tcos tsin tatan2 d all rn (inn 0%nat) f g A B Sy Hp Rp) as (M0 & I0 & _).
  set (fa := magAxis tcos tsin tatan2 d 0 (mx_K (fx f) (fP f) rn all) (mx_H (fx f)) (inn 0%nat) g) in *. clearbody fa.
  exists fa. split; [exact M0|]. intros [Sa Pa].
  pose proof (my_var (fx fa) (fP fa) rn Sa) as V1. pose proof (psd_quad (hvec (my_H (fx fa))) (fP fa) Pa) as Q1.
  assert (slt (my_S (fx fa) (fP fa) rn) rn = false) as -> by (apply sltR_false; lra). clear V1 Q1.
  match goal with |- context [magAxis tcos tsin tatan2 d 1 _ _ _ ?g] => destruct (my_step tcos tsin tatan2 d all rn (inn 1%nat) fa g eq_refl eq_refl Sa Pa Rp) as (M1 & I1 & _) end.
  match type of M1 with mag_step _ _ _ _ _ _ ?g => set (fb := g) in *; clearbody fb end.
  exists fb. split; [exact M1|]. split; [intros ->; reflexivity|]. intros -> [Sb Pb].
  pose proof (mz_var (fx fb) (fP fb) rn Sb) as V2. pose proof (psd_quad (hvec (mz_H (fx fb))) (fP fb) Pb) as Q2.
  assert (slt (mz_S (fx fb) (fP fb) rn) rn = false) as -> by (apply sltR_false; lra).
  match goal with |- context [magAxis tcos tsin tatan2 d 2 _ _ _ ?g] => destruct (mz_step tcos tsin tatan2 d all rn (inn 2%nat) fb g eq_refl eq_refl Sb Pb Rp) as (M2 & _) end.
  exact M2.
Qed.
(** the three innovations are those of the state before the fusion; each axis is
    linearised at the state left by the previous one (so the second and third
    innovation are stale); one axis out of its gate rejects all three *)
Theorem C37_magnetometer : forall tcos tsin tatan2 resetMag (d : declin R) (all synth : bool) (noise gate : R) (meas : nat -> R) (f : fus R),
  symmetric24 (fP f) -> psd (fP f) -> 0 < noise ->
  let f' := fuseMag tcos tsin tatan2 resetMag d all synth noise gate meas f in
  let rn := noise * noise in let inn := mag_residual synth meas (fx f) in
  let lim := limitDeclination tcos tsin tatan2 d in
  exists h, (forall k, (k < 3)%nat -> gradient (mag_axis k) (fx f) (h k)) /\
  let Sv := fun k => quad (h k) (fP f) + rn in
  let pass := fun k => in_gate gate (inn k) (Sv k) in
  (forall k, (k < 3)%nat -> fi f' k = inn k) /\
  (~ (pass 0%nat /\ pass 1%nat /\ pass 2%nat) -> same_estimate f f' /\ forall k, (k < 3)%nat -> fv f' k = Sv k /\ (frej f' k = false <-> pass k)) /\
  (pass 0%nat -> pass 1%nat -> pass 2%nat -> exists fa, mag_step lim all 0 rn (inn 0%nat) f fa /\
     (healthyP fa -> exists fb, mag_step lim all 1 rn (inn 1%nat) fa fb /\
       (synth = true -> f' = fb) /\ (synth = false -> healthyP fb -> mag_step lim all 2 rn (inn 2%nat) fb f'))).
Proof.
  intros tcos tsin tatan2 resetMag d all synth noise gate meas f Sy Hp Np f' rn inn lim.
  assert (Rp : 0 < rn) by (unfold rn; nra).
  exists (fun k => match k with 0%nat => hvec (mx_H (fx f)) | 1%nat => hvec (my_H (fx f)) | _ => hvec (mz_H (fx f)) end).
  split.
  { intros k Hk. destruct k as [|[|[|k]]]; [| | |lia]; [apply mx_gradient|apply my_gradient|apply mz_gradient]. }
  unfold f', fuseMag. clear f'. cbv zeta. assert (RN : sq (sfmax noise szero) = rn) by (rewrite szeroR; unfold sq; cbn [sfmax smul RScalar]; rewrite Rmax_left by lra; reflexivity).
  rewrite RN. clear RN. clearbody rn.
  rewrite (iv1_var (fx f) (fP f) rn Sy), (iv2_var (fx f) (fP f) rn Sy), (mx_var (fx f) (fP f) rn Sy), (my_var (fx f) (fP f) rn Sy), (mz_var (fx f) (fP f) rn Sy).
  pose proof (psd_quad (hvec (mx_H (fx f))) (fP f) Hp) as Q0. pose proof (psd_quad (hvec (my_H (fx f))) (fP f) Hp) as Q1. pose proof (psd_quad (hvec (mz_H (fx f))) (fP f) Hp) as Q2.
  set (S0 := quad (hvec (mx_H (fx f))) (fP f) + rn). set (S1 := quad (hvec (my_H (fx f))) (fP f) + rn). set (S2 := quad (hvec (mz_H (fx f))) (fP f) + rn).
  assert (P0 : rn <= S0) by (unfold S0; lra). assert (P1 : rn <= S1) by (unfold S1; lra). assert (P2 : rn <= S2) by (unfold S2; lra).
  assert (slt S0 rn = false) as -> by (apply sltR_false; lra). assert (slt S1 rn = false) as -> by (apply sltR_false; lra). assert (slt S2 rn = false) as -> by (apply sltR_false; lra).
  rewrite !(magInnovR synth meas (fx f)) by lia. fold inn.
  assert (EM : forall g, magAxes tcos tsin tatan2 resetMag d all synth rn (magInnov synth meas (fx f)) g = magAxes tcos tsin tatan2 resetMag d all synth rn inn g).
  { intros g. unfold magAxes. cbv zeta. rewrite !(magInnovR synth meas (fx f)) by lia. reflexivity. }
  rewrite EM. clear EM. clearbody inn.
  assert (L1 : (slit 1 1 : R) = 1) by (rewrite slitR; field). rewrite smaxi_R, L1.
  pose proof (ratio_gate (Rmax gate 1) (inn 0%nat) S0 (Rmax_pos gate) ltac:(lra)) as G0.
  pose proof (ratio_gate (Rmax gate 1) (inn 1%nat) S1 (Rmax_pos gate) ltac:(lra)) as G1.
  pose proof (ratio_gate (Rmax gate 1) (inn 2%nat) S2 (Rmax_pos gate) ltac:(lra)) as G2.
  rewrite L1 in G0, G1, G2. fold (in_gate gate (inn 0%nat) S0) in G0. fold (in_gate gate (inn 1%nat) S1) in G1. fold (in_gate gate (inn 2%nat) S2) in G2.
  set (r0 := slt 1 (ratio (inn 0%nat) (Rmax gate 1) S0)) in *. set (r1 := slt 1 (ratio (inn 1%nat) (Rmax gate 1) S1)) in *. set (r2 := slt 1 (ratio (inn 2%nat) (Rmax gate 1) S2)) in *.
  match goal with |- context [magAxes _ _ _ _ _ _ _ _ _ ?g] => set (f7 := g) end.
  assert (C : fc f7 = fc f /\ fs f7 = fs f /\ (forall k, (k < 3)%nat -> fi f7 k = inn k) /\ fv f7 0%nat = S0 /\ fv f7 1%nat = S1 /\ fv f7 2%nat = S2 /\ frej f7 0%nat = r0 /\ frej f7 1%nat = r1 /\ frej f7 2%nat = r2).
  { unfold f7. fr. split; [reflexivity|]. split; [reflexivity|]. split; [intros k Hk; destruct k as [|[|[|k]]]; [| | |lia]; reflexivity|]. split; [reflexivity|]. split; [reflexivity|]. split; [reflexivity|]. split; [reflexivity|]. split; reflexivity. }
  destruct C as (C1 & C2 & C3 & C4 & C5 & C6 & C7 & C8 & C9). clearbody f7 r0 r1 r2.
  destruct (r0 || r1 || r2)%bool eqn:ER.
  - split; [exact C3|]. split.
    + intros _. split; [split; unfold fx, fP; rewrite ?C1, ?C2; reflexivity|].
      intros k Hk. destruct k as [|[|[|k]]]; [split; [exact C4|rewrite C7; exact G0]|split; [exact C5|rewrite C8; exact G1]|split; [exact C6|rewrite C9; exact G2]|lia].
    + intros A0 A1 A2. apply G0 in A0. apply G1 in A1. apply G2 in A2. rewrite A0, A1, A2 in ER. discriminate ER.
  - apply orb_false_elim in ER. destruct ER as [ER E2]. apply orb_false_elim in ER. destruct ER as [E0 E1]. 
    split; [intros k Hk; rewrite magAxes_fi; apply C3; exact Hk|]. split.
    + intros NN. exfalso. apply NN. split; [apply G0; exact E0|]. split; [apply G1; exact E1|apply G2; exact E2].
    + intros _ _ _. apply magAxes_spec; [exact C1|exact C2|split; assumption|exact Rp].
Qed.
(** with all states updated and no accelerometer-bias axis excluded, the
    covariance is the posterior of three Kalman updates and stays symmetric and
    positive semi-definite *)
Lemma limited_healthy lim (f f' : fus R) : limited lim f f' -> healthyP f -> healthy_limits f -> healthyP f' /\ healthy_limits f' /\ c_inhibit (fs f') = c_inhibit (fs f).
Proof.
  intros (A & B & C) [S P] [L1 L2]. assert (E : fP f' = fP f) by (unfold fP; rewrite B; reflexivity).
  split; [split; rewrite E; assumption|]. split; [|rewrite B; reflexivity].
  unfold healthy_limits. rewrite B, C. split; [exact L1|exact L2].
Qed.
Lemma mag_step_healthy lim k rn innov (f f' : fus R) : mag_step lim true k rn innov f f' -> (forall i, c_inhibit (fs f) i = false) -> healthy_limits f ->
  healthyP f' /\ healthy_limits f' /\ (forall i, c_inhibit (fs f') i = false).
Proof.
  intros (h & f1 & G & (K & (SC & IE) & C) & L) NI HL.
  destruct C as (S1 & P1 & H1 & _).
  - intros i Hi. left. unfold mag_rows, uninhibited. rewrite NI, andb_false_r. reflexivity.
  - exact HL.
  - destruct (limited_healthy lim f1 f' L (conj S1 P1) H1) as (A & B & D). split; [exact A|]. split; [exact B|]. intros i. rewrite D, IE. apply NI.
Qed.
Theorem C37_magnetometer_posterior : forall tcos tsin tatan2 resetMag (d : declin R) (synth : bool) (noise gate : R) (meas : nat -> R) (f : fus R),
  symmetric24 (fP f) -> psd (fP f) -> 0 < noise -> healthy_limits f -> (forall i, c_inhibit (fs f) i = false) ->
  let f' := fuseMag tcos tsin tatan2 resetMag d true synth noise gate meas f in
  let rn := noise * noise in let inn := mag_residual synth meas (fx f) in let step := mag_step (limitDeclination tcos tsin tatan2 d) true in
  symmetric24 (fP f') /\ psd (fP f') /\
  (same_estimate f f' \/ exists fa fb, step 0%nat rn (inn 0%nat) f fa /\ step 1%nat rn (inn 1%nat) fa fb /\
     (if synth then f' = fb else step 2%nat rn (inn 2%nat) fb f')).
Proof.
  intros tcos tsin tatan2 resetMag d synth noise gate meas f Sy Hp Np HL NI f' rn inn step.
  destruct (C37_magnetometer tcos tsin tatan2 resetMag d true synth noise gate meas f Sy Hp Np) as (h & _ & _ & A & B). cbv zeta in A, B. fold f' rn inn in A, B. change (mag_step (limitDeclination tcos tsin tatan2 d) true) with step in B. clearbody f' inn.
  set (pass := fun k => in_gate gate (inn k) (quad (h k) (fP f) + rn)) in *.
  destruct (Rle_dec (inn 0%nat * inn 0%nat) (Rmax gate 1 * Rmax gate 1 * (quad (h 0%nat) (fP f) + rn))) as [P0|P0].
  2: { destruct A as [[X P] _]; [intros [C _]; exact (P0 C)|]. rewrite P. split; [exact Sy|]. split; [exact Hp|]. left. split; assumption. }
  destruct (Rle_dec (inn 1%nat * inn 1%nat) (Rmax gate 1 * Rmax gate 1 * (quad (h 1%nat) (fP f) + rn))) as [P1|P1].
  2: { destruct A as [[X P] _]; [intros [_ [C _]]; exact (P1 C)|]. rewrite P. split; [exact Sy|]. split; [exact Hp|]. left. split; assumption. }
  destruct (Rle_dec (inn 2%nat * inn 2%nat) (Rmax gate 1 * Rmax gate 1 * (quad (h 2%nat) (fP f) + rn))) as [P2|P2].
  2: { destruct A as [[X P] _]; [intros [_ [_ C]]; exact (P2 C)|]. rewrite P. split; [exact Sy|]. split; [exact Hp|]. left. split; assumption. }
  destruct (B P0 P1 P2) as (fa & M0 & B'). destruct (mag_step_healthy _ _ _ _ _ _ M0 NI HL) as (Ha & La & Na).
  destruct (B' Ha) as (fb & M1 & T & U). destruct (mag_step_healthy _ _ _ _ _ _ M1 Na La) as (Hb & Lb & Nb).
  destruct synth.
  - rewrite (T eq_refl). split; [exact (proj1 Hb)|]. split; [exact (proj2 Hb)|]. right. exists fa, fb. split; [exact M0|]. split; [exact M1|reflexivity].
  - specialize (U eq_refl Hb). destruct (mag_step_healthy _ _ _ _ _ _ U Nb Lb) as (Hc & _).
    split; [exact (proj1 Hc)|]. split; [exact (proj2 Hc)|]. right. exists fa, fb. split; [exact M0|]. split; [exact M1|exact U].
Qed.

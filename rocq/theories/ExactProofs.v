(** * Exact measurements: one fusion step leaves the states unchanged *)
From Coq Require Import Reals Lra Lia List ZArith Bool FunctionalExtensionality.
From Coquelicot Require Import Coquelicot.
From Verif Require Import CBase F32 Scalar RealGeom RotModel RotProofs GeoModel GeoProofs CovSpec PsdLib CovModel CovProofsR CovUpdProofs CovPredProofs FusionGen FusionModel FusionSpec
  FusionProofs FusionProofs2 FusionProofs3 FusionProofs4 FusionProofs5 FusionUpd Props_Fusion Props_Fusion2 HeadingModel Props_Fusion3 VelPosModel ObsModel.
Import ListNotations.
Open Scope R_scope.

Definition unitx (x : nat -> R) : Prop := qnorm2 (quat_of x) = 1.
Lemma fuse0 (K x : nat -> R) : unitx x -> fuse K 0 x = x.
Proof.
  intros U. unfold unitx, qnorm2, quat_of in U. cbn [RealGeom.q0 RealGeom.q1 RealGeom.q2 RealGeom.q3] in U.
  unfold fuse, normQuat. assert (E : fuseRaw K 0 x = x). { apply functional_extensionality. intros i. unfold fuseRaw. cbn [ssub smul RScalar]. ring. }
  rewrite E. rewrite szeroR. cbn [ssqrt sadd smul sdiv RScalar].
  replace (0 + x 0%nat * x 0%nat + x 1%nat * x 1%nat + x 2%nat * x 2%nat + x 3%nat * x 3%nat) with 1 by (cbn [pow] in U; lra).
  rewrite sqrt_1. apply functional_extensionality. intros i. destruct (i <? 4)%nat; [apply Rdiv_1|reflexivity].
Qed.
Lemma apply0 (KHP : Mat R) (K : Vec R) c s : unitx (x_st c) -> x_st (fst (fst (applyUpdate KHP K 0 c s))) = x_st c.
Proof.
  intros U. unfold applyUpdate. destruct (checkAndFix 24 KHP (cP s)) as [M1 h]. destruct h; [|reflexivity].
  cbn [fst]. change (x_st (setState (fuse K 0 (x_st c)) c)) with (fuse K 0 (x_st c)). apply fuse0. exact U.
Qed.
Lemma mupd0 (K : Vec R) H (f : fus R) : unitx (fx f) -> fx (fst (mupd K H 0 f)) = fx f.
Proof.
  intros U. unfold mupd, measurementUpdate. cbv zeta. 
  match goal with |- context [applyUpdate ?A ?B 0 ?c ?s] => pose proof (apply0 A B c s U) as E; destruct (applyUpdate A B 0 c s) as [[c' s'] ok] end.
  exact E.
Qed.

(** ** velocity, position, height *)
Definition vx_ (v : vpst R) : nat -> R := x_st (v_c v).
Lemma vpFuse0 var k (v : vpst R) : unitx (vx_ v) -> vx_ (vpFuse 0 var k v) = vx_ v.
Proof.
  intros U. unfold vpFuse, fuseVelPosHeight. cbv zeta.
  match goal with |- context [applyUpdate ?A ?B 0 ?c ?s] => pose proof (apply0 A B c s U) as E; destruct (applyUpdate A B 0 c s) as [[c' s'] ok] end.
  exact E.
Qed.
Lemma hvel0 gate o0 o1 (v : vpst R) : unitx (vx_ v) -> vx_ (r_v (fuseHorizontalVelocity 0 0 gate o0 o1 v)) = vx_ v.
Proof.
  intros U. unfold fuseHorizontalVelocity. cbv zeta. destruct (sle _ _); [|reflexivity]. cbn [r_v].
  rewrite vpFuse0; [rewrite vpFuse0; [reflexivity|exact U]|rewrite vpFuse0; exact U].
Qed.
Lemma used0 pass gate var : usedInnov false pass (0 : R) gate var = 0. Proof. reflexivity. Qed.
Lemma vvel0 gate o (v : vpst R) : unitx (vx_ v) -> vx_ (r_v (fuseVerticalVelocity false 0 gate o v)) = vx_ v.
Proof.
  intros U. unfold fuseVerticalVelocity. cbv zeta. rewrite used0. destruct (_ || _)%bool; [|reflexivity]. cbn [r_v]. rewrite vpFuse0; [reflexivity|exact U].
Qed.
Lemma hpos0 inh gate o0 o1 (v : vpst R) : unitx (vx_ v) -> vx_ (r_v (fuseHorizontalPosition inh 0 0 gate o0 o1 v)) = vx_ v.
Proof.
  intros U. unfold fuseHorizontalPosition. cbv zeta. destruct (sle _ _ || inh)%bool; [|reflexivity]. destruct (inh && _)%bool; [reflexivity|]. cbn [r_v].
  rewrite vpFuse0; [rewrite vpFuse0; [reflexivity|exact U]|rewrite vpFuse0; exact U].
Qed.
Lemma vpos0 gate o (v : vpst R) : unitx (vx_ v) -> vx_ (r_v (fuseVerticalPosition false 0 gate o v)) = vx_ v.
Proof.
  intros U. unfold fuseVerticalPosition. cbv zeta. rewrite used0. destruct (_ || _)%bool; [|reflexivity]. cbn [r_v]. rewrite vpFuse0; [reflexivity|exact U].
Qed.

(** ** air data *)
Definition sane (f : fus R) : Prop := symmetric24 (fP f) /\ psd (fP f).
Lemma airspeed0 rw ra full noise gate tas e2t (f : fus R) : unitx (fx f) -> sane f -> tas = airspeed_model (fx f) ->
  fx (fuseAirspeed rw ra full noise gate tas e2t f) = fx f.
Proof.
  intros U [Sy Hp] E. unfold fuseAirspeed. rewrite (tasVarR noise e2t). rewrite (as_pred (fx f)).
  destruct (slt (airspeed_model (fx f)) (slit 1 1)) eqn:L; [reflexivity|]. apply sltR_false in L. rewrite slitR in L.
  rewrite (as_var (fx f) (fP f) _ ltac:(lra) Sy). pose proof (Hp (hvec (as_H (fx f)))) as Q. unfold quad in *.
  match goal with |- context [slt ?a ?b] => assert (slt a b = false) as -> by (apply sltR_false; lra) end. cbv zeta.
  replace (ssub (airspeed_model (fx f)) tas) with 0 by (rewrite E; cbn [ssub RScalar]; ring).
  destruct (slt (slit 1 1) _); [reflexivity|].
  match goal with |- context [mupd ?K ?H 0 ?g] => pose proof (mupd0 K H g U) as Z; destruct (mupd K H 0 g) as [f5 ok] end. cbn [fst] in Z.
  destruct ok; exact Z.
Qed.
Lemma sideslip0 rw ra full noise gate (f : fus R) : unitx (fx f) -> sane f -> RealGeom.vx (to_body (fx f) (air_vel (fx f))) <> 0 ->
  RealGeom.vy (to_body (fx f) (air_vel (fx f))) = 0 -> fx (fuseSideslip rw ra full noise gate f) = fx f.
Proof.
  intros U [Sy Hp] N E. unfold fuseSideslip. destruct (slt _ (norm3 _)); [|reflexivity]. rewrite relWind0, relWind1, E.
  rewrite (ss_var (fx f) (fP f) _ N Sy). pose proof (Hp (hvec (ss_H (fx f)))) as Q. unfold quad in *.
  match goal with |- context [slt ?a ?b] => assert (slt a b = false) as -> by (apply sltR_false; lra) end. cbv zeta.
  match goal with |- context [sdiv 0 ?d] => replace (sdiv 0 d) with 0 by (cbn [sdiv RScalar]; unfold Rdiv; ring) end.
  destruct (slt (slit 1 1) _); [reflexivity|].
  match goal with |- context [mupd ?K ?H 0 ?g] => pose proof (mupd0 K H g U) as Z; destruct (mupd K H 0 g) as [f5 ok] end. cbn [fst] in Z.
  destruct ok; exact Z.
Qed.
(** specific force caused by drag on one axis; bc: ballistic coefficient, v: speed through the air along the axis *)
Definition drag_force (bc rho v : R) : R := - (1 / 2) * (rho / bc) * (v * Rabs v).
Lemma dragAxis0 ax rn rho bc acc (rel : nat -> R) (f : fus R) : unitx (fx f) ->
  acc - fx f (13 + ax)%nat / x_dt_ekf_avg (fc f) = drag_force bc rho (rel ax) -> fx (fst (dragAxis ax rn rho (slit 1 1 / bc)%scal acc rel f)) = fx f.
Proof.
  intros U E. unfold dragAxis. cbv zeta. destruct (slt _ rn); [reflexivity|].
  assert (Z : ssub (dragPred (slit 1 1 / bc)%scal rho (rel ax)) (dragMeas acc (fx f (13 + ax)%nat) (x_dt_ekf_avg (fc f))) = 0).
  { rewrite dragPredR. unfold dragMeas. cbn [ssub sdiv RScalar]. rewrite E. unfold drag_force. rewrite slitR. unfold Rdiv. ring_simplify. rewrite Rinv_1. ring. }
  rewrite Z. destruct (sle _ _); [|reflexivity]. cbn [fst]. rewrite mupd0; [reflexivity|exact U].
Qed.
Lemma dragAxis_fc ax rn rho binv acc (rel : nat -> R) (f : fus R) : x_dt_ekf_avg (fc (fst (dragAxis ax rn rho binv acc rel f))) = x_dt_ekf_avg (fc f).
Proof.
  unfold dragAxis. cbv zeta. destruct (slt _ rn); [reflexivity|]. destruct (sle _ _); [|reflexivity]. cbn [fst].
  unfold mupd, measurementUpdate, applyUpdate. cbv zeta. destruct (checkAndFix _ _ _) as [M1 h]. destruct h; reflexivity.
Qed.
Lemma drag0 noise density bcx bcy accx accy (f : fus R) : unitx (fx f) ->
  let rho := Rmax density (1 / 10) in let a := to_body (fx f) (air_vel (fx f)) in
  accx - fx f 13%nat / x_dt_ekf_avg (fc f) = drag_force bcx rho (RealGeom.vx a) -> accy - fx f 14%nat / x_dt_ekf_avg (fc f) = drag_force bcy rho (RealGeom.vy a) ->
  fx (fuseDrag noise density bcx bcy accx accy f) = fx f.
Proof.
  intros U rho a E1 E2. unfold fuseDrag. cbv zeta. destruct (_ || _)%bool; [reflexivity|].
  change (sfmax density (slit 1 10)) with rho.
  pose proof (dragAxis0 0 (sfmax noise (slit 1 2)) rho bcx accx (relWindBody (fx f)) f U) as A. rewrite relWind0 in A. specialize (A E1).
  pose proof (dragAxis_fc 0 (sfmax noise (slit 1 2)) rho (slit 1 1 / bcx)%scal accx (relWindBody (fx f)) f) as D.
  destruct (dragAxis 0 _ _ _ _ _ _) as [f1 stop]. cbn [fst] in A, D. destruct stop; [exact A|].
  rewrite dragAxis0; [exact A|rewrite A; exact U|]. rewrite D, A, relWind1. exact E2.
Qed.

(** ** optical flow *)
Lemma flowAxis0 ax (K : Vec R) H (f : fus R) : unitx (fx f) -> fx (flowAxis ax K H 0 f) = fx f.
Proof.
  intros U. unfold flowAxis. pose proof (mupd0 K H f U) as Z. destruct (mupd K H 0 f) as [f1 ok]. cbn [fst] in Z. destruct ok; exact Z.
Qed.
Lemma flow0 ra rn gate gnd terrain dt (Re : nat -> nat -> R) gyro off comp bias (f : fus R) : unitx (fx f) ->
  let rg := flow_range gnd terrain Re (vec_of off) (fx f) in
  let v := sensor_vel Re (mkV (- gyro 0%nat / dt) (- gyro 1%nat / dt) (- gyro 2%nat / dt)) (vec_of off) (fx f) in
  comp 0%nat / dt + bias 0%nat = RealGeom.vy v / rg -> comp 1%nat / dt + bias 1%nat = - RealGeom.vx v / rg ->
  fx (fuseOptFlow ra rn gate gnd terrain dt Re gyro off comp bias f) = fx f.
Proof.
  intros U rg v E1 E2. unfold fuseOptFlow. cbv zeta. rewrite (flowRangeR gnd terrain Re off (fx f)). fold rg. rewrite !flowVelR by lia. fold v. cbv zeta.
  cbn [sadd ssub sdiv sopp RScalar]. rewrite E1, E2. rewrite !Rminus_eq_0.
  unfold flowApply. cbv zeta. destruct (slt _ rn); [reflexivity|]. destruct (slt _ rn); [reflexivity|]. destruct (_ || _)%bool; [reflexivity|].
  rewrite flowAxis0; [rewrite flowAxis0; [reflexivity|exact U]|rewrite flowAxis0; exact U].
Qed.

(** ** magnetometer, declination *)
(** the field estimate is inside the limits applied to it (C60) *)
Definition field_in_limits (d : declin R) (x : nat -> R) : Prop :=
  field_floor d <= sqrt (x 16%nat * x 16%nat + x 17%nat * x 17%nat) /\ Rabs (atan2 (x 17%nat) (x 16%nat) - decl_reference d) <= 1 / 2.
Lemma limit0 d x : field_in_limits d x -> limitDeclination cos sin atan2 d x = x.
Proof. intros [A B]. apply functional_extensionality. intros i. apply (proj2 (proj2 (proj2 (C60_field_limited d x)))); assumption. Qed.
Lemma magAxis0 d ax (K : Vec R) H (f : fus R) : unitx (fx f) -> field_in_limits d (fx f) -> fx (magAxis cos sin atan2 d ax K H 0 f) = fx f.
Proof.
  intros U L. unfold magAxis. pose proof (mupd0 K H f U) as Z. destruct (mupd K H 0 f) as [f1 ok]. cbn [fst] in Z. destruct ok; [|exact Z].
  change (limitDeclination cos sin atan2 d (fx f1) = fx f). rewrite Z. apply limit0. exact L.
Qed.
Lemma magAxes0 rm d all synth rn (inn : nat -> R) (f : fus R) : unitx (fx f) -> field_in_limits d (fx f) -> (forall k, (k < 3)%nat -> inn k = 0) ->
  fx (magAxes cos sin atan2 rm d all synth rn inn f) = fx f.
Proof.
  intros U L Z. unfold magAxes. rewrite !Z by lia. cbv zeta.
  set (f1 := magAxis cos sin atan2 d 0 _ _ 0 f). assert (E1 : fx f1 = fx f) by (apply magAxis0; assumption). clearbody f1.
  destruct (slt _ rn); [exact E1|].
  match goal with |- context [magAxis cos sin atan2 d 1 ?K ?H 0 ?g] => set (f3 := magAxis cos sin atan2 d 1 K H 0 g); assert (E3 : fx f3 = fx f) end.
  { unfold f3. transitivity (fx f1); [|exact E1]. apply (magAxis0 d 1 _ _ (setVar 1 _ f1)); change (fx (setVar _ _ f1)) with (fx f1); rewrite E1; assumption. }
  clearbody f3. destruct synth; [exact E3|]. destruct (slt _ rn); [exact E3|].
  transitivity (fx f3); [|exact E3]. apply (magAxis0 d 2 _ _ (setVar 2 _ f3)); change (fx (setVar _ _ f3)) with (fx f3); rewrite E3; assumption.
Qed.
Lemma mag0 rm d all synth noise gate (meas : nat -> R) (f : fus R) : unitx (fx f) -> field_in_limits d (fx f) ->
  meas 0%nat = RealGeom.vx (mag_model (fx f)) -> meas 1%nat = RealGeom.vy (mag_model (fx f)) -> (synth = false -> meas 2%nat = RealGeom.vz (mag_model (fx f))) ->
  fx (fuseMag cos sin atan2 rm d all synth noise gate meas f) = fx f.
Proof.
  intros U L M0 M1 M2. assert (Z : forall k, (k < 3)%nat -> magInnov synth meas (fx f) k = 0).
  { intros k Hk. rewrite magInnovR by exact Hk. unfold mag_residual, mag_axis. destruct k as [|[|[|k]]]; [| | |lia]; cbn [Nat.eqb].
    - rewrite andb_false_r. lra.
    - rewrite andb_false_r. lra.
    - rewrite andb_true_r. destruct synth; [reflexivity|]. rewrite M2 by reflexivity. lra. }
  unfold fuseMag. cbv zeta. destruct (slt _ _); [reflexivity|]. destruct (slt _ _); [reflexivity|]. destruct (slt _ _); [reflexivity|].
  match goal with |- fx (if ?b then _ else _) = _ => destruct b; [reflexivity|] end.
  match goal with |- fx (magAxes _ _ _ _ _ _ _ _ _ ?g) = _ => transitivity (fx g); [apply magAxes0; [exact U|exact L|exact Z]|reflexivity] end.
Qed.
Lemma declination0 d sigma (f : fus R) : unitx (fx f) -> field_in_limits d (fx f) ->
  (d_in_flight d = false -> atan2 (fx f 17%nat) (fx f 16%nat) = decl_reference d) -> fx (fuseDeclination cos sin atan2 d sigma f) = fx f.
Proof.
  intros U L D. unfold fuseDeclination. cbv zeta. destruct (slt _ _); [reflexivity|]. destruct (slt _ _); [|reflexivity].
  assert (Z : ssub (atan2 (fx f 17%nat) (fx f 16%nat)) (getMagDeclination atan2 (d_in_flight d) (d_geo d) (d_gps d) (d_param d) (fx f)) = 0).
  { unfold getMagDeclination. destruct (d_in_flight d); [apply Rminus_eq_0|]. change (if d_geo d then d_gps d else d_param d) with (decl_reference d). rewrite D by reflexivity. apply Rminus_eq_0. }
  rewrite Z. assert (C : sconstrain (0 : R) (- slit 1 2)%scal (slit 1 2) = 0).
  { rewrite sconstrainR, slitR. cbn [sopp RScalar]. destruct (Rlt_dec 0 _); [lra|]. destruct (Rlt_dec _ 0); [lra|reflexivity]. }
  rewrite C. match goal with |- context [mupd ?K ?H 0 f] => pose proof (mupd0 K H f U) as Z1; destruct (mupd K H 0 f) as [f1 ok] end. cbn [fst] in Z1.
  destruct ok; [|exact Z1]. change (limitDeclination cos sin atan2 d (fx f1) = fx f). rewrite Z1. apply limit0. exact L.
Qed.

(** ** GPS yaw, heading *)
Lemma gpsYaw0 ra cos30 (Re : nat -> nat -> R) yaw off noise gate (f : fus R) : unitx (fx f) ->
  (exists r, 0 < r /\ RealGeom.vx (baseline Re off) = r * cos (yaw + off) /\ RealGeom.vy (baseline Re off) = r * sin (yaw + off)) ->
  fx (fuseGpsYaw cos sin atan2 wrap_pi ra cos30 Re yaw off noise gate f) = fx f.
Proof.
  intros U (r & Hr & X & Y). unfold fuseGpsYaw. cbv zeta.
  do 4 (destruct (slt _ _); [reflexivity|]). destruct (slt _ _); [reflexivity|].
  assert (Z : wrap_pi (ssub (atan2 (antEf cos sin Re off 1%nat) (antEf cos sin Re off 0%nat)) (wrap_pi (sadd yaw off))) = 0).
  { rewrite !antEfR by lia. rewrite X, Y. cbn [ssub sadd RScalar]. rewrite wrap_diff.
    assert (NZ : r * cos (yaw + off) <> 0 \/ r * sin (yaw + off) <> 0).
    { destruct (Req_dec (cos (yaw + off)) 0) as [C|C]; [right|left; apply Rmult_integral_contrapositive; split; [lra|exact C]].
      pose proof (sc (yaw + off)) as SC. rewrite C in SC. apply Rmult_integral_contrapositive. split; [lra|]. intros Q. rewrite Q in SC. lra. }
    destruct (atan2_polar _ _ NZ) as (_ & PC & PS). rewrite cs2, sqrt_square in PC, PS by lra.
    apply Rmult_eq_reg_l in PC; [|lra]. apply Rmult_eq_reg_l in PS; [|lra].
    rewrite <- wrap_0. apply wrap_eq.
    - rewrite cos_minus, PC, PS, cos_0. pose proof (sc (yaw + off)). lra.
    - rewrite sin_minus, PC, PS, sin_0. ring. }
  rewrite Z. destruct (_ && _)%bool; [reflexivity|].
  match goal with |- context [mupd ?K ?H ?i ?g] => assert (I : i = 0) end.
  { destruct (slt _ _); [|reflexivity]. rewrite sconstrainR. cbn [sopp ssqrt RScalar]. set (w := sqrt _). pose proof (sqrt_pos (smul (sq (smaxi gate (slit 1 1))) (ga_S (fx f) (fP f) (sq (sfmax noise (slit 1 100))) (sin off) (cos off)))). fold w in H. 
    destruct (Rlt_dec 0 (- w)); [lra|]. destruct (Rlt_dec w 0); [lra|reflexivity]. }
  rewrite I. match goal with |- context [mupd ?K ?H 0 ?g] => pose proof (mupd0 K H g U) as Z1; destruct (mupd K H 0 g) as [f1 ok] end. cbn [fst] in Z1.
  destruct ok; exact Z1.
Qed.

Lemma updq0 ra gnd variance gate (h : nat -> R) (f : fus R) : unitx (fx f) -> fx (updateQuaternion ra gnd 0 variance gate h f) = fx f.
Proof.
  intros U. unfold updateQuaternion. cbv zeta. destruct (sle _ _); [|reflexivity]. destruct (_ && _)%bool; [reflexivity|].
  match goal with |- context [applyUpdate ?A ?B ?i ?c ?s] => assert (I : i = 0) end.
  { destruct (slt _ _); [|reflexivity]. rewrite sconstrainR. cbn [sopp ssqrt RScalar]. set (w := sqrt _). assert (0 <= w) by apply sqrt_pos.
    destruct (Rlt_dec 0 (- w)); [lra|]. destruct (Rlt_dec w 0); [lra|reflexivity]. }
  rewrite I. match goal with |- context [applyUpdate ?A ?B 0 ?c ?s] => pose proof (apply0 A B c s U) as E; destruct (applyUpdate A B 0 c s) as [[c' s'] ok] end.
  exact E.
Qed.
Lemma fuseYaw0 ra gnd h pred yaw variance gate z (f : fus R) : unitx (fx f) -> (z = false -> wrap_pi (pred - yaw) = 0) ->
  fx (fuseYaw wrap_pi ra gnd h pred yaw variance gate z f) = fx f.
Proof.
  intros U Z. unfold fuseYaw. destruct h as [h|]; [|reflexivity]. cbv zeta.
  match goal with |- fx (updateQuaternion _ _ ?i _ _ _ _) = _ => assert (I : i = 0) end.
  { destruct z; [apply szeroR|]. cbn [ssub RScalar]. rewrite wrap_diff. apply Z. reflexivity. }
  rewrite I. apply updq0. exact U.
Qed.
(** an ideal heading measurement: at rest with fusion inhibited the heading remembered is the true one; a magnetometer reads
    the field of the state (horizontal part not zero) and the declination used is that of the field; a vision system reports
    the attitude *)
Definition heading_exact (d : declin R) (i : headin) (static : R) (x : nat -> R) : Prop :=
  if (hi_inhibit i && hi_rest i)%bool then static = heading_of (quat_of x)
  else if hi_mag i then hi_sample i = mag_model x /\ (x 16%nat <> 0 \/ x 17%nat <> 0) /\ (d_in_flight d = false -> atan2 (x 17%nat) (x 16%nat) = decl_reference d)
  else hi_ev i = true -> hi_evq i = quat_of x.
Lemma to_body_back (x : nat -> R) v : unitx x -> mapp (dcm (quat_of x)) (to_body x v) = v.
Proof. intros U. unfold to_body. rewrite <- mapp_mmul. destruct (dcm_rotation _ U) as (-> & _ & _). destruct v as [a b c]. unfold mapp, mident. cbn [RealGeom.vx RealGeom.vy RealGeom.vz m00 m01 m02 m10 m11 m12 m20 m21 m22]. f_equal; ring. Qed.
Lemma heading0 ra gnd d i static (f : fus R) : unitx (fx f) -> heading_exact d i static (fx f) -> fx (fst (headingFusion ra gnd d i static f)) = fx f.
Proof.
  intros U H. unfold headingFusion. cbv zeta. fold (heading_of (quat_of (fx f))).
  set (use := shouldUse321 (dcm (quat_of (fx f)))). set (hdg := heading_of (quat_of (fx f))).
  assert (OV : (if use then yaw321_q (hi_evq i) else yaw312_q (hi_evq i)) = (if use then yaw321 (dcm (hi_evq i)) else yaw312 (dcm (hi_evq i)))).
  { destruct (yaw_overloads (hi_evq i)) as [-> ->]. reflexivity. }
  rewrite OV. clear OV. unfold fuseHeading, hdgSelect. cbn [h_mag h_ev h_inhibit h_rest h_noise h_ev_var h_max_var h_meas_mag h_meas_ev].
  unfold heading_exact in H.
  assert (M : (hi_inhibit i && hi_rest i)%bool = false -> forall decl, decl = getMagDeclination atan2 (d_in_flight d) (d_geo d) (d_gps d) (d_param d) (fx f) ->
    wrap_pi (hdg - hdgMeas (mkHdg (hi_mag i) (hi_ev i) (hi_inhibit i) (hi_rest i) (hi_noise i) (hi_ev_var i) (hi_max_var i)
       (magHeading (dcm (quat_of (fx f))) (hi_sample i) (mkV (fx f 19%nat) (fx f 20%nat) (fx f 21%nat)) decl)
       (if use then yaw321 (dcm (hi_evq i)) else yaw312 (dcm (hi_evq i)))) hdg) = 0).
  { intros B decl ED. rewrite B in H. unfold hdgMeas. cbn [h_mag h_ev h_meas_mag h_meas_ev]. destruct (hi_mag i).
    - destruct H as (E & NZ & D).
      assert (FS : field_seen (quat_of (fx f)) (hi_sample i) (mkV (fx f 19%nat) (fx f 20%nat) (fx f 21%nat)) = mkV (fx f 16%nat) (fx f 17%nat) (fx f 18%nat)).
      { unfold field_seen. rewrite E. unfold mag_model. rewrite <- (to_body_back (fx f) (mkV (fx f 16%nat) (fx f 17%nat) (fx f 18%nat)) U) at 2. f_equal.
        unfold vadd, vsub. cbn [RealGeom.vx RealGeom.vy RealGeom.vz]. destruct (to_body _ _) as [a b c]. cbn [RealGeom.vx RealGeom.vy RealGeom.vz]. f_equal; ring. }
      unfold hdg. rewrite mag_innovation; [|exact U|rewrite FS; exact NZ]. rewrite FS. cbn [RealGeom.vx RealGeom.vy].
      assert (decl = atan2 (fx f 17%nat) (fx f 16%nat)) as ->. { rewrite ED. unfold getMagDeclination. destruct (d_in_flight d); [reflexivity|]. symmetry. exact (D eq_refl). }
      rewrite Rminus_eq_0. apply wrap_0.
    - destruct (hi_ev i); [|rewrite Rminus_eq_0; apply wrap_0]. rewrite H by reflexivity. unfold hdg, heading_of, use. rewrite Rminus_eq_0. apply wrap_0. }
  destruct (hi_inhibit i); [destruct (hi_rest i)|]; cbn [negb andb] in *.
  - cbn [fst]. apply fuseYaw0; [exact U|]. intros _. rewrite H. fold hdg. rewrite Rminus_eq_0. apply wrap_0.
  - destruct (slt _ _); cbn [fst]; (apply fuseYaw0; [exact U|]); [discriminate|]. intros _. apply (M eq_refl). reflexivity.
  - cbn [fst]. apply fuseYaw0; [exact U|]. intros _. apply (M eq_refl). reflexivity.
Qed.

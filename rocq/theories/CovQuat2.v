From Coq Require Import Reals Lra Psatz Ratan.
From Coquelicot Require Import Coquelicot.
From Verif Require Import CBase Scalar RealGeom CovSpec PsdLib CovModel CovProofs CovProofsR CovUpdProofs CovQuat.
Open Scope R_scope.

Lemma initQuat_other x v M i j : (4 <= i)%nat -> (4 <= j)%nat -> initQuatCov x v M i j = M i j.
Proof.
  intros Hi Hj. unfold initQuatCov. cbv zeta. destruct (Rlt_dec _ _).
  - replace (i <? 4)%nat with false by (symmetry; apply Nat.ltb_ge; lia). cbn [andb]. unfold uncorrelateSet, inb.
    replace (i <? 2 + 2)%nat with false by (symmetry; apply Nat.ltb_ge; lia). replace (j <? 2 + 2)%nat with false by (symmetry; apply Nat.ltb_ge; lia).
    replace (i <? 0 + 2)%nat with false by (symmetry; apply Nat.ltb_ge; lia). replace (j <? 0 + 2)%nat with false by (symmetry; apply Nat.ltb_ge; lia).
    rewrite !andb_false_r. reflexivity.
  - unfold uncorrelateSet, inb.
    replace (i <? 1 + 3)%nat with false by (symmetry; apply Nat.ltb_ge; lia). replace (j <? 1 + 3)%nat with false by (symmetry; apply Nat.ltb_ge; lia).
    replace (i <? 0 + 1)%nat with false by (symmetry; apply Nat.ltb_ge; lia). replace (j <? 0 + 1)%nat with false by (symmetry; apply Nat.ltb_ge; lia).
    rewrite !andb_false_r. reflexivity.
Qed.
Lemma initQuat_cross x v M i j : (i < 4)%nat -> (4 <= j)%nat -> initQuatCov x v M i j = 0 /\ initQuatCov x v M j i = 0.
Proof.
  intros Hi Hj. unfold initQuatCov. cbv zeta. destruct (Rlt_dec _ _).
  - replace (j <? 4)%nat with false by (symmetry; apply Nat.ltb_ge; lia). rewrite andb_false_r. cbn [andb].
    unfold uncorrelateSet, inb. do 4 (destruct i as [|i]; [do 4 (destruct j as [|j]; [lia|]); split; cbn; unfold szero; cbn; lra|]). lia.
  - unfold uncorrelateSet, inb. do 4 (destruct i as [|i]; [do 4 (destruct j as [|j]; [lia|]); split; cbn; unfold szero; cbn; lra|]). lia.
Qed.
Lemma initQuat_small x v M i j : (i < 4)%nat -> (j < 4)%nat ->
  rotvec x 0 * rotvec x 0 + rotvec x 1 * rotvec x 1 + rotvec x 2 * rotvec x 2 <= 1 / 1000000000 ->
  initQuatCov x v M i j = if (i =? j)%nat then match i with O => 0 | S k => v k / 4 end else 0.
Proof.
  intros Hi Hj Hn. unfold initQuatCov. cbv zeta. destruct (Rlt_dec _ _) as [L|_]; [lra|].
  unfold uncorrelateSet, inb. do 4 (destruct i as [|i]; [do 4 (destruct j as [|j]; [cbn; unfold szero; cbn; try lra|]); lia|]). lia.
Qed.
Lemma initQuat_psd x v M : psd M -> (forall k, (k < 3)%nat -> 0 <= v k) -> psd (initQuatCov x v M).
Proof.
  intros HM Hv.
  destruct (Rlt_dec (1 / 1000000000) (rotvec x 0 * rotvec x 0 + rotvec x 1 * rotvec x 1 + rotvec x 2 * rotvec x 2)) as [L|L].
  - apply (psd_ext (fun i j => rsum 3 (fun k => (if (i <? 4)%nat then Jq (rotvec x) i k else 0) * v k * (if (j <? 4)%nat then Jq (rotvec x) j k else 0))
      + (if negb (i <? 4)%nat && negb (j <? 4)%nat then M i j else 0))).
    + intros i j Hi Hj. destruct (Nat.ltb_spec i 4) as [A|A], (Nat.ltb_spec j 4) as [B|B]; cbn [negb andb].
      * rewrite initQuat_block by assumption. ring.
      * rewrite (proj1 (initQuat_cross x v M i j A B)). rewrite (rsum_ext _ _ (fun _ => 0)) by (intros; ring). rewrite rsum_0. ring.
      * rewrite (proj2 (initQuat_cross x v M j i B A)). rewrite (rsum_ext _ _ (fun _ => 0)) by (intros; ring). rewrite rsum_0. ring.
      * rewrite initQuat_other by assumption. rewrite (rsum_ext _ _ (fun _ => 0)) by (intros; ring). rewrite rsum_0. ring.
    + apply psd_plus.
      * apply (psd_sum 3 (fun m i j => (if (i <? 4)%nat then Jq (rotvec x) i m else 0) * v m * (if (j <? 4)%nat then Jq (rotvec x) j m else 0))).
        intros m Hm. apply (psd_outer (v m) (fun i => if (i <? 4)%nat then Jq (rotvec x) i m else 0)). apply Hv, Hm.
      * apply (psd_mask (fun i => negb (i <? 4)%nat)). exact HM.
  - unfold initQuatCov. cbv zeta. destruct (Rlt_dec _ _) as [A|_]; [contradiction|].
    apply psd_uncorrelateSet; [apply psd_uncorrelateSet; [exact HM|intros; lra]|]. intros k Hk. specialize (Hv k Hk). lra.
Qed.

Lemma initQuat_sym x v M i j : symmetric24 M -> (i < 24)%nat -> (j < 24)%nat -> initQuatCov x v M i j = initQuatCov x v M j i.
Proof.
  intros HS Hi Hj. destruct (lt_dec i 4) as [A|A], (lt_dec j 4) as [B|B].
  - destruct (Rlt_dec (1 / 1000000000) (rotvec x 0 * rotvec x 0 + rotvec x 1 * rotvec x 1 + rotvec x 2 * rotvec x 2)) as [L|L].
    + rewrite !initQuat_block by assumption. apply rsum_ext. intros k _. ring.
    + rewrite !initQuat_small by (assumption || lra). rewrite (Nat.eqb_sym j i). destruct (Nat.eqb_spec i j) as [->|]; reflexivity.
  - destruct (initQuat_cross x v M i j A ltac:(lia)) as [-> ->]. reflexivity.
  - destruct (initQuat_cross x v M j i B ltac:(lia)) as [-> ->]. reflexivity.
  - rewrite !initQuat_other by lia. apply HS; assumption.
Qed.

(** ** Rotation vector variances *)
Lemma is_derive_acos x : -1 < x < 1 -> is_derive acos x (- / sqrt (1 - x * x)).
Proof.
  intros H. apply is_derive_Reals. pose proof (derive_pt_acos x H) as D. apply derive_pt_eq_1 in D.
  replace (- / sqrt (1 - x * x)) with (-1 / sqrt (1 - x²)) by (unfold Rsqr; unfold Rdiv; ring). exact D.
Qed.
(** partial derivatives of [rvec] *)
Lemma rvec_d0 q qi : 0 <= q < 1 ->
  is_derive (fun t => rvec t qi) q (qi * (1 / (q * q - 1)) * 2 + q * qi * acos q * (1 / pow15 (1 - q * q)) * 2).
Proof.
  intros H. assert (Hp : 0 < 1 - q * q) by nra. assert (Hs : 0 < sqrt (1 - q * q)) by (apply sqrt_lt_R0; exact Hp).
  assert (Hss : sqrt (1 - q * q) * sqrt (1 - q * q) = 1 - q * q) by (apply sqrt_sqrt; lra).
  pose proof (is_derive_acos q ltac:(lra)) as DA. assert (EA : ex_derive acos q) by (eexists; exact DA). apply is_derive_unique in DA.
  unfold rvec. auto_derive.
  - replace (1 + - (q * q)) with (1 - q * q) by ring. repeat split; try exact EA; try lra.
  - change (Derive (fun x : R => acos x) q = - / sqrt (1 - q * q)) in DA. rewrite DA. rewrite pow15_eq by exact Hp.
    replace (1 + - (q * q)) with (1 - q * q) by ring. replace (q * q - 1) with (- (1 - q * q)) by ring. set (w := sqrt (1 - q * q)) in *. rewrite <- Hss. field. lra.
Qed.
Lemma rvec_di q qi : 0 <= q < 1 -> is_derive (fun t => rvec q t) qi (acos q * (1 / sqrt (1 - q * q)) * 2).
Proof.
  intros H. assert (Hs : 0 < sqrt (1 - q * q)) by (apply sqrt_lt_R0; nra).
  unfold rvec. auto_derive; [auto|]. field. lra.
Qed.
Lemma rotvec_rvec x k : unit_quat x -> posq x 0%nat < 1 -> rotvec x k = rvec (posq x 0%nat) (posq x (S k)).
Proof.
  intros HU Hlt. destruct (rotvec_norm x HU Hlt) as (_ & _ & C & D). unfold rotvec, rvec. cbv zeta.
  replace (2 * acos (posq x 0%nat) * (1 / 2)) with (acos (posq x 0%nat)) by field. rewrite C.
  replace (posq x 0%nat ^ 2) with (posq x 0%nat * posq x 0%nat) by ring. reflexivity.
Qed.
Lemma rotVecVar_ok x M k d0 di : 1 / 1000000000 < 1 - posq x 0%nat * posq x 0%nat ->
  is_derive (fun t => rvec t (posq x (S k))) (posq x 0%nat) d0 -> is_derive (fun t => rvec (posq x 0%nat) t) (posq x (S k)) di ->
  rotVecVar x M k = d0 * d0 * M 0%nat 0%nat + d0 * di * (M 0%nat (S k) + M (S k) 0%nat) + di * di * M (S k) (S k).
Proof.
  intros H D0 Di. pose proof (posq_nonneg x) as P0. assert (B : 0 <= posq x 0%nat < 1) by nra.
  pose proof (rvec_d0 (posq x 0%nat) (posq x (S k)) B) as E0. pose proof (rvec_di (posq x 0%nat) (posq x (S k)) B) as Ei.
  apply is_derive_unique in D0. apply is_derive_unique in Di. apply is_derive_unique in E0. apply is_derive_unique in Ei.
  rewrite E0 in D0. rewrite Ei in Di. subst d0 di.
  unfold rotVecVar. cbv zeta. set (q := posq x 0%nat) in *. replace (- (q * q) + 1) with (1 - q * q) by ring.
  destruct (Rlt_dec _ _) as [_|N]; [|lra]. destruct (Rlt_dec _ _) as [_|N]; [|lra].
  ring.
Qed.

(** ** Yaw variance increase *)
Lemma yawSQ_R (x : Vec R) : unit_quat x ->
  yawSQ x 0 = - x 1%nat / 2 /\ yawSQ x 1 = x 2%nat / 2 /\ yawSQ x 2 = x 3%nat / 2 /\ yawSQ x 3 = x 0%nat / 2.
Proof.
  unfold unit_quat. intros U. unfold yawSQ, sq. cbv zeta. rewrite !slitR. cbn [sadd ssub smul RScalar].
  assert (A : forall y z : R, z = y * (x 0%nat ^ 2 + x 1%nat ^ 2 + x 2%nat ^ 2 + x 3%nat ^ 2) -> z = y) by (intros y z ->; rewrite U; ring).
  repeat split; apply A; field.
Qed.
Lemma yaw_derivative (a b d e : R) :
  is_derive (fun t => q0 (yaw_rotated (mkQ a b d e) t)) 0 (- e / 2) /\ is_derive (fun t => q1 (yaw_rotated (mkQ a b d e) t)) 0 (- d / 2) /\
  is_derive (fun t => q2 (yaw_rotated (mkQ a b d e) t)) 0 (b / 2) /\ is_derive (fun t => q3 (yaw_rotated (mkQ a b d e) t)) 0 (a / 2).
Proof.
  unfold yaw_rotated, qmul. cbn [q0 q1 q2 q3].
  split; [|split; [|split]]; (auto_derive; [auto|]; replace (0 * / 2) with 0 by ring; rewrite ?sin_0, ?cos_0; field).
Qed.
(** the four components in state order *)
Definition qc (i : nat) (p : Q4) : R := match i with 0%nat => q0 p | 1%nat => q1 p | 2%nat => q2 p | 3%nat => q3 p | _ => 0 end.
Lemma increaseYaw_ok x w M D i j : unit_quat x ->
  (forall i, (i < 4)%nat -> is_derive (fun t => qc i (yaw_rotated (mkQ (x 0%nat) (x 1%nat) (x 2%nat) (x 3%nat)) t)) 0 (D i)) ->
  (forall i, (4 <= i)%nat -> D i = 0) ->
  increaseYawVar x w M i j = M i j + Rmin w (1 / 100) * D i * D j.
Proof.
  intros U HD HZ. destruct (yawSQ_R x U) as (S0 & S1 & S2 & S3).
  destruct (yaw_derivative (x 0%nat) (x 1%nat) (x 2%nat) (x 3%nat)) as (Y0 & Y1 & Y2 & Y3).
  assert (E0 : D 0%nat = - x 3%nat / 2) by (specialize (HD 0%nat ltac:(lia)); cbn [qc] in HD; apply is_derive_unique in HD; apply is_derive_unique in Y0; congruence).
  assert (E1 : D 1%nat = - x 2%nat / 2) by (specialize (HD 1%nat ltac:(lia)); cbn [qc] in HD; apply is_derive_unique in HD; apply is_derive_unique in Y1; congruence).
  assert (E2 : D 2%nat = x 1%nat / 2) by (specialize (HD 2%nat ltac:(lia)); cbn [qc] in HD; apply is_derive_unique in HD; apply is_derive_unique in Y2; congruence).
  assert (E3 : D 3%nat = x 0%nat / 2) by (specialize (HD 3%nat ltac:(lia)); cbn [qc] in HD; apply is_derive_unique in HD; apply is_derive_unique in Y3; congruence).
  unfold increaseYawVar. cbv zeta. rewrite S0, S1, S2, S3.
  assert (W : (if slt (slit 1 100) w then slit 1 100 else w) = Rmin w (1 / 100)).
  { destruct (slt _ _) eqn:L; rewrite slitR in *.
    - apply sltR_true in L. rewrite Rmin_right; lra.
    - apply sltR_false in L. rewrite Rmin_left; lra. }
  rewrite W. set (r := Rmin w (1 / 100)). clearbody r. unfold sq. cbn [sadd ssub smul RScalar].
  destruct (le_dec 4 i) as [Li|Li]; [|destruct (le_dec 4 j) as [Lj|Lj]].
  - rewrite (HZ i Li). do 4 (destruct i as [|i]; [lia|]). ring.
  - rewrite (HZ j Lj). do 4 (destruct j as [|j]; [lia|]). do 4 (destruct i as [|i]; [ring|]). ring.
  - do 4 (destruct i as [|i]; [do 4 (destruct j as [|j]; [rewrite ?E0, ?E1, ?E2, ?E3; field|]); lia|]). lia.
Qed.
Lemma increaseYaw_psd x w M : unit_quat x -> 0 <= w -> psd M -> psd (increaseYawVar x w M).
Proof.
  intros U Hw HM. destruct (yaw_derivative (x 0%nat) (x 1%nat) (x 2%nat) (x 3%nat)) as (Y0 & Y1 & Y2 & Y3).
  set (D := fun i => match i with 0%nat => - x 3%nat / 2 | 1%nat => - x 2%nat / 2 | 2%nat => x 1%nat / 2 | 3%nat => x 0%nat / 2 | _ => 0 end).
  apply (psd_ext (fun i j => M i j + D i * Rmin w (1 / 100) * D j)).
  - intros i j _ _. symmetry. rewrite (increaseYaw_ok x w M D i j U); [ring| |].
    + intros k Hk. do 4 (destruct k as [|k]; [assumption|]). lia.
    + intros k Hk. do 4 (destruct k as [|k]; [lia|]). reflexivity.
  - apply psd_plus; [exact HM|]. apply (psd_outer (Rmin w (1 / 100)) D). apply Rmin_glb; lra.
Qed.

Lemma yaw_D (x : Vec R) : exists D, (forall i, (i < 4)%nat -> is_derive (fun t => qc i (yaw_rotated (mkQ (x 0%nat) (x 1%nat) (x 2%nat) (x 3%nat)) t)) 0 (D i)) /\
  (forall i, (4 <= i)%nat -> D i = 0) /\ (unit_quat x -> forall i, D i * D i <= 1).
Proof.
  destruct (yaw_derivative (x 0%nat) (x 1%nat) (x 2%nat) (x 3%nat)) as (Y0 & Y1 & Y2 & Y3).
  exists (fun i => match i with 0%nat => - x 3%nat / 2 | 1%nat => - x 2%nat / 2 | 2%nat => x 1%nat / 2 | 3%nat => x 0%nat / 2 | _ => 0 end). split; [|split].
  - intros k Hk. do 4 (destruct k as [|k]; [assumption|]). lia.
  - intros k Hk. do 4 (destruct k as [|k]; [lia|]). reflexivity.
  - unfold unit_quat. intros U i. do 4 (destruct i as [|i]; [nra|]). nra.
Qed.

(** ** Wind covariance from airspeed *)
(** wind in the earth frame from its components along and across the heading *)
Definition wind_n (wx wy psi : R) : R := cos psi * wx - sin psi * wy.
Definition wind_e (wx wy psi : R) : R := sin psi * wx + cos psi * wy.
Lemma wind_derivs wx wy psi :
  is_derive (fun t => wind_n t wy psi) wx (cos psi) /\ is_derive (fun t => wind_e t wy psi) wx (sin psi) /\
  is_derive (fun t => wind_n wx t psi) wy (- sin psi) /\ is_derive (fun t => wind_e wx t psi) wy (cos psi) /\
  is_derive (fun t => wind_n wx wy t) psi (- wx * sin psi - wy * cos psi) /\ is_derive (fun t => wind_e wx wy t) psi (wx * cos psi - wy * sin psi).
Proof. unfold wind_n, wind_e. repeat match goal with |- _ /\ _ => split end; (auto_derive; [auto|ring]). Qed.
(** with recent airspeed: J diag(R_TAS, var_y, R_yaw) J' plus the velocity variances; uncorrelated with the rest *)
Lemma resetWind_ok eas_noise eas2tas var_y ryaw psi wn we iu (M : Mat R) J :
  let rtas := (Rmin 5 (Rmax (1 / 2) eas_noise) * Rmin 10 (Rmax (9 / 10) eas2tas)) ^ 2 in
  (exists wx wy, wind_n wx wy psi = wn /\ wind_e wx wy psi = we /\
     is_derive (fun t => wind_n t wy psi) wx (J 0%nat 0%nat) /\ is_derive (fun t => wind_e t wy psi) wx (J 1%nat 0%nat) /\
     is_derive (fun t => wind_n wx t psi) wy (J 0%nat 1%nat) /\ is_derive (fun t => wind_e wx t psi) wy (J 1%nat 1%nat) /\
     is_derive (fun t => wind_n wx wy t) psi (J 0%nat 2%nat) /\ is_derive (fun t => wind_e wx wy t) psi (J 1%nat 2%nat)) ->
  let V := fun k => match k with 0%nat => rtas | 1%nat => var_y | _ => ryaw end in
  let M' := resetWindCovariance true eas_noise eas2tas var_y ryaw (cos psi) (sin psi) wn we iu M in
  (forall a b, (a < 2)%nat -> (b < 2)%nat ->
     M' (22 + a)%nat (22 + b)%nat = rsum 3 (fun k => J a k * V k * J b k) + (if (a =? b)%nat then M (4 + a)%nat (4 + a)%nat else 0)) /\
  (forall i j, (i < 24)%nat -> (j < 24)%nat -> ((22 <= i)%nat /\ (j < 22)%nat) \/ ((i < 22)%nat /\ (22 <= j)%nat) -> M' i j = 0) /\
  (forall i j, (i < 22)%nat -> (j < 22)%nat -> M' i j = M i j).
Proof.
  cbv zeta. intros (wx & wy & Hn & He & D1 & D2 & D3 & D4 & D5 & D6).
  destruct (wind_derivs wx wy psi) as (E1 & E2 & E3 & E4 & E5 & E6).
  repeat match goal with H : is_derive _ _ _ |- _ => apply is_derive_unique in H end.
  rewrite D1 in E1. rewrite D2 in E2. rewrite D3 in E3. rewrite D4 in E4. rewrite D5 in E5. rewrite D6 in E6.
  assert (CS : cos psi * cos psi + sin psi * sin psi = 1) by (pose proof (sin2_cos2 psi) as S; unfold Rsqr in S; lra).
  assert (WX : wn * cos psi + we * sin psi = wx).
  { rewrite <- Hn, <- He. unfold wind_n, wind_e. transitivity (wx * (cos psi * cos psi + sin psi * sin psi)); [ring|rewrite CS; ring]. }
  assert (WY : - wn * sin psi + we * cos psi = wy).
  { rewrite <- Hn, <- He. unfold wind_n, wind_e. transitivity (wy * (cos psi * cos psi + sin psi * sin psi)); [ring|rewrite CS; ring]. }
  assert (SC : forall v lo hi : R, lo <= hi -> sconstrain v lo hi = Rmin hi (Rmax lo v)).
  { intros v lo hi L. rewrite sconstrainR. unfold Rmin, Rmax. destruct (Rlt_dec v lo), (Rle_dec lo v); try lra; destruct (Rle_dec hi _); try lra; destruct (Rlt_dec hi v); lra. }
  unfold resetWindCovariance. cbv zeta. rewrite !slitR. rewrite !SC by lra. cbn [sadd ssub smul sopp RScalar]. rewrite WX, WY.
  replace (5 / 1) with 5 by field. replace (10 / 1) with 10 by field.
  set (Ra := Rmin 5 _). set (Rb := Rmin 10 _). clearbody Ra Rb. unfold sq. cbn [smul RScalar].
  repeat apply conj.
  - intros a b Ha Hb. do 2 (destruct a as [|a]; [do 2 (destruct b as [|b]; [cbn [Nat.add Nat.eqb rsum]; unfold mset, uncorrelateSet, inb; cbn; rewrite ?E1, ?E2, ?E3, ?E4, ?E5, ?E6; ring|]); lia|]). lia.
  - intros i j Hi Hj H. unfold mset, uncorrelateSet, inb. rewrite szeroR.
    destruct H as [[A B]|[A B]].
    + replace (j =? 23)%nat with false by (symmetry; apply Nat.eqb_neq; lia). replace (j =? 22)%nat with false by (symmetry; apply Nat.eqb_neq; lia). rewrite !andb_false_r.
      replace (22 <=? i)%nat with true by (symmetry; apply Nat.leb_le; lia). replace (i <? 22 + 2)%nat with true by (symmetry; apply Nat.ltb_lt; lia). cbn [andb orb].
      replace (i =? j)%nat with false by (symmetry; apply Nat.eqb_neq; lia). reflexivity.
    + replace (i =? 23)%nat with false by (symmetry; apply Nat.eqb_neq; lia). replace (i =? 22)%nat with false by (symmetry; apply Nat.eqb_neq; lia). cbn [andb].
      replace (22 <=? j)%nat with true by (symmetry; apply Nat.leb_le; lia). replace (j <? 22 + 2)%nat with true by (symmetry; apply Nat.ltb_lt; lia). cbn [andb]. rewrite orb_true_r.
      replace (i =? j)%nat with false by (symmetry; apply Nat.eqb_neq; lia). reflexivity.
  - intros i j Hi Hj. unfold mset, uncorrelateSet, inb.
    replace (i =? 23)%nat with false by (symmetry; apply Nat.eqb_neq; lia). replace (i =? 22)%nat with false by (symmetry; apply Nat.eqb_neq; lia). cbn [andb].
    replace (22 <=? i)%nat with false by (symmetry; apply Nat.leb_gt; lia). replace (22 <=? j)%nat with false by (symmetry; apply Nat.leb_gt; lia). reflexivity.
Qed.

(** ** Initial covariance *)
(** initialiseCovariance, covariance.cpp l.46-98; hgt_var: the variance of the height source in use (l.74-82) *)
Definition initialiseCovariance (x : Vec R) (tilt_err gps_vel_noise gps_pos_noise hgt_var gyro_bias accel_bias mag_noise wind_unc : R) : Mat R :=
  let P0 := initQuatCov x (fun _ => tilt_err * tilt_err) (zeroQuatCov (fun _ _ => 0)) in
  let vv := Rmax gps_vel_noise (1 / 100) * Rmax gps_vel_noise (1 / 100) in
  let pv := Rmax gps_pos_noise (1 / 100) * Rmax gps_pos_noise (1 / 100) in
  let gb := (gyro_bias * dtR) * (gyro_bias * dtR) in
  let ab := (accel_bias * dtR) * (accel_bias * dtR) in
  let P1 := fun i j => if (i =? j)%nat && (4 <=? i)%nat && (i <? 16)%nat
              then nth (i - 4) [vv; vv; 3 / 2 * (3 / 2) * vv; pv; pv; hgt_var; gb; gb; gb; ab; ab; ab] 0 else P0 i j in
  let P2 := resetMagCov mag_noise P1 in
  fun i j => if (i =? j)%nat && (22 <=? i)%nat && (i <? 24)%nat then wind_unc * wind_unc else P2 i j.
Lemma init_psd x te gv gp hv gb ab mn wu : 0 <= hv -> psd (initialiseCovariance x te gv gp hv gb ab mn wu).
Proof.
  intros Hv. unfold initialiseCovariance. cbv zeta.
  assert (Z : forall r : R, 0 <= r * r) by (intros; nra).
  apply (psd_raise (resetMagCov mn (fun i j => if (i =? j)%nat && (4 <=? i)%nat && (i <? 16)%nat
     then nth (i - 4) [Rmax gv (1 / 100) * Rmax gv (1 / 100); Rmax gv (1 / 100) * Rmax gv (1 / 100); 3 / 2 * (3 / 2) * (Rmax gv (1 / 100) * Rmax gv (1 / 100));
        Rmax gp (1 / 100) * Rmax gp (1 / 100); Rmax gp (1 / 100) * Rmax gp (1 / 100); hv; gb * dtR * (gb * dtR); gb * dtR * (gb * dtR); gb * dtR * (gb * dtR);
        ab * dtR * (ab * dtR); ab * dtR * (ab * dtR); ab * dtR * (ab * dtR)] 0
     else initQuatCov x (fun _ => te * te) (zeroQuatCov (fun _ _ => 0)) i j))).
  - unfold resetMagCov, zeroMagCov. do 4 (apply psd_uncorrelateSet; [|intros; rewrite ?szeroR; try lra; unfold sq; apply Z]).
    apply (psd_raise (initQuatCov x (fun _ => te * te) (zeroQuatCov (fun _ _ => 0)))).
    + apply initQuat_psd; [|intros; apply Z]. unfold zeroQuatCov. do 2 (apply psd_uncorrelateSet; [|intros; rewrite szeroR; lra]). apply psd_zero.
    + intros i j Hi Hj Ne. apply Nat.eqb_neq in Ne. rewrite Ne. reflexivity.
    + intros i Hi. rewrite Nat.eqb_refl. cbn [andb]. destruct (Nat.leb_spec 4 i) as [L|L]; cbn [andb]; [|lra].
      assert (E : initQuatCov x (fun _ => te * te) (zeroQuatCov (fun _ _ => 0)) i i = 0).
      { rewrite initQuat_other by assumption. unfold zeroQuatCov, uncorrelateSet. rewrite szeroR. destruct (_ || _); [destruct (_ =? _)%nat; reflexivity|]. destruct (_ || _); [destruct (_ =? _)%nat; reflexivity|reflexivity]. }
      rewrite E. destruct (Nat.ltb_spec i 16) as [L2|L2]; [|lra].
      do 4 (destruct i as [|i]; [lia|]). cbn [Nat.sub].
      pose proof (Z (Rmax gv (1 / 100))). pose proof (Z (Rmax gp (1 / 100))). pose proof (Z (gb * dtR)). pose proof (Z (ab * dtR)).
      do 12 (destruct i as [|i]; [cbn [nth Nat.sub]; first [assumption|lra]|]). lia.
  - intros i j Hi Hj Ne. apply Nat.eqb_neq in Ne. rewrite Ne. reflexivity.
  - intros i Hi. rewrite Nat.eqb_refl. cbn [andb]. destruct (Nat.leb_spec 22 i) as [L|L]; cbn [andb]; [|lra].
    replace (i <? 24)%nat with true by (symmetry; apply Nat.ltb_lt; exact Hi).
    unfold resetMagCov, zeroMagCov, uncorrelateSet, inb.
    do 22 (destruct i as [|i]; [lia|]). do 2 (destruct i as [|i]; [cbn [Nat.leb Nat.ltb Nat.add andb orb Nat.eqb]; rewrite initQuat_other by lia; unfold zeroQuatCov, uncorrelateSet, inb; cbn; apply Z|]). lia.
Qed.

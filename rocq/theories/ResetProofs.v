(** * Proofs about the resets to a source *)
From Coq Require Import Reals Lra Psatz ZArith List Lia Bool.
From Verif Require Import CBase Scalar RealGeom RotModel RotProofs GeoModel OutputModel OutputReset Props_Rot CovModel CovSpec CovUpdProofs CovProofs CovQuat CovQuat2 FusionModel ResetModel.
Open Scope R_scope.

(** ** Specification of a covariance reset: the block's variances are set, its correlations removed, the rest kept *)
Definition block_set (w f : nat) (v : nat -> R) (P P' : Mat R) : Prop :=
  (forall k, (k < w)%nat -> P' (f + k)%nat (f + k)%nat = v k) /\
  (forall i j, (f <= i < f + w)%nat -> j <> i -> P' i j = 0 /\ P' j i = 0) /\
  (forall i j, ~ (f <= i < f + w)%nat -> ~ (f <= j < f + w)%nat -> P' i j = P i j).
Lemma inb_true f w i : (f <= i < f + w)%nat -> inb f w i = true.
Proof. intros H. unfold inb. apply andb_true_intro. split; [apply Nat.leb_le|apply Nat.ltb_lt]; lia. Qed.
Lemma inb_false f w i : ~ (f <= i < f + w)%nat -> inb f w i = false.
Proof. intros H. unfold inb. apply andb_false_iff. destruct (Nat.leb_spec f i); [right; apply Nat.ltb_ge; lia|left; reflexivity]. Qed.
Lemma block_ok w f v (P : Mat R) : block_set w f v P (uncorrelateSet w f v P).
Proof.
  unfold uncorrelateSet. split; [|split].
  - intros k K. rewrite inb_true by lia. cbn [orb]. rewrite Nat.eqb_refl. f_equal. lia.
  - intros i j I N. rewrite (inb_true f w i I), orb_true_r. cbn [orb]. rewrite (proj2 (Nat.eqb_neq i j)) by congruence. rewrite (proj2 (Nat.eqb_neq j i)) by congruence. unfold szero. cbn [slit RScalar]. split; field.
  - intros i j I J. rewrite (inb_false f w i I), (inb_false f w j J). reflexivity.
Qed.

(** ** Attitude *)
Lemma Rz_0 : Rz 0 = mident.
Proof. unfold Rz, mident. rewrite cos_0, sin_0. f_equal; ring. Qed.
Lemma upd_Rz yaw r : updateYawInRotMat yaw r = mmul (Rz yaw) (updateYawInRotMat 0 r).
Proof.
  unfold updateYawInRotMat. destruct (shouldUse321 r).
  - unfold updateYaw321. rewrite !dcm321_product, Rz_0, mmul_ident_l. reflexivity.
  - unfold updateYaw312. rewrite !tb312_product, Rz_0, mmul_ident_l. reflexivity.
Qed.
Lemma Rz_add a b : mmul (Rz a) (Rz b) = Rz (a + b).
Proof. unfold Rz, mmul. cbn [m00 m01 m02 m10 m11 m12 m20 m21 m22]. rewrite cos_plus, sin_plus. f_equal; ring. Qed.
Lemma Rz_eq a b : cos a = cos b -> sin a = sin b -> Rz a = Rz b.
Proof. intros A B. unfold Rz. rewrite A, B. reflexivity. Qed.
Definition attq (s : rs) : Q4 := toQ (e_q (r_o s)).
(** the reset of the heading *)
Lemma yaw_eq yaw upd o : toQ (e_q (resetQuatStateYaw yaw upd o)) = yawResetQuat yaw (toQ (e_q o)).
Proof. unfold resetQuatStateYaw, resetQuat. destruct upd; cbn [setOut setRst setEQ e_q]; destruct (yawResetQuat yaw (toQ (e_q o))); reflexivity. Qed.
Lemma yawReset_ok yaw var upd s : qnorm2 (attq s) = 1 ->
  let s' := yawReset yaw var upd s in
  qnorm2 (attq s') = 1 /\ r_R s' = dcm (attq s') /\ r_R s' = mmul (Rz yaw) (updateYawInRotMat 0 (dcm (attq s))) /\
  m20 (r_R s') = m20 (dcm (attq s)) /\ m21 (r_R s') = m21 (dcm (attq s)) /\ m22 (r_R s') = m22 (dcm (attq s)) /\
  shouldUse321 (r_R s') = shouldUse321 (dcm (attq s)) /\ (- PI < yaw <= PI -> seq_yaw (r_R s') = yaw).
Proof.
  intros U. cbv zeta. unfold attq in *. set (q := toQ (e_q (r_o s))) in *.
  destruct (yaw_reset yaw q U) as (d & Hd & _ & M & DC & N). pose proof (dcm_rotation q U) as RQ. destruct (upd_tilt yaw (dcm q) RQ) as (RR & T0 & T1 & T2).
  assert (EQ : toQ (e_q (r_o (yawReset yaw var upd s))) = yawResetQuat yaw q) by (unfold yawReset; cbn [setRm setPm setO r_o]; apply yaw_eq).
  rewrite EQ. assert (ER : r_R (yawReset yaw var upd s) = updateYawInRotMat yaw (dcm q)) by reflexivity. rewrite ER.
  split; [exact N|]. split; [symmetry; exact DC|]. split; [apply upd_Rz|]. split; [exact T0|]. split; [exact T1|]. split; [exact T2|].
  split; [unfold shouldUse321; rewrite T0, T1; reflexivity|]. intros Y. apply (upd_heading yaw (dcm q) RQ Y).
Qed.
(** covariance of a heading reset *)
Lemma szR : @szero R RScalar = 0. Proof. unfold szero. cbn [slit RScalar]. field. Qed.
Lemma yawReset_cov yaw var upd s : qnorm2 (attq s) = 1 ->
  let P := r_P s in let P' := r_P (yawReset yaw var upd s) in
  (forall i j, ((i < 4)%nat /\ (4 <= j)%nat) \/ ((4 <= i)%nat /\ (j < 4)%nat) -> P' i j = 0) /\
  (forall i j, (4 <= i)%nat -> (4 <= j)%nat -> P' i j = P i j) /\
  (var <= 1 / 2 ^ 23 -> forall i j, (i < 4)%nat -> (j < 4)%nat -> P' i j = P i j) /\
  (psd P -> psd P').
Proof.
  intros U. cbv zeta. assert (N : qnorm2 (attq (yawReset yaw var upd s)) = 1) by (apply yawReset_ok; exact U).
  unfold attq in *.
  set (q := toQ (e_q (r_o s))) in *. assert (UQ : unit_quat (ofQ (yawResetQuat yaw q))).
  { unfold yawReset in N. cbn [setRm setPm setO r_o] in N. rewrite yaw_eq in N. fold q in N. unfold unit_quat, ofQ. unfold qnorm2 in N. lra. }
  unfold yawReset. cbn [setRm setPm setO r_P]. fold q. set (x := ofQ _) in *.
  assert (B : forall i j, ((i < 4)%nat /\ (4 <= j)%nat) \/ ((4 <= i)%nat /\ (j < 4)%nat) -> uncorrelateQuat (r_P s) i j = 0).
  { intros i j [(A & B)|(A & B)]; unfold uncorrelateQuat; destruct (Nat.ltb_spec i 4); destruct (Nat.ltb_spec j 4); try lia; cbn [Bool.eqb negb]; apply szR. }
  assert (C : forall i j, (4 <= i)%nat -> (4 <= j)%nat -> uncorrelateQuat (r_P s) i j = r_P s i j).
  { intros i j I J. unfold uncorrelateQuat. destruct (Nat.ltb_spec i 4); destruct (Nat.ltb_spec j 4); try lia. reflexivity. }
  assert (D : forall i j, (i < 4)%nat -> (j < 4)%nat -> uncorrelateQuat (r_P s) i j = r_P s i j).
  { intros i j I J. unfold uncorrelateQuat. destruct (Nat.ltb_spec i 4); destruct (Nat.ltb_spec j 4); try lia. reflexivity. }
  assert (E : forall i j, (4 <= i)%nat \/ (4 <= j)%nat -> increaseYawVar x var (uncorrelateQuat (r_P s)) i j = uncorrelateQuat (r_P s) i j).
  { intros i j O. unfold increaseYawVar. do 4 (destruct i as [|i]; [do 4 (destruct j as [|j]; [exfalso; lia|]); reflexivity|]). reflexivity. }
  destruct (Rlt_dec (1 / 2 ^ 23) var) as [L|L].
  - split; [intros i j O; rewrite E by lia; apply B; exact O|]. split; [intros i j I J; rewrite E by lia; apply C; assumption|]. split; [intros X; exfalso; lra|].
    intros HP. apply increaseYaw_psd; [exact UQ| |apply psd_uncorrelateQuat; exact HP]. assert (0 < 1 / 2 ^ 23) by (apply Rdiv_lt_0_compat; [lra|apply pow_lt; lra]). lra.
  - split; [exact B|]. split; [exact C|]. split; [intros _; exact D|]. apply psd_uncorrelateQuat.
Qed.

(** ** Magnetic heading *)
Lemma mag_direction r mag decl : let e := mapp (updateYawInRotMat 0 r) mag in vx e <> 0 \/ vy e <> 0 ->
  let mi := mapp (mmul (Rz (- atan2 (vy e) (vx e) + decl)) (updateYawInRotMat 0 r)) mag in
  let h := sqrt (vx e * vx e + vy e * vy e) in
  0 < h /\ vx mi = h * cos decl /\ vy mi = h * sin decl /\ vz mi = vz e.
Proof.
  intros e H. cbv zeta. rewrite mapp_mmul. fold e. destruct (atan2_polar (vy e) (vx e) H) as (P & C & S). set (h := sqrt _) in *. set (a := atan2 (vy e) (vx e)) in *.
  split; [exact P|]. unfold mapp, Rz. cbn [vx vy vz m00 m01 m02 m10 m11 m12 m20 m21 m22]. rewrite cos_plus, sin_plus, cos_neg, sin_neg, <- C, <- S.
  pose proof (sc a) as Q. set (ca := cos a) in *. set (sa := sin a) in *. clearbody ca sa.
  split; [|split; [|ring]].
  - transitivity (h * cos decl * (sa * sa + ca * ca)); [ring|rewrite Q; ring].
  - transitivity (h * sin decl * (sa * sa + ca * ca)); [ring|rewrite Q; ring].
Qed.
Lemma upd0_tilt r rt : is_rotation r -> is_rotation rt -> m20 rt = m20 r -> m21 rt = m21 r -> m22 rt = m22 r ->
  exists d, - PI < d <= PI /\ rt = mmul (Rz d) (updateYawInRotMat 0 r).
Proof.
  intros A B C D E. destruct (upd_tilt 0 r A) as (R0 & T0 & T1 & T2). cbv zeta in *. apply same_tilt_Rz; [exact R0|exact B|..]; congruence.
Qed.
(** with the right tilt and the field of the given declination, the magnetic heading gives the true attitude *)
Lemma mag_true r rt mag decl b : is_rotation r -> is_rotation rt -> m20 rt = m20 r -> m21 rt = m21 r -> m22 rt = m22 r ->
  mapp rt mag = b -> (exists h, 0 < h /\ vx b = h * cos decl /\ vy b = h * sin decl) ->
  let e := mapp (updateYawInRotMat 0 r) mag in
  mmul (Rz (- atan2 (vy e) (vx e) + decl)) (updateYawInRotMat 0 r) = rt.
Proof.
  intros A B C D E M (h & HP & BX & BY). cbv zeta. destruct (upd0_tilt r rt A B C D E) as (d & Hd & ->). set (r0 := updateYawInRotMat 0 r) in *. rewrite mapp_mmul in M. set (e := mapp r0 mag) in *.
  assert (EX : vx e = h * cos (decl - d) /\ vy e = h * sin (decl - d)).
  { rewrite cos_minus, sin_minus. rewrite <- M in BX, BY. unfold mapp, Rz in BX, BY. cbn [vx vy vz m00 m01 m02 m10 m11 m12] in BX, BY. pose proof (sc d) as Q. split.
    - transitivity (cos d * (cos d * vx e + - sin d * vy e + 0 * vz e) + sin d * (sin d * vx e + cos d * vy e + 0 * vz e)); [|rewrite BX, BY; ring]. transitivity ((sin d * sin d + cos d * cos d) * vx e); [rewrite Q; ring|ring].
    - transitivity (cos d * (sin d * vx e + cos d * vy e + 0 * vz e) - sin d * (cos d * vx e + - sin d * vy e + 0 * vz e)); [|rewrite BX, BY; ring]. transitivity ((sin d * sin d + cos d * cos d) * vy e); [rewrite Q; ring|ring]. }
  destruct EX as (EX & EY).
  assert (NZ : vx e <> 0 \/ vy e <> 0). { destruct (Req_dec (vx e) 0) as [Z|Z]; [right|left; exact Z]. intros Z2. rewrite Z in EX. rewrite Z2 in EY. pose proof (sc (decl - d)) as Q. assert (cos (decl - d) = 0) by nra. assert (sin (decl - d) = 0) by nra. nra. }
  destruct (atan2_polar (vy e) (vx e) NZ) as (P & CC & SS). set (k := sqrt _) in *. set (a := atan2 (vy e) (vx e)) in *.
  assert (K : k = h).
  { unfold k. rewrite EX, EY. replace (h * cos (decl - d) * (h * cos (decl - d)) + h * sin (decl - d) * (h * sin (decl - d))) with (Rsqr h * (sin (decl - d) * sin (decl - d) + cos (decl - d) * cos (decl - d))) by (unfold Rsqr; ring). rewrite sc, Rmult_1_r. apply sqrt_Rsqr. lra. }
  rewrite K in *. assert (CA : cos a = cos (decl - d)) by (apply (Rmult_eq_reg_l h); lra). assert (SA : sin a = sin (decl - d)) by (apply (Rmult_eq_reg_l h); lra).
  f_equal. apply Rz_eq.
  - rewrite cos_plus, cos_neg, sin_neg, CA, SA. transitivity (cos (decl - (decl - d))); [rewrite (cos_minus decl (decl - d)); ring|f_equal; ring].
  - rewrite sin_plus, cos_neg, sin_neg, CA, SA. transitivity (sin (decl - (decl - d))); [rewrite (sin_minus decl (decl - d)); ring|f_equal; ring].
Qed.
(** if the attitude keeps its tilt, resetting to the heading of [rt] in the sequence in use gives [rt] *)
Lemma seq_true r rt : is_rotation r -> is_rotation rt -> m20 rt = m20 r -> m21 rt = m21 r -> m22 rt = m22 r ->
  updateYawInRotMat (seq_yaw rt) r = rt.
Proof.
  intros A B C D E. rewrite <- (upd_same rt B) at 2. rewrite (upd_Rz (seq_yaw rt) r), (upd_Rz (seq_yaw rt) rt). f_equal.
  assert (S : shouldUse321 rt = shouldUse321 r) by (unfold shouldUse321; rewrite C, D; reflexivity).
  unfold updateYawInRotMat. rewrite S. destruct (shouldUse321 r) eqn:U.
  - unfold updateYaw321. rewrite (euler321_regular r A U), (euler321_regular rt B) by congruence. cbn [vx vy]. rewrite C, D, E. reflexivity.
  - unfold updateYaw312. rewrite C, D, E. reflexivity.
Qed.

(** * Heading observation: Jacobian, variance, gain *)
From Coq Require Import Reals Lra Lia.
From Coquelicot Require Import Coquelicot.
From Verif Require Import CBase F32 Scalar RealGeom CovSpec PsdLib CovModel CovProofsR CovUpdProofs CovPredProofs FusionGen FusionModel FusionSpec FusionProofs FusionProofs2 FusionProofs4 FusionUpd.
Open Scope R_scope.

Definition Xa (y : nat -> R) := y 0%nat * y 0%nat + y 1%nat * y 1%nat - y 2%nat * y 2%nat - y 3%nat * y 3%nat.
Definition Ya (y : nat -> R) := 2 * (y 0%nat * y 3%nat + y 1%nat * y 2%nat).
Definition Xb (y : nat -> R) := y 0%nat * y 0%nat - y 1%nat * y 1%nat + y 2%nat * y 2%nat - y 3%nat * y 3%nat.
Definition Yb (y : nat -> R) := 2 * (y 0%nat * y 3%nat - y 1%nat * y 2%nat).
Definition Xag (x : nat -> R) (i : nat) : R := match i with 0%nat => 2 * x 0%nat | 1%nat => 2 * x 1%nat | 2%nat => - (2 * x 2%nat) | 3%nat => - (2 * x 3%nat) | _ => 0 end.
Definition Yag (x : nat -> R) (i : nat) : R := match i with 0%nat => 2 * x 3%nat | 1%nat => 2 * x 2%nat | 2%nat => 2 * x 1%nat | 3%nat => 2 * x 0%nat | _ => 0 end.
Definition Xbg (x : nat -> R) (i : nat) : R := match i with 0%nat => 2 * x 0%nat | 1%nat => - (2 * x 1%nat) | 2%nat => 2 * x 2%nat | 3%nat => - (2 * x 3%nat) | _ => 0 end.
Definition Ybg (x : nat -> R) (i : nat) : R := match i with 0%nat => 2 * x 3%nat | 1%nat => - (2 * x 2%nat) | 2%nat => - (2 * x 1%nat) | 3%nat => 2 * x 0%nat | _ => 0 end.
Lemma Xa_gradient x : gradient Xa x (Xag x). Proof. unfold gradient. states ltac:(unfold Xa, Xag; cbn [upd Nat.eqb]; auto_derive; [exact I|ring]). Qed.
Lemma Ya_gradient x : gradient Ya x (Yag x). Proof. unfold gradient. states ltac:(unfold Ya, Yag; cbn [upd Nat.eqb]; auto_derive; [exact I|ring]). Qed.
Lemma Xb_gradient x : gradient Xb x (Xbg x). Proof. unfold gradient. states ltac:(unfold Xb, Xbg; cbn [upd Nat.eqb]; auto_derive; [exact I|ring]). Qed.
Lemma Yb_gradient x : gradient Yb x (Ybg x). Proof. unfold gradient. states ltac:(unfold Yb, Ybg; cbn [upd Nat.eqb]; auto_derive; [exact I|ring]). Qed.
Lemma yaw321_eq y : yaw321_pair y = (Xa y, Ya y). Proof. unfold yaw321_pair, dcm, quat_of, Xa, Ya. cbn [m00 m10 RealGeom.q0 RealGeom.q1 RealGeom.q2 RealGeom.q3]. f_equal; ring. Qed.
Lemma yaw312_eq y : yaw312_pair y = (Xb y, Yb y). Proof. unfold yaw312_pair, dcm, quat_of, Xb, Yb. cbn [m11 m01 RealGeom.q0 RealGeom.q1 RealGeom.q2 RealGeom.q3]. f_equal; ring. Qed.

(** the four components, extended by zeros *)
Definition ext4 (h : nat -> R) (i : nat) : R := if (i <? 4)%nat then h i else 0.
(** one of the two paths is usable *)
Definition usable (X Y : R) : Prop := 1 / 1000000 < X * X \/ 1 / 1000000 < Y * Y.
Lemma pathOk_spec (a b : R) : pathOk a b = if Rlt_dec (1 / 1000000) (b * b) then Some (a * a * (1 / (b * b)) + 1) else None.
Proof.
  unfold pathOk, sq. rewrite !slitR. cbn [slt smul sdiv sadd sabs RScalar]. rewrite Rdiv_1. destruct (Rlt_dec (1 / 1000000) (b * b)) as [L|L]; [|reflexivity].
  assert (0 <= a * a * (1 / (b * b))). { apply Rmult_le_pos; [nra|]. unfold Rdiv. rewrite Rmult_1_l. left. apply Rinv_0_lt_compat. lra. }
  rewrite Rabs_pos_eq by lra. destruct (Rlt_dec (1 / 1000000) (a * a * (1 / (b * b)) + 1)); [reflexivity|lra].
Qed.
Lemma pathOkB_spec (a b : R) : pathOkB a b = if Rlt_dec (1 / 1000000) (b * b) then Some (a * a * (1 / (b * b)) + 1) else None.
Proof.
  rewrite <- pathOk_spec. unfold pathOk, pathOkB, sq. cbn [smul RScalar]. rewrite (Rmult_comm (sdiv (slit 1 1) (b * b)) (a * a)). reflexivity.
Qed.
(** whichever path is taken, inv is the one of that path and its divisor is not tiny *)
Lemma pathChoice_spec (X Y : R) : match pathChoice (pathOk Y X) (pathOkB X Y) with
  | Some (true, inv) => X <> 0 /\ inv = Y * Y * (1 / (X * X)) + 1 /\ (1 / 1000000 < Y * Y -> X * X <= Y * Y)
  | Some (false, inv) => Y <> 0 /\ inv = X * X * (1 / (Y * Y)) + 1 /\ (1 / 1000000 < X * X -> Y * Y < X * X)
  | None => ~ usable X Y end.
Proof.
  rewrite pathOk_spec, pathOkB_spec. unfold usable.
  destruct (Rlt_dec (1 / 1000000) (X * X)) as [A|A], (Rlt_dec (1 / 1000000) (Y * Y)) as [B|B]; cbn [pathChoice]; try (intros [C|C]; lra).
  - assert (PX : 0 < X * X) by lra. assert (PY : 0 < Y * Y) by lra. 
    assert (NX : X <> 0) by nra. assert (NY : Y <> 0) by nra.
    assert (E1 : 0 <= Y * Y * (1 / (X * X))) by (apply Rmult_le_pos; [lra|unfold Rdiv; rewrite Rmult_1_l; left; apply Rinv_0_lt_compat; lra]).
    assert (E2 : 0 <= X * X * (1 / (Y * Y))) by (apply Rmult_le_pos; [lra|unfold Rdiv; rewrite Rmult_1_l; left; apply Rinv_0_lt_compat; lra]).
    assert (EE : (Y * Y * (1 / (X * X))) * (X * X * (1 / (Y * Y))) = 1) by (field; split; assumption).
    assert (EX : (Y * Y * (1 / (X * X))) * (X * X) = Y * Y) by (field; assumption).
    assert (EY : (X * X * (1 / (Y * Y))) * (Y * Y) = X * X) by (field; assumption).
    set (u := Y * Y * (1 / (X * X))) in *. set (v := X * X * (1 / (Y * Y))) in *. cbn [sle slt sabs RScalar]. rewrite !Rabs_pos_eq by lra.
    destruct (Rle_dec (v + 1) (u + 1)) as [L|L].
    + split; [exact NX|]. split; [reflexivity|]. intros _. assert (1 <= u) by nra. nra.
    + destruct (Rlt_dec (u + 1) (v + 1)); [|lra]. split; [exact NY|]. split; [reflexivity|]. intros _. assert (u < 1) by nra. nra.
  - split; [nra|]. split; [reflexivity|]. intros; lra.
  - split; [nra|]. split; [reflexivity|]. intros; lra.
Qed.
Lemma inv_pos X Y : X <> 0 -> Y * Y * (1 / (X * X)) + 1 = (X * X + Y * Y) / (X * X). Proof. intros. field. assumption. Qed.

Lemma H321_spec (x : nat -> R) : match H321 x with
  | Some h => forall i, (i < 4)%nat -> h i = agrad (Xa x) (Ya x) (Xag x) (Yag x) i
  | None => ~ usable (Xa x) (Ya x) end.
Proof.
  unfold H321, two, sq. cbv zeta. rewrite !slitR. cbn [sadd ssub smul sdiv sopp RScalar]. rewrite !Rdiv_1.
  replace (2 * x 3%nat * x 0%nat + 2 * x 2%nat * x 1%nat) with (Ya x) by (unfold Ya; ring).
  replace (2 * x 0%nat * x 3%nat + 2 * x 1%nat * x 2%nat) with (Ya x) by (unfold Ya; ring).
  fold (Xa x). pose proof (pathChoice_spec (Xa x) (Ya x)) as PS.
  destruct (pathChoice (pathOk (Ya x) (Xa x)) (pathOkB (Xa x) (Ya x))) as [[[|] inv]|]; [| |exact PS].
  - destruct PS as (N & -> & _). rewrite (inv_pos _ _ N). intros i Hi.
    assert (N2 : Xa x * Xa x + Ya x * Ya x <> 0) by nra. revert N N2. generalize (Xa x) (Ya x). intros X Y N N2.
    destruct i as [|[|[|[|i]]]]; [| | | |lia]; unfold agrad, Xag, Yag; field; (split; assumption).
  - destruct PS as (N & -> & _). rewrite (inv_pos _ _ N). intros i Hi.
    assert (N2 : Xa x * Xa x + Ya x * Ya x <> 0) by nra. assert (N3 : Ya x * Ya x + Xa x * Xa x <> 0) by nra. revert N N2 N3. generalize (Xa x) (Ya x). intros X Y N N2 N3.
    destruct i as [|[|[|[|i]]]]; [| | | |lia]; unfold agrad, Xag, Yag; field; auto.
Qed.
Lemma pathOk_neg (a b : R) : pathOk (- a) (- b) = pathOk a b.
Proof. rewrite !pathOk_spec. replace (- b * - b) with (b * b) by ring. replace (- a * - a) with (a * a) by ring. reflexivity. Qed.
Lemma pathOkB_neg (a b : R) : pathOkB (- a) (- b) = pathOkB a b.
Proof. rewrite !pathOkB_spec. replace (- b * - b) with (b * b) by ring. replace (- a * - a) with (a * a) by ring. reflexivity. Qed.
Lemma H312_spec (x : nat -> R) : match H312 x with
  | Some h => forall i, (i < 4)%nat -> h i = agrad (Xb x) (Yb x) (Xbg x) (Ybg x) i
  | None => ~ usable (Xb x) (Yb x) end.
Proof.
  unfold H312, two, sq. cbv zeta. rewrite !slitR. cbn [sadd ssub smul sdiv sopp RScalar]. rewrite !Rdiv_1.
  replace (2 * x 3%nat * x 0%nat - 2 * x 2%nat * x 1%nat) with (Yb x) by (unfold Yb; ring).
  replace (- (2 * x 0%nat) * x 3%nat + 2 * x 1%nat * x 2%nat) with (- Yb x) by (unfold Yb; ring).
  replace (- (x 0%nat * x 0%nat) + x 1%nat * x 1%nat - x 2%nat * x 2%nat + x 3%nat * x 3%nat) with (- Xb x) by (unfold Xb; ring).
  fold (Xb x). rewrite pathOkB_neg. pose proof (pathChoice_spec (Xb x) (Yb x)) as PS.
  destruct (pathChoice (pathOk (Yb x) (Xb x)) (pathOkB (Xb x) (Yb x))) as [[[|] inv]|]; [| |exact PS].
  - destruct PS as (N & -> & _). rewrite (inv_pos _ _ N). intros i Hi.
    assert (N2 : Xb x * Xb x + Yb x * Yb x <> 0) by nra. revert N N2. generalize (Xb x) (Yb x). intros X Y N N2.
    destruct i as [|[|[|[|i]]]]; [| | | |lia]; unfold agrad, Xbg, Ybg; field; (split; assumption).
  - destruct PS as (N & -> & _). rewrite (inv_pos _ _ N). intros i Hi.
    assert (N2 : Xb x * Xb x + Yb x * Yb x <> 0) by nra. assert (N3 : Yb x * Yb x + Xb x * Xb x <> 0) by nra. revert N N2 N3. generalize (Xb x) (Yb x). intros X Y N N2 N3.
    destruct i as [|[|[|[|i]]]]; [| | | |lia]; unfold agrad, Xbg, Ybg; field; auto.
Qed.

Definition H4 (h : nat -> R) : list (nat * R) := ((0%nat, h 0%nat) :: (1%nat, h 1%nat) :: (2%nat, h 2%nat) :: (3%nat, h 3%nat) :: nil)%list.
Lemma H4_ext h j : hvec (H4 h) j = ext4 h j.
Proof. unfold H4, ext4. destruct j as [|[|[|[|j]]]]; unfold hvec; cbn [fold_right fst snd Nat.eqb Nat.ltb Nat.leb]; ring. Qed.
Lemma rsum_ext4 (g h : nat -> R) : rsum 24 (fun j => g j * ext4 h j) = g 0%nat * h 0%nat + g 1%nat * h 1%nat + g 2%nat * h 2%nat + g 3%nat * h 3%nat.
Proof.
  transitivity (rsum 24 (fun j => g j * hvec (H4 h) j)); [apply rsum_ext; intros j Hj; rewrite H4_ext; reflexivity|].
  rewrite rsum_hvec by (unfold H4; dfields). unfold H4, lsum; cbn [fold_right fst snd]. ring.
Qed.
Lemma quad_ext4 h P : quad (ext4 h) P = h 0%nat * (P 0%nat 0%nat * h 0%nat + P 0%nat 1%nat * h 1%nat + P 0%nat 2%nat * h 2%nat + P 0%nat 3%nat * h 3%nat)
  + h 1%nat * (P 1%nat 0%nat * h 0%nat + P 1%nat 1%nat * h 1%nat + P 1%nat 2%nat * h 2%nat + P 1%nat 3%nat * h 3%nat)
  + h 2%nat * (P 2%nat 0%nat * h 0%nat + P 2%nat 1%nat * h 1%nat + P 2%nat 2%nat * h 2%nat + P 2%nat 3%nat * h 3%nat)
  + h 3%nat * (P 3%nat 0%nat * h 0%nat + P 3%nat 1%nat * h 1%nat + P 3%nat 2%nat * h 2%nat + P 3%nat 3%nat * h 3%nat).
Proof.
  transitivity (quad (hvec (H4 h)) P); [unfold quad; apply rsum_ext; intros i Hi; apply rsum_ext; intros j Hj; rewrite !H4_ext; reflexivity|].
  rewrite quad_hvec by (unfold H4; dfields). unfold H4, lsum; cbn [fold_right fst snd]. ring.
Qed.
Lemma ph4R P (h : nat -> R) i : ph4 P h i = rsum 24 (fun j => P i j * ext4 h j).
Proof. rewrite rsum_ext4. unfold ph4. rewrite szeroR. cbn [sadd smul RScalar]. ring. Qed.
Lemma yawVarR P (h : nat -> R) rn : yawVar P h rn = quad (ext4 h) P + rn.
Proof. rewrite quad_ext4. unfold yawVar, ph4. rewrite !szeroR. cbn [sadd smul RScalar]. ring. Qed.
(** states corrected by a heading fusion: magnetic field never, wind if estimated *)
Definition yaw_rows (wind : bool) (i : nat) : bool := ((i <=? 15) || (wind && (22 <=? i)))%nat%bool.
Lemma yaw_gain wind P (h : nat -> R) Sv : kalman_gain (yaw_rows wind) (ext4 h) P Sv (yawGain wind P h Sv).
Proof.
  intros i Hi. unfold yawGain, yaw_rows, inb. rewrite ph4R, slitR, szeroR. cbn [smul sdiv RScalar]. rewrite Rdiv_1. unfold Rdiv. rewrite Rmult_1_l.
  destruct (Nat.leb_spec i 15); cbn [orb]; [reflexivity|].
  destruct (Nat.leb_spec 22 i); cbn [andb]; [|rewrite andb_false_r; reflexivity].
  destruct (Nat.ltb_spec i (22 + 2)); [|lia]. destruct wind; reflexivity.
Qed.
Lemma yawKHPR P (K h : nat -> R) i j : yawKHP P K h i j = K i * hP (ext4 h) P j.
Proof.
  unfold yawKHP, hP. replace (rsum 24 (fun i0 => ext4 h i0 * P i0 j)) with (rsum 24 (fun k => P k j * ext4 h k)).
  - rewrite rsum_ext4. cbn [sadd smul RScalar]. ring.
  - apply rsum_ext. intros k Hk. ring.
Qed.

(** proofs about the yaw estimator: one filter of the bank *)
From Coq Require Import Reals Lra Lia Bool List Arith ZArith Psatz.
From Verif Require Import Scalar RealGeom RotModel GeoModel GsfModel.
Import ListNotations.
Open Scope R_scope.

Definition qf (P : Mat R) (x y z : R) : R :=
  P 0%nat 0%nat * x * x + P 1%nat 1%nat * y * y + P 2%nat 2%nat * z * z + 2 * (P 0%nat 1%nat * x * y + P 0%nat 2%nat * x * z + P 1%nat 2%nat * y * z).
Definition psd (P : Mat R) : Prop := forall x y z, 0 <= qf P x y z.
Definition sym3 (P : Mat R) : Prop := P 1%nat 0%nat = P 0%nat 1%nat /\ P 2%nat 0%nat = P 0%nat 2%nat /\ P 2%nat 1%nat = P 1%nat 2%nat.
Definition sum3 (f : nat -> R) : R := f 0%nat + f 1%nat + f 2%nat.
(** A P A^T *)
Definition sandwich (A P : Mat R) : Mat R := fun i j => sum3 (fun k => sum3 (fun l => A i k * P k l * A j l)).
Definition m9 (a b c d e f g h k : R) : Mat R := fun i j => match i, j with
  | 0, 0 => a | 0, 1 => b | 0, _ => c | 1, 0 => d | 1, 1 => e | 1, _ => f | _, 0 => g | _, 1 => h | _, _ => k end%nat.
(** the linearised process: velocity changes by the horizontal delta velocity (dvx, dvy) turned by psi *)
Definition Fjac (psi dvx dvy : R) : Mat R := m9 1 0 (- (dvx * sin psi + dvy * cos psi)) 0 1 (dvx * cos psi - dvy * sin psi) 0 0 1.
Definition Gjac (psi : R) : Mat R := m9 (cos psi) (- sin psi) 0 (sin psi) (cos psi) 0 0 0 1.
Definition diag3 (a b c : R) : Mat R := m9 a 0 0 0 b 0 0 0 c.

Lemma lt3 (i : nat) : (i < 3)%nat -> i = 0%nat \/ i = 1%nat \/ i = 2%nat. Proof. lia. Qed.
Ltac cases3 i H := destruct (lt3 i H) as [->|[->| ->]].
Ltac mev := cbn [mset Nat.eqb andb m9 Fjac Gjac diag3 sum3 sandwich].
Lemma predictP_spec psi dvx dvy a b c P i j : (i < 3)%nat -> (j < 3)%nat -> sym3 P ->
  predictP psi dvx dvy a b c P i j = sandwich (Fjac psi dvx dvy) P i j + sandwich (Gjac psi) (diag3 a b c) i j.
Proof.
  intros Hi Hj (E1 & E2 & E3). unfold predictP, sandwich, sum3, Fjac, Gjac, diag3, pow2. cbn [smul RScalar].
  cases3 i Hi; cases3 j Hj; cbn [mset Nat.eqb andb m9]; rewrite ?E1, ?E2, ?E3; ring.
Qed.
Lemma predictP_sym psi dvx dvy a b c P : sym3 (predictP psi dvx dvy a b c P).
Proof. unfold sym3, predictP. cbn [mset Nat.eqb andb]. auto. Qed.
Lemma predictP_qf psi dvx dvy a b c P x y z :
  qf (predictP psi dvx dvy a b c P) x y z = qf P x y (z - (cos psi * dvy + sin psi * dvx) * x + (cos psi * dvx - sin psi * dvy) * y)
    + a * (cos psi * x + sin psi * y) * (cos psi * x + sin psi * y) + b * (- sin psi * x + cos psi * y) * (- sin psi * x + cos psi * y) + c * z * z.
Proof. unfold qf, predictP, pow2. cbn [mset Nat.eqb andb smul RScalar]. ring. Qed.
Lemma predictP_psd psi dvx dvy a b c P : psd P -> 0 <= a -> 0 <= b -> 0 <= c -> psd (predictP psi dvx dvy a b c P).
Proof.
  intros H Ha Hb Hc x y z. rewrite predictP_qf. pose proof (H x y (z - (cos psi * dvy + sin psi * dvx) * x + (cos psi * dvx - sin psi * dvy) * y)).
  set (u := cos psi * x + sin psi * y). set (v := - sin psi * x + cos psi * y). assert (0 <= a * u * u) by (rewrite Rmult_assoc; apply Rmult_le_pos; [lra|nra]).
  assert (0 <= b * v * v) by (rewrite Rmult_assoc; apply Rmult_le_pos; [lra|nra]). assert (0 <= c * z * z) by (rewrite Rmult_assoc; apply Rmult_le_pos; [lra|nra]). lra.
Qed.
Lemma floorVar_sym P : sym3 P -> sym3 (floorVar P).
Proof. unfold sym3, floorVar. cbn [mset Nat.eqb andb]. auto. Qed.
Lemma floorVar_psd P : psd P -> psd (floorVar P).
Proof.
  intros H x y z. pose proof (H x y z) as Q. unfold qf, floorVar in *. cbn [mset Nat.eqb andb].
  assert (M : forall p w, p * w * w <= Rmax p (1 / 1000000) * w * w). { intros p w. pose proof (Rmax_l p (1 / 1000000)). assert (0 <= w * w) by nra. rewrite !Rmult_assoc. apply Rmult_le_compat_r; lra. }
  pose proof (M (P 0%nat 0%nat) x). pose proof (M (P 1%nat 1%nat) y). pose proof (M (P 2%nat 2%nat) z). lra.
Qed.
Lemma floorVar_diag P k : (k < 3)%nat -> 1 / 1000000 <= floorVar P k k.
Proof. intros H. unfold floorVar. cases3 k H; cbn [mset Nat.eqb andb]; apply Rmax_r. Qed.
Lemma floorVar_id P : (forall k, (k < 3)%nat -> 1 / 1000000 <= P k k) -> forall i j, floorVar P i j = P i j.
Proof.
  intros H i j. unfold floorVar, mset. pose proof (H 0%nat ltac:(lia)). pose proof (H 1%nat ltac:(lia)). pose proof (H 2%nat ltac:(lia)). rewrite !Rmax_left by lra.
  repeat match goal with |- context [Nat.eqb ?a ?b] => destruct (Nat.eqb_spec a b) end; subst; cbn [andb]; try reflexivity; lia.
Qed.

(** ** measurement update *)
Definition Sdet (r : R) (P : Mat R) : R := (P 0%nat 0%nat + r) * (P 1%nat 1%nat + r) - P 0%nat 1%nat * P 0%nat 1%nat.
Lemma Sdet_pos r P : 0 < r -> psd P -> r * r <= Sdet r P.
Proof.
  intros Hr H. unfold Sdet. pose proof (H 1 0 0) as A. pose proof (H 0 1 0) as B. unfold qf in A, B.
  set (p := P 0%nat 0%nat) in *. set (q := P 1%nat 1%nat) in *. set (c := P 0%nat 1%nat) in *.
  assert (A' : 0 <= p) by lra. assert (B' : 0 <= q) by lra.
  assert (C : c * c <= p * q).
  { destruct (Rle_lt_or_eq_dec 0 p A') as [L|E].
    - pose proof (H (- c) p 0) as Q. unfold qf in Q. fold p q c in Q. assert (0 <= p * (p * q - c * c)) by lra. assert (0 <= p * q - c * c); [|lra]. apply Rmult_le_reg_l with p; [exact L|lra].
    - pose proof (H (- (c * (q + 1))) (c * c) 0) as Q. unfold qf in Q. fold p q c in Q. rewrite <- E in Q |- *. assert (c = 0); [|subst c; nra].
      destruct (Req_dec c 0) as [Z|Z]; [exact Z|exfalso]. assert (0 < c * c) by (apply Rsqr_pos_lt in Z; exact Z). set (w := c * c) in *.
      assert (Q2 : 0 * - (c * (q + 1)) * - (c * (q + 1)) + q * w * w + P 2%nat 2%nat * 0 * 0 + 2 * (c * - (c * (q + 1)) * w + P 0%nat 2%nat * - (c * (q + 1)) * 0 + P 1%nat 2%nat * w * 0) = - (q + 2) * (w * w)) by (unfold w; ring).
      rewrite Q2 in Q. nra. }
  nra.
Qed.
Lemma updateP_some r P : 0 < r -> 1 / 1000000 <= r * r -> psd P -> exists u, updateP r P = Some u.
Proof.
  intros Hr H6 H. unfold updateP. cbv zeta. pose proof (Sdet_pos r P Hr H) as D. unfold Sdet in D. unfold pow2. cbn [smul RScalar].
  match goal with |- context [Rlt_dec (Rabs ?t) _] => replace t with ((P 0%nat 0%nat + r) * (P 1%nat 1%nat + r) - P 0%nat 1%nat * P 0%nat 1%nat) by ring end.
  rewrite Rabs_right by nra. destruct (Rlt_dec _ _); [lra|]. eexists. reflexivity.
Qed.
(** the results, with d the determinant of the innovation covariance *)
Lemma updateP_inv r P u : updateP r P = Some u -> let d := Sdet r P in d <> 0 /\
  u_det u = 1 / d /\
  (forall i j, (i < 2)%nat -> (j < 2)%nat -> u_Si u i j = (m9 (P 1%nat 1%nat + r) (- P 0%nat 1%nat) 0 (- P 0%nat 1%nat) (P 0%nat 0%nat + r) 0 0 0 0) i j / d) /\
  (forall i, (i < 3)%nat -> sym3 P -> u_K u i 0%nat = (P i 0%nat * (P 1%nat 1%nat + r) - P i 1%nat * P 0%nat 1%nat) / d /\ u_K u i 1%nat = (P i 1%nat * (P 0%nat 0%nat + r) - P i 0%nat * P 0%nat 1%nat) / d) /\
  sym3 (u_P u) /\
  exists P1, u_P u = floorVar P1 /\ sym3 P1 /\ (sym3 P -> forall i j, (i < 3)%nat -> (j < 3)%nat -> P1 i j = P i j - (u_K u i 0%nat * P 0%nat j + u_K u i 1%nat * P 1%nat j)).
Proof.
  unfold updateP. cbv zeta. unfold pow2. cbn [smul RScalar].
  match goal with |- context [Rlt_dec (Rabs ?t) _] => assert (ED : t = Sdet r P) by (unfold Sdet; ring); set (t2 := t) in * end.
  intros H. destruct (Rlt_dec (Rabs t2) (1 / 1000000)) as [|N]; [discriminate|]. injection H as <-. cbn [u_det u_Si u_K u_P].
  assert (D0 : t2 <> 0). { intros E. rewrite E, Rabs_R0 in N. lra. } rewrite <- ED.
  split; [exact D0|]. split; [reflexivity|]. split; [|split; [|split]].
  - intros i j Hi Hj. assert (Ci : i = 0%nat \/ i = 1%nat) by lia. assert (Cj : j = 0%nat \/ j = 1%nat) by lia.
    destruct Ci as [-> | ->]; destruct Cj as [-> | ->]; cbn [mset Nat.eqb andb m9]; field; exact D0.
  - intros i Hi (E1 & E2 & E3). cases3 i Hi; cbn [mset Nat.eqb andb]; rewrite ?E1, ?E2, ?E3; split; field; exact D0.
  - apply floorVar_sym. unfold sym3. cbn [mset Nat.eqb andb]. auto.
  - eexists. split; [reflexivity|]. split; [unfold sym3; cbn [mset Nat.eqb andb]; auto|]. intros (E1 & E2 & E3) i j Hi Hj. clearbody t2. unfold Sdet in ED. subst t2.
    cases3 i Hi; cases3 j Hj; cbn [mset Nat.eqb andb]; rewrite ?E1, ?E2, ?E3;
    set (a := P 0%nat 0%nat) in *; set (b := P 0%nat 1%nat) in *; set (c := P 0%nat 2%nat) in *; set (e := P 1%nat 1%nat) in *; set (f := P 1%nat 2%nat) in *; set (g := P 2%nat 2%nat) in *; clearbody a b c e f g; field; exact D0.
Qed.

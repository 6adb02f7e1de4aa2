From Coq Require Import Reals Lra.
From Coquelicot Require Import Coquelicot.
From Verif Require Import Scalar RealGeom CovSpec CovPredGen.
Open Scope R_scope.

Section J.
Variables (dt g : R) (x u : nat -> R).
Let a0 := x 0%nat. Let a1 := x 1%nat. Let a2 := x 2%nat. Let a3 := x 3%nat.
Let bx := (u 0%nat - x 10%nat) / 2. Let by_ := (u 1%nat - x 11%nat) / 2. Let bz := (u 2%nat - x 12%nat) / 2.
Let wx := u 3%nat - x 13%nat. Let wy := u 4%nat - x 14%nat. Let wz := u 5%nat - x 15%nat.
Definition r00 := a0 ^ 2 + a1 ^ 2 - a2 ^ 2 - a3 ^ 2.
Definition r01 := 2 * (a1 * a2 - a0 * a3).
Definition r02 := 2 * (a1 * a3 + a0 * a2).
Definition r10 := 2 * (a1 * a2 + a0 * a3).
Definition r11 := a0 ^ 2 - a1 ^ 2 + a2 ^ 2 - a3 ^ 2.
Definition r12 := 2 * (a2 * a3 - a0 * a1).
Definition r20 := 2 * (a1 * a3 - a0 * a2).
Definition r21 := 2 * (a2 * a3 + a0 * a1).
Definition r22 := a0 ^ 2 - a1 ^ 2 - a2 ^ 2 + a3 ^ 2.
Definition e57 := 2 * (a0 * wx - a3 * wy + a2 * wz).
Definition e61 := 2 * (a1 * wx + a2 * wy + a3 * wz).
Definition e59 := 2 * (- a2 * wx + a1 * wy + a0 * wz).
Definition e52 := 2 * (a3 * wx + a0 * wy - a1 * wz).

Definition delta (i k : nat) : R := if (i =? k)%nat then 1 else 0.
(** the Jacobian written out (checked below against [is_derive]) *)
Definition Fx (i k : nat) : R :=
  match i with
  | 0%nat => nth k [1; - bx; - by_; - bz; 0;0;0;0;0;0; - / 2 * - a1; - / 2 * - a2; - / 2 * - a3] 0
  | 1%nat => nth k [bx; 1; bz; - by_; 0;0;0;0;0;0; - / 2 * a0; - / 2 * - a3; - / 2 * a2] 0
  | 2%nat => nth k [by_; - bz; 1; bx; 0;0;0;0;0;0; - / 2 * a3; - / 2 * a0; - / 2 * - a1] 0
  | 3%nat => nth k [bz; by_; - bx; 1; 0;0;0;0;0;0; - / 2 * - a2; - / 2 * a1; - / 2 * a0] 0
  | 4%nat => nth k [e57; e61; e59; - e52; 1;0;0;0;0;0;0;0;0; - r00; - r01; - r02] 0
  | 5%nat => nth k [e52; - e59; e61; e57; 0;1;0;0;0;0;0;0;0; - r10; - r11; - r12] 0
  | 6%nat => nth k [e59; e52; - e57; e61; 0;0;1;0;0;0;0;0;0; - r20; - r21; - r22] 0
  | 7%nat => nth k [0;0;0;0;dt;0;0;1] 0
  | 8%nat => nth k [0;0;0;0;0;dt;0;0;1] 0
  | 9%nat => nth k [0;0;0;0;0;0;dt;0;0;1] 0
  | _ => delta i k
  end.
Definition Gx (i m : nat) : R :=
  match i with
  | 0%nat => nth m [/ 2 * - a1; / 2 * - a2; / 2 * - a3] 0
  | 1%nat => nth m [/ 2 * a0; / 2 * - a3; / 2 * a2] 0
  | 2%nat => nth m [/ 2 * a3; / 2 * a0; / 2 * - a1] 0
  | 3%nat => nth m [/ 2 * - a2; / 2 * a1; / 2 * a0] 0
  | 4%nat => nth m [0;0;0; r00; r01; r02] 0
  | 5%nat => nth m [0;0;0; r10; r11; r12] 0
  | 6%nat => nth m [0;0;0; r20; r21; r22] 0
  | _ => 0
  end.

Ltac unf := unfold Fx, Gx, delta, e57, e61, e59, e52, r00, r01, r02, r10, r11, r12, r20, r21, r22,
   bx, by_, bz, wx, wy, wz, a0, a1, a2, a3; cbn [nth Nat.eqb].
Ltac solve1 := unfold process, upd; cbn [Nat.eqb qmul mapp dcm q0 q1 q2 q3 vx vy vz m00 m01 m02 m10 m11 m12 m20 m21 m22];
   unf; auto_derive; [exact I|try field].

Lemma F_tail i k : (10 <= i)%nat -> is_derive (fun t => process dt g (upd x k t) u i) (x k) (delta i k).
Proof.
  intros H. do 10 (destruct i as [|i]; [lia|]). unfold process, upd, delta.
  destruct (_ =? k)%nat.
  - auto_derive; [exact I|ring].
  - auto_derive; [exact I|ring].
Qed.
Lemma F_pos i k : (7 <= i < 10)%nat -> (k < 24)%nat -> is_derive (fun t => process dt g (upd x k t) u i) (x k) (Fx i k).
Proof.
  intros H Hk. do 7 (destruct i as [|i]; [lia|]). do 3 (destruct i as [|i];
  [ do 24 (destruct k as [|k]; [solve1|]); lia |]). lia.
Qed.
Lemma F_quat i k : (i < 4)%nat -> (k < 24)%nat -> is_derive (fun t => process dt g (upd x k t) u i) (x k) (Fx i k).
Proof.
  intros H Hk. do 4 (destruct i as [|i];
  [ do 24 (destruct k as [|k]; [solve1|]); lia |]). lia.
Qed.
Lemma F_vel i k : (4 <= i < 7)%nat -> (k < 24)%nat -> is_derive (fun t => process dt g (upd x k t) u i) (x k) (Fx i k).
Proof.
  intros H Hk. do 4 (destruct i as [|i]; [lia|]). do 3 (destruct i as [|i];
  [ do 24 (destruct k as [|k]; [solve1|]); lia |]). lia.
Qed.
Lemma Fx_jacobian : state_jacobian dt g x u Fx.
Proof.
  intros i k Hi Hk.
  destruct (lt_dec i 4); [apply F_quat; lia|].
  destruct (lt_dec i 7); [apply F_vel; lia|].
  destruct (lt_dec i 10); [apply F_pos; lia|].
  replace (Fx i k) with (delta i k); [apply F_tail; lia|].
  do 10 (destruct i as [|i]; [lia|]). reflexivity.
Qed.
Lemma Gx_jacobian : input_jacobian dt g x u Gx.
Proof.
  intros i m Hi Hm.
  do 7 (destruct i as [|i]; [ do 6 (destruct m as [|m]; [solve1|]); lia |]).
  assert (E : Gx (S (S (S (S (S (S (S i))))))) m = 0) by (unfold Gx; reflexivity).
  rewrite E. do 3 (destruct i as [|i]; [unfold process; auto_derive; [exact I|ring]|]).
  unfold process; auto_derive; [exact I|ring].
Qed.

(** sparse row products *)
Definition srow (i : nat) (X : nat -> R) : R :=
  match i with
  | 0%nat => X 0%nat - bx * X 1%nat - by_ * X 2%nat - bz * X 3%nat + / 2 * a1 * X 10%nat + / 2 * a2 * X 11%nat + / 2 * a3 * X 12%nat
  | 1%nat => bx * X 0%nat + X 1%nat + bz * X 2%nat - by_ * X 3%nat - / 2 * a0 * X 10%nat + / 2 * a3 * X 11%nat - / 2 * a2 * X 12%nat
  | 2%nat => by_ * X 0%nat - bz * X 1%nat + X 2%nat + bx * X 3%nat - / 2 * a3 * X 10%nat - / 2 * a0 * X 11%nat + / 2 * a1 * X 12%nat
  | 3%nat => bz * X 0%nat + by_ * X 1%nat - bx * X 2%nat + X 3%nat + / 2 * a2 * X 10%nat - / 2 * a1 * X 11%nat - / 2 * a0 * X 12%nat
  | 4%nat => e57 * X 0%nat + e61 * X 1%nat + e59 * X 2%nat - e52 * X 3%nat + X 4%nat - r00 * X 13%nat - r01 * X 14%nat - r02 * X 15%nat
  | 5%nat => e52 * X 0%nat - e59 * X 1%nat + e61 * X 2%nat + e57 * X 3%nat + X 5%nat - r10 * X 13%nat - r11 * X 14%nat - r12 * X 15%nat
  | 6%nat => e59 * X 0%nat + e52 * X 1%nat - e57 * X 2%nat + e61 * X 3%nat + X 6%nat - r20 * X 13%nat - r21 * X 14%nat - r22 * X 15%nat
  | 7%nat => dt * X 4%nat + X 7%nat
  | 8%nat => dt * X 5%nat + X 8%nat
  | 9%nat => dt * X 6%nat + X 9%nat
  | _ => X i
  end.
Lemma rsum_delta n i X : rsum n (fun k => delta i k * X k) = if (i <? n)%nat then X i else 0.
Proof.
  induction n as [|n IH]; [reflexivity|]. cbn [rsum]. rewrite IH. unfold delta.
  destruct (Nat.eqb_spec i n) as [->|E].
  - rewrite Nat.ltb_irrefl. replace (n <? S n)%nat with true by (symmetry; apply Nat.ltb_lt; lia). ring.
  - destruct (Nat.ltb_spec i n).
    + replace (i <? S n)%nat with true by (symmetry; apply Nat.ltb_lt; lia). ring.
    + replace (i <? S n)%nat with false by (symmetry; apply Nat.ltb_ge; lia). ring.
Qed.
Lemma srow_ok i X : (i < 24)%nat -> rsum 24 (fun k => Fx i k * X k) = srow i X.
Proof.
  intros H.
  do 10 (destruct i as [|i]; [unfold Fx, srow; cbn [nth rsum]; ring|]).
  unfold Fx, srow. rewrite rsum_delta.
  replace (_ <? 24)%nat with true by (symmetry; apply Nat.ltb_lt; lia). reflexivity.
Qed.
End J.

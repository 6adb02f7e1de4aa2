From Coq Require Import Reals Lra.
From Coquelicot Require Import Coquelicot.
From Verif Require Import Scalar RealGeom CovSpec CovPredGen CovPredProofs PsdLib.
Open Scope R_scope.

Section E.
Variables (dt : R) (x u Q : nat -> R) (P : nat -> nat -> R).
(** the generated expressions at a state, input, covariance and IMU noise *)
Definition genR (i j : nat) : R :=
  gen (x 0%nat) (x 1%nat) (x 2%nat) (x 3%nat) (u 0%nat) (u 1%nat) (u 2%nat) (u 3%nat) (u 4%nat) (u 5%nat)
      (x 10%nat) (x 11%nat) (x 12%nat) (x 13%nat) (x 14%nat) (x 15%nat) dt
      (Q 0%nat) (Q 1%nat) (Q 2%nat) (Q 3%nat) (Q 4%nat) (Q 5%nat) P i j.
Definition Pu (k l : nat) : R := if (k <=? l)%nat then P k l else P l k.
Definition noise (i j : nat) : R := rsum 6 (fun m => Gx x i m * Q m * Gx x j m).
Definition entry (i j : nat) : Prop :=
  genR i j = srow dt x u i (fun k => srow dt x u j (fun l => Pu k l)) + noise i j.

Ltac ent :=
  unfold entry, genR, noise;
  cbv -[Rplus Rmult Rminus Ropp Rinv IZR Rdiv pow];
  unfold Rdiv; try field.
Lemma col0 i : (i <= 0)%nat -> entry i 0. Proof. intros H. do 1 (destruct i as [|i]; [ent|]). lia. Qed.
Lemma col1 i : (i <= 1)%nat -> entry i 1. Proof. intros H. do 2 (destruct i as [|i]; [ent|]). lia. Qed.
Lemma col2 i : (i <= 2)%nat -> entry i 2. Proof. intros H. do 3 (destruct i as [|i]; [ent|]). lia. Qed.
Lemma col3 i : (i <= 3)%nat -> entry i 3. Proof. intros H. do 4 (destruct i as [|i]; [ent|]). lia. Qed.
Lemma col4 i : (i <= 4)%nat -> entry i 4. Proof. intros H. do 5 (destruct i as [|i]; [ent|]). lia. Qed.
Lemma col5 i : (i <= 5)%nat -> entry i 5. Proof. intros H. do 6 (destruct i as [|i]; [ent|]). lia. Qed.
Lemma col6 i : (i <= 6)%nat -> entry i 6. Proof. intros H. do 7 (destruct i as [|i]; [ent|]). lia. Qed.
Lemma col7 i : (i <= 7)%nat -> entry i 7. Proof. intros H. do 8 (destruct i as [|i]; [ent|]). lia. Qed.
Lemma col8 i : (i <= 8)%nat -> entry i 8. Proof. intros H. do 9 (destruct i as [|i]; [ent|]). lia. Qed.
Lemma col9 i : (i <= 9)%nat -> entry i 9. Proof. intros H. do 10 (destruct i as [|i]; [ent|]). lia. Qed.
Lemma col10 i : (i <= 10)%nat -> entry i 10. Proof. intros H. do 11 (destruct i as [|i]; [ent|]). lia. Qed.
Lemma col11 i : (i <= 11)%nat -> entry i 11. Proof. intros H. do 12 (destruct i as [|i]; [ent|]). lia. Qed.
Lemma col12 i : (i <= 12)%nat -> entry i 12. Proof. intros H. do 13 (destruct i as [|i]; [ent|]). lia. Qed.
Lemma col13 i : (i <= 13)%nat -> entry i 13. Proof. intros H. do 14 (destruct i as [|i]; [ent|]). lia. Qed.
Lemma col14 i : (i <= 14)%nat -> entry i 14. Proof. intros H. do 15 (destruct i as [|i]; [ent|]). lia. Qed.
Lemma col15 i : (i <= 15)%nat -> entry i 15. Proof. intros H. do 16 (destruct i as [|i]; [ent|]). lia. Qed.
Lemma col16 i : (i <= 16)%nat -> entry i 16. Proof. intros H. do 17 (destruct i as [|i]; [ent|]). lia. Qed.
Lemma col17 i : (i <= 17)%nat -> entry i 17. Proof. intros H. do 18 (destruct i as [|i]; [ent|]). lia. Qed.
Lemma col18 i : (i <= 18)%nat -> entry i 18. Proof. intros H. do 19 (destruct i as [|i]; [ent|]). lia. Qed.
Lemma col19 i : (i <= 19)%nat -> entry i 19. Proof. intros H. do 20 (destruct i as [|i]; [ent|]). lia. Qed.
Lemma col20 i : (i <= 20)%nat -> entry i 20. Proof. intros H. do 21 (destruct i as [|i]; [ent|]). lia. Qed.
Lemma col21 i : (i <= 21)%nat -> entry i 21. Proof. intros H. do 22 (destruct i as [|i]; [ent|]). lia. Qed.
Lemma col22 i : (i <= 22)%nat -> entry i 22. Proof. intros H. do 23 (destruct i as [|i]; [ent|]). lia. Qed.
Lemma col23 i : (i <= 23)%nat -> entry i 23. Proof. intros H. do 24 (destruct i as [|i]; [ent|]). lia. Qed.

Lemma entries i j : (i <= j < 24)%nat -> entry i j.
Proof.
  intros H.
  destruct (Nat.eq_dec j 0) as [->|]; [apply col0; lia|].
  destruct (Nat.eq_dec j 1) as [->|]; [apply col1; lia|].
  destruct (Nat.eq_dec j 2) as [->|]; [apply col2; lia|].
  destruct (Nat.eq_dec j 3) as [->|]; [apply col3; lia|].
  destruct (Nat.eq_dec j 4) as [->|]; [apply col4; lia|].
  destruct (Nat.eq_dec j 5) as [->|]; [apply col5; lia|].
  destruct (Nat.eq_dec j 6) as [->|]; [apply col6; lia|].
  destruct (Nat.eq_dec j 7) as [->|]; [apply col7; lia|].
  destruct (Nat.eq_dec j 8) as [->|]; [apply col8; lia|].
  destruct (Nat.eq_dec j 9) as [->|]; [apply col9; lia|].
  destruct (Nat.eq_dec j 10) as [->|]; [apply col10; lia|].
  destruct (Nat.eq_dec j 11) as [->|]; [apply col11; lia|].
  destruct (Nat.eq_dec j 12) as [->|]; [apply col12; lia|].
  destruct (Nat.eq_dec j 13) as [->|]; [apply col13; lia|].
  destruct (Nat.eq_dec j 14) as [->|]; [apply col14; lia|].
  destruct (Nat.eq_dec j 15) as [->|]; [apply col15; lia|].
  destruct (Nat.eq_dec j 16) as [->|]; [apply col16; lia|].
  destruct (Nat.eq_dec j 17) as [->|]; [apply col17; lia|].
  destruct (Nat.eq_dec j 18) as [->|]; [apply col18; lia|].
  destruct (Nat.eq_dec j 19) as [->|]; [apply col19; lia|].
  destruct (Nat.eq_dec j 20) as [->|]; [apply col20; lia|].
  destruct (Nat.eq_dec j 21) as [->|]; [apply col21; lia|].
  destruct (Nat.eq_dec j 22) as [->|]; [apply col22; lia|].
  destruct (Nat.eq_dec j 23) as [->|]; [apply col23; lia|].
  lia.
Qed.
End E.

Lemma srow_ext dt x u i X Y : (i < 24)%nat -> (forall k, (k < 24)%nat -> X k = Y k) -> srow dt x u i X = srow dt x u i Y.
Proof.
  intros Hi H. do 10 (destruct i as [|i]; [unfold srow; rewrite !H by lia; reflexivity|]).
  unfold srow. apply H. exact Hi.
Qed.
Lemma jac_unique_F dt g x u F : state_jacobian dt g x u F ->
  forall i k, (i < 24)%nat -> (k < 24)%nat -> F i k = Fx dt x u i k.
Proof.
  intros H i k Hi Hk. rewrite <- (is_derive_unique _ _ _ (H i k Hi Hk)).
  apply is_derive_unique. apply Fx_jacobian; assumption.
Qed.
Lemma jac_unique_G dt g x u G : input_jacobian dt g x u G ->
  forall i m, (i < 24)%nat -> (m < 6)%nat -> G i m = Gx x i m.
Proof.
  intros H i k Hi Hk. rewrite <- (is_derive_unique _ _ _ (H i k Hi Hk)).
  apply is_derive_unique. apply (Gx_jacobian dt g x u); assumption.
Qed.

Lemma gen_is_FPFt dt g x u Q P F G : symmetric24 P ->
  state_jacobian dt g x u F -> input_jacobian dt g x u G ->
  forall i j, (i <= j < 24)%nat -> genR dt x u Q P i j = FPFt_GQGt F G P Q i j.
Proof.
  intros HP HF HG i j H. rewrite (entries dt x u Q P i j H). unfold FPFt_GQGt. f_equal.
  - rewrite <- srow_ok by lia. apply rsum_ext. intros k Hk.
    rewrite <- srow_ok by lia. rewrite <- (rsum_scal 24 (Fx dt x u i k)). apply rsum_ext. intros l Hl.
    rewrite (jac_unique_F _ _ _ _ _ HF) by lia. rewrite (jac_unique_F _ _ _ _ _ HF) by lia.
    unfold Pu. destruct (Nat.leb_spec k l); [ring|]. rewrite (HP l k) by lia. ring.
  - unfold noise. apply rsum_ext. intros m Hm.
    rewrite !(jac_unique_G _ _ _ _ _ HG) by lia. reflexivity.
Qed.

(** finite sums and positive semidefinite matrices *)
From Coq Require Import Reals Lra Psatz.
From Verif Require Import Scalar CovSpec.
Open Scope R_scope.

Lemma rsum_ext n f h : (forall k, (k < n)%nat -> f k = h k) -> rsum n f = rsum n h.
Proof. induction n as [|n IH]; intros H; [reflexivity|]. cbn [rsum]. rewrite IH by (intros; apply H; lia). rewrite H by lia. reflexivity. Qed.
Lemma rsum_scal n c f : rsum n (fun k => c * f k) = c * rsum n f.
Proof. induction n as [|n IH]; cbn [rsum]; [ring|]. rewrite IH. ring. Qed.
Lemma rsum_scal_r n c f : rsum n (fun k => f k * c) = rsum n f * c.
Proof. induction n as [|n IH]; cbn [rsum]; [ring|]. rewrite IH. ring. Qed.
Lemma rsum_plus n f h : rsum n (fun k => f k + h k) = rsum n f + rsum n h.
Proof. induction n as [|n IH]; cbn [rsum]; [ring|]. rewrite IH. ring. Qed.
Lemma rsum_minus n f h : rsum n (fun k => f k - h k) = rsum n f - rsum n h.
Proof. induction n as [|n IH]; cbn [rsum]; [ring|]. rewrite IH. ring. Qed.
Lemma rsum_0 n : rsum n (fun _ => 0) = 0.
Proof. induction n as [|n IH]; cbn [rsum]; [reflexivity|]. rewrite IH. ring. Qed.
Lemma rsum_nonneg n f : (forall k, (k < n)%nat -> 0 <= f k) -> 0 <= rsum n f.
Proof. induction n as [|n IH]; intros H; cbn [rsum]; [lra|]. specialize (IH ltac:(intros; apply H; lia)). specialize (H n ltac:(lia)). lra. Qed.
Lemma rsum_le n f h : (forall k, (k < n)%nat -> f k <= h k) -> rsum n f <= rsum n h.
Proof. induction n as [|n IH]; intros H; cbn [rsum]; [lra|]. specialize (IH ltac:(intros; apply H; lia)). specialize (H n ltac:(lia)). lra. Qed.
Lemma rsum_swap n m (f : nat -> nat -> R) : rsum n (fun i => rsum m (fun j => f i j)) = rsum m (fun j => rsum n (fun i => f i j)).
Proof.
  induction n as [|n IH]; cbn [rsum]; [rewrite rsum_0; reflexivity|]. rewrite IH, <- rsum_plus. reflexivity.
Qed.
(** a sum with a single non-zero term *)
Lemma rsum_single n k f : (k < n)%nat -> (forall i, (i < n)%nat -> i <> k -> f i = 0) -> rsum n f = f k.
Proof.
  induction n as [|n IH]; intros Hk H; [lia|]. cbn [rsum].
  destruct (Nat.eq_dec k n) as [->|E].
  - rewrite (rsum_ext n f (fun _ => 0)), rsum_0 by (intros; apply H; lia). ring.
  - rewrite IH by (try lia; intros; apply H; lia). rewrite (H n) by lia. ring.
Qed.

Lemma quad_ext v M N : (forall i j, (i < 24)%nat -> (j < 24)%nat -> M i j = N i j) -> quad v M = quad v N.
Proof. intros H. unfold quad. apply rsum_ext. intros i Hi. apply rsum_ext. intros j Hj. rewrite H by assumption. reflexivity. Qed.
Lemma psd_ext M N : (forall i j, (i < 24)%nat -> (j < 24)%nat -> M i j = N i j) -> psd M -> psd N.
Proof. intros H P v. rewrite <- (quad_ext v M N H). apply P. Qed.
Lemma quad_plus v M N : quad v (fun i j => M i j + N i j) = quad v M + quad v N.
Proof.
  unfold quad. rewrite <- rsum_plus. apply rsum_ext. intros i _. rewrite <- rsum_plus. apply rsum_ext. intros j _. ring.
Qed.
Lemma quad_minus v M N : quad v (fun i j => M i j - N i j) = quad v M - quad v N.
Proof.
  unfold quad. rewrite <- rsum_minus. apply rsum_ext. intros i _. rewrite <- rsum_minus. apply rsum_ext. intros j _. ring.
Qed.
Lemma psd_plus M N : psd M -> psd N -> psd (fun i j => M i j + N i j).
Proof. intros HM HN v. rewrite quad_plus. specialize (HM v). specialize (HN v). lra. Qed.
Lemma psd_zero : psd (fun _ _ => 0).
Proof.
  intros v. unfold quad. apply rsum_nonneg. intros i _. apply rsum_nonneg. intros j _. lra.
Qed.
(** rank one *)
Lemma quad_outer v a b : quad v (fun i j => a i * b j) = rsum 24 (fun i => v i * a i) * rsum 24 (fun j => v j * b j).
Proof.
  unfold quad. rewrite <- rsum_scal_r. apply rsum_ext. intros i _. rewrite <- rsum_scal. apply rsum_ext. intros j _. ring.
Qed.
Lemma psd_outer q a : 0 <= q -> psd (fun i j => a i * q * a j).
Proof.
  intros Hq v. rewrite (quad_ext v _ (fun i j => (q * a i) * a j)) by (intros; ring). rewrite quad_outer.
  rewrite (rsum_ext 24 (fun i => v i * (q * a i)) (fun i => q * (v i * a i))) by (intros; ring).
  rewrite rsum_scal. set (S := rsum _ _). nra.
Qed.
Lemma psd_sum n (f : nat -> nat -> nat -> R) : (forall m, (m < n)%nat -> psd (f m)) -> psd (fun i j => rsum n (fun m => f m i j)).
Proof.
  induction n as [|n IH]; intros H; cbn [rsum]; [exact psd_zero|].
  apply psd_plus; [apply IH; intros; apply H; lia|apply H; lia].
Qed.
(** congruence *)
Lemma quad_cong v F P : quad v (fun i j => rsum 24 (fun k => rsum 24 (fun l => F i k * P k l * F j l)))
  = quad (fun k => rsum 24 (fun i => v i * F i k)) P.
Proof.
  unfold quad.
  transitivity (rsum 24 (fun i => rsum 24 (fun j => rsum 24 (fun k => rsum 24 (fun l => v i * F i k * P k l * (v j * F j l)))))).
  { apply rsum_ext. intros i _. apply rsum_ext. intros j _.
    replace (v i * rsum 24 (fun k => rsum 24 (fun l => F i k * P k l * F j l)) * v j)
      with ((v i * v j) * rsum 24 (fun k => rsum 24 (fun l => F i k * P k l * F j l))) by ring.
    rewrite <- rsum_scal. apply rsum_ext. intros k _. rewrite <- rsum_scal. apply rsum_ext. intros l _. ring. }
  transitivity (rsum 24 (fun k => rsum 24 (fun l => rsum 24 (fun i => rsum 24 (fun j => v i * F i k * P k l * (v j * F j l)))))).
  { rewrite (rsum_ext 24 _ (fun i => rsum 24 (fun k => rsum 24 (fun l => rsum 24 (fun j => v i * F i k * P k l * (v j * F j l)))))).
    - rewrite rsum_swap. apply rsum_ext. intros k _. rewrite rsum_swap. apply rsum_ext. intros l _. reflexivity.
    - intros i _. rewrite rsum_swap. apply rsum_ext. intros k _. apply rsum_swap. }
  apply rsum_ext. intros k _. apply rsum_ext. intros l _.
  rewrite <- rsum_scal_r, <- rsum_scal_r. apply rsum_ext. intros i _.
  rewrite <- rsum_scal. reflexivity.
Qed.
Lemma psd_cong F P : psd P -> psd (fun i j => rsum 24 (fun k => rsum 24 (fun l => F i k * P k l * F j l))).
Proof. intros H v. rewrite quad_cong. apply H. Qed.
Lemma psd_GQG G Q : (forall m, (m < 6)%nat -> 0 <= Q m) -> psd (fun i j => rsum 6 (fun m => G i m * Q m * G j m)).
Proof.
  intros H. apply (psd_sum 6 (fun m i j => G i m * Q m * G j m)). intros m Hm. apply (psd_outer (Q m) (fun i => G i m)). apply H, Hm.
Qed.
Lemma psd_FPFt_GQGt F G P Q : psd P -> (forall m, (m < 6)%nat -> 0 <= Q m) -> psd (FPFt_GQGt F G P Q).
Proof. intros HP HQ. unfold FPFt_GQGt. apply psd_plus; [apply psd_cong, HP|apply psd_GQG, HQ]. Qed.

(** masking rows and columns *)
Lemma psd_mask (m : nat -> bool) P : psd P -> psd (fun i j => if m i && m j then P i j else 0).
Proof.
  intros H v. specialize (H (fun i => if m i then v i else 0)).
  replace (quad v (fun i j => if m i && m j then P i j else 0)) with (quad (fun i => if m i then v i else 0) P); [exact H|].
  unfold quad. apply rsum_ext. intros i _. apply rsum_ext. intros j _. destruct (m i), (m j); cbn [andb]; ring.
Qed.
Lemma quad_diag v d : quad v (fun i j => if (i =? j)%nat then d i else 0) = rsum 24 (fun i => d i * v i ^ 2).
Proof.
  unfold quad. apply rsum_ext. intros i Hi. rewrite (rsum_single 24 i); [rewrite Nat.eqb_refl; ring|exact Hi|].
  intros j Hj E. apply Nat.eqb_neq in E. rewrite Nat.eqb_sym, E. ring.
Qed.
Lemma psd_diag d : (forall i, (i < 24)%nat -> 0 <= d i) -> psd (fun i j => if (i =? j)%nat then d i else 0).
Proof. intros H v. rewrite quad_diag. apply rsum_nonneg. intros i Hi. specialize (H i Hi). nra. Qed.
(** raising diagonal elements *)
Lemma psd_raise M N : psd M -> (forall i j, (i < 24)%nat -> (j < 24)%nat -> i <> j -> N i j = M i j) ->
  (forall i, (i < 24)%nat -> M i i <= N i i) -> psd N.
Proof.
  intros HM Ho Hd. apply (psd_ext (fun i j => M i j + (if (i =? j)%nat then N i i - M i i else 0))).
  - intros i j Hi Hj. destruct (Nat.eqb_spec i j) as [->|E]; [ring|]. rewrite (Ho i j) by assumption. ring.
  - apply psd_plus; [exact HM|]. apply psd_diag. intros i Hi. specialize (Hd i Hi). lra.
Qed.

(** unit vectors and pairs of them *)
Definition ev (k : nat) (i : nat) : R := if (i =? k)%nat then 1 else 0.
Lemma rsum_ev n k f : (k < n)%nat -> rsum n (fun i => ev k i * f i) = f k.
Proof.
  intros H. rewrite (rsum_single n k); [unfold ev; rewrite Nat.eqb_refl; ring|exact H|].
  intros i _ E. unfold ev. apply Nat.eqb_neq in E. rewrite E. ring.
Qed.
Lemma quad_two a b i j M : (i < 24)%nat -> (j < 24)%nat ->
  quad (fun k => a * ev i k + b * ev j k) M = a * a * M i i + a * b * M i j + a * b * M j i + b * b * M j j.
Proof.
  intros Hi Hj. unfold quad.
  rewrite (rsum_ext 24 _ (fun k => ev i k * (a * (a * M k i + b * M k j)) + ev j k * (b * (a * M k i + b * M k j)))).
  - rewrite rsum_plus, !rsum_ev by assumption. ring.
  - intros k _.
    rewrite (rsum_ext 24 _ (fun l => ev i l * ((a * ev i k + b * ev j k) * a * M k l) + ev j l * ((a * ev i k + b * ev j k) * b * M k l))) by (intros; ring).
    rewrite rsum_plus, !rsum_ev by assumption. ring.
Qed.
Lemma psd_diag_nonneg M i : psd M -> (i < 24)%nat -> 0 <= M i i.
Proof. intros H Hi. specialize (H (fun k => 1 * ev i k + 0 * ev i k)). rewrite quad_two in H by assumption. lra. Qed.
(** Cauchy-Schwarz for matrix elements *)
Lemma psd_cauchy M i j : psd M -> (i < 24)%nat -> (j < 24)%nat -> M i j = M j i -> M i j * M i j <= M i i * M j j.
Proof.
  intros H Hi Hj E. pose proof (psd_diag_nonneg M i H Hi) as Pi. pose proof (psd_diag_nonneg M j H Hj) as Pj.
  assert (A : forall a b, 0 <= a * a * M i i + 2 * (a * b) * M i j + b * b * M j j).
  { intros a b. specialize (H (fun k => a * ev i k + b * ev j k)). rewrite quad_two in H by assumption. rewrite <- E in H. lra. }
  destruct (Req_dec (M j j) 0) as [Z|NZ].
  - destruct (Req_dec (M i j) 0) as [Z2|NZ2]; [rewrite Z2, Z; lra|].
    exfalso. specialize (A 1 (- (M i i + 1) / (2 * M i j))). rewrite Z in A.
    replace (1 * 1 * M i i + 2 * (1 * (- (M i i + 1) / (2 * M i j))) * M i j + - (M i i + 1) / (2 * M i j) * (- (M i i + 1) / (2 * M i j)) * 0)
      with (-1) in A by (field; lra). lra.
  - specialize (A (M j j) (- M i j)).
    replace (M j j * M j j * M i i + 2 * (M j j * - M i j) * M i j + - M i j * - M i j * M j j)
      with (M j j * (M i i * M j j - M i j * M i j)) in A by ring.
    apply Rmult_le_reg_l with (M j j); [lra|]. nra.
Qed.

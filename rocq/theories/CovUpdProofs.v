(** * Measurement update over the reals *)
From Coq Require Import Reals Lra Psatz.
From Verif Require Import CBase Scalar CovSpec PsdLib CovModel CovProofs CovProofsR.
Open Scope R_scope.

(** h P h' *)
Definition hP (h : nat -> R) (P : Mat R) (j : nat) : R := rsum 24 (fun k => h k * P k j).
Lemma quad_hP h P : quad h P = rsum 24 (fun j => hP h P j * h j).
Proof.
  unfold quad, hP. rewrite rsum_swap. apply rsum_ext. intros j _. rewrite <- rsum_scal_r. reflexivity.
Qed.
Lemma quad_add v h t P : symmetric24 P ->
  quad (fun i => v i + t * h i) P = quad v P + 2 * t * rsum 24 (fun j => hP h P j * v j) + t * t * quad h P.
Proof.
  intros HS.
  assert (A : rsum 24 (fun i => rsum 24 (fun j => v i * P i j * h j)) = rsum 24 (fun j => hP h P j * v j)).
  { apply rsum_ext. intros i Hi. unfold hP. rewrite <- rsum_scal_r. apply rsum_ext. intros j Hj. rewrite (HS i j) by assumption. ring. }
  assert (B : rsum 24 (fun i => rsum 24 (fun j => h i * P i j * v j)) = rsum 24 (fun j => hP h P j * v j)).
  { rewrite rsum_swap. apply rsum_ext. intros j Hj. unfold hP. rewrite <- rsum_scal_r. apply rsum_ext. intros i Hi. ring. }
  unfold quad at 1.
  transitivity (rsum 24 (fun i => rsum 24 (fun j => v i * P i j * v j))
     + t * rsum 24 (fun i => rsum 24 (fun j => v i * P i j * h j))
     + t * rsum 24 (fun i => rsum 24 (fun j => h i * P i j * v j))
     + t * t * rsum 24 (fun i => rsum 24 (fun j => h i * P i j * h j))).
  - rewrite <- !rsum_scal, <- !rsum_plus. apply rsum_ext. intros i _.
    rewrite <- !rsum_scal, <- !rsum_plus. apply rsum_ext. intros j _. ring.
  - rewrite A, B. unfold quad. ring.
Qed.
(** Cauchy-Schwarz *)
Lemma psd_cs v h P : symmetric24 P -> psd P ->
  rsum 24 (fun j => hP h P j * v j) * rsum 24 (fun j => hP h P j * v j) <= quad v P * quad h P.
Proof.
  intros HS Hp. set (b := rsum 24 _). pose proof (Hp v) as A. pose proof (Hp h) as C.
  assert (Q : forall t, 0 <= quad v P + 2 * t * b + t * t * quad h P).
  { intros t. unfold b. rewrite <- (quad_add v h t P HS). apply Hp. }
  destruct (Req_dec (quad h P) 0) as [Z|Z].
  - destruct (Req_dec b 0) as [Zb|Zb]; [rewrite Zb; nra|].
    specialize (Q (- (quad v P + 1) / (2 * b))). rewrite Z in Q.
    replace (2 * (- (quad v P + 1) / (2 * b)) * b) with (- (quad v P + 1)) in Q by (field; exact Zb). nra.
  - specialize (Q (- b / quad h P)).
    assert (E : quad v P + 2 * (- b / quad h P) * b + (- b / quad h P) * (- b / quad h P) * quad h P = quad v P - b * b / quad h P) by (field; exact Z).
    rewrite E in Q. apply (Rmult_le_compat_r (quad h P)) in Q; [|exact C].
    rewrite Rmult_0_l, Rmult_minus_distr_r in Q. replace (b * b / quad h P * quad h P) with (b * b) in Q by (field; exact Z). lra.
Qed.

Section U.
Variables (h : nat -> R) (P : Mat R) (Sv : R).
Hypothesis HS : symmetric24 P.
Hypothesis Hp : psd P.
Hypothesis HSv : 0 < Sv.
Hypothesis HSq : quad h P <= Sv.
Let a := hP h P.
(** P - (P h)(P h)'/S *)
Definition joseph (i j : nat) : R := P i j - a i / Sv * a j.

Lemma joseph_psd : psd joseph.
Proof.
  intros v. unfold joseph. rewrite quad_minus.
  rewrite (quad_ext v (fun i j => a i / Sv * a j) (fun i j => (/ Sv * a i) * a j)) by (intros; field; lra).
  rewrite quad_outer.
  replace (rsum 24 (fun i => v i * (/ Sv * a i))) with (/ Sv * rsum 24 (fun j => a j * v j)).
  2:{ rewrite <- rsum_scal. apply rsum_ext. intros; ring. }
  replace (rsum 24 (fun j => v j * a j)) with (rsum 24 (fun j => a j * v j)) by (apply rsum_ext; intros; ring).
  pose proof (psd_cs v h P HS Hp) as CS. fold a in CS. set (b := rsum 24 (fun j => a j * v j)) in *.
  pose proof (Hp v) as Qv. pose proof (Hp h) as Qh.
  assert (B : b * b <= quad v P * Sv) by nra.
  apply (Rmult_le_compat_l (/ Sv)) in B; [|left; apply Rinv_0_lt_compat; exact HSv].
  replace (/ Sv * (quad v P * Sv)) with (quad v P) in B by (field; lra). lra.
Qed.
Lemma joseph_sym : symmetric24 joseph.
Proof. intros i j Hi Hj. unfold joseph. rewrite (HS i j) by assumption. field. lra. Qed.
Lemma joseph_diag_nonneg i : (i < 24)%nat -> a i / Sv * a i <= P i i.
Proof. intros Hi. pose proof (psd_diag_nonneg _ i joseph_psd Hi) as H. unfold joseph in H. lra. Qed.
Lemma joseph_diag_le i : joseph i i <= P i i.
Proof.
  unfold joseph. assert (0 <= a i / Sv * a i); [|lra].
  replace (a i / Sv * a i) with (a i * a i * / Sv) by (field; lra).
  apply Rmult_le_pos; [nra|]. left. apply Rinv_0_lt_compat. exact HSv.
Qed.
End U.

Lemma checkAndFix_healthy n (KHP M : Mat R) : (forall i, (i < n)%nat -> KHP i i <= M i i) -> checkAndFix n KHP M = (M, true).
Proof.
  induction n as [|n IH]; intros H; [reflexivity|]. cbn [checkAndFix]. rewrite IH by (intros; apply H; lia).
  replace (slt (M n n) (KHP n n)) with false; [reflexivity|]. symmetry. apply sltR_false. apply H. lia.
Qed.

(** the accelerometer-bias limits are consistent: the floor does not exceed the ceiling *)
Definition acc_limits_ok (c : covctx R) : Prop := 5 / 100000000 <= accHi c.
(** every variance is at most its documented ceiling *)
Definition below_limits (c : covctx R) (s : covst R) : Prop :=
  (forall i, (i < 24)%nat -> ~ (13 <= i < 16)%nat -> cP s i i <= var_hi i) /\
  (forall k, (k < 3)%nat -> c_inhibit s k = false -> cP s (13 + k)%nat (13 + k)%nat <= accHi c).

Lemma accMax_le inh (M : Mat R) hi : 5 / 100000000 <= hi ->
  (forall k, (k < 3)%nat -> inh k = false -> M (13 + k)%nat (13 + k)%nat <= hi) -> fst (accMax inh M) <= hi.
Proof.
  intros Hh H.
  assert (A : forall acc k, (k < 3)%nat -> fst acc <= hi -> fst (accMaxStep inh M acc k) <= hi).
  { intros [mx rr] k Hk L. unfold accMaxStep. cbv zeta. cbn [fst] in L. destruct (inh k) eqn:E; [exact L|]. destruct (sgt _ _).
    - cbn [fst]. apply H; assumption.
    - destruct (slt _ _); exact L. }
  unfold accMax. apply A; [lia|]. apply A; [lia|]. apply A; [lia|]. cbn [fst]. rewrite slitR. lra.
Qed.
Lemma accLo_le (c : covctx R) (s : covst R) : acc_limits_ok c ->
  (forall k, (k < 3)%nat -> c_inhibit s k = false -> cP s (13 + k)%nat (13 + k)%nat <= accHi c) ->
  accLo (fst (accMax (c_inhibit s) (cP s))) <= accHi c.
Proof.
  intros Hok H. unfold accLo. rewrite !slitR. cbn [sfmax smul RScalar].
  pose proof (accMax_le (c_inhibit s) (cP s) (accHi c) Hok H) as L. unfold acc_limits_ok in Hok.
  apply Rmax_lub; [|lra].
  apply Rle_trans with (1 / 100 * accHi c); [|lra]. apply Rmult_le_compat_l; [lra|exact L].
Qed.
Lemma fix_below f (c : covctx R) (s : covst R) : acc_limits_ok c -> symmetric24 (cP s) ->
  (forall k, (k < 3)%nat -> c_inhibit s k = false -> cP s (13 + k)%nat (13 + k)%nat <= accHi c) ->
  below_limits c (fixCovarianceErrors f c s).
Proof.
  intros Hok HS H. split.
  - intros i Hi Ni. destruct (estimated_dec c i Hi) as [Ei|Ei].
    + rewrite fix_diag_any by assumption. apply Rmin_l.
    + rewrite fix_unest by auto. unfold var_hi. destruct (_ || _); lra.
  - intros k Hk E. assert (IE : c_inhibit (fixCovarianceErrors f c s) = c_inhibit s).
    { unfold fixCovarianceErrors. cbn [c_inhibit setP]. unfold fixAccel. cbn [c_inhibit setP].
      destruct (_ && _ && _); [reflexivity|]. destruct (accMax _ _). reflexivity. }
    rewrite IE in E. rewrite fix_diag_acc by exact Hk. rewrite E.
    pose proof (accLo_le c s Hok H). rewrite sconstrainR. destruct (Rlt_dec _ _); [lra|]. destruct (Rlt_dec _ _); lra.
Qed.

(** ** The common update *)
Section A.
Variables (c : covctx R) (s : covst R) (h : nat -> R) (Sv innov : R).
Hypothesis HS : symmetric24 (cP s).
Hypothesis Hp : psd (cP s).
Hypothesis HSv : 0 < Sv.
Hypothesis HSq : quad h (cP s) <= Sv.
Hypothesis Hb : below_limits c s.
Hypothesis Hok : acc_limits_ok c.
Let a := hP h (cP s).
Variables (KHP : Mat R).
Hypothesis HKHP : forall i j, (i < 24)%nat -> (j < 24)%nat -> KHP i j = a i / Sv * a j.

Lemma msub_joseph i j : (i < 24)%nat -> (j < 24)%nat -> msub (cP s) KHP i j = joseph h (cP s) Sv i j.
Proof. intros Hi Hj. unfold msub, joseph. cbn [ssub RScalar]. rewrite HKHP by assumption. reflexivity. Qed.
Lemma msub_sym : symmetric24 (msub (cP s) KHP).
Proof. intros i j Hi Hj. rewrite !msub_joseph by assumption. apply joseph_sym; assumption. Qed.
Lemma msub_psd : psd (msub (cP s) KHP).
Proof. apply (psd_ext (joseph h (cP s) Sv)); [intros; symmetry; apply msub_joseph; assumption|]. apply joseph_psd; assumption. Qed.

Lemma applyUpdate_ok (K : Vec R) : applyUpdate KHP K innov c s =
  (setState (fuse K innov (x_st c)) c, fixCovarianceErrors true c (setP (msub (cP s) KHP) s), true).
Proof.
  unfold applyUpdate. rewrite checkAndFix_healthy; [reflexivity|].
  intros i Hi. rewrite HKHP by assumption. apply joseph_diag_nonneg; assumption.
Qed.
Lemma upd_diag_le i : (i < 24)%nat -> msub (cP s) KHP i i <= cP s i i.
Proof. intros Hi. rewrite msub_joseph by assumption. apply joseph_diag_le; assumption. Qed.

Let s' := fixCovarianceErrors true c (setP (msub (cP s) KHP) s).
Lemma upd_sym : symmetric24 (cP s').
Proof. apply sym_fix. apply msub_sym. Qed.
Lemma upd_psd : psd (cP s').
Proof.
  apply fix_psd; cbn [cP setP c_inhibit].
  - apply msub_sym.
  - apply msub_psd.
  - intros i Hi Ni Ei. eapply Rle_trans; [apply upd_diag_le; exact Hi|]. apply (proj1 Hb); assumption.
  - intros k Hk E. eapply Rle_trans; [apply upd_diag_le; lia|]. apply (proj2 Hb); assumption.
Qed.
Lemma upd_below : below_limits c s'.
Proof.
  apply fix_below; cbn [cP setP c_inhibit]; [exact Hok|apply msub_sym|].
  intros k Hk E. eapply Rle_trans; [apply upd_diag_le; lia|]. apply (proj2 Hb); assumption.
Qed.
(** each variance: textbook value, raised to the documented floor *)
Lemma upd_var i : (i < 24)%nat -> estimated c i -> ~ (13 <= i < 16)%nat ->
  cP s' i i = Rmax (var_lo i) (cP s i i - a i * a i / Sv).
Proof.
  intros Hi Ei Ni. unfold s'. rewrite fix_diag_any; [|apply msub_sym|exact Hi|exact Ei|exact Ni]. cbn [cP setP].
  pose proof (upd_diag_le i Hi) as L. pose proof (proj1 Hb i Hi Ni) as B.
  rewrite msub_joseph in L by assumption. rewrite msub_joseph by assumption. unfold joseph in L |- *. fold a in L |- *.
  replace (cP s i i - a i * a i / Sv) with (cP s i i - a i / Sv * a i) by (field; lra).
  apply Rmin_right. apply Rmax_lub; [|lra]. unfold var_lo, var_hi.
  destruct ((4 <=? i) && (i <? 10))%nat; cbn [orb]; [lra|]. destruct (_ <=? _)%nat; lra.
Qed.
Lemma upd_cov i j : (i < 24)%nat -> (j < 24)%nat -> i <> j -> estimated c i -> estimated c j -> ~ (13 <= i < 16)%nat -> ~ (13 <= j < 16)%nat ->
  cP s' i j = cP s i j - a i * a j / Sv.
Proof.
  intros Hi Hj Ne Ei Ej Ni Nj. unfold s'. rewrite fix_entry_sym; [|apply msub_sym|exact Hi|exact Hj|exact Ne|exact Ei|exact Ej].
  assert (accel_state i = false) as -> by (apply Bool.not_true_iff_false; unfold accel_state; rewrite inb_iff; lia).
  assert (accel_state j = false) as -> by (apply Bool.not_true_iff_false; unfold accel_state; rewrite inb_iff; lia).
  rewrite andb_false_r. cbn [cP setP]. rewrite msub_joseph by assumption. unfold joseph. fold a. field. lra.
Qed.
Lemma upd_var_acc k : (k < 3)%nat -> cP s' (13 + k)%nat (13 + k)%nat =
  if c_inhibit s k then cP s (13 + k)%nat (13 + k)%nat - a (13 + k)%nat * a (13 + k)%nat / Sv
  else Rmax (accLo (fst (accMax (c_inhibit s) (msub (cP s) KHP)))) (cP s (13 + k)%nat (13 + k)%nat - a (13 + k)%nat * a (13 + k)%nat / Sv).
Proof.
  intros Hk. unfold s'. rewrite fix_diag_acc by exact Hk. cbn [cP setP c_inhibit].
  pose proof (upd_diag_le (13 + k)%nat ltac:(lia)) as L.
  assert (E : msub (cP s) KHP (13 + k)%nat (13 + k)%nat = cP s (13 + k)%nat (13 + k)%nat - a (13 + k)%nat * a (13 + k)%nat / Sv).
  { rewrite msub_joseph by lia. unfold joseph. fold a. field. lra. }
  rewrite E in *. destruct (c_inhibit s k) eqn:EI; [reflexivity|].
  pose proof (proj2 Hb k Hk EI) as B. rewrite sconstrainR. destruct (Rlt_dec _ _).
  - rewrite Rmax_left; [reflexivity|lra].
  - rewrite Rmax_right by lra. destruct (Rlt_dec _ _); [lra|reflexivity].
Qed.
End A.

(** ** Direct velocity / position / height observations *)
Lemma hP_ev P k j : (k < 24)%nat -> hP (ev k) P j = P k j.
Proof. intros H. unfold hP. apply (rsum_ev 24 k (fun i => P i j)). exact H. Qed.
Lemma quad_ev P k : (k < 24)%nat -> quad (ev k) P = P k k.
Proof.
  intros H. rewrite quad_hP. rewrite (rsum_ext _ _ (fun j => ev k j * P k j)).
  - apply (rsum_ev 24 k (fun j => P k j)). exact H.
  - intros j _. rewrite hP_ev by exact H. ring.
Qed.

(** ** General scalar observations: H given as a sparse row *)
Definition hvec (H : list (nat * R)) (k : nat) : R := fold_right (fun p acc => (if (fst p =? k)%nat then snd p else 0) + acc) 0 H.
Lemma hvec_sum H (f : nat -> R) : Forall (fun p => (fst p < 24)%nat) H ->
  rsum 24 (fun k => hvec H k * f k) = fold_right (fun p acc => snd p * f (fst p) + acc) 0 H.
Proof.
  induction 1 as [|p H Hp HF IH]; cbn [hvec fold_right].
  - rewrite (rsum_ext _ _ (fun _ => 0)) by (intros; ring). apply rsum_0.
  - rewrite (rsum_ext _ _ (fun k => (if (fst p =? k)%nat then snd p else 0) * f k + hvec H k * f k)) by (intros; unfold hvec; ring).
    rewrite rsum_plus, IH. f_equal. rewrite (rsum_single 24 (fst p)); [rewrite Nat.eqb_refl; reflexivity|exact Hp|].
    intros i _ Ne. replace (fst p =? i)%nat with false by (symmetry; apply Nat.eqb_neq; congruence). ring.
Qed.
Lemma khp_fold (k : R) (H : list (nat * R)) (f : nat -> R) acc :
  fold_left (fun tmp (p : nat * R) => sadd tmp (smul (smul k (snd p)) (f (fst p)))) H acc =
  acc + k * fold_right (fun p acc => snd p * f (fst p) + acc) 0 H.
Proof.
  revert acc. induction H as [|p H IH]; intros acc; cbn [fold_left fold_right]; [ring|].
  rewrite IH. cbn [sadd smul RScalar]. ring.
Qed.
Lemma computeKHP_R P K H i j : Forall (fun p => (fst p < 24)%nat) H -> computeKHP P K H i j = K i * hP (hvec H) P j.
Proof.
  intros HF. unfold computeKHP. rewrite (khp_fold (K i) H (fun k => P k j)). rewrite szeroR.
  unfold hP. rewrite hvec_sum by exact HF. ring.
Qed.

Lemma psd_uncorrelateSet w f (v : nat -> R) (M : Mat R) : psd M -> (forall k, (k < w)%nat -> 0 <= v k) -> psd (uncorrelateSet w f v M).
Proof.
  intros HM Hv. apply (psd_raise (fun i j => if negb (inb f w i) && negb (inb f w j) then M i j else 0)).
  - apply (psd_mask (fun i => negb (inb f w i))). exact HM.
  - intros i j Hi Hj Ne. unfold uncorrelateSet. apply Nat.eqb_neq in Ne. rewrite Ne.
    destruct (inb f w i), (inb f w j); cbn; try reflexivity; apply szeroR.
  - intros i Hi. unfold uncorrelateSet. rewrite Nat.eqb_refl. destruct (inb f w i) eqn:B; cbn [orb negb andb]; [|lra].
    apply inb_iff in B. apply Hv. lia.
Qed.
Lemma psd_uncorrelateQuat (M : Mat R) : psd M -> psd (uncorrelateQuat M).
Proof.
  intros HM.
  apply (psd_ext (fun i j => (if (i <? 4)%nat && (j <? 4)%nat then M i j else 0) + (if negb (i <? 4)%nat && negb (j <? 4)%nat then M i j else 0))).
  - intros i j _ _. unfold uncorrelateQuat. rewrite szeroR. destruct (i <? 4)%nat, (j <? 4)%nat; cbn [Bool.eqb negb andb]; ring.
  - apply psd_plus; [apply (psd_mask (fun i => (i <? 4)%nat)); exact HM|apply (psd_mask (fun i => negb (i <? 4)%nat)); exact HM].
Qed.


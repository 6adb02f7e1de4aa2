(** * What one scalar fusion does to the filter

    Specification of an applied correction, and the proof that
    measurementUpdate performs it. *)
From Coq Require Import Reals Lra Lia.
From Verif Require Import Scalar RealGeom CovSpec PsdLib CovModel CovProofsR CovUpdProofs CovPredProofs FusionGen FusionModel FusionSpec FusionProofs.
Open Scope R_scope.

(** x' is x - K innov with the quaternion normalised *)
Definition corrected (x K : nat -> R) (innov : R) (x' : nat -> R) : Prop :=
  let raw := fun i => x i - K i * innov in
  (forall i, (4 <= i < 24)%nat -> x' i = raw i) /\
  (forall i, (i < 4)%nat -> x' i = raw i / sqrt (raw 0%nat * raw 0%nat + raw 1%nat * raw 1%nat + raw 2%nat * raw 2%nat + raw 3%nat * raw 3%nat)).
(** an accelerometer-bias axis whose estimation is inhibited *)
Definition uninhibited (f : fus R) (i : nat) : bool := negb (((13 <=? i) && (i <=? 15))%nat && c_inhibit (fs f) (i - 13)%nat).
Definition healthy_limits (f : fus R) : Prop := below_limits (fc f) (fs f) /\ acc_limits_ok (fc f).
(** everything but the states and the covariance (and its bookkeeping) is the same *)
Definition same_context (f f' : fus R) : Prop :=
  setState (fx f') (fc f) = fc f' /\ c_inhibit (fs f') = c_inhibit (fs f).
(** every state is in [rows] or known exactly (uncorrelated, zero variance), as
    states that are not being estimated are *)
Definition covers (rows : nat -> bool) (P : nat -> nat -> R) : Prop :=
  forall i, (i < 24)%nat -> rows i = true \/ (forall j, (j < 24)%nat -> P i j = 0).
(** f' is f after a Kalman update with observation row h, observation variance
    rn and innovation innov, the gain restricted to [rows] *)
Definition fused (rows : nat -> bool) (h : nat -> R) (rn innov : R) (f f' : fus R) : Prop :=
  let P := fP f in let P' := fP f' in let Sv := quad h P + rn in
  (exists K, kalman_gain rows h P Sv K /\ corrected (fx f) K innov (fx f')) /\ same_context f f' /\
  (** with no estimated state left out, the covariance is the posterior P - P h h' P / S:
      it stays symmetric and positive semi-definite *)
  (covers rows P -> healthy_limits f ->
   symmetric24 P' /\ psd P' /\ healthy_limits f' /\
   (forall i, (i < 24)%nat -> estimated (fc f) i -> ~ (13 <= i < 16)%nat ->
      let a := rsum 24 (fun j => P i j * h j) in P' i i = Rmax (var_lo i) (P i i - a * a / Sv)) /\
   (forall i j, (i < 24)%nat -> (j < 24)%nat -> i <> j -> estimated (fc f) i -> estimated (fc f) j ->
      ~ (13 <= i < 16)%nat -> ~ (13 <= j < 16)%nat ->
      P' i j = P i j - rsum 24 (fun k => P i k * h k) * rsum 24 (fun k => P j k * h k) / Sv)).
Definition same_estimate (f f' : fus R) : Prop := fx f' = fx f /\ fP f' = fP f.

Lemma hP_sym h P i : symmetric24 P -> (i < 24)%nat -> hP h P i = rsum 24 (fun j => P i j * h j).
Proof. intros Sy Hi. unfold hP. apply rsum_ext. intros j Hj. rewrite (Sy j i) by lia. ring. Qed.
Lemma corrected_fuse (x K : nat -> R) innov : corrected x K innov (fuse K innov x).
Proof.
  unfold fuse, normQuat, fuseRaw. cbv zeta. split; intros i Hi.
  - replace (i <? 4)%nat with false by (symmetry; apply Nat.ltb_ge; lia). reflexivity.
  - replace (i <? 4)%nat with true by (symmetry; apply Nat.ltb_lt; lia). cbn [sdiv ssqrt sadd smul ssub RScalar].
    rewrite szeroR, Rplus_0_l. reflexivity.
Qed.
Lemma corrected_ext (x K K' : nat -> R) innov x' : (forall i, (i < 24)%nat -> K i = K' i) -> corrected x K innov x' -> corrected x K' innov x'.
Proof.
  intros E [A B]. split; intros i Hi; cbv zeta.
  - rewrite A by exact Hi. cbv beta zeta. rewrite E by lia. reflexivity.
  - rewrite B by exact Hi. cbv beta zeta. rewrite !E by lia. reflexivity.
Qed.
Lemma restrict_le (b : bool) a Sv p : 0 < Sv -> 0 <= p -> a / Sv * a <= p -> (if b then a / Sv else 0) * a <= p.
Proof. intros. destruct b; [assumption|lra]. Qed.
(** a gain restricted to some rows never fails the variance check *)
Lemma applyUpdate_fused (K : Vec R) KHP rows h rn innov (f : fus R) :
  symmetric24 (fP f) -> psd (fP f) -> 0 < rn -> kalman_gain rows h (fP f) (quad h (fP f) + rn) K ->
  (forall i j, (i < 24)%nat -> (j < 24)%nat -> KHP i j = K i * hP h (fP f) j) ->
  let '(c, s, ok) := applyUpdate KHP K innov (fc f) (fs f) in ok = true /\ fused rows h rn innov f (setCS c s f).
Proof.
  intros Sy Hp Hr HK HKHP. set (Sv := quad h (fP f) + rn) in HK.
  assert (Q0 : 0 <= quad h (fP f)) by apply Hp.
  assert (HSv : 0 < Sv) by (unfold Sv; lra). assert (HSq : quad h (fP f) <= Sv) by (unfold Sv; lra).
  assert (KK : forall i, (i < 24)%nat -> K i = if rows i then hP h (fP f) i / Sv else 0).
  { intros i Hi. rewrite HK by exact Hi. destruct (rows i); [rewrite hP_sym by assumption; reflexivity|reflexivity]. }
  unfold applyUpdate. rewrite checkAndFix_healthy.
  2: { intros i Hi. rewrite HKHP, KK by exact Hi. apply restrict_le; [exact HSv| |].
    - apply psd_diag_nonneg; assumption.
    - exact (joseph_diag_nonneg h (fP f) Sv Sy Hp HSv HSq i Hi). }
  split; [reflexivity|]. split; [exists K; split; [exact HK|apply corrected_fuse]|]. split; [split; [reflexivity|]|].
  - unfold fixCovarianceErrors. cbn [c_inhibit setCS fs setP]. unfold fixAccel. cbv zeta. cbn [c_inhibit setP].
    destruct (_ && _ && _)%bool; [reflexivity|]. destruct (accMax _ _). reflexivity.
  - intros All [Hb Hok].
    assert (HJ : forall i j, (i < 24)%nat -> (j < 24)%nat -> KHP i j = hP h (cP (fs f)) i / Sv * hP h (cP (fs f)) j).
    { intros i j Hi Hj. rewrite HKHP, KK by assumption. destruct (All i Hi) as [E|Z]; [rewrite E; reflexivity|].
      assert (Z0 : hP h (fP f) i = 0) by (rewrite hP_sym by assumption; rewrite <- (rsum_0 24); apply rsum_ext; intros k Hk; rewrite Z by exact Hk; ring).
      change (cP (fs f)) with (fP f). rewrite Z0. destruct (rows i); lra. }
    split; [eapply upd_sym; eassumption|]. split; [eapply upd_psd; eassumption|]. split; [split; [|exact Hok]|split].
    + assert (B : below_limits (fc f) (fixCovarianceErrors true (fc f) (setP (msub (cP (fs f)) KHP) (fs f)))) by (eapply upd_below; eassumption). exact B.
    + intros i Hi Ei Ni. cbv zeta. rewrite <- hP_sym by assumption.
      eapply upd_var; eassumption.
    + intros i j Hi Hj Ne Ei Ej Ni Nj. rewrite <- !hP_sym by assumption.
      eapply upd_cov; eassumption.
Qed.
Lemma mupd_fused (K : Vec R) H rows rn innov (f : fus R) : Forall (fun p => (fst p < 24)%nat) H ->
  symmetric24 (fP f) -> psd (fP f) -> 0 < rn -> kalman_gain rows (hvec H) (fP f) (quad (hvec H) (fP f) + rn) K ->
  exists f', mupd K H innov f = (f', true) /\ fused (fun i => rows i && uninhibited f i) (hvec H) rn innov f f' /\
  exists c s, f' = setCS c s f.
Proof.
  intros HF Sy Hp Hr HK. unfold mupd, measurementUpdate.
  set (K' := fun i => if inb 13 3 i && c_inhibit (fs f) (i - 13)%nat then szero else K i).
  pose proof (applyUpdate_fused K' (computeKHP (cP (fs f)) K' H) (fun i => rows i && uninhibited f i) (hvec H) rn innov f Sy Hp Hr) as A.
  destruct (applyUpdate _ _ _ _ _) as [[c s] ok]. destruct A as [-> F].
  - intros i Hi. unfold K', uninhibited. replace ((13 <=? i) && (i <=? 15))%nat with (inb 13 3 i).
    + destruct (inb 13 3 i && c_inhibit (fs f) (i - 13)%nat)%bool; cbn [negb]; [rewrite andb_false_r; apply szeroR|rewrite andb_true_r; apply HK; exact Hi].
    + unfold inb. destruct (Nat.leb_spec 13 i), (Nat.leb_spec i 15), (Nat.ltb_spec i (13 + 3)); try reflexivity; lia.
  - intros i j Hi Hj. apply computeKHP_R. exact HF.
  - exists (setCS c s f). split; [reflexivity|]. split; [exact F|]. exists c, s. reflexivity.
Qed.

(** * Histories of covariance operations over the reals *)
From Coq Require Import Reals Lra Psatz.
From Verif Require Import CBase Scalar RealGeom CovSpec PsdLib CovPredGen CovPredProofs CovModel CovProofs CovProofsR CovProofsR2 CovUpdProofs CovQuat CovQuat2.
Open Scope R_scope.

(** ** Frames *)
Lemma fix_inhibit f (c : covctx R) (s : covst R) : c_inhibit (fixCovarianceErrors f c s) = c_inhibit s.
Proof. unfold fixCovarianceErrors. cbn [c_inhibit setP]. unfold fixAccel. cbn [c_inhibit setP]. destruct (_ && _ && _); [reflexivity|]. destruct (accMax _ _). reflexivity. Qed.
Lemma fix_acc_ang f (c : covctx R) (s : covst R) : c_acc_ang (fixCovarianceErrors f c s) = c_acc_ang s.
Proof. unfold fixCovarianceErrors. cbn [c_acc_ang setP]. unfold fixAccel. cbn [c_inhibit setP]. destruct (_ && _ && _); [reflexivity|]. destruct (accMax _ _). reflexivity. Qed.
Lemma fix_acc_vel f (c : covctx R) (s : covst R) : c_acc_vel (fixCovarianceErrors f c s) = c_acc_vel s.
Proof. unfold fixCovarianceErrors. cbn [c_acc_vel setP]. unfold fixAccel. cbn [c_inhibit setP]. destruct (_ && _ && _); [reflexivity|]. destruct (accMax _ _). reflexivity. Qed.

Lemma inhibit_axis_frame (c : covctx R) (s s' : covst R) k : c_ang_filt s = c_ang_filt s' -> c_acc_filt s = c_acc_filt s' -> inhibit_axis c s k = inhibit_axis c s' k.
Proof. intros A B. unfold inhibit_axis, inhibit_all. rewrite A, B. reflexivity. Qed.
Lemma inhibitStep_filt (c : covctx R) k (s : covst R) : c_ang_filt (inhibitStep c k s) = c_ang_filt s /\ c_acc_filt (inhibitStep c k s) = c_acc_filt s
  /\ c_acc_ang (inhibitStep c k s) = c_acc_ang s /\ c_acc_vel (inhibitStep c k s) = c_acc_vel s.
Proof. unfold inhibitStep. cbv zeta. destruct (inhibit_axis c s k), (c_inhibit s k); repeat apply conj; reflexivity. Qed.
Lemma inhibitStep_inh (c : covctx R) k (s : covst R) m : c_inhibit (inhibitStep c k s) m = if (m =? k)%nat then inhibit_axis c s k else c_inhibit s m.
Proof.
  unfold inhibitStep. cbv zeta. destruct (inhibit_axis c s k) eqn:A, (c_inhibit s k) eqn:B; cbn [c_inhibit negb]; unfold bset;
    destruct (Nat.eqb_spec m k) as [->|]; auto.
Qed.
Lemma inhibitStep_id (c : covctx R) k (s : covst R) : inhibit_axis c s k = false -> c_inhibit s k = false -> inhibitStep c k s = s.
Proof. intros A B. unfold inhibitStep. cbv zeta. rewrite A, B. reflexivity. Qed.
(** the inhibit flag of an axis after the prediction *)
Lemma predInhibit_flag (c : covctx R) (s : covst R) k : (k < 3)%nat -> c_inhibit (predInhibit c s) k = inhibit_axis c (filtStep c s) k.
Proof.
  intros H. unfold predInhibit. set (s1 := filtStep c s).
  destruct (inhibitStep_filt c 0 s1) as (A1 & A2 & _). destruct (inhibitStep_filt c 1 (inhibitStep c 0 s1)) as (B1 & B2 & _).
  rewrite !inhibitStep_inh. do 3 (destruct k as [|k]; [cbn [Nat.eqb]; apply inhibit_axis_frame; congruence|]). lia.
Qed.
Lemma predInhibit_acc (c : covctx R) (s : covst R) : c_acc_ang (predInhibit c s) = c_acc_ang s /\ c_acc_vel (predInhibit c s) = c_acc_vel s.
Proof.
  unfold predInhibit. set (s1 := filtStep c s).
  destruct (inhibitStep_filt c 2 (inhibitStep c 1 (inhibitStep c 0 s1))) as (_ & _ & A3 & A4).
  destruct (inhibitStep_filt c 1 (inhibitStep c 0 s1)) as (_ & _ & B3 & B4).
  destruct (inhibitStep_filt c 0 s1) as (_ & _ & C3 & C4). rewrite A3, A4, B3, B4, C3, C4. split; reflexivity.
Qed.
Lemma predInhibit_P (c : covctx R) (s : covst R) : (forall k, (k < 3)%nat -> c_inhibit s k = false) ->
  (forall k, (k < 3)%nat -> inhibit_axis c (filtStep c s) k = false) -> cP (predInhibit c s) = cP s.
Proof.
  intros H1 H2. unfold predInhibit.
  rewrite (inhibitStep_id c 0 (filtStep c s)) by (apply H2 || apply H1; lia).
  rewrite (inhibitStep_id c 1 (filtStep c s)) by (apply H2 || apply H1; lia).
  rewrite (inhibitStep_id c 2 (filtStep c s)) by (apply H2 || apply H1; lia). reflexivity.
Qed.
Lemma kahan_acc0 (a b d : R) : snd (kahan a b d) = 0. Proof. unfold kahan. cbn. ring. Qed.
Lemma predict_state (c : covctx R) (s : covst R) :
  c_inhibit (predictCovariance c s) = c_inhibit (predInhibit c s) /\
  ((forall k, c_acc_ang s k = 0 /\ c_acc_vel s k = 0) -> forall k, c_acc_ang (predictCovariance c s) k = 0 /\ c_acc_vel (predictCovariance c s) k = 0).
Proof.
  unfold predictCovariance. set (s1 := predInhibit c s). cbv zeta.
  destruct (predInhibit_acc c s) as [PA PV]. fold s1 in PA, PV.
  destruct (buildNext c s1 _) as [[N aa] av] eqn:B. split; [rewrite fix_inhibit; reflexivity|].
  intros HA k. rewrite fix_acc_ang, fix_acc_vel. cbn [c_acc_ang c_acc_vel].
  unfold buildNext in B. cbv zeta in B.
  set (pn := process_noise _ _ _) in B.
  assert (KA : forall k b, (forall m, snd (fst b) m = 0) -> forall m, snd (fst (kahanAng pn k b)) m = 0).
  { intros k0 [[N1 a1] v1] H m. unfold kahanAng. pose proof (kahan_acc0 (N1 (10 + k0)%nat (10 + k0)%nat) (pn (10 + k0)%nat) (a1 k0)) as Z.
    destruct (kahan _ _ _) as [t a']. cbn [fst snd] in *. unfold vset. destruct (m =? k0)%nat; [exact Z|apply H]. }
  assert (KV : forall k b, snd (kahanAng pn k b) = snd b).
  { intros k0 [[N1 a1] v1]. unfold kahanAng. destruct (kahan _ _ _). reflexivity. }
  assert (AA : forall M inh pv k b, snd (fst (accelAxis c M inh pv pn k b)) = snd (fst b)).
  { intros M inh pv k0 [[N1 a1] v1]. unfold accelAxis. destruct (inh k0); cbn [negb]; [reflexivity|]. destruct (kahan _ _ _). reflexivity. }
  assert (AV : forall M inh pv k b, (forall m, snd b m = 0) -> forall m, snd (accelAxis c M inh pv pn k b) m = 0).
  { intros M inh pv k0 [[N1 a1] v1] H m. unfold accelAxis. destruct (inh k0); cbn [negb].
    - cbn [snd]. unfold vset. destruct (m =? k0)%nat; [apply szeroR|apply H].
    - match goal with |- context[kahan ?a ?b ?d] => pose proof (kahan_acc0 a b d) as Z; destruct (kahan a b d) as [t a'] end.
      cbn [fst snd] in *. unfold vset. destruct (m =? k0)%nat; [exact Z|apply H]. }
  set (b0 := (wcols c (cP s1) 0 13 (fun _ _ => szero), c_acc_ang s1, c_acc_vel s1) : bld) in B.
  set (b1 := kahanAng pn 2 (kahanAng pn 1 (kahanAng pn 0 b0))) in B.
  assert (B1a : forall m, snd (fst b1) m = 0) by (apply KA, KA, KA; intros m; cbn; rewrite PA; apply HA).
  assert (B1v : forall m, snd b1 m = 0) by (intros m; unfold b1; rewrite !KV; cbn; rewrite PV; apply HA).
  set (ax := accelAxis c (cP s1) (c_inhibit s1) (c_prev_var s1) pn) in B.
  assert (B2a : forall m, snd (fst (ax 2%nat (ax 1%nat (ax 0%nat b1)))) m = 0) by (intros m; unfold ax; rewrite !AA; apply B1a).
  assert (B2v : forall m, snd (ax 2%nat (ax 1%nat (ax 0%nat b1))) m = 0) by (unfold ax; apply AV, AV, AV, B1v).
  destruct (ax 2%nat (ax 1%nat (ax 0%nat b1))) as [[N2 a2] v2]. cbn [fst snd] in *.
  injection B as _ <- <-. split; [apply B2a|apply B2v].
Qed.

(** ** Operations *)
(** one covariance operation of the filter; [c]: states, IMU sample, flags and
    parameters at that time *)
Inductive covop :=
  | OpPredict (c : covctx R)
  | OpVelPos (c : covctx R) (innov obs_var : R) (idx : nat)
  (** any other sensor: sparse observation row H, with the textbook gain *)
  | OpFuse (c : covctx R) (innov obs_var : R) (H : list (nat * R))
  (** block reset: w states from f, new variances v *)
  | OpReset (w f : nat) (v : nat -> R)
  (** decorrelate the attitude from the other states *)
  | OpUncorrelateQuat
  (** yaw uncertainty added after a heading reset; x: states *)
  | OpYawVariance (x : Vec R) (w : R)
  (** attitude covariance from rotation vector variances *)
  | OpQuatCov (x : Vec R) (v : nat -> R).
Definition covexec (op : covop) (s : covst R) : covst R :=
  match op with
  | OpPredict c => predictCovariance c s
  | OpVelPos c innov r idx => snd (fst (fuseVelPosHeight innov (cP s (idx + 4)%nat (idx + 4)%nat + r) idx c s))
  | OpFuse c innov r H =>
      let Sv := quad (hvec H) (cP s) + r in
      snd (fst (measurementUpdate (fun i => hP (hvec H) (cP s) i / Sv) H innov c s))
  | OpReset w f v => setP (uncorrelateSet w f v (cP s)) s
  | OpUncorrelateQuat => setP (uncorrelateQuat (cP s)) s
  | OpYawVariance x w => setP (increaseYawVar x w (cP s)) s
  | OpQuatCov x v => setP (initQuatCov x v (zeroQuatCov (cP s))) s
  end.
Definition acc_below (c : covctx R) (s : covst R) : Prop := acc_limits_ok c /\ forall k, (k < 3)%nat -> cP s (13 + k)%nat (13 + k)%nat <= accHi c.
Definition covadmissible (op : covop) (s : covst R) : Prop :=
  match op with
  | OpPredict c =>
      (* accelerometer bias learning is active, horizontal position variance is below its growth stop,
         and no predicted variance exceeds its ceiling *)
      (forall k, (k < 3)%nat -> inhibit_axis c (filtStep c s) k = false) /\ ~ pos_capped (cP s) /\
      (forall g F G, state_jacobian dtR g (x_st c) (u_of c) F -> input_jacobian dtR g (x_st c) (u_of c) G -> within_limits c s F G)
  | OpVelPos c innov r idx => (idx < 6)%nat /\ 0 < r /\ acc_below c s
  | OpFuse c innov r H => 0 < r /\ Forall (fun p => (fst p < 24)%nat) H /\ acc_below c s
  | OpReset w f v => forall k, (k < w)%nat -> 0 <= v k <= var_hi (f + k)
  | OpUncorrelateQuat => True
  | OpYawVariance x w => unit_quat x /\ 0 <= w /\ forall i, (i < 4)%nat -> cP s i i <= 99 / 100
  | OpQuatCov x v => (forall k, (k < 3)%nat -> 0 <= v k) /\ forall i, (i < 4)%nat -> initQuatCov x v (zeroQuatCov (cP s)) i i <= 1
  end.
Fixpoint covrun (ops : list covop) (s : covst R) : covst R :=
  match ops with [] => s | op :: r => covrun r (covexec op s) end.
Fixpoint covtrace_ok (ops : list covop) (s : covst R) : Prop :=
  match ops with [] => True | op :: r => covadmissible op s /\ covtrace_ok r (covexec op s) end.

Record covinv (s : covst R) : Prop := {
  ci_sym : symmetric24 (cP s); ci_psd : psd (cP s);
  ci_hi : forall i, (i < 24)%nat -> ~ (13 <= i < 16)%nat -> cP s i i <= var_hi i;
  ci_inh : forall k, (k < 3)%nat -> c_inhibit s k = false;
  ci_acc : forall k, c_acc_ang s k = 0 /\ c_acc_vel s k = 0 }.

Lemma covinv_step op s : covinv s -> covadmissible op s -> covinv (covexec op s).
Proof.
  intros [HS Hp Hh Hi Ha]. destruct op as [c|c innov r idx|c innov r H|w f v| |x w|x v]; cbn [covadmissible covexec].
  - intros (A1 & A2 & A3). pose proof (predInhibit_P c s Hi A1) as PE. destruct (predict_state c s) as [PI PA]. destruct (predInhibit_acc c s) as [PA1 PA2].
    assert (IN : forall k, (k < 3)%nat -> c_inhibit (predInhibit c s) k = false) by (intros k Hk; rewrite predInhibit_flag by exact Hk; apply A1, Hk).
    constructor.
    + apply predict_sym.
    + apply (predict_psd c s 0 (Fx dtR (x_st c) (u_of c)) (Gx (x_st c))); try assumption.
      * apply Fx_jacobian.
      * apply Gx_jacobian.
      * rewrite PE. exact Hp.
      * intros k j Hk E. rewrite IN in E by exact Hk. discriminate.
      * intros k Hk E. rewrite IN in E by exact Hk. discriminate.
      * rewrite PE. exact A2.
      * intros k. rewrite PA1, PA2. apply Ha.
      * apply (A3 0); [apply Fx_jacobian|apply Gx_jacobian].
    + intros i Hi' Ni. rewrite predict_P. cbv zeta. destruct (estimated_dec c i Hi') as [Ei|Ei].
      * rewrite fix_diag by assumption. apply Rmin_l.
      * rewrite fix_unest by auto. unfold var_hi. destruct (_ || _); lra.
    + intros k Hk. rewrite PI. apply IN, Hk.
    + apply PA, Ha.
  - intros (Hx & Hr & [Hok Hac]).
    set (si := (idx + 4)%nat). assert (Hsi : (si < 24)%nat) by (unfold si; lia).
    pose proof (psd_diag_nonneg _ si Hp Hsi) as Dn.
    assert (HSv : 0 < cP s si si + r) by lra.
    assert (HSq : quad (ev si) (cP s) <= cP s si si + r) by (rewrite quad_ev by exact Hsi; lra).
    assert (Hb : below_limits c s) by (split; [exact Hh|intros k Hk _; apply Hac, Hk]).
    unfold fuseVelPosHeight. cbv zeta. fold si.
    match goal with |- context[applyUpdate ?KHP ?K _ _ _] =>
      assert (EK : forall i, (i < 24)%nat -> K i = hP (ev si) (cP s) i / (cP s si si + r)) by (intros i Hi'; cbn [sdiv smul RScalar]; rewrite hP_ev by exact Hsi; rewrite (HS si i) by assumption; reflexivity);
      assert (EKHP : forall i j, (i < 24)%nat -> (j < 24)%nat -> KHP i j = hP (ev si) (cP s) i / (cP s si si + r) * hP (ev si) (cP s) j)
        by (intros i j Hi' Hj; cbn [sdiv smul RScalar]; rewrite !hP_ev by exact Hsi; rewrite (HS si i) by assumption; reflexivity);
      rewrite (applyUpdate_ok c s (ev si) _ innov HS Hp HSv HSq KHP EKHP K);
      pose proof (upd_sym c s (ev si) _ HS HSv KHP EKHP) as U1;
      pose proof (upd_psd c s (ev si) _ HS Hp HSv HSq Hb KHP EKHP) as U2;
      pose proof (upd_below c s (ev si) _ HS HSv Hb Hok KHP EKHP) as U3
    end.
    cbn [fst snd]. constructor; [exact U1|exact U2|exact (proj1 U3)|intros k Hk; rewrite fix_inhibit; apply Hi, Hk|].
    intros k. rewrite fix_acc_ang, fix_acc_vel. apply Ha.
  - intros (Hr & HF & [Hok Hac]).
    pose proof (Hp (hvec H)) as Dn. set (Sv := quad (hvec H) (cP s) + r).
    assert (HSv : 0 < Sv) by (unfold Sv; lra).
    assert (HSq : quad (hvec H) (cP s) <= Sv) by (unfold Sv; lra).
    assert (Hb : below_limits c s) by (split; [exact Hh|intros k Hk _; apply Hac, Hk]).
    unfold measurementUpdate. cbv zeta.
    match goal with |- context[applyUpdate _ ?K _ _ _] => set (K' := K) end. match goal with |- context[applyUpdate ?KHP K' _ _ _] => set (KHP' := KHP) end.
    assert (EK : forall i, (i < 24)%nat -> K' i = hP (hvec H) (cP s) i / Sv).
    { intros i Hi'. unfold K'. destruct (inb 13 3 i) eqn:B; [|reflexivity]. apply inb_iff in B. rewrite Hi by lia. reflexivity. }
    assert (EKHP : forall i j, (i < 24)%nat -> (j < 24)%nat -> KHP' i j = hP (hvec H) (cP s) i / Sv * hP (hvec H) (cP s) j).
    { intros i j Hi' Hj. unfold KHP'. rewrite computeKHP_R by exact HF. f_equal. apply (EK i Hi'). }
    rewrite (applyUpdate_ok c s (hvec H) _ innov HS Hp HSv HSq KHP' EKHP K').
    pose proof (upd_sym c s (hvec H) _ HS HSv KHP' EKHP) as U1.
    pose proof (upd_psd c s (hvec H) _ HS Hp HSv HSq Hb KHP' EKHP) as U2.
    pose proof (upd_below c s (hvec H) _ HS HSv Hb Hok KHP' EKHP) as U3.
    cbn [fst snd]. constructor; [exact U1|exact U2|exact (proj1 U3)|intros k Hk; rewrite fix_inhibit; apply Hi, Hk|].
    intros k. rewrite fix_acc_ang, fix_acc_vel. apply Ha.
  - intros Hv. constructor; cbn [cP setP c_inhibit c_acc_ang c_acc_vel]; try assumption.
    + apply sym_uncorrelateSet. exact HS.
    + apply psd_uncorrelateSet; [exact Hp|]. intros k Hk. apply Hv, Hk.
    + intros i Hi' Ni. unfold uncorrelateSet. rewrite Nat.eqb_refl, orb_diag. destruct (inb f w i) eqn:B; [|apply Hh; assumption].
      apply inb_iff in B. specialize (Hv (i - f)%nat ltac:(lia)). replace (f + (i - f))%nat with i in Hv by lia. apply Hv.
  - intros _. constructor; cbn [cP setP c_inhibit c_acc_ang c_acc_vel]; try assumption.
    + intros i j Hi' Hj. unfold uncorrelateQuat. destruct (i <? 4)%nat, (j <? 4)%nat; cbn [Bool.eqb negb]; try reflexivity; apply HS; assumption.
    + apply psd_uncorrelateQuat. exact Hp.
    + intros i Hi' Ni. unfold uncorrelateQuat. rewrite Bool.eqb_reflx. cbn [negb]. apply Hh; assumption.
  - intros (U & Hw & Hq). constructor; cbn [cP setP c_inhibit c_acc_ang c_acc_vel]; try assumption.
    + intros i j Hi' Hj. destruct (yaw_D x) as (D & D1 & D2 & D3). rewrite !(increaseYaw_ok x w (cP s) D _ _ U D1 D2). rewrite (HS i j) by assumption. ring.
    + apply increaseYaw_psd; assumption.
    + intros i Hi' Ni. destruct (yaw_D x) as (D & D1 & D2 & D3). rewrite (increaseYaw_ok x w (cP s) D _ _ U D1 D2).
      destruct (lt_dec i 4) as [L|L]; [|rewrite D2 by lia; rewrite Rmult_0_r; rewrite Rplus_0_r; apply Hh; assumption].
      specialize (Hq i L). specialize (D3 U i). assert (var_hi i = 1) as -> by (do 4 (destruct i as [|i]; [reflexivity|]); lia).
      pose proof (Rmin_r w (1 / 100)) as Q. assert (0 <= Rmin w (1 / 100)) by (apply Rmin_glb; lra). nra.
  - intros [Hv Hq]. constructor; cbn [cP setP c_inhibit c_acc_ang c_acc_vel]; try assumption.
    + intros i j Hi' Hj. apply initQuat_sym; try assumption. unfold zeroQuatCov. apply sym_uncorrelateSet, sym_uncorrelateSet. exact HS.
    + apply initQuat_psd; [|exact Hv]. unfold zeroQuatCov. do 2 (apply psd_uncorrelateSet; [|intros; rewrite szeroR; lra]). exact Hp.
    + intros i Hi' Ni. destruct (lt_dec i 4) as [L|L].
      * assert (var_hi i = 1) as -> by (do 4 (destruct i as [|i]; [reflexivity|]); lia). apply Hq, L.
      * rewrite initQuat_other by lia. unfold zeroQuatCov, uncorrelateSet.
        replace (inb 2 2 i) with false by (symmetry; apply Bool.not_true_iff_false; rewrite inb_iff; lia).
        replace (inb 0 2 i) with false by (symmetry; apply Bool.not_true_iff_false; rewrite inb_iff; lia). cbn [orb]. apply Hh; assumption.
Qed.
Lemma covinv_run ops s : covinv s -> covtrace_ok ops s -> covinv (covrun ops s).
Proof. revert s. induction ops as [|op r IH]; intros s H A; [exact H|]. destruct A as [A B]. apply IH; [apply covinv_step; assumption|exact B]. Qed.

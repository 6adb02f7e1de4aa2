(** * Inhibited accelerometer-bias axes; limits in binary32 *)
From Coq Require Import Reals Lra.
From Verif Require Import CBase Scalar CovSpec CovPredGen CovModel CovProofs CovProofsG F32 F32More FilterProofs2.
Open Scope nat_scope.

Section G.
Context {T : Type} {S : Scalar T}.

Lemma inhibitStep_k (c : covctx T) k (s : covst T) m : m < 3 -> k < 3 ->
  c_ang_filt (inhibitStep c k s) = c_ang_filt s /\ c_acc_filt (inhibitStep c k s) = c_acc_filt s /\
  c_inhibit (inhibitStep c k s) m = (if m =? k then inhibit_axis c s k else c_inhibit s m) /\
  c_prev_var (inhibitStep c k s) m = (if (m =? k) && inhibit_axis c s k && negb (c_inhibit s k) then cP s (13 + k) (13 + k) else c_prev_var s m) /\
  cP (inhibitStep c k s) (13 + m) (13 + m) = (if (m =? k) && negb (inhibit_axis c s k) && c_inhibit s k then c_prev_var s k else cP s (13 + m) (13 + m)).
Proof.
  intros Hm Hk. unfold inhibitStep. cbv zeta.
  destruct (Nat.eqb_spec m k) as [->|Ne].
  - destruct (inhibit_axis c s k) eqn:I, (c_inhibit s k) eqn:J; cbn [negb andb cP c_inhibit c_prev_var c_ang_filt c_acc_filt];
      unfold bset, vset, mset; rewrite ?Nat.eqb_refl; cbn [andb]; rewrite ?J; auto 10.
  - assert (A : m =? k = false) by (apply Nat.eqb_neq; exact Ne). assert (B : (13 + m =? 13 + k) = false) by (apply Nat.eqb_neq; lia).
    destruct (inhibit_axis c s k) eqn:I, (c_inhibit s k) eqn:J; cbn [negb andb cP c_inhibit c_prev_var c_ang_filt c_acc_filt];
      unfold bset, vset, mset; rewrite ?A, ?B; cbn [andb]; auto 10.
Qed.
Lemma inhibit_axis_frame_g (c : covctx T) (s s' : covst T) k : c_ang_filt s = c_ang_filt s' -> c_acc_filt s = c_acc_filt s' -> inhibit_axis c s k = inhibit_axis c s' k.
Proof. intros A B. unfold inhibit_axis, inhibit_all. rewrite A, B. reflexivity. Qed.

(** flag, saved variance and variance of axis k after the inhibition logic *)
Lemma predInhibit_k (c : covctx T) (s : covst T) k : k < 3 ->
  let I := inhibit_axis c (filtStep c s) k in let s1 := predInhibit c s in
  c_inhibit s1 k = I /\
  c_prev_var s1 k = (if I && negb (c_inhibit s k) then cP s (13 + k) (13 + k) else c_prev_var s k) /\
  cP s1 (13 + k) (13 + k) = (if negb I && c_inhibit s k then c_prev_var s k else cP s (13 + k) (13 + k)).
Proof.
  intros Hk. cbv zeta. unfold predInhibit.
  set (s0 := filtStep c s). set (s1 := inhibitStep c 0 s0). set (s2 := inhibitStep c 1 s1).
  change (c_inhibit s k) with (c_inhibit s0 k). change (cP s) with (cP s0). change (c_prev_var s) with (c_prev_var s0).
  destruct (inhibitStep_k c 0 s0 k Hk ltac:(lia)) as (A1 & A2 & A3 & A4 & A5). fold s1 in A1, A2, A3, A4, A5.
  destruct (inhibitStep_k c 1 s1 k Hk ltac:(lia)) as (B1 & B2 & B3 & B4 & B5). fold s2 in B1, B2, B3, B4, B5.
  destruct (inhibitStep_k c 2 s2 k Hk ltac:(lia)) as (C1 & C2 & C3 & C4 & C5).
  rewrite (inhibit_axis_frame_g c s1 s0 1) in * by congruence. rewrite (inhibit_axis_frame_g c s2 s0 2) in * by congruence.
  destruct k as [|[|[|k]]]; [| | |lia]; cbn [Nat.eqb andb] in *; rewrite C3, C4, C5, ?B3, ?B4, ?B5, ?A3, ?A4, ?A5; auto.
Qed.

Lemma fix_frame f (c : covctx T) (s : covst T) : c_inhibit (fixCovarianceErrors f c s) = c_inhibit s /\ c_prev_var (fixCovarianceErrors f c s) = c_prev_var s.
Proof.
  unfold fixCovarianceErrors. cbn [c_inhibit c_prev_var setP]. unfold fixAccel. cbv zeta. cbn [c_inhibit setP].
  destruct (_ && _ && _); [split; reflexivity|]. destruct (accMax _ _). split; reflexivity.
Qed.
Lemma predict_frame (c : covctx T) (s : covst T) : c_inhibit (predictCovariance c s) = c_inhibit (predInhibit c s) /\ c_prev_var (predictCovariance c s) = c_prev_var (predInhibit c s).
Proof. unfold predictCovariance. cbv zeta. destruct (buildNext _ _ _) as [[N aa] av]. match goal with |- context [fixCovarianceErrors false c ?t] => destruct (fix_frame false c t) as [-> ->] end. split; reflexivity. Qed.

(** without forced symmetry the repair keeps or zeroes an off-diagonal element *)
Lemma fix_off_g (c : covctx T) (s : covst T) i j : i <> j ->
  cP (fixCovarianceErrors false c s) i j = cP s i j \/ cP (fixCovarianceErrors false c s) i j = szero.
Proof.
  intros Ne. apply Nat.eqb_neq in Ne. unfold fixCovarianceErrors. cbn [cP setP].
  assert (CD : forall f w lo hi (M : Mat T), clampDiag f w lo hi M i j = M i j) by (intros; unfold clampDiag; rewrite Ne; reflexivity).
  assert (US : forall w f v (M : Mat T), uncorrelateSet w f v M i j = M i j \/ uncorrelateSet w f v M i j = szero).
  { intros. unfold uncorrelateSet. rewrite Ne. destruct (_ || _); auto. }
  assert (K : fixKin false (cP s) i j = cP s i j) by (unfold fixKin; cbv zeta; rewrite !CD; reflexivity).
  assert (A : cP (fixAccel false c (setP (fixKin false (cP s)) s)) i j = cP s i j \/ cP (fixAccel false c (setP (fixKin false (cP s)) s)) i j = szero).
  { rewrite fixAccel_P. cbn [cP setP c_inhibit]. destruct (_ && _ && _); [left; exact K|]. destruct (accMax _ _) as [mx rr]. cbv zeta.
    assert (AC : forall inh lo hi (M : Mat T), accClamp inh lo hi M i j = M i j) by (intros; unfold accClamp; rewrite Ne; reflexivity).
    unfold uncorrelate. destruct (_ <? _)%Z; [|destruct rr].
    - match goal with |- context [uncorrelateSet 3 13 ?v ?M i j] => destruct (US 3 13 v M) as [->| ->] end; [|auto]. destruct rr; [|rewrite AC, K; auto].
      match goal with |- context [uncorrelateSet 3 13 ?v ?M i j] => destruct (US 3 13 v M) as [->| ->] end; [|auto]. rewrite AC, K. auto.
    - match goal with |- context [uncorrelateSet 3 13 ?v ?M i j] => destruct (US 3 13 v M) as [->| ->] end; [|auto]. rewrite AC, K. auto.
    - rewrite AC, K. auto. }
  revert A. generalize (cP (fixAccel false c (setP (fixKin false (cP s)) s))). intros M A.
  assert (B : fixMag false c M i j = cP s i j \/ fixMag false c M i j = szero).
  { unfold fixMag. destruct (f_mag_3D c); cbn [negb]; cbv zeta; [rewrite !CD; exact A|]. unfold zeroMagCov.
    match goal with |- context [uncorrelateSet 3 19 ?v ?M i j] => destruct (US 3 19 v M) as [->| ->] end; [|auto].
    match goal with |- context [uncorrelateSet 3 16 ?v ?M i j] => destruct (US 3 16 v M) as [->| ->] end; auto. }
  revert B. generalize (fixMag false c M). clear -Ne. intros M B. unfold fixWind. destruct (f_wind c); cbn [negb]; cbv zeta.
  - unfold clampDiag. destruct ((i =? j) && inb 22 2 i) eqn:E; [|exact B]. apply andb_true_iff in E. destruct E. congruence.
  - match goal with |- context [uncorrelateSet 2 22 ?v ?M i j] => idtac end. unfold uncorrelateSet. destruct (_ || _); [|exact B].
    destruct (i =? j) eqn:E; [|auto]. auto.
Qed.

(** ** an inhibited axis after one prediction *)
Lemma inhibited_variance (c : covctx T) (s : covst T) k : k < 3 -> inhibit_axis c (filtStep c s) k = true ->
  cP (predictCovariance c s) (13 + k) (13 + k) = (if c_inhibit s k then c_prev_var s k else cP s (13 + k) (13 + k)) /\
  c_prev_var (predictCovariance c s) k = (if c_inhibit s k then c_prev_var s k else cP s (13 + k) (13 + k)) /\
  c_inhibit (predictCovariance c s) k = true.
Proof.
  intros Hk HI. destruct (predInhibit_k c s k Hk) as (A & B & C). rewrite HI in A, B, C. cbn [negb andb] in *.
  assert (BB : c_prev_var (predInhibit c s) k = if c_inhibit s k then c_prev_var s k else cP s (13 + k) (13 + k)) by (rewrite B; destruct (c_inhibit s k); reflexivity).
  destruct (predict_frame c s) as [F1 F2]. rewrite F1, F2, A, BB. split; [|auto].
  rewrite predict_P. cbv zeta. rewrite fix_acc_g by exact Hk. cbn [c_inhibit cP setP]. rewrite A. unfold copyUpper. rewrite Nat.ltb_irrefl, buildNext_upper by lia.
  unfold nextU. cbv zeta. rewrite <- BB.
  replace (inb 7 2 (13 + k)) with false by (symmetry; apply Bool.not_true_iff_false; rewrite inb_iff; lia). cbn [orb]. rewrite andb_false_r.
  replace (13 + k <? 10) with false by (symmetry; apply Nat.ltb_ge; lia). replace (13 + k <? 13) with false by (symmetry; apply Nat.ltb_ge; lia).
  replace (13 + k <? 16) with true by (symmetry; apply Nat.ltb_lt; lia). replace (13 + k - 13) with k by lia. rewrite A, Nat.eqb_refl. reflexivity.
Qed.
(** decorrelated from every state with a smaller index (unless horizontal position growth is stopped) *)
Lemma inhibited_decorrelated (c : covctx T) (s : covst T) k i : k < 3 -> inhibit_axis c (filtStep c s) k = true -> i < 13 + k ->
  (i <> 7 /\ i <> 8) \/ sgt (sadd (cP (predInhibit c s) 7 7) (cP (predInhibit c s) 8 8)) (slit 10000 1) = false ->
  cP (predictCovariance c s) i (13 + k) = szero /\ cP (predictCovariance c s) (13 + k) i = szero.
Proof.
  intros Hk HI Hi Hc. rewrite (predict_sym c s (13 + k) i) by lia.
  enough (E : cP (predictCovariance c s) i (13 + k) = szero) by (split; exact E).
  destruct (predInhibit_k c s k Hk) as (A & _ & _). rewrite HI in A.
  rewrite predict_P. cbv zeta. set (s2 := setP _ _).
  assert (V : cP s2 i (13 + k) = szero).
  { unfold s2. cbn [cP setP]. unfold copyUpper. replace (13 + k <? i) with false by (symmetry; apply Nat.ltb_ge; lia). rewrite buildNext_upper by lia.
    unfold nextU. cbv zeta.
    replace (sgt _ _ && _) with false.
    2:{ symmetry. apply andb_false_iff. destruct Hc as [[H1 H2]|Hc]; [right|left; exact Hc]. apply orb_false_iff. split; apply Bool.not_true_iff_false; rewrite inb_iff; lia. }
    replace (13 + k <? 10) with false by (symmetry; apply Nat.ltb_ge; lia). replace (13 + k <? 13) with false by (symmetry; apply Nat.ltb_ge; lia).
    replace (13 + k <? 16) with true by (symmetry; apply Nat.ltb_lt; lia). replace (13 + k - 13) with k by lia. rewrite A.
    replace (i =? 13 + k) with false by (symmetry; apply Nat.eqb_neq; lia). reflexivity. }
  destruct (fix_off_g c s2 i (13 + k) ltac:(lia)) as [->| ->]; [exact V|reflexivity].
Qed.

(** any history of predictions that all inhibit axis k, with arbitrary changes of the matrix in between *)
Fixpoint inh_run (l : list (covctx T * (Mat T -> Mat T))) (s : covst T) : covst T :=
  match l with [] => s | (c, f) :: r => inh_run r (predictCovariance c (setP (f (cP s)) s)) end.
Fixpoint inh_all_run (k : nat) (l : list (covctx T * (Mat T -> Mat T))) (s : covst T) : Prop :=
  match l with [] => True | (c, f) :: r =>
    inhibit_axis c (filtStep c (setP (f (cP s)) s)) k = true /\ inh_all_run k r (predictCovariance c (setP (f (cP s)) s)) end.
Lemma inhibited_run k l : k < 3 -> forall c s, inhibit_axis c (filtStep c s) k = true -> c_inhibit s k = false ->
  inh_all_run k l (predictCovariance c s) -> cP (inh_run l (predictCovariance c s)) (13 + k) (13 + k) = cP s (13 + k) (13 + k) /\
  c_prev_var (inh_run l (predictCovariance c s)) k = cP s (13 + k) (13 + k) /\ c_inhibit (inh_run l (predictCovariance c s)) k = true.
Proof.
  intros Hk c s HI Hs. destruct (inhibited_variance c s k Hk HI) as (A & B & C). rewrite Hs in A, B.
  revert A B C. generalize (cP s (13 + k) (13 + k)) as v. generalize (predictCovariance c s). clear c s HI Hs.
  induction l as [|[c f] l IH]; intros s v A B C H; [auto|]. cbn [inh_run inh_all_run] in *. destruct H as [H1 H2].
  destruct (inhibited_variance c (setP (f (cP s)) s) k Hk H1) as (A' & B' & C'). cbn [c_inhibit c_prev_var setP] in A', B'. rewrite C in A', B'.
  apply IH; [congruence|congruence|exact C'|exact H2].
Qed.
(** when the inhibition ends, the prediction starts from the saved variance *)
Lemma released_variance (c : covctx T) (s : covst T) k : k < 3 -> inhibit_axis c (filtStep c s) k = false -> c_inhibit s k = true ->
  cP (predInhibit c s) (13 + k) (13 + k) = c_prev_var s k.
Proof. intros Hk HI Hs. destruct (predInhibit_k c s k Hk) as (_ & _ & C). rewrite HI, Hs in C. exact C. Qed.
End G.

(** ** limits in binary32 *)
Definition f32_lo (i : nat) : R := (if (4 <=? i) && (i <? 10) then R32 (flit 1 1000000) else 0)%R.
Definition f32_hi (i : nat) : R := (if ((4 <=? i) && (i <? 10)) || (22 <=? i) then 1000000 else 1)%R.
Lemma flit0 : R32 (flit 0 1) = 0%R /\ is_finite (flit 0 1) = true.
Proof. destruct (flit_R 0 1 ltac:(lia) ltac:(lia)) as [A B]. split; [|exact B]. rewrite A. replace (IZR 0 / IZR 1)%R with 0%R by (cbn; field). apply rnd32_0. Qed.
Lemma flit_int n : (0 < n <= 2 ^ 24)%Z -> R32 (flit n 1) = IZR n /\ is_finite (flit n 1) = true.
Proof. intros H. destruct (flit_R n 1 ltac:(lia) ltac:(lia)) as [A B]. split; [|exact B]. rewrite A. replace (IZR n / IZR 1)%R with (IZR n) by (cbn; field). apply rnd32_Z. lia. Qed.
Lemma micro : (0 < R32 (flit 1 1000000) <= 1)%R /\ is_finite (flit 1 1000000) = true.
Proof.
  destruct (flit_R 1 1000000 ltac:(lia) ltac:(lia)) as [A B]. split; [|exact B]. rewrite A. split.
  - destruct (rnd32_bounds (1 / 1000000)%R ltac:(lra)) as [L U]. eapply Rlt_le_trans; [|exact L]. pose proof small150. pose proof two24. lra.
  - apply (rnd32_le_Z _ 1); [lia|]. cbn. lra.
Qed.
Lemma fix_limits_f32 f (c : covctx f32) (s : covst f32) i : i < 24 -> ~ 13 <= i < 16 -> is_nan (cP s i i) = false ->
  is_finite (cP (fixCovarianceErrors f c s) i i) = true /\
  (if gest c i then f32_lo i <= R32 (cP (fixCovarianceErrors f c s) i i) <= f32_hi i else R32 (cP (fixCovarianceErrors f c s) i i) = 0)%R.
Proof.
  intros Hi Ni Nn. rewrite fix_diag_g by assumption. destruct flit0 as [Z0 Z1]. destruct (flit_int 1 ltac:(lia)) as [O0 O1].
  destruct (flit_int 1000000 ltac:(lia)) as [M0 M1]. destruct micro as [[u0 u1] u2].
  destruct (gest c i); [|split; [exact Z1|exact Z0]].
  change (sconstrain (cP s i i) (glo i) (ghi i)) with (math_constrain (cP s i i) (glo i) (ghi i)).
  assert (L : R32 (glo i) = f32_lo i /\ is_finite (glo i) = true).
  { unfold glo, f32_lo, szero. destruct (_ && _); [split; [reflexivity|exact u2]|split; [exact Z0|exact Z1]]. }
  assert (H : R32 (ghi i) = f32_hi i /\ is_finite (ghi i) = true).
  { unfold ghi, f32_hi. destruct (_ || _); cbn [slit FScalar]; [split; assumption|split; assumption]. }
  destruct L as [L1 L2], H as [H1 H2].
  assert (LH : (R32 (glo i) <= R32 (ghi i))%R); [rewrite L1, H1|destruct (constrain_bounds (cP s i i) (glo i) (ghi i) Nn L2 H2 LH) as [B1 B2]; rewrite <- L1, <- H1; split; assumption].
  unfold f32_lo, f32_hi. destruct (_ && _); cbn [orb]; [lra|destruct (22 <=? i)%nat; lra].
Qed.
Lemma fix_nan_survives f (c : covctx f32) (s : covst f32) i : i < 24 -> ~ 13 <= i < 16 -> gest c i = true -> cP s i i = fnan ->
  cP (fixCovarianceErrors f c s) i i = fnan.
Proof.
  intros Hi Ni G H. rewrite fix_diag_g by assumption. rewrite G, H. unfold sconstrain. cbn [slt FScalar]. rewrite flt_nan_l, flt_nan_r. reflexivity.
Qed.

(** * The gyro bias variances through the covariance prediction (covariance.cpp l.593-598, l.840-857) *)
From Coq Require Import Reals Lra Lia ZArith List.
From Flocq Require Import Core BinarySingleNaN.
From Verif Require Import CBase Scalar CovSpec CovModel CovProofs CovProofsG F32 F32More KahanProofs.
Import ListNotations.
Open Scope nat_scope.

Section G.
Context {T : Type} {S : Scalar T}.
Lemma col_bias (c : covctx T) (M : Mat T) k : k < 3 -> nth (10 + k) (col c M (10 + k)) szero = M (10 + k) (10 + k).
Proof. intros H. destruct k as [|[|[|k]]]; [..|lia]; reflexivity. Qed.

(** entry and correction of one gyro bias axis after one prediction *)
Lemma predict_gyro (c : covctx T) (s : covst T) k : k < 3 ->
  let r := kahan (cP (predInhibit c s) (10 + k) (10 + k)) (sq (d_ang_bias_sig c)) (c_acc_ang (predInhibit c s) k) in
  cP (predictCovariance c s) (10 + k) (10 + k) = sconstrain (fst r) szero (slit 1 1) /\
  c_acc_ang (predictCovariance c s) k = snd r.
Proof.
  intros Hk. cbv zeta. unfold predictCovariance. set (s1 := predInhibit c s). cbv zeta.
  assert (PN : process_noise c (cP s1) (hrate_next c s1) (10 + k) = sq (d_ang_bias_sig c)).
  { unfold process_noise. destruct k as [|[|[|k]]]; [reflexivity..|lia]. }
  set (pn := process_noise c (cP s1) (hrate_next c s1)) in *.
  assert (A : snd (fst (buildNext c s1 pn)) k = snd (kahan (cP s1 (10 + k) (10 + k)) (pn (10 + k)) (c_acc_ang s1 k))).
  { unfold buildNext. cbv zeta. set (b0 := (wcols c (cP s1) 0 13 (fun _ _ => szero), c_acc_ang s1, c_acc_vel s1) : bld).
    assert (AX : forall k b, snd (fst (accelAxis c (cP s1) (c_inhibit s1) (c_prev_var s1) pn k b)) = snd (fst b)).
    { intros m [[N a] v]. unfold accelAxis, kahan. destruct (c_inhibit s1 m); reflexivity. }
    set (b1 := kahanAng pn 2 (kahanAng pn 1 (kahanAng pn 0 b0))).
    transitivity (snd (fst (accelAxis c (cP s1) (c_inhibit s1) (c_prev_var s1) pn 2 (accelAxis c (cP s1) (c_inhibit s1) (c_prev_var s1) pn 1 (accelAxis c (cP s1) (c_inhibit s1) (c_prev_var s1) pn 0 b1)))) k).
    { destruct (accelAxis _ _ _ _ _ 2 _) as [[N a] v]. reflexivity. }
    rewrite !AX. rewrite <- (col_bias c (cP s1) k Hk). unfold b1.
    destruct k as [|[|[|k]]]; [reflexivity..|lia]. }
  assert (U : fst (fst (buildNext c s1 pn)) (10 + k) (10 + k) = fst (kahan (cP s1 (10 + k) (10 + k)) (pn (10 + k)) (c_acc_ang s1 k))).
  { rewrite buildNext_upper by lia. unfold nextU. cbv zeta.
    assert (I : inb 7 2 (10 + k) = false) by (apply Bool.not_true_iff_false; rewrite inb_iff; lia). rewrite I. cbn [orb]. rewrite andb_false_r.
    destruct (Nat.ltb_spec (10 + k) 10); [lia|]. destruct (Nat.ltb_spec (10 + k) 13); [|lia]. rewrite Nat.eqb_refl.
    rewrite col_bias by exact Hk. unfold gnoise, kahan. cbv zeta. cbn [fst].
    assert (J : inb 10 3 (10 + k) = true) by (apply inb_iff; lia). rewrite J. replace (10 + k - 10) with k by lia. reflexivity. }
  rewrite PN in A, U. destruct (buildNext c s1 pn) as [[N aa] av]. cbn [fst snd] in A, U.
  split.
  - rewrite fix_diag_g by lia. cbn [cP]. unfold gest, glo, ghi.
    replace (10 + k <? 16) with true by (symmetry; apply Nat.ltb_lt; lia). cbn [orb].
    replace (10 + k <? 10) with false by (symmetry; apply Nat.ltb_ge; lia). rewrite andb_false_r. cbn [orb].
    replace (22 <=? 10 + k) with false by (symmetry; apply Nat.leb_gt; lia).
    unfold copyUpper. rewrite Nat.ltb_irrefl, U. reflexivity.
  - unfold fixCovarianceErrors. cbn [setP c_acc_ang].
    assert (FA : forall f (q : covst T), c_acc_ang (fixAccel f c q) = c_acc_ang q).
    { intros f q. unfold fixAccel. destruct (_ && _ && _); [reflexivity|]. destruct (accMax _ _). reflexivity. }
    rewrite FA. cbn [setP c_acc_ang]. exact A.
Qed.
(** the inhibit logic touches neither the gyro bias variances nor their corrections *)
Lemma predInhibit_gyro (c : covctx T) (s : covst T) k : k < 3 ->
  cP (predInhibit c s) (10 + k) (10 + k) = cP s (10 + k) (10 + k) /\ c_acc_ang (predInhibit c s) = c_acc_ang s.
Proof.
  intros Hk. unfold predInhibit.
  assert (ST : forall m (q : covst T), cP (inhibitStep c m q) (10 + k) (10 + k) = cP q (10 + k) (10 + k) /\ c_acc_ang (inhibitStep c m q) = c_acc_ang q).
  { intros m q. unfold inhibitStep. cbv zeta. destruct (inhibit_axis c q m); [destruct (c_inhibit q m); split; reflexivity|].
    destruct (c_inhibit q m); [|split; reflexivity]. cbn [cP c_acc_ang]. split; [|reflexivity]. unfold mset.
    replace (10 + k =? 13 + m) with false by (symmetry; apply Nat.eqb_neq; lia). reflexivity. }
  destruct (ST 2 (inhibitStep c 1 (inhibitStep c 0 (filtStep c s)))) as (A1 & B1). destruct (ST 1 (inhibitStep c 0 (filtStep c s))) as (A2 & B2).
  destruct (ST 0 (filtStep c s)) as (A3 & B3). rewrite A1, A2, A3, B1, B2, B3. split; reflexivity.
Qed.
End G.

Open Scope R_scope.
Lemma one_f32 : is_finite (flit 1 1) = true /\ R32 (flit 1 1) = 1.
Proof. destruct (flit_R 1 1 ltac:(lia) ltac:(lia)) as (E & F). split; [exact F|]. rewrite E. replace (1 / 1) with 1 by lra. exact (round_generic radix2 _ _ 1 (generic_format_FLT_1 radix2 (-149) 24 ltac:(lia))). Qed.

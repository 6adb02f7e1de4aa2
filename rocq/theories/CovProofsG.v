(** * Diagonal of the covariance after repair, for every scalar type *)
From Verif Require Import CBase Scalar CovSpec CovModel CovProofs.
Open Scope nat_scope.

Section G.
Context {T : Type} {S : Scalar T}.

Definition glo (i : nat) : T := if (4 <=? i) && (i <? 10) then slit 1 1000000 else szero.
Definition ghi (i : nat) : T := if ((4 <=? i) && (i <? 10)) || (22 <=? i) then slit 1000000 1 else slit 1 1.
Definition gest (c : covctx T) (i : nat) : bool := (i <? 16) || ((i <? 22) && f_mag_3D c) || ((22 <=? i) && f_wind c).

Lemma fix_diag_g f (c : covctx T) (s : covst T) i : i < 24 -> ~ (13 <= i < 16) ->
  cP (fixCovarianceErrors f c s) i i = if gest c i then sconstrain (cP s i i) (glo i) (ghi i) else szero.
Proof.
  intros Hi Ni. unfold fixCovarianceErrors. cbn [cP setP].
  assert (CD1 : forall f w lo hi (M : Mat T), inb f w i = true -> clampDiag f w lo hi M i i = sconstrain (M i i) lo hi).
  { intros g w lo hi M A. unfold clampDiag. rewrite Nat.eqb_refl, A. reflexivity. }
  assert (CD0 : forall f w lo hi (M : Mat T), inb f w i = false -> clampDiag f w lo hi M i i = M i i).
  { intros g w lo hi M A. unfold clampDiag. rewrite A, andb_false_r. reflexivity. }
  assert (US : forall w f v (M : Mat T), inb f w i = false -> uncorrelateSet w f v M i i = M i i).
  { intros w g v M A. unfold uncorrelateSet. rewrite A. reflexivity. }
  assert (US1 : forall w f (M : Mat T), inb f w i = true -> uncorrelateSet w f (fun _ => szero) M i i = szero).
  { intros w g M A. unfold uncorrelateSet. rewrite A, Nat.eqb_refl. reflexivity. }
  assert (MRC : forall w f0 (M : Mat T), makeRowColSymmetric w f0 M i i = M i i).
  { intros w f0 M. unfold makeRowColSymmetric. rewrite Nat.eqb_refl. reflexivity. }
  assert (FA : forall s0, cP (fixAccel f c s0) i i = cP s0 i i).
  { intros s0. rewrite fixAccel_P. destruct (_ && _ && _); [reflexivity|]. destruct (accMax _ _) as [mx rr]. cbv zeta.
    assert (I1 : inb 13 3 i = false) by (apply Bool.not_true_iff_false; rewrite inb_iff; lia).
    assert (AC : forall inh lo hi (M : Mat T), accClamp inh lo hi M i i = M i i).
    { intros. unfold accClamp. rewrite I1, andb_false_r. reflexivity. }
    unfold uncorrelate. destruct (_ <? _)%Z; [rewrite US by assumption|destruct f; [rewrite MRC|]]; destruct rr; rewrite ?US by assumption; rewrite AC; reflexivity. }
  assert (MG : forall M : Mat T, i < 16 \/ 22 <= i -> fixMag f c M i i = M i i).
  { intros M H. unfold fixMag. destruct (f_mag_3D c); cbn [negb]; cbv zeta; [destruct f; rewrite ?MRC, !CD0|unfold zeroMagCov; rewrite !US]; try reflexivity;
      apply Bool.not_true_iff_false; rewrite inb_iff; lia. }
  assert (WD : forall M : Mat T, i < 22 -> fixWind f c M i i = M i i).
  { intros M H. unfold fixWind. destruct (f_wind c); cbn [negb]; cbv zeta; [destruct f; rewrite ?MRC, CD0|rewrite US]; try reflexivity;
      apply Bool.not_true_iff_false; rewrite inb_iff; lia. }
  assert (KI : 13 <= i -> fixKin f (cP s) i i = cP s i i).
  { intros H. unfold fixKin. cbv zeta. destruct f; rewrite ?MRC, !CD0; try reflexivity; apply Bool.not_true_iff_false; rewrite inb_iff; lia. }
  unfold gest, glo, ghi.
  destruct (lt_dec i 16) as [L|L]; [|destruct (lt_dec i 22) as [L2|L2]].
  - replace (i <? 16) with true by (symmetry; apply Nat.ltb_lt; lia). cbn [orb].
    rewrite WD, MG, FA by lia. cbn [cP setP]. unfold fixKin. cbv zeta.
    assert (i < 13) by lia.
    match goal with |- context[if f then makeRowColSymmetric 13 0 ?M else ?M] => replace ((if f then makeRowColSymmetric 13 0 M else M) i i) with (M i i) by (destruct f; [rewrite MRC|]; reflexivity) end.
    destruct (lt_dec i 4); [|destruct (lt_dec i 7); [|destruct (lt_dec i 10)]].
    all: repeat match goal with |- context [?a <=? ?b] => destruct (Nat.leb_spec a b); try lia
           | |- context [?a <? ?b] => destruct (Nat.ltb_spec a b); try lia end.
    all: cbn [andb orb].
    + rewrite (CD0 10), (CD0 7), (CD0 4) by (apply Bool.not_true_iff_false; rewrite inb_iff; lia). apply CD1. apply inb_iff. lia.
    + rewrite (CD0 10), (CD0 7) by (apply Bool.not_true_iff_false; rewrite inb_iff; lia). rewrite (CD1 4) by (apply inb_iff; lia).
      rewrite (CD0 0) by (apply Bool.not_true_iff_false; rewrite inb_iff; lia). reflexivity.
    + rewrite (CD0 10) by (apply Bool.not_true_iff_false; rewrite inb_iff; lia). rewrite (CD1 7) by (apply inb_iff; lia).
      rewrite (CD0 4), (CD0 0) by (apply Bool.not_true_iff_false; rewrite inb_iff; lia). reflexivity.
    + rewrite (CD1 10) by (apply inb_iff; lia). rewrite (CD0 7), (CD0 4), (CD0 0) by (apply Bool.not_true_iff_false; rewrite inb_iff; lia). reflexivity.
  - rewrite WD by lia.
    destruct (Nat.ltb_spec i 16); [lia|]. destruct (Nat.ltb_spec i 22); [|lia]. destruct (Nat.ltb_spec i 10); [lia|]. destruct (Nat.leb_spec 22 i); [lia|].
    rewrite ?andb_false_r. cbn [orb andb]. rewrite ?orb_false_r.
    unfold fixMag. destruct (f_mag_3D c); cbn [negb]; cbv zeta.
    + match goal with |- context[if f then ?A else ?B] => replace ((if f then A else B) i i) with (B i i) by (destruct f; [rewrite !MRC|]; reflexivity) end.
      destruct (lt_dec i 19).
      * rewrite CD0 by (apply Bool.not_true_iff_false; rewrite inb_iff; lia). rewrite CD1 by (apply inb_iff; lia).
        rewrite FA. cbn [cP setP]. rewrite KI by lia. reflexivity.
      * rewrite CD1 by (apply inb_iff; lia). rewrite CD0 by (apply Bool.not_true_iff_false; rewrite inb_iff; lia).
        rewrite FA. cbn [cP setP]. rewrite KI by lia. reflexivity.
    + unfold zeroMagCov. destruct (lt_dec i 19).
      * rewrite US by (apply Bool.not_true_iff_false; rewrite inb_iff; lia). apply US1, inb_iff. lia.
      * apply US1, inb_iff. lia.
  - destruct (Nat.ltb_spec i 16); [lia|]. destruct (Nat.ltb_spec i 22); [lia|]. destruct (Nat.ltb_spec i 10); [lia|]. destruct (Nat.leb_spec 22 i); [|lia].
    rewrite ?andb_false_r. cbn [orb andb].
    unfold fixWind. destruct (f_wind c); cbn [negb]; cbv zeta.
    + match goal with |- context[if f then ?A else ?B] => replace ((if f then A else B) i i) with (B i i) by (destruct f; [rewrite !MRC|]; reflexivity) end.
      rewrite CD1 by (apply inb_iff; lia). rewrite MG by lia. rewrite FA. cbn [cP setP]. rewrite KI by lia. reflexivity.
    + apply US1, inb_iff. lia.
Qed.

Lemma fixKin_acc_g f (M : Mat T) k : k < 3 -> fixKin f M (13 + k) (13 + k) = M (13 + k) (13 + k).
Proof.
  intros H. unfold fixKin. cbv zeta.
  assert (CD0 : forall f w lo hi (M : Mat T), f + w <= 13 -> clampDiag f w lo hi M (13 + k) (13 + k) = M (13 + k) (13 + k)).
  { intros f0 w lo hi M0 H0. unfold clampDiag. replace (inb f0 w (13 + k)) with false; [rewrite andb_false_r; reflexivity|]. symmetry. apply Bool.not_true_iff_false. rewrite inb_iff. lia. }
  destruct f; [unfold makeRowColSymmetric; rewrite Nat.eqb_refl|]; rewrite !CD0 by lia; reflexivity.
Qed.
Lemma accMax_ext_g inh (M N : Mat T) : (forall k, k < 3 -> M (13 + k) (13 + k) = N (13 + k) (13 + k)) -> accMax inh M = accMax inh N.
Proof. intros H. unfold accMax, accMaxStep. rewrite <- !H by lia. reflexivity. Qed.
Lemma fix_acc_g f (c : covctx T) (s : covst T) k : k < 3 ->
  cP (fixCovarianceErrors f c s) (13 + k) (13 + k) =
  if c_inhibit s k then cP s (13 + k) (13 + k)
  else sconstrain (cP s (13 + k) (13 + k)) (accLo (fst (accMax (c_inhibit s) (cP s)))) (accHi c).
Proof.
  intros Hk. unfold fixCovarianceErrors. cbn [cP setP].
  set (s1 := setP (fixKin f (cP s)) s).
  assert (MRC : forall w f0 (M : Mat T), makeRowColSymmetric w f0 M (13 + k) (13 + k) = M (13 + k) (13 + k)).
  { intros w f0 M. unfold makeRowColSymmetric. rewrite Nat.eqb_refl. reflexivity. }
  assert (CD : forall f w lo hi (M : Mat T), 16 <= f -> clampDiag f w lo hi M (13 + k) (13 + k) = M (13 + k) (13 + k)).
  { intros f0 w lo hi M H. unfold clampDiag. replace (inb f0 w (13 + k)) with false; [rewrite andb_false_r; reflexivity|]. symmetry. apply Bool.not_true_iff_false. rewrite inb_iff. lia. }
  assert (US : forall f w v (M : Mat T), 16 <= f -> uncorrelateSet w f v M (13 + k) (13 + k) = M (13 + k) (13 + k)).
  { intros f0 w v M H. unfold uncorrelateSet. replace (inb f0 w (13 + k)) with false; [reflexivity|]. symmetry. apply Bool.not_true_iff_false. rewrite inb_iff. lia. }
  assert (W : forall M : Mat T, fixWind f c (fixMag f c M) (13 + k) (13 + k) = M (13 + k) (13 + k)).
  { intros M. unfold fixWind, fixMag, zeroMagCov. destruct (f_wind c), (f_mag_3D c), f; cbn [negb]; cbv zeta; rewrite ?MRC, ?CD, ?US, ?MRC, ?CD, ?US by lia; reflexivity. }
  rewrite W, fixAccel_P. change (c_inhibit s1) with (c_inhibit s).
  rewrite (accMax_ext_g (c_inhibit s) (cP s1) (cP s)) by (intros k0 Hk0; unfold s1; cbn [cP setP]; apply fixKin_acc_g; exact Hk0).
  assert (K : cP s1 (13 + k) (13 + k) = cP s (13 + k) (13 + k)) by (unfold s1; cbn [cP setP]; apply fixKin_acc_g; exact Hk).
  destruct (_ && _ && _) eqn:EI.
  - replace (c_inhibit s k) with true; [exact K|]. apply andb_true_iff in EI. destruct EI as [EI E2]. apply andb_true_iff in EI. destruct EI as [E0 E1].
    do 3 (destruct k as [|k]; [congruence|]). lia.
  - destruct (accMax _ _) as [mx rr]. cbv zeta. cbn [fst].
    assert (I1 : inb 13 3 (13 + k) = true) by (apply inb_iff; lia).
    assert (UC : forall M : Mat T, uncorrelate 3 13 M (13 + k) (13 + k) = M (13 + k) (13 + k)).
    { intros M. unfold uncorrelate, uncorrelateSet. rewrite I1, Nat.eqb_refl. cbn [orb]. replace (13 + k - 13) with k by lia. reflexivity. }
    assert (A : accClamp (c_inhibit s) (accLo mx) (accHi c) (cP s1) (13 + k) (13 + k) =
      if c_inhibit s k then cP s (13 + k) (13 + k) else sconstrain (cP s (13 + k) (13 + k)) (accLo mx) (accHi c)).
    { unfold accClamp. rewrite Nat.eqb_refl, I1. cbn [andb]. replace (13 + k - 13) with k by lia. rewrite K. destruct (c_inhibit s k); reflexivity. }
    destruct (_ <? _)%Z; [rewrite UC|destruct f; [rewrite MRC|]]; destruct rr; rewrite ?UC; exact A.
Qed.
End G.

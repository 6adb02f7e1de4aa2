(** the covariance prediction over the reals *)
From Coq Require Import Reals Lra Psatz.
From Verif Require Import CBase Scalar RealGeom CovSpec PsdLib CovPredGen CovPredProofs CovPredEntries CovModel CovProofs.
Open Scope R_scope.

(** IMU input vector and IMU noise variances seen by the prediction *)
Definition u_of (c : covctx R) (m : nat) : R := if (m <? 3)%nat then x_da c m else x_dv c (m - 3)%nat.
Definition Q_of (c : covctx R) (m : nat) : R := if (m <? 3)%nat then daVar c else dvVar c (m - 3)%nat.
Definition dtR : R := dt_ekf.
Lemma dtR_val : dtR = 1 / 100. Proof. unfold dtR, dt_ekf. cbn. lra. Qed.

Lemma col_genR c M i j : (i <= j < 24)%nat -> nth i (col c M j) szero = genR dtR (x_st c) (u_of c) (Q_of c) M i j.
Proof. intros _. reflexivity. Qed.

Lemma szeroR : (szero : R) = 0. Proof. unfold szero. cbn. lra. Qed.
Lemma slitR n d : (slit n d : R) = IZR n / IZR d. Proof. reflexivity. Qed.
Lemma sltR_true (a b : R) : slt a b = true <-> a < b.
Proof. cbn. destruct (Rlt_dec a b); split; try congruence; auto; lra. Qed.
Lemma sltR_false (a b : R) : slt a b = false <-> b <= a.
Proof. cbn. destruct (Rlt_dec a b); split; try congruence; auto; lra. Qed.
Lemma sconstrainR (v lo hi : R) : sconstrain v lo hi = if Rlt_dec v lo then lo else if Rlt_dec hi v then hi else v.
Proof. unfold sconstrain. cbn. destruct (Rlt_dec v lo); [reflexivity|]. destruct (Rlt_dec hi v); reflexivity. Qed.

Lemma FPFt_sym F G P Q i j : symmetric24 P -> FPFt_GQGt F G P Q i j = FPFt_GQGt F G P Q j i.
Proof.
  intros H. unfold FPFt_GQGt. f_equal.
  - rewrite rsum_swap. apply rsum_ext. intros k Hk. apply rsum_ext. intros l Hl. rewrite (H l k) by assumption. ring.
  - apply rsum_ext. intros m _. ring.
Qed.

Lemma predInhibit_sym (c : covctx R) (s : covst R) : symmetric24 (cP s) -> symmetric24 (cP (predInhibit c s)).
Proof.
  intros H.
  assert (A : forall k s, symmetric24 (cP s) -> symmetric24 (cP (inhibitStep c k s))).
  { intros k s0 H0. unfold inhibitStep. cbv zeta. destruct (inhibit_axis c s0 k), (c_inhibit s0 k); cbn [negb cP]; try exact H0.
    intros i j Hi Hj. unfold mset. rewrite (andb_comm (j =? _)%nat). destruct (_ && _); [reflexivity|apply H0; assumption]. }
  unfold predInhibit. apply A, A, A. exact H.
Qed.

(** state i is estimated: field states only with 3-axis fusion, wind states only when wind is estimated *)
Definition estimated (c : covctx R) (i : nat) : Prop :=
  (i < 16)%nat \/ ((16 <= i < 22)%nat /\ f_mag_3D c = true) \/ ((22 <= i < 24)%nat /\ f_wind c = true).

Lemma fix_offdiag c s i j : i <> j -> estimated c i -> estimated c j ->
  ~ (13 <= i < 16)%nat -> ~ (13 <= j < 16)%nat -> cP (fixCovarianceErrors false c s) i j = cP s i j.
Proof.
  intros Ne Ei Ej Ni Nj. unfold fixCovarianceErrors. cbn [cP setP].
  apply Nat.eqb_neq in Ne.
  assert (CD : forall f w lo hi (M : Mat R), clampDiag f w lo hi M i j = M i j).
  { intros. unfold clampDiag. rewrite Ne. reflexivity. }
  assert (US : forall w f v (M : Mat R), inb f w i = false -> inb f w j = false -> uncorrelateSet w f v M i j = M i j).
  { intros w f v M A B. unfold uncorrelateSet. rewrite A, B. reflexivity. }
  assert (W : forall M : Mat R, fixWind false c M i j = M i j).
  { intros M. unfold fixWind. destruct (f_wind c) eqn:E; cbn [negb]; [apply CD|].
    apply US; apply Bool.not_true_iff_false; rewrite inb_iff; unfold estimated in *; rewrite E in *; intuition (try lia; try congruence). }
  assert (Mg : forall M : Mat R, fixMag false c M i j = M i j).
  { intros M. unfold fixMag. destruct (f_mag_3D c) eqn:E; cbn [negb]; cbv zeta; [rewrite !CD; reflexivity|].
    unfold zeroMagCov. rewrite !US; try reflexivity; apply Bool.not_true_iff_false; rewrite inb_iff; unfold estimated in *; rewrite E in *; intuition (try lia; try congruence). }
  rewrite W, Mg, fixAccel_P. cbn [cP setP c_inhibit].
  assert (I1 : inb 13 3 i = false) by (apply Bool.not_true_iff_false; rewrite inb_iff; lia).
  assert (I2 : inb 13 3 j = false) by (apply Bool.not_true_iff_false; rewrite inb_iff; lia).
  assert (K : fixKin false (cP s) i j = cP s i j) by (unfold fixKin; cbv zeta; rewrite !CD; reflexivity).
  destruct (_ && _ && _); [exact K|]. destruct (accMax _ _) as [mx rr]. cbv zeta.
  assert (AC : forall inh lo hi (M : Mat R), accClamp inh lo hi M i j = M i j).
  { intros. unfold accClamp. rewrite Ne. reflexivity. }
  unfold uncorrelate. destruct (_ <? _)%Z; [rewrite US by assumption|]; destruct rr; rewrite ?US by assumption; rewrite AC; exact K.
Qed.

(** documented limits of the state variances *)
Definition var_lo (i : nat) : R := if (4 <=? i)%nat && (i <? 10)%nat then 1 / 1000000 else 0.
Definition var_hi (i : nat) : R :=
  if ((4 <=? i)%nat && (i <? 10)%nat) || (22 <=? i)%nat then 1000000 else 1.

Lemma fix_diag c s i : estimated c i -> ~ (13 <= i < 16)%nat ->
  cP (fixCovarianceErrors false c s) i i = Rmin (var_hi i) (Rmax (var_lo i) (cP s i i)).
Proof.
  intros Ei Ni. unfold fixCovarianceErrors. cbn [cP setP].
  assert (CD1 : forall f w lo hi (M : Mat R), inb f w i = true -> clampDiag f w lo hi M i i = sconstrain (M i i) lo hi).
  { intros f w lo hi M A. unfold clampDiag. rewrite Nat.eqb_refl, A. reflexivity. }
  assert (CD0 : forall f w lo hi (M : Mat R), inb f w i = false -> clampDiag f w lo hi M i i = M i i).
  { intros f w lo hi M A. unfold clampDiag. rewrite A, andb_false_r. reflexivity. }
  assert (US : forall w f v (M : Mat R), inb f w i = false -> uncorrelateSet w f v M i i = M i i).
  { intros w f v M A. unfold uncorrelateSet. rewrite A. reflexivity. }
  assert (CL : forall (v lo hi : R), lo <= hi -> sconstrain v lo hi = Rmin hi (Rmax lo v)).
  { intros v lo hi H. rewrite sconstrainR. unfold Rmin, Rmax. destruct (Rlt_dec v lo), (Rlt_dec hi v), (Rle_dec lo v);
    repeat match goal with |- context [Rle_dec ?a ?b] => destruct (Rle_dec a b) end; lra. }
  assert (FA : forall s0, cP (fixAccel false c s0) i i = cP s0 i i).
  { intros s0. rewrite fixAccel_P. destruct (_ && _ && _); [reflexivity|]. destruct (accMax _ _) as [mx rr]. cbv zeta.
    assert (I1 : inb 13 3 i = false) by (apply Bool.not_true_iff_false; rewrite inb_iff; lia).
    assert (AC : forall inh lo hi (M : Mat R), accClamp inh lo hi M i i = M i i).
    { intros. unfold accClamp. rewrite I1, andb_false_r. reflexivity. }
    unfold uncorrelate. destruct (_ <? _)%Z; [rewrite US by assumption|]; destruct rr; rewrite ?US by assumption; rewrite AC; reflexivity. }
  assert (MG : forall M : Mat R, (i < 16)%nat \/ (22 <= i)%nat -> fixMag false c M i i = M i i).
  { intros M H. unfold fixMag. destruct (f_mag_3D c); cbn [negb]; cbv zeta; [rewrite !CD0|unfold zeroMagCov; rewrite !US]; try reflexivity;
      apply Bool.not_true_iff_false; rewrite inb_iff; lia. }
  assert (WD : forall M : Mat R, (i < 22)%nat -> fixWind false c M i i = M i i).
  { intros M H. unfold fixWind. destruct (f_wind c); cbn [negb]; cbv zeta; [rewrite CD0|rewrite US]; try reflexivity;
      apply Bool.not_true_iff_false; rewrite inb_iff; lia. }
  assert (KI : (13 <= i)%nat -> fixKin false (cP s) i i = cP s i i).
  { intros H. unfold fixKin. cbv zeta. rewrite !CD0; try reflexivity; apply Bool.not_true_iff_false; rewrite inb_iff; lia. }
  destruct Ei as [L|[[L Em]|[L Ew]]].
  - rewrite WD, MG, FA by lia. cbn [cP setP]. unfold fixKin. cbv zeta.
    assert (i < 13)%nat by lia. clear L Ni.
    assert (G : forall f w lo hi lo' hi' M, inb f w i = true -> lo = lo' -> hi = hi' -> lo' <= hi' ->
       clampDiag f w lo hi M i i = Rmin hi' (Rmax lo' (M i i))).
    { intros f w lo hi lo' hi' M A -> -> Hl. rewrite CD1 by exact A. apply CL. exact Hl. }
    unfold var_lo, var_hi.
    destruct (lt_dec i 4); [|destruct (lt_dec i 7); [|destruct (lt_dec i 10)]].
    all: repeat match goal with |- context [(?a <=? ?b)%nat] => destruct (Nat.leb_spec a b); try lia
           | |- context [(?a <? ?b)%nat] => destruct (Nat.ltb_spec a b); try lia end.
    all: cbn [andb orb].
    + rewrite (CD0 10%nat), (CD0 7%nat), (CD0 4%nat) by (apply Bool.not_true_iff_false; rewrite inb_iff; lia).
      apply G; rewrite ?slitR, ?szeroR; try lra. apply inb_iff. lia.
    + rewrite (CD0 10%nat), (CD0 7%nat) by (apply Bool.not_true_iff_false; rewrite inb_iff; lia).
      rewrite (G 4%nat 3%nat _ _ (1 / 1000000) 1000000); rewrite ?slitR, ?szeroR; try lra; [|apply inb_iff; lia].
      rewrite (CD0 0%nat) by (apply Bool.not_true_iff_false; rewrite inb_iff; lia). reflexivity.
    + rewrite (CD0 10%nat) by (apply Bool.not_true_iff_false; rewrite inb_iff; lia).
      rewrite (G 7%nat 3%nat _ _ (1 / 1000000) 1000000); rewrite ?slitR, ?szeroR; try lra; [|apply inb_iff; lia].
      rewrite (CD0 4%nat), (CD0 0%nat) by (apply Bool.not_true_iff_false; rewrite inb_iff; lia). reflexivity.
    + rewrite (G 10%nat 3%nat _ _ 0 1); rewrite ?slitR, ?szeroR; try lra; [|apply inb_iff; lia].
      rewrite (CD0 7%nat), (CD0 4%nat), (CD0 0%nat) by (apply Bool.not_true_iff_false; rewrite inb_iff; lia). reflexivity.
  - rewrite WD by lia. unfold fixMag. rewrite Em. cbn [negb]. cbv zeta.
    unfold var_lo, var_hi. replace (i <? 10)%nat with false by (symmetry; apply Nat.ltb_ge; lia).
    replace (22 <=? i)%nat with false by (symmetry; apply Nat.leb_gt; lia). rewrite andb_false_r. cbn [orb].
    destruct (lt_dec i 19).
    + rewrite CD0 by (apply Bool.not_true_iff_false; rewrite inb_iff; lia). rewrite CD1 by (apply inb_iff; lia).
      rewrite FA. cbn [cP setP]. rewrite KI by lia. rewrite CL; rewrite ?slitR, ?szeroR; [f_equal; lra|lra].
    + rewrite CD1 by (apply inb_iff; lia). rewrite CD0 by (apply Bool.not_true_iff_false; rewrite inb_iff; lia).
      rewrite FA. cbn [cP setP]. rewrite KI by lia. rewrite CL; rewrite ?slitR, ?szeroR; [f_equal; lra|lra].
  - unfold fixWind. rewrite Ew. cbn [negb]. cbv zeta. rewrite CD1 by (apply inb_iff; lia). rewrite MG by lia. rewrite FA. cbn [cP setP]. rewrite KI by lia.
    unfold var_lo, var_hi. replace (i <? 10)%nat with false by (symmetry; apply Nat.ltb_ge; lia).
    replace (22 <=? i)%nat with true by (symmetry; apply Nat.leb_le; lia). rewrite andb_false_r. cbn [orb].
    rewrite CL; rewrite ?slitR, ?szeroR; [f_equal; lra|lra].
Qed.

(** the accelerometer bias states are decorrelated by the repair *)
Definition accel_reset (c : covctx R) (s : covst R) : bool :=
  negb (c_inhibit s 0 && c_inhibit s 1 && c_inhibit s 2) &&
  (snd (accMax (c_inhibit s) (cP s)) ||
   (add64 (if bad_acc_bias c then c_time_acc_bias s else x_time_last_imu c) 7000000 <? x_time_last_imu c)%Z).
Definition accel_state (i : nat) : bool := inb 13 3 i.

Lemma accMax_ext inh (M N : Mat R) : (forall k, (k < 3)%nat -> M (13 + k)%nat (13 + k)%nat = N (13 + k)%nat (13 + k)%nat) -> accMax inh M = accMax inh N.
Proof.
  intros H. unfold accMax, accMaxStep. rewrite <- !H by lia. reflexivity.
Qed.
Lemma fixKin_acc f (M : Mat R) k : (k < 3)%nat -> fixKin f M (13 + k)%nat (13 + k)%nat = M (13 + k)%nat (13 + k)%nat.
Proof.
  intros H. unfold fixKin. cbv zeta.
  assert (CD0 : forall f w lo hi (M : Mat R), (f + w <= 13)%nat -> clampDiag f w lo hi M (13 + k)%nat (13 + k)%nat = M (13 + k)%nat (13 + k)%nat).
  { intros. unfold clampDiag. replace (inb _ _ _) with false; [rewrite andb_false_r; reflexivity|]. symmetry. apply Bool.not_true_iff_false. rewrite inb_iff. lia. }
  destruct f; [unfold makeRowColSymmetric; rewrite Nat.eqb_refl|]; rewrite !CD0 by lia; reflexivity.
Qed.
Lemma estimated_dec c i : (i < 24)%nat -> {estimated c i} + {~ estimated c i}.
Proof.
  intros H. unfold estimated. destruct (lt_dec i 16); [left; auto|].
  destruct (lt_dec i 22).
  - destruct (f_mag_3D c); [left; right; left; split; [lia|reflexivity]|right; intuition (try lia; try congruence)].
  - destruct (f_wind c); [left; right; right; split; [lia|reflexivity]|right; intuition (try lia; try congruence)].
Qed.
Lemma half0R : @half0 R RScalar.
Proof. unfold half0. rewrite slitR, szeroR. cbn. lra. Qed.
Lemma fix_unest f c s i j : (i < 24)%nat -> (j < 24)%nat -> ~ estimated c i \/ ~ estimated c j -> cP (fixCovarianceErrors f c s) i j = 0.
Proof.
  intros Hi Hj H. rewrite <- szeroR.
  assert (A : forall k, (k < 24)%nat -> ~ estimated c k -> ((16 <= k < 22)%nat /\ f_mag_3D c = false) \/ ((22 <= k < 24)%nat /\ f_wind c = false)).
  { intros k Hk N. unfold estimated in N. destruct (lt_dec k 16); [tauto|].
    destruct (lt_dec k 22); [left|right]; (split; [lia|]).
    - destruct (f_mag_3D c); [exfalso; apply N; right; left; split; [lia|reflexivity]|reflexivity].
    - destruct (f_wind c); [exfalso; apply N; right; right; split; [lia|reflexivity]|reflexivity]. }
  destruct H as [H|H]; apply A in H; try assumption; destruct H as [[L E]|[L E]].
  - apply fix_mag_zero; [intros _; exact half0R|exact E|lia].
  - apply fix_wind_zero; [exact E|lia].
  - apply fix_mag_zero; [intros _; exact half0R|exact E|lia].
  - apply fix_wind_zero; [exact E|lia].
Qed.

(** the repair of a symmetric matrix: off-diagonal elements are kept or zeroed *)
Lemma fix_entry_sym f c s i j : symmetric24 (cP s) -> (i < 24)%nat -> (j < 24)%nat -> i <> j -> estimated c i -> estimated c j ->
  cP (fixCovarianceErrors f c s) i j = if accel_reset c s && (accel_state i || accel_state j) then 0 else cP s i j.
Proof.
  intros HS Hi Hj Ne Ei Ej.
  assert (MRC : forall w f0 (M : Mat R), symmetric24 M -> makeRowColSymmetric w f0 M i j = M i j).
  { intros w f0 M HM. unfold makeRowColSymmetric. apply Nat.eqb_neq in Ne. rewrite Ne.
    rewrite slitR. cbn [sadd sdiv RScalar]. rewrite (HM j i) by assumption. destruct (inb f0 w i), (inb f0 w j), (j <? i)%nat; field. }
  unfold fixCovarianceErrors. cbn [cP setP].
  assert (S1 := sym_fixKin f _ HS). set (s1 := setP (fixKin f (cP s)) s).
  assert (S2 : symmetric24 (cP (fixAccel f c s1))) by (apply sym_fixAccel; exact S1).
  assert (S3 := sym_fixMag f c _ S2).
  pose proof Ne as Ne'. apply Nat.eqb_neq in Ne'.
  assert (CD : forall f w lo hi (M : Mat R), clampDiag f w lo hi M i j = M i j).
  { intros. unfold clampDiag. rewrite Ne'. reflexivity. }
  assert (US : forall w f v (M : Mat R), inb f w i = false -> inb f w j = false -> uncorrelateSet w f v M i j = M i j).
  { intros w f0 v M A B. unfold uncorrelateSet. rewrite A, B. reflexivity. }
  assert (W : fixWind f c (fixMag f c (cP (fixAccel f c s1))) i j = fixMag f c (cP (fixAccel f c s1)) i j).
  { unfold fixWind. destruct (f_wind c) eqn:E; cbn [negb]; cbv zeta.
    - destruct f; [rewrite MRC by (apply sym_clampDiag; exact S3)|]; apply CD.
    - apply US; apply Bool.not_true_iff_false; rewrite inb_iff; unfold estimated in *; rewrite E in *; intuition (try lia; try congruence). }
  assert (Mg : fixMag f c (cP (fixAccel f c s1)) i j = cP (fixAccel f c s1) i j).
  { unfold fixMag. destruct (f_mag_3D c) eqn:E; cbn [negb]; cbv zeta.
    - assert (S4 := sym_clampDiag 19 3 szero (slit 1 1) _ (sym_clampDiag 16 3 szero (slit 1 1) _ S2)).
      destruct f; [rewrite MRC by (apply sym_makeRC; exact S4); rewrite MRC by exact S4|]; rewrite !CD; reflexivity.
    - unfold zeroMagCov. rewrite !US; try reflexivity; apply Bool.not_true_iff_false; rewrite inb_iff; unfold estimated in *; rewrite E in *; intuition (try lia; try congruence). }
  rewrite W, Mg, fixAccel_P. unfold accel_reset, accel_state.
  rewrite (accMax_ext (c_inhibit s) (cP s) (cP s1)) by (intros k Hk; unfold s1; cbn [cP setP]; symmetry; apply fixKin_acc; exact Hk).
  change (c_inhibit s1) with (c_inhibit s). change (c_time_acc_bias s1) with (c_time_acc_bias s).
  assert (K : cP s1 i j = cP s i j).
  { unfold s1. cbn [cP setP]. unfold fixKin. cbv zeta. destruct f; [rewrite MRC|rewrite !CD; reflexivity].
    - rewrite !CD. reflexivity.
    - do 4 apply sym_clampDiag. exact HS. }
  destruct (_ && _ && _); cbn [negb andb]; [exact K|]. destruct (accMax _ _) as [mx rr]. cbv zeta. cbn [snd].
  assert (AC : accClamp (c_inhibit s) (accLo mx) (accHi c) (cP s1) i j = cP s i j).
  { unfold accClamp. rewrite Ne'. exact K. }
  assert (SA : symmetric24 (accClamp (c_inhibit s) (accLo mx) (accHi c) (cP s1))) by (apply sym_accClamp; exact S1).
  set (M1 := accClamp (c_inhibit s) (accLo mx) (accHi c) (cP s1)) in *.
  set (M2 := if rr then uncorrelate 3 13 M1 else M1).
  assert (SM2 : symmetric24 M2) by (unfold M2; destruct rr; [apply sym_uncorrelate|]; exact SA).
  assert (E2 : M2 i j = if rr && (inb 13 3 i || inb 13 3 j) then 0 else cP s i j).
  { unfold M2. destruct rr; cbn [andb]; [|exact AC]. unfold uncorrelate, uncorrelateSet. rewrite Ne'.
    destruct (_ || _); [apply szeroR|exact AC]. }
  destruct (_ <? _)%Z.
  - rewrite orb_true_r. cbn [andb]. unfold uncorrelate at 1. unfold uncorrelateSet. rewrite Ne'.
    destruct (inb 13 3 i || inb 13 3 j) eqn:B; [apply szeroR|]. rewrite E2. rewrite andb_false_r. reflexivity.
  - rewrite orb_false_r. destruct f; [rewrite MRC by exact SM2|]; exact E2.
Qed.

(** the repair keeps or lowers to the limit / raises to the floor a variance *)
Lemma fix_diag_any f c s i : symmetric24 (cP s) -> (i < 24)%nat -> estimated c i -> ~ (13 <= i < 16)%nat ->
  cP (fixCovarianceErrors f c s) i i = Rmin (var_hi i) (Rmax (var_lo i) (cP s i i)).
Proof.
  intros HS Hi Ei Ni. rewrite <- (fix_diag c s i Ei Ni). destruct f; [|reflexivity].
  unfold fixCovarianceErrors. cbn [cP setP].
  assert (MRC : forall w f0 (M : Mat R), makeRowColSymmetric w f0 M i i = M i i).
  { intros w f0 M. unfold makeRowColSymmetric. rewrite Nat.eqb_refl. reflexivity. }
  assert (CDE : forall f w lo hi (M N : Mat R), M i i = N i i -> clampDiag f w lo hi M i i = clampDiag f w lo hi N i i).
  { intros f w lo hi M N E. unfold clampDiag. destruct (_ && _); [f_equal; exact E|exact E]. }
  assert (USE : forall w f v (M N : Mat R), M i i = N i i -> uncorrelateSet w f v M i i = uncorrelateSet w f v N i i).
  { intros w f v M N E. unfold uncorrelateSet. destruct (_ || _); [reflexivity|exact E]. }
  assert (I1 : inb 13 3 i = false) by (apply Bool.not_true_iff_false; rewrite inb_iff; lia).
  assert (FA : forall f s0, cP (fixAccel f c s0) i i = cP s0 i i).
  { intros f s0. rewrite fixAccel_P. destruct (_ && _ && _); [reflexivity|]. destruct (accMax _ _) as [mx rr]. cbv zeta.
    assert (AC : forall inh lo hi (M : Mat R), accClamp inh lo hi M i i = M i i).
    { intros. unfold accClamp. rewrite I1, andb_false_r. reflexivity. }
    assert (US : forall v (M : Mat R), uncorrelateSet 3 13 v M i i = M i i).
    { intros v M. unfold uncorrelateSet. rewrite I1. reflexivity. }
    unfold uncorrelate. destruct (_ <? _)%Z; [|destruct f]; rewrite ?US, ?MRC; destruct rr; rewrite ?US, AC; reflexivity. }
  assert (M0 : forall (M N : Mat R), M i i = N i i -> fixMag true c M i i = fixMag false c N i i).
  { intros M N E. unfold fixMag. destruct (f_mag_3D c); cbn [negb]; cbv zeta; [rewrite !MRC; apply CDE, CDE, E|].
    unfold zeroMagCov. apply USE, USE, E. }
  unfold fixWind. destruct (f_wind c); cbn [negb]; cbv zeta; [rewrite MRC; apply CDE|apply USE]; apply M0; rewrite !FA; cbn [cP setP];
    unfold fixKin; cbv zeta; rewrite MRC; reflexivity.
Qed.
(** accelerometer bias variances *)
Lemma fix_diag_acc f (c : covctx R) (s : covst R) k : (k < 3)%nat ->
  cP (fixCovarianceErrors f c s) (13 + k)%nat (13 + k)%nat =
  if c_inhibit s k then cP s (13 + k)%nat (13 + k)%nat
  else sconstrain (cP s (13 + k)%nat (13 + k)%nat) (accLo (fst (accMax (c_inhibit s) (cP s)))) (accHi c).
Proof.
  intros Hk. unfold fixCovarianceErrors. cbn [cP setP].
  set (s1 := setP (fixKin f (cP s)) s).
  assert (MRC : forall w f0 (M : Mat R), makeRowColSymmetric w f0 M (13 + k)%nat (13 + k)%nat = M (13 + k)%nat (13 + k)%nat).
  { intros w f0 M. unfold makeRowColSymmetric. rewrite Nat.eqb_refl. reflexivity. }
  assert (CD : forall f w lo hi (M : Mat R), (16 <= f)%nat -> clampDiag f w lo hi M (13 + k)%nat (13 + k)%nat = M (13 + k)%nat (13 + k)%nat).
  { intros f0 w lo hi M H. unfold clampDiag. replace (inb f0 w (13 + k)) with false; [rewrite andb_false_r; reflexivity|]. symmetry. apply Bool.not_true_iff_false. rewrite inb_iff. lia. }
  assert (US : forall f w v (M : Mat R), (16 <= f)%nat -> uncorrelateSet w f v M (13 + k)%nat (13 + k)%nat = M (13 + k)%nat (13 + k)%nat).
  { intros f0 w v M H. unfold uncorrelateSet. replace (inb f0 w (13 + k)) with false; [reflexivity|]. symmetry. apply Bool.not_true_iff_false. rewrite inb_iff. lia. }
  assert (W : forall M : Mat R, fixWind f c (fixMag f c M) (13 + k)%nat (13 + k)%nat = M (13 + k)%nat (13 + k)%nat).
  { intros M. unfold fixWind, fixMag, zeroMagCov. destruct (f_wind c), (f_mag_3D c), f; cbn [negb]; cbv zeta; rewrite ?MRC, ?CD, ?US, ?MRC, ?CD, ?US by lia; reflexivity. }
  rewrite W, fixAccel_P. change (c_inhibit s1) with (c_inhibit s).
  rewrite (accMax_ext (c_inhibit s) (cP s1) (cP s)) by (intros k0 Hk0; unfold s1; cbn [cP setP]; apply fixKin_acc; exact Hk0).
  assert (K : cP s1 (13 + k)%nat (13 + k)%nat = cP s (13 + k)%nat (13 + k)%nat) by (unfold s1; cbn [cP setP]; apply fixKin_acc; exact Hk).
  destruct (_ && _ && _) eqn:EI.
  - replace (c_inhibit s k) with true; [exact K|]. apply andb_true_iff in EI. destruct EI as [EI E2]. apply andb_true_iff in EI. destruct EI as [E0 E1].
    do 3 (destruct k as [|k]; [congruence|]). lia.
  - destruct (accMax _ _) as [mx rr]. cbv zeta. cbn [fst].
    assert (I1 : inb 13 3 (13 + k) = true) by (apply inb_iff; lia).
    assert (UC : forall M : Mat R, uncorrelate 3 13 M (13 + k)%nat (13 + k)%nat = M (13 + k)%nat (13 + k)%nat).
    { intros M. unfold uncorrelate, uncorrelateSet. rewrite I1, Nat.eqb_refl. cbn [orb]. replace (13 + k - 13)%nat with k by lia. reflexivity. }
    assert (A : accClamp (c_inhibit s) (accLo mx) (accHi c) (cP s1) (13 + k)%nat (13 + k)%nat =
      if c_inhibit s k then cP s (13 + k)%nat (13 + k)%nat else sconstrain (cP s (13 + k)%nat (13 + k)%nat) (accLo mx) (accHi c)).
    { unfold accClamp. rewrite Nat.eqb_refl, I1. cbn [andb]. replace (13 + k - 13)%nat with k by lia. rewrite K. destruct (c_inhibit s k); reflexivity. }
    destruct (_ <? _)%Z; [rewrite UC|destruct f; [rewrite MRC|]]; destruct rr; rewrite ?UC; exact A.
Qed.

Lemma raise_le v lo hi : v <= hi -> v <= Rmin hi (Rmax lo v).
Proof. intros H. unfold Rmin, Rmax. destruct (Rle_dec lo v), (Rle_dec _ _); lra. Qed.

(** the repair keeps a positive semidefinite matrix so, unless a variance is above its limit *)
Lemma fix_psd f (c : covctx R) (s : covst R) : symmetric24 (cP s) -> psd (cP s) ->
  (forall i, (i < 24)%nat -> ~ (13 <= i < 16)%nat -> estimated c i -> cP s i i <= var_hi i) ->
  (forall k, (k < 3)%nat -> c_inhibit s k = false -> cP s (13 + k)%nat (13 + k)%nat <= accHi c) ->
  psd (cP (fixCovarianceErrors f c s)).
Proof.
  intros HS Hp Hl Ha.
  set (eb := fun i => if (i <? 16)%nat then true else if (i <? 22)%nat then f_mag_3D c else f_wind c).
  assert (EB : forall i, (i < 24)%nat -> eb i = true <-> estimated c i).
  { intros i H. unfold eb, estimated. destruct (Nat.ltb_spec i 16); [intuition lia|]. destruct (Nat.ltb_spec i 22); intuition (try lia). }
  set (m := fun i => eb i && negb (accel_reset c s && accel_state i)).
  apply (psd_raise (fun i j => if m i && m j then cP s i j else 0)).
  - apply psd_mask. exact Hp.
  - intros i j Hi Hj Ne. unfold m.
    destruct (estimated_dec c i Hi) as [Ei|Ei].
    + destruct (estimated_dec c j Hj) as [Ej|Ej].
      * rewrite fix_entry_sym by assumption. rewrite (proj2 (EB i Hi) Ei), (proj2 (EB j Hj) Ej). cbn [andb].
        destruct (accel_reset c s), (accel_state i), (accel_state j); reflexivity.
      * rewrite fix_unest by auto. replace (eb j) with false; [rewrite andb_false_r; reflexivity|].
        symmetry. apply Bool.not_true_iff_false. rewrite EB by exact Hj. exact Ej.
    + rewrite fix_unest by auto. replace (eb i) with false; [reflexivity|].
      symmetry. apply Bool.not_true_iff_false. rewrite EB by exact Hi. exact Ei.
  - intros i Hi. pose proof (psd_diag_nonneg _ i Hp Hi) as Hge.
    destruct (estimated_dec c i Hi) as [Ei|Ei].
    + apply Rle_trans with (cP s i i); [destruct (m i && m i); lra|].
      destruct (le_dec 13 i) as [L|L]; [destruct (lt_dec i 16) as [L2|L2]|].
      * replace i with (13 + (i - 13))%nat by lia. rewrite fix_diag_acc by lia.
        destruct (c_inhibit s (i - 13)) eqn:EI; [lra|].
        specialize (Ha (i - 13)%nat ltac:(lia) EI). rewrite sconstrainR.
        destruct (Rlt_dec _ _); [lra|]. destruct (Rlt_dec _ _); lra.
      * rewrite fix_diag_any by (assumption || lia). apply raise_le. apply Hl; [assumption|lia|assumption].
      * rewrite fix_diag_any by (assumption || lia). apply raise_le. apply Hl; [assumption|lia|assumption].
    + rewrite fix_unest by auto. unfold m. replace (eb i) with false; [cbn; lra|].
      symmetry. apply Bool.not_true_iff_false. rewrite EB by exact Hi. exact Ei.
Qed.

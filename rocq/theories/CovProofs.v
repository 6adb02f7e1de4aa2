(** structural facts, for every scalar *)
From Verif Require Import CBase Scalar CovSpec CovPredGen CovModel.
Open Scope nat_scope.

Section G.
Context {T : Type} {S : Scalar T}.
Implicit Types (M N : Mat T) (c : covctx T) (s : covst T).

Definition sym M : Prop := forall i j, M i j = M j i.

Lemma inb_iff f w i : inb f w i = true <-> f <= i < f + w.
Proof. unfold inb. rewrite andb_true_iff, Nat.leb_le, Nat.ltb_lt. tauto. Qed.

Lemma sym_uncorrelateSet w f v M : symmetric24 M -> symmetric24 (uncorrelateSet w f v M).
Proof.
  intros H i j Hi Hj. unfold uncorrelateSet. rewrite (Nat.eqb_sym j i).
  destruct (inb f w i) eqn:A, (inb f w j) eqn:B; cbn [orb]; try (destruct (Nat.eqb_spec i j) as [->|]; reflexivity).
  apply H; assumption.
Qed.
Lemma sym_uncorrelate w f M : symmetric24 M -> symmetric24 (uncorrelate w f M).
Proof. intros H. apply sym_uncorrelateSet. exact H. Qed.
Lemma sym_clampDiag f w lo hi M : symmetric24 M -> symmetric24 (clampDiag f w lo hi M).
Proof.
  intros H i j Hi Hj. unfold clampDiag. rewrite (Nat.eqb_sym j i).
  destruct (Nat.eqb_spec i j) as [->|]; cbn [andb]; [reflexivity|apply H; assumption].
Qed.
Lemma sym_accClamp inh lo hi M : symmetric24 M -> symmetric24 (accClamp inh lo hi M).
Proof.
  intros H i j Hi Hj. unfold accClamp. rewrite (Nat.eqb_sym j i).
  destruct (Nat.eqb_spec i j) as [->|]; cbn [andb]; [reflexivity|apply H; assumption].
Qed.
Lemma makeRC_sym_at w f M i j : inb f w i = true \/ inb f w j = true \/ M i j = M j i ->
  makeRowColSymmetric w f M i j = makeRowColSymmetric w f M j i.
Proof.
  intros H. unfold makeRowColSymmetric. rewrite (Nat.eqb_sym j i).
  destruct (Nat.eqb_spec i j) as [->|E]; [reflexivity|].
  destruct (inb f w i) eqn:A, (inb f w j) eqn:B; try reflexivity.
  - destruct (Nat.ltb_spec j i), (Nat.ltb_spec i j); try reflexivity; lia.
  - destruct H as [H|[H|H]]; [discriminate|discriminate|exact H].
Qed.
Lemma sym_makeRC w f M : symmetric24 M -> symmetric24 (makeRowColSymmetric w f M).
Proof. intros H i j Hi Hj. apply makeRC_sym_at. right. right. apply H; assumption. Qed.
Lemma sym_zeroMag M : symmetric24 M -> symmetric24 (zeroMagCov M).
Proof. intros H. apply sym_uncorrelateSet, sym_uncorrelateSet, H. Qed.

Lemma sym_fixKin f M : symmetric24 M -> symmetric24 (fixKin f M).
Proof.
  intros H. unfold fixKin. cbv zeta.
  assert (A := sym_clampDiag 10 3 szero (slit 1 1) _ (sym_clampDiag 7 3 (slit 1 1000000) (slit 1000000 1) _
     (sym_clampDiag 4 3 (slit 1 1000000) (slit 1000000 1) _ (sym_clampDiag 0 4 szero (slit 1 1) _ H)))).
  destruct f; [apply sym_makeRC|]; exact A.
Qed.
Lemma fixAccel_P f c s : cP (fixAccel f c s) =
  if c_inhibit s 0 && c_inhibit s 1 && c_inhibit s 2 then cP s else
  let '(mx, rr) := accMax (c_inhibit s) (cP s) in
  let M1 := accClamp (c_inhibit s) (accLo mx) (accHi c) (cP s) in
  let M2 := if rr then uncorrelate 3 13 M1 else M1 in
  let tchk := if bad_acc_bias c then c_time_acc_bias s else x_time_last_imu c in
  if (add64 tchk 7000000 <? x_time_last_imu c)%Z then uncorrelate 3 13 M2 else if f then makeRowColSymmetric 3 13 M2 else M2.
Proof.
  unfold fixAccel. cbv zeta. destruct (c_inhibit s 0 && c_inhibit s 1 && c_inhibit s 2); [reflexivity|].
  destruct (accMax (c_inhibit s) (cP s)) as [mx rr]. reflexivity.
Qed.
Lemma sym_fixAccel f c s : symmetric24 (cP s) -> symmetric24 (cP (fixAccel f c s)).
Proof.
  intros H. rewrite fixAccel_P. destruct (_ && _ && _); [exact H|].
  destruct (accMax _ _) as [mx rr]. cbv zeta.
  assert (A : symmetric24 (if rr then uncorrelate 3 13 (accClamp (c_inhibit s) (accLo mx) (accHi c) (cP s))
     else accClamp (c_inhibit s) (accLo mx) (accHi c) (cP s))).
  { destruct rr; [apply sym_uncorrelate|]; apply sym_accClamp; exact H. }
  destruct (_ <? _)%Z; [apply sym_uncorrelate; exact A|]. destruct f; [apply sym_makeRC|]; exact A.
Qed.
Lemma sym_fixMag f c M : symmetric24 M -> symmetric24 (fixMag f c M).
Proof.
  intros H. unfold fixMag. destruct (f_mag_3D c); cbn [negb].
  - cbv zeta. assert (A := sym_clampDiag 19 3 szero (slit 1 1) _ (sym_clampDiag 16 3 szero (slit 1 1) _ H)).
    destruct f; [apply sym_makeRC, sym_makeRC|]; exact A.
  - apply sym_zeroMag. exact H.
Qed.
Lemma sym_fixWind f c M : symmetric24 M -> symmetric24 (fixWind f c M).
Proof.
  intros H. unfold fixWind. destruct (f_wind c); cbn [negb].
  - cbv zeta. assert (A := sym_clampDiag 22 2 szero (slit 1000000 1) _ H).
    destruct f; [apply sym_makeRC|]; exact A.
  - apply sym_uncorrelateSet. exact H.
Qed.
Lemma sym_fix f c s : symmetric24 (cP s) -> symmetric24 (cP (fixCovarianceErrors f c s)).
Proof.
  intros H. unfold fixCovarianceErrors. cbn [cP setP]. apply sym_fixWind, sym_fixMag.
  apply sym_fixAccel. cbn [cP setP]. apply sym_fixKin. exact H.
Qed.
Lemma sym_copyUpper N : symmetric24 (copyUpper N).
Proof.
  intros i j Hi Hj. unfold copyUpper. destruct (Nat.ltb_spec j i), (Nat.ltb_spec i j); try reflexivity; try lia.
  replace j with i by lia. reflexivity.
Qed.

(** inactive blocks *)
Definition half0 : Prop := sdiv (sadd szero szero) (slit 2 1) = (szero : T).
Lemma inb_false f w i : inb f w i = false -> ~ f <= i < f + w.
Proof. intros H A. apply inb_iff in A. congruence. Qed.
Lemma fixMag_zero f c M i j : f_mag_3D c = false -> 16 <= i < 22 \/ 16 <= j < 22 -> fixMag f c M i j = szero.
Proof.
  intros Hm H. unfold fixMag. rewrite Hm. cbn [negb]. unfold zeroMagCov, uncorrelateSet.
  destruct (inb 19 3 i) eqn:B1, (inb 19 3 j) eqn:B2; cbn [orb]; try (destruct (i =? j); reflexivity).
  destruct (inb 16 3 i) eqn:C1, (inb 16 3 j) eqn:C2; cbn [orb]; try (destruct (i =? j); reflexivity).
  exfalso. apply inb_false in B1, B2, C1, C2. lia.
Qed.
Lemma fix_mag_zero f c s i j : (f = true -> half0) -> f_mag_3D c = false -> 16 <= i < 22 \/ 16 <= j < 22 ->
  cP (fixCovarianceErrors f c s) i j = szero.
Proof.
  intros Hf Hm H. unfold fixCovarianceErrors. cbn [cP setP].
  set (M0 := cP _). generalize (fixMag_zero f c M0 i j Hm H). generalize (fixMag_zero f c M0 j i Hm ltac:(tauto)).
  generalize (fixMag f c M0). clear M0. intros M A1 A2.
  unfold fixWind. destruct (f_wind c); cbn [negb].
  - cbv zeta. assert (A3 : clampDiag 22 2 szero (slit 1000000 1) M i j = M i j).
    { unfold clampDiag. destruct (Nat.eqb_spec i j) as [->|E]; [|reflexivity].
      destruct (inb 22 2 j) eqn:B; [|reflexivity]. apply inb_iff in B. lia. }
    assert (A4 : clampDiag 22 2 szero (slit 1000000 1) M j i = M j i).
    { unfold clampDiag. destruct (Nat.eqb_spec j i) as [->|E]; [|reflexivity].
      destruct (inb 22 2 i) eqn:B; [|reflexivity]. apply inb_iff in B. lia. }
    destruct f; [|rewrite A3; exact A2].
    unfold makeRowColSymmetric. rewrite A3, A4, A1, A2.
    specialize (Hf eq_refl). unfold half0 in Hf. rewrite Hf.
    destruct (i =? j), (inb 22 2 i), (inb 22 2 j), (j <? i); reflexivity.
  - unfold uncorrelateSet. destruct (_ || _); [destruct (i =? j); reflexivity|exact A2].
Qed.
Lemma fix_wind_zero f c s i j : f_wind c = false -> 22 <= i < 24 \/ 22 <= j < 24 ->
  cP (fixCovarianceErrors f c s) i j = szero.
Proof.
  intros Hw H. unfold fixCovarianceErrors. cbn [cP setP]. unfold fixWind. rewrite Hw. cbn [negb].
  unfold uncorrelateSet. destruct (inb 22 2 i) eqn:B1, (inb 22 2 j) eqn:B2; cbn [orb]; try (destruct (i =? j); reflexivity).
  apply inb_false in B1, B2. lia.
Qed.

Lemma predict_P c s : cP (predictCovariance c s) =
  let s1 := predInhibit c s in
  cP (fixCovarianceErrors false c
    (setP (copyUpper (fst (fst (buildNext c s1 (process_noise c (cP s1) (hrate_next c s1)))))) s1)).
Proof.
  unfold predictCovariance. cbv zeta.
  destruct (buildNext _ _ _) as [[N aa] av]. cbn [fst].
  unfold fixCovarianceErrors. cbn [cP setP]. rewrite !fixAccel_P. cbn [cP setP c_inhibit c_time_acc_bias]. reflexivity.
Qed.
Lemma predict_sym c s : symmetric24 (cP (predictCovariance c s)).
Proof. rewrite predict_P. cbv zeta. apply sym_fix. cbn [cP setP]. apply sym_copyUpper. Qed.

(** forced symmetry: the whole matrix, except the accelerometer block when
    every axis is inhibited *)
Lemma fix_force_sym c s :
  c_inhibit s 0 && c_inhibit s 1 && c_inhibit s 2 = false \/
  (forall i j, 13 <= i < 16 -> 13 <= j < 16 -> cP s i j = cP s j i) ->
  symmetric24 (cP (fixCovarianceErrors true c s)).
Proof.
  intros H. unfold fixCovarianceErrors. cbn [cP setP].
  set (s1 := setP (fixKin true (cP s)) s).
  assert (K : forall i j, i < 13 \/ j < 13 -> cP s1 i j = cP s1 j i).
  { intros i j Hij. unfold s1. cbn [cP setP]. unfold fixKin. cbv zeta. apply makeRC_sym_at.
    unfold inb. destruct Hij; [left|right; left]; lia. }
  assert (A : forall i j, i < 16 -> j < 16 -> cP (fixAccel true c s1) i j = cP (fixAccel true c s1) j i).
  { intros i j Hi Hj. rewrite fixAccel_P. change (c_inhibit s1) with (c_inhibit s).
    destruct (_ && _ && _) eqn:Ei.
    - destruct H as [H|H]; [discriminate|].
      destruct (lt_dec i 13); [apply K; lia|]. destruct (lt_dec j 13); [apply K; lia|].
      destruct (Nat.eq_dec i j) as [->|Ne]; [reflexivity|].
      unfold s1. cbn [cP setP]. unfold fixKin. cbv zeta. apply makeRC_sym_at. right; right.
      apply Nat.eqb_neq in Ne. assert (Ne' : (j =? i) = false) by (rewrite Nat.eqb_sym; exact Ne).
      unfold clampDiag. rewrite Ne, Ne'. cbn [andb]. apply H; lia.
    - destruct (accMax _ _) as [mx rr]. cbv zeta.
      set (M1 := accClamp _ _ _ _).
      assert (K1 : forall i j, i < 13 \/ j < 13 -> M1 i j = M1 j i).
      { intros a b Hab. unfold M1, accClamp. rewrite (Nat.eqb_sym b a).
        destruct (Nat.eqb_spec a b) as [->|]; cbn [andb]; [reflexivity|apply K; exact Hab]. }
      set (M2 := if rr then _ else _).
      assert (K2 : forall i j, i < 13 \/ j < 13 -> M2 i j = M2 j i).
      { intros a b Hab. unfold M2. destruct rr; [|apply K1; exact Hab].
        unfold uncorrelate, uncorrelateSet. rewrite (Nat.eqb_sym b a), (orb_comm (inb 13 3 b)).
        destruct (inb 13 3 a || inb 13 3 b); [destruct (Nat.eqb_spec a b) as [->|]; reflexivity|apply K1; exact Hab]. }
      destruct (_ <? _)%Z.
      + unfold uncorrelate, uncorrelateSet. rewrite (Nat.eqb_sym j i), (orb_comm (inb 13 3 j)).
        destruct (inb 13 3 i || inb 13 3 j) eqn:B; [destruct (Nat.eqb_spec i j) as [->|]; reflexivity|].
        apply K2. apply orb_false_iff in B. destruct B as [B1 B2]. apply inb_false in B1. lia.
      + apply makeRC_sym_at. destruct (lt_dec i 13); [right; right; apply K2; lia|].
        left. apply inb_iff. lia. }
  assert (B : forall i j, i < 22 -> j < 22 -> fixMag true c (cP (fixAccel true c s1)) i j = fixMag true c (cP (fixAccel true c s1)) j i).
  { intros i j Hi Hj. destruct (f_mag_3D c) eqn:Hm.
    2:{ destruct (le_dec 16 i); [rewrite !fixMag_zero by (assumption || lia); reflexivity|].
        destruct (le_dec 16 j); [rewrite !fixMag_zero by (assumption || lia); reflexivity|].
        unfold fixMag. rewrite Hm. cbn [negb]. unfold zeroMagCov, uncorrelateSet.
        replace (inb 19 3 i) with false by (symmetry; apply Bool.not_true_iff_false; rewrite inb_iff; lia).
        replace (inb 19 3 j) with false by (symmetry; apply Bool.not_true_iff_false; rewrite inb_iff; lia).
        replace (inb 16 3 i) with false by (symmetry; apply Bool.not_true_iff_false; rewrite inb_iff; lia).
        replace (inb 16 3 j) with false by (symmetry; apply Bool.not_true_iff_false; rewrite inb_iff; lia).
        cbn [orb]. apply A; lia. }
    unfold fixMag. rewrite Hm. cbn [negb]. cbv zeta.
    apply makeRC_sym_at. destruct (lt_dec i 19); [|left; apply inb_iff; lia].
    destruct (lt_dec j 19); [|right; left; apply inb_iff; lia]. right; right.
    apply makeRC_sym_at. destruct (lt_dec i 16); [|left; apply inb_iff; lia].
    destruct (lt_dec j 16); [|right; left; apply inb_iff; lia]. right; right.
    unfold clampDiag. rewrite (Nat.eqb_sym j i). destruct (Nat.eqb_spec i j) as [->|]; cbn [andb]; [reflexivity|].
    apply A; lia. }
  intros i j Hi Hj. destruct (f_wind c) eqn:Hw.
  2:{ unfold fixWind. rewrite Hw. cbn [negb]. unfold uncorrelateSet. rewrite (orb_comm (inb 22 2 j)), (Nat.eqb_sym j i).
      destruct (inb 22 2 i || inb 22 2 j) eqn:E; [destruct (Nat.eqb_spec i j) as [->|]; reflexivity|].
      apply orb_false_iff in E. destruct E as [E1 E2]. apply inb_false in E1, E2. apply B; lia. }
  unfold fixWind. rewrite Hw. cbn [negb]. cbv zeta. apply makeRC_sym_at.
  destruct (lt_dec i 22); [|left; apply inb_iff; lia].
  destruct (lt_dec j 22); [|right; left; apply inb_iff; lia]. right; right.
  unfold clampDiag. rewrite (Nat.eqb_sym j i). destruct (Nat.eqb_spec i j) as [->|]; cbn [andb]; [reflexivity|].
  apply B; lia.
Qed.

(** ** The upper triangle of nextP in closed form *)
Definition gnoise (c : covctx T) (pn : nat -> T) (s : covst T) (j : nat) : T :=
  if inb 10 3 j then ssub (pn j) (c_acc_ang s (j - 10)) else ssub (pn j) (c_acc_vel s (j - 13)).
Definition nextU (c : covctx T) (s : covst T) (pn : nat -> T) (i j : nat) : T :=
  let M := cP s in
  let g := nth i (col c M j) szero in
  if sgt (sadd (M 7 7) (M 8 8)) (slit 10000 1) && (inb 7 2 i || inb 7 2 j) then M i j
  else if j <? 10 then g
  else if j <? 13 then if i =? j then sadd g (gnoise c pn s j) else g
  else if j <? 16 then
    if c_inhibit s (j - 13) then (if i =? j then c_prev_var s (j - 13) else szero)
    else if i =? j then sadd g (gnoise c pn s j) else g
  else if j <? 22 then
    if f_mag_3D c then (if i =? j then sadd g (pn j) else g) else szero
  else if f_wind c then (if i =? j then sadd g (pn j) else g) else szero.

Lemma wcols_at c M f n N r k : wcols c M f n N r k =
  if inb f n k && (r <=? k) then nth r (col c M k) szero else N r k.
Proof.
  induction n as [|n IH]; cbn [wcols].
  - replace (inb f 0 k) with false by (symmetry; apply Bool.not_true_iff_false; rewrite inb_iff; lia). reflexivity.
  - unfold wcol. rewrite IH. destruct (Nat.eqb_spec k (f + n)) as [->|E]; cbn [andb].
    + replace (inb f (Datatypes.S n) (f + n)) with true by (symmetry; apply inb_iff; lia). cbn [andb].
      destruct (r <=? f + n) eqn:L; [reflexivity|]. replace (inb f n (f + n)) with false; [reflexivity|].
      symmetry. apply Bool.not_true_iff_false. rewrite inb_iff. lia.
    + replace (inb f (Datatypes.S n) k) with (inb f n k); [reflexivity|].
      apply Bool.eq_iff_eq_true. rewrite !inb_iff. lia.
Qed.

Definition bN (b : bld) : Mat T := fst (fst b).
Lemma kahanAng_at pn k b i j : bN (kahanAng pn k b) i j =
  if (i =? 10 + k) && (j =? 10 + k) then sadd (bN b (10 + k) (10 + k)) (ssub (pn (10 + k)) (snd (fst b) k)) else bN b i j.
Proof. destruct b as [[N aa] av]. reflexivity. Qed.
Lemma kahanAng_aa pn k b m : m <> k -> snd (fst (kahanAng pn k b)) m = snd (fst b) m.
Proof. destruct b as [[N aa] av]. intros H. cbn. unfold vset. apply Nat.eqb_neq in H. rewrite H. reflexivity. Qed.
Lemma kahanAng_av pn k b : snd (kahanAng pn k b) = snd b.
Proof. destruct b as [[N aa] av]. reflexivity. Qed.
Lemma accelAxis_at c M inh pv pn k b i j : bN (accelAxis c M inh pv pn k b) i j =
  if inh k then (if (i =? 13 + k) || (j =? 13 + k) then if i =? j then pv k else szero else bN b i j)
  else if (j =? 13 + k) && (i <=? j)
       then if i =? j then sadd (nth i (col c M j) szero) (ssub (pn (13 + k)) (snd b k)) else nth i (col c M j) szero
       else bN b i j.
Proof.
  destruct b as [[N aa] av]. unfold accelAxis. destruct (inh k); cbn [negb].
  - unfold bN. cbn [fst]. unfold uncorrelateSet.
    replace (inb (13 + k) 1 i) with (i =? 13 + k) by (apply Bool.eq_iff_eq_true; rewrite inb_iff, Nat.eqb_eq; lia).
    replace (inb (13 + k) 1 j) with (j =? 13 + k) by (apply Bool.eq_iff_eq_true; rewrite inb_iff, Nat.eqb_eq; lia).
    reflexivity.
  - unfold kahan, bN, mset, wcol. cbn [fst snd]. rewrite !Nat.eqb_refl, !Nat.leb_refl. cbn [andb].
    destruct (Nat.eqb_spec j (13 + k)) as [->|E].
    + destruct (Nat.eqb_spec i (13 + k)) as [->|E2]; cbn [andb]; [rewrite Nat.leb_refl; reflexivity|]. reflexivity.
    + rewrite andb_false_r. reflexivity.
Qed.
Lemma accelAxis_av c M inh pv pn k b m : m <> k -> snd (accelAxis c M inh pv pn k b) m = snd b m.
Proof.
  destruct b as [[N aa] av]. intros H. apply Nat.eqb_neq in H. unfold accelAxis, kahan.
  destruct (inh k); cbn; unfold vset; rewrite H; reflexivity.
Qed.

Lemma buildNext_upper c s pn i j : i <= j < 24 -> fst (fst (buildNext c s pn)) i j = nextU c s pn i j.
Proof.
  intros H. unfold buildNext. cbv zeta.
  set (b0 := (wcols c (cP s) 0 13 (fun _ _ => szero), c_acc_ang s, c_acc_vel s) : bld).
  set (b1 := kahanAng pn 2 (kahanAng pn 1 (kahanAng pn 0 b0))).
  set (b2 := accelAxis c (cP s) (c_inhibit s) (c_prev_var s) pn 2 _).
  assert (A1 : forall i j, i <= j < 13 -> bN b1 i j =
    if (i =? j) && inb 10 3 j then sadd (nth i (col c (cP s) j) szero) (ssub (pn j) (c_acc_ang s (j - 10)))
    else nth i (col c (cP s) j) szero).
  { intros a b Hab. unfold b1. rewrite !kahanAng_at. rewrite !kahanAng_aa by lia.
    change (snd (fst b0)) with (c_acc_ang s).
    change (bN b0) with (wcols c (cP s) 0 13 (fun _ _ => szero)). rewrite !wcols_at.
    replace (inb 0 13 b) with true by (symmetry; apply inb_iff; lia).
    replace (a <=? b) with true by (symmetry; apply Nat.leb_le; lia).
    destruct (Nat.eqb_spec a b) as [->|E].
    - cbn [andb].
      destruct (Nat.eqb_spec b 10) as [->|]; [reflexivity|].
      destruct (Nat.eqb_spec b 11) as [->|]; [reflexivity|].
      destruct (Nat.eqb_spec b 12) as [->|]; [reflexivity|].
      replace (inb 10 3 b) with false; [|symmetry; apply Bool.not_true_iff_false; rewrite inb_iff; lia].
      destruct (Nat.eqb_spec b (10 + 2)); [lia|]. destruct (Nat.eqb_spec b (10 + 1)); [lia|].
      destruct (Nat.eqb_spec b (10 + 0)); [lia|]. reflexivity.
    - assert (Q : forall k, (a =? 10 + k) && (b =? 10 + k) = false).
      { intros k. destruct (Nat.eqb_spec a (10 + k)), (Nat.eqb_spec b (10 + k)); try reflexivity; lia. }
      rewrite !Q. cbn [andb]. reflexivity. }
  assert (A2 : forall i j, 13 <= j -> bN b1 i j = szero).
  { intros a b Hb. unfold b1. rewrite !kahanAng_at.
    assert (Q : forall k, k < 3 -> (a =? 10 + k) && (b =? 10 + k) = false).
    { intros k Hk. destruct (Nat.eqb_spec b (10 + k)); [lia|]. apply andb_false_r. }
    rewrite !Q by lia. change (bN b0) with (wcols c (cP s) 0 13 (fun _ _ => szero)). rewrite !wcols_at.
    replace (inb 0 13 b) with false; [reflexivity|]. symmetry. apply Bool.not_true_iff_false. rewrite inb_iff. lia. }
  assert (V1 : snd b1 = c_acc_vel s) by (unfold b1; rewrite !kahanAng_av; reflexivity).
  assert (B : forall i j, i <= j -> bN b2 i j =
    if j <? 13 then bN b1 i j else if j <? 16 then
      if c_inhibit s (j - 13) then (if i =? j then c_prev_var s (j - 13) else szero)
      else if i =? j then sadd (nth i (col c (cP s) j) szero) (ssub (pn j) (c_acc_vel s (j - 13))) else nth i (col c (cP s) j) szero
    else szero).
  { intros a b Hab. unfold b2. rewrite !accelAxis_at, !accelAxis_av, V1 by lia.
    replace (a <=? b) with true by (symmetry; apply Nat.leb_le; lia). rewrite !andb_true_r.
    destruct (Nat.ltb_spec b 13).
    - assert (Q1 : forall k, (a =? 13 + k) = false) by (intros; apply Nat.eqb_neq; lia).
      assert (Q2 : forall k, (b =? 13 + k) = false) by (intros; apply Nat.eqb_neq; lia).
      rewrite !Q1, !Q2. cbn [orb]. destruct (c_inhibit s 2), (c_inhibit s 1), (c_inhibit s 0); reflexivity.
    - destruct (Nat.ltb_spec b 16).
      + destruct (Nat.eq_dec b 13) as [->|]; [|destruct (Nat.eq_dec b 14) as [->|]; [|replace b with 15 in * by lia]].
        * change (13 =? 13 + 2) with false. change (13 =? 13 + 1) with false. change (13 =? 13 + 0) with true.
          destruct (Nat.eqb_spec a (13 + 2)); [lia|]. destruct (Nat.eqb_spec a (13 + 1)); [lia|].
          rewrite orb_true_r. cbn [orb]. change (13 - 13) with 0. change (13 + 0) with 13.
          destruct (c_inhibit s 2), (c_inhibit s 1); reflexivity.
        * change (14 =? 13 + 2) with false. change (14 =? 13 + 1) with true. change (14 =? 13 + 0) with false.
          destruct (Nat.eqb_spec a (13 + 2)); [lia|].
          rewrite orb_true_r. cbn [orb]. change (14 - 13) with 1. change (13 + 1) with 14.
          destruct (c_inhibit s 2); reflexivity.
        * change (15 =? 13 + 2) with true. rewrite orb_true_r. reflexivity.
      + assert (Q2 : forall k, k < 3 -> (b =? 13 + k) = false) by (intros; apply Nat.eqb_neq; lia).
        rewrite !Q2, !orb_false_r, !A2 by lia.
        assert (Q3 : (if a =? b then c_prev_var s 2 else szero) = szero \/ a = b) by (destruct (Nat.eqb_spec a b); tauto).
        destruct (Nat.eqb_spec a b) as [->|].
        * rewrite !Q2 by lia. destruct (c_inhibit s 2), (c_inhibit s 1), (c_inhibit s 0); reflexivity.
        * destruct (c_inhibit s 2), (c_inhibit s 1), (c_inhibit s 0), (a =? 13 + 2), (a =? 13 + 1), (a =? 13 + 0); reflexivity. }
  change (fst (fst (let '(N, aa, av) := b2 in
     (posStop (cP s) (if f_wind c then addDiag pn 22 2 (wcols c (cP s) 22 2 (if f_mag_3D c then addDiag pn 16 6 (wcols c (cP s) 16 6 N) else N))
        else if f_mag_3D c then addDiag pn 16 6 (wcols c (cP s) 16 6 N) else N), aa, av))) i j = nextU c s pn i j).
  clearbody b2. destruct b2 as [[N aa] av]. unfold bN in A1, A2, B. cbn [fst] in B |- *.
  unfold posStop, nextU, gnoise. cbv zeta.
  destruct (sgt _ _); cbn [andb]; [destruct (inb 7 2 i || inb 7 2 j); [reflexivity|]|].
  all: assert (Lij : (i <=? j) = true) by (apply Nat.leb_le; lia).
  all: destruct (f_wind c), (f_mag_3D c); unfold addDiag; rewrite ?wcols_at, ?Nat.leb_refl, ?Lij, ?andb_true_r;
    rewrite ?(B i j), ?(B i i) by lia.
  all: unfold inb in *.
  all: destruct (Nat.eqb_spec i j) as [->|E]; cbn [andb];
    repeat match goal with |- context [?a <=? ?b] => destruct (Nat.leb_spec a b); try lia
      | |- context [?a <? ?b] => destruct (Nat.ltb_spec a b); try lia end; cbn [andb orb]; try reflexivity.
  all: rewrite A1 by lia; rewrite ?Nat.eqb_refl.
  all: try (apply Nat.eqb_neq in E; rewrite E).
  all: cbn [andb];
    repeat match goal with |- context [?a <=? ?b] => destruct (Nat.leb_spec a b); try lia
      | |- context [?a <? ?b] => destruct (Nat.ltb_spec a b); try lia end; cbn [andb orb]; try reflexivity.
Qed.
End G.

From Coq Require Import Reals Lra Psatz.
From Verif Require Import CBase Scalar RealGeom CovSpec PsdLib CovPredGen CovPredProofs CovPredEntries CovModel CovProofs CovProofsR.
Open Scope R_scope.

(** the position growth stop is active *)
Definition pos_capped (M : Mat R) : Prop := M 7%nat 7%nat + M 8%nat 8%nat > 10000.
Definition horiz_pos (i : nat) : Prop := (7 <= i < 9)%nat.

Lemma sgt_cap (M : Mat R) : sgt (sadd (M 7%nat 7%nat) (M 8%nat 8%nat)) (slit 10000 1) = true <-> pos_capped M.
Proof. unfold sgt, pos_capped. rewrite sltR_true. cbn [sadd slit RScalar]. lra. Qed.
Lemma cap_false (M : Mat R) i j : (pos_capped M -> ~ horiz_pos i /\ ~ horiz_pos j) ->
  sgt (sadd (M 7%nat 7%nat) (M 8%nat 8%nat)) (slit 10000 1) && (inb 7 2 i || inb 7 2 j) = false.
Proof.
  intros H. destruct (sgt _ _) eqn:E; [|reflexivity]. apply sgt_cap in E. destruct (H E) as [A B].
  cbn [andb]. apply orb_false_iff. unfold horiz_pos in *.
  split; apply Bool.not_true_iff_false; rewrite inb_iff; lia.
Qed.

Section P.
Variables (c : covctx R) (s0 : covst R).
Let s := predInhibit c s0.
Let P := cP s.
Variables (g : R) (F G : nat -> nat -> R).
Hypothesis HP : symmetric24 (cP s0).
Hypothesis HF : state_jacobian dtR g (x_st c) (u_of c) F.
Hypothesis HG : input_jacobian dtR g (x_st c) (u_of c) G.
Let E := FPFt_GQGt F G P (Q_of c).
(** unmodelled-dynamics noise added to variance i *)
Let pn := process_noise c P (hrate_next c s).
Let dn (i : nat) : R := if inb 10 3 i then pn i - c_acc_ang s (i - 10)%nat
   else if inb 13 3 i then pn i - c_acc_vel s (i - 13)%nat else pn i.

Lemma Psym : symmetric24 P. Proof. unfold P, s. apply predInhibit_sym. exact HP. Qed.

Lemma next_entry i j : (i <= j < 24)%nat -> estimated c j ->
  ((13 <= j < 16)%nat -> c_inhibit s (j - 13)%nat = false) ->
  (pos_capped P -> ~ horiz_pos i /\ ~ horiz_pos j) ->
  nextU c s pn i j = E i j + (if (i =? j)%nat then if (j <? 10)%nat then 0 else dn j else 0).
Proof.
  intros H Ej Hi Hc. unfold nextU. cbv zeta. fold P. rewrite cap_false by exact Hc.
  rewrite col_genR by exact H. rewrite (gen_is_FPFt dtR g _ _ _ _ F G Psym HF HG i j H). fold E.
  unfold gnoise, dn. unfold inb.
  destruct (Nat.ltb_spec j 10); [destruct (i =? j)%nat; ring|].
  destruct (Nat.ltb_spec j 13).
  { replace (10 <=? j)%nat with true by (symmetry; apply Nat.leb_le; lia).
    replace (j <? 10 + 3)%nat with true by (symmetry; apply Nat.ltb_lt; lia). cbn [andb].
    destruct (i =? j)%nat; cbn [sadd ssub RScalar]; ring. }
  replace (j <? 10 + 3)%nat with false by (symmetry; apply Nat.ltb_ge; lia). rewrite andb_false_r.
  destruct (Nat.ltb_spec j 16).
  { rewrite Hi by lia.
    replace (13 <=? j)%nat with true by (symmetry; apply Nat.leb_le; lia).
    replace (j <? 13 + 3)%nat with true by (symmetry; apply Nat.ltb_lt; lia). cbn [andb].
    destruct (i =? j)%nat; cbn [sadd ssub RScalar]; ring. }
  replace (j <? 13 + 3)%nat with false by (symmetry; apply Nat.ltb_ge; lia). rewrite andb_false_r.
  destruct (Nat.ltb_spec j 22).
  - destruct Ej as [L|[[L Em]|[L Ew]]]; try lia. rewrite Em.
    destruct (i =? j)%nat; cbn [sadd ssub RScalar]; ring.
  - destruct Ej as [L|[[L Em]|[L Ew]]]; try lia. rewrite Ew.
    destruct (i =? j)%nat; cbn [sadd ssub RScalar]; ring.
Qed.

Lemma pre_entry i j : (i < 24)%nat -> (j < 24)%nat -> estimated c i -> estimated c j ->
  (forall k, (k = i \/ k = j) -> (13 <= k < 16)%nat -> c_inhibit s (k - 13)%nat = false) ->
  (pos_capped P -> ~ horiz_pos i /\ ~ horiz_pos j) ->
  copyUpper (fst (fst (buildNext c s pn))) i j = E i j + (if (i =? j)%nat then if (j <? 10)%nat then 0 else dn j else 0).
Proof.
  intros Hi Hj Ei Ej Ha Hc. unfold copyUpper. destruct (Nat.ltb_spec j i).
  - rewrite buildNext_upper by lia. rewrite next_entry; [|lia|exact Ei|intros; apply Ha; [auto|lia]|intros A; destruct (Hc A); auto].
    replace (i =? j)%nat with false by (symmetry; apply Nat.eqb_neq; lia).
    replace (j =? i)%nat with false by (symmetry; apply Nat.eqb_neq; lia). unfold E. rewrite (FPFt_sym _ _ _ _ _ _ Psym). reflexivity.
  - rewrite buildNext_upper by lia. apply next_entry; [lia|exact Ej|intros; apply Ha; [auto|lia]|exact Hc].
Qed.

(** off-diagonal elements *)
Lemma predict_offdiag i j : i <> j -> (i < 24)%nat -> (j < 24)%nat -> estimated c i -> estimated c j ->
  ~ (13 <= i < 16)%nat -> ~ (13 <= j < 16)%nat -> (pos_capped P -> ~ horiz_pos i /\ ~ horiz_pos j) ->
  cP (predictCovariance c s0) i j = E i j.
Proof.
  intros Ne Hi Hj Ei Ej Ni Nj Hc. rewrite predict_P. cbv zeta. rewrite fix_offdiag by assumption. cbn [cP setP].
  fold s. fold P. fold pn. rewrite pre_entry; try assumption.
  - apply Nat.eqb_neq in Ne. rewrite Ne. ring.
  - intros k [->| ->] A; lia.
Qed.
(** variances *)
Lemma predict_diag i : (i < 24)%nat -> estimated c i -> ~ (13 <= i < 16)%nat -> (pos_capped P -> ~ horiz_pos i) ->
  cP (predictCovariance c s0) i i = Rmin (var_hi i) (Rmax (var_lo i) (E i i + if (i <? 10)%nat then 0 else dn i)).
Proof.
  intros Hi Ei Ni Hc. rewrite predict_P. cbv zeta. rewrite fix_diag by assumption. cbn [cP setP].
  fold s. fold P. fold pn. rewrite pre_entry; try assumption; [|intros k [->| ->] A; lia|intros A; split; apply Hc, A].
  rewrite Nat.eqb_refl. reflexivity.
Qed.
(** frozen horizontal position covariances *)
Lemma predict_capped i j : (i < 24)%nat -> (j < 24)%nat -> estimated c i -> estimated c j -> i <> j ->
  ~ (13 <= i < 16)%nat -> ~ (13 <= j < 16)%nat -> pos_capped P -> horiz_pos i \/ horiz_pos j ->
  cP (predictCovariance c s0) i j = P i j.
Proof.
  intros Hi Hj Ei Ej Ne Ni Nj Hc Hp. rewrite predict_P. cbv zeta. rewrite fix_offdiag by assumption. cbn [cP setP].
  fold s. fold P. fold pn.
  assert (A : forall i j, (i <= j < 24)%nat -> horiz_pos i \/ horiz_pos j -> nextU c s pn i j = P i j).
  { intros a b Hab H. unfold nextU. cbv zeta. fold P. apply sgt_cap in Hc. rewrite Hc.
    replace (inb 7 2 a || inb 7 2 b) with true; [reflexivity|]. symmetry. apply orb_true_iff. rewrite !inb_iff. unfold horiz_pos in H. lia. }
  unfold copyUpper. destruct (Nat.ltb_spec j i); rewrite buildNext_upper by lia; rewrite A by (try lia; tauto); [|reflexivity].
  apply Psym; assumption.
Qed.

(** ** Positive semidefiniteness *)
Hypothesis Hpsd : psd P.
(** an inhibited accelerometer axis is uncorrelated with every later state *)
Hypothesis Hinh : forall k j, (k < 3)%nat -> c_inhibit s k = true -> (13 + k < j < 24)%nat -> estimated c j -> P (13 + k)%nat j = 0.
Hypothesis Hprev : forall k, (k < 3)%nat -> c_inhibit s k = true -> 0 <= c_prev_var s k.
Hypothesis Hncap : ~ pos_capped P.
Hypothesis Hacc : forall k, c_acc_ang s k = 0 /\ c_acc_vel s k = 0.
Definition est_b (i : nat) : bool := if (i <? 16)%nat then true else if (i <? 22)%nat then f_mag_3D c else f_wind c.
Lemma est_iff i : (i < 24)%nat -> est_b i = true <-> estimated c i.
Proof.
  intros H. unfold est_b, estimated. destruct (Nat.ltb_spec i 16); [intuition lia|].
  destruct (Nat.ltb_spec i 22); intuition (try lia).
Qed.
Lemma sq_nonneg (x : R) : 0 <= sq x. Proof. unfold sq. cbn. nra. Qed.
Lemma pn_nonneg i : 0 <= pn i.
Proof.
  unfold pn, process_noise. repeat (destruct (inb _ _ i); [apply sq_nonneg|]). rewrite szeroR. lra.
Qed.
Lemma Q_nonneg m : 0 <= Q_of c m.
Proof.
  unfold Q_of, daVar, dvVar. destruct (m <? 3)%nat; [apply sq_nonneg|]. destruct (x_clip c _); apply sq_nonneg.
Qed.
(** an upper bound on every predicted variance before limiting *)
Definition within_limits : Prop :=
  (forall i, (i < 24)%nat -> ~ (13 <= i < 16)%nat -> estimated c i -> E i i + (if (i <? 10)%nat then 0 else dn i) <= var_hi i) /\
  (forall k, (k < 3)%nat -> c_inhibit s k = false -> E (13 + k)%nat (13 + k)%nat + dn (13 + k)%nat <= accHi c).

(** state i is an inhibited accelerometer axis *)
Definition inh_b (i : nat) : bool := inb 13 3 i && c_inhibit s (i - 13)%nat.
Lemma late_entry i j : (10 <= i)%nat -> (i <= j < 24)%nat -> E i j = P i j.
Proof.
  intros Hi H. unfold E. rewrite <- (gen_is_FPFt dtR g _ _ _ _ F G Psym HF HG i j H).
  do 24 (destruct j as [|j]; [do 24 (destruct i as [|i]; [try lia; try reflexivity|]); lia|]). lia.
Qed.
Lemma next_inh i j : (i < j < 24)%nat -> est_b i = true -> est_b j = true -> inh_b i = true \/ inh_b j = true -> nextU c s pn i j = 0.
Proof.
  intros H Ei Ej Hin.
  destruct (inh_b j) eqn:Bj.
  - unfold inh_b in Bj. apply andb_true_iff in Bj. destruct Bj as [B1 B2]. apply inb_iff in B1.
    unfold nextU. cbv zeta. fold P. rewrite cap_false by (intros A; contradiction).
    replace (j <? 10)%nat with false by (symmetry; apply Nat.ltb_ge; lia).
    replace (j <? 13)%nat with false by (symmetry; apply Nat.ltb_ge; lia).
    replace (j <? 16)%nat with true by (symmetry; apply Nat.ltb_lt; lia). rewrite B2.
    replace (i =? j)%nat with false by (symmetry; apply Nat.eqb_neq; lia). apply szeroR.
  - destruct Hin as [Bi|Bi]; [|congruence]. unfold inh_b in Bi. apply andb_true_iff in Bi. destruct Bi as [B1 B2]. apply inb_iff in B1.
    rewrite next_entry.
    + replace (i =? j)%nat with false by (symmetry; apply Nat.eqb_neq; lia). rewrite Rplus_0_r, late_entry by lia.
      replace i with (13 + (i - 13))%nat by lia. apply Hinh; try lia; try assumption. apply est_iff; [lia|exact Ej].
    + lia.
    + apply est_iff; [lia|exact Ej].
    + intros A. unfold inh_b in Bj. apply andb_false_iff in Bj. destruct Bj as [C|C]; [|exact C].
      exfalso. apply Bool.not_true_iff_false in C. apply C, inb_iff. lia.
    + intros A; contradiction.
Qed.

Lemma predict_psd : within_limits -> psd (cP (predictCovariance c s0)).
Proof.
  intros [Hl Ha]. rewrite predict_P. cbv zeta. fold s. fold P. fold pn.
  set (N := copyUpper (fst (fst (buildNext c s pn)))).
  assert (NS : symmetric24 N) by apply sym_copyUpper.
  assert (IF : forall i, inh_b i = false -> (13 <= i < 16)%nat -> c_inhibit s (i - 13)%nat = false).
  { intros i B A. unfold inh_b in B. apply andb_false_iff in B. destruct B as [B|B]; [|exact B].
    exfalso. apply Bool.not_true_iff_false in B. apply B, inb_iff. lia. }
  assert (NE : forall i j, (i < 24)%nat -> (j < 24)%nat -> est_b i = true -> est_b j = true -> inh_b i = false -> inh_b j = false ->
    N i j = E i j + (if (i =? j)%nat then if (j <? 10)%nat then 0 else dn j else 0)).
  { intros i j Hi Hj Ei Ej Ii Ij. unfold N. apply pre_entry; try assumption; try (apply est_iff; assumption).
    - intros k [->| ->] A; apply IF; assumption.
    - intros A. contradiction. }
  assert (NI : forall i j, (i < 24)%nat -> (j < 24)%nat -> est_b i = true -> est_b j = true -> inh_b i = true \/ inh_b j = true -> i <> j -> N i j = 0).
  { intros i j Hi Hj Ei Ej Hin Ne. unfold N, copyUpper. destruct (Nat.ltb_spec j i); rewrite buildNext_upper by lia; apply next_inh; try assumption; try lia; tauto. }
  assert (ND : forall i, inh_b i = true -> N i i = c_prev_var s (i - 13)%nat).
  { intros i B. unfold inh_b in B. apply andb_true_iff in B. destruct B as [B1 B2]. apply inb_iff in B1.
    unfold N, copyUpper. rewrite Nat.ltb_irrefl, buildNext_upper by lia. unfold nextU. cbv zeta. fold P.
    rewrite cap_false by (intros A; contradiction).
    replace (i <? 10)%nat with false by (symmetry; apply Nat.ltb_ge; lia).
    replace (i <? 13)%nat with false by (symmetry; apply Nat.ltb_ge; lia).
    replace (i <? 16)%nat with true by (symmetry; apply Nat.ltb_lt; lia). rewrite B2, Nat.eqb_refl. reflexivity. }
  (* the unused blocks are overwritten by the repair, so they may be taken as zero *)
  set (N0 := fun i j => if est_b i && est_b j then N i j else 0).
  assert (DN : forall i, 0 <= if (i <? 10)%nat then 0 else dn i).
  { intros i. unfold dn. destruct (Hacc (i - 10)%nat) as [A1 _]. destruct (Hacc (i - 13)%nat) as [_ A2].
    rewrite A1, A2. pose proof (pn_nonneg i). destruct (_ <? _)%nat; [lra|]. destruct (inb 10 3 i), (inb 13 3 i); lra. }
  set (mk := fun i => est_b i && negb (inh_b i)).
  assert (P0 : psd N0).
  { apply (psd_raise (fun i j => if mk i && mk j then E i j else 0)).
    - apply psd_mask. apply psd_FPFt_GQGt; [exact Hpsd|intros; apply Q_nonneg].
    - intros i j Hi Hj Ne. unfold N0, mk. destruct (est_b i) eqn:Ei, (est_b j) eqn:Ej; cbn [andb]; try reflexivity.
      + destruct (inh_b i) eqn:Ii; [cbn; apply NI; auto|]. destruct (inh_b j) eqn:Ij; [cbn; apply NI; auto|]. cbn [negb andb].
        rewrite NE by assumption. apply Nat.eqb_neq in Ne. rewrite Ne. ring.
      + rewrite andb_false_r. reflexivity.
    - intros i Hi. unfold N0, mk. destruct (est_b i) eqn:Ei; cbn [andb]; [|lra].
      destruct (inh_b i) eqn:Ii; cbn [negb andb].
      + rewrite ND by assumption. unfold inh_b in Ii. apply andb_true_iff in Ii. destruct Ii as [B1 B2]. apply inb_iff in B1.
        apply Hprev; [lia|exact B2].
      + rewrite NE by assumption. rewrite Nat.eqb_refl. specialize (DN i). lra. }
  assert (S0 : symmetric24 N0).
  { intros i j Hi Hj. unfold N0. rewrite andb_comm. destruct (_ && _); [apply NS; assumption|reflexivity]. }
  assert (NIB : forall i, ~ (13 <= i < 16)%nat -> inh_b i = false).
  { intros i Ni. unfold inh_b. replace (inb 13 3 i) with false; [reflexivity|]. symmetry. apply Bool.not_true_iff_false. rewrite inb_iff. lia. }
  assert (FP : psd (cP (fixCovarianceErrors false c (setP N0 s)))).
  { apply fix_psd; cbn [cP setP c_inhibit]; try assumption.
    - intros i Hi Ni Ei. unfold N0. apply est_iff in Ei; [|exact Hi]. rewrite Ei. cbn [andb]. rewrite NE by (try assumption; apply NIB, Ni).
      rewrite Nat.eqb_refl. apply Hl; try assumption. apply est_iff; assumption.
    - intros k Hk NI'. unfold N0. assert (Ek : est_b (13 + k) = true) by (apply est_iff; [lia|left; lia]). rewrite Ek. cbn [andb].
      assert (Ik : inh_b (13 + k) = false) by (unfold inh_b; replace (13 + k - 13)%nat with k by lia; rewrite NI'; apply andb_false_r).
      rewrite NE by (assumption || lia). rewrite Nat.eqb_refl. replace (13 + k <? 10)%nat with false by (symmetry; apply Nat.ltb_ge; lia).
      apply Ha; [exact Hk|exact NI']. }
  revert FP. apply psd_ext. intros i j Hi Hj.
  assert (EE : forall i j, (i < 24)%nat -> (j < 24)%nat -> est_b i = true -> est_b j = true -> N0 i j = N i j).
  { intros a b _ _ Ea Eb. unfold N0. rewrite Ea, Eb. reflexivity. }
  assert (AA : forall k, (k < 3)%nat -> N0 (13 + k)%nat (13 + k)%nat = N (13 + k)%nat (13 + k)%nat).
  { intros k Hk. apply EE; try lia; apply est_iff; try lia; left; lia. }
  destruct (estimated_dec c i Hi) as [Ei|Ei]; [|rewrite !fix_unest by auto; reflexivity].
  destruct (estimated_dec c j Hj) as [Ej|Ej]; [|rewrite !fix_unest by auto; reflexivity].
  pose proof (proj2 (est_iff i Hi) Ei) as Bi. pose proof (proj2 (est_iff j Hj) Ej) as Bj.
  destruct (Nat.eq_dec i j) as [<-|Ne].
  - destruct (le_dec 13 i) as [L|L]; [destruct (lt_dec i 16) as [L2|L2]|].
    + replace i with (13 + (i - 13))%nat by lia. rewrite !fix_diag_acc by lia. cbn [cP setP c_inhibit].
      rewrite (accMax_ext (c_inhibit s) N0 N) by exact AA. rewrite AA by lia. reflexivity.
    + rewrite !fix_diag_any by (assumption || lia). cbn [cP setP]. rewrite EE by assumption. reflexivity.
    + rewrite !fix_diag_any by (assumption || lia). cbn [cP setP]. rewrite EE by assumption. reflexivity.
  - rewrite !fix_entry_sym by assumption. unfold accel_reset. cbn [cP setP c_inhibit c_time_acc_bias].
    rewrite (accMax_ext (c_inhibit s) N0 N) by exact AA. rewrite EE by assumption. reflexivity.
Qed.
End P.

(** * Velocity, position and height updates away from all limits are plain Kalman updates (for C92) *)
From Coq Require Import Reals Lra Lia List ZArith Bool Permutation.
From Verif Require Import CBase Scalar CovModel CovSpec PsdLib CovProofs CovProofsR CovUpdProofs Props_Cov Props_Cov2.
Import ListNotations.
Open Scope R_scope.

(** ** Away from the limits *)
(** states that are not being estimated (magnetic field, wind) have no covariance; the variances F
    are above every floor of the filter, and no reset of the accelerometer bias is due *)
Definition clear_of_limits (c : covctx R) (s : covst R) (F : nat -> nat -> R) : Prop :=
  sound c s /\
  (forall i j, (i < 24)%nat -> (j < 24)%nat -> ~ estimated c i -> cP s i j = 0) /\
  (forall i, (4 <= i < 10)%nat -> / 1000000 <= F i i) /\
  (c_inhibit s 0%nat && c_inhibit s 1%nat && c_inhibit s 2%nat = true \/
   ((forall k, (k < 3)%nat -> c_inhibit s k = false -> 5 / 100000000 <= F (13 + k)%nat (13 + k)%nat /\
      forall l, (l < 3)%nat -> c_inhibit s l = false -> cP s (13 + l)%nat (13 + l)%nat / 100 <= F (13 + k)%nat (13 + k)%nat) /\
    (add64 (c_time_acc_bias s) 7000000 <? x_time_last_imu c)%Z = false /\
    (add64 (x_time_last_imu c) 7000000 <? x_time_last_imu c)%Z = false)).

Lemma accMax_in inh (M : Mat R) : fst (accMax inh M) = 1 / 1000000000 \/ exists l, (l < 3)%nat /\ inh l = false /\ fst (accMax inh M) = M (13 + l)%nat (13 + l)%nat.
Proof.
  set (Q := fun p : R * bool => fst p = 1 / 1000000000 \/ exists l, (l < 3)%nat /\ inh l = false /\ fst p = M (13 + l)%nat (13 + l)%nat).
  assert (A : forall p k, (k < 3)%nat -> Q p -> Q (accMaxStep inh M p k)).
  { intros [mx rr] k Hk H. unfold accMaxStep. cbv zeta. destruct (inh k) eqn:E; [exact H|]. destruct (sgt _ _).
    - right. exists k. auto.
    - destruct (slt _ _); exact H. }
  change (Q (accMax inh M)). unfold accMax. do 3 (apply A; [lia|]). left. cbn [fst]. rewrite slitR. reflexivity.
Qed.
Lemma accMax_noreset inh (M : Mat R) : (forall k, (k < 3)%nat -> inh k = false -> 5 / 100000000 <= M (13 + k)%nat (13 + k)%nat) -> snd (accMax inh M) = false.
Proof.
  intros H. assert (A : forall p k, (k < 3)%nat -> snd p = false -> snd (accMaxStep inh M p k) = false).
  { intros [mx rr] k Hk E. unfold accMaxStep. cbv zeta. cbn [snd] in E. destruct (inh k) eqn:I; [exact E|]. destruct (sgt _ _); [exact E|].
    replace (slt (M (13 + k)%nat (13 + k)%nat) (slit 1 1000000000)) with false; [exact E|]. symmetry. apply sltR_false. rewrite slitR. specialize (H k Hk I). lra. }
  unfold accMax. do 3 (apply A; [lia|]). reflexivity.
Qed.
Lemma fix_inhibit f (c : covctx R) s : c_inhibit (fixCovarianceErrors f c s) = c_inhibit s.
Proof.
  unfold fixCovarianceErrors. cbn [c_inhibit setP]. unfold fixAccel. cbn [c_inhibit setP].
  destruct (_ && _ && _); [reflexivity|]. destruct (accMax _ _). reflexivity.
Qed.
Lemma fix_time f (c : covctx R) s : c_time_acc_bias (fixCovarianceErrors f c s) = c_time_acc_bias s \/ c_time_acc_bias (fixCovarianceErrors f c s) = x_time_last_imu c.
Proof.
  unfold fixCovarianceErrors. cbn [c_time_acc_bias setP]. unfold fixAccel. cbn [c_inhibit setP].
  destruct (_ && _ && _); [left; reflexivity|]. destruct (accMax _ _). cbn [c_time_acc_bias]. destruct (_ <? _)%Z; [auto|]. destruct (bad_acc_bias c); auto.
Qed.
Lemma est_setState x c i : estimated (setState x c) i <-> estimated c i.
Proof. reflexivity. Qed.
Lemma accHi_setState x c : accHi (setState x c) = accHi c. Proof. reflexivity. Qed.

(** ** One update *)
Lemma free_step (c : covctx R) (s : covst R) (innov Sv : R) a F :
  (a < 6)%nat -> let k := (a + 4)%nat in cP s k k < Sv -> clear_of_limits c s F ->
  (forall i, (i < 24)%nat -> F i i <= cP s i i - cP s i k * cP s k i / Sv) ->
  let '(c', s', ok) := fuseVelPosHeight innov Sv a c s in
  ok = true /\ (forall i j, (i < 24)%nat -> (j < 24)%nat -> cP s' i j = cP s i j - cP s i k * cP s k j / Sv) /\
  (forall i, (4 <= i)%nat -> x_st c' i = x_st c i - cP s i k / Sv * innov) /\ clear_of_limits c' s' F.
Proof.
  intros Ha k HSv (SO & Z & V & A) HF. assert (SO' := SO). destruct SO' as (HS & Hp & Hb & Hok).
  assert (Hk : (k < 24)%nat) by (unfold k; lia).
  pose proof (C20_direct_update c s innov (Sv - cP s k k) a Ha ltac:(lra) HS Hp Hb Hok) as T. cbv zeta in T. fold k in T.
  replace (cP s k k + (Sv - cP s k k)) with Sv in T by ring.
  assert (P0 : 0 <= cP s k k) by (apply psd_diag_nonneg; assumption).
  assert (HSq : quad (ev k) (cP s) <= Sv) by (rewrite quad_ev by exact Hk; lra).
  assert (HH : forall j, hP (ev k) (cP s) j = cP s k j) by (intros j; apply hP_ev; exact Hk).
  unfold fuseVelPosHeight in T |- *. cbv zeta in T |- *. fold k in T |- *.
  assert (HK : forall i j, (i < 24)%nat -> (j < 24)%nat -> (cP s i k / Sv * cP s k j)%R = hP (ev k) (cP s) i / Sv * hP (ev k) (cP s) j).
  { intros i j Hi Hj. rewrite !HH. rewrite (HS i k) by assumption. reflexivity. }
  set (KHP := fun row column => smul (sdiv (cP s row k) Sv) (cP s k column)) in *.
  rewrite (applyUpdate_ok c s (ev k) Sv innov HS Hp ltac:(lra) HSq KHP HK) in T |- *.
  destruct T as (_ & S' & P' & B' & VAR & COV & X & _).
  set (s1 := setP (msub (cP s) KHP) s) in *.
  assert (M1 : forall i j, cP s1 i j = cP s i j - cP s i k * cP s k j / Sv). { intros i j. unfold s1, msub, KHP. cbn [cP setP ssub smul sdiv RScalar]. field. lra. }
  assert (HS1 : symmetric24 (cP s1)). { intros i j Hi Hj. rewrite !M1. rewrite (HS i j), (HS i k), (HS k j) by assumption. field. lra. }
  assert (PS1 : psd (cP s1)) by (eapply msub_psd; try eassumption; lra).
  assert (IN : c_inhibit s1 = c_inhibit s) by reflexivity.
  assert (NR : c_inhibit s 0%nat && c_inhibit s 1%nat && c_inhibit s 2%nat = false -> accel_reset c s1 = false /\
     forall q, (q < 3)%nat -> c_inhibit s q = false -> accLo (fst (accMax (c_inhibit s) (cP s1))) <= cP s1 (13 + q)%nat (13 + q)%nat).
  { intros NI. destruct A as [A|(A & T1 & T2)]; [congruence|]. 
    assert (LB : forall q, (q < 3)%nat -> F (13 + q)%nat (13 + q)%nat <= cP s1 (13 + q)%nat (13 + q)%nat) by (intros q Hq; rewrite M1; apply HF; lia).
    assert (UB : forall q, (q < 3)%nat -> cP s1 (13 + q)%nat (13 + q)%nat <= cP s (13 + q)%nat (13 + q)%nat).
    { intros q Hq. rewrite M1. rewrite (HS (13 + q)%nat k) by lia. assert (0 <= cP s k (13 + q)%nat * cP s k (13 + q)%nat / Sv). { apply Rle_mult_inv_pos; [nra|lra]. } lra. }
    split.
    - unfold accel_reset. rewrite IN, accMax_noreset.
      + change (c_time_acc_bias s1) with (c_time_acc_bias s). destruct (bad_acc_bias c); [rewrite T1|rewrite T2]; rewrite andb_false_r; reflexivity.
      + intros q Hq I. eapply Rle_trans; [apply (A q Hq I)|apply LB, Hq].
    - intros q Hq I. destruct (A q Hq I) as [A1 A2]. unfold accLo. cbn [sfmax smul RScalar]. rewrite !slitR. apply Rmax_lub; [|specialize (LB q Hq); lra].
      destruct (accMax_in (c_inhibit s) (cP s1)) as [E|(l & Hl & Il & E)]; rewrite E.
      + specialize (LB q Hq). lra.
      + specialize (A2 l Hl Il). specialize (LB q Hq). specialize (UB l Hl). lra. }
  assert (ENT : forall i j, (i < 24)%nat -> (j < 24)%nat -> cP (fixCovarianceErrors true c s1) i j = cP s1 i j).
  { intros i j Hi Hj.
    assert (ZE : forall i j, (i < 24)%nat -> (j < 24)%nat -> ~ estimated c i -> cP s1 i j = 0).
    { intros p q Hp' Hq E. rewrite M1, (Z p q Hp' Hq E), (Z p k Hp' Hk E). unfold Rdiv. ring. }
    destruct (estimated_dec c i Hi) as [Ei|Ei]; [|rewrite fix_unest by auto; symmetry; apply ZE; assumption].
    destruct (estimated_dec c j Hj) as [Ej|Ej]; [|rewrite fix_unest by auto; rewrite (HS1 i j) by assumption; symmetry; apply ZE; assumption].
    destruct (Nat.eq_dec i j) as [->|Ne].
    - destruct (le_lt_dec 13 j) as [L|L]; [destruct (le_lt_dec 16 j) as [U|U]|].
      + rewrite fix_diag_any by (try assumption; lia). rewrite Rmax_right, Rmin_right; [reflexivity| |].
        * specialize (HF j Hj). rewrite M1. assert (L1 : cP s j j <= var_hi j) by (apply Hb; lia).
          assert (0 <= cP s j k * cP s k j / Sv). { rewrite (HS j k) by assumption. apply Rle_mult_inv_pos; [nra|lra]. } lra.
        * replace (var_lo j) with 0. { apply psd_diag_nonneg; [exact PS1|exact Hj]. }
          unfold var_lo. replace (j <? 10)%nat with false by (symmetry; apply Nat.ltb_ge; lia). rewrite andb_false_r. reflexivity.
      + assert (exists q, (q < 3)%nat /\ j = (13 + q)%nat) as (q & Hq & ->) by (exists (j - 13)%nat; lia).
        rewrite fix_diag_acc by exact Hq. rewrite IN. destruct (c_inhibit s q) eqn:I; [reflexivity|].
        assert (NI : c_inhibit s 0%nat && c_inhibit s 1%nat && c_inhibit s 2%nat = false).
        { assert (q = 0 \/ q = 1 \/ q = 2)%nat as [->|[->| ->]] by lia; rewrite I; rewrite ?andb_false_r; reflexivity. }
        destruct (NR NI) as [_ LO]. specialize (LO q Hq I). rewrite sconstrainR. destruct (Rlt_dec _ _) as [G|G]; [lra|]. destruct (Rlt_dec _ _) as [G'|G']; [|reflexivity].
        exfalso. assert (cP s (13 + q)%nat (13 + q)%nat <= accHi c) by (apply Hb; assumption).
        assert (0 <= cP s (13 + q)%nat k * cP s k (13 + q)%nat / Sv). { rewrite (HS (13 + q)%nat k) by lia. apply Rle_mult_inv_pos; [nra|lra]. } rewrite M1 in G'. lra.
      + rewrite fix_diag_any by (try assumption; lia). rewrite Rmax_right, Rmin_right; [reflexivity| |].
        * rewrite M1. assert (L1 : cP s j j <= var_hi j) by (apply Hb; lia).
          assert (0 <= cP s j k * cP s k j / Sv). { rewrite (HS j k) by assumption. apply Rle_mult_inv_pos; [nra|lra]. } lra.
        * unfold var_lo. destruct ((4 <=? j)%nat && (j <? 10)%nat) eqn:E.
          -- apply andb_prop in E. destruct E as [E1 E2]. apply Nat.leb_le in E1. apply Nat.ltb_lt in E2. specialize (V j ltac:(lia)). specialize (HF j Hj). rewrite M1. lra.
          -- apply psd_diag_nonneg; [exact PS1|exact Hj].
    - rewrite fix_entry_sym by assumption. destruct (c_inhibit s 0%nat && c_inhibit s 1%nat && c_inhibit s 2%nat) eqn:NI.
      + unfold accel_reset. rewrite IN, NI. reflexivity.
      + destruct (NR eq_refl) as [R0 _]. rewrite R0. reflexivity. }
  split; [reflexivity|]. split; [intros i j Hi Hj; rewrite ENT by assumption; apply M1|]. split; [exact X|].
  split; [|split; [|split]].
  - split; [exact S'|]. split; [exact P'|]. split; [exact B'|exact Hok].
  - intros i j Hi Hj E. rewrite est_setState in E. apply fix_unest; auto.
  - exact V.
  - rewrite fix_inhibit. rewrite IN. destruct A as [A|(A & T1 & T2)]; [left; exact A|]. right. split; [|split].
    + intros q Hq I. destruct (A q Hq I) as [A1 A2]. split; [exact A1|]. intros l Hl Il. specialize (A2 l Hl Il). rewrite ENT by lia. rewrite M1.
      assert (0 <= cP s (13 + l)%nat k * cP s k (13 + l)%nat / Sv). { rewrite (HS (13 + l)%nat k) by lia. apply Rle_mult_inv_pos; [nra|lra]. } lra.
    + destruct (fix_time true c s1) as [-> | ->]; [exact T1|exact T2].
    + exact T2.
Qed.

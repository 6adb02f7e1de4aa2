(** * C80: magnetic field check and observability from motion (mag_control.cpp)

    SenseModel.v; exact reals unless stated otherwise.  The outcomes feed the
    selection of magnetometer fusion (ControlModel.v). *)
From Coq Require Import Reals Lra Lia Psatz List Bool ZArith.
From Flocq Require Import Core BinarySingleNaN.
From Verif Require Import RealGeom CBase Scalar F32 F32More CovPredGen CovModel CovProofsR FusionModel ObsSpec SenseModel ControlModel.
Import ListNotations.
Open Scope R_scope.

(** lengths *)
Definition len3 (v : nat -> R) : R := sqrt (v 0%nat ^ 2 + v 1%nat ^ 2 + v 2%nat ^ 2).
Definition len2 (v : nat -> R) : R := sqrt (v 0%nat ^ 2 + v 1%nat ^ 2).
Lemma norm3_len (v : Vec R) : norm3 v = len3 v.
Proof. unfold norm3, dot3, len3. cbn [ssqrt sadd smul RScalar]. rewrite ?szeroR. f_equal. ring. Qed.
Lemma norm2_len (v : Vec R) : norm2 v = len2 v.
Proof. unfold norm2, dot2, len2. cbn [ssqrt sadd smul RScalar]. rewrite ?szeroR. f_equal. ring. Qed.
Lemma sleR_true (a b : R) : sle a b = true <-> a <= b.
Proof. cbn. destruct (Rle_dec a b); split; try congruence; auto; lra. Qed.

(** ** The field is declared disturbed exactly when its strength is off by more
    than 0.2 Gauss (location known) or outside 0.05..0.85 Gauss *)
Theorem C80_field_check : forall check origin (strength : R) (mag : Vec R),
  magDisturbed check origin strength mag = true <->
  check = true /\ (origin = true -> 2 / 10 < Rabs (len3 mag - strength)) /\ (origin = false -> len3 mag < 5 / 100 \/ 85 / 100 < len3 mag).
Proof.
  intros. unfold magDisturbed, fieldMatches. destruct check; [|split; [discriminate|intros [D _]; discriminate]].
  rewrite negb_true_iff. destruct origin; rewrite andb_false_iff, norm3_len, !slitR; cbn [sadd ssub RScalar].
  - split.
    + intro H. split; [reflexivity|]. split; [intros _|discriminate]. destruct H as [H|H].
      * apply Rnot_le_lt. intro L. apply Rabs_le_inv in L. assert (E : sle (strength - 2 / 10) (len3 mag) = true) by (apply sleR_true; lra). congruence.
      * apply Rnot_le_lt. intro L. apply Rabs_le_inv in L. assert (E : sle (len3 mag) (strength + 2 / 10) = true) by (apply sleR_true; lra). congruence.
    + intros (_ & H & _). specialize (H eq_refl). unfold Rabs in H. destruct (Rcase_abs _).
      * left. destruct (sle _ _) eqn:E; [|reflexivity]. apply sleR_true in E. lra.
      * right. destruct (sle _ _) eqn:E; [|reflexivity]. apply sleR_true in E. lra.
  - split.
    + intro H. split; [reflexivity|]. split; [discriminate|intros _]. destruct H as [H|H]; [left|right]; apply Rnot_le_lt; intro L.
      * assert (E : sle (45 / 100 - 40 / 100) (len3 mag) = true) by (apply sleR_true; lra). congruence.
      * assert (E : sle (len3 mag) (45 / 100 + 40 / 100) = true) by (apply sleR_true; lra). congruence.
    + intros (_ & _ & H). destruct (H eq_refl) as [L|L]; [left|right]; (destruct (sle _ _) eqn:E; [|reflexivity]); apply sleR_true in E; lra.
Qed.
(** the verdict does not depend on the attitude *)
Definition rotation3 (A : nat -> nat -> R) : Prop :=
  forall i j, (i < 3)%nat -> (j < 3)%nat -> A 0%nat i * A 0%nat j + A 1%nat i * A 1%nat j + A 2%nat i * A 2%nat j = if (i =? j)%nat then 1 else 0.
Theorem C80_field_check_attitude : forall check origin (strength : R) (mag : Vec R) A, rotation3 A ->
  magDisturbed check origin strength (rot3 A mag) = magDisturbed check origin strength mag.
Proof.
  intros check origin strength mag A H. unfold magDisturbed. assert (E : norm3 (rot3 A mag) = norm3 mag); [|rewrite E; reflexivity].
  rewrite !norm3_len. unfold len3, rot3. f_equal.
  pose proof (H 0%nat 0%nat ltac:(lia) ltac:(lia)) as H00. pose proof (H 1%nat 1%nat ltac:(lia) ltac:(lia)) as H11. pose proof (H 2%nat 2%nat ltac:(lia) ltac:(lia)) as H22.
  pose proof (H 0%nat 1%nat ltac:(lia) ltac:(lia)) as H01. pose proof (H 0%nat 2%nat ltac:(lia) ltac:(lia)) as H02. pose proof (H 1%nat 2%nat ltac:(lia) ltac:(lia)) as H12.
  cbn [Nat.eqb] in *.
  transitivity ((A 0%nat 0%nat * A 0%nat 0%nat + A 1%nat 0%nat * A 1%nat 0%nat + A 2%nat 0%nat * A 2%nat 0%nat) * mag 0%nat ^ 2 + (A 0%nat 1%nat * A 0%nat 1%nat + A 1%nat 1%nat * A 1%nat 1%nat + A 2%nat 1%nat * A 2%nat 1%nat) * mag 1%nat ^ 2
    + (A 0%nat 2%nat * A 0%nat 2%nat + A 1%nat 2%nat * A 1%nat 2%nat + A 2%nat 2%nat * A 2%nat 2%nat) * mag 2%nat ^ 2
    + 2 * (A 0%nat 0%nat * A 0%nat 1%nat + A 1%nat 0%nat * A 1%nat 1%nat + A 2%nat 0%nat * A 2%nat 1%nat) * mag 0%nat * mag 1%nat
    + 2 * (A 0%nat 0%nat * A 0%nat 2%nat + A 1%nat 0%nat * A 1%nat 2%nat + A 2%nat 0%nat * A 2%nat 2%nat) * mag 0%nat * mag 2%nat
    + 2 * (A 0%nat 1%nat * A 0%nat 2%nat + A 1%nat 1%nat * A 1%nat 2%nat + A 2%nat 1%nat * A 2%nat 2%nat) * mag 1%nat * mag 2%nat); [ring|].
  rewrite H00, H11, H22, H01, H02, H12. ring.
Qed.
(** binary32: a field with a NaN component is disturbed, and so is any field compared with a NaN table value; nothing is when the check is off *)
Lemma nan_add_l (a b : f32) : is_nan a = true -> is_nan (fadd a b) = true.
Proof. destruct a; try discriminate. destruct b as [[]|[]| |[] ? ? ?]; reflexivity. Qed.
Lemma nan_add_r (a b : f32) : is_nan b = true -> is_nan (fadd a b) = true.
Proof. destruct b; try discriminate. destruct a as [[]|[]| |[] ? ? ?]; reflexivity. Qed.
Lemma nan_mul_l (a b : f32) : is_nan a = true -> is_nan (fmul a b) = true.
Proof. destruct a; try discriminate. destruct b as [[]|[]| |[] ? ? ?]; reflexivity. Qed.
Lemma nan_sub_l (a b : f32) : is_nan a = true -> is_nan (fsub a b) = true.
Proof. destruct a; try discriminate. destruct b as [[]|[]| |[] ? ? ?]; reflexivity. Qed.
Lemma nan_sqrt (a : f32) : is_nan a = true -> is_nan (fsqrt a) = true.
Proof. destruct a; try discriminate. reflexivity. Qed.
Lemma nan_le_r (a b : f32) : is_nan b = true -> fle a b = false.
Proof. destruct b; try discriminate. destruct a as [[]|[]| |[] ? ? ?]; reflexivity. Qed.
Lemma nan_le_l (a b : f32) : is_nan a = true -> fle a b = false.
Proof. destruct a; try discriminate. reflexivity. Qed.
Lemma norm3_nan (v : Vec f32) : (exists k, (k < 3)%nat /\ is_nan (v k) = true) -> is_nan (norm3 v) = true.
Proof.
  intros (k & Hk & N). unfold norm3, dot3. cbn [ssqrt sadd smul FScalar]. apply nan_sqrt.
  destruct k as [|[|[|k]]]; [| | |lia].
  - apply nan_add_l, nan_add_l. first [apply nan_mul_l, N|apply nan_add_r, nan_mul_l, N].
  - apply nan_add_l, nan_add_r, nan_mul_l, N.
  - apply nan_add_r, nan_mul_l, N.
Qed.
Theorem C80_nan_field : forall origin (strength : f32) (mag : Vec f32),
  ((exists k, (k < 3)%nat /\ is_nan (mag k) = true) \/ (origin = true /\ is_nan strength = true) -> magDisturbed true origin strength mag = true) /\
  magDisturbed false origin strength mag = false.
Proof.
  intros. split; [|reflexivity]. intro H. unfold magDisturbed, fieldMatches. cbn [sle sadd ssub FScalar].
  destruct H as [H|[-> H]].
  - apply norm3_nan in H. destruct origin; rewrite (nan_le_r _ (norm3 mag) H); reflexivity.
  - rewrite (nan_le_l (fsub strength _)) by (apply nan_sub_l, H). reflexivity.
Qed.

(** ** Yaw observable from acceleration: started by twice the gate, kept above the gate, only with position aiding *)
Fixpoint yaw_run (gate : R) (l : list (bool * bool * Vec R)) (b : bool) : bool := match l with
  | [] => b | (gps, ev, a) :: l' => yaw_run gate l' (yawObservable b gps ev gate a) end.
Definition aided (x : bool * bool * Vec R) : Prop := fst (fst x) || snd (fst x) = true.
Lemma yawObsR b gps ev gate (a : Vec R) : yawObservable b gps ev gate a = true <-> (if b then gate else 2 * gate) < len2 a /\ gps || ev = true.
Proof.
  unfold yawObservable. rewrite andb_true_iff, norm2_len. destruct b; rewrite sltR_true; [reflexivity|].
  cbn [smul RScalar]. rewrite slitR. replace (IZR 2 / IZR 1 * gate) with (2 * gate) by (field). reflexivity.
Qed.
Theorem C80_yaw_observable_history : forall (gate : R) l b,
  yaw_run gate l b = true <->
  (b = true /\ forall x, In x l -> gate < len2 (snd x) /\ aided x) \/
  (exists l1 x l2, l = l1 ++ x :: l2 /\ 2 * gate < len2 (snd x) /\ aided x /\ yaw_run gate l1 b = false /\ forall y, In y l2 -> gate < len2 (snd y) /\ aided y).
Proof.
  intros gate l. induction l as [|x l IH] using rev_ind; intro b.
  - cbn. split; [intro H; left; split; [exact H|tauto]|]. intros [[H _]|(l1 & x & l2 & E & _)]; [exact H|]. destruct l1; discriminate.
  - assert (E : yaw_run gate (l ++ [x]) b = yawObservable (yaw_run gate l b) (fst (fst x)) (snd (fst x)) gate (snd x)).
    { clear. revert b. induction l as [|[[g e] a] l IH]; intro b; [destruct x as [[g e] a]; reflexivity|]. cbn [yaw_run app]. apply IH. }
    rewrite E, yawObsR. specialize (IH b). destruct (yaw_run gate l b) eqn:Y.
    + split.
      * intros [H1 H2]. destruct (proj1 IH eq_refl) as [[B A]|(l1 & y & l2 & EL & G & AI & N & A)].
        -- left. split; [exact B|]. intros z Z. apply in_app_iff in Z. destruct Z as [Z|[<-|[]]]; [apply A, Z|split; assumption].
        -- right. exists l1, y, (l2 ++ [x]). split; [rewrite EL, <- app_assoc; reflexivity|]. do 3 (split; [assumption|]).
           intros z Z. apply in_app_iff in Z. destruct Z as [Z|[<-|[]]]; [apply A, Z|split; assumption].
      * intros [[_ A]|(l1 & y & l2 & EL & G & AI & N & A)]; [apply (A x), in_app_iff; right; left; reflexivity|].
        destruct l2 as [|z l2] using rev_ind.
        -- apply app_inj_tail in EL. destruct EL as [-> ->]. congruence.
        -- rewrite app_comm_cons, app_assoc in EL. apply app_inj_tail in EL. destruct EL as [_ ->]. apply A. apply in_app_iff. right. left. reflexivity.
    + split.
      * intros [H1 H2]. right. exists l, x, []. split; [reflexivity|]. do 3 (split; [assumption|]). intros y [].
      * intros [[-> A]|(l1 & y & l2 & EL & G & AI & N & A)].
        -- exfalso. assert (false = true); [|discriminate]. apply IH. left. split; [reflexivity|]. intros y Hy. apply A, in_app_iff. left. exact Hy.
        -- destruct l2 as [|z l2] using rev_ind.
           ++ apply app_inj_tail in EL. destruct EL as [_ ->]. split; assumption.
           ++ exfalso. assert (false = true); [|discriminate]. apply IH. right. rewrite app_comm_cons, app_assoc in EL. apply app_inj_tail in EL. destruct EL as [-> _].
              exists l1, y, l2. repeat (split; [reflexivity||assumption|]). intros w W. apply A, in_app_iff. left. exact W.
Qed.

(** ** Magnetometer bias observable from yaw motion.  Between two checks the IMU
    samples (yaw change, period) accumulate *)
Fixpoint yaw_motion (l : list (R * R)) (delta rate : R) : R * R := match l with
  | [] => (delta, rate) | (spin, dt) :: l' => let '(d, r) := yawMotion spin dt delta rate in yaw_motion l' d r end.
Fixpoint total_yaw (l : list (R * R)) : R := match l with [] => 0 | (s, _) :: l' => s + total_yaw l' end.
Fixpoint total_time (l : list (R * R)) : R := match l with [] => 0 | (_, d) :: l' => d + total_time l' end.
Lemma yawMotionR (spin dt delta rate : R) : yawMotion spin dt delta rate = (delta + spin, 95 / 100 * rate + 5 / 100 * spin / dt).
Proof. reflexivity. Qed.
Theorem C80_yaw_motion : forall (l : list (R * R)) (delta rate : R),
  fst (yaw_motion l delta rate) = delta + total_yaw l /\
  (** the rate filter stays within the rates seen, and converges to a constant rate *)
  (forall w, Rabs rate <= w -> (forall x, In x l -> Rabs (fst x / snd x) <= w) -> Rabs (snd (yaw_motion l delta rate)) <= w) /\
  (forall w, (forall x, In x l -> fst x / snd x = w) -> snd (yaw_motion l delta rate) - w = (95 / 100) ^ length l * (rate - w)).
Proof.
  induction l as [|[s d] l IH]; intros delta rate.
  - cbn. split; [ring|]. split; [tauto|]. intros. ring.
  - cbn [yaw_motion total_yaw length]. rewrite yawMotionR. destruct (IH (delta + s) (95 / 100 * rate + 5 / 100 * s / d)) as (A & B & C).
    split; [rewrite A; ring|]. split.
    + intros w H0 H. apply B; [|intros; apply H; right; assumption]. specialize (H (s, d) (or_introl eq_refl)). cbn [fst snd] in H.
      replace (5 / 100 * s / d) with (5 / 100 * (s / d)) by (unfold Rdiv; ring). apply Rabs_le_inv in H0. apply Rabs_le_inv in H. apply Rabs_le. lra.
    + intros w H. rewrite (C w) by (intros; apply H; right; assumption). specialize (H (s, d) (or_introl eq_refl)). cbn [fst snd] in H.
      replace (5 / 100 * s / d) with (5 / 100 * (s / d)) by (unfold Rdiv; ring). rewrite H. cbn [pow]. field.
Qed.
(** one check: begins with a filtered rate above the gate, continues while the
    mean rate since the last check exceeds half the gate *)
Theorem C80_bias_observable : forall prev (gate rate delta dt : R), 0 < dt ->
  magBiasObservable prev gate rate delta dt = true <-> if prev : bool then gate / 2 < Rabs delta / dt else gate < Rabs rate.
Proof.
  intros prev gate rate delta dt H. unfold magBiasObservable. destruct prev; cbn [negb andb].
  - rewrite sltR_true. cbn [smul sabs RScalar]. rewrite slitR. split; intro L.
    + apply (Rmult_lt_reg_r dt); [exact H|]. replace (Rabs delta / dt * dt) with (Rabs delta) by (field; lra). lra.
    + apply (Rmult_lt_compat_r dt) in L; [|exact H]. replace (Rabs delta / dt * dt) with (Rabs delta) in L by (field; lra). lra.
  - cbn [sabs RScalar]. destruct (slt gate (Rabs rate)) eqn:E; [apply sltR_true in E; tauto|]. apply sltR_false in E. split; [discriminate|lra].
Qed.
(** history of checks; between checks a list of IMU samples; the accumulated yaw restarts from zero at each check *)
Fixpoint bias_run (gate : R) (checks : list (list (R * R))) (b : bool) (rate : R) : bool * R := match checks with
  | [] => (b, rate)
  | l :: r => let '(delta, rate') := yaw_motion l 0 rate in bias_run gate r (magBiasObservable b gate rate' delta (total_time l)) rate' end.
(** a vehicle that always turns slower than the gate is never declared observable ... *)
Theorem C80_slow_turn_never_observable : forall (gate : R) checks (rate : R), Rabs rate <= gate ->
  (forall l, In l checks -> forall x, In x l -> Rabs (fst x / snd x) <= gate) -> fst (bias_run gate checks false rate) = false.
Proof.
  intros gate checks. induction checks as [|l r IH]; intros rate H0 H; [reflexivity|]. cbn [bias_run].
  destruct (C80_yaw_motion l 0 rate) as (_ & B & _). specialize (B gate H0 (H l (or_introl eq_refl))).
  destruct (yaw_motion l 0 rate) as [delta rate'] eqn:E. cbn [snd] in B.
  assert (N : magBiasObservable false gate rate' delta (total_time l) = false).
  { unfold magBiasObservable. cbn [negb andb sabs RScalar]. assert (S : slt gate (Rabs rate') = false) by (apply sltR_false, B). rewrite S. reflexivity. }
  rewrite N. apply IH; [exact B|]. intros l' Hl'. apply H. right. exact Hl'.
Qed.
(** ... and one that turns steadily faster than the gate is, from the first
    check after the filter has settled, for as long as it keeps turning *)
Definition steady (w : R) (l : list (R * R)) : Prop := l <> [] /\ forall x, In x l -> 0 < snd x /\ fst x / snd x = w.
Lemma steady_total w l : steady w l -> total_yaw l = w * total_time l /\ 0 < total_time l.
Proof.
  intros [N H]. assert (E : forall l', (forall x, In x l' -> 0 < snd x /\ fst x / snd x = w) -> total_yaw l' = w * total_time l' /\ 0 <= total_time l').
  { induction l' as [|[s d] l' IH]; intro H'; cbn [total_yaw total_time]; [split; lra|].
    destruct (H' (s, d) (or_introl eq_refl)) as [D Q]. cbn [fst snd] in *. destruct IH as [I1 I2]; [intros; apply H'; right; assumption|].
    split; [|lra]. rewrite I1. rewrite <- Q. field. lra. }
  destruct (E l H) as [E1 E2]. split; [exact E1|]. destruct l as [|[s d] l]; [congruence|]. cbn [total_time] in *.
  destruct (H (s, d) (or_introl eq_refl)) as [D _]. cbn [snd] in D. destruct (E l) as [_ E3]; [intros; apply H; right; assumption|]. lra.
Qed.
Lemma bias_kept gate w checks rate : 0 < gate < Rabs w -> (forall l, In l checks -> steady w l) -> fst (bias_run gate checks true rate) = true.
Proof.
  intros G. revert rate. induction checks as [|l r IH]; intros rate H; [reflexivity|]. cbn [bias_run].
  destruct (C80_yaw_motion l 0 rate) as (A & _ & _). destruct (yaw_motion l 0 rate) as [delta rate'] eqn:E. cbn [fst] in A.
  destruct (steady_total w l (H l (or_introl eq_refl))) as [T P].
  assert (M : magBiasObservable true gate rate' delta (total_time l) = true).
  { apply C80_bias_observable; [exact P|]. rewrite A, T, Rplus_0_l, Rabs_mult, (Rabs_pos_eq (total_time l)) by lra.
    replace (Rabs w * total_time l / total_time l) with (Rabs w) by (field; lra). lra. }
  rewrite M. apply IH. intros l' Hl'. apply H. right. exact Hl'.
Qed.
Lemma bias_run_app gate a b f r : bias_run gate (a ++ b) f r = bias_run gate b (fst (bias_run gate a f r)) (snd (bias_run gate a f r)).
Proof. revert f r. induction a as [|l a IH]; intros f r; [reflexivity|]. cbn [app bias_run]. destruct (yaw_motion l 0 r) as [d r']. apply IH. Qed.
Lemma bias_rate gate w checks f r : (forall l, In l checks -> steady w l) ->
  snd (bias_run gate checks f r) - w = (95 / 100) ^ length (concat checks) * (r - w).
Proof.
  revert f r. induction checks as [|l c IH]; intros f r H; [cbn; ring|]. cbn [bias_run concat].
  destruct (C80_yaw_motion l 0 r) as (_ & _ & C). specialize (C w). destruct (yaw_motion l 0 r) as [d r'] eqn:E. cbn [snd] in C.
  rewrite IH by (intros; apply H; right; assumption). rewrite C by (intros; apply (H l (or_introl eq_refl)); assumption).
  rewrite app_length, pow_add. ring.
Qed.
Theorem C80_fast_turn_observable : forall (gate w rate : R) before l after b, 0 < gate < Rabs w ->
  (forall x, In x (before ++ l :: after) -> steady w x) ->
  (95 / 100) ^ length (concat (before ++ [l])) * Rabs (rate - w) < Rabs w - gate ->
  fst (bias_run gate (before ++ l :: after) b rate) = true.
Proof.
  intros gate w rate before l after b G H S.
  replace (before ++ l :: after) with ((before ++ [l]) ++ after) by (rewrite <- app_assoc; reflexivity).
  rewrite bias_run_app. set (bl := before ++ [l]) in *.
  assert (HB : forall x, In x bl -> steady w x).
  { intros x X. apply H. unfold bl in X. apply in_app_iff in X. apply in_app_iff. destruct X as [X|[<-|[]]]; [left; exact X|right; left; reflexivity]. }
  assert (F : fst (bias_run gate bl b rate) = true).
  { unfold bl. rewrite bias_run_app. set (f := fst (bias_run gate before b rate)). set (r := snd (bias_run gate before b rate)).
    assert (HS : steady w l) by (apply H, in_app_iff; right; left; reflexivity). destruct f.
    - apply (bias_kept gate w [l] r G). intros x [<-|[]]. exact HS.
    - pose proof (bias_rate gate w bl b rate HB) as R0. unfold bl in R0. rewrite bias_run_app in R0. fold f r in R0.
      replace (fst (bias_run gate before b rate)) with (fst (bias_run gate before b rate)) in R0 by reflexivity.
      cbn [bias_run] in *. destruct (yaw_motion l 0 r) as [d r'] eqn:E. cbn [snd fst] in *.
      destruct (steady_total w l HS) as [_ P]. apply C80_bias_observable; [exact P|].
      assert (L : Rabs (r' - w) < Rabs w - gate).
      { rewrite R0, Rabs_mult, (Rabs_pos_eq ((95 / 100) ^ _)) by (apply pow_le; lra). exact S. }
      pose proof (Rabs_triang_inv w (w - r')) as TI. replace (w - (w - r')) with r' in TI by ring. rewrite (Rabs_minus_sym w r') in TI. lra. }
  rewrite F. apply (bias_kept gate w); [exact G|]. intros x X. apply H, in_app_iff. right. right. exact X.
Qed.

(** ** Connection with the control logic: with the inputs read from the data, the
    flags of the control logic are these functions *)
Theorem C80_control_uses_tests : forall (p : params) (i : inp) (s : st) (strength : R) (mag acc : Vec R) (gate rgate rate delta dt : R),
  ib i I_mag_match = (if ib i I_ned_origin then fieldMatches (norm3 mag) strength (slit 2 10) else fieldMatches (norm3 mag) (slit 45 100) (slit 40 100)) ->
  ib i I_accel_gt_gate = slt gate (norm2 acc) -> ib i I_accel_gt_2gate = slt (smul (slit 2 1) gate) (norm2 acc) ->
  ib i I_yaw_rate_gt_gate = slt rgate (sabs rate) -> ib i I_yaw_sustained = slt (smul (smul (slit 1 2) rgate) dt) (sabs delta) ->
  gb (checkMagFieldStrength p i s) F_mag_field_disturbed = magDisturbed (p_check_mag_strength p) (ib i I_ned_origin) strength mag /\
  gb (check3DMagFusionSuitability i s) L_yaw_angle_observable = yawObservable (gb s L_yaw_angle_observable) (gb s F_gps) (gb s F_ev_pos) gate acc /\
  gb (check3DMagFusionSuitability i s) L_mag_bias_observable = magBiasObservable (gb s L_mag_bias_observable) rgate rate delta dt /\
  (gz (check3DMagFusionSuitability i s) T_mov_3d_mag_suitable =
     if yawObservable (gb s L_yaw_angle_observable) (gb s F_gps) (gb s F_ev_pos) gate acc || magBiasObservable (gb s L_mag_bias_observable) rgate rate delta dt
     then iz i J_imu else gz s T_mov_3d_mag_suitable).
Proof.
  intros p i s strength mag acc gate rgate rate delta dt M A1 A2 Y1 Y2. 
  assert (MB : magBiasObservable (gb s L_mag_bias_observable) rgate rate delta dt = (if gb s L_mag_bias_observable then ib i I_yaw_sustained else ib i I_yaw_rate_gt_gate)).
  { unfold magBiasObservable. rewrite Y1, Y2. destruct (gb s L_mag_bias_observable); cbn [negb andb]; [reflexivity|]. destruct (slt rgate _); reflexivity. }
  assert (YO : yawObservable (gb s L_yaw_angle_observable) (gb s F_gps) (gb s F_ev_pos) gate acc = ((if gb s L_yaw_angle_observable then ib i I_accel_gt_gate else ib i I_accel_gt_2gate) && (gb s F_gps || gb s F_ev_pos))).
  { unfold yawObservable. rewrite A1, A2. reflexivity. }
  rewrite MB, YO. clear MB YO A1 A2 Y1 Y2. split.
  - unfold checkMagFieldStrength, magDisturbed. cbn. rewrite M. destruct (p_check_mag_strength p); [|reflexivity]. cbn. destruct (ib i I_ned_origin); reflexivity.
  - clear M. unfold check3DMagFusionSuitability, if_, setb, setz. cbn.
    destruct (gb s L_mag_bias_observable), (gb s L_yaw_angle_observable), (ib i I_yaw_sustained), (ib i I_yaw_rate_gt_gate), (ib i I_accel_gt_gate), (ib i I_accel_gt_2gate), (gb s F_gps), (gb s F_ev_pos); cbn; repeat split.
Qed.
Example C80_ex : rotation3 (fun i j => match i, j with 0%nat, 1%nat => -1 | 1%nat, 0%nat => 1 | 2%nat, 2%nat => 1 | _, _ => 0 end) /\
  magDisturbed true false 0 (fun k => match k with 0%nat => 3 | _ => 0 end) = true.
Proof.
  split.
  - intros i j Hi Hj. destruct i as [|[|[|i]]]; [| | |lia]; (destruct j as [|[|[|j]]]; [| | |lia]); cbn; lra.
  - apply C80_field_check. split; [reflexivity|]. split; [discriminate|]. intros _. right. unfold len3.
    replace (3 ^ 2 + 0 ^ 2 + 0 ^ 2) with (3 ^ 2) by ring. rewrite sqrt_pow2 by lra. lra.
Qed.
Example C80_turn_ex : steady 2 [(2/100, 1/100); (1/100, 1/200)].
Proof. split; [discriminate|]. intros x [<-|[<-|[]]]; cbn; lra. Qed.
Print Assumptions C80_field_check. Print Assumptions C80_field_check_attitude. Print Assumptions C80_nan_field. Print Assumptions C80_yaw_observable_history.
Print Assumptions C80_yaw_motion. Print Assumptions C80_bias_observable. Print Assumptions C80_slow_turn_never_observable. Print Assumptions C80_fast_turn_observable. Print Assumptions C80_control_uses_tests.

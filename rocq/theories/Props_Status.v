(** * Properties C26, C38, C39, C56: what the filter reports about itself *)
From Coq Require Import ZArith Bool Lia List Reals Lra.
From Flocq Require Import Core IEEE754.BinarySingleNaN.
From Verif Require Import CBase F32 F32More F32Sign Scalar StatusModel StatusProofs.
Import ListNotations.
Open Scope Z_scope.

(** ** Bits *)
Lemma wbit_test k b w j : 0 <= k -> 0 <= j -> Z.testbit (wbit k b w) j = if j =? k then b else Z.testbit w j.
Proof.
  intros Hk Hj. unfold wbit. destruct b.
  - destruct (Z.eqb_spec j k) as [->|N]; [apply Z.setbit_eq; exact Hk|apply Z.setbit_neq; lia].
  - destruct (Z.eqb_spec j k) as [->|N]; [apply Z.clearbit_eq|apply Z.clearbit_neq; lia].
Qed.
Lemma shift1_test k j : 0 <= k -> 0 <= j -> Z.testbit (Z.shiftl 1 k) j = (j =? k).
Proof. intros Hk Hj. rewrite Z.shiftl_spec by lia. destruct (Z.eqb_spec j k) as [->|N]; [rewrite Z.sub_diag; reflexivity|].
  destruct (Z.ltb_spec j k); [apply Z.testbit_neg_r; lia|]. destruct (j - k) eqn:E; try lia. reflexivity. Qed.
Lemma or_clr_test (b : bool) k w j : 0 <= k -> 0 <= j -> Z.testbit (if b then or_bit k w else clr_bit k w) j = if j =? k then b else Z.testbit w j.
Proof.
  intros Hk Hj. destruct b; unfold or_bit, clr_bit.
  - rewrite Z.lor_spec, shift1_test by assumption. destruct (j =? k); [apply orb_true_r|apply orb_false_r].
  - rewrite Z.land_spec, Z.lnot_spec, shift1_test by assumption. destruct (j =? k); [apply andb_false_r|apply andb_true_r].
Qed.
Lemma mask16 j : 0 <= j -> Z.testbit 65535 j = (j <? 16).
Proof. intros H. change 65535 with (Z.ones 16). destruct (Z.ltb_spec j 16); [apply Z.ones_spec_low; lia|apply Z.ones_spec_high; lia]. Qed.

(** ** C26 *)
(** a fault flag is set: flags are numbered as in the documentation *)
Definition flag_set (w : Z) (k : Z) : Prop := Z.testbit w k = true.
Definition no_flag_below (n : Z) (w : Z) : Prop := forall k, 0 <= k < n -> Z.testbit w k = false.
Theorem C26_reported_value : forall w, 0 <= w -> (fault_value w = 0 <-> no_flag_below 16 w).
Proof.
  intros w Hw. unfold fault_value, no_flag_below. split.
  - intros E k Hk. assert (A : Z.testbit (Z.land w 65535) k = false) by (rewrite E; apply Z.bits_0).
    rewrite Z.land_spec, mask16 in A by lia. rewrite (proj2 (Z.ltb_lt k 16)) in A by lia. rewrite andb_true_r in A. exact A.
  - intros H. apply Z.bits_inj'. intros k Hk. rewrite Z.land_spec, mask16, Z.bits_0 by exact Hk. destruct (Z.ltb_spec k 16); [rewrite H by lia|]; [reflexivity|apply andb_false_r].
Qed.
(** clearing the value clears exactly flags 0-15 ... *)
Theorem C26_reset_clears_low_flags : forall w k, 0 <= k -> Z.testbit (fault_reset w) k = if k <? 16 then false else Z.testbit w k.
Proof.
  intros w k Hk. unfold fault_reset. rewrite Z.land_spec, Z.lnot_spec, mask16 by exact Hk. destruct (k <? 16); [apply andb_false_r|apply andb_true_r].
Qed.
(** ... so the accelerometer faults survive a filter reset (a defect) *)
Theorem C26_reset_clears_all_refuted : ~ (forall w, 0 <= w < 2 ^ 18 -> no_flag_below 18 (fault_reset w)).
Proof. intros H. specialize (H (2 ^ 16) ltac:(lia) 16 ltac:(lia)). vm_compute in H. discriminate. Qed.
Theorem C26_value_covers_all_refuted : ~ (forall w, 0 <= w < 2 ^ 18 -> fault_value w = 0 -> no_flag_below 18 w).
Proof. intros H. specialize (H (2 ^ 17) ltac:(lia) eq_refl 17 ltac:(lia)). vm_compute in H. discriminate. Qed.

(** the reported solution status, bit by bit *)
Definition height_source (c : sflags) : bool := s_baro_hgt c || s_gps_hgt c || s_rng_hgt c || s_ev_hgt c.
Definition horizontal_aiding (c : sflags) : bool := s_gps c || s_flow c || s_ev_pos c || s_ev_vel c || (s_aspd c && s_beta c).
Lemma aiding_eq c : aiding_active c = horizontal_aiding c.
Proof. destruct c as [a b [] [] d e f [] h [] [] []]; reflexivity. Qed.
Theorem C26_solution_status : forall c fault hv gv0 gv1 gp0 m0 m1 m2 y junk, 0 <= fault ->
  let w := soln_status c fault hv gv0 gv1 gp0 m0 m1 m2 y junk in
  (flag_set w 0 <-> s_tilt c = true /\ s_yaw c = true /\ no_flag_below 16 fault) /\
  (flag_set w 1 <-> horizontal_aiding c = true /\ no_flag_below 16 fault) /\
  (flag_set w 2 <-> height_source c = true /\ no_flag_below 16 fault) /\
  (flag_set w 3 <-> (s_gps c = true \/ s_ev_pos c = true \/ s_flow c = true) /\ no_flag_below 16 fault) /\
  (flag_set w 4 <-> (s_gps c = true \/ s_ev_pos c = true) /\ no_flag_below 16 fault) /\
  (flag_set w 5 <-> flag_set w 2) /\ (flag_set w 6 <-> hv = true) /\ (flag_set w 7 <-> ~ flag_set w 1) /\
  (flag_set w 8 <-> flag_set w 3) /\ (flag_set w 9 <-> flag_set w 4) /\
  (flag_set w 10 <-> (fgt gv0 f1 = true \/ fgt gv1 f1 = true \/ fgt gp0 f1 = true) /\ flt (vmax3 m0 m1 m2) f1 = true /\ flt y f1 = true) /\
  (flag_set w 11 <-> flag_set fault 16) /\
  (** the remaining bits are whatever the uninitialised variable held (a defect) *)
  (forall k, 12 <= k -> Z.testbit w k = Z.testbit junk k).
Proof.
  intros c fault hv gv0 gv1 gp0 m0 m1 m2 y junk Hf. cbv zeta. unfold flag_set, soln_status. rewrite <- (C26_reported_value fault Hf), <- aiding_eq.
  set (nf := fault_value fault =? 0). assert (NF : fault_value fault = 0 <-> nf = true) by (unfold nf; symmetry; apply Z.eqb_eq). rewrite !NF. clear NF. clearbody nf.
  repeat rewrite wbit_test by lia. cbn [Z.eqb Pos.eqb].
  assert (AB : forall a b : bool, (a && b) = (b && a)) by (intros [] []; reflexivity).
  split; [destruct (s_tilt c), (s_yaw c), nf; cbn; intuition congruence|].
  split; [rewrite (AB (s_beta c)); unfold aiding_active, n_sources; destruct (s_gps c), (s_flow c), (s_ev_pos c), (s_ev_vel c), (s_aspd c && s_beta c), nf; cbn; intuition congruence|].
  split; [unfold height_source; destruct (s_baro_hgt c), (s_ev_hgt c), (s_gps_hgt c), (s_rng_hgt c), nf; cbn; intuition congruence|].
  split; [destruct (s_gps c), (s_ev_pos c), (s_flow c), nf; cbn; intuition congruence|].
  split; [destruct (s_gps c), (s_ev_pos c), nf; cbn; intuition congruence|].
  split; [reflexivity|]. split; [reflexivity|].
  split; [match goal with |- negb ?b = true <-> _ => destruct b; cbn; intuition congruence end|].
  split; [reflexivity|]. split; [reflexivity|].
  split; [rewrite !andb_true_iff, !orb_true_iff; tauto|]. split; [reflexivity|].
  intros k Hk. repeat (rewrite wbit_test by lia; match goal with |- context [k =? ?n] => rewrite (proj2 (Z.eqb_neq k n)) by lia end). reflexivity.
Qed.
(** consequence (a defect): a good attitude can be reported while accelerometer faults are flagged *)
Theorem C26_good_attitude_without_fault_refuted :
  ~ (forall c fault hv gv0 gv1 gp0 m0 m1 m2 y junk, 0 <= fault < 2 ^ 18 -> flag_set (soln_status c fault hv gv0 gv1 gp0 m0 m1 m2 y junk) 0 -> no_flag_below 18 fault).
Proof.
  intros H. specialize (H (mkSf true true true false true false false false false false false false) (2 ^ 16 + 2 ^ 17) false f0 f0 f0 f0 f0 f0 f0 0 ltac:(lia) eq_refl 16 ltac:(lia)).
  vm_compute in H. discriminate.
Qed.

(** ** C39 *)
(** after any history of consistency checks, each bit shows the outcome of the last check
    that wrote it.  The table of which check writes which bit, and with which outcome: *)
Definition not_passed (r : f32) : bool := negb (fle r f1).   (** NaN counts as failed *)
Definition exceeded (r : f32) : bool := fgt r f1.            (** NaN counts as passed *)
Definition outcome (c : chk) (bit : Z) : option bool :=
  match c with
  | HorVel r => if bit =? 0 then Some (not_passed r) else None
  | VerVel r => if bit =? 1 then Some (not_passed r) else None
  | HorPos r => if bit =? 2 then Some (not_passed r) else None
  | VerPos r => if bit =? 3 then Some (not_passed r) else None
  | Mag r0 r1 r2 => if bit =? 3 then Some (exceeded r0) else if bit =? 4 then Some (exceeded r1) else if bit =? 5 then Some (exceeded r2) else None
  | Yaw r => if bit =? 7 then Some (exceeded r) else None
  | Airspeed r => if bit =? 8 then Some (exceeded r) else None
  | Sideslip r => if bit =? 9 then Some (exceeded r) else None
  | Hagl r reset => if bit =? 10 then (if not_passed r && reset then None else Some (not_passed r)) else None
  | Flow r0 r1 => if bit =? 10 then Some (exceeded r0) else if bit =? 11 then Some (exceeded r1) else None
  end.
(** outcome of the last check in the history that wrote the bit *)
Fixpoint last_outcome (l : list chk) (bit : Z) (init : bool) : bool :=
  match l with
  | [] => init
  | c :: l => last_outcome l bit (match outcome c bit with Some b => b | None => init end)
  end.
Lemma chk_step_bit c w k : 0 <= k -> Z.testbit (chk_step c w) k = match outcome c k with Some b => b | None => Z.testbit w k end.
Proof.
  intros Hk. destruct c; cbn [chk_step outcome].
  1-4: rewrite wbit_test by lia; destruct (Z.eqb k _); reflexivity.
  - unfold mag_step. rewrite !or_clr_test by lia. cbn [Z.add Pos.add Pos.add_carry Pos.succ].
    destruct (Z.eqb_spec k 5) as [->|]; [reflexivity|]. destruct (Z.eqb_spec k 4) as [->|]; [reflexivity|]. destruct (Z.eqb_spec k 3); reflexivity.
  - rewrite wbit_test by lia; destruct (Z.eqb k _); reflexivity.
  - rewrite wbit_test by lia; destruct (Z.eqb k _); reflexivity.
  - rewrite wbit_test by lia; destruct (Z.eqb k _); reflexivity.
  - unfold not_passed. destruct (fle r f1); cbn [negb andb]; [rewrite wbit_test by lia; destruct (Z.eqb k _); reflexivity|].
    destruct timed_out; [destruct (Z.eqb k _); reflexivity|]. rewrite wbit_test by lia; destruct (Z.eqb k _); reflexivity.
  - unfold flow_step. rewrite !or_clr_test by lia. cbn [Z.add Pos.add Pos.add_carry Pos.succ].
    destruct (Z.eqb_spec k 11) as [->|]; [reflexivity|]. destruct (Z.eqb_spec k 10); reflexivity.
Qed.
Theorem C39_history : forall l w k, 0 <= k -> Z.testbit (chk_run l w) k = last_outcome l k (Z.testbit w k).
Proof.
  intros l w k Hk. revert w. induction l as [|c l IH]; intros w; [reflexivity|]. cbn [last_outcome]. unfold chk_run in *. cbn [fold_left]. rewrite IH, chk_step_bit by exact Hk. reflexivity.
Qed.
(** a measurement outside its gates sets one of the bits its check writes; one inside clears them all
    (except a terrain measurement to which the terrain estimate was reset) *)
Lemma single_bit n b : 0 <= n -> (b = true <-> exists k, 0 <= k /\ (if k =? n then Some b else None) = Some true).
Proof.
  intros Hn. split; [intros ->; exists n; rewrite Z.eqb_refl; auto|]. intros (k & _ & H). destruct (k =? n); [injection H; auto|discriminate].
Qed.
Theorem C39_gate_and_bits : forall c w, (forall r, c <> Hagl r true) ->
  (within_gate c = false <-> exists k, 0 <= k /\ outcome c k <> None /\ Z.testbit (chk_step c w) k = true).
Proof.
  intros c w NH.
  assert (G : within_gate c = false <-> exists k, 0 <= k /\ outcome c k = Some true).
  { destruct c; cbn [within_gate outcome]; unfold not_passed, exceeded.
    1-4: rewrite <- single_bit by lia; symmetry; apply negb_true_iff.
    2-4: rewrite <- single_bit by lia; apply negb_false_iff.
    - rewrite negb_false_iff, !orb_true_iff. split.
      + intros [[H|H]|H]; [exists 3|exists 4|exists 5]; (split; [lia|]); cbn [Z.eqb Pos.eqb]; rewrite H; reflexivity.
      + intros (k & Hk & H). destruct (Z.eqb k 3); [injection H; tauto|]. destruct (Z.eqb k 4); [injection H; tauto|]. destruct (Z.eqb k 5); [injection H; tauto|discriminate].
    - destruct timed_out; [exfalso; apply (NH r); reflexivity|]. rewrite andb_false_r. split.
      + intros H. exists 10. split; [lia|]. cbn [Z.eqb Pos.eqb]. rewrite H. reflexivity.
      + intros (k & Hk & H). destruct (Z.eqb k 10); [|discriminate]. injection H as H. apply negb_true_iff in H. exact H.
    - rewrite negb_false_iff, !orb_true_iff. split.
      + intros [H|H]; [exists 10|exists 11]; (split; [lia|]); cbn [Z.eqb Pos.eqb]; rewrite H; reflexivity.
      + intros (k & Hk & H). destruct (Z.eqb k 10); [injection H; tauto|]. destruct (Z.eqb k 11); [injection H; tauto|discriminate]. }
  rewrite G. split; intros (k & Hk & H); exists k; (split; [exact Hk|]).
  - rewrite chk_step_bit, H by exact Hk. split; [discriminate|reflexivity].
  - destruct H as [H1 H2]. rewrite chk_step_bit in H2 by exact Hk. destruct (outcome c k) as [[]|]; congruence.
Qed.
(** defects: the documented bits of the three magnetometer axes are 4, 5, 6 and of the two flow
    axes 11, 12.  The code writes one bit lower: a rejected X axis is reported as a rejected
    vertical position, and accepting the magnetometer clears a reported vertical position rejection *)
Theorem C39_magnetometer_bits_refuted :
  ~ (forall r0 r1 r2 w, Z.testbit (chk_step (Mag r0 r1 r2) w) 4 = exceeded r0 /\ Z.testbit (chk_step (Mag r0 r1 r2) w) 6 = exceeded r2).
Proof. intros H. destruct (H f0 f0 (f_of_Z 2) 0) as [_ H2]. vm_compute in H2. discriminate. Qed.
Theorem C39_magnetometer_clears_height_rejection : forall r0 r1 r2 w, fgt r0 f1 = false -> Z.testbit (chk_step (Mag r0 r1 r2) w) 3 = false.
Proof. intros r0 r1 r2 w H. rewrite chk_step_bit by lia. cbn. exact H. Qed.
Theorem C39_magnetometer_z_never_reported : forall r0 r1 r2 w, Z.testbit (chk_step (Mag r0 r1 r2) w) 6 = Z.testbit w 6.
Proof. intros. rewrite chk_step_bit by lia. reflexivity. Qed.
Theorem C39_flow_bits_refuted : ~ (forall r0 r1 w, Z.testbit (chk_step (Flow r0 r1) w) 11 = exceeded r0 /\ Z.testbit (chk_step (Flow r0 r1) w) 12 = exceeded r1).
Proof. intros H. destruct (H f0 (f_of_Z 2) 0) as [_ H2]. vm_compute in H2. discriminate. Qed.
Theorem C39_flow_clears_terrain_rejection : forall r0 r1 w, fgt r0 f1 = false -> Z.testbit (chk_step (Flow r0 r1) w) 10 = false.
Proof. intros r0 r1 w H. rewrite chk_step_bit by lia. cbn. exact H. Qed.
(** NaN test ratios: velocity, position and terrain measurements are rejected, all others are
    fused (a defect) *)
Theorem C39_nan_ratio : forall r t,
  within_gate (HorVel fnan) = false /\ within_gate (VerVel fnan) = false /\ within_gate (HorPos fnan) = false /\ within_gate (VerPos fnan) = false /\ within_gate (Hagl fnan t) = false /\
  within_gate (Mag fnan fnan fnan) = true /\ within_gate (Yaw fnan) = true /\ within_gate (Airspeed fnan) = true /\ within_gate (Sideslip fnan) = true /\ within_gate (Flow fnan fnan) = true /\
  (fgt r f1 = false -> within_gate (Mag r fnan r) = true).
Proof. intros r t. repeat (split; [reflexivity|]). intros H. cbn [within_gate]. rewrite H. reflexivity. Qed.

(** ** Reported test ratios **)
(** [ratio_ok r]: not NaN and not negative.  The square root is rounded, so a reported ratio
    exceeds one exactly when the largest squared ratio exceeds 1 + 2^-23 = [f_next1] *)
Definition any_over (x : f32) (l : list f32) : Prop := exists r, In r l /\ fgt r x = true.
Lemma vmax3_eq a b c : vmax3 a b c = math_max c (math_max b a).
Proof. unfold vmax3, math_max. destruct (fgt a a); reflexivity. Qed.
Lemma ok_nan r : ratio_ok r -> is_nan r = false. Proof. intros [H _]; exact H. Qed.
Lemma over_cons x r l : any_over x (r :: l) <-> fgt r x = true \/ any_over x l.
Proof. unfold any_over. split; [intros (a & [->|H] & G); [left; exact G|right; exists a; auto]|intros [G|(a & H & G)]; [exists r|exists a]; cbn; auto]. Qed.
Lemma over_nil x : any_over x [] <-> False. Proof. unfold any_over. split; [intros (a & [] & _)|tauto]. Qed.
Lemma max_over a b x : is_nan x = false -> ratio_ok a -> ratio_ok b -> (fgt (math_max a b) x = true <-> fgt a x = true \/ fgt b x = true).
Proof. intros Nx Ha Hb. apply (math_max_gt x a b Nx (ok_nan a Ha) (ok_nan b Hb)). Qed.
Theorem C39_reported_ratios : forall c y m0 m1 m2 g0 g1 e0 e1 gp ep b g r e t old,
  ratio_ok y -> ratio_ok m0 -> ratio_ok m1 -> ratio_ok m2 -> ratio_ok g0 -> ratio_ok g1 -> ratio_ok e0 -> ratio_ok e1 ->
  ratio_ok gp -> ratio_ok ep -> ratio_ok b -> ratio_ok g -> ratio_ok r -> ratio_ok e -> ratio_ok t ->
  R32 f_next1 = (1 + bpow radix2 (-23))%R /\
  (fgt (rep_mag y m0 m1 m2) f1 = true <-> any_over f_next1 [y; m0; m1; m2]) /\
  (fgt (rep_vel g0 g1 e0 e1) f1 = true <-> any_over f_next1 [g0; g1; e0; e1]) /\
  (fgt (rep_pos gp ep) f1 = true <-> any_over f_next1 [gp; ep]) /\
  (fgt (rep_one t) f1 = true <-> any_over f_next1 [t]) /\
  (height_source c = true -> (fgt (rep_hgt c b g r e old) f1 = true <->
     any_over f_next1 [if s_baro_hgt c then b else if s_gps_hgt c then g else if s_rng_hgt c then r else e])) /\
  (** without a height source the caller's variable is left alone (a defect) *)
  (height_source c = false -> rep_hgt c b g r e old = old).
Proof.
  intros c y m0 m1 m2 g0 g1 e0 e1 gp ep b g r e t old Hy H0 H1 H2 Hg0 Hg1 He0 He1 Hgp Hep Hb Hg Hr He Ht.
  split; [exact (proj1 next1_R)|]. assert (N1 : is_nan f_next1 = false) by (vm_compute; reflexivity). assert (NF : is_nan f1 = false) by reflexivity.
  split; [|split; [|split; [|split; [|split]]]].
  - unfold rep_mag. rewrite vmax3_eq. rewrite sqrt_gt1 by (repeat apply math_max_ok; assumption).
    rewrite !max_over by (repeat apply math_max_ok; assumption). rewrite !over_cons, over_nil. tauto.
  - unfold rep_vel. rewrite max_over by (exact NF || apply sqrt_ok; repeat apply math_max_ok; assumption).
    rewrite !sqrt_gt1 by (repeat apply math_max_ok; assumption). rewrite !max_over by assumption. rewrite !over_cons, over_nil. tauto.
  - unfold rep_pos. rewrite max_over by (exact NF || apply sqrt_ok; assumption). rewrite !sqrt_gt1 by assumption. rewrite !over_cons, over_nil. tauto.
  - unfold rep_one. rewrite sqrt_gt1 by assumption. rewrite over_cons, over_nil. tauto.
  - unfold height_source, rep_hgt. intros S. rewrite over_cons, over_nil. destruct (s_baro_hgt c), (s_gps_hgt c), (s_rng_hgt c), (s_ev_hgt c); try discriminate; rewrite sqrt_gt1 by assumption; tauto.
  - unfold height_source, rep_hgt. intros S. destruct (s_baro_hgt c), (s_gps_hgt c), (s_rng_hgt c), (s_ev_hgt c); try discriminate; reflexivity.
Qed.
(** a reported ratio over one therefore implies that one of the checks failed ... *)
Theorem C39_reported_over_one_means_rejected : forall y m0 m1 m2 t, ratio_ok y -> ratio_ok m0 -> ratio_ok m1 -> ratio_ok m2 -> ratio_ok t ->
  (fgt (rep_mag y m0 m1 m2) f1 = true -> within_gate (Yaw y) = false \/ within_gate (Mag m0 m1 m2) = false) /\
  (fgt (rep_one t) f1 = true -> within_gate (Airspeed t) = false /\ within_gate (Sideslip t) = false /\ forall b, within_gate (Hagl t b) = false).
Proof.
  intros y m0 m1 m2 t Hy H0 H1 H2 Ht.
  destruct (C39_reported_ratios (mkSf true true true true true true true true true true true true) y m0 m1 m2 t t t t t t t t t t t t) as (_ & M & _ & _ & O & _); try assumption. split; intros H.
  - apply (proj1 M) in H. rewrite !over_cons, over_nil in H. cbn [within_gate]. destruct H as [H|[H|[H|[H|[]]]]]; apply next1_gt1 in H; try (apply ok_nan; assumption); rewrite H; rewrite ?orb_true_r; auto.
  - apply (proj1 O) in H. rewrite over_cons, over_nil in H. destruct H as [H|[]]. apply next1_gt1 in H; [|apply ok_nan; assumption]. cbn [within_gate]. rewrite H. cbn [negb].
    split; [reflexivity|]. split; [reflexivity|]. intros _. unfold fgt in H. destruct Ht as [N _]. destruct t as [s|[]| |s m e h]; try discriminate; try reflexivity.
    rewrite flt_R in H by reflexivity. rewrite fle_R by reflexivity. revert H. case Rlt_bool_spec; [|discriminate]. intros H _. apply Rle_bool_false. exact H.
Qed.
(** ... but not the converse: a ratio of 1 + 2^-23 is rejected and reported as exactly one *)
Theorem C39_rejected_means_reported_over_one_refuted : ~ (forall t, ratio_ok t -> within_gate (Airspeed t) = false -> fgt (rep_one t) f1 = true).
Proof. intros H. specialize (H f_next1). assert (A : fgt (rep_one f_next1) f1 = true) by (apply H; [split; vm_compute; reflexivity|vm_compute; reflexivity]). vm_compute in A. discriminate. Qed.
Example C39_ratio_example : ratio_ok (flit 9 4) /\ within_gate (Airspeed (flit 9 4)) = false /\ fgt (rep_one (flit 9 4)) f1 = true /\ fgt (rep_one (flit 1 4)) f1 = false.
Proof. split; [split; vm_compute; reflexivity|vm_compute; auto]. Qed.
Example C39_history_example :
  let l := [HorVel (f_of_Z 2); Mag f0 f0 f0; HorVel f0; VerPos (f_of_Z 3); Yaw fnan] in
  Z.testbit (chk_run l 0) 0 = false /\ Z.testbit (chk_run l 0) 3 = true /\ Z.testbit (chk_run (l ++ [Mag f0 f0 f0]) 0) 3 = false.
Proof. vm_compute. auto. Qed.

(** ** C38 *)
(** the limits apply only when the vehicle depends on the range finder or on optical flow *)
Definition depends_on_range (c : sflags) (range_aid : bool) : Prop := s_rng_hgt c = true /\ range_aid = false.
Definition depends_on_flow (c : sflags) : Prop := s_flow c = true /\ s_gps c = false /\ s_ev_pos c = false /\ s_ev_vel c = false /\ (s_aspd c && s_beta c) = false.
Lemma only_flow c : only_source c (s_flow c) = true <-> depends_on_flow c.
Proof.
  unfold only_source, other_source, n_sources, depends_on_flow. destruct (s_gps c), (s_flow c), (s_ev_pos c), (s_ev_vel c), (s_aspd c && s_beta c); vm_compute; intuition congruence.
Qed.
Definition unlimited (x : f32) : Prop := x = fnan.
(** the largest / smallest of two limits, ignoring a NaN one *)
Definition tighter_min (x a b : f32) : Prop := (is_nan a = true -> x = b) /\ (is_nan a = false -> is_nan b = true -> x = a) /\
  (is_nan a = false -> is_nan b = false -> (x = a \/ x = b) /\ flt x a = false /\ flt x b = false).
Definition tighter_max (x a b : f32) : Prop := (is_nan a = true -> x = b) /\ (is_nan a = false -> is_nan b = true -> x = a) /\
  (is_nan a = false -> is_nan b = false -> (x = a \/ x = b) /\ flt a x = false /\ flt b x = false).
Lemma flt_irrefl (a : f32) : flt a a = false.
Proof. destruct a as [[]|[]| |s m e h]; try reflexivity. rewrite flt_R by reflexivity. apply Rlt_bool_false. apply Rle_refl. Qed.
Lemma fmax_tight a b : tighter_min (c_fmaxf a b) a b.
Proof.
  unfold tighter_min, c_fmaxf. destruct (is_nan a) eqn:Na; [intuition congruence|]. destruct (is_nan b) eqn:Nb; [intuition congruence|].
  split; [discriminate|]. split; [discriminate|]. intros _ _. destruct (flt a b) eqn:E; (split; [auto|]); split; try apply flt_irrefl; [apply flt_asym; assumption|exact E].
Qed.
Lemma fmin_tight a b : tighter_max (c_fminf a b) a b.
Proof.
  unfold tighter_max, c_fminf. destruct (is_nan a) eqn:Na; [intuition congruence|]. destruct (is_nan b) eqn:Nb; [intuition congruence|].
  split; [discriminate|]. split; [discriminate|]. intros _ _. destruct (flt a b) eqn:E; (split; [auto|]); split; try apply flt_irrefl; [apply flt_asym; assumption|exact E].
Qed.
Lemma fmax0 a : flt (c_fmaxf a f0) f0 = false /\ is_nan (c_fmaxf a f0) = false.
Proof.
  unfold c_fmaxf. destruct (is_nan a) eqn:N; [split; reflexivity|]. change (is_nan f0) with false. cbv iota. destruct (flt a f0) eqn:E; [split; reflexivity|split; [exact E|exact N]].
Qed.
Theorem C38_limits : forall c range_aid rmin rmax fmin fmax rate terrain pos_d,
  let '(vxy, vz, lo, hi) := ctrl_limits c range_aid rmin rmax fmin fmax rate terrain pos_d in
  unlimited vz /\
  (~ depends_on_flow c -> unlimited vxy) /\
  (~ depends_on_flow c -> ~ depends_on_range c range_aid -> unlimited lo /\ unlimited hi) /\
  (~ depends_on_flow c -> depends_on_range c range_aid -> lo = rmin /\ hi = fmul (flit 75 100) rmax) /\
  (depends_on_flow c -> is_nan vxy = false /\ flt vxy f0 = false /\ tighter_min lo rmin fmin /\ tighter_max hi (fmul (flit 75 100) rmax) fmax).
Proof.
  intros c range_aid rmin rmax fmin fmax rate terrain pos_d. unfold ctrl_limits. destruct (only_source c (s_flow c)) eqn:O.
  - pose proof (proj1 (only_flow c) O) as D. split; [reflexivity|]. split; [tauto|]. split; [tauto|]. split; [tauto|]. intros _.
    destruct (fmax0 (fmul (fmul (flit 1 2) rate) (fsub terrain pos_d))) as [A B]. split; [exact B|]. split; [exact A|]. split; [apply fmax_tight|apply fmin_tight].
  - assert (D : ~ depends_on_flow c) by (rewrite <- only_flow; congruence). unfold depends_on_range. destruct (s_rng_hgt c), range_aid; cbn [andb negb];
      (split; [reflexivity|split; [reflexivity|split; [intuition (reflexivity || congruence)|split; [intuition (reflexivity || congruence)|tauto]]]]).
Qed.
(** the horizontal speed limit is half the flow sensor's rate limit times the height above
    ground, zero when that is negative or not a number: over finite values *)
Theorem C38_speed_limit : forall c range_aid rmin rmax fmin fmax rate terrain pos_d, depends_on_flow c ->
  let hag := fsub terrain pos_d in let v := fmul (fmul (flit 1 2) rate) hag in
  is_finite v = true -> R32 (fst (fst (fst (ctrl_limits c range_aid rmin rmax fmin fmax rate terrain pos_d)))) = Rmax (R32 v) 0.
Proof.
  intros c range_aid rmin rmax fmin fmax rate terrain pos_d D hag v F. unfold ctrl_limits. rewrite (proj2 (only_flow c) D). cbn [fst].
  destruct (c_fmaxf_R v f0 F eq_refl) as [E _]. exact E.
Qed.
(** negative or NaN height limits are passed on when the sensor reports them (not constrained) *)
Theorem C38_height_limits_nonnegative_refuted :
  ~ (forall c range_aid rmin rmax fmin fmax rate terrain pos_d, depends_on_flow c -> 
     let '(_, _, lo, hi) := ctrl_limits c range_aid rmin rmax fmin fmax rate terrain pos_d in flt lo f0 = false /\ flt hi lo = false).
Proof.
  intros H. specialize (H (mkSf true true false true true false false false false false false false) false (f_of_Z 1) (f_of_Z 1) f0 (f_of_Z 10) f1 f1 f0).
  assert (D : depends_on_flow (mkSf true true false true true false false false false false false false)) by (vm_compute; auto). specialize (H D). vm_compute in H. destruct H; discriminate.
Qed.
Example C38_example : let c := mkSf true true false true false true false false false false false false in
  let '(vxy, _, lo, hi) := ctrl_limits c false (flit 1 10) (f_of_Z 10) (flit 3 10) (f_of_Z 5) (f_of_Z 2) (f_of_Z 0) (f_of_Z (-3)) in
  depends_on_flow c /\ depends_on_range c false /\ B2SF vxy = B2SF (f_of_Z 3) /\ B2SF lo = B2SF (flit 3 10) /\ B2SF hi = B2SF (f_of_Z 5).
Proof. vm_compute. auto 10. Qed.

(** ** C56: reported accuracies *)
Lemma smaxm_R (a b : R) : smaxm a b = Rmax a b.
Proof. unfold smaxm. cbn [slt RScalar]. unfold Rmax. destruct (Rlt_dec b a), (Rle_dec a b); lra. Qed.
Open Scope R_scope.
Definition hyp (a b : R) : R := sqrt (a * a + b * b).
Theorem C56_global_position_accuracy : forall c dr (P77 P88 P99 eph epv g0 g1 e0 e1 : R),
  let '(h, v) := gpos_accuracy c dr P77 P88 P99 eph epv g0 g1 e0 e1 in
  sqrt (P77 + P88 + eph * eph) <= h /\ v = sqrt (P99 + epv * epv) /\
  (dr = false -> h = sqrt (P77 + P88 + eph * eph)) /\
  (dr = true -> s_gps c = true -> h = Rmax (sqrt (P77 + P88 + eph * eph)) (hyp g0 g1)) /\
  (dr = true -> s_gps c = false -> s_ev_pos c = true -> h = Rmax (sqrt (P77 + P88 + eph * eph)) (hyp e0 e1)) /\
  (s_gps c = false -> s_ev_pos c = false -> h = sqrt (P77 + P88 + eph * eph)).
Proof.
  intros c dr P77 P88 P99 eph epv g0 g1 e0 e1. unfold gpos_accuracy, inn2, sq. rewrite !smaxm_R. cbn [sadd smul ssqrt RScalar]. fold (hyp g0 g1). fold (hyp e0 e1). 
  set (b := sqrt (P77 + P88 + eph * eph)). pose proof (Rmax_l b (hyp g0 g1)). pose proof (Rmax_l b (hyp e0 e1)).
  destruct dr, (s_gps c), (s_ev_pos c); cbn [andb]; (split; [lra|]); (split; [reflexivity|]); (split; [congruence|]); (split; [congruence|]); (split; [congruence|congruence]).
Qed.
Theorem C56_local_position_accuracy : forall c tl (P77 P88 P99 g0 g1 : R),
  let '(h, v) := lpos_accuracy c tl P77 P88 P99 g0 g1 in
  sqrt (P77 + P88) <= h /\ v = sqrt P99 /\
  (tl && s_gps c = true -> h = Rmax (sqrt (P77 + P88)) (hyp g0 g1)) /\ (tl && s_gps c = false -> h = sqrt (P77 + P88)).
Proof.
  intros c tl P77 P88 P99 g0 g1. unfold lpos_accuracy, inn2, sq. rewrite !smaxm_R. cbn [sadd smul ssqrt RScalar]. fold (hyp g0 g1).
  pose proof (Rmax_l (sqrt (P77 + P88)) (hyp g0 g1)). destruct (tl && s_gps c); (split; [lra|]); (split; [reflexivity|]); split; congruence.
Qed.
(** the alternatives considered for the velocity after the dead-reckoning timeout *)
Definition vel_alternatives (c : sflags) (clearance terrain pos_d f0 f1 g0 g1 e0 e1 v0 v1 : R) : list R :=
  (if s_flow c then [Rmax (terrain - pos_d) (Rmax clearance (1 / 10)) * hyp f0 f1] else []) ++
  (if s_gps c then [hyp g0 g1] else if s_ev_pos c then [hyp e0 e1] else []) ++ (if s_ev_vel c then [hyp v0 v1] else []).
Lemma hyp_pos a b : 0 <= hyp a b. Proof. apply sqrt_pos. Qed.
Lemma Rmax_spec a b : a <= Rmax a b /\ b <= Rmax a b /\ (Rmax a b = a \/ Rmax a b = b).
Proof. unfold Rmax. destruct (Rle_dec a b); repeat split; try lra; auto. Qed.
Theorem C56_velocity_accuracy : forall c tl (P44 P55 P66 clearance terrain pos_d f0 f1 g0 g1 e0 e1 v0 v1 : R),
  let '(h, v) := vel_accuracy c tl P44 P55 P66 clearance terrain pos_d f0 f1 g0 g1 e0 e1 v0 v1 in
  let base := sqrt (P44 + P55) in let alt := vel_alternatives c clearance terrain pos_d f0 f1 g0 g1 e0 e1 v0 v1 in
  v = sqrt P66 /\ base <= h /\ (tl = false -> h = base) /\ (tl = true -> (forall x, In x alt -> x <= h) /\ (h = base \/ In h alt)).
Proof.
  intros c tl P44 P55 P66 clearance terrain pos_d f0 f1 g0 g1 e0 e1 v0 v1. unfold vel_accuracy, inn2, sq, szero. rewrite !smaxm_R. cbn [sadd ssub smul ssqrt slit RScalar].
  replace (0 / 1) with 0 by lra. replace (0 + f0 * f0 + f1 * f1) with (f0 * f0 + f1 * f1) by ring. fold (hyp f0 f1) (hyp g0 g1) (hyp e0 e1) (hyp v0 v1).
  set (b := sqrt (P44 + P55)). set (fl := Rmax (terrain - pos_d) (Rmax clearance (1 / 10)) * hyp f0 f1).
  assert (FL : 0 <= fl). { apply Rmult_le_pos; [|apply hyp_pos]. eapply Rle_trans; [|apply Rmax_r]. eapply Rle_trans; [|apply Rmax_r]. lra. }
  assert (B : 0 <= b) by apply sqrt_pos. pose proof (hyp_pos g0 g1). pose proof (hyp_pos e0 e1). pose proof (hyp_pos v0 v1).
  split; [reflexivity|]. unfold vel_alternatives. fold fl. generalize dependent (hyp g0 g1). generalize dependent (hyp e0 e1). generalize dependent (hyp v0 v1). clearbody b fl. intros x0 X0 x1 X1 x2 X2.
  split; [destruct tl; [apply Rmax_l|lra]|]. split; [intros ->; reflexivity|]. intros ->.
  destruct (s_flow c), (s_gps c), (s_ev_pos c), (s_ev_vel c); cbn [app In];
    repeat match goal with |- context [Rmax ?a ?b] =>
      lazymatch a with context [Rmax] => fail | _ => lazymatch b with context [Rmax] => fail | _ => let m := fresh "m" in destruct (Rmax_spec a b) as [? [? ?]]; set (m := Rmax a b) in *; clearbody m end end end;
    (split; [intros x Hx; repeat destruct Hx as [Hx|Hx]; subst; try lra; contradiction|]);
    repeat match goal with H : _ \/ _ |- _ => destruct H; subst end; try (left; lra); auto 8.
Qed.
Close Scope R_scope.
(** binary32: the reported value is never below the covariance-based one unless an innovation is NaN *)
Lemma smaxm_f (a b : f32) : is_nan a = false -> is_nan b = false -> flt (smaxm a b) a = false /\ flt (smaxm a b) b = false /\ is_nan (smaxm a b) = false.
Proof.
  intros Na Nb. unfold smaxm. cbn [slt FScalar]. destruct (flt b a) eqn:E.
  - split; [apply flt_irrefl|]. split; [apply flt_asym; assumption|exact Na].
  - split; [exact E|]. split; [apply flt_irrefl|exact Nb].
Qed.
Theorem C56_binary32_never_below : forall c dr (P77 P88 P99 eph epv g0 g1 e0 e1 : f32),
  let base := fsqrt (fadd (fadd P77 P88) (fmul eph eph)) in let lbase := fsqrt (fadd P77 P88) in
  let ig := fsqrt (fadd (fmul g0 g0) (fmul g1 g1)) in let ie := fsqrt (fadd (fmul e0 e0) (fmul e1 e1)) in
  is_nan base = false -> is_nan lbase = false -> is_nan ig = false -> is_nan ie = false ->
  (flt (fst (gpos_accuracy c dr P77 P88 P99 eph epv g0 g1 e0 e1)) base = false /\ is_nan (fst (gpos_accuracy c dr P77 P88 P99 eph epv g0 g1 e0 e1)) = false) /\
  (flt (fst (lpos_accuracy c dr P77 P88 P99 g0 g1)) lbase = false /\ is_nan (fst (lpos_accuracy c dr P77 P88 P99 g0 g1)) = false).
Proof.
  intros c dr P77 P88 P99 eph epv g0 g1 e0 e1 base lbase ig ie Nb Nl Ng Ne. unfold gpos_accuracy, lpos_accuracy, inn2, sq. cbn [sadd smul ssqrt FScalar]. fold ig. fold ie. fold base. fold lbase. cbn [fst].
  split.
  - destruct (dr && s_gps c); [destruct (smaxm_f base ig Nb Ng) as (A & _ & N); auto|]. destruct (dr && s_ev_pos c); [destruct (smaxm_f base ie Nb Ne) as (A & _ & N); auto|]. split; [apply flt_irrefl|exact Nb].
  - destruct (dr && s_gps c); [destruct (smaxm_f lbase ig Nl Ng) as (A & _ & N); auto|]. split; [apply flt_irrefl|exact Nl].
Qed.
Example C56_example : let c := mkSf true true true false true false false false false false false false in
  B2SF (fst (gpos_accuracy c true f1 f1 f1 f1 f1 (f_of_Z 3) (f_of_Z 4) f0 f0)) = B2SF (f_of_Z 5) /\
  B2SF (fst (gpos_accuracy c false f1 f1 f1 f1 f1 (f_of_Z 3) (f_of_Z 4) f0 f0)) = B2SF (fsqrt (f_of_Z 3)) /\
  is_nan (fst (gpos_accuracy c true f1 f1 f1 f1 f1 fnan f0 f0 f0)) = true.
Proof. vm_compute. auto. Qed.

Print Assumptions C26_solution_status.
Print Assumptions C39_history.
Print Assumptions C39_reported_ratios.
Print Assumptions C38_limits.
Print Assumptions C56_velocity_accuracy.

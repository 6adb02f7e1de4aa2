(** * C81: motion checks on the ground and optical flow samples (control.cpp l.345-395, 478-492; optflow_fusion.cpp l.103, 333-371)

    SenseModel.v and the IMU magnitude filters of CovModel.v; exact reals unless stated otherwise. *)
From Coq Require Import Reals Lra Lia Psatz List Bool ZArith.
From Flocq Require Import Core BinarySingleNaN.
From Verif Require Import RealGeom CBase Scalar F32 F32More CovPredGen CovModel CovProofsR CovNoise FusionModel ObsSpec SenseModel ControlModel Props_Sense.
Import ListNotations.
Open Scope R_scope.

(** ** Motion on the ground *)
Theorem C81_motion_excessive : forall (cos30 max_rate : R) (acc : Vec R) (rate tilt : R),
  motionExcessive cos30 max_rate acc rate tilt = true <->
  1.5 * 9.80665 < len3 acc \/ len3 acc < 0.5 * 9.80665 \/ max_rate < rate \/ tilt < cos30.
Proof.
  intros. unfold motionExcessive, oneG. rewrite norm3_len, !orb_true_iff, !sltR_true, !slitR. cbn [smul RScalar].
  replace (IZR 980665 / IZR 100000 * (IZR 15 / IZR 10)) with (1.5 * 9.80665) by lra.
  replace (IZR 980665 / IZR 100000 * (IZR 1 / IZR 2)) with (0.5 * 9.80665) by lra. tauto.
Qed.
(** in particular by tilting more than 30 degrees *)
Theorem C81_tilt_excessive : forall (max_rate : R) (acc : Vec R) (rate angle : R), 0 <= angle <= PI ->
  1.5 * 9.80665 >= len3 acc -> len3 acc >= 0.5 * 9.80665 -> rate <= max_rate ->
  (motionExcessive (cos (PI / 6)) max_rate acc rate (cos angle) = true <-> 30 < angle * 180 / PI).
Proof.
  intros max_rate acc rate angle A H1 H2 H3. rewrite C81_motion_excessive.
  assert (P := PI_RGT_0).
  assert (E : 30 < angle * 180 / PI <-> PI / 6 < angle).
  { assert (Q : angle * 180 / PI = angle * 180 * / PI) by reflexivity. split; intro L.
    - apply (Rmult_lt_compat_r PI) in L; [|exact P]. replace (angle * 180 / PI * PI) with (angle * 180) in L by (field; lra). lra.
    - apply (Rmult_lt_reg_r PI); [exact P|]. replace (angle * 180 / PI * PI) with (angle * 180) by (field; lra). lra. }
  rewrite E. split.
  - intros [L|[L|[L|L]]]; [lra|lra|lra|]. apply cos_decreasing_0; lra || exact L.
  - intro L. right. right. right. apply cos_decreasing_1; lra.
Qed.

(** ** The filters they read, over a history of IMU samples (delta angle, delta velocity of 10 ms samples) *)
Fixpoint filt_run (cs : list (covctx R)) (s : covst R) : covst R := match cs with [] => s | c :: l => filt_run l (filtStep c s) end.
Lemma filt_run_app a b s : filt_run (a ++ b) s = filt_run b (filt_run a s).
Proof. revert s. induction a as [|c a IH]; intro s; [reflexivity|]. apply IH. Qed.
Lemma beta_clip (c : covctx R) : beta c = 1 - clip01 (1 / 100 / p_acc_bias_learn_tc c) /\ alpha c = clip01 (1 / 100 / p_acc_bias_learn_tc c).
Proof.
  unfold beta, alpha. change (@szero R _) with (@slit R _ 0 1). rewrite clip01_eq. unfold dt_ekf. cbn [smul ssub sdiv slit RScalar].
  split; [f_equal; [field|]|]; f_equal; f_equal; field.
Qed.
Lemma filtStepR (c : covctx R) (s : covst R) :
  c_ang_filt (filtStep c s) = Rmax (100 * len3 (x_da c)) (beta c * c_ang_filt s) /\
  (forall k, c_acc_vec (filtStep c s) k = alpha c * (100 * x_dv c k) + beta c * c_acc_vec s k).
Proof.
  assert (D : @dt_inv R _ = 100) by (unfold dt_inv, dt_ekf; cbn [sdiv smul slit RScalar]; field).
  cbn [filtStep c_ang_filt c_acc_vec]. rewrite norm3_len, D. split; [reflexivity|]. intro k. cbn [sadd smul RScalar]. ring.
Qed.
(** the rate filter is a peak detector with exponential decay: it is the largest
    of the decayed past rates (a sample j steps ago weighs beta^j) *)
Theorem C81_rate_peak : forall tc cs (s : covst R), (forall c, In c cs -> p_acc_bias_learn_tc c = tc) ->
  let b := 1 - clip01 (1 / 100 / tc) in let f := c_ang_filt (filt_run cs s) in
  b ^ length cs * c_ang_filt s <= f /\
  (forall l1 c l2, cs = l1 ++ c :: l2 -> b ^ length l2 * (100 * len3 (x_da c)) <= f) /\
  (f = b ^ length cs * c_ang_filt s \/ exists l1 c l2, cs = l1 ++ c :: l2 /\ f = b ^ length l2 * (100 * len3 (x_da c))).
Proof.
  intros tc cs. induction cs as [|c0 cs IH] using rev_ind; intros s H b f.
  - unfold f. cbn. split; [lra|]. split; [intros l1 c l2 E; destruct l1; discriminate|left; ring].
  - assert (B0 : 0 <= b) by (unfold b, clip01; assert (Rmin 1 (1 / 100 / tc) <= 1) by apply Rmin_l; unfold Rmax; destruct (Rle_dec _ _); lra).
    specialize (IH s ltac:(intros; apply H, in_app_iff; left; assumption)). fold b in IH. set (g := c_ang_filt (filt_run cs s)) in *.
    assert (F : f = Rmax (100 * len3 (x_da c0)) (b * g)).
    { unfold f. rewrite filt_run_app. cbn [filt_run]. rewrite (proj1 (filtStepR c0 _)). fold g.
      rewrite (proj1 (beta_clip c0)), (H c0) by (apply in_app_iff; right; left; reflexivity). reflexivity. }
    destruct IH as (I1 & I2 & I3). rewrite app_length. cbn [length].
    split; [|split].
    + rewrite F. eapply Rle_trans; [|apply Rmax_r]. rewrite Nat.add_1_r. cbn [pow]. rewrite Rmult_assoc. apply Rmult_le_compat_l; [exact B0|exact I1].
    + intros l1 c l2 E. destruct l2 as [|x l2] using rev_ind.
      * apply app_inj_tail in E. destruct E as [_ <-]. cbn [length pow]. rewrite Rmult_1_l, F. apply Rmax_l.
      * clear IHl2. rewrite app_comm_cons, app_assoc in E. apply app_inj_tail in E. destruct E as [E <-].
        rewrite app_length. cbn [length]. rewrite Nat.add_1_r. cbn [pow]. rewrite F. eapply Rle_trans; [|apply Rmax_r]. rewrite Rmult_assoc. apply Rmult_le_compat_l; [exact B0|]. apply (I2 l1 c l2 E).
    + rewrite F. unfold Rmax. destruct (Rle_dec _ _) as [L|L].
      * destruct I3 as [I3|(l1 & c & l2 & E & I3)].
        -- left. rewrite I3, Nat.add_1_r. cbn [pow]. ring.
        -- right. exists l1, c, (l2 ++ [c0]). split; [rewrite E, <- app_assoc; reflexivity|]. rewrite app_length. cbn [length]. rewrite Nat.add_1_r, I3. cbn [pow]. ring.
      * right. exists cs, c0, []. split; [reflexivity|]. cbn. ring.
Qed.
(** the acceleration filter converges geometrically to a constant specific force *)
Theorem C81_acc_filter : forall tc (force : Vec R) cs (s : covst R) k,
  (forall c, In c cs -> p_acc_bias_learn_tc c = tc /\ x_dv c k = force k / 100) ->
  c_acc_vec (filt_run cs s) k - force k = (1 - clip01 (1 / 100 / tc)) ^ length cs * (c_acc_vec s k - force k).
Proof.
  intros tc force cs. induction cs as [|c cs IH]; intros s k H; [cbn; ring|]. cbn [filt_run length].
  rewrite IH by (intros; apply H; right; assumption). rewrite (proj2 (filtStepR c s)). destruct (H c (or_introl eq_refl)) as [T D].
  destruct (beta_clip c) as [-> ->]. rewrite T, D. cbn [pow]. field.
Qed.
(** hence a vehicle at rest is found fit, whatever happened before, after finitely many samples *)
Lemma len3_triangle_pair (a b : Vec R) : len3 a <= len3 b + len3 (fun k => a k - b k).
Proof.
  unfold len3. set (x := b 0%nat); set (y := b 1%nat); set (z := b 2%nat).
  set (u := a 0%nat - x); set (v := a 1%nat - y); set (w := a 2%nat - z).
  replace (a 0%nat) with (x + u) by (unfold u; ring). replace (a 1%nat) with (y + v) by (unfold v; ring). replace (a 2%nat) with (z + w) by (unfold w; ring).
  assert (Q : forall s : R, s ^ 2 >= 0) by (intro; nra).
  assert (N1 : 0 <= x ^ 2 + y ^ 2 + z ^ 2) by nra. assert (N2 : 0 <= u ^ 2 + v ^ 2 + w ^ 2) by nra.
  set (p := sqrt (x ^ 2 + y ^ 2 + z ^ 2)). set (q := sqrt (u ^ 2 + v ^ 2 + w ^ 2)).
  assert (P0 : 0 <= p) by apply sqrt_pos. assert (Q0 : 0 <= q) by apply sqrt_pos.
  assert (P2 : p ^ 2 = x ^ 2 + y ^ 2 + z ^ 2) by (unfold p; rewrite <- Rsqr_pow2; apply Rsqr_sqrt, N1).
  assert (Q2 : q ^ 2 = u ^ 2 + v ^ 2 + w ^ 2) by (unfold q; rewrite <- Rsqr_pow2; apply Rsqr_sqrt, N2).
  assert (C : x * u + y * v + z * w <= p * q).
  { apply Rnot_lt_le. intro L. assert (S : (p * q) ^ 2 < (x * u + y * v + z * w) ^ 2) by (assert (0 <= p * q) by (apply Rmult_le_pos; assumption); nra).
    replace ((p * q) ^ 2) with (p ^ 2 * q ^ 2) in S by ring. rewrite P2, Q2 in S.
    assert (0 <= (x * v - y * u) ^ 2 + (x * w - z * u) ^ 2 + (y * w - z * v) ^ 2) by (repeat apply Rplus_le_le_0_compat; apply pow2_ge_0).
    assert (E : (x ^ 2 + y ^ 2 + z ^ 2) * (u ^ 2 + v ^ 2 + w ^ 2) = (x * u + y * v + z * w) ^ 2 + ((x * v - y * u) ^ 2 + (x * w - z * u) ^ 2 + (y * w - z * v) ^ 2)) by ring. lra. }
  rewrite <- (sqrt_pow2 (p + q)) by lra. apply sqrt_le_1_alt.
  replace ((p + q) ^ 2) with (p ^ 2 + q ^ 2 + 2 * (p * q)) by ring. rewrite P2, Q2. nra.
Qed.
Lemma len3_scale (m : R) (a : Vec R) : 0 <= m -> len3 (fun k => m * a k) = m * len3 a.
Proof.
  intro M. unfold len3. replace ((m * a 0%nat) ^ 2 + (m * a 1%nat) ^ 2 + (m * a 2%nat) ^ 2) with (m ^ 2 * (a 0%nat ^ 2 + a 1%nat ^ 2 + a 2%nat ^ 2)) by ring.
  rewrite sqrt_mult_alt by nra. rewrite sqrt_pow2 by exact M. reflexivity.
Qed.
Lemma len3_ext (a b : Vec R) : (forall k, (k < 3)%nat -> a k = b k) -> len3 a = len3 b.
Proof. intro E. unfold len3. rewrite !E by lia. reflexivity. Qed.
Definition at_rest (force : Vec R) (c : covctx R) : Prop := (forall k, (k < 3)%nat -> x_da c k = 0 /\ x_dv c k = force k / 100).
Theorem C81_rest_recovers : forall tc (force : Vec R) (cos30 max_rate tilt : R) (s : covst R), 1 / 100 < tc -> 0 < max_rate -> cos30 <= tilt -> len3 force = 9.80665 ->
  exists n, forall cs, (n <= length cs)%nat -> (forall c, In c cs -> p_acc_bias_learn_tc c = tc /\ at_rest force c) ->
    motionExcessive cos30 max_rate (c_acc_vec (filt_run cs s)) (c_ang_filt (filt_run cs s)) tilt = false.
Proof.
  intros tc force cos30 max_rate tilt s T M HT G.
  set (b := 1 - clip01 (1 / 100 / tc)).
  assert (Q : 0 < 1 / 100 / tc < 1).
  { split; [apply Rdiv_lt_0_compat; lra|]. apply (Rmult_lt_reg_r tc); [lra|]. replace (1 / 100 / tc * tc) with (1 / 100) by (field; lra). lra. }
  assert (BE : b = 1 - 1 / 100 / tc).
  { unfold b, clip01. rewrite Rmin_right by lra. rewrite Rmax_right by lra. reflexivity. }
  assert (B : 0 < b < 1) by lra.
  set (d := len3 (fun k => c_acc_vec s k - force k)). set (K := 1 + d + Rabs (c_ang_filt s)).
  assert (D0 : 0 <= d) by apply sqrt_pos. assert (A0 : 0 <= Rabs (c_ang_filt s)) by apply Rabs_pos.
  destruct (pow_lt_1_zero b ltac:(rewrite Rabs_pos_eq; lra) (Rmin 1 max_rate / K)) as [n Hn].
  { apply Rdiv_lt_0_compat; [apply Rmin_glb_lt; lra|unfold K; lra]. }
  exists n. intros cs L H. specialize (Hn (length cs) L). rewrite Rabs_pos_eq in Hn by (apply pow_le; lra).
  set (m := b ^ length cs) in *. assert (M0 : 0 <= m) by (apply pow_le; lra).
  assert (S : m * K < Rmin 1 max_rate).
  { apply (Rmult_lt_compat_r K) in Hn; [|unfold K; lra]. replace (Rmin 1 max_rate / K * K) with (Rmin 1 max_rate) in Hn by (field; unfold K; lra). exact Hn. }
  assert (S1 : m * d < 1) by (eapply Rle_lt_trans; [|eapply Rlt_le_trans; [exact S|apply Rmin_l]]; apply Rmult_le_compat_l; [exact M0|unfold K; lra]).
  assert (S2 : m * Rabs (c_ang_filt s) < max_rate) by (eapply Rle_lt_trans; [|eapply Rlt_le_trans; [exact S|apply Rmin_r]]; apply Rmult_le_compat_l; [exact M0|unfold K; lra]).
  destruct (motionExcessive _ _ _ _ _) eqn:E; [|reflexivity]. exfalso. apply C81_motion_excessive in E.
  assert (FA : forall k, (k < 3)%nat -> c_acc_vec (filt_run cs s) k - force k = m * (c_acc_vec s k - force k)).
  { intros k Hk. apply (C81_acc_filter tc). intros c Hc. destruct (H c Hc) as [E1 E2]. split; [exact E1|]. apply E2, Hk. }
  set (a := c_acc_vec (filt_run cs s)) in *.
  assert (DA : len3 (fun k => a k - force k) = m * d).
  { rewrite (len3_ext _ (fun k => m * (c_acc_vec s k - force k)) FA). apply len3_scale, M0. }
  pose proof (len3_triangle_pair a force) as T1. pose proof (len3_triangle_pair force a) as T2.
  assert (DB : len3 (fun k => force k - a k) = m * d) by (rewrite <- DA; unfold len3; f_equal; ring).
  destruct (C81_rate_peak tc cs s ltac:(intros; apply H; assumption)) as (_ & _ & P). fold b in P. fold m in P.
  assert (R0 : c_ang_filt (filt_run cs s) <= m * Rabs (c_ang_filt s)).
  { destruct P as [P|(l1 & c & l2 & EC & P)]; rewrite P.
    - apply Rmult_le_compat_l; [exact M0|apply Rle_abs].
    - assert (IC : In c cs) by (rewrite EC; apply in_app_iff; right; left; reflexivity). destruct (H c IC) as [_ AR].
      assert (Z : len3 (x_da c) = 0) by (unfold len3; rewrite (proj1 (AR 0%nat ltac:(lia))), (proj1 (AR 1%nat ltac:(lia))), (proj1 (AR 2%nat ltac:(lia))); replace (0 ^ 2 + 0 ^ 2 + 0 ^ 2) with 0 by ring; apply sqrt_0).
      rewrite Z. assert (0 <= m * Rabs (c_ang_filt s)) by (apply Rmult_le_pos; assumption). lra. }
  lra.
Qed.
(** binary32: once a component of the filtered acceleration is NaN it stays so,
    whatever the following samples, and no acceleration is then excessive (a
    defect); a NaN angular rate sample is ignored *)
Fixpoint filt_runF (cs : list (covctx f32)) (s : covst f32) : covst f32 := match cs with [] => s | c :: l => filt_runF l (filtStep c s) end.
Lemma nan_mul_r (a b : f32) : is_nan b = true -> is_nan (fmul a b) = true.
Proof. destruct b; try discriminate. destruct a as [[]|[]| |[] ? ? ?]; reflexivity. Qed.
Lemma nan_lt_r (a b : f32) : is_nan b = true -> flt a b = false.
Proof. destruct b; try discriminate. destruct a as [[]|[]| |[] ? ? ?]; reflexivity. Qed.
Lemma nan_lt_l (a b : f32) : is_nan a = true -> flt a b = false.
Proof. destruct a; try discriminate. reflexivity. Qed.
Theorem C81_nan_acceleration : forall cs (s : covst f32) k, (k < 3)%nat -> is_nan (c_acc_vec s k) = true ->
  is_nan (c_acc_vec (filt_runF cs s) k) = true /\
  forall cos30 max_rate rate tilt : f32, motionExcessive cos30 max_rate (c_acc_vec (filt_runF cs s)) rate tilt = flt max_rate rate || flt tilt cos30.
Proof.
  intros cs s k Hk N.
  assert (P : is_nan (c_acc_vec (filt_runF cs s) k) = true).
  { revert s N. induction cs as [|c cs IH]; intros s N; [exact N|]. cbn [filt_runF]. apply IH. cbn [filtStep c_acc_vec]. cbn [sadd smul FScalar]. apply nan_add_r, nan_mul_r, N. }
  split; [exact P|]. intros. unfold motionExcessive. assert (NN : is_nan (norm3 (c_acc_vec (filt_runF cs s))) = true) by (apply norm3_nan; exists k; split; assumption).
  cbn [slt FScalar]. rewrite (nan_lt_r _ _ NN), (nan_lt_l _ _ NN). reflexivity.
Qed.
Theorem C81_nan_rate : forall (c : covctx f32) (s : covst f32), (exists k, (k < 3)%nat /\ is_nan (x_da c k) = true) ->
  c_ang_filt (filtStep c s) = fmul (beta c) (c_ang_filt s).
Proof.
  intros c s H. cbn [filtStep c_ang_filt]. apply norm3_nan in H. assert (N : is_nan (fmul dt_inv (norm3 (x_da c))) = true) by (apply nan_mul_r, H).
  cbn [sfmax smul FScalar]. unfold c_fmaxf. rewrite N. reflexivity.
Qed.

(** ** Flow samples *)
Definition flow_period_ok (T dt : R) : Prop := 0.8 * T <= dt <= 1.2 * T /\ 0.001 <= dt <= 0.2.
Definition flow_good (comp : bool) (qmin : Z) (max_rate cos_max tilt T : R) (s : flowS R) : Prop :=
  (qmin <= fl_qual s)%Z /\ len2 (fl_xy s) <= Rabs (fl_dt s * max_rate) /\ cos_max < tilt /\ comp = true /\ flow_period_ok T (fl_dt s).
Lemma sfminR (a b : R) : sfmin a b = Rmin a b.
Proof.
  unfold sfmin. cbn [sle slt RScalar]. destruct (Rle_dec a a) as [_|C]; [|lra]. cbn [negb]. destruct (Rle_dec b b) as [_|C]; [|lra]. cbn [negb].
  unfold Rmin. destruct (Rlt_dec b a), (Rle_dec a b); try lra.
Qed.
Lemma periodR (T dt : R) : sle (sfmax (smul (slit 8 10) T) (slit 1 1000)) dt && sle dt (sfmin (smul (slit 12 10) T) (slit 2 10)) = true <-> flow_period_ok T dt.
Proof.
  rewrite andb_true_iff, !sleR_true, sfminR, !slitR. change (sfmax ?a ?b) with (Rmax a b). cbn [smul RScalar]. unfold flow_period_ok.
  assert (A : forall x y z : R, Rmax x y <= z <-> x <= z /\ y <= z) by (intros; unfold Rmax; destruct (Rle_dec _ _); lra).
  assert (B : forall x y z : R, z <= Rmin x y <-> z <= x /\ z <= y) by (intros; unfold Rmin; destruct (Rle_dec _ _); lra).
  rewrite A, B. lra.
Qed.
Lemma longer2R (a : Vec R) (v : R) : longer2 a v = false <-> len2 a <= Rabs v.
Proof.
  unfold longer2, dot2. rewrite sltR_false. cbn [smul sadd RScalar]. rewrite szeroR. unfold len2.
  replace (0 + a 0%nat * a 0%nat + a 1%nat * a 1%nat) with (a 0%nat ^ 2 + a 1%nat ^ 2) by ring.
  rewrite <- (sqrt_Rsqr_abs v). unfold Rsqr. split; intro L.
  - apply sqrt_le_1_alt, L.
  - apply sqrt_le_0 in L; [exact L|apply Rplus_le_le_0_compat; apply pow2_ge_0|apply Rle_0_sqr].
Qed.
Lemma flowChecksR comp qmin (max_rate cos_max tilt T : R) s : flowChecks comp qmin max_rate cos_max tilt T s = true <-> flow_good comp qmin max_rate cos_max tilt T s.
Proof.
  unfold flowChecks, flow_good. rewrite andb_true_iff, periodR, !andb_true_iff, negb_true_iff, sltR_true, longer2R, Z.leb_le. cbn [smul RScalar]. tauto.
Qed.
Theorem C81_flow_sample : forall in_air comp qmin (max_rate cos_max tilt T : R) (gyro : Vec R) (s : flowS R),
  match flowProcess in_air comp qmin max_rate cos_max tilt T gyro s with
  | Some (c, dt) =>
      comp = true /\
      ((flow_good comp qmin max_rate cos_max tilt T s /\ (forall k, c k = fl_xy s k - gyro k) /\ dt = fl_dt s) \/
       (~ flow_good comp qmin max_rate cos_max tilt T s /\ in_air = false /\ (forall k, c k = 0) /\
        (flow_period_ok T (fl_dt s) -> dt = fl_dt s) /\ (~ flow_period_ok T (fl_dt s) -> dt = Rmax (0.8 * T) 0.001)))
  | None => ~ flow_good comp qmin max_rate cos_max tilt T s /\ (in_air = true \/ comp = false)
  end.
Proof.
  intros. unfold flowProcess. pose proof (flowChecksR comp qmin max_rate cos_max tilt T s) as FC.
  destruct (flowChecks comp qmin max_rate cos_max tilt T s).
  - assert (G := proj1 FC eq_refl). split; [apply G|]. left. split; [exact G|]. split; [reflexivity|reflexivity].
  - assert (G : ~ flow_good comp qmin max_rate cos_max tilt T s) by (intro G; apply FC in G; discriminate).
    destruct in_air; cbn [negb andb]; [split; [exact G|left; reflexivity]|]. destruct comp; [|split; [exact G|right; reflexivity]].
    split; [reflexivity|]. right. split; [exact G|]. split; [reflexivity|]. split; [intro k; apply szeroR|].
    pose proof (periodR T (fl_dt s)) as PR. destruct (sle _ _ && sle _ _).
    + split; [reflexivity|]. intro C. exfalso. apply C, PR. reflexivity.
    + split; [intro C; apply PR in C; discriminate|]. intros _. cbn [sfmax smul RScalar]. rewrite !slitR. f_equal; lra.
Qed.
(** the period handed to the fusion is never below 1 ms *)
Theorem C81_flow_period : forall in_air comp qmin (max_rate cos_max tilt T : R) (gyro : Vec R) (s : flowS R) c dt,
  flowProcess in_air comp qmin max_rate cos_max tilt T gyro s = Some (c, dt) -> 0.001 <= dt /\ (in_air = true -> dt <= 0.2).
Proof.
  intros in_air comp qmin max_rate cos_max tilt T gyro s c dt E. pose proof (C81_flow_sample in_air comp qmin max_rate cos_max tilt T gyro s) as F. rewrite E in F.
  destruct F as [_ [(G & _ & ->)|(_ & -> & _ & A & B)]].
  - destruct G as (_ & _ & _ & _ & _ & P). lra.
  - split; [|discriminate]. destruct (Rle_dec (0.8 * T) (fl_dt s)) as [L1|L1].
    2: { rewrite B; [apply Rmax_r|]. intros [P _]. lra. }
    destruct (Rle_dec (fl_dt s) (1.2 * T)) as [L2|L2]. 2: { rewrite B; [apply Rmax_r|]. intros [P _]. lra. }
    destruct (Rle_dec 0.001 (fl_dt s)) as [L3|L3]. 2: { rewrite B; [apply Rmax_r|]. intros [_ P]. lra. }
    destruct (Rle_dec (fl_dt s) 0.2) as [L4|L4]. 2: { rewrite B; [apply Rmax_r|]. intros [_ P]. lra. }
    rewrite A; [exact L3|]. unfold flow_period_ok. lra.
Qed.
(** in flight nothing is used of a sensor slower than 4 Hz *)
Theorem C81_slow_sensor : forall comp qmin (max_rate cos_max tilt T : R) (gyro : Vec R) (s : flowS R), 0.25 < T ->
  flowProcess true comp qmin max_rate cos_max tilt T gyro s = None.
Proof.
  intros. pose proof (C81_flow_sample true comp qmin max_rate cos_max tilt T gyro s) as F. destruct (flowProcess _ _ _ _ _ _ _ _ _) as [[c dt]|]; [|reflexivity].
  exfalso. destruct F as [_ [(G & _)|(_ & D & _)]]; [|discriminate]. destruct G as (_ & _ & _ & _ & P). unfold flow_period_ok in P. lra.
Qed.
(** ** Compensation for body rotation.  The IMU samples of the interval: rotation, gyro bias, period; the gyro measures rotation + bias *)
Fixpoint accum (l : list (Vec R * R)) (bias : Vec R) (a : flowacc R) : flowacc R := match l with
  | [] => a | (rot, dt) :: l' => accum l' bias (flowAccumulate (fun k => rot k + bias k) bias dt a) end.
Fixpoint total_rot (l : list (Vec R * R)) (k : nat) : R := match l with [] => 0 | (r, _) :: l' => r k + total_rot l' k end.
Fixpoint total_dt (l : list (Vec R * R)) : R := match l with [] => 0 | (_, d) :: l' => d + total_dt l' end.
Lemma accum_total l bias a k : a_ang (accum l bias a) k = a_ang a k + total_rot l k /\ a_dt (accum l bias a) = a_dt a + total_dt l.
Proof.
  revert a. induction l as [|[r d] l IH]; intro a; [cbn; split; ring|]. cbn [accum total_rot total_dt].
  destruct (IH (flowAccumulate (fun k0 => r k0 + bias k0) bias d a)) as [-> ->]. unfold flowAccumulate. cbn [a_ang a_dt sadd ssub RScalar]. split; ring.
Qed.
Definition cleared : flowacc R := FlowAcc (fun _ => 0) 0.
(** a sensor without gyro: over an interval of at most one second the image moves by
    [los] relative to the scene and by minus the rotation of the body; what is
    fused is exactly the first part *)
Theorem C81_compensation : forall (l : list (Vec R * R)) (bias fbias los : Vec R) (s : flowS R) in_air qmin (max_rate cos_max tilt : R),
  total_dt l <= 1 -> (forall k, fl_xy s k = los k - total_rot l k) -> flow_good true qmin max_rate cos_max tilt (total_dt l) s ->
  let '(comp, a', gyro, fb) := bodyRateComp false s (accum l bias cleared) fbias in
  (forall k, a_ang a' k = 0) /\ a_dt a' = 0 /\ (forall k, fb k = 0) /\
  exists c, flowProcess in_air comp qmin max_rate cos_max tilt (total_dt l) gyro s = Some (c, fl_dt s) /\
    (forall k, c k = los k) /\ forall k, flowRate c (fl_dt s) fb k = los k / fl_dt s.
Proof.
  intros l bias fbias los s in_air qmin max_rate cos_max tilt T1 FL G. unfold bodyRateComp.
  assert (D : a_dt (accum l bias cleared) = total_dt l) by (rewrite (proj2 (accum_total l bias cleared 0%nat)); cbn; ring).
  assert (N : slt (slit 1 1) (a_dt (accum l bias cleared)) = false) by (apply sltR_false; rewrite D, slitR; lra).
  rewrite N. cbn [a_ang a_dt]. split; [intro; apply szeroR|]. split; [apply szeroR|]. split; [intro; apply szeroR|].
  unfold flowProcess. apply flowChecksR in G. rewrite G. eexists. split; [reflexivity|].
  assert (C : forall k, ssub (fl_xy s k) (sopp (a_ang (accum l bias cleared) k)) = los k).
  { intro k. rewrite (proj1 (accum_total l bias cleared k)), FL. cbn. ring. }
  split; [exact C|]. intro k. unfold flowRate. rewrite C, szeroR. cbn [sadd sdiv RScalar]. ring.
Qed.
(** an interval of more than one second is dropped, with the rotation accumulated in it *)
Theorem C81_long_interval : forall finite (s : flowS R) (a : flowacc R) (bias : Vec R), 1 < a_dt a ->
  let '(comp, a', gyro, fb) := bodyRateComp finite s a bias in comp = false /\ (forall k, a_ang a' k = 0) /\ a_dt a' = 0 /\ fb = bias /\ gyro = fl_gyro s.
Proof.
  intros finite s a bias H. unfold bodyRateComp. assert (N : slt (slit 1 1) (a_dt a) = true) by (apply sltR_true; rewrite slitR; lra). rewrite N.
  cbn [a_ang a_dt]. repeat split; intros; apply szeroR.
Qed.
(** ** The bias of the sensor's own gyro.  A history of samples with their intervals *)
Fixpoint fbias_run (l : list (flowS R * flowacc R)) (b : Vec R) : Vec R := match l with
  | [] => b | (s, a) :: l' => fbias_run l' (snd (bodyRateComp true s a b)) end.
Definition clip_tenth (x : R) : R := Rmax (-0.1) (Rmin 0.1 x).
Lemma clipR (x : R) : sconstrain x (sopp (slit 1 10)) (slit 1 10) = clip_tenth x.
Proof. rewrite sconstrainR, !slitR. cbn [sopp RScalar]. unfold clip_tenth, Rmax, Rmin. repeat destruct (Rlt_dec _ _); repeat destruct (Rle_dec _ _); lra. Qed.
Definition usable (s : flowS R) (a : flowacc R) : Prop := / 8388608 < a_dt a <= 1 /\ / 8388608 < fl_dt s /\ Rabs (a_dt a - fl_dt s) < 0.1.
Lemma fbias_step (s : flowS R) (a : flowacc R) (b : Vec R) k :
  (usable s a -> snd (bodyRateComp true s a b) k = 0.99 * b k + 0.01 * clip_tenth (fl_gyro s k / fl_dt s - a_ang a k / a_dt a)) /\
  (~ usable s a -> snd (bodyRateComp true s a b) k = b k).
Proof.
  unfold bodyRateComp, usable. destruct (slt (slit 1 1) (a_dt a)) eqn:E1.
  - apply sltR_true in E1. rewrite slitR in E1. split; [intros ((_ & ?) & _); lra|reflexivity].
  - apply sltR_false in E1. rewrite slitR in E1. cbn [snd]. destruct (slt (slit 1 8388608) (a_dt a) && slt (slit 1 8388608) (fl_dt s) && slt (sabs (ssub (a_dt a) (fl_dt s))) (slit 1 10)) eqn:E2.
    + apply andb_true_iff in E2. destruct E2 as [E2 E4]. apply andb_true_iff in E2. destruct E2 as [E2 E3]. apply sltR_true in E2, E3, E4. rewrite slitR in E2, E3, E4. cbn [sabs ssub RScalar] in E4.
      split; [intros _|intro C; exfalso; apply C; lra]. rewrite clipR. cbn [sadd smul ssub sdiv RScalar]. rewrite !slitR.
      replace (fl_gyro s k * (IZR 1 / IZR 1 / fl_dt s) - a_ang a k * (IZR 1 / IZR 1 / a_dt a)) with (fl_gyro s k / fl_dt s - a_ang a k / a_dt a) by (field; lra). lra.
    + split; [|reflexivity]. intros ((U1 & _) & U2 & U3). exfalso.
      assert (X : slt (slit 1 8388608) (a_dt a) = true) by (apply sltR_true; rewrite slitR; lra).
      assert (Y : slt (slit 1 8388608) (fl_dt s) = true) by (apply sltR_true; rewrite slitR; lra).
      assert (Z : slt (sabs (ssub (a_dt a) (fl_dt s))) (slit 1 10) = true) by (apply sltR_true; rewrite slitR; cbn [sabs ssub RScalar]; lra).
      rewrite X, Y, Z in E2. discriminate.
Qed.
Lemma usable_dec s a : usable s a \/ ~ usable s a.
Proof.
  unfold usable. destruct (Rlt_dec (/ 8388608) (a_dt a)), (Rle_dec (a_dt a) 1), (Rlt_dec (/ 8388608) (fl_dt s)), (Rlt_dec (Rabs (a_dt a - fl_dt s)) 0.1); tauto.
Qed.
Theorem C81_flow_bias_bounded : forall l (b : Vec R) k, Rabs (b k) <= 0.1 -> Rabs (fbias_run l b k) <= 0.1.
Proof.
  induction l as [|[s a] l IH]; intros b k H; [exact H|]. cbn [fbias_run]. apply IH.
  destruct (fbias_step s a b k) as [F1 F2]. destruct (usable_dec s a) as [U|U]; [rewrite F1 by exact U|rewrite F2 by exact U; exact H].
  assert (C : -0.1 <= clip_tenth (fl_gyro s k / fl_dt s - a_ang a k / a_dt a) <= 0.1).
  { unfold clip_tenth. split; [apply Rmax_l|]. apply Rmax_lub; [lra|apply Rmin_l]. }
  apply Rabs_le_inv in H. apply Rabs_le. lra.
Qed.
(** with a steady rotation w and a sensor gyro that, in the convention the sensor
    and the compensation use, reports minus the rotation plus a bias e, the
    estimate converges to e - 2 w (clipped), not to e: a sign error unless the
    vehicle does not rotate (a defect) *)
Definition steady_flow (w e : R) (k : nat) (s : flowS R) (a : flowacc R) : Prop :=
  usable s a /\ a_ang a k = w * a_dt a /\ fl_gyro s k = (e - w) * fl_dt s.
Theorem C81_flow_bias_converges : forall (w e : R) k l (b : Vec R), (forall x, In x l -> steady_flow w e k (fst x) (snd x)) ->
  fbias_run l b k - clip_tenth (e - 2 * w) = 0.99 ^ length l * (b k - clip_tenth (e - 2 * w)).
Proof.
  intros w e k. induction l as [|[s a] l IH]; intros b H; [cbn; ring|]. cbn [fbias_run length].
  rewrite IH by (intros; apply H; right; assumption). destruct (H (s, a) (or_introl eq_refl)) as (U & A & G). cbn [fst snd] in *.
  rewrite (proj1 (fbias_step s a b k) U). destruct U as ((U1 & U2) & U3 & _).
  assert (P : 0 < / 8388608) by (apply Rinv_0_lt_compat; lra).
  rewrite A, G. replace ((e - w) * fl_dt s / fl_dt s - w * a_dt a / a_dt a) with (e - 2 * w) by (field; lra). rewrite <- tech_pow_Rmult. set (q := clip_tenth (e - 2 * w)). set (p := 0.99 ^ length l). replace 0.99 with (99 / 100) by lra. replace 0.01 with (1 / 100) by lra. field.
Qed.
(** so, without rotation, the corrected flow rate tends to the true one: its error after n samples is 0.99^n of the initial error;
    with rotation w and a perfect sensor gyro (e = 0) it tends to clip(-2 w) *)
Theorem C81_flow_rate_error : forall (w e los : R) k l (b : Vec R) (s : flowS R) (comp : Vec R),
  (forall x, In x l -> steady_flow w e k (fst x) (snd x)) -> 0 < fl_dt s ->
  fl_gyro s k = (e - w) * fl_dt s -> fl_xy s k = (los - w) * fl_dt s -> comp k = fl_xy s k - fl_gyro s k ->
  flowRate comp (fl_dt s) (fbias_run l b) k - los = clip_tenth (e - 2 * w) - e + 0.99 ^ length l * (b k - clip_tenth (e - 2 * w)).
Proof.
  intros w e los k l b s comp H D G X C. unfold flowRate. cbn [sadd sdiv RScalar]. rewrite C, G, X.
  pose proof (C81_flow_bias_converges w e k l b H) as F. replace (((los - w) * fl_dt s - (e - w) * fl_dt s) / fl_dt s) with (los - e) by (field; lra). lra.
Qed.
Theorem C81_flow_bias_refuted : exists l (s : flowS R) (comp : Vec R),
  (forall x, In x l -> steady_flow 1 0 0 (fst x) (snd x)) /\ 0 < fl_dt s /\ fl_gyro s 0%nat = (0 - 1) * fl_dt s /\ fl_xy s 0%nat = (0 - 1) * fl_dt s /\
  comp 0%nat = fl_xy s 0%nat - fl_gyro s 0%nat /\ flowRate comp (fl_dt s) (fbias_run l (fun _ => 0)) 0%nat < -0.05.
Proof.
  set (s := FlowS (fun _ => -0.05) (fun _ => -0.05) 0.05 255). set (a := FlowAcc (fun _ => 0.05) 0.05).
  exists (repeat (s, a) 100), s, (fun _ => 0).
  assert (ST : steady_flow 1 0 0 s a).
  { unfold steady_flow, usable, s, a. cbn. assert (/ 8388608 < 0.05) by lra. split; [split; [lra|split; [lra|rewrite Rabs_pos_eq by lra; lra]]|lra]. }
  assert (HL : forall x, In x (repeat (s, a) 100) -> steady_flow 1 0 0 (fst x) (snd x)) by (intros x X; apply repeat_spec in X; subst x; exact ST).
  split; [exact HL|]. split; [cbn; lra|]. split; [cbn; lra|]. split; [cbn; lra|]. split; [cbn; lra|].
  pose proof (C81_flow_rate_error 1 0 0 0%nat (repeat (s, a) 100) (fun _ => 0) s (fun _ => 0) HL ltac:(cbn; lra) ltac:(cbn; lra) ltac:(cbn; lra) ltac:(cbn; lra)) as F.
  assert (C : clip_tenth (0 - 2 * 1) = -0.1) by (unfold clip_tenth; rewrite Rmin_right by lra; apply Rmax_left; lra).
  rewrite C, repeat_length in F.
  assert (P : 0.99 ^ 100 < 0.4).
  { replace (0.99 ^ 100) with ((0.99 ^ 10) ^ 10) by (rewrite <- pow_mult; reflexivity). assert (A : 0 <= 0.99 ^ 10 <= 0.9044) by lra.
    assert (B : (0.99 ^ 10) ^ 10 <= 0.9044 ^ 10) by (apply pow_incr, A). lra. }
  rewrite Rminus_0_r in F. rewrite F. lra.
Qed.
(** binary32: a NaN flow passes the magnitude check, so a sample of good quality carrying one is handed to the fusion (as NaN) *)
Theorem C81_nan_flow : forall in_air (max_rate cos_max tilt T : f32) qmin (gyro : Vec f32) (s : flowS f32), (exists k, (k < 2)%nat /\ is_nan (fl_xy s k) = true) ->
  (qmin <= fl_qual s)%Z -> flt cos_max tilt = true ->
  fle (c_fmaxf (fmul (slit 8 10) T) (slit 1 1000)) (fl_dt s) && fle (fl_dt s) (sfmin (fmul (slit 12 10) T) (slit 2 10)) = true ->
  exists c, flowProcess in_air true qmin max_rate cos_max tilt T gyro s = Some (c, fl_dt s) /\ exists k, (k < 2)%nat /\ is_nan (c k) = true.
Proof.
  intros in_air max_rate cos_max tilt T qmin gyro s (k & Hk & N) Q C P. unfold flowProcess, flowChecks. cbn [slt sle sfmax smul FScalar].
  assert (L : longer2 (fl_xy s) (smul (fl_dt s) max_rate) = false).
  { unfold longer2, dot2. cbn [slt sadd smul FScalar]. apply nan_lt_r. destruct k as [|[|k]]; [| |lia].
    - apply nan_add_l, nan_add_r, nan_mul_l, N.
    - apply nan_add_r, nan_mul_l, N. }
  cbn [smul FScalar] in L. rewrite L, C. apply Z.leb_le in Q. rewrite Q. cbn [negb andb]. rewrite P.
  eexists. split; [reflexivity|]. exists k. split; [exact Hk|]. cbn [ssub FScalar]. apply nan_sub_l, N.
Qed.

(** ** Connection with the control logic *)
Theorem C81_control_uses_tests : forall (i : inp) (s : st) (cos30 max_rate : R) (acc : Vec R) (rate tilt cos_max T : R) comp qmin (gyro : Vec R) (fs : flowS R),
  ib i I_motion_excessive = motionExcessive cos30 max_rate acc rate tilt ->
  ib i I_flow_all_good = flowChecks comp qmin max_rate cos_max tilt T fs -> ib i I_flow_body_comp = comp ->
  (gz (flowMotion i s) T_bad_motion = if gb s F_in_air then 0%Z else if motionExcessive cos30 max_rate acc rate tilt then hor i else gz s T_bad_motion) /\
  (gz (flowMotion i s) T_good_motion = if gb s F_in_air then hor i else if motionExcessive cos30 max_rate acc rate tilt then gz s T_good_motion else hor i) /\
  gb (flowQuality i s) L_flow_data_ready =
    gb s L_flow_data_ready && match flowProcess (gb s F_in_air) comp qmin max_rate cos_max tilt T gyro fs with Some _ => true | None => false end.
Proof.
  intros i s cos30 max_rate acc rate tilt cos_max T comp qmin gyro fs M G C. split; [|split].
  - unfold flowMotion, setz. rewrite M. destruct (gb s F_in_air), (motionExcessive cos30 max_rate acc rate tilt); reflexivity.
  - unfold flowMotion, setz. rewrite M. destruct (gb s F_in_air), (motionExcessive cos30 max_rate acc rate tilt); reflexivity.
  - unfold flowQuality, if_, setb, flowProcess. rewrite G, C.
    destruct (gb s L_flow_data_ready) eqn:E, (flowChecks comp qmin max_rate cos_max tilt T fs), (gb s F_in_air), comp; cbn; rewrite ?E; reflexivity.
Qed.
(** the hypotheses are met *)
Example C81_rest_ex : exists (s : covst R) (force : Vec R) (c : covctx R), p_acc_bias_learn_tc c = 1 /\ at_rest force c /\ len3 force = 9.80665 /\
  motionExcessive (cos (PI / 6)) 2.5 (c_acc_vec s) (c_ang_filt s) 1 = true.
Proof.
  exists (mkCov (fun _ _ => 0) (fun _ => false) (fun _ => 0) 0 0 (fun _ => 0) 0 (fun _ => 0) (fun _ => 0) false false 0%Z false).
  exists (fun k => match k with 2%nat => -9.80665 | _ => 0 end).
  exists (mkCtx (fun i => 0) (fun _ => 0) (fun k => match k with 2%nat => -9.80665 / 100 | _ => 0 end) (fun _ => false) (fun _ => 0)
    0 0 1 1000 1000 0 0 0 0 1 0 0 1 false false true false false false false false true false false 0 0 0 0 0 0 (1 / 100) 0%Z).
  split; [reflexivity|]. split; [intros k Hk; destruct k as [|[|[|k]]]; cbn; lra || lia|]. split.
  - unfold len3. replace (0 ^ 2 + 0 ^ 2 + (-9.80665) ^ 2) with (9.80665 ^ 2) by lra. apply sqrt_pow2. lra.
  - apply C81_motion_excessive. right. left. unfold len3. cbn [c_acc_vec]. replace (0 ^ 2 + 0 ^ 2 + 0 ^ 2) with 0 by ring. rewrite sqrt_0. lra.
Qed.
Example C81_flow_ex : exists (l : list (Vec R * R)) (s : flowS R), total_dt l <= 1 /\ (forall k, fl_xy s k = 0.01 - total_rot l k) /\ flow_good true 1 2.5 0.7 1 (total_dt l) s /\ total_rot l 0 <> 0.
Proof.
  exists [((fun _ => 0.02), 0.01); ((fun _ => -0.01), 0.01)], (FlowS (fun _ => 0) (fun _ => 0) 0.02 200). cbn.
  split; [lra|]. split; [intro; lra|]. split; [|lra]. unfold flow_good, flow_period_ok. cbn. split; [lia|]. split; [|lra].
  unfold len2. replace (0 ^ 2 + 0 ^ 2) with 0 by ring. rewrite sqrt_0. apply Rabs_pos.
Qed.
Print Assumptions C81_motion_excessive. Print Assumptions C81_tilt_excessive. Print Assumptions C81_rate_peak. Print Assumptions C81_acc_filter. Print Assumptions C81_rest_recovers.
Print Assumptions C81_nan_acceleration. Print Assumptions C81_nan_rate. Print Assumptions C81_flow_sample. Print Assumptions C81_flow_period. Print Assumptions C81_slow_sensor.
Print Assumptions C81_compensation. Print Assumptions C81_long_interval. Print Assumptions C81_flow_bias_bounded. Print Assumptions C81_flow_bias_converges. Print Assumptions C81_flow_rate_error.
Print Assumptions C81_flow_bias_refuted. Print Assumptions C81_nan_flow. Print Assumptions C81_control_uses_tests.

(** * Range finder: filtered interval (binary32) and health over histories *)
From Coq Require Import Lra Psatz.
From Verif Require Import CBase F32 F32More InterfaceSpec RangeModel RangeProofs.
Open Scope Z_scope.

Lemma alpha_R : (0.0049999 <= R32 rng_alpha <= 0.0050001)%R /\ is_finite rng_alpha = true.
Proof.
  destruct (flit_R 1 2) as [E1 F1]; [lia|lia|]. destruct (flit_R 1 100) as [E2 F2]; [lia|lia|].
  pose proof (rnd32_bounds (1 / 2)) as B1. pose proof (rnd32_bounds (1 / 100)) as B2.
  rewrite <- E1 in B1. rewrite <- E2 in B2.
  unfold rng_alpha. destruct (fmul_R (flit 1 2) (flit 1 100)) as [E3 F3]; auto.
  { rewrite Rabs_pos_eq by nra. pose proof big127. nra. }
  split; [|exact F3]. rewrite E3.
  pose proof (rnd32_bounds (R32 (flit 1 2) * R32 (flit 1 100))) as B3. nra.
Qed.
Lemma onem_alpha_R : (0.9949 <= R32 (fsub f1 rng_alpha) <= 0.99501)%R /\ is_finite (fsub f1 rng_alpha) = true.
Proof.
  destruct alpha_R as [A FA]. destruct (f_of_Z_exact 1) as [E1 F1]; [lia|].
  fold f1 in E1, F1.
  destruct (fsub_R f1 rng_alpha) as [E F]; auto.
  { rewrite E1. rewrite Rabs_pos_eq by lra. pose proof big127. lra. }
  split; [|exact F]. rewrite E, E1. pose proof (rnd32_bounds (1 - R32 rng_alpha)) as B. lra.
Qed.

Lemma u64_float n : 0 <= n < 2 ^ 64 ->
  (0 <= R32 (f_of_Z n) <= 20000000000000000000)%R /\ is_finite (f_of_Z n) = true /\
  (R32 (f_of_Z n) <= IZR n * (1 + / 16777216) + / 1000000000000000000000)%R.
Proof.
  intros H. assert (HR : (0 <= IZR n <= 18446744073709551616)%R) by (split; apply IZR_le; lia).
  destruct (f_of_Z_R n) as [E F]. { rewrite Rabs_pos_eq by lra. pose proof big127. lra. }
  rewrite E. pose proof (rnd32_bounds (IZR n)) as B. split; [|split; [exact F|lra]].
  split; [apply rnd32_ge0|]; lra.
Qed.

Definition dt_ok (dt : f32) : Prop := is_finite dt = true /\ (0 <= R32 dt <= 4000000)%R.

Lemma four_M : R32 (f_of_Z 4000000) = 4000000%R /\ is_finite (f_of_Z 4000000) = true.
Proof. destruct (f_of_Z_exact 4000000); [lia|auto]. Qed.

(** value of the unsaturated filter *)
Lemma dt_raw dt n : dt_ok dt -> 0 <= n < 2 ^ 64 ->
  let x := fadd (fmul dt (fsub f1 rng_alpha)) (fmul rng_alpha (f_of_Z n)) in
  is_finite x = true /\ (0 <= R32 x)%R /\
  (R32 x <= R32 dt * 0.995011 + 0.00500011 * IZR n + 0.001)%R.
Proof.
  intros [Fd Bd] Hn. cbv zeta. destruct alpha_R as [A FA]. destruct onem_alpha_R as [O FO].
  destruct (u64_float n Hn) as (U1 & FU & U2). pose proof big127 as BIG.
  assert (HR : (0 <= IZR n <= 18446744073709551616)%R) by (split; apply IZR_le; lia).
  destruct (fmul_R dt (fsub f1 rng_alpha)) as [E1 F1]; auto.
  { rewrite Rabs_pos_eq by nra. nra. }
  destruct (fmul_R rng_alpha (f_of_Z n)) as [E2 F2]; auto.
  { rewrite Rabs_pos_eq by nra. nra. }
  assert (P1 : (0 <= R32 dt * R32 (fsub f1 rng_alpha))%R) by nra.
  assert (P2 : (0 <= R32 rng_alpha * R32 (f_of_Z n))%R) by nra.
  pose proof (rnd32_bounds _ P1) as B1. pose proof (rnd32_bounds _ P2) as B2.
  assert (Q1 : (0 <= R32 (fmul dt (fsub f1 rng_alpha)))%R) by (rewrite E1; apply rnd32_ge0; assumption).
  assert (Q2 : (0 <= R32 (fmul rng_alpha (f_of_Z n)))%R) by (rewrite E2; apply rnd32_ge0; assumption).
  assert (S1 : (R32 (fmul dt (fsub f1 rng_alpha)) <= R32 dt * 0.9950102 + 0.0000001)%R).
  { rewrite E1. assert (R32 dt * R32 (fsub f1 rng_alpha) <= R32 dt * 0.99501)%R by nra. lra. }
  assert (S2 : (R32 (fmul rng_alpha (f_of_Z n)) <= 0.005000101 * IZR n + 0.0000001)%R).
  { rewrite E2. assert (R32 rng_alpha * R32 (f_of_Z n) <= 0.0050001 * R32 (f_of_Z n))%R by nra. lra. }
  destruct (fadd_R (fmul dt (fsub f1 rng_alpha)) (fmul rng_alpha (f_of_Z n))) as [E3 F3]; auto.
  { rewrite Rabs_pos_eq by lra. nra. }
  split; [exact F3|]. split; [rewrite E3; apply rnd32_ge0; lra|].
  rewrite E3. pose proof (rnd32_bounds (R32 (fmul dt (fsub f1 rng_alpha)) + R32 (fmul rng_alpha (f_of_Z n)))) as B3.
  lra.
Qed.

Lemma dt_lpf_ok dt now t : dt_ok dt -> dt_ok (dt_lpf dt now t).
Proof.
  intros H. pose proof (Z.mod_pos_bound (now - t) two64 ltac:(reflexivity)) as Hm.
  assert (Hn : 0 <= sub64 now t < 2 ^ 64) by (unfold sub64; exact Hm).
  destruct (dt_raw dt _ H Hn) as (F & P & _). destruct four_M as [E4 F4].
  unfold dt_lpf. destruct (c_fminf_R _ _ F F4) as [E FF]. split; [exact FF|].
  rewrite E, E4. unfold Rmin. destruct (Rle_dec _ _); lra.
Qed.

Lemma dt_lpf_le dt now t a : dt_ok dt -> sub64 now t <= a ->
  (R32 (dt_lpf dt now t) <= R32 dt * 0.995011 + 0.00500011 * IZR a + 0.001)%R.
Proof.
  intros H Ha. pose proof (Z.mod_pos_bound (now - t) two64 ltac:(reflexivity)) as Hm.
  assert (Hn : 0 <= sub64 now t < 2 ^ 64) by (unfold sub64; exact Hm).
  destruct (dt_raw dt _ H Hn) as (F & P & B). destruct four_M as [E4 F4].
  unfold dt_lpf. destruct (c_fminf_R _ _ F F4) as [E FF].
  rewrite E. apply Rle_trans with (1 := Rmin_l _ _).
  apply IZR_le in Ha. lra.
Qed.

Lemma step_dt k s : rf_dt (tick_step k s) = new_dt k s.
Proof.
  pose proof (tick_fields k s) as T. cbv zeta in T. destruct T as (_&_&_&_&_&_&_&_& -> &_).
  unfold new_dt. replace (rf_dt s) with (rf_dt (load (tk_new k) s)) by (destruct (tk_new k); reflexivity).
  run_cases; try reflexivity.
  destruct (stuck_check _ _ _ _ _ _) as [[st mn] mx]; reflexivity.
Qed.
Lemma step_time k s : rs_time (rf_sample (tick_step k s)) = rs_time (rf_sample (load (tk_new k) s)).
Proof.
  pose proof (tick_fields k s) as T. cbv zeta in T. destruct T as (-> &_).
  run_cases; try reflexivity.
  destruct (stuck_check _ _ _ _ _ _) as [[st mn] mx]; reflexivity.
Qed.
Lemma step_regular k s : is_regularly_sending (tick_step k s) =
  (sub64 (tk_now k) (rs_time (rf_sample (tick_step k s))) <=? 400000) && flt (rf_dt (tick_step k s)) (f_of_Z 2000000).
Proof.
  rewrite step_dt, step_time. unfold is_regularly_sending.
  pose proof (tick_fields k s) as T. cbv zeta in T. destruct T as (_&_&_& -> &_).
  unfold new_dt. replace (rf_dt s) with (rf_dt (load (tk_new k) s)) by (destruct (tk_new k); reflexivity).
  run_cases; cbn [rf_regular]; unfold out_of_date, continuous, RNG_MAX_INTERVAL in *;
  try (destruct (stuck_check _ _ _ _ _ _) as [[st mn] mx]; cbn [rf_regular]);
  rewrite ?Econt, ?Bool.andb_false_r; try reflexivity;
  symmetry; try (apply Bool.andb_true_iff; split; [lia|reflexivity]).
  apply Bool.andb_false_iff; left; lia.
Qed.

Lemma dt_history l : dt_ok (rf_dt (state l)).
Proof.
  induction l as [|k l IH] using rev_ind.
  - split; [reflexivity|]. cbn. lra.
  - rewrite state_snoc, step_dt. apply dt_lpf_ok, IH.
Qed.

(** time stamp of the sample in the sensor object after a history *)
Fixpoint last_sample_time (d : Z) (l : list tick) : Z :=
  match l with
  | [] => d
  | k :: r => last_sample_time (match tk_new k with Some x => rs_time x | None => d end) r
  end.
Lemma state_time_gen l s : rs_time (rf_sample (ticks l s)) = last_sample_time (rs_time (rf_sample s)) l.
Proof.
  revert s; induction l as [|k l IH]; intros s; cbn [ticks last_sample_time]; [reflexivity|].
  rewrite IH, step_time. destruct (tk_new k); reflexivity.
Qed.

(** ** continuity *)
(** every tick sees a sample no older than 400 ms *)
Fixpoint fresh_all (d : Z) (l : list tick) : Prop :=
  match l with
  | [] => True
  | k :: r => let d' := match tk_new k with Some x => rs_time x | None => d end in
              sub64 (tk_now k) d' <= 400000 /\ fresh_all d' r
  end.

Lemma two_M : R32 (f_of_Z 2000000) = 2000000%R /\ is_finite (f_of_Z 2000000) = true.
Proof. destruct (f_of_Z_exact 2000000); [lia|auto]. Qed.

Lemma continuous_R dt : dt_ok dt -> (flt dt (f_of_Z 2000000) = true <-> (R32 dt < 2000000)%R).
Proof.
  intros [F _]. destruct two_M as [E F2]. rewrite flt_R by assumption. rewrite E.
  destruct (Rlt_bool_spec (R32 dt) 2000000); split; auto; try discriminate; lra.
Qed.

Lemma fresh_keeps l : forall s, dt_ok (rf_dt s) ->
  fresh_all (rs_time (rf_sample s)) l ->
  dt_ok (rf_dt (ticks l s)) /\
  (R32 (rf_dt (ticks l s)) <= Rmax 1999000 (R32 (rf_dt s) - 7000 * INR (length l)))%R.
Proof.
  induction l as [|k l IH]; intros s Hd Hf.
  - cbn [ticks length INR]. split; [exact Hd|]. apply Rle_trans with (2 := Rmax_r _ _). lra.
  - cbn [ticks fresh_all] in *. cbv zeta in Hf. destruct Hf as [Hf1 Hf2].
    assert (Et : rs_time (rf_sample (load (tk_new k) s)) = match tk_new k with Some x => rs_time x | None => rs_time (rf_sample s) end)
      by (destruct (tk_new k); reflexivity).
    assert (Hd' : dt_ok (rf_dt (tick_step k s))) by (rewrite step_dt; apply dt_lpf_ok, Hd).
    assert (Hle : (R32 (rf_dt (tick_step k s)) <= Rmax 1999000 (R32 (rf_dt s) - 7000))%R).
    { rewrite step_dt. unfold new_dt. rewrite Et.
      eapply Rle_trans; [apply (dt_lpf_le _ _ _ 400000 Hd Hf1)|]. destruct Hd as [_ Hd].
      destruct (Rle_dec (R32 (rf_dt s)) 2000000).
      - apply Rle_trans with (2 := Rmax_l _ _). lra.
      - apply Rle_trans with (2 := Rmax_r _ _). lra. }
    destruct (IH (tick_step k s)) as [IH1 IH2]; [exact Hd'| |].
    { rewrite step_time, Et. exact Hf2. }
    split; [exact IH1|]. eapply Rle_trans; [exact IH2|].
    change (length (k :: l)) with (S (length l)). rewrite S_INR. pose proof (pos_INR (length l)).
    apply Rmax_lub; [apply Rmax_l|].
    unfold Rmax in Hle at 1. destruct (Rle_dec _ _) in Hle.
    + apply Rle_trans with (2 := Rmax_r _ _). lra.
    + apply Rle_trans with (2 := Rmax_l _ _). lra.
Qed.

(** fresh data are never judged discontinuous, and after any outage 300
    updates with fresh data restore regularity *)
Theorem regular_when_fresh l k s : dt_ok (rf_dt s) ->
  fresh_all (rs_time (rf_sample s)) (l ++ [k]) ->
  (R32 (rf_dt s) < 2000000)%R \/ (300 <= length l)%nat ->
  is_regularly_sending (ticks (l ++ [k]) s) = true.
Proof.
  intros Hd Hf Hc.
  destruct (fresh_keeps (l ++ [k]) s Hd Hf) as [H1 H2].
  assert (Hlt : (R32 (rf_dt (ticks (l ++ [k]) s)) < 2000000)%R).
  { eapply Rle_lt_trans; [exact H2|]. apply Rmax_lub_lt; [lra|].
    rewrite app_length, plus_INR. cbn [length INR]. pose proof (pos_INR (length l)).
    destruct Hc as [Hc|Hc]; [lra|]. apply le_INR in Hc. replace (INR 300) with 300%R in Hc by (cbn; lra).
    destruct Hd as [_ Hd]. lra. }
  rewrite ticks_app in *. cbn [ticks] in *. rewrite step_regular.
  apply Bool.andb_true_iff. split.
  - apply Z.leb_le. rewrite step_time.
    assert (G : forall l s, fresh_all (rs_time (rf_sample s)) (l ++ [k]) ->
       sub64 (tk_now k) (rs_time (rf_sample (load (tk_new k) (ticks l s)))) <= 400000).
    { clear. induction l as [|a l IH]; intros s H.
      - cbn in H. cbn [ticks]. destruct H as [H _]. destruct (tk_new k); exact H.
      - cbn [app fresh_all] in H. cbv zeta in H. destruct H as [_ H]. cbn [ticks]. apply IH.
        rewrite step_time. destruct (tk_new a); exact H. }
    apply G. exact Hf.
  - apply continuous_R; [|exact Hlt]. rewrite step_dt. rewrite step_dt in H1. exact H1.
Qed.

(** ** quality hysteresis over histories *)
Lemma step_bad k s : rf_bad_quality (tick_step k s) =
  match tk_new k with
  | Some x => if is_regularly_sending (tick_step k s) && (rs_quality x =? 0) then tk_now k else rf_bad_quality s
  | None => rf_bad_quality s
  end.
Proof.
  pose proof (tick_fields k s) as T. cbv zeta in T.
  unfold is_regularly_sending. destruct T as (_&_&_& -> &_&_&_&_&_& ->).
  destruct (tk_new k) as [x|] eqn:Ek.
  - assert (Hl : rf_ready (load (Some x) s) = true) by reflexivity.
    run_cases; try (rewrite Hl in Erdy; discriminate); cbn [rf_regular rf_bad_quality andb]; try reflexivity;
    try (cbn [load rf_sample] in Eq; rewrite Eq; reflexivity).
    destruct (stuck_check _ _ _ _ _ _) as [[st mn] mx]; cbn [rf_regular rf_bad_quality andb].
    cbn [load rf_sample] in Eq; rewrite Eq; reflexivity.
  - unfold run_checks; cbn [load rf_ready negb].
    match goal with |- context [if ?c then _ else _] => destruct c end; reflexivity.
Qed.

(** times of the updates are nondecreasing and fit 64 bits *)
Definition timely (l : list tick) : Prop :=
  nondecreasing 0 (map tk_now l) /\ Forall (fun k => tk_now k < 2 ^ 64) l.

Lemma nondec_snoc t0 l a : nondecreasing t0 (l ++ [a]) <->
  nondecreasing t0 l /\ (forall x, In x l -> x <= a) /\ t0 <= a.
Proof.
  revert t0; induction l as [|b l IH]; intros t0; cbn [app nondecreasing].
  - split; [intros [H _]; split; [exact I|split; [intros x []|exact H]]|intros (_ & _ & H); split; [exact H|exact I]].
  - rewrite IH. split.
    + intros (H1 & H2 & H3 & H4). split; [auto|]. split; [|lia]. intros x [<-|Hx]; [exact H4|auto].
    + intros ((H1 & H2) & H3 & H4). split; [exact H1|]. split; [exact H2|]. split.
      * intros; apply H3; right; assumption. * apply H3; left; reflexivity.
Qed.

Lemma timely_snoc l k : timely (l ++ [k]) -> timely l /\ (forall j, In j l -> tk_now j <= tk_now k) /\ 0 <= tk_now k < 2 ^ 64.
Proof.
  intros [H1 H2]. rewrite map_app in H1. cbn [map] in H1. apply nondec_snoc in H1. destruct H1 as (A & B & C).
  apply Forall_app in H2. destruct H2 as [D E]. apply Forall_inv in E. split; [split; assumption|].
  split; [|lia]. intros j Hj. apply B. apply in_map, Hj.
Qed.

Lemma bad_quality_history l : timely l ->
  0 <= rf_bad_quality (state l) /\
  (rf_bad_quality (state l) = 0 \/ exists k, In k l /\ rf_bad_quality (state l) = tk_now k) /\
  forall l1 k l2 x, l = l1 ++ k :: l2 -> tk_new k = Some x -> rs_quality x = 0 ->
    is_regularly_sending (state (l1 ++ [k])) = true -> tk_now k <= rf_bad_quality (state l).
Proof.
  induction l as [|k l IH] using rev_ind; intros Ht.
  - split; [cbn; lia|]. split; [left; reflexivity|]. intros l1 k l2 x E. destruct l1; discriminate.
  - apply timely_snoc in Ht. destruct Ht as (Ht & Hle & Hk). destruct (IH Ht) as (A & B & C).
    rewrite state_snoc. rewrite step_bad.
    assert (Hbk : rf_bad_quality (state l) <= tk_now k).
    { destruct B as [-> | (j & Hj & ->)]; [lia|apply Hle, Hj]. }
    assert (Hold : (0 <= rf_bad_quality (state l)) /\
       (rf_bad_quality (state l) = 0 \/ exists k0, In k0 (l ++ [k]) /\ rf_bad_quality (state l) = tk_now k0)).
    { split; [exact A|]. destruct B as [B|(j & Hj & B)]; [left; exact B|right; exists j; split; [apply in_or_app; left; exact Hj|exact B]]. }
    assert (Hsplit : forall l1 j l2 (x : range_sample), l ++ [k] = l1 ++ j :: l2 ->
              (l2 = [] /\ l1 = l /\ j = k) \/ exists l2', l2 = l2' ++ [k] /\ l = l1 ++ j :: l2').
    { intros l1 j l2 x E. destruct l2 as [|y l2] using rev_ind.
      - left. apply app_inj_tail in E. destruct E as [-> ->]. auto.
      - right. exists l2. replace (l1 ++ j :: l2 ++ [y]) with ((l1 ++ j :: l2) ++ [y]) in E by (rewrite <- app_assoc; reflexivity).
        apply app_inj_tail in E. destruct E as [-> ->]. auto. }
    destruct (tk_new k) as [x|] eqn:Ek.
    + destruct (is_regularly_sending (tick_step k (state l)) && (rs_quality x =? 0)) eqn:Eb.
      * split; [lia|]. split; [right; exists k; split; [apply in_or_app; right; left; reflexivity|reflexivity]|].
        intros l1 j l2 y E Hj Hy Hr. destruct (Hsplit _ _ _ y E) as [(_ & _ & ->)|(l2' & _ & E2)]; [lia|].
        specialize (C _ _ _ _ E2 Hj Hy Hr). lia.
      * split; [apply Hold|]. split; [apply Hold|].
        intros l1 j l2 y E Hj Hy Hr. destruct (Hsplit _ _ _ y E) as [(-> & -> & ->)|(l2' & _ & E2)].
        { rewrite Ek in Hj. injection Hj as <-. rewrite state_snoc in Hr. rewrite Hr in Eb.
          replace (rs_quality x =? 0) with true in Eb by lia. discriminate. }
        exact (C _ _ _ _ E2 Hj Hy Hr).
    + split; [apply Hold|]. split; [apply Hold|].
      intros l1 j l2 y E Hj Hy Hr. destruct (Hsplit _ _ _ y E) as [(-> & -> & ->)|(l2' & _ & E2)].
      { rewrite Ek in Hj. discriminate. }
      exact (C _ _ _ _ E2 Hj Hy Hr).
Qed.

(** ** C10 over histories *)
Theorem data_healthy_only_if l k : timely (l ++ [k]) ->
  is_data_healthy (state (l ++ [k])) = true ->
  exists x, tk_new k = Some x /\
    (tk_now k - rs_time x) mod 2 ^ 64 <= 400000 /\
    is_regularly_sending (state (l ++ [k])) = true /\
    rs_quality x <> 0 /\
    (forall l1 j l2 y, l = l1 ++ j :: l2 -> tk_new j = Some y -> rs_quality y = 0 ->
       is_regularly_sending (state (l1 ++ [j])) = true -> tk_now j + rp_hyst (tk_par k) < tk_now k) /\
    fgt (cos_tilt_of (tk_par k) (tk_r20 k) (tk_r22 k)) (rp_cos_max_tilt (tk_par k)) = true /\
    fge (rs_rng x) (rp_min (tk_par k)) = true /\ fle (rs_rng x) (rp_max (tk_par k)) = true.
Proof.
  intros Ht H. rewrite state_snoc in *. apply healthy_conditions in H.
  destruct H as (x & Hx & (C1 & C2 & C3 & C4 & C5 & C6) & Hb & _).
  apply timely_snoc in Ht. destruct Ht as (Ht & Hle & Hk).
  destruct (bad_quality_history l Ht) as (B1 & B2 & B3).
  exists x. split; [exact Hx|]. split; [exact C1|]. split.
  { rewrite step_regular, step_dt, step_time, Hx. cbn [load rf_sample]. apply Bool.andb_true_iff. split; [lia|exact C2]. }
  split; [exact C3|]. split; [|auto].
  intros l1 j l2 y E Hj Hy Hr. specialize (B3 _ _ _ _ E Hj Hy Hr).
  assert (Hbk : rf_bad_quality (state l) <= tk_now k).
  { destruct B2 as [-> | (i & Hi & ->)]; [lia|apply Hle, Hi]. }
  unfold sub64 in Hb. unfold u64 in Hb. rewrite Z.mod_small in Hb by (rewrite two64_val; lia). lia.
Qed.

Theorem healthy_history l : is_healthy (state l) = true ->
  exists l1 k l2, l = l1 ++ k :: l2 /\ is_data_healthy (state (l1 ++ [k])) = true /\
    Forall (fun j => tk_new j = None) l2 /\
    Forall (fun j => (tk_now j - last_sample_time 0 (l1 ++ [k])) mod 2 ^ 64 <= 400000) (k :: l2).
Proof.
  induction l as [|k l IH] using rev_ind; [discriminate|].
  rewrite state_snoc. unfold is_healthy.
  pose proof (tick_fields k (state l)) as T. cbv zeta in T. destruct T as (_&_& -> &_). intros Hv.
  assert (Hfresh : sub64 (tk_now k) (rs_time (rf_sample (load (tk_new k) (state l)))) <= 400000).
  { revert Hv. run_cases; cbn [rf_valid]; try discriminate; unfold out_of_date, RNG_MAX_INTERVAL in *; lia. }
  destruct (tk_new k) as [x|] eqn:Ek.
  - exists l, k, []. split; [reflexivity|]. split.
    { rewrite state_snoc, tick_not_healthy. unfold is_data_healthy. rewrite Ek, Hv.
      assert (Hl : rf_ready (load (Some x) (state l)) = true) by reflexivity.
      run_cases; cbn [rf_ready]; rewrite ?Hl; try reflexivity; try discriminate;
      try (rewrite Hl in Erdy; discriminate); try (rewrite Erdy; reflexivity).
      destruct (stuck_check _ _ _ _ _ _) as [[st mn] mx]; reflexivity. }
    split; [constructor|]. constructor; [|constructor].
    change 0 with (rs_time (rf_sample rf_init)). rewrite <- state_time_gen. fold (state (l ++ [k])).
    rewrite state_snoc, step_time, Ek. exact Hfresh.
  - assert (Hv' : is_healthy (state l) = true).
    { revert Hv. unfold run_checks; cbn [load rf_ready negb].
      match goal with |- context [if ?c then _ else _] => destruct c end; cbn; [discriminate|]. auto. }
    destruct (IH Hv') as (l1 & j & l2 & -> & Hd & Hn & Hf).
    exists l1, j, (l2 ++ [k]). split; [rewrite <- app_assoc; reflexivity|]. split; [exact Hd|].
    split; [apply Forall_app; split; [exact Hn|constructor; [exact Ek|constructor]]|].
    change (j :: l2 ++ [k]) with ((j :: l2) ++ [k]). apply Forall_app. split; [exact Hf|]. constructor; [|constructor].
    cbn [load rf_sample] in Hfresh.
    replace (last_sample_time 0 (l1 ++ [j])) with (rs_time (rf_sample (state (l1 ++ j :: l2)))); [exact Hfresh|].
    unfold state. replace (l1 ++ j :: l2) with ((l1 ++ [j]) ++ l2) by (rewrite <- app_assoc; reflexivity).
    rewrite ticks_app, state_time_gen, state_time_gen. cbn [rf_init rf_sample rs_time].
    revert Hn. generalize (last_sample_time 0 (l1 ++ [j])). clear. induction l2 as [|a l2 IH]; intros d H; [reflexivity|].
    cbn [last_sample_time]. rewrite (Forall_inv H). apply IH. exact (Forall_inv_tail H).
Qed.

(** the bypass on ground breaks the property of C10 *)
Theorem ground_bypass_unchecked s cl : is_regularly_sending s = true -> is_data_healthy s = false ->
  is_data_healthy (ground_bypass true true false cl s) = true.
Proof. intros H1 H2. unfold ground_bypass. rewrite H1, H2. reflexivity. Qed.

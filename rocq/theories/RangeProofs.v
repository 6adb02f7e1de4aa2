(** * Proofs about the range finder model *)
From Coq Require Import Lra Psatz.
From Verif Require Import CBase F32 F32More InterfaceSpec RangeModel.
Open Scope Z_scope.

Lemma ticks_app l1 l2 s : ticks (l1 ++ l2) s = ticks l2 (ticks l1 s).
Proof. revert s; induction l1; intros; cbn [ticks app]; auto. Qed.

(** ** one step *)
Definition new_dt (k : tick) (s : rf_state) : f32 :=
  dt_lpf (rf_dt s) (tk_now k) (rs_time (rf_sample (load (tk_new k) s))).

Definition conditions (k : tick) (x : range_sample) (dt : f32) : Prop :=
  sub64 (tk_now k) (rs_time x) <= 400000 /\ flt dt (f_of_Z 2000000) = true /\
  rs_quality x <> 0 /\
  fgt (cos_tilt_of (tk_par k) (tk_r20 k) (tk_r22 k)) (rp_cos_max_tilt (tk_par k)) = true /\
  fge (rs_rng x) (rp_min (tk_par k)) = true /\ fle (rs_rng x) (rp_max (tk_par k)) = true.

Lemma tick_not_healthy k s :
  is_data_healthy (tick_step k s) =
  is_data_healthy (run_checks (tk_par k) (tk_now k) (tk_r20 k) (tk_r22 k) (load (tk_new k) s)).
Proof.
  unfold tick_step. set (s1 := run_checks _ _ _ _ _).
  destruct (is_data_healthy s1) eqn:E; [|exact E].
  unfold is_data_healthy in *. cbn. exact E.
Qed.

Lemma tick_fields k s :
  let s1 := run_checks (tk_par k) (tk_now k) (tk_r20 k) (tk_r22 k) (load (tk_new k) s) in
  let s' := tick_step k s in
  rs_time (rf_sample s') = rs_time (rf_sample s1) /\ rf_ready s' = rf_ready s1 /\ rf_valid s' = rf_valid s1 /\
  rf_regular s' = rf_regular s1 /\ rf_last_valid s' = rf_last_valid s1 /\ rf_stuck s' = rf_stuck s1 /\
  rf_smin s' = rf_smin s1 /\ rf_smax s' = rf_smax s1 /\ rf_dt s' = rf_dt s1 /\
  rf_bad_quality s' = rf_bad_quality s1.
Proof.
  cbv zeta. unfold tick_step. set (s1 := run_checks _ _ _ _ _).
  destruct (is_data_healthy s1); cbn; repeat (split; [reflexivity|]); reflexivity.
Qed.

Ltac run_cases :=
  unfold run_checks;
  match goal with |- context [out_of_date ?a ?b || negb (continuous ?c)] =>
    destruct (out_of_date a b) eqn:Eood; [cbn [orb]|destruct (continuous c) eqn:Econt; cbn [orb negb]] end;
  [ | match goal with |- context [negb (rf_ready ?s)] => destruct (rf_ready s) eqn:Erdy end; cbn [negb];
      [ match goal with |- context [rs_quality ?x =? 0] => destruct (rs_quality x =? 0) eqn:Eq end;
        [ | match goal with |- context [(?a >? ?b) && (?c && ?d)] =>
              destruct (a >? b) eqn:Ehy; destruct c eqn:Etl; destruct d eqn:Erg; cbn [andb] end ] | ] | ].

Lemma healthy_conditions k s :
  is_data_healthy (tick_step k s) = true ->
  exists x, tk_new k = Some x /\ conditions k x (new_dt k s) /\
    sub64 (tk_now k) (rf_bad_quality s) > rp_hyst (tk_par k) /\
    fst (fst (stuck_check (rs_time x) (rf_last_valid s) (rs_rng x) (rf_stuck s) (rf_smin s) (rf_smax s))) = false.
Proof.
  rewrite tick_not_healthy. unfold is_data_healthy.
  destruct (tk_new k) as [x|] eqn:Ek; [|
    unfold run_checks; cbn [load rf_ready negb];
    match goal with |- context [if ?c then _ else _] => destruct c end; cbn; discriminate].
  intros H. exists x. split; [reflexivity|].
  assert (Hl : rf_ready (load (Some x) s) = true) by reflexivity.
  revert H. unfold new_dt, conditions. rewrite Ek. run_cases;
  try (rewrite Hl in Erdy; discriminate); cbn [load rf_ready rf_sample rf_valid rf_last_valid rf_stuck rf_smin rf_smax rf_dt rf_bad_quality] in *;
  try (rewrite Bool.andb_false_r; discriminate).
  destruct (stuck_check _ _ _ _ _ _) as [[st mn] mx] eqn:Est; cbn [rf_ready rf_valid fst andb].
  rewrite Bool.negb_true_iff. intros ->.
  unfold out_of_date, continuous, tilt_ok, in_range, RNG_MAX_INTERVAL in *.
  rewrite Bool.andb_true_iff in Erg. destruct Erg.
  split; [|split; [lia|reflexivity]].
  split; [lia|]. split; [exact Econt|]. split; [lia|]. split; [exact Etl|]. split; assumption.
Qed.

Lemma healthy_iff k s x : tk_new k = Some x ->
  (is_data_healthy (tick_step k s) = true <->
   conditions k x (new_dt k s) /\
    sub64 (tk_now k) (rf_bad_quality s) > rp_hyst (tk_par k) /\
    fst (fst (stuck_check (rs_time x) (rf_last_valid s) (rs_rng x) (rf_stuck s) (rf_smin s) (rf_smax s))) = false).
Proof.
  intros Ek. split.
  - intros H. apply healthy_conditions in H. destruct H as (y & Hy & H). rewrite Ek in Hy. injection Hy as <-. exact H.
  - intros ((H1 & H2 & H3 & H4 & H5 & H6) & H7 & H8).
    rewrite tick_not_healthy. unfold is_data_healthy. unfold new_dt in H2. rewrite Ek in *.
    unfold run_checks. cbn [load rf_ready rf_sample rf_valid rf_last_valid rf_stuck rf_smin rf_smax rf_dt rf_bad_quality] in *.
    replace (out_of_date (tk_now k) (rs_time x)) with false by (unfold out_of_date, RNG_MAX_INTERVAL; lia).
    unfold continuous. rewrite H2. cbn [orb negb].
    replace (rs_quality x =? 0) with false by lia.
    replace (sub64 (tk_now k) (rf_bad_quality s) >? rp_hyst (tk_par k)) with true by lia.
    unfold tilt_ok, in_range. rewrite H4, H5, H6. cbn [andb].
    destruct (stuck_check _ _ _ _ _ _) as [[st mn] mx]. cbn in H8. subst st. reflexivity.
Qed.

Lemma step_last_valid k s :
  rf_last_valid (tick_step k s) =
  match tk_new k with
  | Some x => if is_data_healthy (tick_step k s) then rs_time x else rf_last_valid s
  | None => rf_last_valid s
  end.
Proof.
  rewrite tick_not_healthy. pose proof (tick_fields k s) as T. cbv zeta in T.
  destruct T as (_ & _ & _ & _ & -> & _). unfold is_data_healthy.
  destruct (tk_new k) as [x|] eqn:Ek.
  - assert (Hl : rf_ready (load (Some x) s) = true) by reflexivity.
    run_cases; try (rewrite Hl in Erdy; discriminate);
      cbn [load rf_ready rf_sample rf_valid rf_last_valid andb];
      try (rewrite ?Bool.andb_false_r; reflexivity).
    destruct (stuck_check _ _ _ _ _ _) as [[st mn] mx]; cbn. destruct st; reflexivity.
  - unfold run_checks; cbn [load rf_ready negb].
    match goal with |- context [if ?c then _ else _] => destruct c end; reflexivity.
Qed.

(** stuck bookkeeping of one step *)
Definition checked_reading (k : tick) (r : f32) : Prop :=
  exists x, tk_new k = Some x /\ rs_rng x = r /\
    fge r (rp_min (tk_par k)) = true /\ fle r (rp_max (tk_par k)) = true /\ rs_quality x <> 0.

Lemma step_stuck k s :
  let s' := tick_step k s in
  (rf_stuck s' = rf_stuck s /\ rf_smin s' = rf_smin s /\ rf_smax s' = rf_smax s) \/
  (exists x, tk_new k = Some x /\ checked_reading k (rs_rng x) /\
     stuck_check (rs_time x) (rf_last_valid s) (rs_rng x) (rf_stuck s) (rf_smin s) (rf_smax s)
     = (rf_stuck s', rf_smin s', rf_smax s')).
Proof.
  cbv zeta. pose proof (tick_fields k s) as T. cbv zeta in T.
  destruct T as (_ & _ & _ & _ & _ & -> & -> & -> & _).
  destruct (tk_new k) as [x|] eqn:Ek.
  - assert (Hl : rf_ready (load (Some x) s) = true) by reflexivity.
    run_cases; try (rewrite Hl in Erdy; discriminate); try (left; repeat (split; [reflexivity|]); reflexivity).
    right. exists x. split; [reflexivity|]. cbn [load rf_ready rf_sample rf_last_valid rf_stuck rf_smin rf_smax] in *.
    split.
    { exists x. unfold in_range in Erg. apply Bool.andb_true_iff in Erg. destruct Erg.
      repeat (split; [assumption || reflexivity|]). lia. }
    destruct (stuck_check _ _ _ _ _ _) as [[st mn] mx]; reflexivity.
  - left. unfold run_checks; cbn [load rf_ready negb].
    match goal with |- context [if ?c then _ else _] => destruct c end; cbn; repeat (split; [reflexivity|]); reflexivity.
Qed.

(** ** histories *)
Definition state (l : list tick) : rf_state := ticks l rf_init.
Lemma state_snoc l k : state (l ++ [k]) = tick_step k (state l).
Proof. unfold state. rewrite ticks_app. reflexivity. Qed.

Lemma not_stuck_zero l : rf_stuck (state l) = false -> rf_smin (state l) = f0 /\ rf_smax (state l) = f0.
Proof.
  induction l as [|k l IH] using rev_ind; [split; reflexivity|].
  rewrite state_snoc. destruct (step_stuck k (state l)) as [(-> & -> & ->) | (x & _ & _ & H)]; [exact IH|].
  revert H. unfold stuck_check.
  destruct (_ >? _); [destruct (fgt _ _)|]; intros H; injection H as <- <- <-; auto; discriminate.
Qed.

Lemma healthy_not_stuck k s : is_data_healthy (tick_step k s) = true -> rf_stuck (tick_step k s) = false.
Proof.
  rewrite tick_not_healthy. pose proof (tick_fields k s) as T. cbv zeta in T.
  destruct T as (_ & _ & _ & _ & _ & -> & _). unfold is_data_healthy.
  destruct (tk_new k) as [x|] eqn:Ek.
  - assert (Hl : rf_ready (load (Some x) s) = true) by reflexivity.
    run_cases; try (rewrite Hl in Erdy; discriminate); cbn [rf_valid rf_ready rf_stuck]; rewrite ?Bool.andb_false_r; try discriminate.
    destruct (stuck_check _ _ _ _ _ _) as [[st mn] mx]; cbn. destruct st; [discriminate|reflexivity].
  - unfold run_checks; cbn [load rf_ready negb].
    match goal with |- context [if ?c then _ else _] => destruct c end; cbn; discriminate.
Qed.

(** no tick of [l2] (after [l1]) reports healthy data *)
Definition unhealthy_after (l1 l2 : list tick) : Prop :=
  forall a k b, l2 = a ++ k :: b -> is_data_healthy (state (l1 ++ a ++ [k])) = false.

Lemma unhealthy_snoc l1 l2 k : unhealthy_after l1 (l2 ++ [k]) ->
  unhealthy_after l1 l2 /\ is_data_healthy (state (l1 ++ l2 ++ [k])) = false.
Proof.
  intros H. split.
  - intros a x b E. apply (H a x (b ++ [k])). rewrite E, <- app_assoc. reflexivity.
  - apply (H l2 k []). reflexivity.
Qed.

Definition nonneg_min (l : list tick) : Prop := Forall (fun k => fle f0 (rp_min (tk_par k)) = true) l.

Lemma episode_inv l1 l2 : rf_stuck (state l1) = false -> unhealthy_after l1 l2 ->
  let s := state (l1 ++ l2) in
  rf_last_valid s = rf_last_valid (state l1) /\
  (rf_stuck s = true ->
     (exists k, In k l2 /\ checked_reading k (rf_smin s)) /\
     (rf_smax s = f0 \/ exists k, In k l2 /\ checked_reading k (rf_smax s))).
Proof.
  intros Hs. induction l2 as [|k l2 IH] using rev_ind; intros Hu; cbv zeta.
  - rewrite app_nil_r. split; [reflexivity|]. rewrite Hs. discriminate.
  - apply unhealthy_snoc in Hu. destruct Hu as [Hu Hk]. specialize (IH Hu). cbv zeta in IH.
    destruct IH as [IH1 IH2].
    assert (E : state (l1 ++ l2 ++ [k]) = tick_step k (state (l1 ++ l2))) by (rewrite app_assoc; apply state_snoc).
    rewrite E in *. set (s := state (l1 ++ l2)) in *.
    split.
    { rewrite step_last_valid. rewrite Hk. destruct (tk_new k); exact IH1. }
    assert (Hmono : forall r, (exists j, In j l2 /\ checked_reading j r) -> exists j, In j (l2 ++ [k]) /\ checked_reading j r).
    { intros r (j & Hj & Hr). exists j. split; [apply in_or_app; auto|exact Hr]. }
    destruct (step_stuck k s) as [(-> & -> & ->) | (x & Hx & Hr & H)].
    { intros Hst. destruct (IH2 Hst) as [A B]. split; [apply Hmono, A|]. destruct B as [B|B]; [left; exact B|right; apply Hmono, B]. }
    assert (Hin : exists j, In j (l2 ++ [k]) /\ checked_reading j (rs_rng x)).
    { exists k. split; [apply in_or_app; right; left; reflexivity|exact Hr]. }
    pose proof (not_stuck_zero (l1 ++ l2)) as Hz. fold s in Hz.
    revert H. unfold stuck_check. destruct (_ >? _).
    2: { intros H; injection H as <- <- <-. intros Hst. destruct (IH2 Hst) as [A B].
         split; [apply Hmono, A|]. destruct B as [B|B]; [left; exact B|right; apply Hmono, B]. }
    destruct (fgt (fsub _ _) _) eqn:Egt.
    { intros H; injection H as <- <- <-. discriminate. }
    intros H; injection H as <- <- <-. intros _.
    destruct (rf_stuck s) eqn:Est.
    + destruct (IH2 eq_refl) as [A B]. split.
      * destruct (_ || _); [exact Hin|apply Hmono, A].
      * destruct (fgt (rs_rng x) _); [right; exact Hin|]. destruct B as [B|B]; [left; exact B|right; apply Hmono, B].
    + destruct (Hz eq_refl) as [-> ->]. split.
      * replace (flt f0 (flit 1 10)) with true by (vm_compute; reflexivity). cbn [orb]. exact Hin.
      * destruct (fgt (rs_rng x) f0); [right; exact Hin|left; reflexivity].
Qed.

Lemma sub_zero_not_gt r lo : fle f0 lo = true -> fge r lo = true -> fgt (fsub f0 r) stuck_threshold = false.
Proof.
  intros H1 H2. unfold stuck_threshold.
  destruct r as [b|b| |b m e Hb].
  - destruct b; vm_compute; reflexivity.
  - destruct b; [|vm_compute; reflexivity].
    exfalso. unfold fge, fle in *. destruct lo as [[]|[]| |[]]; vm_compute in H1, H2; discriminate.
  - vm_compute. reflexivity.
  - destruct b.
    + exfalso. unfold fge, fle in *. destruct lo as [[]|[]| |[]]; vm_compute in H1, H2; discriminate.
    + change (fsub f0 (B754_finite false m e Hb)) with (B754_finite true m e Hb : f32).
      unfold fgt. change (flt (flit 1 10) (B754_finite true m e Hb) = false).
      rewrite flt_R by (vm_compute; reflexivity). apply Rlt_bool_false.
      apply Rle_trans with 0%R.
      * cbn [B2R]. apply F2R_le_0. cbn. lia.
      * destruct (flit_R 1 10) as [-> _]; [lia|lia|]. apply rnd32_ge0. lra.
Qed.

(** the claim of C11 *)
Theorem stuck_until_moved l1 l2 k x :
  rf_stuck (state l1) = false -> nonneg_min l2 ->
  unhealthy_after l1 l2 -> tk_new k = Some x ->
  sub64 (rs_time x) (rf_last_valid (state l1)) > 10000000 ->
  is_data_healthy (state (l1 ++ l2 ++ [k])) = true ->
  exists k1 k2 a b, In k1 l2 /\ In k2 l2 /\ checked_reading k1 a /\ checked_reading k2 b /\
    fgt (fsub a b) stuck_threshold = true.
Proof.
  intros Hs Hn Hu Hx Ht Hh.
  destruct (episode_inv l1 l2 Hs Hu) as [Hlv Hst].
  rewrite app_assoc, state_snoc in Hh. set (s := state (l1 ++ l2)) in *.
  apply (healthy_iff _ _ _ Hx) in Hh. destruct Hh as (_ & _ & Hh).
  unfold stuck_check in Hh. rewrite Hlv in Hh.
  replace (sub64 (rs_time x) (rf_last_valid (state l1)) >? 10000000) with true in Hh by lia.
  destruct (fgt (fsub (rf_smax s) (rf_smin s)) stuck_threshold) eqn:Eg; [|discriminate].
  destruct (rf_stuck s) eqn:Es.
  - destruct (Hst eq_refl) as ((k1 & Hk1 & Hc1) & [B | (k2 & Hk2 & Hc2)]).
    + exfalso. rewrite B in Eg. destruct Hc1 as (y & _ & _ & Hge & _).
      rewrite (sub_zero_not_gt _ (rp_min (tk_par k1))) in Eg; [discriminate| |exact Hge].
      unfold nonneg_min in Hn. rewrite Forall_forall in Hn. apply (Hn _ Hk1).
    + exists k2, k1, (rf_smax s), (rf_smin s). tauto.
  - destruct (not_stuck_zero (l1 ++ l2)) as [E1 E2]; [exact Es|]. fold s in E1, E2. rewrite E1, E2 in Eg.
    vm_compute in Eg. discriminate.
Qed.

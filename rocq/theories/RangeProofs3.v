(** * Range finder: stuck detection stated over histories *)
From Coq Require Import Lra Psatz.
From Verif Require Import CBase F32 F32More InterfaceSpec RangeModel RangeProofs RangeProofs2.
Open Scope Z_scope.

Lemma stuck_after_valid l1 j y l2 k x :
  is_data_healthy (state (l1 ++ [j])) = true -> tk_new j = Some y ->
  nonneg_min l2 -> unhealthy_after (l1 ++ [j]) l2 -> tk_new k = Some x ->
  (rs_time x - rs_time y) mod 2 ^ 64 > 10000000 ->
  is_data_healthy (state ((l1 ++ [j]) ++ l2 ++ [k])) = true ->
  exists k1 k2 a b, In k1 l2 /\ In k2 l2 /\ checked_reading k1 a /\ checked_reading k2 b /\
    fgt (fsub a b) stuck_threshold = true.
Proof.
  intros Hj Hy Hn Hu Hx Ht Hh. eapply stuck_until_moved with (l1 := l1 ++ [j]); eauto.
  - rewrite state_snoc in *. apply healthy_not_stuck, Hj.
  - rewrite state_snoc in *. rewrite step_last_valid, Hy, Hj. exact Ht.
Qed.

Lemma stuck_after_boot l2 k x :
  nonneg_min l2 -> unhealthy_after [] l2 -> tk_new k = Some x ->
  10000000 < rs_time x < 2 ^ 64 ->
  is_data_healthy (state (l2 ++ [k])) = true ->
  exists k1 k2 a b, In k1 l2 /\ In k2 l2 /\ checked_reading k1 a /\ checked_reading k2 b /\
    fgt (fsub a b) stuck_threshold = true.
Proof.
  intros Hn Hu Hx Ht Hh. eapply (stuck_until_moved []); eauto.
  cbn [state ticks rf_init rf_last_valid]. unfold sub64, u64. rewrite Z.mod_small by (rewrite two64_val; lia). lia.
Qed.

(** a sensor that moved from 5 cm to 16 cm is still rejected for ever *)
Definition demo_par : rf_params :=
  {| rp_sin_pitch := f0; rp_cos_pitch := f1; rp_cos_max_tilt := flit 7 10;
     rp_min := flit 1 100; rp_max := f_of_Z 10; rp_hyst := 0 |}.
Definition demo_tick (t : Z) (r : f32) : tick :=
  {| tk_now := t; tk_new := Some (mk_range t r 100); tk_par := demo_par;
     tk_r20 := f0; tk_r22 := f1; tk_off := f0 |}.

Lemma demo_stuck_step t s : 20000000 <= t < 2 ^ 64 -> rf_last_valid s = 0 -> rf_stuck s = true ->
  rf_smin s = flit 16 100 -> rf_smax s = flit 16 100 ->
  let s' := tick_step (demo_tick t (flit 16 100)) s in
  is_data_healthy s' = false /\ rf_last_valid s' = 0 /\ rf_stuck s' = true /\
  rf_smin s' = flit 16 100 /\ rf_smax s' = flit 16 100.
Proof.
  intros Ht H1 H2 H3 H4. cbv zeta.
  assert (Hh : is_data_healthy (tick_step (demo_tick t (flit 16 100)) s) = false).
  { apply Bool.not_true_is_false. intros Hh. apply (healthy_iff (demo_tick t (flit 16 100)) s (mk_range t (flit 16 100) 100) eq_refl) in Hh. destruct Hh as (_ & _ & Hh).
    revert Hh. cbn [rs_time rs_rng]. rewrite H1, H2, H3, H4. unfold stuck_check, sub64, u64.
    rewrite Z.mod_small by (rewrite two64_val; lia). replace (t - 0 >? 10000000) with true by lia.
    vm_compute. discriminate. }
  split; [exact Hh|].
  rewrite step_last_valid, Hh. cbn [demo_tick tk_new]. split; [exact H1|].
  destruct (step_stuck (demo_tick t (flit 16 100)) s) as [(-> & -> & ->)|(x & Hx & _ & H)]; [auto|].
  cbn [demo_tick tk_new] in Hx. injection Hx as <-.
  revert H. cbn [rs_time rs_rng]. rewrite H1, H2, H3, H4. unfold stuck_check, sub64, u64.
  rewrite Z.mod_small by (rewrite two64_val; lia). replace (t - 0 >? 10000000) with true by lia.
  replace (fgt (fsub (flit 16 100) (flit 16 100)) stuck_threshold) with false by (vm_compute; reflexivity).
  replace (flt (flit 16 100) (flit 1 10) || flt (flit 16 100) (flit 16 100)) with false by (vm_compute; reflexivity).
  replace (fgt (flit 16 100) (flit 16 100)) with false by (vm_compute; reflexivity).
  intros H; injection H as <- <- <-. auto.
Qed.

Lemma demo_stuck_forever ts :
  Forall (fun t => 20000000 <= t < 2 ^ 64) ts ->
  is_data_healthy (state (demo_tick 20000000 (flit 5 100) :: demo_tick 20010000 (flit 16 100)
                          :: map (fun t => demo_tick t (flit 16 100)) ts)) = false.
Proof.
  intros H. unfold state. cbn [ticks].
  set (s0 := tick_step (demo_tick 20010000 (flit 16 100)) (tick_step (demo_tick 20000000 (flit 5 100)) rf_init)).
  assert (I : is_data_healthy s0 = false /\ rf_last_valid s0 = 0 /\ rf_stuck s0 = true /\
              rf_smin s0 = flit 16 100 /\ rf_smax s0 = flit 16 100).
  { split; [vm_compute; reflexivity|]. split; [vm_compute; reflexivity|]. split; [vm_compute; reflexivity|].
    split; apply B2SF_inj; vm_compute; reflexivity. }
  clearbody s0. revert s0 I. induction ts as [|t ts IH]; intros s0 I; cbn [map ticks]; [apply I|].
  apply IH; [exact (Forall_inv_tail H)|].
  destruct I as (_ & I1 & I2 & I3 & I4). apply demo_stuck_step; auto. exact (Forall_inv H).
Qed.

Theorem moved_but_rejected :
  fgt (fsub (flit 16 100) (flit 5 100)) stuck_threshold = true /\
  forall ts, Forall (fun t => 20000000 <= t < 2 ^ 64) ts ->
    is_data_healthy (state (demo_tick 20000000 (flit 5 100) :: demo_tick 20010000 (flit 16 100)
                          :: map (fun t => demo_tick t (flit 16 100)) ts)) = false.
Proof. split; [vm_compute; reflexivity|exact demo_stuck_forever]. Qed.

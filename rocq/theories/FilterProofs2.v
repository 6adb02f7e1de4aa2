(** * Proofs: IMU down-sampler *)
From Coq Require Import Lra Psatz.
From Verif Require Import CBase F32 F32More RealGeom FilterModel.
Open Scope Z_scope.

(** *** specification: what one emitted sample says about the raw samples it covers *)
Definition seg_time (f : imu_sample -> f32) (seg : list imu_sample) : f32 := fold_left fadd (map f seg) f0.
Definition seg_rot (seg : list imu_sample) : Q4 := fold_left qmul (map (fun x => qexp (i_dang x)) seg) qone.
(** velocity increment expressed in the body frame at the start of the segment,
    each raw increment taken as acting half in the frame before and half in the
    frame after its own rotation; [Q] is the rotation so far *)
Fixpoint seg_dv (Q : Q4) (seg : list imu_sample) : V3 :=
  match seg with
  | [] => vzero
  | x :: r => let Q' := qmul Q (qexp (i_dang x)) in
      vadd (vscale (1 / 2) (vadd (mapp (dcm Q) (i_dvel x)) (mapp (dcm Q') (i_dvel x)))) (seg_dv Q' r)
  end.

Definition summarises (qlog : Q4 -> V3) (o : imu_sample) (seg : list imu_sample) : Prop :=
  seg <> [] /\
  (exists x r, seg = r ++ [x] /\ i_time o = i_time x) /\
  i_dang_dt o = seg_time i_dang_dt seg /\ i_dvel_dt o = seg_time i_dvel_dt seg /\
  (i_clip0 o = true <-> exists x, In x seg /\ i_clip0 x = true) /\
  (i_clip1 o = true <-> exists x, In x seg /\ i_clip1 x = true) /\
  (i_clip2 o = true <-> exists x, In x seg /\ i_clip2 x = true) /\
  i_dang o = qlog (seg_rot seg) /\
  mapp (dcm (seg_rot seg)) (i_dvel o) = seg_dv qone seg.

(** *** accumulation *)
Lemma seg_time_snoc f seg x : seg_time f (seg ++ [x]) = fadd (seg_time f seg) (f x).
Proof. unfold seg_time. rewrite map_app, fold_left_app. reflexivity. Qed.
Lemma seg_rot_snoc seg x : seg_rot (seg ++ [x]) = qmul (seg_rot seg) (qexp (i_dang x)).
Proof. unfold seg_rot. rewrite map_app, fold_left_app. reflexivity. Qed.
Lemma seg_rot_unit seg : qnorm2 (seg_rot seg) = 1%R.
Proof.
  induction seg as [|x seg IH] using rev_ind; [unfold seg_rot; cbn; unfold qnorm2, qone; cbn; ring|].
  rewrite seg_rot_snoc, qnorm2_mul, IH, qexp_unit. ring.
Qed.
Lemma fold_qmul l a b : fold_left qmul l (qmul a b) = qmul a (fold_left qmul l b).
Proof. revert a b; induction l as [|q l IH]; intros a b; cbn [fold_left]; [reflexivity|]. rewrite <- qmul_assoc, IH. reflexivity. Qed.
Lemma seg_dv_snoc Q seg x :
  seg_dv Q (seg ++ [x]) =
  vadd (seg_dv Q seg)
       (let Q0 := qmul Q (seg_rot seg) in
        vscale (1 / 2) (vadd (mapp (dcm Q0) (i_dvel x)) (mapp (dcm (qmul Q0 (qexp (i_dang x)))) (i_dvel x)))).
Proof.
  revert Q. induction seg as [|y seg IH]; intros Q; cbn [app seg_dv].
  - unfold seg_rot. cbn [map fold_left]. rewrite qmul_1_r, vadd_0_r, vadd_0_l. reflexivity.
  - rewrite IH, vadd_assoc. f_equal. cbv zeta.
    assert (E : qmul (qmul Q (qexp (i_dang y))) (seg_rot seg) = qmul Q (seg_rot (y :: seg))).
    { rewrite <- qmul_assoc. f_equal. unfold seg_rot. cbn [map fold_left]. rewrite qmul_1_l.
      rewrite <- (qmul_1_r (qexp (i_dang y))) at 2. rewrite fold_qmul. reflexivity. }
    rewrite E. reflexivity.
Qed.

(** [s] has accumulated exactly [seg] *)
Definition acc_of (seg : list imu_sample) (s : ds_state) : Prop :=
  let a := ds_acc s in
  i_dang_dt a = seg_time i_dang_dt seg /\ i_dvel_dt a = seg_time i_dvel_dt seg /\
  (i_clip0 a = true <-> exists x, In x seg /\ i_clip0 x = true) /\
  (i_clip1 a = true <-> exists x, In x seg /\ i_clip1 x = true) /\
  (i_clip2 a = true <-> exists x, In x seg /\ i_clip2 x = true) /\
  ds_q s = seg_rot seg /\
  mapp (dcm (seg_rot seg)) (i_dvel a) = seg_dv qone seg.

Definition pending (seg : list imu_sample) (s : ds_state) : Prop :=
  acc_of seg (if ds_do_reset s then ds_reset s else s) /\ (ds_do_reset s = true -> seg = []).

Lemma acc_reset s : acc_of [] (ds_reset s).
Proof.
  unfold acc_of, ds_reset. cbn.
  split; [reflexivity|]. split; [reflexivity|].
  assert (H : forall f : imu_sample -> bool, false = true <-> exists x, In x [] /\ f x = true).
  { intros f. split; [discriminate|intros (x & [] & _)]. }
  split; [apply H|]. split; [apply H|]. split; [apply H|]. split; [reflexivity|].
  unfold seg_rot; cbn. apply mapp_zero.
Qed.

Lemma clip_or (f : imu_sample -> bool) seg x b : (b = true <-> exists y, In y seg /\ f y = true) ->
  (b || f x = true <-> exists y, In y (seg ++ [x]) /\ f y = true).
Proof.
  intros H. rewrite Bool.orb_true_iff, H. split.
  - intros [(y & Hy & E)|E]; [exists y; split; [apply in_or_app; left; exact Hy|exact E]|].
    exists x. split; [apply in_or_app; right; left; reflexivity|exact E].
  - intros (y & Hy & E). apply in_app_or in Hy. destruct Hy as [Hy|[<-|[]]]; [left; exists y; auto|right; exact E].
Qed.

Lemma dv_step seg x v : mapp (dcm (seg_rot seg)) v = seg_dv qone seg ->
  let dR := dcm (qinv (qexp (i_dang x))) in
  mapp (dcm (seg_rot (seg ++ [x]))) (vadd (mapp dR v) (vscale (1 / 2) (vadd (i_dvel x) (mapp dR (i_dvel x)))))
  = seg_dv qone (seg ++ [x]).
Proof.
  intros H. cbv zeta. rewrite seg_dv_snoc. cbv zeta. rewrite qmul_1_l, seg_rot_snoc.
  rewrite qinv_unit by apply qexp_unit.
  set (Q := seg_rot seg) in *. set (d := qexp (i_dang x)).
  assert (C : forall u, mapp (dcm (qmul Q d)) (mapp (dcm (qconj d)) u) = mapp (dcm Q) u).
  { intros u. rewrite <- mapp_mmul, <- dcm_mul, <- qmul_assoc.
    replace (qmul d (qconj d)) with qone; [rewrite qmul_1_r; reflexivity|].
    pose proof (qexp_unit (i_dang x)) as U. fold d in U. clearbody d. geo. f_equal; nra. }
  rewrite mapp_vadd, C, H. f_equal. rewrite mapp_vscale, mapp_vadd, C. f_equal. apply vadd_comm.
Qed.

Section DSP.
Variable qlog : Q4 -> V3.
Variable target : f32.

Lemma update_acc x s0 seg : pending seg s0 ->
  let '(b, s) := ds_update qlog target x s0 in
  acc_of (seg ++ [x]) s /\ ds_do_reset s = false /\ i_time (ds_acc s) = i_time x /\
  b = fge (seg_time i_dang_dt (seg ++ [x])) (fsub target (ds_adj s0)) /\
  (b = true -> i_dang (ds_acc s) = qlog (seg_rot (seg ++ [x]))) /\
  (b = false -> ds_adj s = ds_adj s0).
Proof.
  intros [Ha Hr]. unfold ds_update.
  assert (Hadj : ds_adj (if ds_do_reset s0 then ds_reset s0 else s0) = ds_adj s0) by (destruct (ds_do_reset s0); reflexivity).
  assert (Hdr : ds_do_reset (if ds_do_reset s0 then ds_reset s0 else s0) = false) by (destruct (ds_do_reset s0) eqn:E; auto).
  set (s := if ds_do_reset s0 then ds_reset s0 else s0) in *. clearbody s.
  destruct Ha as (A1 & A2 & A3 & A4 & A5 & A6 & A7).
  assert (Hq : qnormalize (qmul (ds_q s) (qexp (i_dang x))) = seg_rot (seg ++ [x])).
  { rewrite A6, <- seg_rot_snoc. apply qnormalize_unit, seg_rot_unit. }
  cbv zeta. rewrite Hadj, A1, <- seg_time_snoc.
  destruct (fge _ _) eqn:E; unfold acc_of; cbn [ds_acc ds_q ds_adj ds_do_reset i_time i_dang i_dvel i_dang_dt i_dvel_dt i_clip0 i_clip1 i_clip2];
  rewrite ?Hq, ?A2, <- ?seg_time_snoc;
  (split; [|split; [exact Hdr|split; [reflexivity|split; [reflexivity|split; [intros; first [discriminate|reflexivity]|intros; first [discriminate|reflexivity|assumption]]]]]]);
  (split; [reflexivity|split; [reflexivity|split; [apply clip_or, A3|split; [apply clip_or, A4|split; [apply clip_or, A5|
    split; [reflexivity|apply dv_step, A7]]]]]]).
Qed.

(** no proper non-empty prefix of the segment reaches the target, with
    collection-time adjustment [adj] *)
Definition not_reached (adj : f32) (seg : list imu_sample) : Prop :=
  forall p r, seg = p ++ r -> p <> [] -> fge (seg_time i_dang_dt p) (fsub target adj) = false.
Definition reached_first (adj : f32) (seg : list imu_sample) : Prop :=
  fge (seg_time i_dang_dt seg) (fsub target adj) = true /\
  forall p x r, seg = p ++ x :: r -> p <> [] -> fge (seg_time i_dang_dt p) (fsub target adj) = false.

(** the collection-time adjustment after emitting a sample covering [dt] *)
Definition next_adj (adj dt : f32) : f32 :=
  math_constrain (fadd adj (fmul (flit 1 100) (fsub dt target))) (fmul (fneg (flit 1 2)) target) (fmul (flit 1 2) target).

(** emitted samples against segments of the raw stream, threading the adjustment *)
Fixpoint covers (adj : f32) (outs : list imu_sample) (segs : list (list imu_sample)) (adj' : f32) : Prop :=
  match outs, segs with
  | [], [] => adj' = adj
  | o :: os, g :: gs => summarises qlog o g /\ reached_first adj g /\ covers (next_adj adj (i_dang_dt o)) os gs adj'
  | _, _ => False
  end.

Lemma update_adj x s0 : fst (ds_update qlog target x s0) = true ->
  ds_adj (snd (ds_update qlog target x s0)) = next_adj (ds_adj s0) (i_dang_dt (ds_acc (snd (ds_update qlog target x s0)))).
Proof.
  unfold ds_update.
  assert (Hadj : ds_adj (if ds_do_reset s0 then ds_reset s0 else s0) = ds_adj s0) by (destruct (ds_do_reset s0); reflexivity).
  set (s := if ds_do_reset s0 then ds_reset s0 else s0) in *. clearbody s. cbv zeta. rewrite Hadj.
  destruct (fge _ _); cbn [fst snd]; [|discriminate]. intros _. cbn [ds_adj ds_acc i_dang_dt]. reflexivity.
Qed.

Lemma run_covers l : forall s seg, pending seg s -> not_reached (ds_adj s) seg ->
  let '(outs, s') := ds_run qlog target l s in
  exists segs rest, seg ++ l = concat segs ++ rest /\ covers (ds_adj s) outs segs (ds_adj s') /\
    not_reached (ds_adj s') rest /\ pending rest s'.
Proof.
  induction l as [|x l IH]; intros s seg Hp Hn; cbn [ds_run].
  - exists [], seg. rewrite app_nil_r. cbn. auto.
  - pose proof (update_acc x s seg Hp) as U. pose proof (update_adj x s) as UA.
    destruct (ds_update qlog target x s) as [b s1]. cbn [fst snd] in UA.
    destruct U as (U1 & U2 & U3 & U4 & U5 & U6). destruct b.
    + specialize (U5 eq_refl). cbn [ds_get]. 
      set (s2 := {| ds_acc := ds_acc s1; ds_q := ds_q s1; ds_adj := ds_adj s1; ds_do_reset := true |}).
      assert (Hp2 : pending [] s2) by (split; [apply acc_reset|auto]).
      assert (Hn2 : not_reached (ds_adj s2) []).
      { intros p r E Hne. destruct p; [congruence|discriminate]. }
      specialize (IH s2 [] Hp2 Hn2). destruct (ds_run qlog target l s2) as [os s3].
      destruct IH as (segs & rest & E & C & N & P).
      exists ((seg ++ [x]) :: segs), rest. split; [|split; [|split; [exact N|exact P]]].
      * cbn [concat app] in *. rewrite <- app_assoc. rewrite <- E. rewrite <- app_assoc. reflexivity.
      * cbn [covers]. destruct U1 as (V1 & V2 & V3 & V4 & V5 & V6 & V7). split; [|split].
        -- split; [destruct seg; discriminate|]. split; [exists x, seg; auto|].
           split; [exact V1|]. split; [exact V2|]. split; [exact V3|]. split; [exact V4|]. split; [exact V5|]. split; [exact U5|exact V7].
        -- split; [rewrite <- U4; reflexivity|]. intros p y r E1 Hne.
           apply (Hn p (removelast (y :: r))); [|exact Hne].
           assert (E2 : removelast (seg ++ [x]) = removelast (p ++ y :: r)) by (rewrite E1; reflexivity).
           rewrite removelast_last in E2. rewrite E2. apply removelast_app. discriminate.
        --
           replace (ds_adj s2) with (next_adj (ds_adj s) (i_dang_dt (ds_acc s1))) in C by (symmetry; apply UA; reflexivity). exact C.
    + specialize (U6 eq_refl).
      assert (Hp1 : pending (seg ++ [x]) s1) by (unfold pending; rewrite U2; split; [exact U1|discriminate]).
      assert (Hn1 : not_reached (ds_adj s1) (seg ++ [x])).
      { rewrite U6. intros p r E Hne. destruct r as [|y r].
        - rewrite app_nil_r in E. subst p. symmetry. exact U4.
        - apply (Hn p (removelast (y :: r))); [|exact Hne].
          assert (E2 : removelast (seg ++ [x]) = removelast (p ++ y :: r)) by (rewrite E; reflexivity).
          rewrite removelast_last in E2. rewrite E2. apply removelast_app. discriminate. }
      specialize (IH s1 (seg ++ [x]) Hp1 Hn1). destruct (ds_run qlog target l s1) as [os s3].
      destruct IH as (segs & rest & E & C & N & P). exists segs, rest.
      split; [rewrite <- E, <- app_assoc; reflexivity|]. split; [rewrite <- U6; exact C|auto].
Qed.

(** the claim of C08 *)
Theorem downsampler_covers l :
  let '(outs, s') := ds_run qlog target l ds_init in
  exists segs rest, l = concat segs ++ rest /\ covers f0 outs segs (ds_adj s') /\ not_reached (ds_adj s') rest.
Proof.
  pose proof (run_covers l ds_init []) as H.
  destruct (ds_run qlog target l ds_init) as [outs s'].
  destruct H as (segs & rest & E & C & N & P).
  - split; [apply acc_reset|auto].
  - intros p r E Hne. destruct p; [congruence|discriminate].
  - exists segs, rest. auto.
Qed.
End DSP.

(** *** the adjustment is bounded for every raw stream, NaN included *)
Lemma overflow_not_nan (f : f32) b : B2SF f = binary_overflow 24 128 mode_NE b -> is_nan f = false.
Proof. destruct f; auto. cbn. destruct b; discriminate. Qed.

Lemma fadd_not_nan a b : is_finite a = true -> is_nan b = false -> is_nan (fadd a b) = false.
Proof.
  intros Fa Nb. destruct (is_finite b) eqn:Fb.
  - pose proof (Bplus_correct 24 128 prec24 prec_emax mode_NE a b Fa Fb) as H.
    change (Bplus mode_NE a b) with (fadd a b) in H.
    destruct (Rlt_bool _ _) in H.
    + destruct H as (_ & F & _). destruct (fadd a b); auto; discriminate.
    + destruct H as (H & _). exact (overflow_not_nan _ _ H).
  - destruct b; try discriminate. destruct a; try discriminate; reflexivity.
Qed.
Lemma fsub_not_nan a b : is_nan a = false -> is_finite b = true -> is_nan (fsub a b) = false.
Proof.
  intros Na Fb. destruct (is_finite a) eqn:Fa.
  - pose proof (Bminus_correct 24 128 prec24 prec_emax mode_NE a b Fa Fb) as H.
    change (Bminus mode_NE a b) with (fsub a b) in H.
    destruct (Rlt_bool _ _) in H.
    + destruct H as (_ & F & _). destruct (fsub a b); auto; discriminate.
    + destruct H as (H & _). exact (overflow_not_nan _ _ H).
  - destruct a; try discriminate. destruct b; try discriminate; reflexivity.
Qed.
Lemma fmul_not_nan a b : is_finite a = true -> R32 a <> 0%R -> is_nan b = false -> is_nan (fmul a b) = false.
Proof.
  intros Fa Za Nb. destruct (is_finite b) eqn:Fb.
  - pose proof (Bmult_correct 24 128 prec24 prec_emax mode_NE a b) as H.
    change (Bmult mode_NE a b) with (fmul a b) in H.
    destruct (Rlt_bool _ _) in H.
    + destruct H as (_ & F & _). rewrite Fa, Fb in F. destruct (fmul a b); auto; discriminate.
    + exact (overflow_not_nan _ _ H).
  - destruct b; try discriminate. destruct a; try discriminate; [cbn in Za; lra|reflexivity].
Qed.

Lemma constrain_bounds v lo hi : is_nan v = false -> is_finite lo = true -> is_finite hi = true ->
  (R32 lo <= R32 hi)%R ->
  is_finite (math_constrain v lo hi) = true /\ (R32 lo <= R32 (math_constrain v lo hi) <= R32 hi)%R.
Proof.
  intros Nv Fl Fh H. unfold math_constrain. destruct (is_finite v) eqn:Fv.
  - rewrite flt_R by assumption. change (fgt v hi) with (flt hi v). rewrite flt_R by assumption.
    destruct (Rlt_bool_spec (R32 v) (R32 lo)); [split; [exact Fl|lra]|].
    destruct (Rlt_bool_spec (R32 hi) (R32 v)); [split; [exact Fh|lra]|]. split; [exact Fv|lra].
  - destruct v as [| [] | |]; try discriminate.
    + assert (flt (B754_infinity true) lo = true) as -> by (destruct lo as [[]|[]| |[]]; try discriminate; reflexivity).
      split; [exact Fl|lra].
    + assert (flt (B754_infinity false) lo = false) as -> by (destruct lo as [[]|[]| |[]]; try discriminate; reflexivity).
      assert (fgt (B754_infinity false) hi = true) as -> by (destruct hi as [[]|[]| |[]]; try discriminate; reflexivity).
      split; [exact Fh|lra].
Qed.

Section Bound.
Variable qlog : Q4 -> V3.
Variable target : f32.
Hypothesis Ft : is_finite target = true.
Hypothesis Rt : (/ 1000000 <= R32 target <= 1000000)%R.

Definition adj_ok (a : f32) : Prop :=
  is_finite a = true /\ (Rabs (R32 a) <= R32 (fmul (flit 1 2) target))%R.

Lemma half_R : R32 (flit 1 2) = (1 / 2)%R /\ is_finite (flit 1 2) = true.
Proof.
  destruct (flit_R 1 2) as [E F]; [lia|lia|]. split; [|exact F]. rewrite E.
  apply round_generic; [typeclasses eauto|]. replace (1 / 2)%R with (bpow radix2 (-1)) by (cbn; lra).
  apply generic_format_bpow. vm_compute. discriminate.
Qed.
Lemma half_target : (0 <= R32 (fmul (flit 1 2) target) <= 0.51 * R32 target)%R /\ is_finite (fmul (flit 1 2) target) = true /\
  R32 (fmul (fneg (flit 1 2)) target) = (- R32 (fmul (flit 1 2) target))%R /\ is_finite (fmul (fneg (flit 1 2)) target) = true.
Proof.
  destruct half_R as [E F]. pose proof big127.
  destruct (fmul_R (flit 1 2) target F Ft) as [E1 F1]. { rewrite E, Rabs_pos_eq by lra. lra. }
  assert (En : R32 (fneg (flit 1 2)) = (- (1 / 2))%R) by (unfold fneg; rewrite B2R_Bopp, E; reflexivity).
  assert (Fn : is_finite (fneg (flit 1 2)) = true) by (unfold fneg; rewrite is_finite_Bopp; exact F).
  destruct (fmul_R (fneg (flit 1 2)) target Fn Ft) as [E2 F2]. { rewrite En. rewrite <- Rabs_Ropp, Rabs_pos_eq by lra. lra. }
  rewrite E1, E2, E, En. pose proof (rnd32_bounds (1 / 2 * R32 target)) as B.
  split; [split; [apply rnd32_ge0; lra|lra]|]. split; [exact F1|]. split; [|exact F2].
  replace (- (1 / 2) * R32 target)%R with (- (1 / 2 * R32 target))%R by lra. apply round_NE_opp.
Qed.

Lemma next_adj_ok adj dt : adj_ok adj -> fge dt (fsub target adj) = true -> adj_ok (next_adj target adj dt).
Proof.
  intros [Fa Ba] Hr. unfold next_adj, adj_ok. destruct half_target as (H1 & F1 & E2 & F2).
  assert (Nd : is_nan dt = false).
  { destruct dt; auto. unfold fge, fle in Hr. destruct (fsub target adj) as [[]|[]| |[]]; discriminate. }
  destruct (constrain_bounds (fadd adj (fmul (flit 1 100) (fsub dt target)))
     (fmul (fneg (flit 1 2)) target) (fmul (flit 1 2) target)) as [F B]; auto.
  - apply fadd_not_nan; [exact Fa|]. destruct (flit_R 1 100) as [Ec Fc]; [lia|lia|].
    apply fmul_not_nan; [exact Fc| |apply fsub_not_nan; assumption].
    rewrite Ec. pose proof (rnd32_bounds (1 / 100)). lra.
  - rewrite E2. lra.
  - split; [exact F|]. rewrite E2 in B. apply Rabs_le. lra.
Qed.

Lemma emitted_min_period adj dt : adj_ok adj -> fge dt (fsub target adj) = true ->
  is_finite dt = true -> (0.48 * R32 target <= R32 dt)%R.
Proof.
  intros [Fa Ba] Hr Fd. destruct half_target as (H1 & F1 & _ & _). apply Rabs_le_inv in Ba.
  pose proof big127. destruct (fsub_R target adj Ft Fa) as [E F]. { rewrite Rabs_pos_eq by lra. lra. }
  change (fge dt (fsub target adj)) with (fle (fsub target adj) dt) in Hr. rewrite fle_R in Hr by assumption.
  destruct (Rle_bool_spec (R32 (fsub target adj)) (R32 dt)) as [Hle|]; [|discriminate].
  rewrite E in Hle. pose proof (rnd32_bounds (R32 target - R32 adj)) as B. lra.
Qed.

Lemma covers_adj_ok : forall outs segs adj adj', adj_ok adj ->
  covers qlog target adj outs segs adj' ->
  adj_ok adj' /\ Forall (fun o => is_finite (i_dang_dt o) = true -> (0.48 * R32 target <= R32 (i_dang_dt o))%R) outs.
Proof.
  induction outs as [|o outs IH]; intros [|g segs] adj adj' Ha Hc; cbn [covers] in Hc; try contradiction.
  - subst. auto.
  - destruct Hc as (Hs & (Hr & _) & Hc).
    assert (Hr' : fge (i_dang_dt o) (fsub target adj) = true).
    { destruct Hs as (_ & _ & -> & _). exact Hr. }
    destruct (IH _ _ _ (next_adj_ok _ _ Ha Hr') Hc) as [A B]. split; [exact A|].
    constructor; [|exact B]. apply emitted_min_period with (adj := adj); assumption.
Qed.

Theorem downsampler_bounds l :
  adj_ok (ds_adj (snd (ds_run qlog target l ds_init))) /\
  Forall (fun o => is_finite (i_dang_dt o) = true -> (0.48 * R32 target <= R32 (i_dang_dt o))%R)
         (fst (ds_run qlog target l ds_init)).
Proof.
  pose proof (downsampler_covers qlog target l) as H. destruct (ds_run qlog target l ds_init) as [outs s'].
  destruct H as (segs & rest & _ & C & _). cbn [fst snd].
  apply (covers_adj_ok outs segs f0); [|exact C]. split; [reflexivity|].
  cbn [f0 B2R]. rewrite Rabs_R0. destruct half_target. lra.
Qed.
End Bound.

(** *** a NaN integration period stops the down-sampler for ever *)
Lemma nan_absorbs a : fadd fnan a = fnan.
Proof. destruct a; reflexivity. Qed.
Lemma fge_nan_l b : fge fnan b = false.
Proof. unfold fge. destruct b as [[]|[]| |[]]; reflexivity. Qed.

Lemma run_nan qlog target l : forall s, ds_do_reset s = false -> i_dang_dt (ds_acc s) = fnan ->
  fst (ds_run qlog target l s) = [].
Proof.
  induction l as [|x l IH]; intros s Hr Hn; [reflexivity|].
  cbn [ds_run]. unfold ds_update. rewrite Hr. cbv zeta. rewrite Hn, nan_absorbs, fge_nan_l.
  apply IH; [exact Hr|reflexivity].
Qed.

Theorem nan_period_blocks qlog target x l s : i_dang_dt x = fnan ->
  fst (ds_run qlog target (x :: l) s) = [].
Proof.
  intros Hx. cbn [ds_run]. unfold ds_update.
  set (s1 := if ds_do_reset s then ds_reset s else s).
  assert (H1 : ds_do_reset s1 = false) by (unfold s1; destruct (ds_do_reset s) eqn:E; auto).
  cbv zeta. rewrite Hx.
  assert (E : fadd (i_dang_dt (ds_acc s1)) fnan = fnan) by (destruct (i_dang_dt (ds_acc s1)); reflexivity).
  rewrite E, fge_nan_l. apply run_nan; [exact H1|reflexivity].
Qed.

(** * C88: repeated observations are averaged; C20 (continued): the gain is optimal *)
From Coq Require Import Reals Lra Lia List Permutation.
From Verif Require Import CBase Scalar CovModel CovSpec PsdLib CovProofsR CovUpdProofs CovWitness Props_Cov.
Import ListNotations.
Open Scope R_scope.

(** ** Optimal gain *)
(** variance left in state i by an update x_i := x_i - g (h x - y), for ANY gain g, when the
    measurement error has variance r and is independent of the errors of the states *)
Definition variance_with_gain (g r : R) (h : nat -> R) (i : nat) (P : nat -> nat -> R) : R :=
  quad (fun k => (if (k =? i)%nat then 1 else 0) - g * h k) P + g * g * r.
Lemma vwg_eq g r h i P : symmetric24 P -> (i < 24)%nat ->
  variance_with_gain g r h i P = P i i - 2 * g * hP h P i + g * g * (quad h P + r).
Proof.
  intros HS Hi. unfold variance_with_gain.
  assert (E : quad (fun k => (if (k =? i)%nat then 1 else 0) - g * h k) P = quad (fun k => ev i k + (- g) * h k) P).
  { unfold quad. apply rsum_ext. intros a _. apply rsum_ext. intros b _. unfold ev. ring. }
  rewrite E, quad_add by exact HS. rewrite quad_ev by exact Hi.
  assert (X : rsum 24 (fun j => hP h P j * ev i j) = hP h P i).
  { rewrite (rsum_ext 24 _ (fun j => ev i j * hP h P j)) by (intros; ring). apply rsum_ev. exact Hi. }
  try rewrite X. ring.
Qed.
(** The update actually performed leaves every variance (other than those of the delta velocity
    bias, which have their own limits) at the documented floor or at a value no choice of gain
    could improve on: direct observation of one velocity or position state ... *)
Theorem C20_optimal_gain :
  forall (c : covctx R) (s : covst R) (innov r : R) idx,
  (idx < 6)%nat -> 0 < r -> symmetric24 (cP s) -> psd (cP s) -> below_limits c s -> acc_limits_ok c ->
  let '(c', s', healthy) := fuseVelPosHeight innov (cP s (idx + 4)%nat (idx + 4)%nat + r) idx c s in
  forall i g, (i < 24)%nat -> estimated c i -> ~ (13 <= i < 16)%nat ->
    cP s' i i <= Rmax (var_lo i) (variance_with_gain g r (fun k => if (k =? idx + 4)%nat then 1 else 0) i (cP s)).
Proof.
  intros c s innov r idx Hi Hr HS Hp Hb Hok.
  pose proof (C20_direct_update c s innov r idx Hi Hr HS Hp Hb Hok) as T. cbv zeta in T.
  destruct (fuseVelPosHeight innov _ idx c s) as [[c' s'] ok]. destruct T as (_ & _ & _ & _ & V & _).
  intros i g Li Ei Ni. rewrite V by assumption. apply Rle_max_compat_l.
  change (fun k => if (k =? idx + 4)%nat then 1 else 0) with (ev (idx + 4)).
  rewrite vwg_eq by assumption. rewrite hP_ev, quad_ev by lia. rewrite (HS i (idx + 4)%nat) by lia.
  set (p := cP s (idx + 4)%nat (idx + 4)%nat). set (a := cP s (idx + 4)%nat i).
  assert (0 <= p) by (apply psd_diag_nonneg; [assumption|lia]).
  assert (Q : 0 <= (g * (p + r) - a) * (g * (p + r) - a) / (p + r)).
  { apply Rmult_le_pos; [apply Rle_0_sqr|]. left. apply Rinv_0_lt_compat. lra. }
  replace ((g * (p + r) - a) * (g * (p + r) - a) / (p + r)) with (g * g * (p + r) - 2 * g * a + a * a / (p + r)) in Q by (field; lra).
  lra.
Qed.
(** ... and a general sensor whose innovation variance is h P h' + r *)
Theorem C20_optimal_gain_sensor :
  forall (c : covctx R) (s : covst R) (innov r : R) (H : list (nat * R)),
  Forall (fun p => (fst p < 24)%nat) H -> 0 < r -> symmetric24 (cP s) -> psd (cP s) -> below_limits c s -> acc_limits_ok c ->
  (forall k, (k < 3)%nat -> c_inhibit s k = false) ->
  let Sv := quad (hvec H) (cP s) + r in
  let '(c', s', healthy) := measurementUpdate (fun i => rsum 24 (fun k => hvec H k * cP s k i) / Sv) H innov c s in
  forall i g, (i < 24)%nat -> estimated c i -> ~ (13 <= i < 16)%nat ->
    cP s' i i <= Rmax (var_lo i) (variance_with_gain g r (hvec H) i (cP s)).
Proof.
  intros c s innov r H HF Hr HS Hp Hb Hok Hinh Sv.
  pose proof (C20_sensor_update c s innov r H HF Hr HS Hp Hb Hok Hinh) as T. cbv zeta in T. fold Sv in T.
  destruct (measurementUpdate _ H innov c s) as [[c' s'] ok]. destruct T as (_ & _ & _ & _ & V & _).
  intros i g Li Ei Ni. rewrite V by assumption. apply Rle_max_compat_l.
  rewrite vwg_eq by assumption. change (rsum 24 (fun k => hvec H k * cP s k i)) with (hP (hvec H) (cP s) i). fold Sv.
  set (a := hP (hvec H) (cP s) i).
  assert (0 < Sv) by (pose proof (Hp (hvec H)); unfold Sv; lra).
  assert (Q : 0 <= (g * Sv - a) * (g * Sv - a) / Sv).
  { apply Rmult_le_pos; [apply Rle_0_sqr|]. left. apply Rinv_0_lt_compat. lra. }
  replace ((g * Sv - a) * (g * Sv - a) / Sv) with (g * g * Sv - 2 * g * a + a * a / Sv) in Q by (field; lra).
  lra.
Qed.

(** ** C88 *)
(** an observation: axis (0-2 velocity, 3-5 position), value, variance *)
Record observation := { o_axis : nat; o_value : R; o_var : R }.
Definition good_obs (o : observation) : Prop := (o_axis o < 6)%nat /\ 0 < o_var o.
(** each in turn is handed to the update used by all velocity, position and height sensors, with
    the innovation and innovation variance those sensors compute *)
Fixpoint observe (h : list observation) (c : covctx R) (s : covst R) : covctx R * covst R :=
  match h with
  | [] => (c, s)
  | o :: t => let k := (o_axis o + 4)%nat in
      let '(c', s', _) := fuseVelPosHeight (x_st c k - o_value o) (cP s k k + o_var o) (o_axis o) c s in
      observe t c' s'
  end.
(** information about axis a in a history: sum of the inverse variances; information-weighted sum
    of the values *)
Fixpoint info (a : nat) (h : list observation) : R :=
  match h with [] => 0 | o :: t => (if (o_axis o =? a)%nat then / o_var o else 0) + info a t end.
Fixpoint weighted (a : nat) (h : list observation) : R :=
  match h with [] => 0 | o :: t => (if (o_axis o =? a)%nat then o_value o / o_var o else 0) + weighted a t end.

Definition sound (c : covctx R) (s : covst R) : Prop :=
  symmetric24 (cP s) /\ psd (cP s) /\ below_limits c s /\ acc_limits_ok c.

Lemma fuse_ctx (innov sv : R) idx (c : covctx R) (s : covst R) : let '(c', _, _) := fuseVelPosHeight innov sv idx c s in exists x, c' = setState x c \/ c' = c.
Proof.
  unfold fuseVelPosHeight, applyUpdate. cbv zeta. destruct (checkAndFix _ _ _) as [M1 h]. destruct h.
  - eexists. left. reflexivity.
  - exists (x_st c). right. reflexivity.
Qed.
Lemma obs_step o c s : good_obs o -> sound c s ->
  let k := (o_axis o + 4)%nat in
  let '(c', s', _) := fuseVelPosHeight (x_st c k - o_value o) (cP s k k + o_var o) (o_axis o) c s in
  sound c' s' /\
  (forall i, (4 <= i < 10)%nat -> cP s' i i = Rmax (/ 1000000) (cP s i i - cP s i k * cP s i k / (cP s k k + o_var o))) /\
  (forall i, (4 <= i)%nat -> x_st c' i = x_st c i - cP s i k / (cP s k k + o_var o) * (x_st c k - o_value o)).
Proof.
  intros (Ha & Hr) (HS & Hp & Hb & Hok) k.
  pose proof (C20_direct_update c s (x_st c k - o_value o) (o_var o) (o_axis o) Ha Hr HS Hp Hb Hok) as T.
  pose proof (fuse_ctx (x_st c k - o_value o) (cP s k k + o_var o) (o_axis o) c s) as C.
  cbv zeta in T. fold k in T.
  destruct (fuseVelPosHeight (x_st c k - o_value o) (cP s k k + o_var o) (o_axis o) c s) as [[c' s'] ok].
  destruct T as (_ & S' & P' & B' & V & _ & X & _). destruct C as [x C].
  split; [|split].
  - split; [exact S'|]. split; [exact P'|]. destruct C as [-> | ->]; split; assumption.
  - intros i Hi. rewrite V; [|lia| |lia].
    + f_equal. assert (i = 4 \/ i = 5 \/ i = 6 \/ i = 7 \/ i = 8 \/ i = 9)%nat as E by lia.
      destruct E as [E|[E|[E|[E|[E|E]]]]]; subst i; unfold var_lo; cbn; lra.
    + unfold estimated. lia.
  - exact X.
Qed.

(** variance after combining with information I *)
Definition combined (p I : R) : R := p / (1 + p * I).
Lemma combined_mono p q I : 0 <= p -> p <= q -> 0 <= I -> combined p I <= combined q I.
Proof.
  intros. unfold combined. assert (0 <= p * I) by nra. assert (0 <= q * I) by nra.
  apply Rmult_le_reg_r with (1 + p * I); [lra|]. unfold Rdiv. rewrite Rmult_assoc, Rinv_l by lra. rewrite Rmult_1_r.
  apply Rmult_le_reg_r with (1 + q * I); [lra|].
  replace (q * / (1 + q * I) * (1 + p * I) * (1 + q * I)) with (q * (1 + p * I)) by (field; lra). nra.
Qed.
Lemma combined_le p I : 0 <= p -> 0 <= I -> combined p I <= p.
Proof.
  intros. unfold combined. assert (0 <= p * I) by nra. apply Rmult_le_reg_r with (1 + p * I); [lra|].
  unfold Rdiv. rewrite Rmult_assoc, Rinv_l by lra. nra.
Qed.
Lemma combined_nonneg p I : 0 <= p -> 0 <= I -> 0 <= combined p I.
Proof. intros. unfold combined. assert (0 <= p * I) by nra. apply Rmult_le_pos; [assumption|]. left. apply Rinv_0_lt_compat. lra. Qed.
Lemma combined_add p I J : 0 <= p -> 0 <= I -> 0 <= J -> combined (combined p I) J = combined p (I + J).
Proof.
  intros. unfold combined. assert (0 <= p * I) by nra. assert (0 <= p * J) by nra. field. split; [|lra].
  nra.
Qed.
Lemma combined_max lo p I : 0 <= lo -> 0 <= p -> 0 <= I -> combined (Rmax lo p) I <= Rmax lo (combined p I).
Proof.
  intros. destruct (Rle_dec lo p).
  - rewrite (Rmax_right lo p) by assumption. apply Rmax_r.
  - rewrite (Rmax_left lo p) by lra. eapply Rle_trans; [apply combined_le; lra|]. apply Rmax_l.
Qed.
Lemma one_obs p r : 0 <= p -> 0 < r -> p - p * p / (p + r) = combined p (/ r).
Proof. intros. unfold combined. assert (0 < / r) by (apply Rinv_0_lt_compat; assumption). assert (0 <= p * / r) by nra. assert (0 < p + r) by lra. field. repeat split; lra. Qed.
Lemma info_nonneg a h : Forall good_obs h -> 0 <= info a h.
Proof.
  induction 1 as [|o t [_ G] F IH]; cbn [info]; [lra|].
  assert (0 < / o_var o) by (apply Rinv_0_lt_compat; assumption). destruct (_ =? _)%nat; lra.
Qed.

(** Whatever the mixture of velocity and position observations, and whatever the correlations, the
    variance of a velocity or position never exceeds the floor (0.001)^2 or what its own
    observations alone would give: other observations can only help *)
Theorem C88_variance_bound :
  forall (h : list observation) (c : covctx R) (s : covst R) a,
  Forall good_obs h -> sound c s -> (a < 6)%nat ->
  let '(c', s') := observe h c s in let k := (a + 4)%nat in
  sound c' s' /\
  0 <= cP s' k k <= Rmax (/ 1000000) (cP s k k / (1 + cP s k k * info a h)).
Proof.
  induction h as [|o t IH]; intros c s a F G Ha; cbn [observe info].
  - cbv zeta. split; [exact G|]. replace (1 + cP s (a + 4)%nat (a + 4)%nat * 0) with 1 by ring. unfold Rdiv. rewrite Rinv_1, Rmult_1_r.
    split; [apply psd_diag_nonneg; [apply G|lia]|apply Rmax_r].
  - inversion F as [|? ? Go Ft]; subst.
    pose proof (obs_step o c s Go G) as T. cbv zeta in T |- *.
    destruct (fuseVelPosHeight _ _ (o_axis o) c s) as [[c1 s1] ok]. destruct T as (G1 & V & X).
    specialize (IH c1 s1 a Ft G1 Ha). cbv zeta in IH. destruct (observe t c1 s1) as [c2 s2].
    destruct IH as (G2 & P0 & P1). split; [exact G2|]. split; [exact P0|]. eapply Rle_trans; [exact P1|].
    destruct Go as [Go1 Go2]. destruct G as (HS & Hp & _).
    assert (Q : forall i, (i < 24)%nat -> 0 <= cP s i i) by (intros; apply psd_diag_nonneg; assumption).
    pose proof (Q (a + 4)%nat ltac:(lia)) as Qa. pose proof (Q (o_axis o + 4)%nat ltac:(lia)) as Qo.
    pose proof (info_nonneg a t Ft) as It.
    assert (Ir : 0 < / o_var o) by (apply Rinv_0_lt_compat; assumption).
    set (p := cP s (a + 4)%nat (a + 4)%nat) in *. set (I := info a t) in *.
    assert (STEP : cP s1 (a + 4)%nat (a + 4)%nat <= Rmax (/ 1000000) (combined p (if (o_axis o =? a)%nat then / o_var o else 0))).
    { rewrite V by lia. apply Rle_max_compat_l. fold p. destruct (Nat.eqb_spec (o_axis o) a) as [E|E].
      - rewrite E. fold p. rewrite one_obs by assumption. lra.
      - unfold combined. replace (1 + p * 0) with 1 by ring. unfold Rdiv at 2. rewrite Rinv_1, Rmult_1_r.
        set (x := cP s (a + 4)%nat (o_axis o + 4)%nat). set (d := cP s (o_axis o + 4)%nat (o_axis o + 4)%nat + o_var o).
        assert (0 <= x * x / d). { apply Rmult_le_pos; [apply Rle_0_sqr|]. left. apply Rinv_0_lt_compat. unfold d. lra. } lra. }
    set (J := if (o_axis o =? a)%nat then / o_var o else 0) in *.
    assert (0 <= J) by (unfold J; destruct (_ =? _)%nat; lra).
    assert (0 <= combined p J) by (apply combined_nonneg; assumption).
    assert (0 <= cP s1 (a + 4)%nat (a + 4)%nat) by (apply psd_diag_nonneg; [apply G1|lia]).
    assert (M : combined (cP s1 (a + 4)%nat (a + 4)%nat) I <= Rmax (/ 1000000) (combined p (J + I))).
    { eapply Rle_trans; [apply combined_mono; [| exact STEP |]; assumption|].
      eapply Rle_trans; [apply combined_max; [lra|assumption|assumption]|]. rewrite combined_add by assumption. lra. }
    apply Rmax_lub; [apply Rmax_l|]. exact M.
Qed.

(** Observations of one axis only, variance above the floor: the estimate is the information-weighted
    average of the prior estimate and all the observed values, and its variance the inverse of the
    total information *)
Theorem C88_weighted_average :
  forall (h : list observation) (c : covctx R) (s : covst R) a,
  Forall good_obs h -> Forall (fun o => o_axis o = a) h -> sound c s -> (a < 6)%nat ->
  let k := (a + 4)%nat in let P0 := cP s k k in
  0 < P0 -> / 1000000 <= P0 / (1 + P0 * info a h) ->
  let '(c', s') := observe h c s in
  cP s' k k = / (/ P0 + info a h) /\
  x_st c' k = (x_st c k / P0 + weighted a h) / (/ P0 + info a h).
Proof.
  intros h c s a F A G Ha k P0 H0 HL.
  enough (E : let '(c', s') := observe h c s in cP s' k k = combined P0 (info a h) /\
    x_st c' k = (x_st c k + P0 * weighted a h) / (1 + P0 * info a h)).
  { pose proof (info_nonneg a h F). assert (0 <= P0 * info a h) by nra. assert (0 < / P0) by (apply Rinv_0_lt_compat; assumption).
    destruct (observe h c s) as [c' s']. destruct E as [-> ->]. unfold combined. split; field; repeat split; nra. }
  revert c s F A G P0 H0 HL. induction h as [|o t IH]; intros c s F A G P0 H0 HL; cbn [observe info weighted].
  - unfold combined. fold P0. split; field; lra.
  - inversion F as [|? ? Go Ft]; subst. inversion A as [|? ? Ea At]; subst.
    pose proof (obs_step o c s Go G) as T. cbv zeta in T |- *. fold k in T. fold k.
    destruct (fuseVelPosHeight _ _ (o_axis o) c s) as [[c1 s1] ok]. destruct T as (G1 & V & X).
    specialize (IH c1 s1 Ft At G1). cbv zeta in IH.
    rewrite Nat.eqb_refl. cbn [info] in HL. rewrite Nat.eqb_refl in HL.
    destruct Go as [Go1 Go2]. pose proof (info_nonneg (o_axis o) t Ft) as It.
    assert (Ir : 0 < / o_var o) by (apply Rinv_0_lt_compat; assumption).
    set (I := info (o_axis o) t) in *. set (w := weighted (o_axis o) t) in *.
    assert (C1 : 0 <= combined P0 (/ o_var o)) by (apply combined_nonneg; lra).
    fold (combined P0 (/ o_var o + I)) in HL. rewrite <- combined_add in HL by lra.
    assert (C2 : combined (combined P0 (/ o_var o)) I <= combined P0 (/ o_var o)) by (apply combined_le; assumption).
    assert (E1 : cP s1 k k = combined P0 (/ o_var o)).
    { rewrite V by (unfold k; lia). fold P0. rewrite one_obs by lra. apply Rmax_right. lra. }
    rewrite E1 in IH. specialize (IH ltac:(lra) HL). destruct (observe t c1 s1) as [c2 s2]. destruct IH as [I1 I2].
    split; [rewrite I1; apply combined_add; lra|].
    rewrite I2. rewrite X by (unfold k; lia). fold P0. unfold combined.
    assert (0 < P0 * / o_var o) by nra. assert (0 <= P0 * I) by nra.
    assert (R1 : o_var o + P0 <> 0) by lra. assert (R2 : 0 < P0 * I * o_var o + P0 + o_var o) by nra.
    field. repeat split; nra.
Qed.

(** so the order in which the observations of an axis arrive does not matter *)
Lemma info_perm a h h' : Permutation h h' -> info a h = info a h' /\ weighted a h = weighted a h'.
Proof.
  induction 1 as [|o l l' P [IH1 IH2]|o1 o2 l|l1 l2 l3 P1 [A1 A2] P2 [B1 B2]]; cbn [info weighted].
  - split; reflexivity.
  - rewrite IH1, IH2. split; reflexivity.
  - split; ring.
  - split; congruence.
Qed.
Theorem C88_order_irrelevant :
  forall (h h' : list observation) (c : covctx R) (s : covst R) a,
  Forall good_obs h -> Forall (fun o => o_axis o = a) h -> Permutation h h' -> sound c s -> (a < 6)%nat ->
  let k := (a + 4)%nat in let P0 := cP s k k in
  0 < P0 -> / 1000000 <= P0 / (1 + P0 * info a h) ->
  let '(c1, s1) := observe h c s in let '(c2, s2) := observe h' c s in
  x_st c1 k = x_st c2 k /\ cP s1 k k = cP s2 k k.
Proof.
  intros h h' c s a F A P G Ha k P0 H0 HL. destruct (info_perm a h h' P) as [E1 E2].
  assert (F' : Forall good_obs h') by (eapply Permutation_Forall; eassumption).
  assert (A' : Forall (fun o => o_axis o = a) h') by (eapply Permutation_Forall; eassumption).
  pose proof (C88_weighted_average h c s a F A G Ha H0 HL) as T.
  assert (HL' := HL). rewrite E1 in HL'.
  pose proof (C88_weighted_average h' c s a F' A' G Ha H0 HL') as T'.
  destruct (observe h c s) as [c1 s1]. destruct (observe h' c s) as [c2 s2].
  unfold k. destruct T as [-> ->]. destruct T' as [-> ->]. rewrite E1, E2. split; reflexivity.
Qed.

(** ** Convergence *)
(** an axis observed again and again at the same value: the error shrinks at least as the inverse of
    the accumulated information - floor or no floor - and never faster than it should: it keeps the
    sign it had *)
Theorem C88_convergence :
  forall (h : list observation) (c : covctx R) (s : covst R) a z,
  Forall good_obs h -> Forall (fun o => o_axis o = a /\ o_value o = z) h -> sound c s -> (a < 6)%nat ->
  let k := (a + 4)%nat in
  let '(c', s') := observe h c s in
  exists f, 0 <= f <= 1 / (1 + cP s k k * info a h) /\ x_st c' k - z = f * (x_st c k - z).
Proof.
  induction h as [|o t IH]; intros c s a z F A G Ha; cbv zeta; cbn [observe info].
  - exists 1. split; [|ring]. replace (1 + cP s (a + 4)%nat (a + 4)%nat * 0) with 1 by ring. lra.
  - inversion F as [|? ? Go Ft]; subst. inversion A as [|? ? [Ea Ez] At]; subst.
    pose proof (obs_step o c s Go G) as T. cbv zeta in T |- *. set (k := (o_axis o + 4)%nat) in *.
    destruct (fuseVelPosHeight _ _ (o_axis o) c s) as [[c1 s1] ok]. destruct T as (G1 & V & X).
    specialize (IH c1 s1 (o_axis o) (o_value o) Ft At G1 Ha). cbv zeta in IH. fold k in IH. destruct (observe t c1 s1) as [c2 s2].
    destruct IH as (f & Hf & E). rewrite Nat.eqb_refl.
    destruct Go as [Go1 Go2]. pose proof (info_nonneg (o_axis o) t Ft) as It.
    assert (Ir : 0 < / o_var o) by (apply Rinv_0_lt_compat; assumption).
    set (I := info (o_axis o) t) in *.
    assert (Q : 0 <= cP s k k) by (apply psd_diag_nonneg; [apply G|unfold k; lia]).
    set (p := cP s k k) in *. rewrite X in E by (unfold k; lia). fold p in E.
    assert (V1 : combined p (/ o_var o) <= cP s1 k k).
    { rewrite V by (unfold k; lia). fold p. rewrite one_obs by assumption. apply Rmax_r. }
    set (p1 := cP s1 k k) in *. exists (f * (o_var o / (p + o_var o))).
    assert (B : 0 <= combined p (/ o_var o)) by (apply combined_nonneg; lra).
    split; [|rewrite E; field; lra].
    assert (0 < o_var o / (p + o_var o)). { apply Rmult_lt_0_compat; [assumption|]. apply Rinv_0_lt_compat; lra. }
    split; [nra|]. assert (0 <= p1 * I) by nra.
    assert (HF2 : f <= 1 / (1 + combined p (/ o_var o) * I)).
    { eapply Rle_trans; [apply Hf|]. unfold Rdiv. rewrite !Rmult_1_l. apply Rinv_le_contravar; nra. }
    eapply Rle_trans; [apply Rmult_le_compat_r; [lra|exact HF2]|]. right. unfold combined.
    assert (0 <= p * / o_var o) by nra. assert (0 <= p * I) by nra.
    assert (0 <= p * I * o_var o) by nra.
    field. repeat split; nra.
Qed.
(** The filter never goes deaf: since the variance cannot fall below its floor, every observation
    moves the estimate at least by the fraction 1e-6/(1e-6 + r) towards the observed value; n
    observations of variance at most r leave at most (r/(1e-6+r))^n of the error *)
Theorem C88_never_deaf :
  forall (h : list observation) (c : covctx R) (s : covst R) a z r,
  Forall good_obs h -> Forall (fun o => o_axis o = a /\ o_value o = z /\ o_var o <= r) h -> sound c s -> (a < 6)%nat ->
  let k := (a + 4)%nat in / 1000000 <= cP s k k ->
  let '(c', s') := observe h c s in
  Rabs (x_st c' k - z) <= Rabs (x_st c k - z) * (r / (/ 1000000 + r)) ^ length h.
Proof.
  induction h as [|o t IH]; intros c s a z r F A G Ha k HL; cbn [observe length pow].
  - lra.
  - inversion F as [|? ? Go Ft]; subst. inversion A as [|? ? [Ea [Ez Er]] At]; subst.
    pose proof (obs_step o c s Go G) as T. cbv zeta in T |- *. fold k in T. fold k.
    destruct (fuseVelPosHeight _ _ (o_axis o) c s) as [[c1 s1] ok]. destruct T as (G1 & V & X).
    specialize (IH c1 s1 (o_axis o) (o_value o) r Ft At G1 Ha). cbv zeta in IH. fold k in IH.
    assert (V1 : / 1000000 <= cP s1 k k) by (rewrite V by (unfold k; lia); apply Rmax_l).
    specialize (IH V1). destruct (observe t c1 s1) as [c2 s2]. eapply Rle_trans; [exact IH|].
    rewrite X by (unfold k; lia). destruct Go as [Go1 Go2]. set (p := cP s k k) in *.
    replace (x_st c k - p / (p + o_var o) * (x_st c k - o_value o) - o_value o)
      with ((x_st c k - o_value o) * (o_var o / (p + o_var o))) by (field; lra).
    assert (U : 0 < o_var o / (p + o_var o)). { apply Rmult_lt_0_compat; [assumption|]. apply Rinv_0_lt_compat; lra. }
    rewrite Rabs_mult, (Rabs_right (o_var o / (p + o_var o))) by lra. rewrite Rmult_assoc.
    apply Rmult_le_compat_l; [apply Rabs_pos|].
    assert (W : 0 < r / (/ 1000000 + r)). { apply Rmult_lt_0_compat; [lra|]. apply Rinv_0_lt_compat; lra. }
    apply Rmult_le_compat_r; [apply pow_le; lra|].
    apply Rmult_le_reg_r with (p + o_var o); [lra|]. unfold Rdiv. rewrite Rmult_assoc, Rinv_l by lra. rewrite Rmult_1_r.
    apply Rmult_le_reg_r with (/ 1000000 + r); [lra|].
    replace (r * / (/ 1000000 + r) * (p + o_var o) * (/ 1000000 + r)) with (r * (p + o_var o)) by (field; lra). nra.
Qed.

(** a concrete case: three height observations of a filter with variance 1e-5 *)
Definition demoH : list observation :=
  [ {| o_axis := 5; o_value := 3; o_var := 1 / 10000 |}; {| o_axis := 5; o_value := 2; o_var := 1 / 20000 |};
    {| o_axis := 5; o_value := 4; o_var := 1 / 10000 |} ].
Example C88_hypotheses_met : let c := wctx 0 false false true in let s := wst demoP false 0 in
  Forall good_obs demoH /\ Forall (fun o => o_axis o = 5%nat) demoH /\ sound c s /\
  / 1000000 <= cP s 9%nat 9%nat / (1 + cP s 9%nat 9%nat * info 5 demoH) /\ 0 < cP s 9%nat 9%nat /\
  let '(c', s') := observe demoH c s in
  cP s' 9%nat 9%nat = 1 / 140000 /\ x_st c' 9%nat = (10 * x_st c 9%nat + 11) / 14.
Proof.
  cbv zeta. pose proof C20_hypotheses_met as (H1 & H2 & H3 & H4). cbv zeta in *.
  assert (E : info 5 demoH = 40000) by (cbn; field).
  assert (P : cP (wst demoP false 0) 9%nat 9%nat = 1 / 100000) by reflexivity.
  assert (G : Forall good_obs demoH) by (repeat constructor; cbn; lra || lia).
  assert (A : Forall (fun o => o_axis o = 5%nat) demoH) by (repeat constructor).
  assert (L : / 1000000 <= cP (wst demoP false 0) 9%nat 9%nat / (1 + cP (wst demoP false 0) 9%nat 9%nat * info 5 demoH)) by (rewrite E, P; lra).
  assert (P9 : 0 < cP (wst demoP false 0) 9%nat 9%nat) by (rewrite P; lra).
  split; [exact G|]. split; [exact A|]. assert (SD : sound (wctx 0 false false true) (wst demoP false 0)) by exact (conj H1 (conj H2 (conj H3 H4))).
  split; [exact SD|]. split; [exact L|]. split; [exact P9|].
  pose proof (C88_weighted_average demoH (wctx 0 false false true) (wst demoP false 0) 5 G A SD ltac:(lia) P9 L) as T.
  destruct (observe _ _ _) as [c' s']. destruct T as [T1 T2]. change (5 + 4)%nat with 9%nat in T1, T2. rewrite P, E in T1, T2.
  assert (W : weighted 5 demoH = 110000) by (cbn; field). rewrite W in T2. rewrite T1, T2. split; lra.
Qed.
Print Assumptions C20_optimal_gain.
Print Assumptions C20_optimal_gain_sensor.
Print Assumptions C88_variance_bound.
Print Assumptions C88_weighted_average.
Print Assumptions C88_order_irrelevant.
Print Assumptions C88_convergence.
Print Assumptions C88_never_deaf.

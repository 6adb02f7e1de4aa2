(** * C92: several observations at once: least squares, order, horizontal pairs *)
From Coq Require Import Reals Lra Lia List ZArith Bool Permutation.
From Verif Require Import CBase Scalar CovModel CovSpec PsdLib CovProofs CovProofsR CovUpdProofs CovWitness Props_Cov Props_Cov2 VelPosModel BatchProofs.
Import ListNotations.
Open Scope R_scope.

(** ** Specification *)
Definition axis (o : observation) : nat := (o_axis o + 4)%nat.
(** sum over the observations *)
Fixpoint osum (f : observation -> R) (h : list observation) : R :=
  match h with [] => 0 | o :: t => f o + osum f t end.
(** matrix times vector *)
Definition app (P : nat -> nat -> R) (w : nat -> R) (i : nat) : R := rsum 24 (fun j => P i j * w j).
(** least squares: the candidates are the states x + P w (all states if P is regular); the cost of a
    candidate is its distance from the prior estimate in the metric of the prior covariance, w' P w
    (= (z-x)' P^-1 (z-x)), plus the squared residuals divided by their variances *)
Definition cost (x : nat -> R) (P : nat -> nat -> R) (h : list observation) (w : nat -> R) : R :=
  quad w P + osum (fun o => (x (axis o) + app P w (axis o) - o_value o) ^ 2 / o_var o) h.
(** the textbook recursion, without floors, ceilings, resets and normalisation *)
Fixpoint kalman (h : list observation) (x : nat -> R) (P : nat -> nat -> R) : (nat -> R) * (nat -> nat -> R) :=
  match h with
  | [] => (x, P)
  | o :: t => let k := axis o in let Sv := P k k + o_var o in
      kalman t (fun i => x i - P i k / Sv * (x k - o_value o)) (fun i j => P i j - P i k * P k j / Sv)
  end.

(** ** Lemmas *)
Lemma osum_ext f g h : (forall o, In o h -> f o = g o) -> osum f h = osum g h.
Proof. induction h as [|o t IH]; intros H; cbn [osum]; [reflexivity|]. rewrite (H o), IH; [reflexivity|intros; apply H; right; assumption|left; reflexivity]. Qed.
Lemma osum_plus f g h : osum (fun o => f o + g o) h = osum f h + osum g h.
Proof. induction h as [|o t IH]; cbn [osum]; [ring|rewrite IH; ring]. Qed.
Lemma osum_scal a f h : osum (fun o => a * f o) h = a * osum f h.
Proof. induction h as [|o t IH]; cbn [osum]; [ring|rewrite IH; ring]. Qed.
Lemma osum_nonneg f h : (forall o, In o h -> 0 <= f o) -> 0 <= osum f h.
Proof. induction h as [|o t IH]; intros H; cbn [osum]; [lra|]. pose proof (H o (or_introl eq_refl)). assert (0 <= osum f t) by (apply IH; intros; apply H; right; assumption). lra. Qed.
Lemma osum_perm f h h' : Permutation h h' -> osum f h = osum f h'.
Proof. induction 1; cbn [osum]; lra. Qed.
Lemma osum_rsum n (f : nat -> observation -> R) h : rsum n (fun j => osum (f j) h) = osum (fun o => rsum n (fun j => f j o)) h.
Proof. induction h as [|o t IH]; cbn [osum]; [apply rsum_0|]. rewrite rsum_plus, IH. reflexivity. Qed.

Lemma good_axis o : good_obs o -> (axis o < 24)%nat. Proof. intros [H _]. unfold axis. lia. Qed.
Lemma step_sym P k r : symmetric24 P -> (k < 24)%nat -> 0 < P k k + r -> symmetric24 (fun i j => P i j - P i k * P k j / (P k k + r)).
Proof. intros HS Hk H i j Hi Hj. rewrite (HS i j), (HS i k), (HS k j) by assumption. field. lra. Qed.
Lemma step_psd P k r : symmetric24 P -> psd P -> (k < 24)%nat -> 0 < r -> psd (fun i j => P i j - P i k * P k j / (P k k + r)).
Proof.
  intros HS Hp Hk Hr. assert (0 <= P k k) by (apply psd_diag_nonneg; assumption).
  apply (psd_ext (joseph (ev k) P (P k k + r))).
  - intros i j Hi Hj. unfold joseph. rewrite !hP_ev by exact Hk. rewrite (HS i k) by assumption. field. lra.
  - apply joseph_psd; try assumption; [lra|]. rewrite quad_ev by exact Hk. lra.
Qed.
Lemma step_diag P k r i : symmetric24 P -> psd P -> (k < 24)%nat -> (i < 24)%nat -> 0 < r -> P i i - P i k * P k i / (P k k + r) <= P i i.
Proof.
  intros HS Hp Hk Hi Hr. assert (0 <= P k k) by (apply psd_diag_nonneg; assumption). rewrite (HS i k) by assumption.
  assert (0 <= P k i * P k i / (P k k + r)) by (apply Rle_mult_inv_pos; [nra|lra]). lra.
Qed.
Lemma kalman_diag h : forall x P i, Forall good_obs h -> symmetric24 P -> psd P -> (i < 24)%nat -> snd (kalman h x P) i i <= P i i.
Proof.
  induction h as [|o t IH]; intros x P i G HS Hp Hi; cbn [kalman]; [cbn [snd]; lra|]. inversion G as [|? ? Go Gt]; subst.
  pose proof (good_axis o Go) as Hk. destruct Go as [_ Hr]. assert (0 <= P (axis o) (axis o)) by (apply psd_diag_nonneg; assumption).
  eapply Rle_trans; [apply IH; [exact Gt|apply step_sym; try assumption; lra|apply step_psd; assumption|exact Hi]|]. apply step_diag; assumption.
Qed.
Lemma kalman_ext h : forall x y P Q, Forall good_obs h -> (forall i, (4 <= i < 24)%nat -> x i = y i) -> (forall i j, (i < 24)%nat -> (j < 24)%nat -> P i j = Q i j) ->
  (forall i, (4 <= i < 24)%nat -> fst (kalman h x P) i = fst (kalman h y Q) i) /\ (forall i j, (i < 24)%nat -> (j < 24)%nat -> snd (kalman h x P) i j = snd (kalman h y Q) i j).
Proof.
  induction h as [|o t IH]; intros x y P Q G X E; cbn [kalman]; [split; assumption|]. inversion G as [|? ? Go Gt]; subst.
  pose proof (good_axis o Go) as Hk. assert (4 <= axis o)%nat by (unfold axis; lia). apply IH; [exact Gt| |].
  - intros i Hi. rewrite (X i), (X (axis o)), !E by lia. reflexivity.
  - intros i j Hi Hj. rewrite !E by assumption. reflexivity.
Qed.
(** normal equations *)
Lemma kalman_normal h : forall x P, Forall good_obs h -> symmetric24 P -> psd P -> forall i, (i < 24)%nat ->
  let x' := fst (kalman h x P) in
  x' i = x i + osum (fun o => P i (axis o) * ((o_value o - x' (axis o)) / o_var o)) h.
Proof.
  induction h as [|o t IH]; intros x P G HS Hp i Hi; cbn [kalman osum]; [cbn [fst]; ring|]. inversion G as [|? ? Go Gt]; subst.
  pose proof (good_axis o Go) as Hk. destruct Go as [_ Hr]. set (k := axis o) in *. assert (P0 : 0 <= P k k) by (apply psd_diag_nonneg; assumption).
  set (Sv := P k k + o_var o). assert (SP : 0 < Sv) by (unfold Sv; lra).
  set (x1 := fun i => x i - P i k / Sv * (x k - o_value o)). set (P1 := fun i j => P i j - P i k * P k j / Sv).
  assert (HS1 : symmetric24 P1) by (apply step_sym; assumption). assert (Hp1 : psd P1) by (apply step_psd; assumption).
  pose proof (IH x1 P1 Gt HS1 Hp1) as IH1. cbv zeta in IH1 |- *. set (x' := fst (kalman t x1 P1)) in *. clearbody x'.
  set (mu := fun o => (o_value o - x' (axis o)) / o_var o) in *.
  assert (EX : forall i, (i < 24)%nat -> x' i = x i - P i k / Sv * (x k - o_value o) + osum (fun o => P i (axis o) * mu o) t - P i k / Sv * osum (fun o => P k (axis o) * mu o) t).
  { intros j Hj. rewrite (IH1 j Hj). unfold x1.
    rewrite (osum_ext (fun o0 => P1 j (axis o0) * ((o_value o0 - x' (axis o0)) / o_var o0)) (fun o0 => P j (axis o0) * mu o0 + (- (P j k / Sv)) * (P k (axis o0) * mu o0))).
    - rewrite osum_plus, osum_scal. ring.
    - intros o0 _. unfold P1, mu. unfold Rdiv. ring. }
  change (osum (fun o0 => P i (axis o0) * ((o_value o0 - x' (axis o0)) / o_var o0)) t) with (osum (fun o0 => P i (axis o0) * mu o0) t).
  set (A := osum (fun o0 => P k (axis o0) * mu o0) t) in *.
  assert (XK : (o_value o - x' k) / o_var o = (o_value o - x k - A) / Sv).
  { rewrite (EX k Hk). fold A. unfold Sv in *. field. lra. }
  rewrite XK, (EX i Hi). field. lra.
Qed.
(** covariance columns evolve like states observed to be zero *)
Definition zeroed (o : observation) : observation := {| o_axis := o_axis o; o_value := 0; o_var := o_var o |}.
Lemma kalman_column h : forall x P j i, snd (kalman h x P) i j = fst (kalman (map zeroed h) (fun i => P i j) P) i.
Proof.
  induction h as [|o t IH]; intros x P j i; cbn [kalman map]; [reflexivity|].
  rewrite IH. change (axis (zeroed o)) with (axis o). cbn [o_value o_var zeroed]. 
  assert (E : forall y y' Q, (forall i, y i = y' i) -> forall i, fst (kalman (map zeroed t) y Q) i = fst (kalman (map zeroed t) y' Q) i).
  { clear. induction (map zeroed t) as [|o l IHl]; intros y y' Q H i; cbn [kalman fst]; [apply H|]. apply IHl. intros k. rewrite !H. reflexivity. }
  apply E. intros k. unfold Rdiv. ring.
Qed.
Lemma zeroed_good h : Forall good_obs h -> Forall good_obs (map zeroed h).
Proof. induction 1 as [|o t G F IH]; cbn [map]; constructor; [exact G|exact IH]. Qed.

(** the weights of the solution *)
Definition weights (x' : nat -> R) (h : list observation) (j : nat) : R := osum (fun o => ev (axis o) j * ((o_value o - x' (axis o)) / o_var o)) h.
Lemma app_weights x' h P i : Forall good_obs h -> app P (weights x' h) i = osum (fun o => P i (axis o) * ((o_value o - x' (axis o)) / o_var o)) h.
Proof.
  intros G. unfold app, weights. rewrite (rsum_ext 24 _ (fun j => osum (fun o => P i j * (ev (axis o) j * ((o_value o - x' (axis o)) / o_var o))) h)) by (intros; rewrite osum_scal; reflexivity).
  rewrite osum_rsum. apply osum_ext. intros o Ho. rewrite Forall_forall in G. specialize (G o Ho).
  rewrite (rsum_ext 24 _ (fun j => ev (axis o) j * (P i j * ((o_value o - x' (axis o)) / o_var o)))) by (intros; ring).
  apply (rsum_ev 24 (axis o) (fun j => P i j * ((o_value o - x' (axis o)) / o_var o))), good_axis, G.
Qed.
Lemma cost_diff h x P w : Forall good_obs h -> symmetric24 P -> psd P ->
  let x' := fst (kalman h x P) in let ws := weights x' h in let d := fun j => w j - ws j in
  cost x P h w = cost x P h ws + quad d P + osum (fun o => app P d (axis o) ^ 2 / o_var o) h.
Proof.
  intros G HS Hp. cbv zeta. set (x' := fst (kalman h x P)). set (ws := weights x' h). set (d := fun j => w j - ws j).
  assert (XP : forall i, (i < 24)%nat -> x' i = x i + app P ws i).
  { intros i Hi. unfold ws. rewrite app_weights by exact G. apply (kalman_normal h x P G HS Hp i Hi). }
  assert (AW : forall i, app P w i = app P ws i + app P d i).
  { intros i. unfold app. rewrite <- rsum_plus. apply rsum_ext. intros j _. unfold d. ring. }
  assert (Q : quad w P = quad ws P + 2 * osum (fun o => app P d (axis o) * ((o_value o - x' (axis o)) / o_var o)) h + quad d P).
  { replace (quad w P) with (quad (fun i => ws i + 1 * d i) P). 2:{ unfold quad. apply rsum_ext. intros i _. apply rsum_ext. intros j _. unfold d. ring. }
    rewrite quad_add by exact HS.
    assert (E : rsum 24 (fun j => hP d P j * ws j) = osum (fun o => app P d (axis o) * ((o_value o - x' (axis o)) / o_var o)) h).
    { unfold ws, weights. rewrite (rsum_ext 24 _ (fun j => osum (fun o => hP d P j * (ev (axis o) j * ((o_value o - x' (axis o)) / o_var o))) h)) by (intros; rewrite osum_scal; reflexivity).
      rewrite osum_rsum. apply osum_ext. intros o Ho. rewrite Forall_forall in G. specialize (G o Ho). pose proof (good_axis o G) as Hk.
      rewrite (rsum_ext 24 _ (fun j => ev (axis o) j * (hP d P j * ((o_value o - x' (axis o)) / o_var o)))) by (intros; ring).
      rewrite (rsum_ev 24 (axis o) (fun j => hP d P j * ((o_value o - x' (axis o)) / o_var o))) by exact Hk. f_equal. unfold hP, app. apply rsum_ext. intros j Hj. rewrite (HS (axis o) j) by assumption. ring. }
    rewrite E. ring. }
  unfold cost. rewrite Q.
  assert (R0 : osum (fun o => (x (axis o) + app P w (axis o) - o_value o) ^ 2 / o_var o) h
    = osum (fun o => (x (axis o) + app P ws (axis o) - o_value o) ^ 2 / o_var o) h + osum (fun o => app P d (axis o) ^ 2 / o_var o) h
      + (-2) * osum (fun o => app P d (axis o) * ((o_value o - x' (axis o)) / o_var o)) h).
  { rewrite <- osum_scal, <- !osum_plus. apply osum_ext. intros o Ho. rewrite Forall_forall in G. specialize (G o Ho). rewrite (XP (axis o) (good_axis o G)). rewrite AW. destruct G as [_ Hr]. field. lra. }
  rewrite R0. ring.
Qed.
Lemma quad0_app P d i : symmetric24 P -> psd P -> quad d P = 0 -> (i < 24)%nat -> app P d i = 0.
Proof.
  intros HS Hp Q Hi. pose proof (psd_cs (ev i) d P HS Hp) as C. rewrite Q, Rmult_0_r in C.
  assert (E : rsum 24 (fun j => hP d P j * ev i j) = app P d i).
  { rewrite (rsum_ext 24 _ (fun j => ev i j * hP d P j)) by (intros; ring). rewrite (rsum_ev 24 i (fun j => hP d P j)) by exact Hi. unfold hP, app. apply rsum_ext. intros j Hj. rewrite (HS i j) by assumption. ring. }
  rewrite E in C. nra.
Qed.
Lemma kalman_least h x P : Forall good_obs h -> symmetric24 P -> psd P -> let x' := fst (kalman h x P) in
  exists ws, (forall i, (i < 24)%nat -> x' i = x i + app P ws i) /\
  forall w, cost x P h ws <= cost x P h w /\ (cost x P h w <= cost x P h ws -> forall i, (i < 24)%nat -> app P w i = app P ws i).
Proof.
  intros G HS Hp. cbv zeta. set (x' := fst (kalman h x P)). exists (weights x' h).
  split; [intros i Hi; rewrite app_weights by exact G; apply (kalman_normal h x P G HS Hp i Hi)|].
  intros w. pose proof (cost_diff h x P w G HS Hp) as D. cbv zeta in D. fold x' in D. set (d := fun j => w j - weights x' h j) in D.
  pose proof (Hp d) as Qd. assert (O : 0 <= osum (fun o => app P d (axis o) ^ 2 / o_var o) h).
  { apply osum_nonneg. intros o Ho. rewrite Forall_forall in G. specialize (G o Ho). destruct G as [_ Hr]. apply Rle_mult_inv_pos; [nra|exact Hr]. }
  split; [lra|]. intros L i Hi. assert (Q0 : quad d P = 0) by lra. pose proof (quad0_app P d i HS Hp Q0 Hi) as Z.
  assert (E : app P d i = app P w i - app P (weights x' h) i). { unfold app. rewrite <- rsum_minus. apply rsum_ext. intros j _. unfold d. ring. }
  lra.
Qed.
Lemma kalman_perm h h' x P : Permutation h h' -> Forall good_obs h -> symmetric24 P -> psd P ->
  forall i, (i < 24)%nat -> fst (kalman h x P) i = fst (kalman h' x P) i.
Proof.
  intros PE G HS Hp i Hi. assert (G' : Forall good_obs h') by (eapply Permutation_Forall; eassumption).
  destruct (kalman_least h x P G HS Hp) as (w & X & M). destruct (kalman_least h' x P G' HS Hp) as (w' & X' & M').
  rewrite (X i Hi), (X' i Hi). f_equal.
  assert (C : forall v, cost x P h v = cost x P h' v) by (intros v; unfold cost; rewrite (osum_perm _ h h' PE); reflexivity).
  destruct (M' w) as [A _]. destruct (M w') as [_ B]. symmetry. apply B; [|exact Hi]. rewrite !C. exact A.
Qed.
Lemma kalman_perm_cov h h' x P : Permutation h h' -> Forall good_obs h -> symmetric24 P -> psd P ->
  forall i j, (i < 24)%nat -> snd (kalman h x P) i j = snd (kalman h' x P) i j.
Proof.
  intros PE G HS Hp i j Hi. rewrite !kalman_column. apply kalman_perm; [apply Permutation_map, PE|apply zeroed_good, G|exact HS|exact Hp|exact Hi].
Qed.
(** posterior covariance *)
Lemma kalman_cov h x P : Forall good_obs h -> symmetric24 P -> psd P -> forall i j, (i < 24)%nat -> let P' := snd (kalman h x P) in
  P' i j = P i j - osum (fun o => P i (axis o) * P' (axis o) j / o_var o) h.
Proof.
  intros G HS Hp i j Hi. cbv zeta. rewrite kalman_column. pose proof (kalman_normal (map zeroed h) (fun i => P i j) P (zeroed_good h G) HS Hp i Hi) as N. cbv zeta in N. rewrite N.
  unfold Rminus. f_equal. replace (- osum (fun o => P i (axis o) * snd (kalman h x P) (axis o) j / o_var o) h) with ((-1) * osum (fun o => P i (axis o) * snd (kalman h x P) (axis o) j / o_var o) h) by ring.
  rewrite <- osum_scal.
  assert (MP : forall f l, osum f (map zeroed l) = osum (fun o => f (zeroed o)) l) by (intros f l; induction l as [|o t IH]; cbn [osum map]; [reflexivity|rewrite IH; reflexivity]).
  rewrite MP. apply osum_ext. intros o _. change (axis (zeroed o)) with (axis o). cbn [o_value o_var zeroed]. rewrite kalman_column. unfold Rdiv. ring.
Qed.

(** ** C92 *)
(** the filter's own updates, away from its limits, are the textbook recursion: all covariances, and
    all states but the attitude (which is normalised after each update) *)
Theorem C92_textbook : forall (h : list observation) (c : covctx R) (s : covst R), Forall good_obs h ->
  clear_of_limits c s (snd (kalman h (x_st c) (cP s))) ->
  let '(c', s') := observe h c s in let '(x', P') := kalman h (x_st c) (cP s) in
  (forall i, (4 <= i < 24)%nat -> x_st c' i = x' i) /\ (forall i j, (i < 24)%nat -> (j < 24)%nat -> cP s' i j = P' i j).
Proof.
  intros h c s G W.
  assert (GEN : forall h (c : covctx R) (s : covst R) F, Forall good_obs h -> clear_of_limits c s F ->
    (forall i, (i < 24)%nat -> F i i <= snd (kalman h (x_st c) (cP s)) i i) ->
    (forall i, (4 <= i < 24)%nat -> x_st (fst (observe h c s)) i = fst (kalman h (x_st c) (cP s)) i) /\
    (forall i j, (i < 24)%nat -> (j < 24)%nat -> cP (snd (observe h c s)) i j = snd (kalman h (x_st c) (cP s)) i j)).
  { clear. induction h as [|o t IH]; intros c s F G W HF; [split; reflexivity|]. inversion G as [|? ? Go Gt]; subst.
    pose proof (good_axis o Go) as Hk. assert (Go' := Go). destruct Go' as [Ha Hr]. assert (SO := W). destruct SO as ((HS & Hp & _) & _).
    assert (P0 : 0 <= cP s (axis o) (axis o)) by (apply psd_diag_nonneg; assumption).
    cbn [observe kalman] in HF |- *. fold (axis o). set (k := axis o) in *. set (Sv := cP s k k + o_var o) in *.
    set (x1 := fun i => x_st c i - cP s i k / Sv * (x_st c k - o_value o)) in *. set (P1 := fun i j => cP s i j - cP s i k * cP s k j / Sv) in *.
    assert (HS1 : symmetric24 P1) by (apply step_sym; try assumption; fold Sv; unfold Sv; lra). assert (Hp1 : psd P1) by (apply step_psd; assumption).
    assert (F1 : forall i, (i < 24)%nat -> F i i <= cP s i i - cP s i k * cP s k i / Sv).
    { intros i Hi. eapply Rle_trans; [apply HF, Hi|]. apply (kalman_diag t x1 P1 i Gt HS1 Hp1 Hi). }
    pose proof (free_step c s (x_st c k - o_value o) Sv (o_axis o) F Ha ltac:(cbv zeta; fold (axis o); fold k; unfold Sv; lra) W F1) as T. cbv zeta in T. fold (axis o) in T. fold k in T. fold Sv in T.
    destruct (fuseVelPosHeight _ _ (o_axis o) c s) as [[c1 s1] ok]. destruct T as (_ & CP & X & W1).
    destruct (kalman_ext t (x_st c1) x1 (cP s1) P1 Gt) as [EX EP]; [intros i Hi; apply X; lia|exact CP|].
    destruct (IH c1 s1 F Gt W1) as [A B]; [intros i Hi; rewrite EP by assumption; apply HF, Hi|].
    split; [intros i Hi; rewrite A by exact Hi; apply EX, Hi|intros i j Hi Hj; rewrite B by assumption; apply EP; assumption]. }
  destruct (GEN h c s _ G W) as [A B]; [intros; lra|].
  destruct (observe h c s) as [c' s']. destruct (kalman h (x_st c) (cP s)) as [x' P']. split; assumption.
Qed.
(** the estimate after any history of velocity, position and height observations is the weighted least
    squares estimate: it minimises the cost, and any other minimiser is the same estimate *)
Theorem C92_least_squares : forall (h : list observation) (c : covctx R) (s : covst R), Forall good_obs h ->
  clear_of_limits c s (snd (kalman h (x_st c) (cP s))) ->
  let c' := fst (observe h c s) in
  exists w, (forall i, (4 <= i < 24)%nat -> x_st c' i = x_st c i + app (cP s) w i) /\
  forall w', cost (x_st c) (cP s) h w <= cost (x_st c) (cP s) h w' /\
    (cost (x_st c) (cP s) h w' <= cost (x_st c) (cP s) h w -> forall i, (4 <= i < 24)%nat -> x_st c' i = x_st c i + app (cP s) w' i).
Proof.
  intros h c s G W. cbv zeta. pose proof (C92_textbook h c s G W) as T. destruct W as ((HS & Hp & _) & _).
  destruct (kalman_least h (x_st c) (cP s) G HS Hp) as (w & X & M). exists w.
  destruct (observe h c s) as [c' s']. destruct (kalman h (x_st c) (cP s)) as [x' P']. destruct T as [TX _]. cbn [fst] in *.
  split; [intros i Hi; rewrite TX by exact Hi; apply X; lia|].
  intros w'. destruct (M w') as [A B]. split; [exact A|]. intros L i Hi. rewrite (B L i) by lia. rewrite TX by exact Hi. apply X. lia.
Qed.
(** its covariance is that of the least squares estimate: (1 + sum_o P e e' / r) P' = P *)
Theorem C92_covariance : forall (h : list observation) (c : covctx R) (s : covst R), Forall good_obs h ->
  clear_of_limits c s (snd (kalman h (x_st c) (cP s))) ->
  let P' := cP (snd (observe h c s)) in forall i j, (i < 24)%nat -> (j < 24)%nat ->
  P' i j + osum (fun o => cP s i (axis o) * P' (axis o) j / o_var o) h = cP s i j.
Proof.
  intros h c s G W. cbv zeta. pose proof (C92_textbook h c s G W) as T. destruct W as ((HS & Hp & _) & _).
  intros i j Hi Hj. pose proof (kalman_cov h (x_st c) (cP s) G HS Hp i j Hi) as K. cbv zeta in K.
  destruct (observe h c s) as [c' s']. destruct (kalman h (x_st c) (cP s)) as [x' P']. destruct T as [_ TP]. cbn [snd] in *.
  rewrite (osum_ext _ (fun o => cP s i (axis o) * P' (axis o) j / o_var o)).
  - rewrite TP by assumption. rewrite K. lra.
  - intros o Ho. rewrite TP; [reflexivity| |exact Hj]. rewrite Forall_forall in G. apply good_axis, G, Ho.
Qed.
(** the order in which they are processed does not matter *)
Theorem C92_order : forall (h h' : list observation) (c : covctx R) (s : covst R), Forall good_obs h -> Permutation h h' ->
  clear_of_limits c s (snd (kalman h (x_st c) (cP s))) ->
  let '(c1, s1) := observe h c s in let '(c2, s2) := observe h' c s in
  (forall i, (4 <= i < 24)%nat -> x_st c1 i = x_st c2 i) /\ (forall i j, (i < 24)%nat -> (j < 24)%nat -> cP s1 i j = cP s2 i j).
Proof.
  intros h h' c s G PE W. assert (G' : Forall good_obs h') by (eapply Permutation_Forall; eassumption).
  assert (SO := W). destruct SO as ((HS & Hp & _) & _).
  pose proof (kalman_perm_cov h h' (x_st c) (cP s) PE G HS Hp) as KC. pose proof (kalman_perm h h' (x_st c) (cP s) PE G HS Hp) as KX.
  assert (W' : clear_of_limits c s (snd (kalman h' (x_st c) (cP s)))).
  { destruct W as (A & B & C & D). split; [exact A|]. split; [exact B|]. split.
    - intros i Hi. rewrite <- KC by lia. apply C, Hi.
    - destruct D as [D|(D & T1 & T2)]; [left; exact D|right]. split; [|split; assumption]. intros k Hk I. rewrite <- KC by lia. apply D; assumption. }
  pose proof (C92_textbook h c s G W) as T. pose proof (C92_textbook h' c s G' W') as T'.
  destruct (observe h c s) as [c1 s1]. destruct (observe h' c s) as [c2 s2]. destruct (kalman h (x_st c) (cP s)) as [x1 P1]. destruct (kalman h' (x_st c) (cP s)) as [x2 P2].
  destruct T as [TX TP]. destruct T' as [TX' TP']. cbn [fst snd] in *.
  split; [intros i Hi; rewrite TX, TX' by exact Hi; apply KX; lia|intros i j Hi Hj; rewrite TP, TP' by assumption; apply KC, Hi].
Qed.

(** ** Horizontal pairs *)
(** the two horizontal axes of one sample are fused with the innovations and innovation variances of
    the state before the first; gains with which the two innovations enter state i *)
Definition gain0 (P : nat -> nat -> R) (o0 : R) (k0 i : nat) : R := P i k0 / (P k0 k0 + o0).
Definition gain1 (P : nat -> nat -> R) (o0 o1 : R) (k0 k1 i : nat) : R := (P i k1 - gain0 P o0 k0 i * P k0 k1) / (P k1 k1 + o1).
(** covariance of the errors e_i - g0 i (e_k0 + n0) - g1 i (e_k1 + n1) when the prior errors e have
    covariance P and the measurement errors n0, n1 are independent with variances o0, o1 *)
Definition error_cov (P : nat -> nat -> R) (g0 g1 : nat -> R) (o0 o1 : R) (k0 k1 i j : nat) : R :=
  let A := fun i a => ev i a - g0 i * ev k0 a - g1 i * ev k1 a in
  rsum 24 (fun a => rsum 24 (fun b => A i a * P a b * A j b)) + g0 i * o0 * g0 j + g1 i * o1 * g1 j.
Lemma error_cov_eq P g0 g1 o0 o1 k0 k1 i j : (k0 < 24)%nat -> (k1 < 24)%nat -> (i < 24)%nat -> (j < 24)%nat ->
  error_cov P g0 g1 o0 o1 k0 k1 i j =
  P i j - g0 j * P i k0 - g1 j * P i k1 - g0 i * (P k0 j - g0 j * P k0 k0 - g1 j * P k0 k1) - g1 i * (P k1 j - g0 j * P k1 k0 - g1 j * P k1 k1)
  + g0 i * o0 * g0 j + g1 i * o1 * g1 j.
Proof.
  intros H0 H1 Hi Hj. unfold error_cov.
  assert (L : forall (f : nat -> R) m, (m < 24)%nat -> rsum 24 (fun b => f b * (ev m b - g0 m * ev k0 b - g1 m * ev k1 b)) = f m - g0 m * f k0 - g1 m * f k1).
  { intros f m Hm. rewrite (rsum_ext 24 _ (fun b => ev m b * f b - (g0 m * (ev k0 b * f b) + g1 m * (ev k1 b * f b)))) by (intros; ring).
    rewrite rsum_minus, rsum_plus, !rsum_scal, !rsum_ev by assumption. ring. }
  rewrite (rsum_ext 24 _ (fun a => (P a j - g0 j * P a k0 - g1 j * P a k1) * (ev i a - g0 i * ev k0 a - g1 i * ev k1 a))).
  - rewrite L by exact Hi. ring.
  - intros a _. rewrite <- (L (fun b => P a b) j Hj). rewrite <- rsum_scal_r. apply rsum_ext. intros b _. ring.
Qed.
Lemma pair_step (c : covctx R) (s : covst R) a0 a1 i0 i1 o0 o1 : (a0 < 6)%nat -> (a1 < 6)%nat -> 0 < o0 -> 0 < o1 ->
  let k0 := (a0 + 4)%nat in let k1 := (a1 + 4)%nat in let P := cP s in
  let g0 := gain0 P o0 k0 in let g1 := gain1 P o0 o1 k0 k1 in let E := error_cov P g0 g1 o0 o1 k0 k1 in
  clear_of_limits c s E ->
  let '(c1, s1, _) := fuseVelPosHeight i0 (P k0 k0 + o0) a0 c s in let '(c2, s2, _) := fuseVelPosHeight i1 (P k1 k1 + o1) a1 c1 s1 in
  (forall i, (4 <= i < 24)%nat -> x_st c2 i = x_st c i - g0 i * i0 - g1 i * i1) /\ (forall i j, (i < 24)%nat -> (j < 24)%nat -> cP s2 i j = E i j).
Proof.
  intros A0 A1 O0 O1. cbv zeta. set (k0 := (a0 + 4)%nat). set (k1 := (a1 + 4)%nat). set (P := cP s).
  set (g0 := gain0 P o0 k0). set (g1 := gain1 P o0 o1 k0 k1). set (E := error_cov P g0 g1 o0 o1 k0 k1). intros W.
  assert (H0 : (k0 < 24)%nat) by (unfold k0; lia). assert (H1 : (k1 < 24)%nat) by (unfold k1; lia).
  assert (SO := W). destruct SO as ((HS & Hp & _) & _). fold P in HS, Hp.
  assert (P0 : 0 <= P k0 k0) by (apply psd_diag_nonneg; assumption). assert (P1 : 0 <= P k1 k1) by (apply psd_diag_nonneg; assumption).
  set (Q := fun i j => P i j - P i k0 * P k0 j / (P k0 k0 + o0)).
  assert (QS : symmetric24 Q) by (apply step_sym; try assumption; lra). assert (QP : psd Q) by (apply step_psd; assumption).
  assert (Q1 : 0 <= Q k1 k1) by (apply psd_diag_nonneg; assumption).
  assert (Q1le : Q k1 k1 <= P k1 k1) by (apply step_diag; assumption).
  assert (EE : forall i j, (i < 24)%nat -> (j < 24)%nat -> E i j = Q i j - Q i k1 * Q k1 j / (P k1 k1 + o1)).
  { intros i j Hi Hj. unfold E. rewrite error_cov_eq by assumption. unfold g1, gain1, g0, gain0, Q.
    rewrite (HS k0 j), (HS k1 j), (HS k1 k0) by assumption. field. lra. }
  assert (F0 : forall i, (i < 24)%nat -> E i i <= cP s i i - cP s i k0 * cP s k0 i / (P k0 k0 + o0)).
  { intros i Hi. rewrite EE by assumption. change (cP s i i - cP s i k0 * cP s k0 i / (P k0 k0 + o0)) with (Q i i). rewrite (QS i k1) by assumption.
    assert (0 <= Q k1 i * Q k1 i / (P k1 k1 + o1)) by (apply Rle_mult_inv_pos; [nra|lra]). lra. }
  pose proof (free_step c s i0 (P k0 k0 + o0) a0 E A0 ltac:(cbv zeta; fold k0; fold P; lra) W F0) as T. cbv zeta in T. fold k0 in T.
  destruct (fuseVelPosHeight i0 (P k0 k0 + o0) a0 c s) as [[c1 s1] ok1]. destruct T as (_ & CP & X & W1).
  assert (CQ : forall i j, (i < 24)%nat -> (j < 24)%nat -> cP s1 i j = Q i j) by exact CP.
  assert (F1 : forall i, (i < 24)%nat -> E i i <= cP s1 i i - cP s1 i k1 * cP s1 k1 i / (P k1 k1 + o1)).
  { intros i Hi. rewrite !CQ by assumption. rewrite EE by assumption. lra. }
  pose proof (free_step c1 s1 i1 (P k1 k1 + o1) a1 E A1 ltac:(cbv zeta; fold k1; rewrite CQ by assumption; lra) W1 F1) as T. cbv zeta in T. fold k1 in T.
  destruct (fuseVelPosHeight i1 (P k1 k1 + o1) a1 c1 s1) as [[c2 s2] ok2]. destruct T as (_ & CP2 & X2 & _).
  split.
  - intros i Hi. rewrite X2 by lia. rewrite X by lia. rewrite CQ by lia. unfold g1, gain1, g0, gain0, Q. fold P. field. lra.
  - intros i j Hi Hj. rewrite CP2 by assumption. rewrite !CQ by assumption. symmetry. apply EE; assumption.
Qed.
(** the covariance the filter reports after a horizontal velocity sample is exactly the covariance of
    the errors of the estimate it computes *)
Theorem C92_velocity_pair : forall (v : vpst R) i0 i1 gate o0 o1, 0 < o0 -> 0 < o1 ->
  let P := cP (v_s v) in let g0 := gain0 P o0 4 in let g1 := gain1 P o0 o1 4 5 in let E := error_cov P g0 g1 o0 o1 4 5 in
  clear_of_limits (v_c v) (v_s v) E ->
  let r := fuseHorizontalVelocity i0 i1 gate o0 o1 v in r_ok r = true ->
  (forall i, (4 <= i < 24)%nat -> x_st (v_c (r_v r)) i = x_st (v_c v) i - g0 i * i0 - g1 i * i1) /\
  (forall i j, (i < 24)%nat -> (j < 24)%nat -> cP (v_s (r_v r)) i j = E i j).
Proof.
  intros v i0 i1 gate o0 o1 O0 O1. cbv zeta. intros W OK. pose proof (pair_step (v_c v) (v_s v) 0 1 i0 i1 o0 o1 ltac:(lia) ltac:(lia) O0 O1 W) as T.
  unfold fuseHorizontalVelocity in OK |- *. cbv zeta in OK, T |- *. destruct (sle _ _) in OK |- *; [|discriminate]. cbn [r_v]. unfold vpFuse at 1 2. unfold vpFuse. cbn [v_c v_s]. cbn [sadd RScalar].
  change (0 + 4)%nat with 4%nat in T. change (1 + 4)%nat with 5%nat in T.
  destruct (fuseVelPosHeight i0 _ 0 (v_c v) (v_s v)) as [[c1 s1] ok1]. cbn [v_c v_s]. destruct (fuseVelPosHeight i1 _ 1 c1 s1) as [[c2 s2] ok2]. cbn [v_c v_s]. exact T.
Qed.
Theorem C92_position_pair : forall (v : vpst R) inhibit i0 i1 gate o0 o1, 0 < o0 -> 0 < o1 ->
  let P := cP (v_s v) in let g0 := gain0 P o0 7 in let g1 := gain1 P o0 o1 7 8 in let E := error_cov P g0 g1 o0 o1 7 8 in
  clear_of_limits (v_c v) (v_s v) E ->
  let r := fuseHorizontalPosition inhibit i0 i1 gate o0 o1 v in r_ok r = true ->
  (forall i, (4 <= i < 24)%nat -> x_st (v_c (r_v r)) i = x_st (v_c v) i - g0 i * i0 - g1 i * i1) /\
  (forall i j, (i < 24)%nat -> (j < 24)%nat -> cP (v_s (r_v r)) i j = E i j).
Proof.
  intros v inhibit i0 i1 gate o0 o1 O0 O1. cbv zeta. intros W OK. pose proof (pair_step (v_c v) (v_s v) 3 4 i0 i1 o0 o1 ltac:(lia) ltac:(lia) O0 O1 W) as T.
  unfold fuseHorizontalPosition in OK |- *. cbv zeta in OK, T |- *. destruct (sle _ _ || inhibit) in OK |- *; [|discriminate]. destruct (inhibit && _) in OK |- *; [discriminate|]. cbn [r_v]. unfold vpFuse. cbn [v_c v_s]. cbn [sadd RScalar].
  change (3 + 4)%nat with 7%nat in T. change (4 + 4)%nat with 8%nat in T.
  destruct (fuseVelPosHeight i0 _ 3 (v_c v) (v_s v)) as [[c1 s1] ok1]. cbn [v_c v_s]. destruct (fuseVelPosHeight i1 _ 4 c1 s1) as [[c2 s2] ok2]. cbn [v_c v_s]. exact T.
Qed.
(** it is the least squares estimate when the two axes are uncorrelated and a worse one otherwise:
    the variance of the second axis is then larger than it need be (a defect) *)
Theorem C92_pair_optimal : forall (P : nat -> nat -> R) (x : nat -> R) a0 a1 y0 y1 o0 o1, symmetric24 P -> psd P ->
  (a0 < 6)%nat -> (a1 < 6)%nat -> 0 < o0 -> 0 < o1 -> let k0 := (a0 + 4)%nat in let k1 := (a1 + 4)%nat in
  let g0 := gain0 P o0 k0 in let g1 := gain1 P o0 o1 k0 k1 in let E := error_cov P g0 g1 o0 o1 k0 k1 in
  let '(x', P') := kalman [ {| o_axis := a0; o_value := y0; o_var := o0 |}; {| o_axis := a1; o_value := y1; o_var := o1 |} ] x P in
  (P k0 k1 = 0 -> (forall i, (i < 24)%nat -> x i - g0 i * (x k0 - y0) - g1 i * (x k1 - y1) = x' i) /\ (forall i j, (i < 24)%nat -> (j < 24)%nat -> E i j = P' i j)) /\
  (P k0 k1 <> 0 -> P' k1 k1 < E k1 k1).
Proof.
  intros P x a0 a1 y0 y1 o0 o1 HS Hp A0 A1 O0 O1. cbv zeta. cbn [kalman axis o_axis o_value o_var]. unfold axis. cbn [o_axis o_value o_var].
  set (k0 := (a0 + 4)%nat). set (k1 := (a1 + 4)%nat).
  assert (H0 : (k0 < 24)%nat) by (unfold k0; lia). assert (H1 : (k1 < 24)%nat) by (unfold k1; lia).
  assert (P0 : 0 <= P k0 k0) by (apply psd_diag_nonneg; assumption). assert (P1 : 0 <= P k1 k1) by (apply psd_diag_nonneg; assumption).
  pose proof (psd_cauchy P k0 k1 Hp H0 H1 (HS k0 k1 H0 H1)) as CS. pose proof (HS k1 k0 H1 H0) as S10.
  split.
  - intros Z. rewrite Z in *. split.
    + intros i Hi. unfold gain1, gain0. rewrite ?S10, ?Z. unfold Rdiv. rewrite ?Rmult_0_l, ?Rmult_0_r, ?Rmult_0_l, ?Rminus_0_r. field. split; lra.
    + intros i j Hi Hj. rewrite error_cov_eq by assumption. unfold gain1, gain0. rewrite (HS k0 j), (HS k1 j), ?S10, ?Z by assumption. unfold Rdiv. rewrite ?Rmult_0_l, ?Rmult_0_r, ?Rmult_0_l, ?Rminus_0_r. field. split; lra.
  - intros NZ. rewrite error_cov_eq by assumption. unfold gain1, gain0. rewrite S10.
    set (a := P k0 k0) in *. set (b := P k1 k1) in *. set (d := P k0 k1) in *. clearbody a b d.
    assert (D2 : 0 < d * d) by nra. assert (AP : 0 < a) by nra. assert (BP : 0 < b) by nra.
    set (q := b - d * d / (a + o0)). assert (QB : q < b). { unfold q. assert (0 < d * d / (a + o0)) by (apply Rdiv_lt_0_compat; lra). lra. }
    assert (QP : 0 < q). { unfold q. apply Rmult_lt_reg_r with (a + o0); [lra|]. rewrite Rmult_0_l. replace ((b - d * d / (a + o0)) * (a + o0)) with (b * a + b * o0 - d * d) by (field; lra). nra. }
    replace (b - d * d / (a + o0) - (b - d * d / (a + o0)) * (b - d * d / (a + o0)) / (b - d * d / (a + o0) + o1)) with (q - q * q / (q + o1)) by reflexivity.
    match goal with |- _ < ?e => replace e with (q - q * q / (b + o1)) by (unfold q; field; lra) end.
    assert (q * q / (b + o1) < q * q / (q + o1)); [|lra]. apply Rmult_lt_compat_l; [nra|]. apply Rinv_lt_contravar; [nra|lra].
Qed.

(** ** Examples *)
(** North and East velocity correlated (1/2), two velocity observations, one height observation *)
Definition exM : nat -> nat -> R := fun i j => (ev 4 i + ev 5 i) * 1 * (ev 4 j + ev 5 j) + (if (i =? j)%nat then (if inb 4 2 i then 1 else if inb 6 4 i then 2 else 0) else 0).
Definition exC := wctx 0 false true false.
Definition exS := wst exM true 0.
Definition exH := [ {| o_axis := 0; o_value := 3; o_var := 1 |}; {| o_axis := 1; o_value := 5; o_var := 2 |}; {| o_axis := 5; o_value := -7; o_var := 1 |} ].
Lemma exM_sym : symmetric24 exM.
Proof. intros i j _ _. unfold exM. rewrite (Nat.eqb_sym j i). destruct (Nat.eqb_spec i j) as [->|E]; ring. Qed.
Lemma exM_psd : psd exM.
Proof. unfold exM. apply psd_plus; [apply psd_outer; lra|]. apply (psd_diag (fun i => if inb 4 2 i then 1 else if inb 6 4 i then 2 else 0)). intros i _. destruct (inb 4 2 i); [lra|]. destruct (inb 6 4 i); lra. Qed.
Lemma ex_sound : sound exC exS.
Proof.
  split; [exact exM_sym|]. split; [exact exM_psd|]. split.
  - split; [|intros k _ E; discriminate]. intros i Hi Hn. cbn [cP exS wst]. unfold exM. rewrite Nat.eqb_refl. unfold var_hi.
    do 24 (destruct i as [|i]; [cbn; lra|]). lia.
  - unfold acc_limits_ok. pose proof (wctx_accHi 0 false true false). unfold exC. lra.
Qed.
Lemma ex_clear F : (forall i, (4 <= i < 10)%nat -> / 1000000 <= F i i) -> clear_of_limits exC exS F.
Proof.
  intros H. split; [exact ex_sound|]. split; [|split; [exact H|left; reflexivity]].
  intros i j Hi Hj E. cbn [cP exS wst]. unfold exM. assert (L : (16 <= i)%nat) by (destruct (le_lt_dec 16 i); [assumption|exfalso; apply E; left; assumption]).
  unfold ev. replace (i =? 4)%nat with false by (symmetry; apply Nat.eqb_neq; lia). replace (i =? 5)%nat with false by (symmetry; apply Nat.eqb_neq; lia).
  replace (inb 4 2 i) with false by (symmetry; apply Bool.not_true_iff_false; rewrite inb_iff; lia). replace (inb 6 4 i) with false by (symmetry; apply Bool.not_true_iff_false; rewrite inb_iff; lia).
  destruct (i =? j)%nat; ring.
Qed.
Example C92_history : Forall good_obs exH /\ clear_of_limits exC exS (snd (kalman exH (x_st exC) (cP exS))).
Proof.
  split; [repeat constructor; cbn; try lia; lra|]. apply ex_clear. intros i Hi.
  assert (i = 4 \/ i = 5 \/ i = 6 \/ i = 7 \/ i = 8 \/ i = 9)%nat as E by lia.
  destruct E as [->|[->|[->|[->|[->| ->]]]]]; unfold exH, axis; cbn [kalman snd axis o_axis o_value o_var cP exS wst]; unfold axis, exM, ev, inb; cbn -[IZR]; field_simplify; lra.
Qed.
Example C92_pair : clear_of_limits exC exS (error_cov (cP exS) (gain0 (cP exS) 1 4) (gain1 (cP exS) 1 2 4 5) 1 2 4 5) /\ cP exS 4%nat 5%nat <> 0.
Proof.
  split; [|cbn [cP exS wst]; unfold exM, ev; cbn -[IZR]; lra]. apply ex_clear. intros i Hi. rewrite error_cov_eq by lia.
  assert (i = 4 \/ i = 5 \/ i = 6 \/ i = 7 \/ i = 8 \/ i = 9)%nat as E by lia.
  destruct E as [->|[->|[->|[->|[->| ->]]]]]; unfold gain1, gain0; cbn [cP exS wst]; unfold exM, ev, inb; cbn -[IZR]; field_simplify; lra.
Qed.
Example C92_pair_accepted : let v := mkVp exC exS false false false false 0%Z 0%Z 0%Z 0%Z 0%Z (fun _ => false) 0 0 0 0 0%Z 0%Z false in
  r_ok (fuseHorizontalVelocity 1 (-1) 3 1 2 v) = true /\ r_ok (fuseHorizontalPosition false 1 (-1) 3 1 2 v) = true.
Proof.
  cbv zeta. split; unfold fuseHorizontalVelocity, fuseHorizontalPosition, ratio, sq; cbv zeta; cbn [v_s v_c exS wst cP]; unfold exM, ev, inb; cbn -[IZR Rmax].
  - destruct (Rle_dec _ _) as [H|H]; [reflexivity|]. exfalso. apply H. apply Rmax_lub; field_simplify; lra.
  - destruct (Rle_dec _ _) as [H|H]; [reflexivity|]. exfalso. apply H. apply Rmax_lub; field_simplify; lra.
Qed.
Print Assumptions C92_textbook. Print Assumptions C92_least_squares. Print Assumptions C92_covariance. Print Assumptions C92_order.
Print Assumptions C92_velocity_pair. Print Assumptions C92_position_pair. Print Assumptions C92_pair_optimal.

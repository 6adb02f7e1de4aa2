(** * Proofs: the vertical channel of the output predictor tracks the filter (ekf.cpp l.436-443, 472-500) *)
From Coq Require Import Reals Lra Lia PeanoNat List Psatz.
From Verif Require Import CBase Scalar RingBufferModel RingBufferSpec RingBufferProofs OutputModel OutputProofs OutputHist OutputTrack.
Import ListNotations.
Open Scope R_scope.

(** ** The recursion x' = y + p, y' = al y - be x + q *)
Section Rec.
Variables (al be : R).
Hypothesis Hb : -1 < be < 1.
Hypothesis Ha : Rabs al < 1 + be.
Definition V (x y : R) : R := (1 + be) * (x * x + y * y) - 2 * al * x * y.
Let m := 1 + be - Rabs al.
Let N (x y : R) := x * x + y * y.
Lemma m_pos : 0 < m. Proof. unfold m. lra. Qed.
Lemma N_pos x y : 0 <= N x y. Proof. unfold N. nra. Qed.
Lemma xy_le x y : Rabs (2 * x * y) <= N x y.
Proof. unfold N. pose proof (Rle_0_sqr (x + y)) as A. pose proof (Rle_0_sqr (x - y)) as B. unfold Rsqr in A, B. apply Rabs_le. lra. Qed.
Lemma axy_le x y : Rabs (2 * al * x * y) <= Rabs al * N x y.
Proof. replace (2 * al * x * y) with (al * (2 * x * y)) by ring. rewrite Rabs_mult. apply Rmult_le_compat_l; [apply Rabs_pos|apply xy_le]. Qed.
Lemma V_low x y : m * N x y <= V x y.
Proof. pose proof (axy_le x y) as H. pose proof (Rle_abs (2 * al * x * y)). unfold m, V. fold (N x y). lra. Qed.
Lemma V_up x y : V x y <= 2 * (1 + be) * N x y.
Proof.
  pose proof (axy_le x y) as H. pose proof (Rle_abs (- (2 * al * x * y))) as H1. rewrite Rabs_Ropp in H1. pose proof (N_pos x y).
  unfold V. fold (N x y). assert (Rabs al * N x y <= (1 + be) * N x y) by (apply Rmult_le_compat_r; lra). lra.
Qed.
Lemma V_pos x y : 0 <= V x y. Proof. pose proof (V_low x y). pose proof (N_pos x y). pose proof m_pos. assert (0 <= m * N x y) by (apply Rmult_le_pos; lra). lra. Qed.
Lemma V_step x y : V y (al * y - be * x) = V x y - (1 - be) * (al * y - (1 + be) * x) ^ 2.
Proof. unfold V. ring. Qed.
Definition eta : R := (1 - be) * (m * m) / ((3 + 2 * (al * al)) * (2 * (1 + be))).
Lemma eta_pos : 0 < eta.
Proof. unfold eta. pose proof m_pos. apply Rmult_lt_0_compat; [apply Rmult_lt_0_compat; [lra|nra]|]. apply Rinv_0_lt_compat. apply Rmult_lt_0_compat; nra. Qed.
Lemma eta_le : eta <= 1.
Proof.
  unfold eta. pose proof m_pos. assert (M1 : m <= 1 + be) by (unfold m; pose proof (Rabs_pos al); lra).
  assert (D : 0 < (3 + 2 * (al * al)) * (2 * (1 + be))) by (apply Rmult_lt_0_compat; nra).
  apply (Rmult_le_reg_r _ _ _ D). unfold Rdiv. rewrite Rmult_assoc, Rinv_l by lra. rewrite Rmult_1_r, Rmult_1_l.
  assert (m * m <= (1 + be) * (1 + be)) by (apply Rmult_le_compat; lra).
  apply Rle_trans with ((1 - be) * ((1 + be) * (1 + be))); [apply Rmult_le_compat_l; lra|].
  assert (0 <= al * al) by nra. assert (0 <= (al * al) * (1 + be)) by (apply Rmult_le_pos; lra).
  assert ((1 - be) * (1 + be) <= 1) by nra. assert ((1 - be) * (1 + be) * (1 + be) <= 1 * (1 + be)) by (apply Rmult_le_compat_r; lra). lra.
Qed.
Lemma V_two x y : let y1 := al * y - be * x in V y1 (al * y1 - be * y) <= (1 - eta) * V x y.
Proof.
  intros y1. rewrite V_step. unfold y1 at 1. rewrite V_step. set (d0 := al * y - (1 + be) * x). set (d1 := al * y1 - (1 + be) * y).
  assert (E : d1 - al * d0 = al * x - (1 + be) * y) by (unfold d1, d0, y1; ring).
  assert (L : m * m * N x y <= d0 * d0 + (d1 - al * d0) * (d1 - al * d0)).
  { rewrite E. unfold d0. replace ((al * y - (1 + be) * x) * (al * y - (1 + be) * x) + (al * x - (1 + be) * y) * (al * x - (1 + be) * y))
      with ((al * al + (1 + be) * (1 + be)) * N x y - 2 * (1 + be) * (2 * al * x * y)) by (unfold N; ring).
    pose proof (axy_le x y) as H. pose proof (Rle_abs (2 * al * x * y)) as H1.
    assert (H2 : 2 * (1 + be) * (2 * al * x * y) <= 2 * (1 + be) * (Rabs al * N x y)) by (apply Rmult_le_compat_l; lra).
    assert (SQ : al * al = Rabs al * Rabs al) by (unfold Rabs; destruct (Rcase_abs al); ring). rewrite SQ. unfold m. replace ((1 + be - Rabs al) * (1 + be - Rabs al) * N x y) with ((Rabs al * Rabs al + (1 + be) * (1 + be)) * N x y - 2 * (1 + be) * (Rabs al * N x y)) by ring. lra. }
  assert (U : d0 * d0 + (d1 - al * d0) * (d1 - al * d0) <= (3 + 2 * (al * al)) * (d0 * d0 + d1 * d1)).
  { assert (T : (d1 - al * d0) * (d1 - al * d0) <= 2 * (d1 * d1) + 2 * (al * al) * (d0 * d0)).
    { pose proof (Rle_0_sqr (d1 + al * d0)) as Z. unfold Rsqr in Z. lra. }
    assert (0 <= d0 * d0) by nra. assert (0 <= d1 * d1) by nra. assert (0 <= al * al * (d1 * d1)) by (apply Rmult_le_pos; [nra|lra]). nra. }
  assert (W : eta * V x y <= (1 - be) * (d0 * d0 + d1 * d1)).
  { pose proof (V_up x y) as VU. apply Rle_trans with (eta * (2 * (1 + be) * N x y)); [apply Rmult_le_compat_l; [pose proof eta_pos; lra|exact VU]|].
    replace (eta * (2 * (1 + be) * N x y)) with ((1 - be) * (m * m * N x y / (3 + 2 * (al * al)))).
    2: { unfold eta. field. split; [lra|nra]. }
    apply Rmult_le_compat_l; [lra|]. apply (Rmult_le_reg_r (3 + 2 * (al * al))); [nra|]. unfold Rdiv. rewrite Rmult_assoc, Rinv_l by nra. lra. }
  replace (d0 ^ 2) with (d0 * d0) by ring. replace (d1 ^ 2) with (d1 * d1) by ring. lra.
Qed.
(** the quadratic form of a sum *)
Lemma V_sum e x y p q : 0 < e -> V (x + p) (y + q) <= (1 + e) * V x y + (1 + / e) * V p q.
Proof.
  intros He. assert (P : 0 <= V (e * x - p) (e * y - q)) by apply V_pos.
  assert (E : V (e * x - p) (e * y - q) = e * e * V x y + V p q - e * (V (x + p) (y + q) - V x y - V p q)) by (unfold V; ring). rewrite E in P.
  apply (Rmult_le_reg_l e); [exact He|]. replace (e * ((1 + e) * V x y + (1 + / e) * V p q)) with (e * V x y + e * e * V x y + e * V p q + V p q) by (field; lra). lra.
Qed.
Definition decay : R := 1 - eta / 2.
Lemma decay_range : 1 / 2 <= decay < 1. Proof. unfold decay. pose proof eta_pos. pose proof eta_le. lra. Qed.
Section Seq.
Variables (x y p q : nat -> R) (D : R).
Hypothesis Hx : forall n, x (S n) = y n + p n.
Hypothesis Hy : forall n, y (S n) = al * y n - be * x n + q n.
Hypothesis Hp : forall n, Rabs (p n) <= D.
Hypothesis Hq : forall n, Rabs (q n) <= D.
Definition Kd : R := (1 + 2 / eta) * (2 * (1 + be)) * 50.
Lemma ab : Rabs al < 2 /\ Rabs be < 1. Proof. split; [lra|apply Rabs_def1; lra]. Qed.
Lemma V_two_forced n : V (x (S (S n))) (y (S (S n))) <= decay * V (x n) (y n) + Kd * (D * D).
Proof.
  assert (D0 : 0 <= D) by (pose proof (Hp 0); pose proof (Rabs_pos (p 0)); lra).
  set (y1 := al * y n - be * x n).
  assert (EX : x (S (S n)) = y1 + (q n + p (S n))) by (rewrite Hx, Hy; unfold y1; ring).
  assert (EY : y (S (S n)) = (al * y1 - be * y n) + (al * q n - be * p n + q (S n))) by (rewrite Hy, Hy, Hx; unfold y1; ring).
  rewrite EX, EY. pose proof eta_pos as EP. pose proof eta_le as EL.
  eapply Rle_trans; [apply (V_sum (eta / 2)); lra|]. destruct ab as [A B].
  pose proof (V_two (x n) (y n)) as T. cbv zeta in T. fold y1 in T. set (T0 := V y1 _) in *. set (V0 := V (x n) (y n)) in *.
  assert (V0p : 0 <= V0) by apply V_pos.
  assert (S1 : (1 + eta / 2) * T0 <= decay * V0).
  { apply Rle_trans with ((1 + eta / 2) * ((1 - eta) * V0)); [apply Rmult_le_compat_l; lra|]. rewrite <- Rmult_assoc. apply Rmult_le_compat_r; [exact V0p|]. unfold decay. nra. }
  assert (S2 : (1 + / (eta / 2)) * V (q n + p (S n)) (al * q n - be * p n + q (S n)) <= Kd * (D * D)).
  { unfold Kd. replace (/ (eta / 2)) with (2 / eta) by (field; lra). rewrite !Rmult_assoc. apply Rmult_le_compat_l.
    { assert (0 < 2 / eta) by (apply Rmult_lt_0_compat; [lra|apply Rinv_0_lt_compat; lra]). lra. }
    eapply Rle_trans; [apply V_up|]. rewrite Rmult_assoc. apply Rmult_le_compat_l; [lra|]. apply Rmult_le_compat_l; [lra|].
    assert (P1 : Rabs (q n + p (S n)) <= 2 * D) by (eapply Rle_trans; [apply Rabs_triang|]; pose proof (Hq n); pose proof (Hp (S n)); lra).
    assert (P2 : Rabs (al * q n - be * p n + q (S n)) <= 4 * D).
    { eapply Rle_trans; [apply Rabs_triang|]. pose proof (Hq (S n)). assert (Rabs (al * q n - be * p n) <= 3 * D); [|lra].
      unfold Rminus. eapply Rle_trans; [apply Rabs_triang|]. rewrite Rabs_Ropp, !Rabs_mult. pose proof (Hq n). pose proof (Hp n).
      pose proof (Rabs_pos (q n)). pose proof (Rabs_pos (p n)). pose proof (Rabs_pos al). pose proof (Rabs_pos be).
      assert (Rabs al * Rabs (q n) <= 2 * D) by (apply Rmult_le_compat; lra). assert (Rabs be * Rabs (p n) <= 1 * D) by (apply Rmult_le_compat; lra). lra. }
    assert (SQ : forall z c, 0 <= c -> Rabs z <= c -> z * z <= c * c).
    { intros z c C H. replace (z * z) with (Rabs z * Rabs z) by (unfold Rabs; destruct (Rcase_abs z); ring). apply Rmult_le_compat; try apply Rabs_pos; exact H. }
    unfold N. pose proof (SQ _ (2 * D) ltac:(lra) P1). pose proof (SQ _ (4 * D) ltac:(lra) P2). nra. }
  lra.
Qed.
Lemma V_bound : exists C, 0 <= C /\ forall n, V (x n) (y n) <= C * sqrt decay ^ n + Kd / (1 - decay) * (D * D).
Proof.
  destruct decay_range as [R1 R2]. set (s := sqrt decay). assert (S0 : 0 < s) by (apply sqrt_lt_R0; lra).
  assert (SS : s * s = decay) by (apply sqrt_sqrt; lra).
  set (K := Kd / (1 - decay) * (D * D)). assert (KE : decay * K + Kd * (D * D) = K) by (unfold K; field; lra).
  set (C := V (x 0%nat) (y 0%nat) + V (x 1%nat) (y 1%nat) / s).
  pose proof (V_pos (x 0%nat) (y 0%nat)) as P0. pose proof (V_pos (x 1%nat) (y 1%nat)) as P1.
  assert (Q1 : 0 <= V (x 1%nat) (y 1%nat) / s) by (apply Rmult_le_pos; [exact P1|left; apply Rinv_0_lt_compat; exact S0]).
  assert (K0 : 0 <= K).
  { unfold K, Kd. pose proof eta_pos. apply Rmult_le_pos; [|nra]. apply Rmult_le_pos; [|left; apply Rinv_0_lt_compat; lra].
    apply Rmult_le_pos; [|lra]. apply Rmult_le_pos; [|lra]. assert (0 < 2 / eta) by (apply Rmult_lt_0_compat; [lra|apply Rinv_0_lt_compat; lra]). lra. }
  exists C. split; [unfold C; lra|].
  assert (G : forall n, V (x n) (y n) <= C * s ^ n + K /\ V (x (S n)) (y (S n)) <= C * s ^ (S n) + K).
  { induction n as [|n [I1 I2]].
    - split; [simpl; unfold C; lra|]. simpl. rewrite Rmult_1_r. unfold C. rewrite Rmult_plus_distr_r. unfold Rdiv. rewrite Rmult_assoc, Rinv_l by lra.
      assert (0 <= V (x 0%nat) (y 0%nat) * s) by (apply Rmult_le_pos; lra). lra.
    - split; [exact I2|]. eapply Rle_trans; [apply V_two_forced|]. replace (C * s ^ S (S n)) with (decay * (C * s ^ n)) by (rewrite <- SS; simpl; ring).
      assert (decay * V (x n) (y n) <= decay * (C * s ^ n + K)) by (apply Rmult_le_compat_l; lra). lra. }
  intros n. apply G.
Qed.
End Seq.
Lemma N_bound_V x0 y0 : x0 * x0 + y0 * y0 <= V x0 y0 / (1 + be - Rabs al).
Proof.
  pose proof (V_low x0 y0) as H. pose proof m_pos. fold m. apply (Rmult_le_reg_l m); [lra|]. unfold Rdiv. replace (m * (V x0 y0 * / m)) with (V x0 y0) by (field; lra). exact H.
Qed.
End Rec.

(** ** The tracking loop: errors a (velocity) and b (position) at the horizon, correction c = g b + h a *)
Lemma pd_loop g h dl : 0 < dl <= 1 -> 0 < g <= 1 -> 0 < h <= 11 / 10 -> exists r K, 0 <= r < 1 /\ 0 <= K /\
  forall (a b w u : nat -> R) W U,
  (forall n, let c := g * b n + h * a n in a (S n) = a n - c + w n /\ b (S n) = b n + dl * (a n - c + a (S n)) / 2 + u n) ->
  (forall n, Rabs (w n) <= W) -> (forall n, Rabs (u n) <= U) ->
  exists C, 0 <= C /\ forall n, a n * a n + b n * b n <= C * r ^ n + K * ((W + U) * (W + U)).
Proof.
  intros Hd Hg Hh. set (be := 1 - h). set (al := 2 - h - dl * g).
  assert (DG : 0 < dl * g <= 1) by (split; nra).
  assert (Hb : -1 < be < 1) by (unfold be; lra). assert (Ha : Rabs al < 1 + be) by (apply Rabs_def1; unfold al, be; lra).
  set (m := 1 + be - Rabs al). assert (Hm : 0 < m) by (unfold m; lra).
  pose proof (decay_range al be Hb Ha) as [R1 R2]. set (d := decay al be) in *.
  set (F := (2 / (dl * dl) + 1) / m). assert (dd : 0 < dl * dl) by nra.
  assert (F0 : 0 < F). { unfold F. apply Rmult_lt_0_compat; [|apply Rinv_0_lt_compat; exact Hm]. assert (0 < 2 / (dl * dl)) by (apply Rmult_lt_0_compat; [lra|apply Rinv_0_lt_compat; exact dd]). lra. }
  pose proof (eta_pos al be Hb Ha) as EP.
  assert (K0 : 0 <= Kd al be / (1 - d)).
  { apply Rmult_le_pos; [|left; apply Rinv_0_lt_compat; lra]. unfold Kd. apply Rmult_le_pos; [|lra]. apply Rmult_le_pos; [|lra].
    assert (0 < 2 / eta al be) by (apply Rmult_lt_0_compat; [lra|apply Rinv_0_lt_compat; lra]). lra. }
  exists (sqrt d), (F * (Kd al be / (1 - d))). split. { split; [apply sqrt_pos|]. rewrite <- sqrt_1. apply sqrt_lt_1; lra. }
  split; [apply Rmult_le_pos; lra|]. intros a b w u W U H HW HU.
  set (x := fun n => b n - dl * a n). set (y := b).
  set (p := fun n => u n - dl * w n / 2). set (q := fun n => u n + dl * w n / 2).
  assert (PB : forall n, Rabs (dl * w n / 2) <= W).
  { intros n. unfold Rdiv. rewrite !Rabs_mult. rewrite (Rabs_right dl) by lra. rewrite (Rabs_right (/ 2)) by lra. pose proof (HW n). pose proof (Rabs_pos (w n)). nra. }
  destruct (V_bound al be Hb Ha x y p q (W + U)) as (C & C0 & HC).
  - intros n. destruct (H n) as [E1 E2]. unfold x, y, p. rewrite E2, E1. field.
  - intros n. destruct (H n) as [E1 E2]. unfold x, y, q. rewrite E2, E1. unfold al, be. field.
  - intros n. unfold p, Rminus. eapply Rle_trans; [apply Rabs_triang|]. rewrite Rabs_Ropp. pose proof (PB n). pose proof (HU n). lra.
  - intros n. unfold q. eapply Rle_trans; [apply Rabs_triang|]. pose proof (PB n). pose proof (HU n). lra.
  - exists (F * C). split; [apply Rmult_le_pos; lra|]. intros n. specialize (HC n).
    pose proof (N_bound_V al be Ha (x n) (y n)) as HN. fold m in HN.
    assert (A : a n = (y n - x n) / dl) by (unfold x, y; field; lra).
    assert (B : a n * a n + b n * b n <= (2 / (dl * dl) + 1) * (x n * x n + y n * y n)).
    { rewrite A. change (b n) with (y n). replace ((y n - x n) / dl * ((y n - x n) / dl)) with ((y n - x n) * (y n - x n) / (dl * dl)) by (field; lra).
      assert (((y n - x n) * (y n - x n)) / (dl * dl) <= 2 * (x n * x n + y n * y n) / (dl * dl)).
      { apply Rmult_le_compat_r; [left; apply Rinv_0_lt_compat; exact dd|]. pose proof (Rle_0_sqr (x n + y n)) as Z. unfold Rsqr in Z. lra. }
      assert (0 <= x n * x n) by nra. replace ((2 / (dl * dl) + 1) * (x n * x n + y n * y n)) with (2 * (x n * x n + y n * y n) / (dl * dl) + (x n * x n + y n * y n)) by (field; lra). lra. }
    eapply Rle_trans; [exact B|]. replace (F * C * sqrt d ^ n + F * (Kd al be / (1 - d)) * ((W + U) * (W + U))) with (F * (C * sqrt d ^ n + Kd al be / (1 - d) * ((W + U) * (W + U)))) by ring.
    unfold F, Rdiv at 2. rewrite Rmult_assoc. apply Rmult_le_compat_l.
    { assert (0 < 2 / (dl * dl)) by (apply Rmult_lt_0_compat; [lra|apply Rinv_0_lt_compat; exact dd]). lra. }
    eapply Rle_trans; [exact HN|]. unfold Rdiv at 1. rewrite Rmult_comm. apply Rmult_le_compat_l; [left; apply Rinv_0_lt_compat; exact Hm|]. exact HC.
Qed.

(** ** The channel itself *)
Open Scope nat_scope.
Section Chan.
Variable expq : Vec R -> Vec R.
Notation zw := (zero_vert (T := R)).
Notation zo := (zero_out (T := R)).
(** stored vertical outputs, oldest first, when the update of this step looks at them *)
Definition past (i : imuin R) (s : ost R) : list (sample (overt R)) := rev (vhist (stored expq i s)).
Definition first_of (l : list (sample (overt R))) : overt R := payload (nth 0 l (zero_sample zw)).
Definition second_of (l : list (sample (overt R))) : overt R := payload (nth 1 l (zero_sample zw)).
Definition vert_vel_err (i : imuin R) (s : ost R) : R := (e_v s 2%nat - vv (first_of (past i s)))%R.
Definition vert_pos_err (i : imuin R) (s : ost R) : R := (e_p s 2%nat - vi (first_of (past i s)))%R.
(** the vertical history is full, all stored intervals are dl and no interval is pending *)
Definition full (dl : R) (s : ost R) : Prop := length (vhist s) = size (w_buf s) /\ Forall (fun x => vdt (payload x) = dl) (vhist s) /\ vdt (payload (w_new s)) = 0%R.

Lemma oldest_first (b : ring (overt R)) : Inv zw b -> first_write b = false -> nth 0 (rev (contents zw b)) (zero_sample zw) = get_oldest zw b.
Proof.
  intros HI F. pose proof (oldest_last zw b HI F) as H. rewrite rev_nth by (rewrite contents_len; unfold len; rewrite F; destruct (tail b <=? head b); lia).
  rewrite contents_len. apply nth_error_nth. exact H.
Qed.
Lemma vchain_dt corr dl l : forall p, Forall (fun x => vdt (payload x) = dl) l -> Forall (fun x : sample (overt R) => vdt (payload x) = dl) (vert_chain corr p l).
Proof. induction l as [|x l IH]; intros p H; cbn [vert_chain]; [constructor|]. inversion H; subst. constructor; [reflexivity|]. apply IH. assumption. Qed.
Lemma vspec_dt corr dl l : Forall (fun x => vdt (payload x) = dl) l -> Forall (fun x : sample (overt R) => vdt (payload x) = dl) (vert_spec corr l).
Proof. destruct l as [|x l]; intros H; cbn [vert_spec]; [constructor|]. inversion H; subst. constructor; [reflexivity|]. apply vchain_dt. assumption. Qed.
Lemma rev_firstn_all {A} (x : A) l n : length l = n -> rev (firstn n (x :: l)) = tl (rev l ++ [x]).
Proof.
  intros H. pose proof (skipn_rev 1 (x :: l)) as E. cbn [length] in E. rewrite H in E. replace (Datatypes.S n - 1) with n in E by lia. rewrite <- E. cbn [rev].
  destruct (rev l ++ [x]) as [|a r]; reflexivity.
Qed.
Lemma past_full i s g dl : oinv s g -> full dl s -> i_dvdt i = dl ->
  past i s = tl (rev (vhist s) ++ [w_new (propagate expq i s)]) /\ length (past i s) = size (w_buf s) /\ Forall (fun x => vdt (payload x) = dl) (past i s).
Proof.
  intros HI (F1 & F2 & F3) D.
  assert (P : past i s = tl (rev (vhist s) ++ [w_new (propagate expq i s)])).
  { unfold past, stored, vhist, pushBoth. cbn [setVert setOut w_buf]. rewrite (contents_push zw) by exact (oi_wbuf _ _ HI). unfold q_push.
    change (w_buf (propagate expq i s)) with (w_buf s). apply rev_firstn_all. exact F1. }
  split; [exact P|]. split.
  - rewrite P. pose proof (oi_size _ _ HI). rewrite <- F1 in *. rewrite <- (rev_length (vhist s)) in *. destruct (rev (vhist s)) as [|a r]; cbn [length] in *; [lia|]. cbn [app tl]. rewrite app_length. cbn [length]. lia.
  - rewrite P. assert (A : Forall (fun x => vdt (payload x) = dl) (rev (vhist s) ++ [w_new (propagate expq i s)])).
    { apply Forall_app. split; [apply Forall_rev; exact F2|]. constructor; [|constructor]. cbn [propagate w_new payload vdt sadd RScalar]. rewrite F3, D. lra. }
    destruct (rev (vhist s) ++ _); [constructor|]. cbn [tl]. inversion A; assumption.
Qed.
Definition corr_of (i : imuin R) (s : ost R) : R :=
  (vert_pos_err i s * gain i (i_posTau i) + vert_vel_err i s * gain i (i_velTau i) * (11 / 10))%R.
Lemma step_vert i s g : oinv s g -> op_time_ok (OStep i) -> i_updated i = true ->
  rev (vhist (calculateOutputStates expq i s)) = vert_spec (corr_of i s) (past i s) /\ vdt (payload (w_new (calculateOutputStates expq i s))) = 0%R /\
  size (w_buf (calculateOutputStates expq i s)) = size (w_buf s).
Proof.
  intros HI HT HU. pose proof (oinv_push _ _ (oinv_propagate expq i s g HI) HT) as HP. fold (stored expq i s) in HP.
  assert (FW : first_write (w_buf (stored expq i s)) = false) by apply push_fw.
  unfold calculateOutputStates. rewrite HU. unfold observe. fold (pushBoth (propagate expq i s)). fold (stored expq i s).
  set (c := sadd _ _).
  assert (C : c = corr_of i s).
  { unfold c, corr_of, vert_pos_err, vert_vel_err, first_of, past, vhist. rewrite (oldest_first _ (oi_wbuf _ _ HP) FW).
    change (e_p (stored expq i s)) with (e_p s). change (e_v (stored expq i s)) with (e_v s). cbn [sadd smul ssub slit RScalar]. reflexivity. }
  rewrite <- C. clearbody c. unfold vhist at 1. cbn [w_buf w_new applyCorrection setOut applyVertCorrection setVert].
  split; [apply contents_vertBuf; [exact (oi_wbuf _ _ HP)|exact (oi_size _ _ HP)]|]. split.
  - cbn [payload vdt]. unfold szero. cbn [slit RScalar]. lra.
  - cbn [vertBuf size]. unfold stored, pushBoth. cbn [setVert setOut w_buf]. rewrite push_size. reflexivity.
Qed.
Lemma step_full i s g dl : oinv s g -> op_time_ok (OStep i) -> i_updated i = true -> i_dvdt i = dl -> full dl s -> full dl (calculateOutputStates expq i s).
Proof.
  intros HI HT HU D F. destruct (past_full i s g dl HI F D) as (_ & P2 & P3). destruct (step_vert i s g HI HT HU) as (A & B & C).
  split; [|split; [|exact B]].
  - rewrite C, <- P2, <- rev_length, A. apply vert_spec_length.
  - rewrite <- (rev_involutive (vhist _)), A. apply Forall_rev, vspec_dt. exact P3.
Qed.

Variable imu : nat -> imuin R.
Variables eq ev ep eab evb : nat -> Vec R.
Variables (s0 : ost R) (g0 : ledger) (dl : R).
Hypothesis H0 : oinv s0 g0.
Hypothesis HT : forall n, op_time_ok (OStep (imu n)).
Hypothesis HU : forall n, i_updated (imu n) = true.
Hypothesis HD : forall n, i_dvdt (imu n) = dl.
Hypothesis HF : full dl s0.
Notation sts := (st expq imu eq ev ep eab evb s0).
Lemma st_full n : full dl (sts n).
Proof.
  induction n as [|n IH]; [exact HF|]. cbn [st].
  assert (Q : full dl (calculateOutputStates expq (imu n) (sts n))).
  { apply (step_full _ _ (led expq imu eq ev ep eab evb s0 g0 n)); auto. apply st_inv; assumption. }
  exact Q.
Qed.
(** the filter's vertical velocity change minus the one stored at the horizon, and the filter's vertical position change minus the
    trapezoidal integral of its velocity *)
Definition vert_vel_mismatch (n : nat) : R := ((e_v (sts (S n)) 2%nat - e_v (sts n) 2%nat) - (vv (second_of (past (imu n) (sts n))) - vv (first_of (past (imu n) (sts n)))))%R.
Definition vert_pos_mismatch (n : nat) : R := ((e_p (sts (S n)) 2%nat - e_p (sts n) 2%nat) - dl * (e_v (sts n) 2%nat + e_v (sts (S n)) 2%nat) / 2)%R.
Definition Va (n : nat) : R := vert_vel_err (imu n) (sts n).
Definition Vb (n : nat) : R := vert_pos_err (imu n) (sts n).
Lemma vert_recursion n : let c := (gain (imu n) (i_posTau (imu n)) * Vb n + gain (imu n) (i_velTau (imu n)) * (11 / 10) * Va n)%R in
  (Va (S n) = Va n - c + vert_vel_mismatch n)%R /\ (Vb (S n) = Vb n + dl * (Va n - c + Va (S n)) / 2 + vert_pos_mismatch n)%R.
Proof.
  intros c. pose proof (st_inv expq imu eq ev ep eab evb s0 g0 H0 HT n) as I1. pose proof (st_inv expq imu eq ev ep eab evb s0 g0 H0 HT (S n)) as I2.
  pose proof (st_full n) as F1. pose proof (st_full (S n)) as F2.
  destruct (past_full (imu n) _ _ dl I1 F1 (HD n)) as (_ & L1 & D1). destruct (past_full (imu (S n)) _ _ dl I2 F2 (HD (S n))) as (P2 & _ & _).
  destruct (step_vert (imu n) _ _ I1 (HT n) (HU n)) as (A & _ & _).
  assert (AV : rev (vhist (sts (S n))) = vert_spec (corr_of (imu n) (sts n)) (past (imu n) (sts n))) by exact A.
  assert (CC : corr_of (imu n) (sts n) = c) by (unfold corr_of, c, Va, Vb; ring). rewrite CC in AV. rewrite AV in P2.
  pose proof (oi_size _ _ I1) as SZ. unfold vert_vel_mismatch, vert_pos_mismatch, Va, Vb, vert_vel_err, vert_pos_err in *. 
  rewrite P2. destruct (past (imu n) (sts n)) as [|x1 [|x2 r]]; cbn [length] in L1; [lia|lia|].
  cbn [vert_spec vert_chain app tl first_of second_of nth payload smap addVV vv vi vdt]. inversion D1 as [|? ? Q1 Q2]. inversion Q2 as [|? ? Q3 Q4].
  unfold first_of, second_of. cbn [nth payload vv vi vdt]. unfold smap, addVV. cbn [payload vv vi vdt]. rewrite Q3. cbn [sadd smul slit RScalar]. split; lra.
Qed.
End Chan.

(** * At-rest detection over histories (2) *)
From Coq Require Import Lra Psatz.
From Verif Require Import CBase F32 F32More F32Err InterfaceModel InterfaceSpec VibeModel VibeProofs VibeProofs2.
Open Scope R_scope.

(** a history of samples with components up to 100 and time stamps that do not run backwards *)
Fixpoint sane_hist (t0 : Z) (l : list (bool * imuf)) : Prop :=
  match l with
  | [] => True
  | (_, u) :: r => okv (im_da u) /\ okv (im_dv u) /\ (t0 <= im_t u < 2 ^ 64)%Z /\ sane_hist (im_t u) r
  end.

(** on the ground, sampled every 0.5 to 20 ms: jitter at most 90 % and angular rate at most 98 % of the thresholds *)
Fixpoint quiet (s : R) (prev : imuf) (l : list imuf) : Prop :=
  match l with
  | [] => True
  | u :: r => okv (im_da u) /\ okv (im_dv u) /\ (500 <= im_t u - im_t prev <= 20000)%Z /\ (im_t u < 2 ^ 64)%Z /\
      vdiff (im_da u) (im_da prev) <= 9 / 10 * s / 40000 /\ vdiff (im_dv u) (im_dv prev) <= 9 / 10 * s / 210 /\
      vnorm (im_da u) <= 49 / 1000 * s * (IZR (im_t u - im_t prev) / 1000000) /\ quiet s u r
  end.
(** gyroscope (accelerometer) jitter of at least 110 % of the threshold in every sample *)
Fixpoint shaking (gyro : bool) (s : R) (prev : imuf) (l : list (bool * imuf)) : Prop :=
  match l with
  | [] => True
  | (_, u) :: r => (if gyro then 11 / 10 * s / 40000 <= vdiff (im_da u) (im_da prev) else 11 / 10 * s / 210 <= vdiff (im_dv u) (im_dv prev)) /\ shaking gyro s u r
  end.

Definition inv (s : rest_state) : Prop :=
  (is_finite (r_vib1 s) = true /\ 0 <= R32 (r_vib1 s) <= 401) /\ (is_finite (r_vib2 s) = true /\ 0 <= R32 (r_vib2 s) <= 401) /\
  okv (r_pa s) /\ okv (r_pv s) /\ (0 <= r_move s <= r_imu s)%Z.
Definition fl : R := / 1000000 * / 40.
Lemma metric_step m a b : is_finite m = true -> 0 <= R32 m <= 401 -> okv a -> okv b -> let m' := lowpass m (v3f_norm (v3f_sub a b)) in
  is_finite m' = true /\ 0 <= R32 m' <= 401 /\
  989999 / 1000000 * R32 m + 9999 / 1000000 * (vdiff a b * (1 - 1 / 1000000) - fl) - mini <= R32 m' <=
  990001 / 1000000 * R32 m + 10001 / 1000000 * (vdiff a b * (1 + 1 / 1000000) + fl) + mini.
Proof.
  intros F B A1 A2 m'. destruct (diff_norm a b A1 A2) as (Fn & Pn & Bn). pose proof (vdiff_bound a b A1 A2). fold fl in Bn. assert (FL : 0 < fl < 1 / 10000000) by (unfold fl; lra).
  destruct (lowpass_bounds m _ F Fn ltac:(lra) ltac:(lra)) as (F' & P' & B'). fold m' in F', P', B'. assert (M : 0 < mini < 1 / 10000000) by (unfold mini; lra).
  split; [exact F'|]. split; [split; [exact P'|lra]|]. lra.
Qed.
Lemma okv_zero : okv v3f_zero.
Proof. assert (okf f0) by (split; [reflexivity|rewrite R32_f0, Rabs_R0; lra]). repeat split; try apply H; cbn; lra. Qed.
Lemma inv_init : inv rest_init.
Proof. unfold inv. cbn [rest_init r_vib1 r_vib2 r_pa r_pv r_move r_imu]. rewrite R32_f0. split; [split; [reflexivity|lra]|]. split; [split; [reflexivity|lra]|]. split; [apply okv_zero|]. split; [apply okv_zero|lia]. Qed.
Lemma inv_step sc a u s : inv s -> okv (im_da u) -> okv (im_dv u) -> (r_imu s <= im_t u)%Z -> inv (rest_step sc a u s) /\ r_imu (rest_step sc a u s) = im_t u /\ r_pa (rest_step sc a u s) = im_da u /\ r_pv (rest_step sc a u s) = im_dv u.
Proof.
  intros ((F1 & B1) & (F2 & B2) & P1 & P2 & T) O1 O2 L. unfold rest_step. cbv zeta.
  destruct (check_at_rest _ _ _ _) as [r mv] eqn:C. cbn [r_imu r_pa r_pv]. split; [|auto]. unfold inv. cbn [r_vib1 r_vib2 r_pa r_pv r_move r_imu].
  destruct (metric_step _ _ _ F1 B1 O1 P1) as (G1 & H1 & _). destruct (metric_step _ _ _ F2 B2 O2 P2) as (G2 & H2 & _).
  split; [auto|]. split; [auto|]. split; [exact O1|]. split; [exact O2|].
  unfold check_at_rest in C. destruct (negb a); injection C as _ <-; [destruct (moving_test _ _ _ _ _)|]; lia.
Qed.
Lemma hist_app sc l1 l2 : forall s, rest_hist sc (l1 ++ l2) s = rest_hist sc l2 (rest_hist sc l1 s).
Proof. induction l1 as [|[a u] l1 IH]; intros s; [reflexivity|]. cbn [app rest_hist]. apply IH. Qed.
Lemma sane_app l1 : forall t0 a u l2, sane_hist t0 (l1 ++ (a, u) :: l2) -> sane_hist t0 l1 /\ okv (im_da u) /\ okv (im_dv u) /\ (im_t u < 2 ^ 64)%Z /\ sane_hist (im_t u) l2.
Proof.
  induction l1 as [|[b v] l1 IH]; intros t0 a u l2 H; cbn [app sane_hist] in *.
  - destruct H as (H1 & H2 & H3 & H4). repeat split; auto; lia || apply H1 || apply H2 || idtac.
  - destruct H as (H1 & H2 & H3 & H4). destruct (IH _ _ _ _ H4) as (K1 & K2). split; [|exact K2]. auto.
Qed.
Lemma inv_hist sc l : forall s, inv s -> sane_hist (r_imu s) l -> inv (rest_hist sc l s).
Proof.
  induction l as [|[a u] l IH]; intros s I H; [exact I|]. cbn [rest_hist sane_hist] in *. destruct H as (O1 & O2 & T & H).
  destruct (inv_step sc a u s I O1 O2 ltac:(lia)) as (I' & E & _). apply IH; [exact I'|]. rewrite E. exact H.
Qed.
(** state after a history that ends in [u0] *)
Lemma inv_last sc l0 a0 u0 : sane_hist 0 (l0 ++ [(a0, u0)]) -> let s := rest_hist sc (l0 ++ [(a0, u0)]) rest_init in
  inv s /\ r_imu s = im_t u0 /\ r_pa s = im_da u0 /\ r_pv s = im_dv u0.
Proof.
  intros H s. unfold s. rewrite hist_app. cbn [rest_hist].
  assert (K : forall l t s0, inv s0 -> r_imu s0 = t -> sane_hist t (l ++ [(a0, u0)]) -> inv (rest_hist sc l s0) /\ okv (im_da u0) /\ okv (im_dv u0) /\ (r_imu (rest_hist sc l s0) <= im_t u0)%Z).
  { induction l as [|[a u] l IH]; intros t s0 I E HS; cbn [app sane_hist rest_hist] in *.
    - destruct HS as (O1 & O2 & T & _). rewrite E. repeat split; try apply I; try apply O1; try apply O2; lia.
    - destruct HS as (O1 & O2 & T & HS). destruct (inv_step sc a u s0 I O1 O2 ltac:(lia)) as (I' & E' & _). apply (IH (im_t u)); assumption. }
  destruct (K l0 0%Z rest_init inv_init eq_refl H) as (I & O1 & O2 & L). apply inv_step; assumption.
Qed.

(** ** Quiet *)
Lemma pow_up : (990001 / 1000000) ^ 2100 <= 7 / 10000000000.
Proof.
  replace 2100%nat with (10 * (10 * 21))%nat by lia. rewrite !pow_mult.
  assert (A : 0 <= (990001 / 1000000) ^ 10 <= 9044 / 10000) by (split; [apply pow_le; lra|cbn [pow]; lra]).
  assert (B : 0 <= ((990001 / 1000000) ^ 10) ^ 10 <= 3662 / 10000).
  { split; [apply pow_le; lra|]. eapply Rle_trans; [apply pow_incr; exact A|]. cbn [pow]. lra. }
  eapply Rle_trans; [apply pow_incr; exact B|]. cbn [pow]. lra.
Qed.
Lemma pow_dn : (989999 / 1000000) ^ 400 <= 2 / 100.
Proof.
  replace 400%nat with (10 * (10 * 4))%nat by lia. rewrite !pow_mult.
  assert (A : 0 <= (989999 / 1000000) ^ 10 <= 9044 / 10000) by (split; [apply pow_le; lra|cbn [pow]; lra]).
  assert (B : 0 <= ((989999 / 1000000) ^ 10) ^ 10 <= 3662 / 10000).
  { split; [apply pow_le; lra|]. eapply Rle_trans; [apply pow_incr; exact A|]. cbn [pow]. lra. }
  eapply Rle_trans; [apply pow_incr; exact B|]. cbn [pow]. lra.
Qed.
Definition ceil_of (D : R) : R := 10003 / 10000 * D + 3 / 100000000.
Lemma decay_step m M D a b : is_finite m = true -> 0 <= R32 m <= 401 -> okv a -> okv b -> vdiff a b <= D -> R32 m <= M + ceil_of D ->
  R32 (lowpass m (v3f_norm (v3f_sub a b))) <= 990001 / 1000000 * M + ceil_of D.
Proof.
  intros F B A1 A2 H L. destruct (metric_step m a b F B A1 A2) as (_ & _ & _ & U). pose proof (vdiff_bound a b A1 A2). unfold ceil_of, fl, mini in *. lra.
Qed.
(** nothing exceeds its threshold *)
Definition settled (s : R) (st : rest_state) : Prop := R32 (r_vib1 st) * 40000 <= 97 / 100 * s /\ R32 (r_vib2 st) * 210 <= 97 / 100 * s.
Lemma quiet_not_moving sc u s : scaler_ok sc -> inv s -> okv (im_da u) -> okv (im_dv u) -> (500 <= im_t u - r_imu s <= 20000)%Z -> (im_t u < 2 ^ 64)%Z ->
  vnorm (im_da u) <= 49 / 1000 * R32 sc * (IZR (im_t u - r_imu s) / 1000000) ->
  settled (R32 sc) (rest_step sc false u s) -> r_move (rest_step sc false u s) = r_move s /\ r_rest (rest_step sc false u s) = (sub64 (im_t u) (r_move s) >? 1000000)%Z.
Proof.
  intros SO I O1 O2 T TL V S. destruct (inv_step sc false u s I O1 O2 ltac:(lia)) as (I' & _). revert I' S. unfold rest_step. cbv zeta.
  set (v1 := lowpass (r_vib1 s) _). set (v2 := lowpass (r_vib2 s) _). destruct (check_at_rest _ _ _ _) as [r mv] eqn:C. unfold inv, settled. cbn [r_vib1 r_vib2 r_move r_rest]. intros I' S.
  destruct I' as ((F1 & B1) & (F2 & B2) & _). destruct S as [S1 S2]. pose proof SO as [Fs Bs].
  assert (TI : (0 <= r_imu s)%Z) by (destruct I as (_ & _ & _ & _ & I); lia).
  destruct (rate_test (im_da u) (im_t u) (r_imu s) sc O1 SO TI TL T) as [_ RT]. specialize (RT V).
  destruct (mul_int v1 40000 F1 ltac:(lra) ltac:(lia)) as [G1 K1]. destruct (mul_int v2 210 F2 ltac:(lra) ltac:(lia)) as [G2 K2].
  assert (E : moving_test v1 v2 (v3f_norm (im_da u)) (imu_dt (im_t u) (r_imu s)) sc = false).
  { unfold moving_test. rewrite RT. 
    assert (A1 : fgt (fmul v1 (f_of_Z 40000)) sc = false). { destruct (fgt (fmul v1 (f_of_Z 40000)) sc) eqn:G; [|reflexivity]. exfalso. apply fgt_true in G; [|exact G1|exact Fs]. unfold mini in K1. lra. }
    assert (A2 : fgt (fmul v2 (f_of_Z 210)) sc = false). { destruct (fgt (fmul v2 (f_of_Z 210)) sc) eqn:G; [|reflexivity]. exfalso. apply fgt_true in G; [|exact G2|exact Fs]. unfold mini in K2. lra. }
    rewrite A1, A2. reflexivity. }
  rewrite E in C. unfold check_at_rest in C. cbn [negb] in C. injection C as <- <-. split; reflexivity.
Qed.
(** metrics of at most [M] above the level of the jitter *)
Definition above (s M : R) (st : rest_state) : Prop :=
  R32 (r_vib1 st) <= M + ceil_of (9 / 10 * s / 40000) /\ R32 (r_vib2 st) <= M + ceil_of (9 / 10 * s / 210).
Lemma quiet_run sc l : forall u0 s M, inv s -> r_imu s = im_t u0 -> r_pa s = im_da u0 -> r_pv s = im_dv u0 -> quiet (R32 sc) u0 l -> above (R32 sc) M s ->
  let s' := rest_hist sc (map (pair false) l) s in
  inv s' /\ r_imu s' = im_t (last l u0) /\ r_pa s' = im_da (last l u0) /\ r_pv s' = im_dv (last l u0) /\ above (R32 sc) (M * (990001 / 1000000) ^ length l) s'.
Proof.
  induction l as [|u l IH]; intros u0 s M I E1 E2 E3 Q A; cbn [map rest_hist quiet length] in *.
  - cbn [pow last]. rewrite Rmult_1_r. auto.
  - destruct Q as (O1 & O2 & T & TL & V1 & V2 & V3 & Q). destruct (inv_step sc false u s I O1 O2 ltac:(lia)) as (I' & E1' & E2' & E3').
    assert (A' : above (R32 sc) (990001 / 1000000 * M) (rest_step sc false u s)).
    { destruct I as ((F1 & B1) & (F2 & B2) & P1 & P2 & _). destruct A as [A1 A2]. unfold above, rest_step. cbv zeta. destruct (check_at_rest _ _ _ _) as [r mv]. cbn [r_vib1 r_vib2].
      split; apply decay_step; try assumption; [rewrite E2|rewrite E3]; assumption. }
    specialize (IH u _ _ I' E1' E2' E3' Q A'). cbv zeta in IH. destruct IH as (J1 & J2 & J3 & J4 & J5).
    assert (LL : forall (d : imuf), last (u :: l) d = last l u). { intros d. clear. revert u d. induction l as [|v l IH]; intros u d; [reflexivity|]. change (last (u :: v :: l) d) with (last (v :: l) d). rewrite (IH v d). symmetry. apply (IH v u). }
    rewrite !LL. cbn [pow]. replace (M * (990001 / 1000000 * (990001 / 1000000) ^ length l)) with (990001 / 1000000 * M * (990001 / 1000000) ^ length l) by ring. auto.
Qed.
Lemma above_settled sc M s : scaler_ok sc -> above (R32 sc) M s -> M * 40000 <= 5 / 100 * R32 sc -> settled (R32 sc) s.
Proof. intros [_ B] [A1 A2] H. unfold settled, ceil_of in *. split; lra. Qed.
Lemma quiet_no_move sc l : forall u0 s M, scaler_ok sc -> inv s -> r_imu s = im_t u0 -> r_pa s = im_da u0 -> r_pv s = im_dv u0 -> quiet (R32 sc) u0 l -> above (R32 sc) M s -> 0 <= M -> M * 40000 <= 5 / 100 * R32 sc ->
  r_move (rest_hist sc (map (pair false) l) s) = r_move s.
Proof.
  induction l as [|u l IH]; intros u0 s M SO I E1 E2 E3 Q A M0 HM; cbn [map rest_hist]; [reflexivity|].
  pose proof (quiet_run sc [u] u0 s M I E1 E2 E3) as QR. cbn [quiet] in Q, QR. destruct Q as (O1 & O2 & T & TL & V1 & V2 & V3 & Q).
  destruct QR as (I' & E1' & E2' & E3' & A'); [auto 10|exact A|]. cbn [map rest_hist last length] in *. rewrite pow_1 in A'.
  assert (HM' : M * (990001 / 1000000) * 40000 <= 5 / 100 * R32 sc) by lra.
  rewrite (IH u _ _ SO I' E1' E2' E3' Q A' ltac:(lra) HM').
  apply quiet_not_moving; try assumption; [rewrite E1; exact T|rewrite E1; exact V3|eapply above_settled; eassumption].
Qed.
Lemma quiet_app s l1 : forall u0 l2, quiet s u0 (l1 ++ l2) -> quiet s u0 l1 /\ quiet s (last l1 u0) l2.
Proof.
  induction l1 as [|u l1 IH]; intros u0 l2 H; [split; [exact I|exact H]|].
  assert (LL : last (u :: l1) u0 = last l1 u). { clear. revert u u0. induction l1 as [|v l IH]; intros u d; [reflexivity|]. change (last (u :: v :: l) d) with (last (v :: l) d). rewrite (IH v d). symmetry. apply (IH v u). }
  rewrite LL. cbn [app quiet] in *. destruct H as (A & B & C & D & E & F & G & H). destruct (IH u l2 H). auto 10.
Qed.
Theorem quiet_at_rest sc l0 a0 u0 l1 l2 u : scaler_ok sc -> sane_hist 0 (l0 ++ [(a0, u0)]) -> quiet (R32 sc) u0 (l1 ++ l2 ++ [u]) -> (2100 <= length l1)%nat ->
  (im_t u > im_t (last l1 u0) + 1000000)%Z ->
  r_rest (rest_hist sc ((l0 ++ [(a0, u0)]) ++ map (pair false) (l1 ++ l2 ++ [u])) rest_init) = true.
Proof.
  intros SO H Q N T. rewrite hist_app. destruct (inv_last sc l0 a0 u0 H) as (I & E1 & E2 & E3). set (s := rest_hist sc (l0 ++ [(a0, u0)]) rest_init) in *. clearbody s. clear H.
  destruct (quiet_app _ _ _ _ Q) as [Q1 Q23]. destruct (quiet_app _ _ _ _ Q23) as [Q2 Q3]. pose proof SO as [_ SB].
  assert (A : above (R32 sc) 401 s). { destruct I as ((_ & B1) & (_ & B2) & _). unfold above, ceil_of. split; lra. }
  destruct (quiet_run sc l1 u0 s 401 I E1 E2 E3 Q1 A) as (I1 & F1 & F2 & F3 & A1). rewrite map_app, hist_app. set (s1 := rest_hist sc (map (pair false) l1) s) in *. clearbody s1.
  set (M := 401 * (990001 / 1000000) ^ length l1) in *.
  assert (MB : 0 <= M /\ M * 40000 <= 5 / 100 * R32 sc).
  { assert (P : 0 <= (990001 / 1000000) ^ length l1 <= 7 / 10000000000).
    { split; [apply pow_le; lra|]. eapply Rle_trans; [|apply pow_up]. replace (length l1) with (2100 + (length l1 - 2100))%nat by lia. rewrite pow_add.
      assert (0 <= (990001 / 1000000) ^ (length l1 - 2100) <= 1). { split; [apply pow_le; lra|]. rewrite <- (pow1 (length l1 - 2100)). apply pow_incr. lra. }
      assert (0 <= (990001 / 1000000) ^ 2100) by (apply pow_le; lra). rewrite <- (Rmult_1_r ((990001 / 1000000) ^ 2100)) at 2. apply Rmult_le_compat_l; [assumption|apply H]. }
    unfold M. split; lra. }
  destruct MB as [M0 MB]. clearbody M.
  assert (MV : r_move (rest_hist sc (map (pair false) l2) s1) = r_move s1) by (eapply quiet_no_move; eassumption).
  destruct (quiet_run sc l2 _ s1 M I1 F1 F2 F3 Q2 A1) as (I2 & G1 & G2 & G3 & A2). rewrite map_app, hist_app. set (s2 := rest_hist sc (map (pair false) l2) s1) in *. clearbody s2.
  set (M' := M * _) in A2. assert (MB' : 0 <= M' /\ M' * 40000 <= 5 / 100 * R32 sc).
  { assert (0 <= (990001 / 1000000) ^ length l2 <= 1). { split; [apply pow_le; lra|]. rewrite <- (pow1 (length l2)). apply pow_incr. lra. } unfold M'. split; nra. }
  clearbody M'. destruct MB' as [M0' MB']. destruct (quiet_run sc [u] _ s2 M' I2 G1 G2 G3 Q3 A2) as (_ & _ & _ & _ & A3). cbn [map rest_hist length pow] in *.
  destruct Q3 as (O1 & O2 & TT & TL & V1 & V2 & V3 & _). destruct (quiet_not_moving sc u s2) as [_ R]; try assumption; [rewrite G1; exact TT|rewrite G1; exact V3|eapply above_settled; [exact SO|exact A3|lra]|].
  rewrite R, MV. destruct I1 as (_ & _ & _ & _ & IM). rewrite F1 in IM. rewrite sub64_le by lia. lia.
Qed.
(** ** Rotation *)
Lemma moved_not_rest sc l : forall s t, inv s -> sane_hist (r_imu s) l -> (r_move s = t)%Z -> r_rest s = false -> Forall (fun x => (im_t (snd x) <= t + 1000000)%Z) l -> (t < 2 ^ 64)%Z ->
  r_rest (rest_hist sc l s) = false.
Proof.
  intros s t I H M R HF TB. assert (G : forall s, inv s -> sane_hist (r_imu s) l -> (t <= r_move s)%Z -> r_rest s = false -> r_rest (rest_hist sc l s) = false); [|apply G; try assumption; lia].
  clear s I H M R. induction l as [|[a u] l IH]; intros s I H M R; [exact R|]. cbn [rest_hist sane_hist] in *. destruct H as (O1 & O2 & T & H). inversion HF as [|? ? K1 K2]; subst. cbn [snd] in K1.
  destruct (inv_step sc a u s I O1 O2 ltac:(lia)) as (I' & E & _). apply IH; auto; [rewrite E; exact H| |].
  - destruct I as (_ & _ & _ & _ & IM). unfold rest_step. cbv zeta. unfold check_at_rest. destruct a; cbn [negb]; [|destruct (moving_test _ _ _ _ _)]; cbn [r_move]; lia.
  - destruct I as (_ & _ & _ & _ & IM). unfold rest_step. cbv zeta. unfold check_at_rest. destruct a; cbn [negb]; [|destruct (moving_test _ _ _ _ _)]; cbn [r_rest]; [reflexivity| |];
      rewrite sub64_le by lia; lia.
Qed.
Theorem rotation_not_rest sc l0 a0 u0 a u l : scaler_ok sc -> sane_hist 0 ((l0 ++ [(a0, u0)]) ++ (a, u) :: l) ->
  (500 <= im_t u - im_t u0 <= 20000)%Z -> 51 / 1000 * R32 sc * (IZR (im_t u - im_t u0) / 1000000) <= vnorm (im_da u) ->
  Forall (fun x => (im_t (snd x) <= im_t u + 1000000)%Z) l ->
  r_rest (rest_hist sc ((l0 ++ [(a0, u0)]) ++ (a, u) :: l) rest_init) = false.
Proof.
  intros SO H T V HF. destruct (sane_app _ _ _ _ _ H) as (H0 & O1 & O2 & TL & H1). destruct (inv_last sc l0 a0 u0 H0) as (I & E1 & E2 & E3).
  rewrite hist_app. set (s := rest_hist sc (l0 ++ [(a0, u0)]) rest_init) in *. clearbody s. cbn [rest_hist].
  destruct (inv_step sc a u s I O1 O2 ltac:(lia)) as (I' & E & _).
  assert (TI : (0 <= im_t u0)%Z) by (destruct I as (_ & _ & _ & _ & I); lia).
  destruct (rate_test (im_da u) (im_t u) (im_t u0) sc O1 SO TI TL T) as [RT _]. specialize (RT V).
  assert (K : r_move (rest_step sc a u s) = im_t u /\ r_rest (rest_step sc a u s) = false).
  { unfold rest_step. cbv zeta. rewrite E1. unfold moving_test. rewrite RT, !Bool.orb_true_r. unfold check_at_rest. destruct a; cbn [negb r_move r_rest]; (split; [reflexivity|]); [reflexivity|]. rewrite sub64_le by lia. lia. }
  destruct K as [K1 K2]. eapply moved_not_rest; try eassumption. rewrite E. exact H1.
Qed.
(** ** Vibration *)
Definition floor_of (D : R) : R := 9997 / 10000 * D - 3 / 100000000.
Lemma rise_step m Q D a b : is_finite m = true -> 0 <= R32 m <= 401 -> okv a -> okv b -> D <= vdiff a b -> 0 <= floor_of D -> 0 <= Q <= 1 -> floor_of D * (1 - Q) <= R32 m ->
  floor_of D * (1 - 989999 / 1000000 * Q) <= R32 (lowpass m (v3f_norm (v3f_sub a b))).
Proof.
  intros F B A1 A2 H P Q0 L. destruct (metric_step m a b F B A1 A2) as (_ & _ & U & _). eapply Rle_trans; [|exact U]. unfold fl, mini. 
  assert (E : floor_of D * (1 - 989999 / 1000000 * Q) = 989999 / 1000000 * (floor_of D * (1 - Q)) + 10001 / 1000000 * floor_of D) by (unfold floor_of; field). rewrite E.
  assert (10001 / 1000000 * floor_of D <= 9999 / 1000000 * (vdiff a b * (1 - 1 / 1000000) - / 1000000 * / 40) - / 100000000000000000000) by (unfold floor_of in *; lra). lra.
Qed.
Definition metric (gyro : bool) (s : rest_state) : R := if gyro then R32 (r_vib1 s) else R32 (r_vib2 s).
Definition jit (gyro : bool) (s : R) : R := if gyro then 11 / 10 * s / 40000 else 11 / 10 * s / 210.
Lemma shake_run gyro sc l : forall u0 s Q, scaler_ok sc -> inv s -> r_imu s = im_t u0 -> r_pa s = im_da u0 -> r_pv s = im_dv u0 -> sane_hist (im_t u0) l -> shaking gyro (R32 sc) u0 l ->
  0 <= Q <= 1 -> floor_of (jit gyro (R32 sc)) * (1 - Q) <= metric gyro s ->
  floor_of (jit gyro (R32 sc)) * (1 - Q * (989999 / 1000000) ^ length l) <= metric gyro (rest_hist sc l s).
Proof.
  induction l as [|[a u] l IH]; intros u0 s Q SO I E1 E2 E3 H S Q0 L; cbn [rest_hist length pow sane_hist shaking] in *; [rewrite Rmult_1_r; exact L|].
  destruct H as (O1 & O2 & T & H). destruct S as [S1 S2]. destruct (inv_step sc a u s I O1 O2 ltac:(lia)) as (I' & E1' & E2' & E3').
  assert (FP : 0 <= floor_of (jit gyro (R32 sc))). { destruct SO as [_ SB]. unfold floor_of, jit. destruct gyro; lra. }
  replace (Q * (989999 / 1000000 * (989999 / 1000000) ^ length l)) with (989999 / 1000000 * Q * (989999 / 1000000) ^ length l) by ring.
  apply (IH u); try assumption; [lra|]. destruct I as ((F1 & B1) & (F2 & B2) & P1 & P2 & _). unfold metric, rest_step. cbv zeta. destruct (check_at_rest _ _ _ _) as [r mv]. cbn [r_vib1 r_vib2].
  destruct gyro; cbn [metric] in L; apply rise_step; try assumption; [rewrite E2|rewrite E3]; exact S1.
Qed.
Theorem vibration_not_rest gyro sc l0 a0 u0 l : scaler_ok sc -> sane_hist 0 (l0 ++ [(a0, u0)]) -> sane_hist (im_t u0) l -> shaking gyro (R32 sc) u0 l -> (400 <= length l)%nat ->
  r_rest (rest_hist sc ((l0 ++ [(a0, u0)]) ++ l) rest_init) = false.
Proof.
  intros SO H HL S N. rewrite hist_app. destruct (inv_last sc l0 a0 u0 H) as (I & E1 & E2 & E3). set (s := rest_hist sc (l0 ++ [(a0, u0)]) rest_init) in *. clearbody s. clear H.
  assert (L0 : floor_of (jit gyro (R32 sc)) * (1 - 1) <= metric gyro s). { rewrite Rminus_eq_0, Rmult_0_r. destruct I as ((_ & B1) & (_ & B2) & _). destruct gyro; cbn [metric]; lra. }
  pose proof (shake_run gyro sc l u0 s 1 SO I E1 E2 E3 HL S ltac:(lra) L0) as R. rewrite Rmult_1_l in R.
  assert (P : 0 <= (989999 / 1000000) ^ length l <= 2 / 100).
  { split; [apply pow_le; lra|]. eapply Rle_trans; [|apply pow_dn]. replace (length l) with (400 + (length l - 400))%nat by lia. rewrite pow_add.
    assert (0 <= (989999 / 1000000) ^ (length l - 400) <= 1). { split; [apply pow_le; lra|]. rewrite <- (pow1 (length l - 400)). apply pow_incr. lra. }
    assert (0 <= (989999 / 1000000) ^ 400) by (apply pow_le; lra). rewrite <- (Rmult_1_r ((989999 / 1000000) ^ 400)) at 2. apply Rmult_le_compat_l; [assumption|apply H]. }
  set (q := (989999 / 1000000) ^ length l) in *. clearbody q.
  assert (FP : 0 <= floor_of (jit gyro (R32 sc))). { destruct SO as [_ SB]. unfold floor_of, jit. destruct gyro; lra. }
  assert (R' : 98 / 100 * floor_of (jit gyro (R32 sc)) <= metric gyro (rest_hist sc l s)) by nra. clear R L0 P.
  destruct (exists_last (l := l)) as (l' & [a u] & EL); [intros E; rewrite E in N; cbn [length] in N; lia|]. subst l. rewrite hist_app in *. cbn [rest_hist] in *.
  assert (I2 : inv (rest_hist sc l' s)). { apply inv_hist; [exact I|]. rewrite E1. apply sane_app in HL. apply HL. }
  set (s2 := rest_hist sc l' s) in *. apply sane_app in HL. destruct HL as (_ & O1 & O2 & TL & _).
  revert R'. pose proof SO as [Fs SB]. destruct I2 as ((F1 & B1) & (F2 & B2) & P1 & P2 & T). clearbody s2. unfold rest_step. cbv zeta. set (v1 := lowpass (r_vib1 s2) _). set (v2 := lowpass (r_vib2 s2) _).
  destruct (metric_step _ _ _ F1 B1 O1 P1) as (G1 & H1 & _). destruct (metric_step _ _ _ F2 B2 O2 P2) as (G2 & H2 & _). fold v1 in G1, H1. fold v2 in G2, H2.
  destruct (mul_int v1 40000 G1 ltac:(lra) ltac:(lia)) as [G3 K1]. destruct (mul_int v2 210 G2 ltac:(lra) ltac:(lia)) as [G4 K2].
  destruct (check_at_rest _ _ _ _) as [r mv] eqn:C. unfold metric. cbn [r_vib1 r_vib2 r_rest]. intros R'.
  assert (E : moving_test v1 v2 (v3f_norm (im_da u)) (imu_dt (im_t u) (r_imu s2)) sc = true).
  { unfold moving_test. destruct gyro; unfold jit, floor_of in R'.
    - assert (A : fgt (fmul v1 (f_of_Z 40000)) sc = true) by (apply fgt_true; [exact G3|exact Fs|unfold mini in K1; lra]). rewrite A. reflexivity.
    - assert (A : fgt (fmul v2 (f_of_Z 210)) sc = true) by (apply fgt_true; [exact G4|exact Fs|unfold mini in K2; lra]). rewrite A, Bool.orb_true_r. reflexivity. }
  rewrite E in C. unfold check_at_rest in C. destruct (negb a); injection C as <- _; [|reflexivity]. unfold sub64. rewrite Z.sub_diag. reflexivity.
Qed.

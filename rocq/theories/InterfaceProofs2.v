(** * Delay compensation, channel histories, averaging, at-rest, aiding *)
From Verif Require Import CBase F32 RingBufferModel RingBufferSpec RingBufferProofs RingBufferHistory InterfaceModel InterfaceSpec InterfaceProofs.
From Coq Require Import Lra Psatz.
Open Scope Z_scope.

(** ** Accuracy of the delay compensation *)
Lemma thousand_R : R32 (f_of_Z 1000) = 1000%R /\ is_finite (f_of_Z 1000) = true.
Proof. apply (f_of_Z_exact 1000). lia. Qed.

Lemma trunc_close (y : R) : (0 <= y)%R -> (y - 1 < IZR (Ztrunc y) <= y)%R.
Proof.
  intros Hy. rewrite Ztrunc_floor by exact Hy.
  pose proof (Zfloor_lb y). pose proof (Zfloor_ub y). lra.
Qed.

Lemma stamp_value (d : f32) (t : Z) : is_finite d = true -> (0 <= R32 d <= 1000000)%R ->
  0 <= t < 2 ^ 62 ->
  (1000 * R32 d + 5000 + IZR t / IZR (2 ^ 22) + 1 <= IZR t)%R ->
  exists t', stamp d t = Ok t' /\ 0 <= t' < two64 - 100000 /\
    (Rabs (IZR t' - (IZR t - 1000 * R32 d - 5000)) <= IZR t / IZR (2 ^ 22) + 1)%R.
Proof.
  intros Hf Hd Ht Hlarge.
  assert (Hbt : (0 <= IZR t <= IZR (2 ^ 62))%R) by (split; apply IZR_le; lia).
  change (IZR (2 ^ 22)) with 4194304%R in *.
  change (IZR (2 ^ 62)) with 4611686018427387904%R in *.
  destruct thousand_R as [EK FK].
  destruct (fmul_R d (f_of_Z 1000) Hf FK) as [E1 F1].
  { rewrite EK. bounded. rewrite Rabs_pos_eq; lra. }
  rewrite EK in E1. set (x := rnd32 (R32 d * 1000)) in *.
  pose proof bpow_m150_small as Hb.
  pose proof (rnd32_error (R32 d * 1000)) as He1. fold x in He1.
  rewrite (Rabs_pos_eq (R32 d * 1000)) in He1 by lra.
  change (IZR (2 ^ 24)) with 16777216%R in He1. apply Rabs_le_inv in He1.
  destruct (f_of_Z_range t) as [E2 F2].
  { assert (2 ^ 62 <= 2 ^ 127) by (apply Z.pow_le_mono_r; lia). lia. }
  pose proof (rnd32_error (IZR t)) as He2. set (y := rnd32 (IZR t)) in *.
  rewrite (Rabs_pos_eq (IZR t)) in He2 by lra.
  change (IZR (2 ^ 24)) with 16777216%R in He2. apply Rabs_le_inv in He2.
  assert (Hyx : (0 <= y - x <= 5000000000000000000)%R) by lra.
  destruct (fsub_R (f_of_Z t) (fmul d (f_of_Z 1000)) F2 F1) as [E3 F3].
  { rewrite E1, E2. bounded. rewrite Rabs_pos_eq; lra. }
  rewrite E1, E2 in E3.
  pose proof (rnd32_error (y - x)) as He3. set (w := rnd32 (y - x)) in *.
  rewrite (Rabs_pos_eq (y - x)) in He3 by lra.
  change (IZR (2 ^ 24)) with 16777216%R in He3. apply Rabs_le_inv in He3.
  assert (Hw : (5000.5 <= w <= 6000000000000000000)%R) by lra.
  unfold stamp. rewrite f_to_uint_trunc by exact F3. rewrite E3.
  pose proof (trunc_close w ltac:(lra)) as Htr.
  assert (Hn : 5000 <= Ztrunc w < 7000000000000000000).
  { split; [|apply lt_IZR; lra]. apply Z.lt_succ_r. rewrite <- Z.add_1_r. apply lt_IZR. rewrite plus_IZR. lra. }
  replace (0 <=? Ztrunc w) with true by lia.
  replace (Ztrunc w <? 2 ^ 64) with true by (symmetry; apply Z.ltb_lt; change (2 ^ 64) with 18446744073709551616; lia).
  cbn [andb]. exists (Ztrunc w - 5000). unfold sub64. rewrite u64_small by (rewrite two64_val; lia).
  split; [reflexivity|]. split; [rewrite two64_val; lia|].
  rewrite minus_IZR. apply Rabs_le. lra.
Qed.

(** exact for the first 16 seconds and whole-millisecond delays *)
Lemma stamp_exact_early (dm t : Z) : 0 <= dm <= 16000 -> 0 <= t <= 2 ^ 24 -> 1000 * dm + 5000 <= t ->
  stamp (f_of_Z dm) t = Ok (t - 1000 * dm - 5000).
Proof.
  intros Hd Ht Hl. destruct (f_of_Z_exact dm) as [E1 F1]; [lia|].
  destruct (f_of_Z_exact t) as [E2 F2]; [lia|].
  destruct thousand_R as [EK FK].
  assert (H1 : (0 <= IZR (dm * 1000) <= IZR (2 ^ 24))%R) by (split; apply IZR_le; lia).
  change (IZR (2 ^ 24)) with 16777216%R in H1.
  destruct (fmul_R (f_of_Z dm) (f_of_Z 1000) F1 FK) as [E3 F3].
  { rewrite E1, EK, <- mult_IZR. bounded. rewrite Rabs_pos_eq; lra. }
  rewrite E1, EK, <- mult_IZR, rnd32_Z in E3 by lia.
  assert (H2 : (0 <= IZR (t - dm * 1000) <= IZR (2 ^ 24))%R) by (split; apply IZR_le; lia).
  change (IZR (2 ^ 24)) with 16777216%R in H2.
  destruct (fsub_R (f_of_Z t) (fmul (f_of_Z dm) (f_of_Z 1000)) F2 F3) as [E4 F4].
  { rewrite E2, E3, <- minus_IZR. bounded. rewrite Rabs_pos_eq; lra. }
  rewrite E2, E3, <- minus_IZR, rnd32_Z in E4 by lia.
  unfold stamp. rewrite (f_to_uint_R 64 _ _ F4 E4).
  replace (0 <=? t - dm * 1000) with true by lia.
  replace (t - dm * 1000 <? 2 ^ 64) with true by (symmetry; apply Z.ltb_lt; change (2 ^ 64) with 18446744073709551616; lia).
  cbn [andb]. unfold sub64. rewrite u64_small by (rewrite two64_val; lia). f_equal. lia.
Qed.

(** ** Channel histories *)
Section ChanHist.
Context {A : Type} (z : A).

Fixpoint deliver_all (n : Z) (d : f32) (l : deliveries A) (c : chan A) : outcome (chan A) :=
  match l with
  | [] => Ok c
  | (m, s) :: r => match set_data z true n m d s c with
                   | Ok c1 => deliver_all n d r c1
                   | UB => UB
                   end
  end.

(** [s'] is the delay-compensated version of [s] *)
Definition compensated (d : f32) (s s' : sample A) : Prop :=
  stamp d (time_us s) = Ok (time_us s') /\ payload s' = payload s /\ time_us s' < two64 - 100000.

Lemma stamp_nonneg d t t' : stamp d t = Ok t' -> 0 <= t'.
Proof.
  unfold stamp. destruct (f_to_uint 64 _); [|discriminate]. intros H. injection H as <-.
  unfold sub64. pose proof (u64_range (a - 5000)). lia.
Qed.

Lemma fresh_inv n : (0 < n < 256)%nat -> Inv z (fresh_ring z n) /\ contents z (fresh_ring z n) = [].
Proof.
  intros Hn. destruct (inv_alloc z n (fresh_ring z n)) as (H1 & H2 & _); [lia| |auto].
  unfold allocate, fresh_ring. destruct n; [lia|]. reflexivity.
Qed.

Definition good (n : Z) (c : chan A) (q : list (sample A)) : Prop :=
  Inv z (ch_ring c) /\ Z.of_nat (size (ch_ring c)) = n /\ contents z (ch_ring c) = q.

Lemma deliver_good n d l : 1 <= n <= 255 -> forall c q last,
  good n c q -> ch_last c = last ->
  forall l', Forall2 (compensated d) (accepted last l) l' ->
  exists c', deliver_all n d l c = Ok c' /\ good n c' (firstn (Z.to_nat n) (rev l' ++ q)).
Proof.
  intros Hn. induction l as [|[m s] l IH]; intros c q last Hg Hlast l' HF; cbn [accepted] in HF.
  - inversion HF; subst. simpl. exists c. split; [reflexivity|].
    destruct Hg as (H1 & H2 & H3). split; [exact H1|]. split; [exact H2|].
    simpl. rewrite firstn_all2; [exact H3|]. rewrite <- H3.
    unfold contents. rewrite map_length, seq_length. pose proof (len_le_size z _ H1). lia.
  - assert (Hcond : (sub64 (time_us s) (ch_last c) >? m) = ((time_us s - last) mod 2 ^ 64 >? m)).
    { unfold sub64, u64, two64. rewrite Hlast. reflexivity. }
    cbn [deliver_all]. unfold set_data. simpl negb. cbv iota. rewrite Hcond.
    assert (Hens : ensure z n (ch_ring c) = ch_ring c).
    { unfold ensure. destruct Hg as (_ & H2 & _). rewrite H2. replace (n <? n) with false by lia. reflexivity. }
    rewrite Hens. revert HF.
    destruct ((time_us s - last) mod 2 ^ 64 >? m); intros HF.
    + destruct l' as [|s' l'']; [inversion HF|].
      assert (Hc : compensated d s s') by (inversion HF; assumption).
      assert (HF' : Forall2 (compensated d) (accepted (time_us s) l) l'') by (inversion HF; assumption).
      destruct Hc as (Hc1 & Hc2 & Hc3). rewrite Hc1.
      assert (Hs' : {| time_us := time_us s'; payload := payload s |} = s') by (rewrite <- Hc2; destruct s'; reflexivity).
      rewrite Hs'.
      destruct Hg as (H1 & H2 & H3).
      assert (Hto : time_ok s') by (split; [eapply stamp_nonneg; exact Hc1|exact Hc3]).
      specialize (IH {| ch_ring := push s' (ch_ring c); ch_last := time_us s |}
                     (q_push (Z.to_nat n) s' q) (time_us s)).
      destruct (IH) with (l' := l'') as (c' & E1 & E2); auto.
      { split; [|split]; simpl.
        - apply inv_push; assumption.
        - rewrite push_size. exact H2.
        - rewrite contents_push by exact H1. rewrite H3. f_equal. lia. }
      exists c'. split; [exact E1|]. destruct E2 as (G1 & G2 & G3). split; [exact G1|]. split; [exact G2|].
      rewrite G3. simpl. rewrite <- app_assoc. simpl. unfold q_push.
      (* firstn n (rev l'' ++ firstn n (s' :: q)) = firstn n (rev l'' ++ s' :: q) *)
      rewrite !firstn_app, firstn_firstn. f_equal. f_equal. lia.
    + apply (IH _ q last); auto.
Qed.

(** from the freshly constructed channel: the first delivery allocates *)
Lemma deliver_from_init n d l l' : 1 <= n <= 255 -> l <> [] ->
  Forall2 (compensated d) (accepted 0 l) l' ->
  exists c', deliver_all n d l (chan_init z) = Ok c' /\ good n c' (firstn (Z.to_nat n) (rev l')).
Proof.
  intros Hn Hl HF.
  set (c0 := {| ch_ring := fresh_ring z (Z.to_nat n); ch_last := 0 |} : chan A).
  assert (Hg0 : good n c0 []).
  { destruct (fresh_inv (Z.to_nat n)) as [H1 H2]; [lia|]. split; [exact H1|]. split; [simpl; lia|exact H2]. }
  assert (E : deliver_all n d l (chan_init z) = deliver_all n d l c0).
  { destruct l as [|[m s] l]; [congruence|]. cbn [deliver_all]. unfold set_data. simpl negb. cbv iota.
    cbn [ch_last chan_init ch_ring c0].
    assert (ensure z n (fresh_ring z 1) = fresh_ring z (Z.to_nat n)) as ->.
    { unfold ensure. cbn [size fresh_ring]. destruct (Z.ltb_spec (Z.of_nat 1) n); [reflexivity|].
      replace n with 1 by lia. reflexivity. }
    assert (ensure z n (fresh_ring z (Z.to_nat n)) = fresh_ring z (Z.to_nat n)) as ->.
    { unfold ensure. cbn [size fresh_ring]. replace (Z.of_nat (Z.to_nat n) <? n) with false by lia. reflexivity. }
    reflexivity. }
  rewrite E. destruct (deliver_good n d l Hn c0 [] 0 Hg0 eq_refl l' HF) as (c' & E1 & E2).
  exists c'. rewrite app_nil_r in E2. auto.
Qed.

Lemma channel_history n d l l' : 1 <= n <= 255 -> l <> [] ->
  Forall2 (compensated d) (accepted 0 l) l' ->
  exists c', deliver_all n d l (chan_init z) = Ok c' /\
    forall os, Forall op_ok os ->
      snd (run z (ch_ring c') os) = snd (q_run (Z.to_nat n) (firstn (Z.to_nat n) (rev l')) os).
Proof.
  intros Hn Hl HF. destruct (deliver_from_init n d l l' Hn Hl HF) as (c' & E & Hg).
  exists c'. split; [exact E|]. intros os Hos. destruct Hg as (H1 & H2 & H3).
  pose proof (run_refines z os (ch_ring c') H1 Hos) as H. destruct (run z (ch_ring c') os) as [b xs].
  destruct H as (_ & _ & H). rewrite H3 in H. replace (size (ch_ring c')) with (Z.to_nat n) in H by lia.
  rewrite H. reflexivity.
Qed.

(** accepted samples are a sub-sequence of the deliveries *)
Lemma accepted_subseq l : forall last, subseq (accepted last l) (map snd l : list (sample A)).
Proof.
  induction l as [|[m s] l IH]; intros last; simpl; [apply subseq_nil|].
  destruct (_ >? m); [apply subseq_take|apply subseq_skip]; apply IH.
Qed.

(** with a constant limit and nondecreasing arrivals the accepted ones are spaced *)
Lemma accepted_gaps m (l : deliveries A) : 0 <= m -> forall last, 0 <= last ->
  Forall (fun x => fst x = m) l ->
  Forall (fun x => time_us (snd x) < 2 ^ 64) l ->
  nondecreasing last (map (fun x => time_us (snd x)) l) ->
  gaps_exceed m (last :: map time_us (accepted last l)).
Proof.
  intros Hm. induction l as [|[m' s] l IH]; intros last H0 Hm' Ht Hmono; [exact I|].
  pose proof (Forall_inv Hm') as Em. apply Forall_inv_tail in Hm'. simpl in Em. subst m'.
  pose proof (Forall_inv Ht) as Ht1. apply Forall_inv_tail in Ht. cbn [snd] in Ht1. simpl in Hmono. destruct Hmono as [Hge Hmono].
  cbn [accepted]. rewrite Z.mod_small by lia.
  destruct (time_us s - last >? m) eqn:E.
  - split; [lia|]. apply IH; auto. lia.
  - apply IH; auto. destruct l as [|[m2 s2] l]; [exact I|]. simpl in *. split; [lia|tauto].
Qed.
End ChanHist.

Lemma gaps_spaced m l : gaps_exceed m l <-> spaced m l.
Proof. induction l as [|a [|b l] IH]; simpl; tauto. Qed.
Lemma gaps_tail m a l : gaps_exceed m (a :: l) -> gaps_exceed m l.
Proof. destruct l; simpl; tauto. Qed.

(** the end-to-end no-loss statement *)
Lemma no_sample_lost {A} (t td n m : Z) (l : deliveries A) (k : nat) :
  2 <= n <= 255 -> 0 <= td <= t -> t < two64 -> t - td < two32 ->
  min_obs_interval t td n = Ok m ->
  Forall (fun x => fst x = m) l ->
  Forall (fun x => time_us (snd x) < 2 ^ 64) l ->
  nondecreasing 0 (map (fun x => time_us (snd x)) l) ->
  let a := map time_us (accepted 0 l) in
  (k + Z.to_nat n < length a)%nat ->
  nth (k + Z.to_nat n) a 0 - nth k a 0 > t - td.
Proof.
  intros Hn Htd Ht Hlag Hm Hl1 Hl2 Hl3 a Hk.
  assert (Hm0 : 0 <= m).
  { unfold min_obs_interval in Hm. destruct (_ =? 0); [discriminate|]. injection Hm as <-.
    unfold u32. rewrite two32_val. lia. }
  apply (no_loss t td n m a k); auto. apply gaps_spaced. apply (gaps_tail m 0).
  apply accepted_gaps; auto; lia.
Qed.

(** ** Averaging *)
Section Avg.
Context {A : Type} (z : A) (plus : A -> A -> A) (divn : A -> Z -> A) (post : A -> A).

(** deliver a list of samples none of which passes the rate limit, then one that does *)
Fixpoint accumulate (n m : Z) (d : f32) (l : list (sample A)) (c : avg_chan A) : outcome (avg_chan A) :=
  match l with
  | [] => Ok c
  | s :: r => match set_avg z plus divn post true n m d s c with
              | Ok c1 => accumulate n m d r c1
              | UB => UB
              end
  end.

Definition held (m last : Z) (s : sample A) : Prop := (time_us s - last) mod 2 ^ 64 <= m.

Lemma ensure_idem n r : ensure z n (ensure z n r) = ensure z n r.
Proof.
  unfold ensure. destruct (Z.of_nat (size r) <? n) eqn:E; [|rewrite E; reflexivity].
  cbn [size fresh_ring]. destruct (Z.of_nat (Z.to_nat n) <? n) eqn:E2; [|reflexivity]. reflexivity.
Qed.

Lemma accumulate_held n m d l : forall c, Forall (held m (av_last c)) l ->
  l <> [] ->
  accumulate n m d l c =
  Ok {| av_ring := ensure z n (av_ring c); av_last := av_last c;
        av_count := u8 (av_count c + Z.of_nat (length l));
        av_sum := fold_left plus (map payload l) (av_sum c);
        av_tsum := u64 (av_tsum c + fold_right Z.add 0 (map (fun s => time_us s / 1000) l)) |}.
Proof.
  induction l as [|s l IH]; intros c HF Hne; [congruence|].
  inversion HF as [|? ? Hh HF']; subst. cbn [accumulate]. unfold set_avg. simpl negb. cbv iota.
  assert (Hc : (sub64 (time_us s) (av_last c) >? m) = false).
  { unfold sub64, u64, two64. unfold held in Hh. lia. }
  rewrite Hc. destruct l as [|s2 l].
  - simpl. f_equal. f_equal. unfold add64. f_equal. lia.
  - rewrite IH; [|exact HF'|discriminate]. cbn [av_ring av_last av_count av_sum av_tsum].
    rewrite ensure_idem. f_equal. f_equal.
    + unfold u8. rewrite Zplus_mod_idemp_l. f_equal. cbn [length]. lia.
    + unfold add64, u64. rewrite Zplus_mod_idemp_l. f_equal. cbn [map fold_right]. lia.
Qed.

(** the buffered mean after [k] accumulated samples and the accepted one *)
Lemma average_value n m d c l s t' :
  av_count c = 0 -> av_sum c = z -> av_tsum c = 0 ->
  Forall (held m (av_last c)) l -> ~ held m (av_last c) s ->
  Z.of_nat (length l) < 255 ->
  let all := l ++ [s] in
  let k := Z.of_nat (length all) in
  let tsum := fold_right Z.add 0 (map (fun s => time_us s / 1000) all) in
  0 <= tsum < two64 ->
  stamp d (u64 (1000 * (tsum / k))) = Ok t' ->
  exists c', accumulate n m d all c = Ok c' /\
    av_ring c' = push {| time_us := t'; payload := post (divn (fold_left plus (map payload all) z) k) |}
                      (ensure z n (av_ring c)) /\
    av_count c' = 0 /\ av_sum c' = z /\ av_tsum c' = 0 /\ av_last c' = time_us s.
Proof.
  intros Hc0 Hs0 Ht0 HF Hs Hlen all k tsum Htsum Hst.
  assert (Hlast : forall c1, av_last c1 = av_last c -> av_count c1 = Z.of_nat (length l) ->
     av_sum c1 = fold_left plus (map payload l) z ->
     av_tsum c1 = u64 (fold_right Z.add 0 (map (fun s => time_us s / 1000) l)) ->
     ensure z n (av_ring c1) = ensure z n (av_ring c) ->
     exists c', set_avg z plus divn post true n m d s c1 = Ok c' /\
     av_ring c' = push {| time_us := t'; payload := post (divn (fold_left plus (map payload all) z) k) |}
                      (ensure z n (av_ring c)) /\
     av_count c' = 0 /\ av_sum c' = z /\ av_tsum c' = 0 /\ av_last c' = time_us s).
  { intros c1 H1 H2 H3 H4 H5. unfold set_avg. simpl negb. cbv iota.
    assert (Hc : (sub64 (time_us s) (av_last c1) >? m) = true).
    { unfold sub64, u64, two64. unfold held in Hs. rewrite H1. lia. }
    rewrite Hc. rewrite H2, H3, H4, H5.
    assert (Hk : u8 (Z.of_nat (length l) + 1) = k).
    { unfold k, all. rewrite app_length. simpl length. rewrite u8_small by (rewrite two8_val; lia). lia. }
    assert (Hts : add64 (u64 (fold_right Z.add 0 (map (fun s => time_us s / 1000) l))) (time_us s / 1000) = tsum).
    { unfold add64, u64. rewrite Zplus_mod_idemp_l.
      rewrite <- (Z.mod_small tsum two64) by exact Htsum. f_equal. unfold tsum, all.
      rewrite map_app, fold_right_app. simpl.
      assert (Hfr : forall l a, fold_right Z.add a l = fold_right Z.add 0 l + a).
      { clear. induction l as [|x l IHl]; intros a; simpl; [lia|]. rewrite IHl. lia. }
      rewrite (Hfr _ (time_us s / 1000 + 0)). lia. }
    rewrite Hk, Hts. unfold avg_time. replace (k =? 0) with false by (unfold k, all; rewrite app_length; simpl length; lia).
    rewrite Hst. eexists. split; [reflexivity|]. cbn [av_ring av_count av_sum av_tsum av_last].
    split; [|repeat split; reflexivity]. f_equal. f_equal. f_equal.
    unfold all. rewrite map_app, fold_left_app. reflexivity. }
  assert (Hacc : forall l1 l2 c, accumulate n m d (l1 ++ l2) c =
     match accumulate n m d l1 c with Ok c1 => accumulate n m d l2 c1 | UB => UB end).
  { clear. induction l1 as [|a l1 IHl]; intros l2 c; simpl; [reflexivity|].
    destruct (set_avg z plus divn post true n m d a c); [apply IHl|reflexivity]. }
  unfold all. rewrite Hacc. destruct l as [|a l].
  - cbn [accumulate]. destruct (Hlast c) as (c' & E & R); auto.
    rewrite E. exists c'. split; [reflexivity|exact R].
  - rewrite accumulate_held; [|exact HF|discriminate]. cbn [accumulate].
    destruct (Hlast {| av_ring := ensure z n (av_ring c); av_last := av_last c;
        av_count := u8 (av_count c + Z.of_nat (length (a :: l)));
        av_sum := fold_left plus (map payload (a :: l)) (av_sum c);
        av_tsum := u64 (av_tsum c + fold_right Z.add 0 (map (fun s => time_us s / 1000) (a :: l))) |})
      as (c' & E & R).
    + reflexivity.
    + cbn [av_count]. rewrite Hc0. rewrite u8_small by (rewrite two8_val; lia). lia.
    + cbn [av_sum]. rewrite Hs0. reflexivity.
    + cbn [av_tsum]. rewrite Ht0. reflexivity.
    + cbn [av_ring]. apply ensure_idem.
    + rewrite E. exists c'. split; [reflexivity|exact R].
Qed.

(** 255 held samples and then an accepted one: the count wraps to 0 *)
Lemma average_div0 n m d c l s :
  av_count c = 0 -> Forall (held m (av_last c)) l -> ~ held m (av_last c) s ->
  Z.of_nat (length l) = 255 -> accumulate n m d (l ++ [s]) c = UB.
Proof.
  intros Hc0 HF Hs Hlen.
  assert (Hacc : forall l1 l2 c, accumulate n m d (l1 ++ l2) c =
     match accumulate n m d l1 c with Ok c1 => accumulate n m d l2 c1 | UB => UB end).
  { clear. induction l1 as [|a l1 IHl]; intros l2 c; simpl; [reflexivity|].
    destruct (set_avg z plus divn post true n m d a c); [apply IHl|reflexivity]. }
  rewrite Hacc. rewrite accumulate_held; [|exact HF|intros ->; simpl in Hlen; lia].
  cbn [accumulate]. unfold set_avg. simpl negb. cbv iota. cbn [av_last av_count av_ring av_sum av_tsum].
  assert (Hc : (sub64 (time_us s) (av_last c) >? m) = true).
  { unfold sub64, u64, two64. unfold held in Hs. lia. }
  rewrite Hc, Hc0, Hlen. unfold avg_time. replace (u8 (u8 (0 + 255) + 1) =? 0) with true by reflexivity.
  reflexivity.
Qed.
End Avg.

(** ** At rest *)
Fixpoint rest_run (l : list (bool * bool * Z)) (tm : Z) : list bool * Z :=
  match l with
  | [] => ([], tm)
  | (in_air, moving, t) :: r =>
      let '(b, tm1) := check_at_rest in_air moving t tm in
      let '(bs, tm2) := rest_run r tm1 in (b :: bs, tm2)
  end.

Definition movement (x : bool * bool * Z) : bool := fst (fst x) || snd (fst x).

Lemma rest_run_last l : forall tm, nondecreasing tm (map snd l) ->
  let tm' := snd (rest_run l tm) in
  tm <= tm' /\ (forall x, In x l -> movement x = true -> snd x <= tm') /\
  (tm' = tm \/ exists x, In x l /\ movement x = true /\ snd x = tm').
Proof.
  induction l as [|[[a mv] t] l IH]; intros tm Hm; simpl in *.
  - split; [lia|]. split; [tauto|]. auto.
  - destruct Hm as [Hge Hm]. unfold check_at_rest.
    assert (Hmono2 : forall tm, tm <= t -> nondecreasing tm (map snd l)).
    { intros tm0 H0. destruct l as [|x l]; [exact I|]. simpl in *. split; [lia|tauto]. }
    destruct a; simpl negb; cbv iota.
    + destruct (rest_run l t) as [bs tm2] eqn:E. specialize (IH t (Hmono2 t ltac:(lia))). rewrite E in IH. simpl in *.
      destruct IH as (H1 & H2 & H3). split; [lia|]. split.
      * intros x [<-|Hx] Hmv; [simpl; lia|auto].
      * right. destruct H3 as [->|(x & Hx & Hmx & Ex)]; [exists (true, mv, t); auto|exists x; auto].
    + destruct mv.
      * destruct (rest_run l t) as [bs tm2] eqn:E. specialize (IH t (Hmono2 t ltac:(lia))). rewrite E in IH. simpl in *.
        destruct IH as (H1 & H2 & H3). split; [lia|]. split.
        -- intros x [<-|Hx] Hmv; [simpl; lia|auto].
        -- right. destruct H3 as [->|(x & Hx & Hmx & Ex)]; [exists (false, true, t); auto|exists x; auto].
      * destruct (rest_run l tm) as [bs tm2] eqn:E. specialize (IH tm (Hmono2 tm Hge)). rewrite E in IH. simpl in *.
        destruct IH as (H1 & H2 & H3). split; [lia|]. split.
        -- intros x [<-|Hx] Hmv; [discriminate|auto].
        -- destruct H3 as [->|(x & Hx & Hmx & Ex)]; [auto|right; exists x; auto].
Qed.

Lemma at_rest_iff l in_air moving t : nondecreasing 0 (map snd (l ++ [(in_air, moving, t)])) -> t < two64 ->
  (fst (check_at_rest in_air moving t (snd (rest_run l 0))) = true <->
   in_air = false /\ moving = false /\ 1000000 < t /\
   forall x, In x l -> movement x = true -> snd x + 1000000 < t).
Proof.
  intros Hm Ht.
  assert (Hsplit : nondecreasing 0 (map snd l) /\ (forall x, In x l -> snd x <= t) /\ 0 <= t).
  { rewrite map_app in Hm. simpl in Hm. revert Hm. generalize 0 as t0.
    induction l as [|x l IH]; intros t0; simpl; [intros [? _]; split; [auto|]; split; [tauto|lia]|].
    intros [H1 H2]. destruct (IH (snd x) H2) as (A1 & A2 & A3).
    split; [auto|]. split; [|lia]. intros y [<-|Hy]; [lia|auto]. }
  destruct Hsplit as (H1 & H2 & H3).
  destruct (rest_run_last l 0 H1) as (R1 & R2 & R3). set (tm := snd (rest_run l 0)) in *.
  assert (Htm : 0 <= tm <= t).
  { split; [exact R1|]. destruct R3 as [->|(x & Hx & _ & <-)]; [exact H3|auto]. }
  unfold check_at_rest. destruct in_air; simpl negb; cbv iota; cbn [fst].
  - split; [discriminate|intros [? _]; discriminate].
  - destruct moving.
    + unfold sub64. rewrite Z.sub_diag. split; [intros H; vm_compute in H; discriminate|intros (_ & ? & _); discriminate].
    + unfold sub64. rewrite u64_small by lia. split.
      * intros H. split; [reflexivity|]. split; [reflexivity|]. split; [lia|].
        intros x Hx Hmv. specialize (R2 x Hx Hmv). lia.
      * intros (_ & _ & Hb & Hall). destruct R3 as [->|(x & Hx & Hmx & Ex)]; [lia|].
        specialize (Hall x Hx Hmx). lia.
Qed.

(** ** Aiding sources *)
Definition src_active (a : aiding) (h : hsource) : bool :=
  match h with
  | HGps => a_gps a | HFlow => a_flow a | HEvPos => a_ev_pos a | HEvVel => a_ev_vel a
  | HWind => a_aspd a && a_beta a
  end.

Lemma other_source_iff a h :
  is_other_source a (src_active a h) = true <-> exists h', h' <> h /\ src_active a h' = true.
Proof.
  destruct a as [g f p v s b]. unfold is_other_source, n_horizontal_aiding. simpl.
  split.
  - intros H. destruct h; simpl in *.
    all: destruct g, f, p, v, s, b; try discriminate H;
      first [exists HGps; split; [discriminate|reflexivity] | exists HFlow; split; [discriminate|reflexivity]
            | exists HEvPos; split; [discriminate|reflexivity] | exists HEvVel; split; [discriminate|reflexivity]
            | exists HWind; split; [discriminate|reflexivity]].
  - intros (h' & Hne & Hact). destruct h, h'; try congruence; simpl in *; destruct g, f, p, v, s, b; try discriminate; reflexivity.
Qed.

Lemma only_source_iff a h :
  is_only_source a (src_active a h) = true <->
  src_active a h = true /\ forall h', src_active a h' = true -> h' = h.
Proof.
  unfold is_only_source. rewrite andb_true_iff, negb_true_iff. split.
  - intros [H1 H2]. split; [exact H1|]. intros h' Hh'.
    assert (Hdec : {h' = h} + {h' <> h}) by decide equality. destruct Hdec as [|Hne]; [assumption|].
    assert (is_other_source a (src_active a h) = true) by (apply other_source_iff; eauto). congruence.
  - intros [H1 H2]. split; [exact H1|]. destruct (is_other_source a (src_active a h)) eqn:E; [|reflexivity].
    apply other_source_iff in E. destruct E as (h' & Hne & Ha). elim Hne. apply H2. exact Ha.
Qed.

Lemma aiding_active_iff a : is_horizontal_aiding_active a = true <-> exists h, src_active a h = true.
Proof.
  destruct a as [g f p v s b]. unfold is_horizontal_aiding_active, n_horizontal_aiding. simpl. split.
  - destruct g, f, p, v, s, b; simpl; intros H; try discriminate;
    first [exists HGps; reflexivity|exists HFlow; reflexivity|exists HEvPos; reflexivity|exists HEvVel; reflexivity|exists HWind; reflexivity].
  - intros (h & H). destruct h; simpl in H; destruct g, f, p, v, s, b; try discriminate; reflexivity.
Qed.

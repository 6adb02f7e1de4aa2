(** * C90: a NaN in a sensor sample (single precision)

    [is_nan] is Flocq's.  The C library functions are parameters; what is
    assumed of them is that they return NaN for NaN. *)
From Coq Require Import Reals Lra Lia.
From Verif Require Import CBase F32 Scalar CovModel CovPredGen FusionGen FusionModel RingBufferModel RingBufferProofs OutputModel OutputHist NanModel NanProofs Props_Sense Props_Sense2 Props_FusionF.
Open Scope nat_scope.

(** ** Which samples are let through *)
(** all 24 states are NaN *)
Definition lost (f : fus f32) : Prop := forall i, i < 24 -> is_nan (fx f i) = true.

(** airspeed: a NaN sample is never rejected by the gate; when the variance is
    sound and the update keeps the variances positive it is fused and counted as good *)
Theorem C90_airspeed : forall resetWind resetAll (full : bool) (noise gate tas eas2tas : f32) (f : fus f32),
  is_nan tas = true -> flt (as_v_tas_pred (fx f)) (flit 1 1) = false ->
  flt (as_S (fx f) (fP f) (tasVar noise eas2tas)) (tasVar noise eas2tas) = false ->
  let f' := fuseAirspeed resetWind resetAll full noise gate tas eas2tas f in
  frej f' 4 = false /\
  (fbad f' 4 = false -> lost f' /\ ftime f' 4 = x_time_last_imu (fc f) /\ faspd f' = true) /\
  (fbad f' 4 = true -> fx f' = fx f).
Proof.
  intros rW rA full noise gate tas e2t f N A B. cbv zeta. unfold fuseAirspeed. fsc. change (slit 1 1) with (flit 1 1). rewrite A, B.
  set (innov := fsub (as_v_tas_pred (fx f)) tas). assert (NI : is_nan innov = true) by (apply nan_sub_r, N).
  rewrite (nan_lt_r (flit 1 1)) by (apply ratio_nan, NI).
  set (g := setRej 4 false _). set (K := as_K _ _ _ _). set (H := as_H _). clearbody K H innov.
  destruct (mupd_nan K H innov g NI) as [U1 U2]. destruct (mupd_frame K H innov g) as (F1 & F2 & F3 & _).
  destruct (mupd K H innov g) as [f5 ok]. cbn [fst snd] in *. destruct ok; cbn [setAspd setTime setBad frej fbad ftime faspd fx fc put Nat.eqb negb].
  - split; [rewrite F2; reflexivity|]. split; [intros _; split; [intros i _; apply U1; reflexivity|split; reflexivity]|discriminate].
  - split; [rewrite F2; reflexivity|]. split; [discriminate|]. intros _. exact (U2 eq_refl).
Qed.
(** optical flow: a NaN flow rate on either axis *)
Theorem C90_flow : forall resetAll (rn gate i0 i1 v0 v1 : f32) (K0 : Vec f32) H0 K1 H1 (f : fus f32),
  is_nan i0 = true -> flt v0 rn = false -> flt v1 rn = false -> flt (flit 1 1) (ratio i1 (smaxi gate (slit 1 1)) v1) = false ->
  let f' := flowApply resetAll rn gate i0 i1 v0 v1 K0 H0 K1 H1 f in
  frej f' 8 = false /\ (fbad f' 8 = false -> lost f').
Proof.
  intros rA rn gate i0 i1 v0 v1 K0 H0 K1 H1 f N A B C. cbv zeta. unfold flowApply. fsc. rewrite A, B. change (slit 1 1) with (flit 1 1). change (slit 1 1) with (flit 1 1) in C. rewrite C.
  rewrite (nan_lt_r (flit 1 1)) by (apply ratio_nan, N). cbn [orb].
  set (g := setRej 9 false _). assert (G : frej g 8 = false) by reflexivity. clearbody g.
  unfold flowAxis. destruct (mupd_nan K0 H0 i0 g N) as [U1 U2]. destruct (mupd_frame K0 H0 i0 g) as (F1 & F2 & F3 & _).
  destruct (mupd K0 H0 i0 g) as [f1 ok]. cbn [fst snd] in *.
  set (h := if ok then _ else _). assert (HH : frej h = frej f1 /\ fbad h 8 = negb ok /\ fx h = fx f1) by (unfold h; destruct ok; cbn; auto). destruct HH as (E1 & E2 & E3). clearbody h.
  pose proof (mupd_keep (K1 (fP h)) H1 i1 h) as KP. destruct (mupd_frame (K1 (fP h)) H1 i1 h) as (G1 & G2 & _).
  destruct (mupd (K1 (fP h)) H1 i1 h) as [f2 ok2]. cbn [fst] in *.
  set (k := if ok2 then _ else _). assert (HK : frej k = frej f2 /\ fbad k 8 = fbad f2 8 /\ fx k = fx f2) by (unfold k; destruct ok2; cbn; auto). destruct HK as (J1 & J2 & J3). clearbody k.
  split; [rewrite J1, G2, E1, F2; exact G|]. intros HB. rewrite J2, G1, E2 in HB. apply Bool.negb_false_iff in HB. intros i _. rewrite J3.
  apply KP. intros j. rewrite E3. apply U1. exact HB.
Qed.
(** magnetometer, three axes: a NaN on the first axis *)
Lemma limit_nan tcos tsin tatan2 (d : declin f32) (x : Vec f32) : (forall i, is_nan (x i) = true) -> forall i, is_nan (limitDeclination tcos tsin tatan2 d x i) = true.
Proof.
  intros H i. unfold limitDeclination. cbv zeta. set (hm := hFieldMin _ _ _ _). set (dc := getMagDeclination _ _ _ _ _ _). set (rf := if d_geo d then _ else _). clearbody hm dc rf.
  assert (NH : is_nan (fsqrt (fadd (fmul (x 16) (x 16)) (fmul (x 17) (x 17)))) = true) by (apply nan_sqrt, nan_add_l, nan_mul_l, H).
  unfold limitField. fsc. rewrite (nan_lt_l _ hm NH). unfold limitAngle. fsc.
  destruct (flt (fadd rf (slit 1 2)) (tatan2 (x 17) (x 16))).
  - destruct (i =? 16); [apply nan_mul_l, NH|]. destruct (i =? 17); [apply nan_mul_l, NH|apply H].
  - destruct (flt (tatan2 (x 17) (x 16)) (fsub rf (slit 1 2))); destruct (i =? 16); try apply H; try (apply nan_mul_l, NH); destruct (i =? 17); try apply H; apply nan_mul_l, NH.
Qed.
Lemma magAxis_nan tcos tsin tatan2 d ax K H (innov : f32) (f : fus f32) : is_nan innov = true ->
  let g := magAxis tcos tsin tatan2 d ax K H innov f in (fbad g ax = false -> forall i, is_nan (fx g i) = true) /\ (fbad g ax = true -> fx g = fx f).
Proof.
  intros N. cbv zeta. unfold magAxis. destruct (mupd_nan K H innov f N) as [U1 U2]. destruct (mupd K H innov f) as [f1 ok]. cbn [fst snd] in *. destruct ok; cbn.
  - split; [|unfold put; rewrite Nat.eqb_refl; discriminate]. intros _ i. unfold fx. cbn. apply limit_nan. intros j. apply (U1 eq_refl).
  - split; [unfold put; rewrite Nat.eqb_refl; discriminate|]. intros _. exact (U2 eq_refl).
Qed.
Lemma magAxis_keep tcos tsin tatan2 d ax K H (innov : f32) (f : fus f32) : (forall i, is_nan (fx f i) = true) -> forall i, is_nan (fx (magAxis tcos tsin tatan2 d ax K H innov f) i) = true.
Proof.
  intros N. unfold magAxis. pose proof (mupd_keep K H innov f N) as U. destruct (mupd K H innov f) as [f1 ok]. cbn [fst] in U. destruct ok; intros i; [|exact (U i)]. apply (limit_nan tcos tsin tatan2 d (fx f1) U).
Qed.
Lemma magAxis_frame tcos tsin tatan2 d ax (K : Vec f32) H (innov : f32) (f : fus f32) : let g := magAxis tcos tsin tatan2 d ax K H innov f in
  (forall k, k <> ax -> fbad g k = fbad f k) /\ frej g = frej f.
Proof.
  cbv zeta. unfold magAxis. destruct (mupd_frame K H innov f) as (F1 & F2 & _). destruct (mupd K H innov f) as [f1 ok]. cbn [fst] in *.
  destruct ok; cbn; rewrite F1, F2; (split; [|reflexivity]); intros k Hk; unfold put; destruct (Nat.eqb_spec k ax); [contradiction|reflexivity|contradiction|reflexivity].
Qed.
Theorem C90_magnetometer : forall tcos tsin tatan2 resetMag d (all synth : bool) (noise gate : f32) (meas : Vec f32) (f : fus f32) (k : nat), k < 3 -> (k = 2 -> synth = false) ->
  is_nan (meas k) = true ->
  let rn := sq (sfmax noise szero) in let inn := magInnov synth meas (fx f) in
  let var := fun j => match j with 0 => mx_S (fx f) (fP f) rn | 1 => iv_S1 (fx f) (fP f) rn | _ => iv_S2 (fx f) (fP f) rn end in
  (forall j, j < 3 -> flt (var j) rn = false) ->
  (forall j, j < 3 -> j <> k -> flt (flit 1 1) (ratio (inn j) (smaxi gate (slit 1 1)) (var j)) = false) ->
  let f' := fuseMag tcos tsin tatan2 resetMag d all synth noise gate meas f in
  frej f' k = false /\ (fbad f' 0 = false -> fbad f' 1 = false -> fbad f' 2 = false -> lost f').
Proof.
  intros tcos tsin tatan2 rM d all synth noise gate meas f k Hk HS N. cbv zeta. set (rn := sq (sfmax noise szero)).
  set (inn := magInnov synth meas (fx f)). set (g := smaxi gate (slit 1 1)). intros V O.
  assert (NI : is_nan (inn k) = true).
  { unfold inn, magInnov. assert (E : synth && (k =? 2) = false) by (destruct (Nat.eqb_spec k 2) as [E|]; [rewrite (HS E)|rewrite Bool.andb_false_r]; reflexivity).
    rewrite E. fsc. apply nan_sub_r, N. }
  pose proof (V 0 ltac:(lia)) as V0. pose proof (V 1 ltac:(lia)) as V1. pose proof (V 2 ltac:(lia)) as V2. cbv beta iota in V0, V1, V2.
  assert (RJ : forall j, j < 3 -> flt (flit 1 1) (ratio (inn j) g (match j with 0 => mx_S (fx f) (fP f) rn | 1 => iv_S1 (fx f) (fP f) rn | _ => iv_S2 (fx f) (fP f) rn end)) = false).
  { intros j Hj. destruct (Nat.eq_dec j k) as [->|NE]; [apply nan_lt_r, ratio_nan, NI|apply O; assumption]. }
  pose proof (RJ 0 ltac:(lia)) as R0. pose proof (RJ 1 ltac:(lia)) as R1. pose proof (RJ 2 ltac:(lia)) as R2. cbv beta iota in R0, R1, R2. clear V O RJ.
  unfold fuseMag. fold rn. fold inn. fold g. fsc. change (slit 1 1) with (flit 1 1). rewrite V0, V1, V2. cbv beta iota zeta. rewrite R0, R1, R2. cbn [orb].
  set (h := setRej 2 false _). assert (HR : frej h 0 = false /\ frej h 1 = false /\ frej h 2 = false) by (repeat split). destruct HR as (Q0 & Q1 & Q2). clearbody h inn rn g. clear V0 V1 V2 R0 R1 R2.
  unfold magAxes. set (f1 := magAxis tcos tsin tatan2 d 0 _ _ (inn 0) h).
  destruct (magAxis_frame tcos tsin tatan2 d 0 (mx_K (fx h) (fP h) rn all) (mx_H (fx h)) (inn 0) h) as [A1 A2]. fold f1 in A1, A2.
  assert (L1 : k = 0 -> fbad f1 0 = false -> forall i, is_nan (fx f1 i) = true) by (intros ->; apply (magAxis_nan tcos tsin tatan2 d 0 _ _ (inn 0) h NI)). clearbody f1.
  cbv zeta. fsc. set (w1 := my_S (fx f1) (fP f1) rn). set (f2 := setVar 1 w1 f1). assert (X2 : fx f2 = fx f1 /\ fbad f2 = fbad f1 /\ frej f2 = frej f1) by (repeat split). destruct X2 as (X2 & Y2 & Z2). clearbody f2.
  destruct (flt w1 rn).
  { cbn. rewrite Z2, A2. split; [destruct k as [|[|[|k]]]; try assumption; lia|]. intros _ D. discriminate D. }
  set (K1 := my_K (fx f1) (fP f1) rn all). set (H1 := my_H (fx f1)). clearbody K1 H1. set (f3 := magAxis tcos tsin tatan2 d 1 K1 H1 (inn 1) f2).
  destruct (magAxis_frame tcos tsin tatan2 d 1 K1 H1 (inn 1) f2) as [B1 B2]. fold f3 in B1, B2.
  assert (L3 : k = 1 -> fbad f3 1 = false -> forall i, is_nan (fx f3 i) = true) by (intros ->; apply (magAxis_nan tcos tsin tatan2 d 1 _ _ (inn 1) f2 NI)).
  assert (M3 : (forall i, is_nan (fx f1 i) = true) -> forall i, is_nan (fx f3 i) = true) by (intros P; apply (magAxis_keep tcos tsin tatan2 d 1); rewrite X2; exact P). clearbody f3.
  assert (L03 : k < 2 -> fbad f3 0 = false -> fbad f3 1 = false -> forall i, is_nan (fx f3 i) = true).
  { intros K2 E0 E1. destruct k as [|[|k]]; [|apply L3; [reflexivity|assumption]|lia]. apply M3, L1; [reflexivity|]. rewrite <- Y2, <- B1 by lia. exact E0. }
  assert (R3 : frej f3 = frej h) by (rewrite B2, Z2, A2; reflexivity).
  destruct synth.
  { rewrite R3. split; [destruct k as [|[|[|k]]]; try assumption; lia|]. intros E0 E1 _ i _. apply L03; try assumption. destruct (Nat.eq_dec k 2) as [E|]; [discriminate (HS E)|lia]. }
  set (w2 := mz_S (fx f3) (fP f3) rn). set (f4 := setVar 2 w2 f3). assert (X4 : fx f4 = fx f3 /\ fbad f4 = fbad f3 /\ frej f4 = frej f3) by (repeat split). destruct X4 as (X4 & Y4 & Z4). clearbody f4.
  destruct (flt w2 rn).
  { cbn. rewrite Z4, R3. split; [destruct k as [|[|[|k]]]; try assumption; lia|]. intros _ _ D. discriminate D. }
  set (K2 := mz_K (fx f3) (fP f3) rn all). set (H2 := mz_H (fx f3)). clearbody K2 H2.
  destruct (magAxis_frame tcos tsin tatan2 d 2 K2 H2 (inn 2) f4) as [C1 C2]. pose proof (magAxis_nan tcos tsin tatan2 d 2 K2 H2 (inn 2) f4) as L5. pose proof (magAxis_keep tcos tsin tatan2 d 2 K2 H2 (inn 2) f4) as M5.
  set (f5 := magAxis tcos tsin tatan2 d 2 K2 H2 (inn 2) f4) in *. clearbody f5. rewrite C2, Z4, R3.
  split; [destruct k as [|[|[|k]]]; try assumption; lia|]. intros E0 E1 E2 i _. destruct (Nat.eq_dec k 2) as [->|NE]; [apply (L5 NI); exact E2|].
  apply M5. rewrite X4. apply L03; [lia| |]; [rewrite <- Y4, <- C1 by lia; exact E0|rewrite <- Y4, <- C1 by lia; exact E1].
Qed.
(** heading (magnetic, external vision or any other): a NaN heading *)
Theorem C90_heading : forall (twrap : f32 -> f32) resetAll (on_ground : bool) (h : Vec f32) (pred yaw variance gate : f32) (f : fus f32), nan_fun twrap ->
  is_nan yaw = true -> let rn := sfmax variance (slit 1 10000) in fle rn (yawVar (fP f) h rn) = true ->
  let f' := fuseYaw twrap resetAll on_ground (Some h) pred yaw variance gate false f in
  frej f' 3 = false /\ (fbad f' 3 = false -> lost f') /\ (fbad f' 3 = true -> fx f' = fx f).
Proof.
  intros twrap rA og h pred yaw variance gate f W N. cbv zeta. set (rn := sfmax variance (slit 1 10000)). intros V. unfold fuseYaw. fold rn. cbv zeta iota.
  assert (NI : is_nan (twrap (fsub pred (twrap yaw))) = true) by (apply W, nan_sub_r, W, N). fsc. set (innov := twrap (fsub pred (twrap yaw))) in *. clearbody innov. set (g := smaxi gate _). clearbody g.
  unfold updateQuaternion. fsc. rewrite V. rewrite (nan_lt_r _ (ratio innov g (yawVar (fP f) h rn))) by (apply ratio_nan, NI). cbn [andb]. set (b := setInnov 3 innov _).
  assert (B : frej b 3 = false /\ fx b = fx f) by (split; reflexivity). destruct B as (B1 & B2). clearbody b. set (K := yawGain _ _ _ _). set (KHP := yawKHP _ _ _). clearbody K KHP.
  pose proof (applyUpdate_nan KHP K innov (fc b) (fs b) NI) as A. destruct (applyUpdate KHP K innov (fc b) (fs b)) as [[c s] ok]. cbn.
  split; [exact B1|]. destruct ok; split; try discriminate; intros _.
  - intros i _. apply A.
  - unfold fx. cbn. rewrite A. exact B2.
Qed.
(** drag specific force: a NaN axis is ignored; velocities and positions: C22_nan_rejected *)
Theorem C90_drag_ignored : forall ax (rn rho binv acc : f32) (rel : Vec f32) (f : fus f32), is_nan acc = true ->
  let f' := fst (dragAxis ax rn rho binv acc rel f) in fx f' = fx f /\ fP f' = fP f.
Proof.
  intros ax rn rho binv acc rel f N. cbv zeta. unfold dragAxis. cbv zeta. fsc.
  assert (NM : is_nan (dragMeas acc (fx f (13 + ax)) (x_dt_ekf_avg (fc f))) = true) by (unfold dragMeas; fsc; auto with nan). set (mea := dragMeas _ _ _) in *. clearbody mea.
  set (var := if ax =? 0 then _ else _). clearbody var. destruct (flt var rn); [split; reflexivity|].
  set (innov := fsub _ mea). assert (NI : is_nan innov = true) by (apply nan_sub_r, NM). clearbody innov.
  rewrite (nan_le_l (fdiv (sq innov) _)) by auto with nan. split; reflexivity.
Qed.

(** ** What becomes of it *)
Section Trig.
Variables (tsin tcos tasin : f32 -> f32) (tatan2 : f32 -> f32 -> f32) (pi2 rad20 : f32).
Hypotheses (Hsin : nan_fun tsin) (Hcos : nan_fun tcos) (Hasin : nan_fun tasin) (Hat : forall a b, is_nan a = true -> is_nan (tatan2 a b) = true).

(** IMU: a NaN delta angle loses attitude, velocity and position; a NaN delta velocity the velocity and position *)
Theorem C90_imu : forall (lim : f32) earth (i : gimu f32) (s : predG f32), let x' := g_x (predictG tsin tcos rad20 lim earth i s) in
  ((exists k, k < 3 /\ is_nan (gi_da i k) = true) -> forall j, j < 10 -> is_nan (x' j) = true) /\
  ((exists k, k < 3 /\ is_nan (gi_dv i k) = true) -> forall j, 4 <= j < 10 -> is_nan (x' j) = true).
Proof.
  intros lim earth i s. cbv zeta. split.
  - intros H j Hj. destruct (le_lt_dec 4 j); [apply predictG_vp; [exact Hcos|right; left; exact H|lia]|apply predictG_quat; [exact Hcos|right; exact H|assumption]].
  - intros H j Hj. apply predictG_vp; [exact Hcos|right; right; exact H|lia].
Qed.

(** everything the filter does to its states between start-up and the next initialisation: prediction, any
    measurement update, a yaw reset, and any change of the other states (the resets of velocity,
    position, field, biases, wind) or of the rotation matrix *)
Inductive sop := SPredict (lim : f32) (earth : Vec f32) (i : gimu f32) | SFuse (K : Vec f32) (innov : f32) | SYaw (yaw : f32)
  | SOther (change : Vec f32 -> Vec f32) (R : Mat f32).
Definition sstep (o : sop) (s : predG f32) : predG f32 :=
  let upd x R := PredG x R (g_lpn s) (g_lpe s) (g_dt s) (g_rate s) in
  match o with
  | SPredict lim earth i => predictG tsin tcos rad20 lim earth i s
  | SFuse K innov => upd (fuse K innov (g_x s)) (g_R s)
  | SYaw yaw => let x := yawResetG tsin tcos tasin tatan2 pi2 yaw (g_x s) in upd x (dcmv x)
  | SOther c R => upd (fun k => if k <? 4 then g_x s k else c (g_x s) k) R
  end.
Fixpoint srun (l : list sop) (s : predG f32) : predG f32 := match l with [] => s | o :: r => srun r (sstep o s) end.
(** once one attitude component is NaN, no history brings the attitude back *)
Lemma step_keeps o s : some4 (g_x s) -> some4 (g_x (sstep o s)).
Proof.
  intros H. destruct o; cbn [sstep g_x].
  - apply nan4_some. exact (predictG_quat tsin tcos Hcos rad20 lim earth i s (or_introl H)).
  - apply nan4_some, (proj2 (fuse_keep K innov (g_x s))), H.
  - exact (nan4_some _ (yawReset_nan tsin tcos Hsin Hcos tasin tatan2 pi2 Hasin Hat yaw (g_x s) H)).
  - destruct H as (k & Hk & N). exists k. split; [exact Hk|]. rewrite (proj2 (Nat.ltb_lt k 4) Hk). exact N.
Qed.
Theorem C90_never_recovers : forall l s, (exists k, k < 4 /\ is_nan (g_x s k) = true) ->
  (exists k, k < 4 /\ is_nan (g_x (srun l s) k) = true) /\
  (forall o, match o with SOther _ _ => False | _ => True end -> forall k, k < 4 -> is_nan (g_x (sstep o (srun l s)) k) = true) /\
  (forall lim earth i k, k < 10 -> is_nan (g_x (sstep (SPredict lim earth i) (srun l s)) k) = true).
Proof.
  intros l s H. assert (A : some4 (g_x (srun l s))). { revert s H. induction l as [|o l IH]; intros s H; [exact H|]. apply IH, step_keeps, H. }
  split; [exact A|]. split.
  - intros o Ho k Hk. destruct o; try contradiction.
    + exact (predictG_quat tsin tcos Hcos rad20 lim earth i _ (or_introl A) k Hk).
    + exact (proj2 (fuse_keep K innov _) A k Hk).
    + exact (yawReset_nan tsin tcos Hsin Hcos tasin tatan2 pi2 Hasin Hat yaw _ A k Hk).
  - intros lim earth i k Hk. destruct (le_lt_dec 4 k); [apply predictG_vp; [exact Hcos|left; exact A|lia]|apply predictG_quat; [exact Hcos|left; exact A|assumption]].
Qed.

(** ** What is published *)
Notation zo := (zero_out (T := f32)).
(** one call with the filter updated makes the angle correction NaN, the next call the published
    attitude, whatever the filter does to its own states in between; from then on the
    published attitude stays NaN *)
Lemma observe_new (i : imuin f32) (s : ost f32) : Inv zo (o_buf s) -> time_ok (o_new s) ->
  oq (payload (o_new (observe i s))) = oq (payload (o_new s)) /\ e_q (observe i s) = e_q s.
Proof.
  intros HI HT. unfold observe. cbv zeta. cbn [o_new e_q applyCorrection applyVertCorrection setVert setOut o_buf].
  rewrite (newest_map zo) by (apply inv_push; assumption). rewrite (push_newest zo) by exact HI. split; reflexivity.
Qed.
Lemma propagate_nan (i : imuin f32) (s : ost f32) : some4 (oq (payload (o_new s))) \/ some3 (o_dacorr s) -> nan4 (oq (payload (o_new (propagate (expqG tsin tcos) i s)))).
Proof.
  intros H. cbn [propagate o_new payload oq]. unfold new_quat. apply qnormv_nan, nan4_some. destruct H as [H|(k & Hk & N)]; [apply qmulv_nan_l, H|].
  apply qmulv_nan_r, nan4_some, expqG_nan; [assumption|]. exists k. split; [exact Hk|]. unfold dangle. fsc. auto with nan.
Qed.
Lemma calc_new (i : imuin f32) (s : ost f32) : Inv zo (o_buf s) -> (0 <= i_time i < two64 - 100000)%Z ->
  oq (payload (o_new (calculateOutputStates (expqG tsin tcos) i s))) = oq (payload (o_new (propagate (expqG tsin tcos) i s))).
Proof.
  intros HI HT. unfold calculateOutputStates. destruct (i_updated i); [|reflexivity]. apply (observe_new i (propagate (expqG tsin tcos) i s)); [exact HI|exact HT].
Qed.
Theorem C90_published_attitude : forall (i j : imuin f32) (s s' : ost f32), Inv zo (o_buf s') -> (0 <= i_time j < two64 - 100000)%Z ->
  i_updated i = true -> (exists k, k < 4 /\ is_nan (e_q s k) = true) ->
  (* between the two calls only the filter's own states and the published resets change *)
  o_dacorr s' = o_dacorr (calculateOutputStates (expqG tsin tcos) i s) ->
  forall k, k < 4 -> is_nan (oq (payload (o_new (calculateOutputStates (expqG tsin tcos) j s'))) k) = true.
Proof.
  intros i j s s' HI HT U N E k Hk. rewrite calc_new by assumption. apply propagate_nan; [|exact Hk]. right. exists 0. split; [lia|]. rewrite E.
  unfold calculateOutputStates. rewrite U. unfold observe. cbv zeta. cbn [o_dacorr applyCorrection applyVertCorrection setVert setOut e_q propagate]. fsc.
  apply nan_mul_l, nan_mul_r. apply qnormv_nan; [|lia]. apply nan4_some, qmulv_nan_l, nan4_some, qinvv_nan. exact N.
Qed.
Inductive fop := FStep (i : imuin f32) | FEkf (q v p ab vb : Vec f32) | FHVel (new : Vec f32) | FVVel (new : f32) | FHPos (new : Vec f32) | FVPos (new : f32) | FQuat (after : Vec f32) (upd : bool).
Definition fstep (o : fop) (s : ost f32) : ost f32 :=
  match o with
  | FStep i => calculateOutputStates (expqG tsin tcos) i s
  | FEkf q v p ab vb => mkO q v p ab vb (o_new s) (w_new s) (o_buf s) (w_buf s) (o_rst s) (o_Rq s) (o_dacorr s) (o_vint s) (o_pint s) (o_track s) (o_yaw_delta s)
  | FHVel n => resetHorizontalVelocityTo n s | FVVel n => resetVerticalVelocityTo n s
  | FHPos n => resetHorizontalPositionTo n s | FVPos n => resetVerticalPositionTo n s | FQuat a u => resetQuat a u s
  end.
Fixpoint frun (l : list fop) (s : ost f32) : ost f32 := match l with [] => s | o :: r => frun r (fstep o s) end.
Lemma fstep_keeps o (s : ost f32) : Inv zo (o_buf s) -> match o with FStep i => (0 <= i_time i < two64 - 100000)%Z | _ => True end ->
  some4 (oq (payload (o_new s))) -> Inv zo (o_buf (fstep o s)) /\ some4 (oq (payload (o_new (fstep o s)))).
Proof.
  intros HI HT H. destruct o; cbn [fstep].
  - split; [|rewrite calc_new by assumption; apply nan4_some, propagate_nan; left; exact H].
    unfold calculateOutputStates. destruct (i_updated i); [|exact HI]. unfold observe. cbv zeta. cbn [o_buf applyCorrection applyVertCorrection setVert setOut propagate].
    apply inv_map_all, inv_push; [exact HI|exact HT].
  - split; assumption.
  - split; [apply inv_map_all, HI|exact H].
  - split; [apply inv_map_all, HI|exact H].
  - split; [apply inv_map_all, HI|exact H].
  - split; [apply inv_map_all, HI|exact H].
  - unfold resetQuat. cbv zeta. destruct upd; [|split; assumption]. split; [apply inv_map_all, HI|]. cbn [setOut o_new smap payload withQ oq]. apply nan4_some, qmulv_nan_r, H.
Qed.
Theorem C90_published_stays : forall l (s : ost f32), Inv zo (o_buf s) -> (forall o, In o l -> match o with FStep i => (0 <= i_time i < two64 - 100000)%Z | _ => True end) ->
  (exists k, k < 4 /\ is_nan (oq (payload (o_new s)) k) = true) -> (exists k, k < 4 /\ is_nan (oq (payload (o_new (frun l s))) k) = true).
Proof.
  induction l as [|o l IH]; intros s HI HT H; [exact H|]. cbn [frun]. destruct (fstep_keeps o s HI (HT o (or_introl eq_refl)) H) as [A B].
  apply IH; [exact A|intros; apply HT; right; assumption|exact B].
Qed.
End Trig.

(** ** The prediction and yaw reset used here are those of PredictModel.v and RotModel.v, read in another arithmetic *)
Theorem C90_same_prediction : forall (lim : R) (earth : Vec R) (i : gimu R) (s : predG R) (yaw : R) (x : Vec R),
  prof (predictG sin cos (20 * PI / 180)%R lim earth i s) = PredictModel.predictState lim (v3of earth) (imuof i) (prof s) /\
  q4of (yawResetG sin cos asin RotModel.atan2 (PI / 2)%R yaw x) = RotModel.yawResetQuat yaw (q4of x) /\
  forall k, 4 <= k -> yawResetG sin cos asin RotModel.atan2 (PI / 2)%R yaw x k = x k.
Proof. intros. split; [apply predictG_real|]. apply yawResetG_real. Qed.
(** ** The hypotheses are met: cruise at 20 m/s, an airspeed sample of NaN; functions that return NaN for NaN exist *)
Definition cruising : fus f32 :=
  mkf (fun i => if (i =? 0)%nat then sone else if (i =? 4)%nat then slit 20 1 else szero) true (fun i j => if (i =? j)%nat then slit 1 10 else szero).
Example C90_airspeed_example :
  flt (as_v_tas_pred (fx cruising)) (flit 1 1) = false /\ flt (as_S (fx cruising) (fP cruising) (tasVar (slit 14 10) (slit 1 1))) (tasVar (slit 14 10) (slit 1 1)) = false /\
  fbad (fuseAirspeed (fun f => f) (fun _ M => M) false (slit 14 10) (slit 3 1) fnan (slit 1 1) cruising) 4 = false.
Proof. vm_compute. auto. Qed.
Definition withmag : fus f32 :=
  mkf (fun i => if (i =? 0)%nat then sone else if (i =? 16)%nat then slit 1 4 else if (i =? 18)%nat then slit 1 2 else szero) false (fun i j => if (i =? j)%nat then slit 1 100 else szero).
Example C90_magnetometer_example : let rn := sq (sfmax (slit 5 100) szero) in
  flt (mx_S (fx withmag) (fP withmag) rn) rn = false /\ flt (iv_S1 (fx withmag) (fP withmag) rn) rn = false /\ flt (iv_S2 (fx withmag) (fP withmag) rn) rn = false.
Proof. vm_compute. auto. Qed.
Example C90_heading_example : let rn := sfmax (slit 9 100) (slit 1 10000) in fle rn (yawVar (fP withmag) (fun k => if k =? 3 then slit 2 1 else szero) rn) = true /\ (match H321 (fx withmag) with Some _ => true | None => false end) = true.
Proof. vm_compute. split; reflexivity. Qed.
Example C90_functions_exist : nan_fun (fun a => a).
Proof. intros a H. exact H. Qed.
Print Assumptions C90_airspeed. Print Assumptions C90_flow. Print Assumptions C90_magnetometer. Print Assumptions C90_heading. Print Assumptions C90_drag_ignored.
Print Assumptions C90_imu. Print Assumptions C90_never_recovers. Print Assumptions C90_published_attitude. Print Assumptions C90_published_stays.
Print Assumptions C90_same_prediction.

(** * C97: the published attitude in single precision

    [calculateOutputStates] (OutputModel.v) over binary32, with everything else that touches the
    output predictor: [fop] of Props_Nan.v (one call of the predictor, the filter's own
    states changing, the five resets) and alignOutputFilter.  [unitF q]
    (NoNanProofs2.v): finite and of unit length to 1/4000.  [bnd x B]: finite and |x| <= B.
    [accurate_all] (NoNanProofs.v): sinf and cosf are accurate to 3e-7
    for every finite argument. *)
From Coq Require Import Reals Lra Psatz.
From Verif Require Import CBase Scalar RealGeom RotModel RotProofs F32 F32More F32Err CovModel RingBufferModel RingBufferProofs OutputModel OutputHist NanModel Props_Sense Props_Sense2 NanProofs AttFloatModel AttFloatProofs AttFloatProofs2 NoNanProofs NoNanProofs2 Props_Nan Props_AttFloat Props_NoNan OutFloatProofs.
Open Scope R_scope.
Notation zo := (zero_out (T := f32)).

(** what happens to the predictor between two publications *)
Inductive oop := OFly (o : fop) | OAlign.
(** ordinary data: inertial samples of at most 4 rad, average intervals of 0.1 ms to 1 s (IMU) and 4 to 22 ms (filter), a time
    horizon at most 16.7 s old; the filter's attitude a unit quaternion and its bias at most 1 (both by C96); yaw resets to a unit quaternion (C95) *)
Definition usual (o : oop) : Prop := match o with
  | OFly (FStep i) => (0 <= i_time i < two64 - 100000)%Z /\ (0 <= i_tdelayed i)%Z /\ (i_updated i = true -> (0 <= i_time i - i_tdelayed i <= 2 ^ 24)%Z) /\
      (forall k, (k < 3)%nat -> bnd (i_da i k) 4) /\ is_finite (i_dt_imu_avg i) = true /\ 1 / 10000 <= R32 (i_dt_imu_avg i) <= 1 /\
      is_finite (i_dt_ekf_avg i) = true /\ 4 / 1000 <= R32 (i_dt_ekf_avg i) <= 22 / 1000
  | OFly (FEkf q _ _ ab _) => unitF q /\ (forall k, (k < 3)%nat -> bnd (ab k) 1)
  | OFly (FQuat after _) => unitF after
  | OFly (FHVel _) | OFly (FVVel _) | OFly (FHPos _) | OFly (FVPos _) | OAlign => True
  end.
(** number of attitude resets passed on to the predictor *)
Fixpoint turns (l : list oop) : nat := match l with [] => O | OFly (FQuat _ true) :: r => Datatypes.S (turns r) | _ :: r => turns r end.
(** filter attitude, buffered attitudes and published attitude of unit length to c; bias and correction bounded *)
Definition soundTo (c : R) (s : ost f32) : Prop :=
  unitF (e_q s) /\ (forall k, (k < 3)%nat -> bnd (e_ab s k) 1) /\ (forall k, (k < 3)%nat -> bnd (o_dacorr s k) 2) /\ Inv zo (o_buf s) /\
  (forall x, In x (buffer (o_buf s)) -> qok c (oq (payload x))) /\ qok c (oq (payload (o_new s))).

Lemma zo_ok c : 0 <= c -> qok c (oq zo).
Proof.
  intros C. destruct (flit_int 1 ltac:(lia)) as [F1 EO]. split.
  - intros [|k] Hk; [exact F1|reflexivity].
  - assert (E : qr (oq zo) = mkQ 1 0 0 0) by (unfold qr; f_equal; [exact EO|reflexivity..]). rewrite E. unfold qnorm2. cbn [q0 q1 q2 q3]. replace (1 ^ 2 + 0 ^ 2 + 0 ^ 2 + 0 ^ 2 - 1) with 0 by ring. rewrite Rabs_R0. exact C.
Qed.
Lemma load_ok {A} (P : sample A -> Prop) z k (l : list (sample A)) : (forall x, In x l -> P x) -> P (zero_sample z) -> P (load z k l).
Proof. intros H Z. unfold load. destruct (nth_in_or_default k l (zero_sample z)) as [I| ->]; [apply H, I|exact Z]. Qed.
Lemma store_in {A} i (x : sample A) l y : In y (store i x l) -> y = x \/ In y l.
Proof.
  revert i. induction l as [|a l IH]; intros [|i] H; cbn [store] in H.
  - contradiction.
  - contradiction.
  - destruct H as [<-|H]; [left; reflexivity|right; right; exact H].
  - destruct H as [<-|H]; [right; left; reflexivity|]. destruct (IH i H) as [->|I]; [left; reflexivity|right; right; exact I].
Qed.
Lemma push_in {A} (x : sample A) b y : In y (buffer (push x b)) -> y = x \/ In y (buffer b).
Proof. unfold push. destruct (_ && _); cbn [buffer]; apply store_in. Qed.
Lemma map_all_ok (P : sample (outp f32) -> Prop) (Q : sample (outp f32) -> Prop) f (b : ring (outp f32)) : (forall x, In x (buffer b) -> P x) -> (forall x, P x -> Q (smap f x)) -> forall x, In x (buffer (map_all f b)) -> Q x.
Proof. intros H T x I. cbn [map_all buffer] in I. apply in_map_iff in I. destruct I as (y & <- & J). apply T, H, J. Qed.

Section Lib.
Variables (tsin tcos : f32 -> f32).
Hypothesis HT : accurate_all tsin tcos.
Notation ex := (expqG tsin tcos).
Definition ostep (o : oop) (s : ost f32) : ost f32 := match o with OFly f => fstep tsin tcos f s | OAlign => alignOutputFilter s end.
Fixpoint orun (l : list oop) (s : ost f32) : ost f32 := match l with [] => s | o :: r => orun r (ostep o s) end.

Lemma dangle_bnd i s c : soundTo c s -> usual (OFly (FStep i)) -> forall k, (k < 3)%nat -> bnd (dangle i s k) 40000000000000.
Proof.
  intros (_ & AB & DA & _) (_ & _ & _ & HA & F1 & R1 & F2 & R2) k Hk. unfold dangle, dscale. fsc.
  assert (D : bnd (fdiv (i_dt_imu_avg i) (i_dt_ekf_avg i)) 300).
  { assert (Q : Rabs (R32 (i_dt_imu_avg i) / R32 (i_dt_ekf_avg i)) <= 250).
    { unfold Rdiv. rewrite Rabs_mult, Rabs_inv, !Rabs_right by lra. apply (Rmult_le_reg_r (R32 (i_dt_ekf_avg i))); [lra|]. rewrite Rmult_assoc, Rinv_l by lra. lra. }
    eapply bnd_weak; [apply bnd_near; apply (near_div _ _ _ _ 0 0 0 250 1 (near_exact _ F1) (near_exact _ F2)); rewrite ?(Rabs_right (R32 (i_dt_ekf_avg i))) by lra|]; unfold huge, ulp1, tiny; lra. }
  eapply bnd_add; [eapply bnd_sub; [apply HA, Hk|eapply bnd_mul; [apply AB, Hk|exact D| |apply Rle_refl]| |apply Rle_refl]|apply DA, Hk| |]; unfold top, tiny; lra.
Qed.
Lemma propagate_sound c i s : soundTo c s -> c <= 1 / 2 -> usual (OFly (FStep i)) -> qok (5 / 100000) (new_quat ex i s).
Proof. intros S C U. apply (turn_float tsin tcos HT c); [apply S|exact C|eapply dangle_bnd; eassumption]. Qed.
Lemma neg_two : R32 (fneg (flit 2 1)) = -2 /\ is_finite (fneg (flit 2 1)) = true.
Proof. destruct (flit_int 2 ltac:(lia)) as [F E]. destruct (fneg_R (flit 2 1)) as [-> ->]. rewrite E, F. split; [reflexivity|reflexivity]. Qed.
(** the attitude correction of one call is at most 1.1 rad about each axis *)
Lemma corr_bnd c i s0 (q od : Vec f32) : soundTo c s0 -> usual (OFly (FStep i)) -> i_updated i = true -> unitF q -> qok (1 / 2) od ->
  let qe := qnormv (qmulv (qinvv q) od) in let sc : f32 := if sle szero (qe 0%nat) then sopp (slit 2 1) else slit 2 1 in
  let delay := sfmax (smul (slit (sub64 (i_time i) (i_tdelayed i)) 1) (slit 1 1000000)) (i_dt_imu_avg i) in
  forall k, (k < 3)%nat -> bnd (smul (smul sc (qe (Datatypes.S k))) (sdiv (smul (slit 1 2) (i_dt_imu_avg i)) delay)) (11 / 10).
Proof.
  intros _ (T1 & T2 & T3 & _ & F1 & R1 & _) U Q O. cbv zeta. intros k Hk. specialize (T3 U).
  destruct (inv_mul (1 / 4000) (1 / 2) q od Q O ltac:(lra) ltac:(lra)) as [_ [A B]]. destruct (qnormv_qok _ A B) as [_ CB]. set (qe := qnormv _) in *. clearbody qe.
  fsc. assert (SC : bnd (if fle szero (qe 0%nat) then fneg (flit 2 1) else flit 2 1) 2).
  { destruct (fle _ _); [destruct neg_two as [E F]; split; [exact F|rewrite E; rewrite Rabs_left; lra]|destruct (flit_int 2 ltac:(lia)) as [F E]; split; [exact F|rewrite E; rewrite Rabs_right; lra]]. }
  assert (ES : sub64 (i_time i) (i_tdelayed i) = (i_time i - i_tdelayed i)%Z) by (unfold sub64, u64; apply Z.mod_small; pose proof two64_val; lia). rewrite ES. clear ES.
  set (t := (i_time i - i_tdelayed i)%Z) in *. clearbody t. destruct (flit_int t ltac:(lia)) as [FT ET].
  assert (PT : 0 <= IZR t <= 16777216) by (split; [apply IZR_le; lia|change 16777216 with (IZR (2 ^ 24)); apply IZR_le; lia]).
  assert (NM : near (flit 1 1000000) (1 / 1000000) (/ 1000000000)) by (eapply near_weaken; [apply near_frac; [lia|lia|rewrite Rabs_right; lra]|rewrite Rabs_right by lra; unfold ulp1, tiny; lra]).
  assert (PM : is_finite (fmul (flit t 1) (flit 1 1000000)) = true).
  { destruct (near_mul (flit t 1) (flit 1 1000000) (IZR t) (1 / 1000000) 0 (/ 1000000000) 1 20 2) as [G _]; try (unfold huge, ulp1, tiny; lra).
    - rewrite <- ET. apply near_exact, FT.
    - exact NM.
    - rewrite !Rabs_right by lra. lra.
    - rewrite Rabs_right by lra. lra.
    - exact G. }
  destruct (c_fmaxf_R (fmul (flit t 1) (flit 1 1000000)) (i_dt_imu_avg i) PM F1) as [EM FM]. set (dl := c_fmaxf _ _) in *. clearbody dl.
  assert (LD : R32 (i_dt_imu_avg i) <= R32 dl) by (rewrite EM; apply Rmax_r). clear EM.
  assert (NH : near (fmul (flit 1 2) (i_dt_imu_avg i)) (1 / 2 * R32 (i_dt_imu_avg i)) (1 / 10000000)).
  { apply (near_mul _ _ _ _ 0 0 0 1 _ near_half (near_exact _ F1)); rewrite ?(Rabs_right (1 / 2 * R32 (i_dt_imu_avg i))) by lra; unfold huge, ulp1, tiny; lra. }
  assert (AG : bnd (fdiv (fmul (flit 1 2) (i_dt_imu_avg i)) dl) (51 / 100)).
  { set (a := R32 (i_dt_imu_avg i)) in *. clearbody a. set (b := R32 dl) in *. assert (Q1 : Rabs (1 / 2 * a / b) <= 1 / 2).
    { unfold Rdiv at 1. rewrite Rabs_mult, Rabs_inv, !Rabs_right by lra. apply (Rmult_le_reg_r b); [lra|]. rewrite Rmult_assoc, Rinv_l by lra. lra. }
    assert (NB : near dl b 0) by (apply near_exact, FM). eapply bnd_weak; [apply bnd_near; apply (near_div _ _ _ _ _ 0 (1 / 1000) 1 (2 / 1000) NH NB); rewrite ?(Rabs_right b) by lra; try (unfold huge, ulp1, tiny; lra)|lra]. }
  eapply bnd_weak; [eapply bnd_mul; [eapply bnd_mul; [exact SC|apply CB; lia| |apply Rle_refl]|exact AG| |apply Rle_refl]|]; unfold top, tiny; lra.
Qed.
Lemma new_map (f : outp f32 -> outp f32) c (b : ring (outp f32)) : 0 <= c -> (forall x, In x (buffer (map_all f b)) -> qok c (oq (payload x))) -> qok c (oq (payload (get_newest zo (map_all f b)))).
Proof. intros C H. unfold get_newest. apply (load_ok (fun x => qok c (oq (payload x)))); [exact H|apply zo_ok, C]. Qed.

Lemma step_sound c o s : soundTo c s -> 1 / 4000 <= c <= 49 / 100 -> usual o -> soundTo (c + 13 / 100000 * INR (turns [o])) (ostep o s).
Proof.
  intros S C U. pose proof S as (Q & AB & DA & I & B & N). destruct o as [[i|q v p ab vb|v|v|v|v|a upd]|]; cbn [turns ostep fstep INR]; try rewrite !Rmult_0_r, ?Rplus_0_r.
  - pose proof (propagate_sound c i s S ltac:(lra) U) as P. assert (P' : qok c (new_quat ex i s)) by (eapply qok_weak; [exact P|lra]).
    assert (SP : soundTo c (propagate ex i s)) by (unfold soundTo; cbn [propagate e_q e_ab o_dacorr o_buf o_new payload oq]; exact (conj Q (conj AB (conj DA (conj I (conj B P')))))).
    unfold calculateOutputStates. destruct (i_updated i) eqn:EU; [|exact SP].
    assert (TO : time_ok (o_new (propagate ex i s))) by (exact (proj1 U)).
    destruct (observe_new i (propagate ex i s) I TO) as [E1 E2].
    assert (BP : forall x, In x (buffer (push (o_new (propagate ex i s)) (o_buf s))) -> qok c (oq (payload x))) by (intros x Hx; apply push_in in Hx; destruct Hx as [->|Hx]; [exact P'|apply B, Hx]).
    unfold soundTo. rewrite E1, E2. split; [exact Q|]. split; [exact AB|]. split; [|split; [|split; [|exact P']]].
    + intros k Hk. eapply bnd_weak; [|apply Rlt_le; instantiate (1 := 11 / 10); lra]. unfold observe. cbv zeta. cbn [o_dacorr applyCorrection applyVertCorrection setVert setOut e_q o_buf].
      apply (corr_bnd c i s); try assumption. unfold get_oldest. apply (load_ok (fun x => qok (1 / 2) (oq (payload x)))); [|apply zo_ok; lra].
      intros x Hx. eapply qok_weak; [apply BP, Hx|lra].
    + unfold observe. cbv zeta. cbn [o_buf applyCorrection applyVertCorrection setVert setOut propagate]. apply inv_map_all, inv_push; [exact I|exact TO].
    + unfold observe. cbv zeta. cbn [o_buf applyCorrection applyVertCorrection setVert setOut propagate]. eapply map_all_ok; [exact BP|intros x Hx; exact Hx].
  - destruct U as [U1 U2]. exact (conj U1 (conj U2 (conj DA (conj I (conj B N))))).
  - refine (conj Q (conj AB (conj DA (conj _ (conj _ N))))); [apply inv_map_all, I|eapply map_all_ok; [exact B|intros x Hx; exact Hx]].
  - refine (conj Q (conj AB (conj DA (conj _ (conj _ N))))); [apply inv_map_all, I|eapply map_all_ok; [exact B|intros x Hx; exact Hx]].
  - refine (conj Q (conj AB (conj DA (conj _ (conj _ N))))); [apply inv_map_all, I|eapply map_all_ok; [exact B|intros x Hx; exact Hx]].
  - refine (conj Q (conj AB (conj DA (conj _ (conj _ N))))); [apply inv_map_all, I|eapply map_all_ok; [exact B|intros x Hx; exact Hx]].
  - destruct (inv_mul (1 / 4000) (1 / 2) (e_q s) a Q ltac:(eapply qok_weak; [exact U|lra]) ltac:(lra) ltac:(lra)) as [[A1 A2] _]. destruct (qnormv_qok _ A1 A2) as [D _].
    assert (T : forall x, qok c x -> qok (c + 13 / 100000) (qmulv (qnormv (qmulv a (qinvv (e_q s)))) x)) by (intros x Hx; apply turn_qok; [exact D|exact Hx|lra]).
    unfold resetQuat. cbv zeta. destruct upd; cbn [turns INR]; rewrite ?Rmult_0_r, ?Rplus_0_r, ?Rmult_1_r.
    + refine (conj U (conj AB (conj DA (conj _ (conj _ _))))); [apply inv_map_all, I|eapply map_all_ok; [exact B|intros x Hx; apply T, Hx]|apply T, N].
    + exact (conj U (conj AB (conj DA (conj I (conj B N))))).
  - assert (OO : qok (1 / 2) (oq (payload (get_oldest zo (o_buf s))))) by (unfold get_oldest; apply (load_ok (fun x => qok (1 / 2) (oq (payload x)))); [intros x Hx; eapply qok_weak; [apply B, Hx|lra]|apply zo_ok; lra]).
    destruct (inv_mul (1 / 2) (1 / 2) _ (e_q s) OO ltac:(eapply qok_weak; [exact Q|lra]) ltac:(lra) ltac:(lra)) as [[A1 A2] _]. destruct (qnormv_qok _ A1 A2) as [D _].
    assert (T : forall x, qok c x -> qok c (qnormv (qmulv (qnormv (qmulv (e_q s) (qinvv (oq (payload (get_oldest zo (o_buf s))))))) x))).
    { intros x Hx. set (d := qnormv _) in *. clearbody d. assert (H2 : qok (1 / 2) (qmulv d x)) by (eapply qok_weak; [apply (turn_qok c); [exact D|exact Hx|lra]|lra]). destruct H2 as [G1 G2]. apply Rabs_le_inv in G2.
      eapply qok_weak; [apply (qnormv_qok _ G1); lra|lra]. }
    assert (BM : forall x, In x (buffer (o_buf (alignOutputFilter s))) -> qok c (oq (payload x))) by (unfold alignOutputFilter; cbv zeta; cbn [setOut o_buf]; eapply map_all_ok; [exact B|intros x Hx; apply T, Hx]).
    refine (conj Q (conj AB (conj DA (conj _ (conj BM _))))); [apply inv_map_all, I|]. unfold alignOutputFilter in *. cbv zeta in *. cbn [setOut o_new o_buf] in *. apply new_map; [lra|exact BM].
Qed.
Lemma turns_cons o l : turns (o :: l) = (turns [o] + turns l)%nat.
Proof. destruct o as [[]|]; try reflexivity. destruct upd; reflexivity. Qed.
Lemma run_sound : forall l c s, soundTo c s -> 1 / 4000 <= c -> c + 13 / 100000 * INR (turns l) <= 49 / 100 -> (forall o, In o l -> usual o) -> soundTo (c + 13 / 100000 * INR (turns l)) (orun l s).
Proof.
  induction l as [|o l IH]; intros c s S C L U.
  - cbn [turns INR orun]. rewrite Rmult_0_r, Rplus_0_r. exact S.
  - cbn [orun]. rewrite turns_cons, plus_INR in *. pose proof (pos_INR (turns l)). pose proof (pos_INR (turns [o])).
    replace (c + 13 / 100000 * (INR (turns [o]) + INR (turns l))) with ((c + 13 / 100000 * INR (turns [o])) + 13 / 100000 * INR (turns l)) in * by ring.
    apply IH; [apply step_sound; [exact S|lra|apply U; left; reflexivity]|lra|exact L|intros p Hp; apply U; right; exact Hp].
Qed.
Lemma run_app l m s : orun (l ++ m) s = orun m (orun l s). Proof. revert s. induction l as [|o l IH]; intros s; [reflexivity|]. cbn [app orun]. apply IH. Qed.
Lemma budget l : (turns l <= 3000)%nat -> 1 / 4000 + 13 / 100000 * INR (turns l) <= 49 / 100.
Proof. intros H. apply le_INR in H. replace (INR 3000) with 3000 in H by (rewrite INR_IZR_INZ; reflexivity). lra. Qed.

(** after every call of the predictor the published attitude is a finite unit quaternion, whatever calls, corrections,
    resets and alignments there were before, as long as no more than 3000 attitude resets were passed on *)
Theorem C97_unit_attitude : forall (l : list oop) (i : imuin f32) (s : ost f32), soundTo (1 / 4000) s -> (forall o, In o l -> usual o) -> usual (OFly (FStep i)) -> (turns l <= 3000)%nat ->
  let q := oq (payload (o_new (ostep (OFly (FStep i)) (orun l s)))) in
  (forall k, (k < 4)%nat -> is_finite (q k) = true) /\ Rabs (qnorm2 (qr q) - 1) <= 5 / 100000.
Proof.
  intros l i s S U V L. cbv zeta. pose proof (run_sound l _ s S ltac:(lra) (budget l L) U) as R. pose proof (budget l L) as BB. set (s1 := orun l s) in *. clearbody s1. cbn [ostep fstep].
  destruct R as (R1 & R2 & R3 & R4 & R5 & R6). rewrite (calc_new tsin tcos i s1 R4 (proj1 V)). cbn [propagate o_new payload oq].
  apply (propagate_sound (1 / 4000 + 13 / 100000 * INR (turns l))); [exact (conj R1 (conj R2 (conj R3 (conj R4 (conj R5 R6)))))|lra|exact V].
Qed.
(** the correction of the attitude applied per call stays below 1.1 rad about each axis *)
Theorem C97_correction : forall (l : list oop) (i : imuin f32) (s : ost f32), soundTo (1 / 4000) s -> (forall o, In o l -> usual o) -> usual (OFly (FStep i)) -> (turns l <= 3000)%nat -> i_updated i = true ->
  forall k, (k < 3)%nat -> bnd (o_dacorr (ostep (OFly (FStep i)) (orun l s)) k) (11 / 10).
Proof.
  intros l i s S U V L EU k Hk. pose proof (run_sound l _ s S ltac:(lra) (budget l L) U) as R. pose proof (budget l L) as BB. set (s1 := orun l s) in *. clearbody s1. cbn [ostep fstep].
  set (c := 1 / 4000 + 13 / 100000 * INR (turns l)) in *. assert (C0 : 1 / 4000 <= c) by (unfold c; pose proof (pos_INR (turns l)); lra). clearbody c.
  assert (P' : qok c (new_quat ex i s1)) by (eapply qok_weak; [apply (propagate_sound c); [exact R|lra|exact V]|lra]).
  unfold calculateOutputStates. rewrite EU. unfold observe. cbv zeta. cbn [o_dacorr applyCorrection applyVertCorrection setVert setOut e_q o_buf].
  apply (corr_bnd c i s1); try assumption; [exact (proj1 R)|]. unfold get_oldest. apply (load_ok (fun x => qok (1 / 2) (oq (payload x)))); [|apply zo_ok; lra].
  intros x Hx. apply push_in in Hx. destruct Hx as [->|Hx]; [eapply qok_weak; [exact P'|lra]|eapply qok_weak; [apply R, Hx|lra]].
Qed.
(** the published attitude is the one published before turned by the corrected delta angle, to 1e-4 *)
Theorem C97_turn : forall (l : list oop) (i j : imuin f32) (s : ost f32), soundTo (1 / 4000) s -> (forall o, In o l -> usual o) -> usual (OFly (FStep i)) -> usual (OFly (FStep j)) -> (turns l <= 3000)%nat ->
  let s1 := ostep (OFly (FStep i)) (orun l s) in let s2 := ostep (OFly (FStep j)) s1 in
  let a := dangle j s1 in let v := mkV (R32 (a 0%nat)) (R32 (a 1%nat)) (R32 (a 2%nat)) in let q := qr (oq (payload (o_new s2))) in let e := qnormalize (qmul (qr (oq (payload (o_new s1)))) (qexp v)) in
  sqrt (vnorm2 v) <= 4 -> Rabs (q0 q - q0 e) <= 1 / 10000 /\ Rabs (q1 q - q1 e) <= 1 / 10000 /\ Rabs (q2 q - q2 e) <= 1 / 10000 /\ Rabs (q3 q - q3 e) <= 1 / 10000.
Proof.
  intros l i j s S U V W L. cbv zeta. pose proof (C97_unit_attitude l i s S U V L) as [F N].
  pose proof (run_sound (l ++ [OFly (FStep i)]) (1 / 4000) s S ltac:(lra)) as R. rewrite run_app in R. cbn [orun] in R.
  assert (TE : turns (l ++ [OFly (FStep i)]) = turns l) by (clear; induction l as [|o l IH]; [reflexivity|]; cbn [app]; rewrite turns_cons, IH, (turns_cons o l); reflexivity).
  rewrite TE in R. specialize (R (budget l L) ltac:(intros o Ho; apply in_app_or in Ho; destruct Ho as [Ho|[<-|[]]]; [apply U, Ho|exact V])). pose proof (budget l L) as BB.
  set (s1 := ostep (OFly (FStep i)) (orun l s)) in *. clearbody s1. intros H. cbn [ostep fstep]. pose proof R as (_ & _ & _ & I & _). rewrite (calc_new tsin tcos j s1 I (proj1 W)). cbn [propagate o_new payload oq].
  unfold new_quat. apply (turn_accurate tsin tcos HT); [split; [exact F|lra]|eapply dangle_bnd; eassumption|exact H].
Qed.
End Lib.
(** the corrected angle is the measured one, less the bias scaled to the sample interval, plus the correction, to 1e-6 *)
Theorem C97_angle : forall (j : imuin f32) (s : ost f32), (forall k, (k < 3)%nat -> bnd (i_da j k) 4 /\ bnd (e_ab s k) (1 / 100) /\ bnd (o_dacorr s k) 2) ->
  is_finite (i_dt_imu_avg j) = true -> is_finite (i_dt_ekf_avg j) = true -> 4 / 1000 <= R32 (i_dt_ekf_avg j) -> 0 <= R32 (i_dt_imu_avg j) <= 2 * R32 (i_dt_ekf_avg j) ->
  forall k, (k < 3)%nat -> near (dangle j s k) (R32 (i_da j k) - R32 (e_ab s k) * (R32 (i_dt_imu_avg j) / R32 (i_dt_ekf_avg j)) + R32 (o_dacorr s k)) (1 / 1000000).
Proof.
  intros j s A F1 F2 R2 R1 k Hk. destruct (A k Hk) as ([FA HA] & [FB HB] & [FC HC]). unfold dangle, dscale. fsc.
  set (m := R32 (i_dt_imu_avg j)) in *. set (e := R32 (i_dt_ekf_avg j)) in *. assert (Q : Rabs (m / e) <= 2).
  { unfold Rdiv. rewrite Rabs_mult, Rabs_inv, !Rabs_right by lra. apply (Rmult_le_reg_r e); [lra|]. rewrite Rmult_assoc, Rinv_l by lra. lra. }
  assert (D : near (fdiv (i_dt_imu_avg j) (i_dt_ekf_avg j)) (m / e) (2 / 10000000)) by (apply (near_div _ _ _ _ 0 0 0 2 _ (near_exact _ F1) (near_exact _ F2)); rewrite ?(Rabs_right (R32 (i_dt_ekf_avg j))) by (fold e; lra); fold m e; try (unfold huge, ulp1, tiny; lra)).
  set (r := m / e) in *. clearbody r. assert (PB : Rabs (R32 (e_ab s k) * r) <= 2 / 100) by (rewrite Rabs_mult; pose proof (Rabs_pos (R32 (e_ab s k))); pose proof (Rabs_pos r); nra).
  assert (M : near (fmul (e_ab s k) (fdiv (i_dt_imu_avg j) (i_dt_ekf_avg j))) (R32 (e_ab s k) * r) (1 / 100000000)).
  { apply (near_mul _ _ _ _ 0 _ (2 / 1000000000) (3 / 100) _ (near_exact _ FB) D); [lra|lra|unfold huge; lra|unfold ulp1, tiny; lra]. }
  pose proof (Rabs_triang (R32 (i_da j k)) (- (R32 (e_ab s k) * r))) as T. rewrite Rabs_Ropp in T. pose proof (Rabs_triang (R32 (i_da j k) - R32 (e_ab s k) * r) (R32 (o_dacorr s k))) as T2.
  assert (S1 : near (fsub (i_da j k) (fmul (e_ab s k) (fdiv (i_dt_imu_avg j) (i_dt_ekf_avg j)))) (R32 (i_da j k) - R32 (e_ab s k) * r) (3 / 10000000)).
  { apply (near_sub _ _ _ _ 0 _ (403 / 100) _ (near_exact _ FA) M); [unfold Rminus; lra|unfold huge; lra|unfold ulp1, tiny; lra]. }
  apply (near_add _ _ _ _ _ 0 (603 / 100) _ S1 (near_exact _ FC)); [unfold Rminus in *; lra|unfold huge; lra|unfold ulp1, tiny; lra].
Qed.
(** start of the filter: output buffer of n zero samples, newest output zero, no correction, any attitude a unit quaternion, any bias up to 1 *)
Theorem C97_from_start : forall (n : nat) (b : ring (outp f32)) (q v p ab vb : Vec f32) w wb r x y z t d, (0 < n < 256)%nat -> allocate zo n = Some b -> unitF q -> (forall k, (k < 3)%nat -> bnd (ab k) 1) ->
  soundTo (1 / 4000) (mkO q v p ab vb (zero_sample zo) w b wb r x (fun _ => f0) y z t d).
Proof.
  intros n b q v p ab vb w wb r x y z t d Hn A Q AB. unfold soundTo. cbn [e_q e_ab o_dacorr o_buf o_new]. destruct (inv_alloc zo n b ltac:(lia) A) as [I _].
  split; [exact Q|]. split; [exact AB|]. split; [intros k Hk; split; [reflexivity|change (R32 f0) with 0; rewrite Rabs_R0; lra]|]. split; [exact I|].
  unfold allocate in A. destruct (Nat.eqb_spec n 0); [lia|]. injection A as <-. cbn [buffer]. split; [intros u Hu; apply repeat_spec in Hu; subst u; apply zo_ok; lra|apply zo_ok; lra].
Qed.
(** ** Non-vacuity *)
Example C97_library_exists : accurate_all (lift1 sin) (lift1 cos).
Proof. apply C96_library_exists. Qed.
(** a sample at rest at 250 Hz, the filter's own attitude level, an attitude reset, an alignment *)
Example C97_usual_exists : usual (OFly (FStep (mkImu (fun _ => f0) atRest (flit 4 1000) (flit 4 1000) 5000000 true 4900000 (flit 4 1000) (flit 8 1000) (flit 1 4) (flit 1 4)))) /\
  usual (OFly (FEkf level (fun _ => f0) (fun _ => f0) (fun _ => f0) (fun _ => f0))) /\ usual (OFly (FQuat level true)) /\ usual OAlign.
Proof.
  assert (UL : unitF level).
  { destruct C95_level_meets as (_ & _ & L1 & L2). split; assumption. }
  assert (B0 : forall B, 0 <= B -> bnd f0 B) by (intros B HB; split; [reflexivity|change (R32 f0) with 0; rewrite Rabs_R0; exact HB]).
  assert (NF : forall n, (1 <= n <= 100)%Z -> near (flit n 1000) (IZR n / 1000) (1 / 1000000)).
  { intros n Hn. assert (1 <= IZR n <= 100) by (split; apply IZR_le; lia). eapply near_weaken; [apply near_frac; [lia|lia|rewrite Rabs_right; lra]|rewrite Rabs_right by lra; unfold ulp1, tiny; lra]. }
  pose proof (NF 4%Z ltac:(lia)) as [G1 E1]. pose proof (NF 8%Z ltac:(lia)) as [G2 E2]. apply Rabs_le_inv in E1, E2.
  split; [|split; [split; [exact UL|intros; apply B0; lra]|split; [exact UL|exact Logic.I]]].
  cbn [usual i_time i_tdelayed i_updated i_da i_dt_imu_avg i_dt_ekf_avg]. pose proof two64_val.
  split; [lia|]. split; [lia|]. split; [intros _; lia|]. split; [intros; apply B0; lra|]. split; [exact G1|]. split; [lra|]. split; [exact G2|lra].
Qed.
Print Assumptions C97_unit_attitude.
Print Assumptions C97_correction.
Print Assumptions C97_turn.
Print Assumptions C97_angle.
Print Assumptions C97_from_start.

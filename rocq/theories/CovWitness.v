(** * Witnesses: covariance prediction and update do not always keep P positive semidefinite *)
From Coq Require Import Reals Lra.
From Coquelicot Require Import Coquelicot.
From Verif Require Import CBase Scalar RealGeom CovSpec CovPredGen CovPredProofs CovPredEntries PsdLib CovModel CovProofs CovProofsR CovProofsR2 CovUpdProofs CovQuat2 CovHist.
Open Scope R_scope.

Lemma quad_three a b d i j k M : (i < 24)%nat -> (j < 24)%nat -> (k < 24)%nat ->
  quad (fun n => a * ev i n + b * ev j n + d * ev k n) M =
  a * a * M i i + b * b * M j j + d * d * M k k + a * b * (M i j + M j i) + a * d * (M i k + M k i) + b * d * (M j k + M k j).
Proof.
  intros Hi Hj Hk. unfold quad.
  assert (L : forall f, rsum 24 (fun n => (a * ev i n + b * ev j n + d * ev k n) * f n) = a * f i + b * f j + d * f k).
  { intros f. rewrite (rsum_ext _ _ (fun n => ev i n * (a * f n) + ev j n * (b * f n) + ev k n * (d * f n))) by (intros; ring).
    rewrite !rsum_plus, !rsum_ev by assumption. ring. }
  transitivity (rsum 24 (fun n => (a * ev i n + b * ev j n + d * ev k n) * (a * M n i + b * M n j + d * M n k))).
  - apply rsum_ext. intros n _. rewrite <- (L (fun m => M n m)), <- rsum_scal. apply rsum_ext. intros; ring.
  - rewrite L. ring.
Qed.

(** a context: hovering vehicle, biases and states zero except the attitude (1,0,0,0), zero process noise *)
Definition wctx (da0 : R) (clip0 inh_all wind : bool) : covctx R :=
  mkCtx (fun i => if (i =? 0)%nat then 1 else 0) (fun k => if (k =? 0)%nat then da0 else 0) (fun _ => 0)
    (fun k => clip0 && (k =? 0)%nat) (fun k => if (k =? 2)%nat then 1 else 0)
    0 0 1 1000 1000 0 0 0 0 1 0 0 1 inh_all false true false wind false false false true false false 0 0 0 0 0 0 (1 / 100) 0%Z.
Definition wst (M : Mat R) (inh : bool) (pv : R) : covst R :=
  mkCov M (fun _ => inh) (fun _ => pv) 0 0 (fun _ => 0) 0 (fun _ => 0) (fun _ => 0) false false 0%Z false.
Lemma dt_inv_val : (dt_inv : R) = 100.
Proof. unfold dt_inv. change (dt_ekf : R) with dtR. rewrite dtR_val, slitR. cbn. lra. Qed.
Lemma wctx_no_bad da0 cl ia wd : bad_acc_bias (wctx da0 cl ia wd) = false.
Proof.
  unfold bad_acc_bias. cbv zeta. replace (sgt _ _) with false; [reflexivity|]. symmetry. unfold sgt. apply sltR_false.
  unfold dot3. rewrite !slitR. rewrite szeroR. cbn -[IZR Rabs]. replace (0 + 0 * 0 + 0 * 0 + 0 * 1) with 0 by ring. rewrite Rabs_R0. lra.
Qed.
Lemma wctx_accHi da0 cl ia wd : accHi (wctx da0 cl ia wd) >= 9 / 100000.
Proof. unfold accHi, one_g, sq. rewrite !slitR. cbn -[IZR]. lra. Qed.
Lemma filt_small da0 cl ia wd M inh pv : 0 <= da0 <= 1 ->
  inhibit_all (wctx da0 cl ia wd) (filtStep (wctx da0 cl ia wd) (wst M inh pv)) = ia.
Proof.
  intros H. unfold inhibit_all. cbn [p_inhibit_acc_bias f_bad_acc_vertical wctx]. rewrite orb_false_r.
  replace (sgt _ _ || sgt _ _) with false; [apply orb_false_r|]. symmetry. apply orb_false_iff.
  assert (Z : forall b : R, Rmax (100 * sqrt (0 + b * b + 0 * 0 + 0 * 0)) 0 = 100 * sqrt (b * b)).
  { intros b. replace (0 + b * b + 0 * 0 + 0 * 0) with (b * b) by ring. apply Rmax_left. pose proof (sqrt_pos (b * b)). lra. }
  unfold filtStep, sgt. cbn [c_ang_filt c_acc_filt wctx p_acc_bias_learn_gyr_lim p_acc_bias_learn_acc_lim wst x_da x_dv].
  rewrite dt_inv_val. unfold norm3, dot3. rewrite szeroR. cbn [sfmax smul sadd ssqrt RScalar Nat.eqb].
  rewrite !Rmult_0_r. split; apply sltR_false.
  - replace (0 + da0 * da0 + 0 + 0) with (da0 * da0) by ring. rewrite sqrt_square by lra. apply Rmax_lub; lra.
  - replace (0 + 0 + 0 + 0) with 0 by ring. rewrite sqrt_0. apply Rmax_lub; lra.
Qed.

(** ** (a) prediction with one inhibited accelerometer axis *)
Definition wa : R := 1 / 100000.
Definition Pa : Mat R := fun i j => if (i =? j)%nat then if (i =? 10)%nat || inb 13 3 i then wa else 0
  else if ((i =? 10) || (i =? 13) || (i =? 14))%nat && ((j =? 10) || (j =? 13) || (j =? 14))%nat then wa else 0.
Definition ca := wctx 0 true false false.
Definition sa := wst Pa false 0.
Lemma Pa_sym : symmetric24 Pa.
Proof. intros i j _ _. unfold Pa. rewrite (Nat.eqb_sym j i), (andb_comm ((j =? 10) || _ || _)%nat). destruct (Nat.eqb_spec i j) as [->|]; reflexivity. Qed.
Lemma Pa_psd : psd Pa.
Proof.
  set (w := fun i => ev 10 i + ev 13 i + ev 14 i).
  apply (psd_ext (fun i j => w i * wa * w j + (if (i =? j)%nat then if (i =? 15)%nat then wa else 0 else 0))).
  - intros i j Hi Hj. unfold w, ev, Pa.
    destruct (Nat.eqb_spec i j) as [->|Ne].
    + unfold inb. do 24 (destruct j as [|j]; [cbn -[wa]; ring|]). lia.
    + destruct (Nat.eqb_spec i 10), (Nat.eqb_spec i 13), (Nat.eqb_spec i 14), (Nat.eqb_spec j 10), (Nat.eqb_spec j 13), (Nat.eqb_spec j 14); subst; try lia; cbn [orb andb]; ring.
  - apply psd_plus; [apply psd_outer|apply psd_diag; intros i _; destruct (i =? 15)%nat]; unfold wa; lra.
Qed.
Lemma sa_inh k : (k < 3)%nat -> inhibit_axis ca (filtStep ca sa) k = (k =? 0)%nat.
Proof.
  intros Hk. unfold inhibit_axis, ca, sa. rewrite filt_small by lra. cbn [f_in_air wctx x_clip orb].
  rewrite orb_true_r. reflexivity.
Qed.
Definition sa1 : covst R := mkCov Pa (bset 0 true (fun _ => false)) (vset 0 wa (fun _ => 0)) (c_ang_filt (filtStep ca sa)) (c_acc_filt (filtStep ca sa))
   (c_acc_vec (filtStep ca sa)) 0 (fun _ => 0) (fun _ => 0) false false 0%Z false.
Lemma sa_pred : predInhibit ca sa = sa1.
Proof.
  unfold predInhibit.
  assert (S0 : inhibitStep ca 0 (filtStep ca sa) = sa1).
  { unfold inhibitStep. cbv zeta. rewrite sa_inh by lia. reflexivity. }
  rewrite S0.
  assert (I : forall k, inhibit_axis ca sa1 k = inhibit_axis ca (filtStep ca sa) k) by reflexivity.
  assert (S1 : forall k, (k = 1 \/ k = 2)%nat -> inhibitStep ca k sa1 = sa1).
  { intros k Hk. unfold inhibitStep. cbv zeta. rewrite I, sa_inh by lia. destruct Hk as [->| ->]; reflexivity. }
  rewrite S1, S1 by auto. reflexivity.
Qed.
Lemma pn_zero da0 cl ia wd M hr i : process_noise (wctx da0 cl ia wd) M hr i = 0 \/ (16 <= i)%nat.
Proof.
  destruct (le_dec 16 i) as [|L]; [right; assumption|left]. unfold process_noise.
  assert (Z : sconstrain (0 : R) szero (slit 1 1) = 0).
  { rewrite sconstrainR, szeroR, slitR. destruct (Rlt_dec _ _); [lra|]. destruct (Rlt_dec _ _); lra. }
  destruct (inb 10 3 i). { unfold d_ang_bias_sig, sq. cbn [p_gyro_bias_p_noise wctx]. rewrite Z. cbn [smul RScalar]. ring. }
  destruct (inb 13 3 i). { unfold d_vel_bias_sig, sq. cbn [p_accel_bias_p_noise wctx]. rewrite Z. cbn [smul RScalar]. ring. }
  replace (inb 16 3 i) with false by (symmetry; apply Bool.not_true_iff_false; rewrite inb_iff; lia).
  replace (inb 19 3 i) with false by (symmetry; apply Bool.not_true_iff_false; rewrite inb_iff; lia).
  replace (inb 22 2 i) with false by (symmetry; apply Bool.not_true_iff_false; rewrite inb_iff; lia). apply szeroR.
Qed.

Lemma late_gen dt x u Q (M : Mat R) i j : (10 <= i)%nat -> (i <= j < 24)%nat -> genR dt x u Q M i j = M i j.
Proof.
  intros H1 H2. unfold genR.
  do 24 (destruct j as [|j]; [do 24 (destruct i as [|i]; [try lia; try reflexivity|]); lia|]). lia.
Qed.
(** the relevant elements after the prediction *)
Lemma wa_entries : let X := cP (predictCovariance ca sa) in
  X 10%nat 13%nat = 0 /\ X 10%nat 14%nat = wa /\ X 13%nat 14%nat = wa /\ X 10%nat 10%nat = wa /\ X 13%nat 13%nat = wa /\ X 14%nat 14%nat = wa.
Proof.
  cbv zeta. rewrite predict_P. cbv zeta. rewrite sa_pred.
  set (pn := process_noise ca (cP sa1) (hrate_next ca sa1)).
  set (N := copyUpper (fst (fst (buildNext ca sa1 pn)))).
  assert (NS : symmetric24 N) by apply sym_copyUpper.
  assert (NC : sgt (sadd (cP sa1 7%nat 7%nat) (cP sa1 8%nat 8%nat)) (slit 10000 1) = false).
  { unfold sgt. apply sltR_false. rewrite slitR. cbn. lra. }
  assert (PN : forall i, (i < 16)%nat -> pn i = 0) by (intros i Hi; destruct (pn_zero 0 true false false (cP sa1) (hrate_next ca sa1) i); [assumption|lia]).
  assert (LE : forall i j, (10 <= i)%nat -> (i <= j < 24)%nat -> nth i (col ca (cP sa1) j) szero = Pa i j).
  { intros i j H1 H2. rewrite col_genR by assumption. change (cP sa1) with Pa. apply late_gen; assumption. }
  assert (N1010 : N 10%nat 10%nat = wa).
  { unfold N, copyUpper. cbn [Nat.ltb Nat.leb]. rewrite buildNext_upper by lia. unfold nextU. cbv zeta. rewrite NC. cbn [andb Nat.ltb Nat.leb Nat.eqb].
    rewrite LE by lia. unfold gnoise. cbn [inb Nat.leb Nat.ltb Nat.add andb]. rewrite PN by lia. unfold Pa. cbn -[wa]. ring. }
  assert (N1013 : N 10%nat 13%nat = 0).
  { unfold N, copyUpper. cbn [Nat.ltb Nat.leb]. rewrite buildNext_upper by lia. unfold nextU. cbv zeta. rewrite NC. cbn -[wa N szero]. apply szeroR. }
  assert (N1014 : N 10%nat 14%nat = wa).
  { unfold N, copyUpper. cbn [Nat.ltb Nat.leb]. rewrite buildNext_upper by lia. unfold nextU. cbv zeta. rewrite NC. cbn [andb Nat.ltb Nat.leb Nat.eqb Nat.sub c_inhibit sa1 bset].
    rewrite LE by lia. reflexivity. }
  assert (N1314 : N 13%nat 14%nat = wa).
  { unfold N, copyUpper. cbn [Nat.ltb Nat.leb]. rewrite buildNext_upper by lia. unfold nextU. cbv zeta. rewrite NC. cbn [andb Nat.ltb Nat.leb Nat.eqb Nat.sub c_inhibit sa1 bset].
    rewrite LE by lia. reflexivity. }
  assert (N1313 : N 13%nat 13%nat = wa).
  { unfold N, copyUpper. cbn [Nat.ltb Nat.leb]. rewrite buildNext_upper by lia. unfold nextU. cbv zeta. rewrite NC. cbn -[wa N]. reflexivity. }
  assert (NAA : forall k, (k = 14 \/ k = 15)%nat -> N k k = wa).
  { intros k Hk. unfold N, copyUpper. rewrite Nat.ltb_irrefl. rewrite buildNext_upper by lia. unfold nextU. cbv zeta. rewrite NC. cbn [andb].
    destruct Hk as [->| ->]; cbn [andb Nat.ltb Nat.leb Nat.eqb Nat.sub c_inhibit sa1 bset]; rewrite LE by lia; unfold gnoise; cbn [inb Nat.leb Nat.ltb Nat.add andb]; rewrite PN by lia; unfold Pa; cbn -[wa]; ring. }
  set (sN := setP N sa1).
  assert (AM : accMax (c_inhibit sN) (cP sN) = (wa, false)).
  { unfold accMax, accMaxStep. unfold sN. cbn [c_inhibit cP setP sa1 bset Nat.eqb Nat.add]. rewrite !NAA by auto.
    replace (sgt wa (slit 1 1000000000)) with true by (symmetry; unfold sgt; apply sltR_true; rewrite slitR; unfold wa; lra).
    replace (sgt wa wa) with false by (symmetry; unfold sgt; apply sltR_false; lra).
    replace (slt wa (slit 1 1000000000)) with false by (symmetry; apply sltR_false; rewrite slitR; unfold wa; lra). reflexivity. }
  assert (AR : accel_reset ca sN = false).
  { unfold accel_reset. rewrite AM. unfold ca at 1. rewrite wctx_no_bad. cbn -[sN]. rewrite andb_false_r. reflexivity. }
  assert (ES : forall i, (i < 16)%nat -> estimated ca i) by (intros; left; assumption).
  assert (OFF : forall i j, (i < 16)%nat -> (j < 16)%nat -> i <> j -> cP (fixCovarianceErrors false ca sN) i j = N i j).
  { intros i j Hi Hj Ne. rewrite fix_entry_sym by (try apply ES; try assumption; try lia; exact NS). rewrite AR. reflexivity. }
  rewrite (OFF 10%nat 13%nat), (OFF 10%nat 14%nat), (OFF 13%nat 14%nat) by lia.
  split; [exact N1013|]. split; [exact N1014|]. split; [exact N1314|]. split; [|split].
  - rewrite fix_diag_any by (try apply ES; try exact NS; lia). change (cP sN) with N. rewrite N1010. unfold var_hi, var_lo. cbn [Nat.leb Nat.ltb andb orb].
    rewrite (Rmax_right 0 wa), (Rmin_right 1 wa) by (unfold wa; lra). reflexivity.
  - exact (eq_trans (fix_diag_acc false ca sN 0 ltac:(lia)) N1313).
  - pose proof (fix_diag_acc false ca sN 1 ltac:(lia)) as D14. cbn [Nat.add] in D14. rewrite D14, AM. clear D14. change (c_inhibit sN 1) with false. cbn [fst]. cbv iota.
    change (cP sN) with N. rewrite (NAA 14%nat) by auto.
    rewrite sconstrainR. unfold accLo. rewrite !slitR. cbn [smul sfmax RScalar].
    destruct (Rlt_dec wa (Rmax _ _)) as [L|_].
    { exfalso. revert L. apply Rle_not_lt. apply Rmax_lub; unfold wa; lra. }
    destruct (Rlt_dec _ _) as [L|_]; [pose proof (wctx_accHi 0 true false false); unfold ca, wa in *; lra|]. reflexivity.
Qed.
Lemma predict_inhibited_not_psd : symmetric24 (cP sa) /\ psd (cP sa) /\ below_limits ca sa /\ ~ psd (cP (predictCovariance ca sa)).
Proof.
  split; [exact Pa_sym|]. split; [exact Pa_psd|]. split.
  { split.
    - intros i Hi Ni. change (cP sa i i) with (Pa i i). unfold Pa. rewrite Nat.eqb_refl. unfold wa, var_hi.
      destruct (_ || _), (_ || _); lra.
    - intros k Hk _. change (cP sa) with Pa. unfold Pa. rewrite Nat.eqb_refl. replace (inb 13 3 (13 + k)) with true by (symmetry; apply inb_iff; lia). rewrite orb_true_r.
      pose proof (wctx_accHi 0 true false false). unfold ca, wa. lra. }
  intros H. specialize (H (fun n => 1 * ev 10 n + 1 * ev 13 n + (-1) * ev 14 n)).
  rewrite quad_three in H by lia.
  destruct wa_entries as (A & B & C & D & E & F).
  pose proof (predict_sym ca sa) as SY. rewrite (SY 13%nat 10%nat), (SY 14%nat 10%nat), (SY 14%nat 13%nat) in H by lia.
  rewrite A, B, C, D, E, F in H. unfold wa in H. lra.
Qed.

(** ** (b) prediction with the horizontal position variance held *)
Definition wb (i : nat) : R := 1 / 2 * ev 0 i + 150 * ev 7 i.
Definition Pb : Mat R := fun i j => wb i * 1 * wb j.
Definition cb := wctx 1 false false false.
Definition sb := wst Pb false 0.
Lemma Pb_sym : symmetric24 Pb. Proof. intros i j _ _. unfold Pb. ring. Qed.
Lemma Pb_psd : psd Pb. Proof. apply psd_outer. lra. Qed.
Lemma sb_inh k : (k < 3)%nat -> inhibit_axis cb (filtStep cb sb) k = false.
Proof. intros Hk. unfold inhibit_axis, cb, sb. rewrite filt_small by lra. cbn [f_in_air wctx x_clip orb andb]. rewrite orb_true_r. reflexivity. Qed.
Lemma sb_P : cP (predInhibit cb sb) = Pb.
Proof. rewrite predInhibit_P; [reflexivity|reflexivity|exact sb_inh]. Qed.
Lemma Qb_zero m : (m < 3)%nat -> Q_of cb m = 0.
Proof.
  intros H. unfold Q_of. replace (m <? 3)%nat with true by (symmetry; apply Nat.ltb_lt; lia). unfold daVar, sq. cbn [p_gyro_noise cb wctx].
  rewrite sconstrainR, szeroR, slitR. destruct (Rlt_dec _ _); [lra|]. destruct (Rlt_dec _ _); cbn; lra.
Qed.
Lemma predict_capped_not_psd : symmetric24 (cP sb) /\ psd (cP sb) /\ below_limits cb sb /\ ~ psd (cP (predictCovariance cb sb)).
Proof.
  split; [exact Pb_sym|]. split; [exact Pb_psd|]. split.
  { split.
    - intros i Hi Ni. change (cP sb i i) with (wb i * 1 * wb i). unfold wb, ev, var_hi.
      do 24 (destruct i as [|i]; [cbn -[IZR]; lra|]). lia.
    - intros k Hk _. change (cP sb) with Pb. pose proof (wctx_accHi 1 false false false). unfold Pb, wb, ev. do 3 (destruct k as [|k]; [cbn -[IZR accHi] in *; unfold cb; lra|]). lia. }
  intros H. specialize (H (fun n => 2 * ev 0 n + (-4) * ev 1 n + (- (1 / 150)) * ev 7 n)).
  rewrite quad_three in H by lia.
  set (F := Fx dtR (x_st cb) (u_of cb)). set (G := Gx (x_st cb)).
  assert (JF : state_jacobian dtR 0 (x_st cb) (u_of cb) F) by apply Fx_jacobian.
  assert (JG : input_jacobian dtR 0 (x_st cb) (u_of cb) G) by apply Gx_jacobian.
  assert (CAP : pos_capped (cP (predInhibit cb sb))) by (rewrite sb_P; unfold pos_capped, Pb, wb, ev; cbn -[IZR]; lra).
  assert (ES : forall i, (i < 16)%nat -> estimated cb i) by (intros; left; assumption).
  assert (EN : forall i j, (i <= j)%nat -> (j <= 1)%nat -> FPFt_GQGt F G (cP (predInhibit cb sb)) (Q_of cb) i j = match i, j with 0%nat, 0%nat => 1 / 4 | 0%nat, 1%nat => 1 / 8 | _, _ => 1 / 16 end).
  { intros i j Hi Hj. rewrite sb_P. rewrite <- (gen_is_FPFt dtR 0 _ _ _ Pb F G Pb_sym JF JG) by lia.
    rewrite (entries dtR (x_st cb) (u_of cb) (Q_of cb) Pb) by lia. unfold noise. cbn [rsum].
    destruct j as [|[|j]]; [|destruct i as [|[|i]]|]; try lia; [replace i with 0%nat by lia| |].
    all: cbn [Gx nth]; rewrite (Qb_zero 0), (Qb_zero 1), (Qb_zero 2) by lia.
    all: unfold srow, Pu, Pb, wb, ev, u_of, cb, wctx, Gx; cbn -[IZR dtR]; rewrite ?Rmult_0_r, ?Rmult_0_l; field. }
  rewrite (predict_offdiag cb sb 0 F G Pb_sym JF JG 0 1) in H by (try apply ES; try lia; intros; unfold horiz_pos; lia).
  assert (SY : symmetric24 (cP (predictCovariance cb sb))) by apply predict_sym.
  rewrite (SY 1%nat 0%nat), (SY 7%nat 0%nat), (SY 7%nat 1%nat) in H by lia.
  rewrite (predict_offdiag cb sb 0 F G Pb_sym JF JG 0 1) in H by (try apply ES; try lia; intros; unfold horiz_pos; lia).
  rewrite !(predict_diag cb sb 0 F G Pb_sym JF JG) in H by (try apply ES; try lia; intros; unfold horiz_pos; lia).
  rewrite (predict_capped cb sb F G Pb_sym 0 7), (predict_capped cb sb F G Pb_sym 1 7) in H by (try apply ES; try lia; try exact CAP; right; unfold horiz_pos; lia).
  rewrite (EN 0%nat 0%nat), (EN 0%nat 1%nat), (EN 1%nat 1%nat) in H by lia.
  rewrite sb_P in H.
  assert (D7 : cP (predictCovariance cb sb) 7%nat 7%nat = 22500).
  { rewrite predict_P. cbv zeta. rewrite fix_diag by (try apply ES; lia). cbn [cP setP]. unfold copyUpper. cbn [Nat.ltb Nat.leb]. rewrite buildNext_upper by lia.
    unfold nextU. cbv zeta. rewrite (proj2 (sgt_cap (cP (predInhibit cb sb))) CAP). cbn [inb Nat.leb Nat.ltb Nat.add andb orb]. rewrite sb_P.
    unfold var_hi, var_lo, Pb, wb, ev. cbn -[IZR Rmin Rmax].
    rewrite Rmax_right by lra. rewrite Rmin_right by lra. lra. }
  rewrite D7 in H. unfold var_hi, var_lo, Pb, wb, ev in H. cbn -[IZR Rmin Rmax] in H.
  rewrite !Rmax_right, !Rmin_right in H by lra. lra.
Qed.

(** ** (c) measurement update with an inhibited, correlated accelerometer axis *)
Definition wc (i : nat) : R := 1 / 1000 * ev 13 i + 1 * ev 22 i.
Definition Pc : Mat R := fun i j => wc i * 1 * wc j.
Definition cc := wctx 0 false true true.
Definition sc := wst Pc true 0.
Lemma Pc_sym : symmetric24 Pc. Proof. intros i j _ _. unfold Pc. ring. Qed.
Lemma Pc_psd : psd Pc. Proof. apply psd_outer. lra. Qed.

Definition Hc : list (nat * R) := [(22%nat, 1)].
Definition Kc (i : nat) : R := hP (hvec Hc) Pc i / (quad (hvec Hc) Pc + 1 / 10).
Lemma hPc i : hP (hvec Hc) Pc i = wc i.
Proof.
  unfold hP. rewrite hvec_sum by (repeat constructor; cbn; lia). cbn [fold_right Hc fst snd].
  unfold Pc. replace (wc 22) with 1 by (unfold wc, ev; cbn -[IZR]; lra). ring.
Qed.
Lemma quadc : quad (hvec Hc) Pc = 1.
Proof.
  rewrite quad_hP. rewrite (rsum_ext _ _ (fun k => hvec Hc k * wc k)) by (intros; rewrite hPc; ring).
  rewrite hvec_sum by (repeat constructor; cbn; lia). cbn [fold_right Hc fst snd]. unfold wc, ev. cbn -[IZR]. lra.
Qed.
Lemma Kc_val i : Kc i = wc i / (11 / 10).
Proof. unfold Kc. rewrite hPc, quadc. field. Qed.
Lemma update_inhibited_not_psd : symmetric24 (cP sc) /\ psd (cP sc) /\ below_limits cc sc /\
  let '(_, s', healthy) := measurementUpdate Kc Hc 0 cc sc in healthy = true /\ ~ psd (cP s').
Proof.
  split; [exact Pc_sym|]. split; [exact Pc_psd|]. split.
  { split.
    - intros i Hi Ni. change (cP sc i i) with (wc i * 1 * wc i). unfold wc, ev, var_hi.
      do 24 (destruct i as [|i]; [cbn -[IZR]; lra|]). lia.
    - intros k Hk X. discriminate X. }
  unfold measurementUpdate. set (K' := fun i => _).
  assert (KH : forall i j, computeKHP (cP sc) K' Hc i j = K' i * wc j).
  { intros i j. rewrite computeKHP_R by (repeat constructor; cbn; lia). change (cP sc) with Pc. rewrite hPc. reflexivity. }
  assert (KV : forall i, K' i = if inb 13 3 i then 0 else wc i / (11 / 10)).
  { intros i. unfold K'. cbn [c_inhibit sc wst]. rewrite andb_true_r. rewrite szeroR, Kc_val. reflexivity. }
  unfold applyUpdate. rewrite checkAndFix_healthy.
  2:{ intros i Hi. rewrite KH, KV. change (cP sc i i) with (wc i * 1 * wc i). unfold wc, ev.
      do 24 (destruct i as [|i]; [cbn -[IZR]; lra|]). lia. }
  split; [reflexivity|]. intros H. specialize (H (fun n => (-6000) * ev 13 n + 11 * ev 22 n)). rewrite quad_two in H by lia.
  set (M := msub (cP sc) (computeKHP (cP sc) K' Hc)) in H.
  assert (MV : forall i j, M i j = wc i * wc j - K' i * wc j).
  { intros i j. unfold M, msub. rewrite KH. change (cP sc i j) with (wc i * 1 * wc j). cbn. ring. }
  assert (M13 : M 13%nat 13%nat = 1 / 1000000) by (rewrite MV, KV; unfold wc, ev; cbn -[IZR]; lra).
  assert (M22 : M 22%nat 22%nat = 1 / 11) by (rewrite MV, KV; unfold wc, ev; cbn -[IZR]; lra).
  assert (M1322 : M 13%nat 22%nat = 1 / 1000) by (rewrite MV, KV; unfold wc, ev; cbn -[IZR]; lra).
  assert (M2213 : M 22%nat 13%nat = 1 / 11000) by (rewrite MV, KV; unfold wc, ev; cbn -[IZR]; lra).
  assert (FX : forall i j, fixCovarianceErrors true cc (setP M sc) = setP (fixWind true cc (fixMag true cc (fixKin true M))) (setP M sc) -> cP (fixCovarianceErrors true cc (setP M sc)) i j = fixWind true cc (fixMag true cc (fixKin true M)) i j) by (intros i j ->; reflexivity).
  rewrite !FX in H by reflexivity.
  assert (F1 : fixMag true cc (fixKin true M) 13%nat 13%nat = 1 / 1000000) by (cbn -[IZR M]; exact M13).
  assert (F2 : fixMag true cc (fixKin true M) 22%nat 22%nat = 1 / 11) by (cbn -[IZR M]; exact M22).
  assert (F3 : fixMag true cc (fixKin true M) 13%nat 22%nat = 1 / 1000) by (cbn -[IZR M]; exact M1322).
  assert (F4 : fixMag true cc (fixKin true M) 22%nat 13%nat = 1 / 11000) by (cbn -[IZR M]; exact M2213).
  revert H F1 F2 F3 F4. generalize (fixMag true cc (fixKin true M)). intros N H F1 F2 F3 F4.
  unfold fixWind in H. cbn [f_wind cc wctx negb] in H. cbv zeta in H. unfold makeRowColSymmetric, clampDiag, inb in H. cbn [Nat.eqb Nat.leb Nat.ltb Nat.add andb] in H.
  rewrite F1, F2, F3, F4 in H. rewrite sconstrainR, szeroR, !slitR in H. cbn [sadd sdiv RScalar] in H.
  destruct (Rlt_dec _ _) in H; [lra|]. destruct (Rlt_dec _ _) in H; lra.
Qed.

(** proofs about the yaw estimator: outputs, updates, gyro bias, loss of orthogonality *)
From Coq Require Import Reals Lra Lia Bool List Arith ZArith Psatz.
From Verif Require Import Scalar RealGeom RotModel GeoModel GeoProofs RotProofs GsfModel GsfProofs1 GsfProofs2 GsfProofs3.
Import ListNotations.
Open Scope R_scope.

(** ** outputs are the composite of the bank whenever they are published *)
Definition composed (g : gsf) : Prop := g_started g = true -> g_tilt g = true /\ g_yaw (composite g) = g_yaw g /\ g_var (composite g) = g_var g.
Lemma gstep_composed o g : composed g -> composed (gstep o g).
Proof.
  intros C. destruct o as [i|vn ve acc]; cbn [gstep]; [|exact C]. unfold update. cbv zeta. change (g_tilt (filterAccel i g)) with (g_tilt g). destruct (g_tilt g) eqn:T; cbn [negb].
  - intros S. split; [|split; reflexivity]. cbn [clearVel composite g_tilt]. unfold fuse. destruct (i_run i && _); [destruct (negb _); [exact T|]; destruct (negb _); [exact T|]; destruct (weigh _ _); exact T|]. destruct (_ && _); exact T.
  - destruct (okToAlign i); [intros S; discriminate S|]. intros S. exfalso. apply C in S. rewrite T in S. destruct S as [S _]. discriminate.
Qed.
Lemma grun_composed l : composed (grun l).
Proof.
  unfold grun. assert (H : forall g, composed g -> composed (fold_left (fun g o => gstep o g) l g)). { induction l as [|o l IH]; intros g Hg; [exact Hg|]. cbn [fold_left]. apply IH, gstep_composed, Hg. }
  apply H. intros S. discriminate S.
Qed.
Lemma started_ok l : g_started (grun l) = true -> (forall k, (k < 5)%nat -> okBank (g_bank (grun l) k)) /\ okW (g_w (grun l)).
Proof. intros S. pose proof (grun_inv l) as I. destruct (grun_composed l S) as (T & _). unfold inv in I. rewrite T in I. exact I. Qed.
Lemma atan2_dir y x : exists r, 0 <= r /\ x = r * cos (atan2 y x) /\ y = r * sin (atan2 y x).
Proof.
  destruct (Req_dec x 0) as [X|X]; [destruct (Req_dec y 0) as [Y|Y]|].
  - exists 0. subst. split; [lra|split; ring].
  - destruct (atan2_polar y x (or_intror Y)) as (P & A & B). exists (sqrt (x * x + y * y)). split; [lra|]. split; symmetry; assumption.
  - destruct (atan2_polar y x (or_introl X)) as (P & A & B). exists (sqrt (x * x + y * y)). split; [lra|]. split; symmetry; assumption.
Qed.

(** ** the filters after a measurement update *)
Lemma updateEKF_eq vn ve acc b : okBank b -> exists u, updateP (obsVar acc) (b_P b) = Some u /\
  let n := mkV (vx (b_X b) - vn) (vy (b_X b) - ve) 0 in
  let tr := normDist (u_Si u) n in
  let s := if Rlt_dec 25 tr then sqrt (25 / tr) else 1 in
  let X' := mkV (vx (b_X b) - (u_K u 0%nat 0%nat * vx n + u_K u 0%nat 1%nat * vy n) * s) (vy (b_X b) - (u_K u 1%nat 0%nat * vx n + u_K u 1%nat 1%nat * vy n) * s) (vz (b_X b) - (u_K u 2%nat 0%nat * vx n + u_K u 2%nat 1%nat * vy n) * s) in
  fst (updateEKF vn ve acc b) = mkB X' (u_P u) (u_Si u) (u_det u) n (rotYaw (vz X' - vz (b_X b)) (b_R b)) (b_gb b) (b_al b).
Proof.
  intros (A & B & C). pose proof (obsVar_pos acc) as V. destruct (updateP_some (obsVar acc) (b_P b)) as [u E]; [lra|nra|exact B|]. exists u. split; [exact E|].
  cbv zeta. unfold updateEKF. fold (obsVar acc). rewrite E. cbv zeta. cbn [fst]. reflexivity.
Qed.
Lemma normDist_S r P u n0 n1 z : updateP r P = Some u -> normDist (u_Si u) (mkV n0 n1 z) = (n0 * n0 * (P 1%nat 1%nat + r) - 2 * n0 * n1 * P 0%nat 1%nat + n1 * n1 * (P 0%nat 0%nat + r)) / Sdet r P.
Proof.
  intros E. destruct (updateP_inv r P u E) as (D & _ & SI & _). unfold normDist. cbn [vx vy]. rewrite !SI by lia. cbn [m9]. field. exact D.
Qed.
Lemma density_S vn ve acc b : okBank b -> let r := obsVar acc in let P := b_P b in let n0 := vx (b_X b) - vn in let n1 := vy (b_X b) - ve in
  gaussianDensity (fst (updateEKF vn ve acc b)) = m_2pi_inv * / sqrt (Sdet r P) * exp (- (1 / 2) * ((n0 * n0 * (P 1%nat 1%nat + r) - 2 * n0 * n1 * P 0%nat 1%nat + n1 * n1 * (P 0%nat 0%nat + r)) / Sdet r P)).
Proof.
  intros O r P n0 n1. destruct (updateEKF_eq vn ve acc b O) as (u & E & H). cbv zeta in H. rewrite H. unfold gaussianDensity. cbn [b_Sdet b_Si b_in vx vy]. rewrite (normDist_S _ _ _ _ _ _ E).
  destruct (updateP_inv _ _ _ E) as (D & -> & _). destruct O as (_ & PS & _). pose proof (obsVar_pos acc) as V. pose proof (Sdet_pos (obsVar acc) (b_P b) ltac:(lra) PS) as SP.
  assert (0 < Sdet (obsVar acc) (b_P b)) by nra. rewrite sqrt_div_alt by assumption. rewrite sqrt_1. unfold Rdiv at 1. rewrite Rmult_1_l. reflexivity.
Qed.
Lemma density_le1 vn ve acc b : okBank b -> 0 < gaussianDensity (fst (updateEKF vn ve acc b)) <= 1.
Proof.
  intros O. rewrite (density_S vn ve acc b O). cbv zeta. destruct O as (_ & PS & _). pose proof (obsVar_pos acc) as V. pose proof (Sdet_pos (obsVar acc) (b_P b) ltac:(lra) PS) as SP. set (r := obsVar acc) in *. set (P := b_P b) in *.
  assert (D : 1 / 16 <= Sdet r P) by nra. assert (SQ : 1 / 4 <= sqrt (Sdet r P)). { apply Rsqr_incr_0_var; [|apply sqrt_pos]. rewrite Rsqr_sqrt by lra. unfold Rsqr. lra. }
  assert (I : 0 < / sqrt (Sdet r P) <= 4). { split; [apply Rinv_0_lt_compat; lra|]. replace 4 with (/ (1 / 4)) by field. apply Rinv_le_contravar; lra. }
  set (n0 := vx (b_X b) - vn). set (n1 := vy (b_X b) - ve). set (q := n0 * n0 * (P 1%nat 1%nat + r) - 2 * n0 * n1 * P 0%nat 1%nat + n1 * n1 * (P 0%nat 0%nat + r)).
  assert (Q : 0 <= q). { unfold q. pose proof (PS n1 (- n0) 0) as H. unfold qf in H. clearbody n0 n1 r P. pose proof (Rle_0_sqr n0) as S0. pose proof (Rle_0_sqr n1) as S1. unfold Rsqr in S0, S1. assert (R0 : 0 <= r * (n0 * n0 + n1 * n1)) by (apply Rmult_le_pos; lra). match type of H with _ <= ?a => match type of R0 with _ <= ?b => match goal with |- _ <= ?c => replace c with (a + b) by ring end end end. lra. }
  clearbody q. assert (X : exp (- (1 / 2) * (q / Sdet r P)) <= 1). { apply Rle_trans with (exp 0); [|rewrite exp_0; lra]. destruct (Req_dec q 0) as [-> |Z]; [replace (- (1 / 2) * (0 / Sdet r P)) with 0 by (unfold Rdiv; ring); lra|]. left. apply exp_increasing. assert (QS : 0 < q / Sdet r P) by (apply Rdiv_lt_0_compat; lra). set (z := q / Sdet r P) in *. clearbody z. lra. }
  pose proof (exp_pos (- (1 / 2) * (q / Sdet r P))) as EP. unfold m_2pi_inv. set (e := exp _) in *. set (j := / sqrt _) in *. clearbody e j. split; [apply Rmult_lt_0_compat; [lra|exact EP]|]. assert (j * e <= 4 * 1) by (apply Rmult_le_compat; lra). lra.
Qed.
Lemma fuse_started i g : g_tilt g = true -> inv g -> i_run i = true -> g_velup g = true -> g_started g = true ->
  fuse i g = let g1 := setBank (fun k => fst (updateEKF (g_vn g) (g_ve g) (g_acc g) (g_bank g k))) g in
    match weigh (fun k => gaussianDensity (g_bank g1 k)) (g_w g) with Some w => setW w g1 | None => initialiseEKFGSF g1 end.
Proof.
  intros T I Hr Hv Hs. unfold inv in I. rewrite T in I. destruct I as [B W]. unfold fuse. rewrite Hr, Hv, Hs. cbn [andb negb].
  assert (BAD : forallb (fun b => snd (updateEKF (g_vn g) (g_ve g) (g_acc g) b)) (allBanks (g_bank g)) = true).
  { apply forallb_forall. intros b Hb. unfold allBanks in Hb. destruct Hb as [<-|[<-|[<-|[<-|[<-|[]]]]]]; apply update_ok, B; lia. }
  rewrite BAD. reflexivity.
Qed.
Lemma update_aligned i g : g_tilt g = true -> update i g = clearVel (composite (fuse i (predictAll i (filterAccel i g)))).
Proof. intros T. unfold update. cbv zeta. change (g_tilt (filterAccel i g)) with (g_tilt g). rewrite T. reflexivity. Qed.
(** the filters of the bank at the time of the measurement update *)
Definition predicted (i : gin) (g : gsf) (k : nat) : bank := g_bank (predictAll i (filterAccel i g)) k.

(** ** gyro bias *)
Definition gb_le (m : R) (v : V3) : Prop := Rabs (vx v) <= m /\ Rabs (vy v) <= m /\ Rabs (vz v) <= m.
Definition gbs_le (m : R) (g : gsf) : Prop := forall k, gb_le m (b_gb (g_bank g k)).
Lemma rcon x l : 0 <= l -> Rabs (rconstrain x (- l) l) <= l.
Proof. intros H. unfold rconstrain. destruct (Rlt_dec x (- l)); [rewrite Rabs_Ropp, Rabs_pos_eq; lra|]. destruct (Rlt_dec l x); [rewrite Rabs_pos_eq; lra|]. apply Rabs_le. lra. Qed.
Lemma ahrs_gb i a n ga b m : 5 / 100 <= m -> gb_le m (b_gb b) -> gb_le m (b_gb (ahrsPredict i a n ga b)).
Proof.
  intros M H. unfold ahrsPredict. cbv zeta. cbn [setAhrs b_gb]. match goal with |- context [if ?c then vclamp _ _ else _] => destruct c end; [|exact H].
  unfold vclamp, gb_le. cbn [vx vy vz]. split; [|split]; (apply Rle_trans with (5 / 100); [apply rcon; lra|exact M]).
Qed.
Lemma predict_gb i s a n ga b m : 5 / 100 <= m -> gb_le m (b_gb b) -> gb_le m (b_gb (predictEKF i s a n ga b)).
Proof. intros M H. pose proof (ahrs_gb i a n ga b m M H) as A. unfold predictEKF. cbv zeta. destruct s; cbn [negb]; exact A. Qed.
Lemma updateEKF_gb vn ve acc b : b_gb (fst (updateEKF vn ve acc b)) = b_gb b.
Proof. unfold updateEKF. cbv zeta. destruct (updateP _ _); reflexivity. Qed.
Lemma fuse_gb i g m : gb_le m (i_gb i) -> gbs_le m g -> gbs_le m (fuse i g).
Proof.
  intros G H. unfold fuse. destruct (i_run i && _).
  - destruct (negb _).
    + intros k. exact G.
    + destruct (negb _); [intros k; cbn [setBank g_bank]; rewrite updateEKF_gb; apply H|]. destruct (weigh _ _); intros k; cbn [setBank setW initialiseEKFGSF initBank g_bank b_gb]; rewrite updateEKF_gb; apply H.
  - destruct (_ && _); exact H.
Qed.
Definition gb_in (m : R) (o : gop) : Prop := match o with OUpdate i => gb_le m (i_gb i) | OVelocity _ _ _ => True end.
Lemma gstep_gb o g m : 5 / 100 <= m -> gb_in m o -> gbs_le m g -> gbs_le m (gstep o g).
Proof.
  intros M G H. destruct o as [i|vn ve acc]; cbn [gstep gb_in] in *; [|exact H]. unfold update. cbv zeta. destruct (negb _).
  - destruct (okToAlign i); exact H.
  - intros k. cbn [clearVel composite g_bank]. revert k. apply fuse_gb; [exact G|]. intros k. apply predict_gb; [exact M|apply H].
Qed.
Lemma grun_gb l m : 5 / 100 <= m -> Forall (gb_in m) l -> gbs_le m (grun l).
Proof.
  intros M. unfold grun. assert (H : forall g, Forall (gb_in m) l -> gbs_le m g -> gbs_le m (fold_left (fun g o => gstep o g) l g)).
  { induction l as [|o l IH]; intros g F Hg; [exact Hg|]. inversion F; subst. cbn [fold_left]. apply IH; [assumption|]. apply gstep_gb; assumption. }
  intros F. apply H; [exact F|]. intros k. unfold gb_le. cbn. rewrite Rabs_R0. lra.
Qed.

(** ** gain *)
Lemma gain_range tas n : 0 <= accelGain tas n <= 1 / 5.
Proof.
  unfold accelGain, tilt_gain, rsq. match goal with |- context [Rmin ?x 1] => set (y := x) end. assert (Y : 0 <= y). { unfold y. apply Rmult_le_pos; [destruct (_ && _); lra|apply Rabs_pos]. }
  pose proof (Rmin_r y 1). assert (0 <= Rmin y 1) by (apply Rmin_glb; lra). set (z := Rmin y 1) in *. nra.
Qed.
Lemma gain_zero tas n : (one_g <= Rabs (n - one_g) \/ (tas <= flt_eps \/ n <= one_g) /\ one_g / 2 <= Rabs (n - one_g)) -> accelGain tas n = 0.
Proof.
  intros H. unfold accelGain, tilt_gain, rsq. assert (G : 0 < one_g) by (unfold one_g; lra). assert (E : Rabs ((n - one_g) / one_g) = Rabs (n - one_g) / one_g) by (unfold Rdiv; rewrite Rabs_mult, (Rabs_pos_eq (/ one_g)); [reflexivity|left; apply Rinv_0_lt_compat; exact G]). rewrite E.
  pose proof (Rabs_pos (n - one_g)) as AP. set (d := Rabs (n - one_g)) in *. assert (K : 1 <= (if (if Rlt_dec flt_eps tas then true else false) && (if Rlt_dec one_g n then true else false) then 1 else 2) * (d / one_g)).
  { assert (D1 : forall c, 0 < c -> one_g / c <= d -> 1 <= c * (d / one_g)). { intros c Hc Hd. apply Rmult_le_reg_r with (one_g / c); [apply Rdiv_lt_0_compat; assumption|]. replace (c * (d / one_g) * (one_g / c)) with d by (field; lra). lra. }
    destruct H as [H|[H1 H2]].
    - destruct (_ && _); apply D1; lra.
    - destruct (Rlt_dec flt_eps tas); destruct (Rlt_dec one_g n); cbn [andb]; try (apply D1; lra). }
  rewrite Rmin_right by exact K. lra.
Qed.
Lemma gain_one_g tas : accelGain tas one_g = 1 / 5.
Proof. unfold accelGain, tilt_gain, rsq. replace ((one_g - one_g) / one_g) with 0 by (unfold one_g; field). rewrite Rabs_R0, Rmult_0_r, Rmin_left by lra. lra. Qed.

(** ** loss of orthogonality *)
Lemma spin_norm n g m k : vnorm2 g <= 1 -> vnorm2 (rowk k m) <= 1 -> vnorm2 (rowk k (spin n g m)) <= 1.
Proof.
  intros G H. induction n as [|n IH]; [exact H|]. rewrite spin_S, predict_rowk. apply renorm_le1. pose proof (turned_le (rowk k (spin n g m)) g 1 IH G). lra.
Qed.
Lemma dot_le r g : vdot r g * vdot r g <= vnorm2 r * vnorm2 g.
Proof. pose proof (lagrange r g). pose proof (vn2_nn (cross r g)). lra. Qed.
Lemma spin_axis n g m k : 0 < vnorm2 g <= 1 -> vnorm2 (rowk k m) <= 1 -> 0 < vnorm2 (cross (rowk k m) g) ->
  vdot (rowk k (spin n g m)) g * vdot (rowk k (spin n g m)) g <= vnorm2 g * vnorm2 g / (vnorm2 (cross (rowk k m) g) * (1 + vnorm2 g) ^ n).
Proof.
  intros G H C. pose proof (spin_ratio n g m k) as E. pose proof (spin_norm n g m k ltac:(lra) H) as SN. pose proof (cross_le (rowk k (spin n g m)) g) as CL. pose proof (dot_le (rowk k m) g) as DL. pose proof (vn2_nn (cross (rowk k (spin n g m)) g)) as CN. pose proof (vn2_nn (rowk k m)) as RN. pose proof (vn2_nn (rowk k (spin n g m))) as RN2.
  assert (P : 0 < (1 + vnorm2 g) ^ n) by (apply pow_lt; lra). set (q := (1 + vnorm2 g) ^ n) in *. set (a := vdot (rowk k (spin n g m)) g * vdot (rowk k (spin n g m)) g) in *. set (a0 := vdot (rowk k m) g * vdot (rowk k m) g) in *. set (c := vnorm2 (cross (rowk k (spin n g m)) g)) in *. set (c0 := vnorm2 (cross (rowk k m) g)) in *. set (G2 := vnorm2 g) in *.
  apply Rmult_le_reg_r with (c0 * q); [apply Rmult_lt_0_compat; assumption|]. replace (G2 * G2 / (c0 * q) * (c0 * q)) with (G2 * G2) by (field; split; lra). rewrite E.
  assert (0 <= a0) by (unfold a0; apply Rle_0_sqr). assert (a0 <= G2) by nra. assert (c <= G2) by nra. apply Rmult_le_compat; lra.
Qed.
Lemma spin_vanish g m eps : 0 < eps -> 0 < vnorm2 g <= 1 -> (forall k, (k < 3)%nat -> vnorm2 (rowk k m) <= 1 /\ 0 < vnorm2 (cross (rowk k m) g)) ->
  exists N, forall n, (N <= n)%nat -> forall k, (k < 3)%nat -> vdot (rowk k (spin n g m)) g * vdot (rowk k (spin n g m)) g <= eps.
Proof.
  intros He G H. assert (ONE : forall k, (k < 3)%nat -> exists N, forall n, (N <= n)%nat -> vdot (rowk k (spin n g m)) g * vdot (rowk k (spin n g m)) g <= eps).
  { intros k Hk. destruct (H k Hk) as [A C]. set (c0 := vnorm2 (cross (rowk k m) g)) in *. destruct (archimed_cor1 (eps * c0 * vnorm2 g / (vnorm2 g * vnorm2 g))) as (N & HN & NP); [apply Rdiv_lt_0_compat; repeat apply Rmult_lt_0_compat; lra|].
    exists N. intros n Hn. apply Rle_trans with (1 := spin_axis n g m k G A C). fold c0. pose proof (poly n (vnorm2 g) ltac:(lra)) as PL.
    assert (NR : 0 < INR N) by (apply lt_0_INR; exact NP). assert (NN : INR N <= INR n) by (apply le_INR; exact Hn). set (G2 := vnorm2 g) in *. set (q := (1 + G2) ^ n) in *.
    assert (QL : INR N * G2 <= q) by nra. assert (QP : 0 < INR N * G2) by (apply Rmult_lt_0_compat; lra).
    apply Rmult_le_reg_r with (c0 * q); [apply Rmult_lt_0_compat; lra|]. replace (G2 * G2 / (c0 * q) * (c0 * q)) with (G2 * G2) by (field; split; lra).
    assert (K : G2 * G2 <= eps * c0 * G2 * INR N). { apply Rmult_lt_compat_r with (r := INR N * (G2 * G2)) in HN; [|apply Rmult_lt_0_compat; nra]. replace (/ INR N * (INR N * (G2 * G2))) with (G2 * G2) in HN by (field; lra). replace (eps * c0 * G2 / (G2 * G2) * (INR N * (G2 * G2))) with (eps * c0 * G2 * INR N) in HN by (field; lra). lra. }
    apply Rle_trans with (1 := K). replace (eps * c0 * G2 * INR N) with (eps * c0 * (INR N * G2)) by ring. replace (eps * (c0 * q)) with (eps * c0 * q) by ring. apply Rmult_le_compat_l; [nra|exact QL]. }
  destruct (ONE 0%nat ltac:(lia)) as [N0 H0]. destruct (ONE 1%nat ltac:(lia)) as [N1 H1]. destruct (ONE 2%nat ltac:(lia)) as [N2 H2]. exists (N0 + N1 + N2)%nat. intros n Hn k Hk. cases3 k Hk; [apply H0|apply H1|apply H2]; lia.
Qed.
Lemma rot_axis m g : is_rotation m -> vdot (row0 m) g * vdot (row0 m) g + vdot (row1 m) g * vdot (row1 m) g + vdot (row2 m) g * vdot (row2 m) g = vnorm2 g.
Proof.
  intros (_ & H & _). m3 m. v3 g. unfold row0, row1, row2, vnorm2, vdot, mmul, mtr, mident in *. cbn [vx vy vz m00 m01 m02 m10 m11 m12 m20 m21 m22] in *. injection H as A1 A2 A3 A4 A5 A6 A7 A8 A9.
  match goal with |- ?l = _ => transitivity ((ka * ka + kd * kd + kg * kg) * (ka0 * ka0) + (kb * kb + ke * ke + kh * kh) * (kb0 * kb0) + (kc * kc + kf * kf + ki * ki) * (kc0 * kc0) + 2 * (ka * kb + kd * ke + kg * kh) * (ka0 * kb0) + 2 * (ka * kc + kd * kf + kg * ki) * (ka0 * kc0) + 2 * (kb * kc + ke * kf + kh * ki) * (kb0 * kc0)); [ring|] end.
  rewrite A1, A2, A3, A5, A6, A9. ring.
Qed.

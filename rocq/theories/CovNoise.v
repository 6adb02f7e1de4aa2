(** Noise levels and the inhibition decision of the covariance prediction, restated in
    plain real arithmetic (independent of the helper definitions of the model) *)
From Coq Require Import Reals Lra Psatz.
From Verif Require Import CBase Scalar RealGeom CovSpec PsdLib CovModel CovProofs CovProofsR CovInhibit.
Open Scope R_scope.

(** a noise parameter is limited to [0, 1] *)
Definition clip01 (v : R) : R := Rmax 0 (Rmin 1 v).
(** IMU noise variances for a 10 ms step: gyro noise for the three delta angles; for each
    delta velocity axis the accelerometer noise, replaced by 4.9 m/s^2 for an axis whose
    sample contained clipping and for all axes when bad vertical acceleration is detected *)
Definition imu_noise (c : covctx R) (m : nat) : R :=
  if (m <? 3)%nat then (1 / 100 * clip01 (p_gyro_noise c)) ^ 2
  else (1 / 100 * (if x_clip c (m - 3)%nat || f_bad_acc_vertical c then 49 / 10 else clip01 (p_accel_noise c))) ^ 2.
(** the accumulated variances P_a + .. + P_b *)
Definition var3 (P : Mat R) (k : nat) : R := P k k + P (k + 1)%nat (k + 1)%nat + P (k + 2)%nat (k + 2)%nat.
Definition var2 (P : Mat R) (k : nat) : R := P k k + P (k + 1)%nat (k + 1)%nat.
(** process noise variances of the bias, field and wind states; hr is the low-pass filtered height rate *)
Definition state_noise (c : covctx R) (P : Mat R) (hr : R) (i : nat) : R :=
  match i with
  | 10%nat | 11%nat | 12%nat => (1 / 10000 * clip01 (p_gyro_bias_p_noise c)) ^ 2
  | 13%nat | 14%nat | 15%nat => (1 / 10000 * clip01 (p_accel_bias_p_noise c)) ^ 2
  | 16%nat | 17%nat | 18%nat => if f_mag_3D c then if Rlt_dec (var3 P 16) (1 / 10) then (1 / 100 * clip01 (p_mage_p_noise c)) ^ 2 else 0 else 0
  | 19%nat | 20%nat | 21%nat => if f_mag_3D c then if Rlt_dec (var3 P 19) (1 / 10) then (1 / 100 * clip01 (p_magb_p_noise c)) ^ 2 else 0 else 0
  | 22%nat | 23%nat => if f_wind c then if Rlt_dec (var2 P 22) (p_initial_wind_uncertainty c ^ 2)
      then (1 / 100 * clip01 (p_wind_vel_p_noise c) * (1 + p_wind_vel_p_noise_scaler c * Rabs hr)) ^ 2 else 0 else 0
  | _ => 0
  end.
(** height rate: low-pass filter of the down velocity with a time constant of ten seconds *)
Definition height_rate (hr vd : R) : R := hr + (vd - hr) / 1000.

Lemma clip01_eq v : sconstrain v (slit 0 1) (slit 1 1) = clip01 v.
Proof. rewrite sconstrainR, !slitR. unfold clip01, Rmax, Rmin. repeat destruct (Rlt_dec _ _); repeat destruct (Rle_dec _ _); lra. Qed.
Lemma Q_of_eq c m : Q_of c m = imu_noise c m.
Proof.
  unfold Q_of, imu_noise, daVar, dvVar. change (@szero R _) with (@slit R _ 0 1). rewrite !clip01_eq. unfold sq, dt_ekf, BADACC_BIAS_PNOISE. cbn [smul slit RScalar].
  destruct (m <? 3)%nat; [field|]. destruct (x_clip c _), (f_bad_acc_vertical c); cbn [orb]; field.
Qed.
Lemma process_noise_eq c P hr i : process_noise c P hr i = state_noise c P hr i.
Proof.
  assert (Z : szero = 0) by apply szeroR.
  assert (E1 : sq (d_ang_bias_sig c) = (1 / 10000 * clip01 (p_gyro_bias_p_noise c)) ^ 2) by (unfold d_ang_bias_sig, sq; change (@szero R _) with (@slit R _ 0 1); rewrite clip01_eq; unfold dt_ekf; cbn [smul slit RScalar]; field).
  assert (E2 : sq (d_vel_bias_sig c) = (1 / 10000 * clip01 (p_accel_bias_p_noise c)) ^ 2) by (unfold d_vel_bias_sig, sq; change (@szero R _) with (@slit R _ 0 1); rewrite clip01_eq; unfold dt_ekf; cbn [smul slit RScalar]; field).
  assert (E3 : sq (mag_I_sig c P) = if f_mag_3D c then if Rlt_dec (var3 P 16) (1 / 10) then (1 / 100 * clip01 (p_mage_p_noise c)) ^ 2 else 0 else 0).
  { unfold mag_I_sig, var3. destruct (f_mag_3D c); cbn [andb]; [|unfold sq; rewrite Z; cbn; ring]. change (@szero R _) with (@slit R _ 0 1). rewrite clip01_eq. cbn [sadd slt slit RScalar]. cbn [Nat.add].
    match goal with |- context [Rlt_dec ?a ?b] => destruct (Rlt_dec a b) end; unfold sq, dt_ekf; cbn [smul slit RScalar]; (lra || field). }
  assert (E4 : sq (mag_B_sig c P) = if f_mag_3D c then if Rlt_dec (var3 P 19) (1 / 10) then (1 / 100 * clip01 (p_magb_p_noise c)) ^ 2 else 0 else 0).
  { unfold mag_B_sig, var3. destruct (f_mag_3D c); cbn [andb]; [|unfold sq; rewrite Z; cbn; ring]. change (@szero R _) with (@slit R _ 0 1). rewrite clip01_eq. cbn [sadd slt slit RScalar]. cbn [Nat.add].
    match goal with |- context [Rlt_dec ?a ?b] => destruct (Rlt_dec a b) end; unfold sq, dt_ekf; cbn [smul slit RScalar]; (lra || field). }
  assert (E5 : sq (wind_vel_sig c P hr) = if f_wind c then if Rlt_dec (var2 P 22) (p_initial_wind_uncertainty c ^ 2) then (1 / 100 * clip01 (p_wind_vel_p_noise c) * (1 + p_wind_vel_p_noise_scaler c * Rabs hr)) ^ 2 else 0 else 0).
  { unfold wind_vel_sig, var2. destruct (f_wind c); cbn [andb]; [|unfold sq; rewrite Z; cbn; ring]. change (@szero R _) with (@slit R _ 0 1). rewrite clip01_eq. unfold sq. cbn [sadd slt smul slit sabs RScalar]. cbn [Nat.add].
    replace (p_initial_wind_uncertainty c ^ 2) with (p_initial_wind_uncertainty c * p_initial_wind_uncertainty c) by ring.
    match goal with |- context [Rlt_dec ?a ?b] => destruct (Rlt_dec a b) end; unfold dt_ekf; cbn [smul slit RScalar]; (lra || field). }
  unfold process_noise. rewrite E1, E2, E3, E4, E5, Z. unfold state_noise.
  do 24 (destruct i as [|i]; [reflexivity|]). reflexivity.
Qed.
Lemma height_rate_eq c s : hrate_next c s = height_rate (c_hrate s) (x_st c 6%nat).
Proof. unfold hrate_next, height_rate, dt_ekf. cbn [sadd ssub smul slit RScalar]. field. Qed.
Lemma FPFt_ext F G P Q Q' i j : (forall m, Q m = Q' m) -> FPFt_GQGt F G P Q i j = FPFt_GQGt F G P Q' i j.
Proof. intros E. unfold FPFt_GQGt. f_equal. apply rsum_ext. intros. rewrite E. reflexivity. Qed.

(** ** the inhibition decision *)
(** peak-hold magnitude with decay: alpha = 0.01 s / time constant, limited to [0, 1] *)
Definition decayed_peak (tc old now : R) : R := Rmax (100 * now) ((1 - clip01 (1 / 100 / tc)) * old).
Definition norm3R (v : nat -> R) : R := sqrt (v 0%nat * v 0%nat + v 1%nat * v 1%nat + v 2%nat * v 2%nat).
Definition learning_inhibited (c : covctx R) (s : covst R) (k : nat) : Prop :=
  p_inhibit_acc_bias c = true \/ f_bad_acc_vertical c = true \/ x_clip c k = true \/
  (f_in_air c = false /\ Rabs (x_R2 c k) <= 8 / 10) \/
  p_acc_bias_learn_gyr_lim c < decayed_peak (p_acc_bias_learn_tc c) (c_ang_filt s) (norm3R (x_da c)) \/
  p_acc_bias_learn_acc_lim c < decayed_peak (p_acc_bias_learn_tc c) (c_acc_filt s) (norm3R (x_dv c)).
Lemma inhibit_axis_iff c s k : inhibit_axis c (filtStep c s) k = true <-> learning_inhibited c s k.
Proof.
  unfold inhibit_axis, inhibit_all, learning_inhibited.
  assert (P : forall a o f, sfmax (smul dt_inv a) (smul (beta c) f) = decayed_peak (p_acc_bias_learn_tc c) f a <-> o = o :> R) by (intros; split; [reflexivity|intros _; unfold decayed_peak, dt_inv, beta, alpha; change (@szero R _) with (@slit R _ 0 1); rewrite clip01_eq; unfold dt_ekf; cbn [sfmax smul ssub sdiv slit RScalar]; f_equal; [field|f_equal; f_equal; [field|f_equal; f_equal; field]]]).
  assert (N : forall v, norm3 v = norm3R v) by (intros; unfold norm3, norm3R, dot3; rewrite szeroR; cbn [ssqrt sadd smul RScalar]; f_equal; ring).
  cbn [filtStep c_ang_filt c_acc_filt]. rewrite !N, !(proj2 (P _ 0 _) eq_refl). unfold sgt.
  rewrite !orb_true_iff, negb_true_iff, orb_false_iff, !sltR_true, sltR_false.
  cbn [sabs slit RScalar]. tauto.
Qed.

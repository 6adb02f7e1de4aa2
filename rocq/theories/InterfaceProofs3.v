(** * Which sensor delays the buffers cover *)
From Verif Require Import CBase F32 RingBufferModel InterfaceModel InterfaceSpec InterfaceProofs InterfaceProofs2.
From Coq Require Import Lra.
Open Scope Z_scope.

Lemma math_max_R a b : is_finite a = true -> is_finite b = true ->
  is_finite (math_max a b) = true /\ (R32 a <= R32 (math_max a b))%R /\ (R32 b <= R32 (math_max a b))%R.
Proof.
  intros Ha Hb. unfold math_max, fgt. change (Bltb b a) with (flt b a). rewrite flt_R by assumption.
  destruct (Rlt_bool_spec (R32 b) (R32 a)); split; auto; lra.
Qed.

(** all delay parameters are finite *)
Definition delays_finite (p : if_params) : Prop :=
  is_finite (mag_delay_ms p) = true /\ is_finite (baro_delay_ms p) = true /\
  is_finite (gps_delay_ms p) = true /\ is_finite (airspeed_delay_ms p) = true /\
  is_finite (flow_delay_ms p) = true /\ is_finite (range_delay_ms p) = true /\
  is_finite (ev_delay_ms p) = true /\ is_finite (auxvel_delay_ms p) = true.

Lemma cond_max (b : bool) x m : is_finite x = true -> is_finite m = true ->
  let r := if b then math_max x m else m in
  is_finite r = true /\ (R32 m <= R32 r)%R /\ (b = true -> (R32 x <= R32 r)%R).
Proof.
  intros Hx Hm. destruct b; cbv zeta.
  - destruct (math_max_R x m Hx Hm) as (H1 & H2 & H3). auto.
  - split; [exact Hm|]. split; [lra|discriminate].
Qed.

Lemma max_covers p : delays_finite p ->
  let m := max_time_delay p in
  is_finite m = true /\
  (R32 (baro_delay_ms p) <= R32 m)%R /\ (R32 (auxvel_delay_ms p) <= R32 m)%R /\
  (R32 (airspeed_delay_ms p) <= R32 m)%R /\
  (mag_fusion_type p <> MAG_FUSE_TYPE_NONE -> (R32 (mag_delay_ms p) <= R32 m)%R) /\
  (range_aid p <> 0 \/ vdist_sensor_type p = VDIST_SENSOR_RANGE -> (R32 (range_delay_ms p) <= R32 m)%R) /\
  (mask (fusion_mode p) MASK_USE_GPS = true -> (R32 (gps_delay_ms p) <= R32 m)%R) /\
  (mask (fusion_mode p) MASK_USE_OF = true -> (R32 (flow_delay_ms p) <= R32 m)%R) /\
  (mask (fusion_mode p) (Z.lor MASK_USE_EVPOS (Z.lor MASK_USE_EVYAW MASK_USE_EVVEL)) = true ->
     (R32 (ev_delay_ms p) <= R32 m)%R).
Proof.
  intros (F1 & F2 & F3 & F4 & F5 & F6 & F7 & F8). unfold max_time_delay. cbv zeta.
  destruct (math_max_R (auxvel_delay_ms p) (airspeed_delay_ms p) F8 F4) as (G1 & G2 & G3).
  destruct (math_max_R (baro_delay_ms p) _ F2 G1) as (I1 & I2 & I3).
  set (m0 := math_max (baro_delay_ms p) _) in *.
  assert (E1 : (if mag_fusion_type p =? MAG_FUSE_TYPE_NONE then m0 else math_max (mag_delay_ms p) m0)
             = (if negb (mag_fusion_type p =? MAG_FUSE_TYPE_NONE) then math_max (mag_delay_ms p) m0 else m0))
    by (destruct (mag_fusion_type p =? MAG_FUSE_TYPE_NONE); reflexivity).
  rewrite E1.
  destruct (cond_max (negb (mag_fusion_type p =? MAG_FUSE_TYPE_NONE)) _ m0 F1 I1) as (J1 & J2 & J3).
  set (m1 := if negb (mag_fusion_type p =? _) then _ else _) in *.
  destruct (cond_max (negb (range_aid p =? 0) || (vdist_sensor_type p =? VDIST_SENSOR_RANGE)) _ m1 F6 J1) as (K1 & K2 & K3).
  set (m2 := if negb (range_aid p =? 0) || _ then _ else _) in *.
  destruct (cond_max (mask (fusion_mode p) MASK_USE_GPS) _ m2 F3 K1) as (L1 & L2 & L3).
  set (m3 := if mask _ MASK_USE_GPS then _ else _) in *.
  destruct (cond_max (mask (fusion_mode p) MASK_USE_OF) _ m3 F5 L1) as (M1 & M2 & M3).
  set (m4 := if mask _ MASK_USE_OF then _ else _) in *.
  destruct (cond_max (mask (fusion_mode p) (Z.lor MASK_USE_EVPOS (Z.lor MASK_USE_EVYAW MASK_USE_EVVEL))) _ m4 F7 M1) as (N1 & N2 & N3).
  set (m5 := if mask _ (Z.lor _ _) then _ else _) in *.
  split; [exact N1|]. split; [lra|]. split; [lra|]. split; [lra|].
  split; [intros H; assert (negb (mag_fusion_type p =? MAG_FUSE_TYPE_NONE) = true) as Hb by lia; specialize (J3 Hb); lra|].
  split; [intros H; assert (negb (range_aid p =? 0) || (vdist_sensor_type p =? VDIST_SENSOR_RANGE) = true) as Hb by lia; specialize (K3 Hb); lra|].
  split; [intros H; specialize (L3 H); lra|].
  split; [intros H; specialize (M3 H); lra|].
  intros H; specialize (N3 H); lra.
Qed.

(** default parameters of EKF/common.h l.217-294 *)
Definition default_params : if_params :=
  {| fusion_mode := MASK_USE_GPS; vdist_sensor_type := VDIST_SENSOR_BARO; sensor_interval_min_ms := 20;
     mag_delay_ms := f0; baro_delay_ms := f0; gps_delay_ms := f_of_Z 110; airspeed_delay_ms := f_of_Z 100;
     flow_delay_ms := f_of_Z 5; range_delay_ms := f_of_Z 5; ev_delay_ms := f_of_Z 175; auxvel_delay_ms := f_of_Z 5;
     mag_fusion_type := 0; range_aid := 0 |}.

(** GPS used for height only (mask bit clear, vdist_sensor_type = GPS) with a 300 ms delay *)
Definition gps_height_params : if_params :=
  {| fusion_mode := 0; vdist_sensor_type := VDIST_SENSOR_GPS; sensor_interval_min_ms := 20;
     mag_delay_ms := f0; baro_delay_ms := f0; gps_delay_ms := f_of_Z 300; airspeed_delay_ms := f_of_Z 100;
     flow_delay_ms := f_of_Z 5; range_delay_ms := f_of_Z 5; ev_delay_ms := f_of_Z 175; auxvel_delay_ms := f_of_Z 5;
     mag_fusion_type := 0; range_aid := 0 |}.

Lemma gps_height_delay_not_covered :
  exists p il ol, initialise_interface p = Ok (il, ol) /\
    (mask (fusion_mode p) MASK_USE_GPS || (vdist_sensor_type p =? VDIST_SENSOR_GPS)) = true /\
    (10 * IZR il < R32 (gps_delay_ms p))%R.
Proof.
  exists gps_height_params, 11, 8. split; [vm_compute; reflexivity|]. split; [reflexivity|].
  destruct (f_of_Z_exact 300) as [E _]; [lia|].
  change (gps_delay_ms gps_height_params) with (f_of_Z 300). rewrite E. lra.
Qed.

(** small delays: one observation slot, division by zero *)
Definition small_delay_params : if_params :=
  {| fusion_mode := MASK_USE_GPS; vdist_sensor_type := VDIST_SENSOR_BARO; sensor_interval_min_ms := 20;
     mag_delay_ms := f0; baro_delay_ms := f0; gps_delay_ms := f_of_Z 10; airspeed_delay_ms := f_of_Z 10;
     flow_delay_ms := f_of_Z 5; range_delay_ms := f_of_Z 5; ev_delay_ms := f_of_Z 5; auxvel_delay_ms := f_of_Z 5;
     mag_fusion_type := 0; range_aid := 0 |}.
Lemma small_delay_div0 :
  exists il ol, initialise_interface small_delay_params = Ok (il, ol) /\ min_obs_interval 1000000 990000 ol = UB.
Proof. exists 2, 1. split; vm_compute; reflexivity. Qed.

(** a day after boot the stored GPS time stamp is off by 4.096 ms *)
Lemma stamp_day_error :
  exists t', stamp (f_of_Z 110) 86400115001 = Ok t' /\ Z.abs (t' - (86400115001 - 110 * 1000 - 5000)) > 1800.
Proof. eexists. split; [vm_compute; reflexivity|vm_compute; reflexivity]. Qed.

(** backward time stamps bypass the rate limit *)
Lemma backward_accepted :
  exists l : deliveries Z, Forall (fun x => fst x = 15000) l /\
    map time_us (accepted 0 l) = [1000000; 999999; 999998].
Proof.
  exists [(15000, mk_sample 1000000 0); (15000, mk_sample 999999 0); (15000, mk_sample 999998 0)].
  split; [repeat constructor|vm_compute; reflexivity].
Qed.

(** drag ratio *)
Lemma drag_ratio_ok il ol : 1 <= ol <= il -> il <= 255 -> exists r, drag_ratio il ol = Ok r /\ 5 <= r <= 255.
Proof.
  intros Ho Hi. unfold drag_ratio.
  destruct (f_of_Z_exact il) as [E1 F1]; [lia|]. destruct (f_of_Z_exact ol) as [E2 F2]; [lia|].
  assert (R1 : (1 <= IZR ol <= IZR il)%R) by (split; apply IZR_le; lia).
  assert (R2 : (IZR il <= 255)%R) by (apply (IZR_le _ 255); lia).
  assert (Hinv : (0 < / IZR ol)%R) by (apply Rinv_0_lt_compat; lra).
  assert (Hq : (0 <= IZR il / IZR ol <= 255)%R).
  { split; [apply Rmult_le_pos; lra|]. apply Rmult_le_reg_r with (IZR ol); [lra|].
    unfold Rdiv. rewrite Rmult_assoc, Rinv_l by lra. nra. }
  destruct (fdiv_R (f_of_Z il) (f_of_Z ol) F1) as [E3 F3].
  { rewrite E2. lra. }
  { rewrite E1, E2. bounded. rewrite Rabs_pos_eq; lra. }
  rewrite E1, E2 in E3. set (q := rnd32 (IZR il / IZR ol)) in *.
  assert (Hqq : (0 <= q <= 255)%R).
  { unfold q. split; [apply rnd32_ge0; lra|apply (rnd32_leZ _ 255); [lia|lra]]. }
  destruct (fceil_R (fdiv (f_of_Z il) (f_of_Z ol))) as [E4 F4]. rewrite E3 in E4. rewrite F3 in F4.
  rewrite (f_to_uint_R 8 _ (Zceil q) F4 E4).
  assert (0 <= Zceil q <= 255).
  { split.
    - replace 0 with (Zceil (IZR 0)) by (rewrite Zceil_IZR; reflexivity). apply Zceil_le. lra.
    - apply Zceil_glb. lra. }
  replace ((0 <=? Zceil q) && (Zceil q <? 2 ^ 8)) with true by (change (2 ^ 8) with 256; lia).
  exists (if Zceil q <? 5 then 5 else Zceil q). split; [reflexivity|]. destruct (Z.ltb_spec (Zceil q) 5); lia.
Qed.

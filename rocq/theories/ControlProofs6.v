(** Proofs for the control decisions of C63-C66. *)
Require Import ZArith Bool List Lia.
Require Import Verif.CBase Verif.GpsModel Verif.ControlModel Verif.ControlSpec Verif.ControlTac Verif.ControlProofs Verif.ControlProofs2 Verif.ControlProofs3 Verif.ControlProofs4 Verif.ControlProofs5.
Import ListNotations.
Local Open Scope Z_scope.

(** *** emergency yaw reset request *)
Definition Preq (n : nat) (b : bool) (s : st) : Prop :=
  (length (gsf s) = n /\ gb s L_do_ekfgsf_yaw_reset = b) \/ ((length (gsf s) > n)%nat /\ gb s L_do_ekfgsf_yaw_reset = false).
Lemma D_req : forall n b, dep (bk_eqb L_do_ekfgsf_yaw_reset) noz true (Preq n b).
Proof. intros n b s s' H _ G. unfold Preq. rewrite H by reflexivity. rewrite G by reflexivity. auto. Qed.
Lemma reset_len : forall p i s, length (gsf (snd (resetYawToEKFGSF p i s))) = if ib i I_gsf_ok then S (length (gsf s)) else length (gsf s).
Proof.
  intros p i s. unfold resetYawToEKFGSF. destruct (ib i I_gsf_ok); cbn [negb]; [|reflexivity]. cbv zeta. cbn [snd].
  destruct (negb (p_mag_type p =? MAG_NONE)); reflexivity.
Qed.
Lemma align_req : forall n b p i s, Preq n b s -> Preq n b (gsfAlign p i s).
Proof.
  intros n b p i s H. unfold gsfAlign. destruct (_ && _); [|exact H]. cbv zeta. rewrite reset_fst. destruct (ib i I_gsf_ok) eqn:E; cbn [if_].
  - right. assert (L := reset_len p i s). rewrite E in L. split; [|reflexivity]. cbn [gsf setz setb]. rewrite L. unfold Preq in H. lia.
  - rewrite reset_no by exact E. exact H.
Qed.
Lemma recover_req : forall n b p i s, Preq n b s -> Preq n b (gpsRecover p i s).
Proof.
  intros n b p i s H. unfold gpsRecover. destruct (_ && _).
  - cbv zeta. rewrite reset_fst. destruct (ib i I_gsf_ok) eqn:E; cbn [if_].
    + right. assert (L := reset_len p i s). rewrite E in L. split; [|reflexivity]. cbn [gsf setz setb]. rewrite L. unfold Preq in H. lia.
    + rewrite reset_no by exact E. exact H.
  - revert s H. pres (D_req n b).
Qed.
Ltac hreq := idtac; match goal with
  | |- Preq _ _ (gsfAlign _ _ _) => apply align_req
  | |- Preq _ _ (gpsRecover _ _ _) => apply recover_req end.
Lemma request_consumed : forall p i s, let s' := controlFusionModes p i s in
  (length (gsf s') = length (gsf s) /\ gb s' L_do_ekfgsf_yaw_reset = gb s L_do_ekfgsf_yaw_reset) \/
  ((length (gsf s') > length (gsf s))%nat /\ gb s' L_do_ekfgsf_yaw_reset = false).
Proof.
  intros p i s. cbv zeta. change (Preq (length (gsf s)) (gb s L_do_ekfgsf_yaw_reset) (controlFusionModes p i s)).
  assert (H : Preq (length (gsf s)) (gb s L_do_ekfgsf_yaw_reset) s) by (left; split; reflexivity).
  revert H. generalize (length (gsf s)) (gb s L_do_ekfgsf_yaw_reset). intros n b H. presh (D_req n b) hreq.
Qed.

(** *** synthetic magnetometer *)
Lemma synth_flag : forall p i s, gb (controlFusionModes p i s) F_synthetic_mag_z =
  if ib i I_mag_ready then p_synth_mag_z p && Z.testbit (p_mag_decl_source p) 0 && (ib i I_ned_origin || ib i I_decl_finite) else gb s F_synthetic_mag_z.
Proof.
  intros p i s. rewrite cfm_splitm.
  assert (A : forall x, gb (postMag p i (controlMagFusion p i x)) F_synthetic_mag_z = gb x F_synthetic_mag_z) by fb.
  rewrite A. unfold preMag. assert (B : forall x, gb (controlHeightSensorTimeouts p i x) F_synthetic_mag_z = gb x F_synthetic_mag_z) by fb. rewrite B.
  assert (C : gb (cfm_tilt p i s) F_synthetic_mag_z = gb s F_synthetic_mag_z) by fb. rewrite <- C. generalize (cfm_tilt p i s). intros x. unfold cfm_data. cbv zeta.
  destruct (ib i I_gps_ready), (ib i I_mag_ready), (ib i I_flow_pop); cbn [if_];
  repeat match goal with |- context [if ?b then _ else _] => destruct b end; try (match goal with |- context [if_ ?b _ _] => destruct b end); reflexivity.
Qed.

(** *** air data *)
Definition postBeta (p : params) (i : inp) (s : st) : st := postHeight p i (controlHeightFusion p i (controlDragFusion p i s)).
Lemma cfm_splitb : forall p i s, controlFusionModes p i s = postBeta p i (controlBetaFusion p i (controlAirDataFusion p i (controlGpsFusion p i (preGps p i s)))).
Proof. intros p i s. unfold postBeta, preGps, postHeight, controlFusionModes. reflexivity. Qed.
Lemma beta_pre_t : forall p i s, gz (controlAirDataFusion p i (controlGpsFusion p i (preGps p i s))) T_beta_fuse = gz s T_beta_fuse. Proof. fz. Qed.
Lemma beta_pre_s : forall p i s, gb (controlAirDataFusion p i (controlGpsFusion p i (preGps p i s))) L_using_synthetic_position = gb s L_using_synthetic_position. Proof. fb. Qed.
Lemma beta_pre_f : forall p i s, gb (controlAirDataFusion p i (controlGpsFusion p i (preGps p i s))) F_fuse_beta = gb s F_fuse_beta. Proof. fb. Qed.
Lemma beta_pre_a : forall p i s, gb (controlAirDataFusion p i (controlGpsFusion p i (preGps p i s))) F_in_air = gb s F_in_air. Proof. fb. Qed.
Lemma beta_post_t : forall p i s, gz (postBeta p i s) T_beta_fuse = gz s T_beta_fuse. Proof. fz. Qed.
Lemma beta_time : forall p i s, let s' := controlFusionModes p i s in
  let go := negb (gb s L_using_synthetic_position) && is_timed_out (iz i J_now) (gz s T_beta_fuse) (p_beta_avg_us p) && gb s F_fuse_beta && gb s F_in_air in
  (go = false -> gz s' T_beta_fuse = gz s T_beta_fuse) /\
  (go = true -> ib i I_fused_beta = true -> gz s' T_beta_fuse = iz i J_now) /\
  (gz s' T_beta_fuse = gz s T_beta_fuse \/ gz s' T_beta_fuse = iz i J_now).
Proof.
  intros p i s. cbv zeta. rewrite cfm_splitb, beta_post_t. rewrite <- (beta_pre_t p i s), <- (beta_pre_s p i s), <- (beta_pre_f p i s), <- (beta_pre_a p i s).
  set (x := controlAirDataFusion p i (controlGpsFusion p i (preGps p i s))). clearbody x.
  unfold controlBetaFusion. unfold timed_out. destruct (_ && _); cbn [if_].
  - split; [discriminate|]. destruct (negb (gb x F_wind)), (ib i I_fused_beta); cbn [if_]; split; try (intros _; reflexivity); try (intros _ C; discriminate); try (right; reflexivity); left; reflexivity.
  - split; [reflexivity|]. split; [discriminate|]. left. reflexivity.
Qed.
Definition postAir (p : params) (i : inp) (s : st) : st := postBeta p i (controlBetaFusion p i s).
Lemma cfm_splita : forall p i s, controlFusionModes p i s = postAir p i (controlAirDataFusion p i (controlGpsFusion p i (preGps p i s))).
Proof. intros p i s. unfold postAir. apply cfm_splitb. Qed.
Lemma air_pre_t : forall p i s, gz (controlGpsFusion p i (preGps p i s)) T_arsp_fuse = gz s T_arsp_fuse. Proof. fz. Qed.
Lemma air_pre_b : forall p i s, gz (controlGpsFusion p i (preGps p i s)) T_beta_fuse = gz s T_beta_fuse. Proof. fz. Qed.
Lemma air_pre_s : forall p i s, gb (controlGpsFusion p i (preGps p i s)) L_using_synthetic_position = gb s L_using_synthetic_position. Proof. fb. Qed.
Lemma air_pre_a : forall p i s, gb (controlGpsFusion p i (preGps p i s)) F_in_air = gb s F_in_air. Proof. fb. Qed.
Lemma air_pre_w : forall p i s, gb (controlGpsFusion p i (preGps p i s)) F_wind = gb s F_wind. Proof. fb. Qed.
Lemma air_pre_f : forall p i s, gb (controlGpsFusion p i (preGps p i s)) F_fuse_beta = gb s F_fuse_beta. Proof. fb. Qed.
Lemma air_pre_d : forall p i s, gb (controlGpsFusion p i (preGps p i s)) F_fuse_aspd = gb s F_fuse_aspd. Proof. fb. Qed.
Lemma air_post_t : forall p i s, gz (postAir p i s) T_arsp_fuse = gz s T_arsp_fuse. Proof. fz. Qed.
Lemma air_post_d : forall p i s, gb (postAir p i s) F_fuse_aspd = gb s F_fuse_aspd. Proof. fb. Qed.
(** closed forms of controlAirDataFusion *)
Section Air.
Variable (p : params) (i : inp) (x : st).
Let stale := is_timed_out (iz i J_now) (gz x T_arsp_fuse) 10000000 && is_timed_out (iz i J_now) (gz x T_beta_fuse) 10000000 && negb (use_drag p).
Let go := negb (gb x L_using_synthetic_position) && ib i I_tas_ready && gb x F_in_air.
Let kept := gb x F_wind && negb (gb x L_using_synthetic_position || stale).
Lemma air_closed :
  gb (controlAirDataFusion p i x) F_wind = (kept || go) /\  gb (controlAirDataFusion p i x) F_fuse_aspd = (if go && ib i I_fused_tas then true else gb x F_fuse_aspd && negb (is_timed_out (iz i J_now) (gz x T_arsp_fuse) 10000000)) /\  gz (controlAirDataFusion p i x) T_arsp_fuse = (if go && (ib i I_fused_tas || negb kept) then iz i J_now else gz x T_arsp_fuse).
Proof.
  unfold controlAirDataFusion, timed_out. cbv zeta.
  change (is_timed_out (iz i J_now) (gz x T_arsp_fuse) 10000000 && is_timed_out (iz i J_now) (gz x T_beta_fuse) 10000000 && negb (use_drag p)) with stale.
  set (t := is_timed_out (iz i J_now) (gz x T_arsp_fuse) 10000000). clearbody t.
  set (a := if_ (gb x F_wind && (gb x L_using_synthetic_position || stale)) (setb F_wind false) x).
  assert (A1 : gb a F_wind = kept).
  { unfold a, kept. destruct (gb x F_wind) eqn:W; cbn [andb if_]; [|exact W]. destruct (gb x L_using_synthetic_position || stale); cbn [if_ negb]; [reflexivity|exact W]. }
  assert (A2 : forall k, k <> F_wind -> gb a k = gb x k).
  { intros k Hk. unfold a. destruct (gb x F_wind && (gb x L_using_synthetic_position || stale)); cbn [if_]; [|reflexivity]. cbn [gb setb]. destruct (bk_eqb F_wind k) eqn:E; [|reflexivity]. apply bk_eqb_true in E. congruence. }
  assert (A3 : forall k, gz a k = gz x k). { intros k. unfold a. destruct (gb x F_wind && (gb x L_using_synthetic_position || stale)); reflexivity. }
  clearbody a. set (b := if_ (gb a F_fuse_aspd && t) (setb F_fuse_aspd false) a).
  assert (B1 : gb b F_fuse_aspd = gb x F_fuse_aspd && negb t).
  { unfold b. rewrite <- (A2 F_fuse_aspd) by discriminate. destruct (gb a F_fuse_aspd) eqn:W; cbn [andb if_]; [|exact W]. destruct t; cbn [if_ negb]; [reflexivity|exact W]. }
  assert (B2 : forall k, k <> F_fuse_aspd -> gb b k = gb a k).
  { intros k Hk. unfold b. destruct (gb a F_fuse_aspd && t); cbn [if_]; [|reflexivity]. cbn [gb setb]. destruct (bk_eqb F_fuse_aspd k) eqn:E; [|reflexivity]. apply bk_eqb_true in E. congruence. }
  assert (B3 : forall k, gz b k = gz x k). { intros k. rewrite <- A3. unfold b. destruct (gb a F_fuse_aspd && t); reflexivity. }
  clearbody b.
  assert (BL : gb b L_using_synthetic_position = gb x L_using_synthetic_position) by (rewrite B2, A2 by discriminate; reflexivity).
  assert (BA : gb b F_in_air = gb x F_in_air) by (rewrite B2, A2 by discriminate; reflexivity).
  assert (BW : gb b F_wind = kept) by (rewrite B2 by discriminate; exact A1).
  rewrite BL, BA. change (negb (gb x L_using_synthetic_position) && ib i I_tas_ready && gb x F_in_air) with go.
  rewrite <- B1, <- (B3 T_arsp_fuse), <- BW. clear. clearbody go. destruct go; cbn [if_ andb].
  - destruct (gb b F_wind) eqn:W, (ib i I_fused_tas); cbn [negb if_ orb]; repeat split; try exact W; reflexivity.
  - rewrite orb_false_r. repeat split; reflexivity.
Qed.
End Air.
Lemma air_time : forall p i s, let s' := controlFusionModes p i s in
  let go := negb (gb s L_using_synthetic_position) && ib i I_tas_ready && gb s F_in_air in
  (go = false -> gz s' T_arsp_fuse = gz s T_arsp_fuse) /\
  (go = true -> ib i I_fused_tas = true -> gz s' T_arsp_fuse = iz i J_now /\ gb s' F_fuse_aspd = true) /\
  (gz s' T_arsp_fuse = gz s T_arsp_fuse \/ gz s' T_arsp_fuse = iz i J_now) /\
  (gb s' F_fuse_aspd = true -> (go && ib i I_fused_tas) = true \/ (gb s F_fuse_aspd = true /\ is_timed_out (iz i J_now) (gz s T_arsp_fuse) 10000000 = false)).
Proof.
  intros p i s. cbv zeta. rewrite cfm_splita, air_post_t, air_post_d. rewrite <- (air_pre_t p i s), <- (air_pre_s p i s), <- (air_pre_a p i s), <- (air_pre_d p i s).
  set (x := controlGpsFusion p i (preGps p i s)). clearbody x. destruct (air_closed p i x) as (_ & EA & ET). rewrite EA, ET. clear EA ET.
  set (go := negb (gb x L_using_synthetic_position) && ib i I_tas_ready && gb x F_in_air). clearbody go.
  set (k := gb x F_wind && _). clearbody k. generalize (is_timed_out (iz i J_now) (gz x T_arsp_fuse) 10000000). intros t.
  destruct go; cbn [andb].
  - split; [discriminate|]. split; [intros _ E; rewrite E; split; reflexivity|]. split; [destruct (_ || _); auto|].
    destruct (ib i I_fused_tas); [auto|]. intros E. apply andb_prop in E. right. destruct E as [E1 E2]. split; [exact E1|]. destruct t; [discriminate E2|reflexivity].
  - split; [reflexivity|]. split; [discriminate|]. split; [auto|]. intros E. apply andb_prop in E. right. destruct E as [E1 E2]. split; [exact E1|]. destruct t; [discriminate E2|reflexivity].
Qed.
(** wind estimation: started only in the air, not with a synthetic position, and on a reason *)
Lemma wind_end : forall p i x, gb (postHeight p i (controlHeightFusion p i x)) F_wind = gb x F_wind. Proof. fb. Qed.
Lemma wind_flag : forall p i s, let s' := controlFusionModes p i s in
  let ok := negb (gb s L_using_synthetic_position) && gb s F_in_air in
  let beta := gb s F_fuse_beta && is_timed_out (iz i J_now) (gz s T_beta_fuse) (p_beta_avg_us p) in
  let stale := is_timed_out (iz i J_now) (gz s T_arsp_fuse) 10000000 && is_timed_out (iz i J_now) (gz s T_beta_fuse) 10000000 && negb (use_drag p) in
  let kept := gb s F_wind && negb (gb s L_using_synthetic_position || stale) in
  (gb s' F_wind = true -> kept = true \/ (ok = true /\ (ib i I_tas_ready = true \/ beta = true \/ use_drag p = true))) /\
  (kept = true \/ (ok = true /\ (ib i I_tas_ready = true \/ beta = true)) -> gb s' F_wind = true).
Proof.
  intros p i s. cbv zeta. rewrite cfm_splita. unfold postAir, postBeta. rewrite wind_end.
  rewrite <- (air_pre_t p i s), <- (air_pre_s p i s), <- (air_pre_a p i s), <- (air_pre_w p i s), <- (air_pre_b p i s), <- (air_pre_f p i s).
  set (x := controlGpsFusion p i (preGps p i s)). clearbody x.
  assert (FB : gb (controlAirDataFusion p i x) F_fuse_beta = gb x F_fuse_beta) by fb.
  assert (FA : gb (controlAirDataFusion p i x) F_in_air = gb x F_in_air) by fb.
  assert (FS : gb (controlAirDataFusion p i x) L_using_synthetic_position = gb x L_using_synthetic_position) by fb.
  assert (FT : gz (controlAirDataFusion p i x) T_beta_fuse = gz x T_beta_fuse) by fz.
  assert (FW : gb (controlAirDataFusion p i x) F_wind = (gb x F_wind && negb (gb x L_using_synthetic_position || (is_timed_out (iz i J_now) (gz x T_arsp_fuse) 10000000 && is_timed_out (iz i J_now) (gz x T_beta_fuse) 10000000 && negb (use_drag p))))
     || (negb (gb x L_using_synthetic_position) && ib i I_tas_ready && gb x F_in_air)).
  { exact (proj1 (air_closed p i x)). }
  set (y := controlAirDataFusion p i x) in *. rewrite <- FB, <- FS, <- FA, <- FT in *. clearbody y.
  assert (FW2 : gb (controlBetaFusion p i y) F_wind = gb y F_wind || (negb (gb y L_using_synthetic_position) && is_timed_out (iz i J_now) (gz y T_beta_fuse) (p_beta_avg_us p) && gb y F_fuse_beta && gb y F_in_air)).
  { unfold controlBetaFusion, timed_out. match goal with |- gb (if_ ?c _ _) _ = _ => destruct c end; cbn [if_]; rewrite ?orb_true_r, ?orb_false_r; [|reflexivity].
    destruct (gb y F_wind) eqn:W, (ib i I_fused_beta); cbn; rewrite ?W; reflexivity. }
  assert (FD : forall k, k <> F_wind -> gb (controlBetaFusion p i y) k = gb y k).
  { intros k Hk. destruct k; try congruence; fb. }
  assert (F3 : gb (controlDragFusion p i (controlBetaFusion p i y)) F_wind = gb (controlBetaFusion p i y) F_wind || (use_drag p && negb (gb y L_using_synthetic_position) && gb y F_in_air && negb (gb y L_mag_inhibit_yaw_reset_req))).
  { unfold controlDragFusion. rewrite <- !(FD L_using_synthetic_position), <- !(FD F_in_air), <- !(FD L_mag_inhibit_yaw_reset_req) by discriminate.
    match goal with |- gb (if_ (?c && _) _ _) _ = _ => destruct c end; cbn [andb if_]; rewrite ?orb_true_r, ?orb_false_r; [|reflexivity]. destruct (gb (controlBetaFusion p i y) F_wind) eqn:W; cbn [negb if_]; [exact W|reflexivity]. }
  rewrite F3, FW2, FW. clear.
  generalize (gb y L_mag_inhibit_yaw_reset_req) (use_drag p) (ib i I_tas_ready) (gb y F_fuse_beta) (gb y F_in_air) (gb y L_using_synthetic_position) (gb x F_wind)
    (is_timed_out (iz i J_now) (gz y T_beta_fuse) (p_beta_avg_us p)) (is_timed_out (iz i J_now) (gz x T_arsp_fuse) 10000000) (is_timed_out (iz i J_now) (gz y T_beta_fuse) 10000000).
  intros q u r f a l w t1 t2 t3.
  set (kp := w && negb (l || (t2 && t3 && negb u))). clearbody kp.
  destruct kp; [split; [auto|reflexivity]|]. destruct l, a; cbn [negb andb orb]; rewrite ?andb_false_r; cbn [orb];
  destruct r, u, f, t1, q; cbn; split; auto; try discriminate;
  try (intros; right; split; [reflexivity|auto]); intros [C|[C D]]; try discriminate; destruct D; discriminate.
Qed.

(** * Proofs: GPS quality checks and origin *)
From Coq Require Import Lra Psatz.
From Verif Require Import CBase F32 F32More InterfaceSpec InterfaceModel GpsModel.
Open Scope Z_scope.

(** an enabled check failed for the last message: fix type, or a flag selected by the mask *)
Definition enabled_failure (msk : Z) (f : gps_flags) : Prop :=
  ff_fix f = true \/
  exists bit flag, In (bit, flag)
    [(0, ff_nsats f); (1, ff_pdop f); (2, ff_hacc f); (3, ff_vacc f); (4, ff_sacc f);
     (5, ff_hdrift f); (6, ff_vdrift f); (7, ff_hspeed f); (8, ff_vspeed f)] /\
    Z.testbit msk bit = true /\ flag = true.

Lemma mask_bit m k : 0 <= k -> mask m (2 ^ k) = Z.testbit m k.
Proof.
  intros Hk. unfold mask. destruct (Z.testbit m k) eqn:E.
  - apply Bool.negb_true_iff, Z.eqb_neq. intros H.
    assert (T : Z.testbit (Z.land m (2 ^ k)) k = true).
    { rewrite Z.land_spec, E, Z.pow2_bits_true by assumption. reflexivity. }
    rewrite H, Z.bits_0 in T. discriminate.
  - apply Bool.negb_false_iff, Z.eqb_eq. apply Z.bits_inj'. intros n Hn.
    rewrite Z.land_spec, Z.bits_0, Z.pow2_bits_eqb by assumption.
    destruct (Z.eqb_spec k n) as [->|]; [rewrite E; reflexivity|apply Bool.andb_false_r].
Qed.

Definition fail_expr (msk : Z) (fl' : gps_flags) : bool :=
  let k b bit := b && mask msk bit in
  ff_fix fl' || k (ff_nsats fl') MASK_GPS_NSATS || k (ff_pdop fl') MASK_GPS_PDOP
    || k (ff_hacc fl') MASK_GPS_HACC || k (ff_vacc fl') MASK_GPS_VACC || k (ff_sacc fl') MASK_GPS_SACC
    || k (ff_hdrift fl') MASK_GPS_HDRIFT || k (ff_vdrift fl') MASK_GPS_VDRIFT
    || k (ff_hspeed fl') MASK_GPS_HSPD || k (ff_vspeed fl') MASK_GPS_VSPD.

Lemma fail_expr_iff m f : fail_expr m f = true <-> enabled_failure m f.
Proof.
  unfold fail_expr, enabled_failure, MASK_GPS_NSATS, MASK_GPS_PDOP, MASK_GPS_HACC, MASK_GPS_VACC, MASK_GPS_SACC,
    MASK_GPS_HDRIFT, MASK_GPS_VDRIFT, MASK_GPS_HSPD, MASK_GPS_VSPD.
  change 256 with (2 ^ 8). change 128 with (2 ^ 7). change 64 with (2 ^ 6). change 32 with (2 ^ 5).
  change 16 with (2 ^ 4). cbv beta zeta.
  change (mask m 8) with (mask m (2 ^ 3)). change (mask m 4) with (mask m (2 ^ 2)).
  change (mask m 2) with (mask m (2 ^ 1)). change (mask m 1) with (mask m (2 ^ 0)).
  rewrite !mask_bit by lia. cbn [In]. rewrite !Bool.orb_true_iff, !Bool.andb_true_iff. split.
  - intros H. repeat destruct H as [H|H]; auto; right; destruct H as [H1 H2].
    + exists 0, (ff_nsats f). auto. + exists 1, (ff_pdop f). auto. + exists 2, (ff_hacc f). auto 6.
    + exists 3, (ff_vacc f). auto 7. + exists 4, (ff_sacc f). auto 8. + exists 5, (ff_hdrift f). auto 9.
    + exists 6, (ff_vdrift f). auto 10. + exists 7, (ff_hspeed f). auto 11. + exists 8, (ff_vspeed f). auto 12.
  - intros [H|(bit & flag & H & Hb & Hf)]; [tauto|].
    repeat destruct H as [H|H]; try contradiction; injection H as <- <-; tauto.
Qed.

Lemma good_unfold p m s :
  let r := gps_is_good p m s in
  gs_last_fail (snd r) = (if fail_expr (gp_mask p) (gs_flags (snd r)) then g_now m
                          else if gs_last_fail s =? 0 then g_now m else gs_last_fail s) /\
  fst r = is_timed_out (g_now m) (gs_last_fail (snd r)) (gp_health_us p).
Proof. cbv zeta. split; reflexivity. Qed.

Section Hist.
Variable p : gps_params.
Hypothesis Hh : 0 <= gp_health_us p < 2 ^ 32.

Definition gst (l : list gps_msg) := gps_run p l gps_init.
Lemma gps_run_app l1 l2 s : gps_run p (l1 ++ l2) s = gps_run p l2 (gps_run p l1 s).
Proof. revert s; induction l1; intros; cbn [app gps_run]; auto. Qed.
Lemma gst_snoc l m : gst (l ++ [m]) = snd (gps_is_good p m (gst l)).
Proof. unfold gst. rewrite gps_run_app. reflexivity. Qed.

(** messages arrive at nondecreasing, positive times well below the 64-bit limit *)
Definition msgs_timely (l : list gps_msg) : Prop :=
  nondecreasing 1 (map g_now l) /\ Forall (fun m => g_now m < 2 ^ 63) l.

(** the message following prefix [l1] has an enabled failing check, or is the first one *)
Definition bad_msg (l1 : list gps_msg) (m : gps_msg) : Prop :=
  l1 = [] \/ enabled_failure (gp_mask p) (gs_flags (gst (l1 ++ [m]))).

Lemma nondec_snoc' t0 l a : nondecreasing t0 (l ++ [a]) ->
  nondecreasing t0 l /\ (forall x, In x l -> x <= a) /\ t0 <= a.
Proof.
  revert t0; induction l as [|b l IH]; intros t0; cbn [app nondecreasing].
  - intros [H _]. split; [exact I|]. split; [intros x []|exact H].
  - intros [H1 H2]. destruct (IH _ H2) as (A & B & C). split; [split; assumption|].
    split; [|lia]. intros x [<-|Hx]; [exact C|auto].
Qed.

Lemma split_snoc {A} (l l1 l2 : list A) m j : l ++ [m] = l1 ++ j :: l2 ->
  (l2 = [] /\ l1 = l /\ j = m) \/ exists l2', l2 = l2' ++ [m] /\ l = l1 ++ j :: l2'.
Proof.
  intros E. destruct l2 as [|y l2] using rev_ind.
  - left. apply app_inj_tail in E. destruct E as [-> ->]. auto.
  - right. exists l2. replace (l1 ++ j :: l2 ++ [y]) with ((l1 ++ j :: l2) ++ [y]) in E by (rewrite <- app_assoc; reflexivity).
    apply app_inj_tail in E. destruct E as [-> ->]. auto.
Qed.

Lemma last_fail_history l : msgs_timely l -> l <> [] ->
  (exists l1 m l2, l = l1 ++ m :: l2 /\ bad_msg l1 m /\ gs_last_fail (gst l) = g_now m) /\
  (forall l1 m l2, l = l1 ++ m :: l2 -> bad_msg l1 m -> g_now m <= gs_last_fail (gst l)) /\
  0 < gs_last_fail (gst l) < 2 ^ 63.
Proof.
  induction l as [|m l IH] using rev_ind; [congruence|]. intros [Ht Hf] _.
  rewrite map_app in Ht. cbn [map] in Ht. apply nondec_snoc' in Ht. destruct Ht as (Ht & Hle & Hpos).
  apply Forall_app in Hf. destruct Hf as [Hf Hm]. apply Forall_inv in Hm.
  assert (Hle' : forall j, In j l -> g_now j <= g_now m) by (intros j Hj; apply Hle, in_map, Hj).
  rewrite gst_snoc. destruct (good_unfold p m (gst l)) as [E _]. rewrite E. clear E.
  rewrite <- gst_snoc.
  destruct (fail_expr (gp_mask p) (gs_flags (gst (l ++ [m])))) eqn:Ef.
  - apply fail_expr_iff in Ef. split; [exists l, m, []; split; [reflexivity|split; [right; exact Ef|reflexivity]]|].
    split; [|lia]. intros l1 j l2 El _. destruct (split_snoc _ _ _ _ _ El) as [(_ & _ & ->)|(l2' & _ & ->)]; [lia|].
    apply Hle'. apply in_or_app. right. left. reflexivity.
  - assert (Nf : ~ enabled_failure (gp_mask p) (gs_flags (gst (l ++ [m])))).
    { rewrite <- fail_expr_iff, Ef. discriminate. }
    destruct l as [|m0 l'].
    + cbn [gst gps_run gps_init gs_last_fail]. cbn [Z.eqb].
      split; [exists [], m, []; split; [reflexivity|split; [left; reflexivity|reflexivity]]|].
      split; [|lia]. intros l1 j l2 El _. destruct (split_snoc _ _ _ _ _ El) as [(_ & _ & ->)|(l2' & _ & El')]; [lia|].
      destruct l1; discriminate.
    + destruct IH as (A & B & C); [split; assumption|discriminate|].
      set (l := m0 :: l') in *.
      replace (gs_last_fail (gst l) =? 0) with false by lia.
      split; [|split; [|exact C]].
      * destruct A as (l1 & j & l2 & El & Hb & Hj). exists l1, j, (l2 ++ [m]). split; [rewrite El, <- app_assoc; reflexivity|auto].
      * intros l1 j l2 El Hb. destruct (split_snoc _ _ _ _ _ El) as [(-> & -> & ->)|(l2' & _ & El')].
        -- exfalso. destruct Hb as [Hb|Hb]; [discriminate|contradiction].
        -- exact (B _ _ _ El' Hb).
Qed.

(** the verdict on the last message of a history *)
Theorem gps_good_iff l m : msgs_timely (l ++ [m]) ->
  (fst (gps_is_good p m (gst l)) = true <->
   forall l1 j l2, l ++ [m] = l1 ++ j :: l2 -> bad_msg l1 j -> g_now j + gp_health_us p < g_now m).
Proof.
  intros Ht. destruct (last_fail_history _ Ht) as (A & B & C); [destruct l; discriminate|].
  destruct (good_unfold p m (gst l)) as [_ E]. rewrite E, <- gst_snoc. unfold is_timed_out, add64.
  rewrite u64_small by (rewrite two64_val; lia). rewrite Z.ltb_lt. split.
  - intros H l1 j l2 El Hb. specialize (B _ _ _ El Hb). lia.
  - intros H. destruct A as (l1 & j & l2 & El & Hb & ->). exact (H _ _ _ El Hb).
Qed.
End Hist.

(** ** meaning of the flags *)
Theorem flags_meaning p m s :
  let f := gs_flags (snd (gps_is_good p m s)) in
  (ff_fix f = true <-> g_fix m < 3) /\ (ff_nsats f = true <-> g_nsats m < gp_nsats p) /\
  ff_pdop f = fgt (g_pdop m) (gp_pdop p) /\ ff_hacc f = fgt (g_eph m) (gp_hacc p) /\
  ff_vacc f = fgt (g_epv m) (gp_vacc p) /\ ff_sacc f = fgt (g_sacc m) (gp_sacc p) /\
  (g_in_air m = true -> ff_hdrift f = false /\ ff_vdrift f = false /\ ff_hspeed f = false) /\
  (g_in_air m = false -> g_at_rest m = false ->
     ff_hdrift f = ff_hdrift (gs_flags s) /\ ff_vdrift f = ff_vdrift (gs_flags s) /\ ff_hspeed f = ff_hspeed (gs_flags s)).
Proof.
  cbv zeta. unfold gps_is_good. cbn [snd gs_flags ff_fix ff_nsats ff_pdop ff_hacc ff_vacc ff_sacc ff_hdrift ff_vdrift ff_hspeed].
  split; [apply Z.ltb_lt|]. split; [apply Z.ltb_lt|].
  split; [reflexivity|]. split; [reflexivity|]. split; [reflexivity|]. split; [reflexivity|].
  split; [intros ->|intros -> ->]; cbn [negb andb]; auto.
Qed.

(** a NaN vertical velocity disables the vertical speed check for ever *)
Lemma lim10_nan l : lim10 fnan l = fnan.
Proof. unfold lim10, math_constrain. rewrite flt_nan_l. unfold fgt. change (Bltb ?a ?b) with (flt a b). rewrite flt_nan_r. reflexivity. Qed.
Lemma lp_nan_new c o : lp c fnan o = fnan.
Proof. unfold lp. assert (E : fmul fnan c = fnan) by (destruct c; reflexivity). rewrite E. destruct (fmul o _); reflexivity. Qed.
Lemma lp_nan_old c n : lp c n fnan = fnan.
Proof. unfold lp. assert (E : fmul fnan (fsub f1 c) = fnan) by (destruct (fsub f1 c); reflexivity). rewrite E. destruct (fmul n c); reflexivity. Qed.

Lemma vdiff_step p m s : gs_vdiff (snd (gps_is_good p m s)) =
  lp (gps_coef (gps_dt (g_now m) (gs_prev_time s))) (lim10 (fsub (g_vd m) (g_vz m)) (gp_vdrift p)) (gs_vdiff s).
Proof. reflexivity. Qed.
Lemma vspeed_step p m s : ff_vspeed (gs_flags (snd (gps_is_good p m s))) = fgt (fabs (gs_vdiff (snd (gps_is_good p m s)))) (gp_vdrift p).
Proof. reflexivity. Qed.

Theorem nan_velocity_sticky p m s l : g_vd m = fnan ->
  ff_vspeed (gs_flags (gps_run p l (snd (gps_is_good p m s)))) = false.
Proof.
  intros Hm.
  assert (H0 : gs_vdiff (snd (gps_is_good p m s)) = fnan /\ ff_vspeed (gs_flags (snd (gps_is_good p m s))) = false).
  { rewrite vspeed_step, vdiff_step, Hm.
    assert (E : fsub fnan (g_vz m) = fnan) by (destruct (g_vz m); reflexivity).
    rewrite E, lim10_nan, lp_nan_new. split; [reflexivity|].
    unfold fgt. change (Bltb (gp_vdrift p) (fabs fnan)) with (flt (gp_vdrift p) fnan). apply flt_nan_r. }
  revert H0. generalize (snd (gps_is_good p m s)). induction l as [|x l IH]; intros s1 [H1 H2]; cbn [gps_run]; [exact H2|].
  apply IH. rewrite vspeed_step, vdiff_step, H1, lp_nan_old. split; [reflexivity|].
  unfold fgt. change (Bltb (gp_vdrift p) (fabs fnan)) with (flt (gp_vdrift p) fnan). apply flt_nan_r.
Qed.

(** ** origin *)
Section OriginP.
Context {LL : Type}.
Variable ll_of_msg : Z -> Z -> LL.
Variable reproject : LL -> f32 -> f32 -> LL.
Notation step := (origin_step ll_of_msg reproject).
Notation run := (origin_run ll_of_msg reproject).

Definition is_gps (op : origin_op LL) : Prop := match op with CollectGps _ _ _ _ _ _ _ _ _ _ => True | _ => False end.

Theorem origin_fixed l o : o_ned o = true -> Forall is_gps l -> run l o = o.
Proof.
  revert o. induction l as [|op l IH]; intros o Ho Hl; cbn [origin_run]; [reflexivity|].
  assert (E : step op o = o).
  { pose proof (Forall_inv Hl) as Hop. destruct op; [|contradiction]. cbn. unfold collect_gps. rewrite Ho.
    rewrite Bool.andb_false_r. reflexivity. }
  rewrite E. apply IH; [exact Ho|exact (Forall_inv_tail Hl)].
Qed.

Theorem user_origin_position_kept l o pos alt : Forall is_gps l -> o_ref (run l (set_origin pos alt o)) = Some pos.
Proof.
  intros Hl. assert (G : forall l o, Forall is_gps l -> forall r, o_ref o = Some r -> o_ref (run l o) = Some r).
  { clear. induction l as [|op l IH]; intros o Hl r Hr; cbn [origin_run]; [exact Hr|].
    apply IH; [exact (Forall_inv_tail Hl)|]. pose proof (Forall_inv Hl) as Hop. destruct op; [|contradiction].
    cbn. unfold collect_gps. destruct (_ && _); cbn; [rewrite Hr; reflexivity|exact Hr]. }
  apply G; [exact Hl|reflexivity].
Qed.

Theorem first_good_fix_sets_origin o fi la lo al px py pz : o_ned o = false -> o_ref o = None ->
  let '(use, o') := collect_gps ll_of_msg reproject true true false fi la lo al px py pz o in
  o_ref o' = Some (ll_of_msg la lo) /\ o_alt o' = fadd (alt_m al) pz /\ o_ned o' = true /\ use = (3 <=? fi).
Proof. intros H1 H2. unfold collect_gps. rewrite H1, H2. cbn. auto. Qed.

Theorem gps_used_only_with_origin o fi pa ai ft la lo al px py pz :
  let '(use, o') := collect_gps ll_of_msg reproject fi pa ai ft la lo al px py pz o in
  use = true -> o_ned o' = true /\ 3 <= ft /\ (o_ned o = true \/ (fi = true /\ pa = true)).
Proof.
  unfold collect_gps. cbn [fst snd]. destruct (fi && negb (o_ned o) && pa) eqn:E; cbn [o_ned].
  - intros H. apply Bool.andb_true_iff in H. destruct H as [_ H]. apply Bool.andb_true_iff in E. destruct E as [E1 E2].
    apply Bool.andb_true_iff in E1. split; [reflexivity|]. split; [lia|]. right. tauto.
  - intros H. apply Bool.andb_true_iff in H. destruct H as [H1 H2]. split; [exact H1|]. split; [lia|]. left. exact H1.
Qed.

(** the altitude of a user-set origin is overwritten by the first good fix *)
Theorem user_origin_altitude_lost o pos alt fi la lo al px py pz : o_ned o = false ->
  o_alt (step (CollectGps true true fi 3 la lo al px py pz) (set_origin pos alt o)) = fadd (alt_m al) pz.
Proof. intros H. cbn. unfold collect_gps, set_origin. cbn [o_ned o_ref]. rewrite H. reflexivity. Qed.
End OriginP.

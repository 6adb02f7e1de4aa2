(** * C37: every fusion is a Kalman update for its documented sensor model *)
From Coq Require Import Reals Lra Lia.
From Coquelicot Require Import Coquelicot.
From Verif Require Import CBase F32 Scalar RealGeom CovSpec PsdLib CovModel CovProofsR CovUpdProofs CovPredProofs FusionGen FusionModel FusionSpec FusionProofs FusionProofs2 FusionProofs3 FusionProofs4 FusionUpd.
Open Scope R_scope.

Definition clampR (lo hi v : R) : R := Rmin hi (Rmax lo v).
(** the innovation passes the gate: at most gate standard deviations (at least one) *)
Definition in_gate (gate innov Sv : R) : Prop := innov * innov <= Rmax gate 1 * Rmax gate 1 * Sv.

Lemma sconstrain_clamp (v lo hi : R) : lo <= hi -> sconstrain v lo hi = clampR lo hi v.
Proof. intros H. rewrite sconstrainR. unfold clampR, Rmin, Rmax. destruct (Rlt_dec v lo), (Rle_dec lo v); try lra; destruct (Rlt_dec hi v), (Rle_dec hi v); try lra; destruct (Rle_dec hi lo); lra. Qed.
Lemma smaxi_R (a b : R) : smaxi a b = Rmax a b.
Proof. unfold smaxi. cbn [slt RScalar]. unfold Rmax. destruct (Rlt_dec b a), (Rle_dec a b); lra. Qed.
Lemma Rmax_pos g : 1 <= Rmax g 1. Proof. apply Rmax_r. Qed.
Lemma ratio_gate (g innov Sv : R) : 1 <= g -> 0 < Sv -> slt (slit 1 1) (ratio innov g Sv) = false <-> innov * innov <= g * g * Sv.
Proof.
  intros G HS. rewrite sltR_false, slitR. unfold ratio, sq. cbn [smul sdiv RScalar]. assert (P : 0 < g * g * Sv) by (apply Rmult_lt_0_compat; [nra|exact HS]).
  rewrite Rdiv_1. split; intros A.
  - apply (Rmult_le_compat_r (g * g * Sv)) in A; [|lra]. unfold Rdiv in A. rewrite Rmult_assoc, Rinv_l in A by lra. lra.
  - apply (Rmult_le_reg_r (g * g * Sv)); [exact P|]. unfold Rdiv. rewrite Rmult_assoc, Rinv_l by lra. lra.
Qed.
Lemma ratio_gate_t (g innov Sv : R) : 1 <= g -> 0 < Sv -> slt (slit 1 1) (ratio innov g Sv) = true <-> g * g * Sv < innov * innov.
Proof.
  intros G HS. pose proof (ratio_gate g innov Sv G HS) as E. destruct (slt (slit 1 1) (ratio innov g Sv)); split; intros A; try reflexivity; try discriminate.
  - destruct (Rlt_dec (g * g * Sv) (innov * innov)); [assumption|]. assert (true = false) by (apply E; lra). discriminate.
  - assert (innov * innov <= g * g * Sv) by (apply E; reflexivity). lra.
Qed.
Ltac fr := cbn [setInnov setVar setRatio setBad setRej setTime setAspd setM setX setCS setP setState fc fs fi fv fr fbad frej ftime faspd fx fP cP x_st put Nat.eqb c_inhibit].
Lemma fused_frame rows h rn innov f f' c s g : fc g = fc f -> fs g = fs f -> fc f' = c -> fs f' = s ->
  forall g', fc g' = c -> fs g' = s -> fused rows h rn innov g g' -> fused rows h rn innov f f'.
Proof. intros A B C D g' E F. unfold fused, same_context, healthy_limits, fP, fx. rewrite A, B, C, D, E, F. exact (fun H => H). Qed.
Lemma uninhibited_frame f g i : fs g = fs f -> uninhibited g i = uninhibited f i.
Proof. unfold uninhibited. intros ->. reflexivity. Qed.
Lemma fused_rows rows rows' h rn innov f f' : (forall i, rows i = rows' i) -> fused rows h rn innov f f' -> fused rows' h rn innov f f'.
Proof.
  intros E [[K [HK HC]] [S C]]. split; [|split; [exact S|]].
  - exists K. split; [|exact HC]. intros i Hi. rewrite <- E. apply HK. exact Hi.
  - intros A. apply C. intros i Hi. rewrite E. exact (A i Hi).
Qed.
(** the update step of every function below *)
Lemma fuse_step (K : Vec R) H rows rn innov (f g : fus R) : fc g = fc f -> fs g = fs f ->
  Forall (fun p => (fst p < 24)%nat) H -> symmetric24 (fP f) -> psd (fP f) -> 0 < rn ->
  kalman_gain rows (hvec H) (fP f) (quad (hvec H) (fP f) + rn) K ->
  exists c s, mupd K H innov g = (setCS c s g, true) /\
  forall f', fc f' = c -> fs f' = s -> fused (fun i => rows i && uninhibited f i) (hvec H) rn innov f f'.
Proof.
  intros A B HF Sy Hp Hr HK. assert (Pg : fP g = fP f) by (unfold fP; rewrite B; reflexivity).
  destruct (mupd_fused K H rows rn innov g HF) as (g' & E & F & c & s & E'); try (rewrite Pg; assumption); try assumption.
  subst g'. exists c, s. split; [exact E|]. intros f' Ec Es.
  apply (fused_rows (fun i => rows i && uninhibited g i)); [intros i; rewrite (uninhibited_frame f g i B); reflexivity|].
  apply (fused_frame _ _ _ _ f f' c s g A B Ec Es (setCS c s g)); [reflexivity|reflexivity|exact F].
Qed.

(** ** Airspeed *)
Definition tas_variance (noise eas2tas : R) : R := let r := clampR (1/2) 5 noise * clampR (9/10) 10 eas2tas in r * r.
Lemma tasVarR n e : tasVar n e = tas_variance n e.
Proof. unfold tasVar, tas_variance, sq. rewrite !sconstrain_clamp by (rewrite !slitR; lra). rewrite !slitR. cbn [smul RScalar]. replace (5 / 1) with 5 by field. replace (10 / 1) with 10 by field. reflexivity. Qed.
Lemma clampR_lo lo hi v : lo <= hi -> lo <= clampR lo hi v.
Proof. intros. unfold clampR. apply Rmin_glb; [assumption|apply Rmax_l]. Qed.
Lemma tas_variance_pos n e : 0 < tas_variance n e.
Proof. unfold tas_variance. pose proof (clampR_lo (1/2) 5 n ltac:(lra)). pose proof (clampR_lo (9/10) 10 e ltac:(lra)). cbv zeta. assert (0 < clampR (1/2) 5 n * clampR (9/10) 10 e) by (apply Rmult_lt_0_compat; lra). apply Rmult_lt_0_compat; assumption. Qed.
Theorem C37_airspeed : forall resetWind resetAll (full : bool) (noise gate tas eas2tas : R) (f : fus R),
  symmetric24 (fP f) -> psd (fP f) ->
  let f' := fuseAirspeed resetWind resetAll full noise gate tas eas2tas f in
  let rn := tas_variance noise eas2tas in
  (airspeed_model (fx f) < 1 -> f' = f) /\
  (1 <= airspeed_model (fx f) -> exists h, gradient airspeed_model (fx f) h /\
    let Sv := quad h (fP f) + rn in let innov := airspeed_model (fx f) - tas in
    fi f' 4%nat = innov /\ fv f' 4%nat = Sv /\
    (in_gate gate innov Sv ->
       fused (fun i => wind_rows full i && uninhibited f i) h rn innov f f' /\
       frej f' 4%nat = false /\ ftime f' 4%nat = x_time_last_imu (fc f) /\ faspd f' = true) /\
    (~ in_gate gate innov Sv -> same_estimate f f' /\ frej f' 4%nat = true /\ ftime f' 4%nat = ftime f 4%nat /\ faspd f' = faspd f)).
Proof.
  intros resetWind resetAll full noise gate tas eas2tas f Sy Hp f' rn.
  unfold f', fuseAirspeed. rewrite (tasVarR noise eas2tas). rewrite (as_pred (fx f)). fold rn. pose proof (tas_variance_pos noise eas2tas) as Rp. fold rn in Rp. clearbody rn. clear f'.
  split.
  - intros L. assert (slt (airspeed_model (fx f)) (slit 1 1) = true) as -> by (apply sltR_true; rewrite slitR; lra). reflexivity.
  - intros G. assert (slt (airspeed_model (fx f)) (slit 1 1) = false) as -> by (apply sltR_false; rewrite slitR; lra).
    assert (Ap : 0 < airspeed_model (fx f)) by lra.
    exists (hvec (as_H (fx f))). split; [apply as_gradient; exact Ap|]. cbv zeta.
    rewrite (as_var (fx f) (fP f) rn Ap Sy).
    pose proof (as_gain (fx f) (fP f) rn full Sy) as HK. rewrite (as_var (fx f) (fP f) rn Ap Sy) in HK.
    set (Sv := quad (hvec (as_H (fx f))) (fP f) + rn) in *.
    assert (Q0 : 0 <= quad (hvec (as_H (fx f))) (fP f)) by apply Hp.
    assert (HSv : 0 < Sv) by (unfold Sv; lra).
    assert (slt Sv rn = false) as -> by (apply sltR_false; unfold Sv; lra).
    set (innov := airspeed_model (fx f) - tas). change (ssub (airspeed_model (fx f)) tas) with innov.
    change (sfmax gate (slit 1 1)) with (Rmax gate (1 / 1)). rewrite Rdiv_1.
    pose proof (ratio_gate (Rmax gate 1) innov Sv (Rmax_pos gate) HSv) as RG.
    destruct (slt (slit 1 1) (ratio innov (Rmax gate 1) Sv)) eqn:ER.
    + fr. split; [reflexivity|]. split; [reflexivity|]. split.
      * intros IG. apply RG in IG. discriminate.
      * intros _. split; [split; reflexivity|]. split; [reflexivity|]. split; reflexivity.
    + match goal with |- context [mupd ?K ?H ?i ?g] => destruct (fuse_step K H (wind_rows full) rn innov f g eq_refl eq_refl ltac:(unfold as_H; dfields) Sy Hp Rp HK) as (c & s & E & F) end.
      rewrite E. fr. split; [reflexivity|]. split; [reflexivity|]. split.
      * intros _. split; [apply F; reflexivity|]. split; [reflexivity|]. split; reflexivity.
      * intros NG. exfalso. apply NG. apply RG. reflexivity.
Qed.

(** ** Sideslip *)
Lemma relWind0 (x : nat -> R) : relWindBody x 0%nat = RealGeom.vx (to_body x (air_vel x)).
Proof. rewrite air0. unfold relWindBody, mvec, invRot, w0, b0, sq. rewrite szeroR. cbn [sadd ssub smul sopp slit RScalar]. rewrite !Rdiv_1. ring. Qed.
Lemma relWind1 (x : nat -> R) : relWindBody x 1%nat = RealGeom.vy (to_body x (air_vel x)).
Proof. rewrite air1. unfold relWindBody, mvec, invRot, w1, b1, sq. rewrite szeroR. cbn [sadd ssub smul sopp slit RScalar]. rewrite !Rdiv_1. ring. Qed.
Lemma relWind2 (x : nat -> R) : relWindBody x 2%nat = RealGeom.vz (to_body x (air_vel x)).
Proof. unfold air_vel. rewrite to_body2. unfold relWindBody, mvec, invRot, b2, sq. rewrite szeroR. cbn [sadd ssub smul sopp slit RScalar]. rewrite !Rdiv_1. ring. Qed.
Lemma relWind_norm (x : nat -> R) : norm3 (relWindBody x) = sqrt (vnorm2 (to_body x (air_vel x))).
Proof.
  unfold norm3, dot3. rewrite relWind0, relWind1, relWind2, szeroR. cbn [sadd smul ssqrt RScalar]. unfold vnorm2, vdot. f_equal. ring.
Qed.
Ltac gate_tail RG F E := 
  fr; split; [reflexivity|]; split; [reflexivity|]; split;
  [intros _; split; [apply F; reflexivity|]|intros NG; exfalso; apply NG; apply RG; reflexivity].
Theorem C37_sideslip : forall resetWind resetAll (full : bool) (noise gate : R) (f : fus R),
  symmetric24 (fP f) -> psd (fP f) -> noise <> 0 ->
  let f' := fuseSideslip resetWind resetAll full noise gate f in
  let rn := noise * noise in let wind := to_body (fx f) (air_vel (fx f)) in
  (sqrt (vnorm2 wind) <= 7 -> f' = f) /\
  (7 < sqrt (vnorm2 wind) -> RealGeom.vx wind <> 0 -> exists h, gradient sideslip_model (fx f) h /\
    let Sv := quad h (fP f) + rn in let innov := sideslip_model (fx f) in
    fi f' 5%nat = innov /\ fv f' 5%nat = Sv /\
    (in_gate gate innov Sv ->
       fused (fun i => wind_rows full i && uninhibited f i) h rn innov f f' /\
       frej f' 5%nat = false /\ ftime f' 5%nat = x_time_last_imu (fc f)) /\
    (~ in_gate gate innov Sv -> same_estimate f f' /\ frej f' 5%nat = true /\ ftime f' 5%nat = ftime f 5%nat)).
Proof.
  intros resetWind resetAll full noise gate f Sy Hp Nn f' rn wind.
  assert (Rp : 0 < rn) by (unfold rn; nra).
  unfold f', fuseSideslip. cbv zeta. rewrite relWind_norm, relWind0, relWind1. fold wind. change (sq noise) with rn. clearbody rn. clear f'.
  split.
  - intros L. assert (slt (slit 7 1) (sqrt (vnorm2 wind)) = false) as -> by (apply sltR_false; rewrite slitR; lra). reflexivity.
  - intros G V. assert (slt (slit 7 1) (sqrt (vnorm2 wind)) = true) as -> by (apply sltR_true; rewrite slitR; lra).
    exists (hvec (ss_H (fx f))). split; [apply ss_gradient; exact V|].
    rewrite (ss_var (fx f) (fP f) rn V Sy).
    pose proof (ss_gain (fx f) (fP f) rn full Sy) as HK. rewrite (ss_var (fx f) (fP f) rn V Sy) in HK.
    set (Sv := quad (hvec (ss_H (fx f))) (fP f) + rn) in *.
    assert (Q0 : 0 <= quad (hvec (ss_H (fx f))) (fP f)) by apply Hp.
    assert (HSv : 0 < Sv) by (unfold Sv; lra).
    assert (slt Sv rn = false) as -> by (apply sltR_false; unfold Sv; lra).
    change (sdiv (RealGeom.vy wind) (RealGeom.vx wind)) with (sideslip_model (fx f)). set (innov := sideslip_model (fx f)).
    change (sfmax gate (slit 1 1)) with (Rmax gate (1 / 1)). rewrite Rdiv_1.
    pose proof (ratio_gate (Rmax gate 1) innov Sv (Rmax_pos gate) HSv) as RG.
    destruct (slt (slit 1 1) (ratio innov (Rmax gate 1) Sv)) eqn:ER.
    + fr. split; [reflexivity|]. split; [reflexivity|]. split.
      * intros IG. apply RG in IG. discriminate.
      * intros _. split; [split; reflexivity|]. split; reflexivity.
    + match goal with |- context [mupd ?K ?H ?i ?g] => destruct (fuse_step K H (wind_rows full) rn innov f g eq_refl eq_refl ltac:(unfold ss_H; dfields) Sy Hp Rp HK) as (c & s & E & F) end.
      rewrite E. gate_tail RG F E. split; reflexivity.
Qed.

(** ** Drag *)
Definition drag_model (ax : nat) (k : R) : (nat -> R) -> R := if (ax =? 0)%nat then drag_model_x k else drag_model_y k.
(** slope of the drag model for a measured specific force m *)
Definition drag_slope (rho binv m : R) : R := Rmax (1 / 10) (rho * binv * sqrt (2 * Rabs m / (binv * rho))).
(** fusion of one axis: linear model for the Jacobian, quadratic drag for the
    prediction, gain for the wind states only, 5-sigma gate *)
Definition drag_axis_spec (ax : nat) (rn rho binv acc v : R) (f f' : fus R) : Prop :=
  let m := acc - fx f (13 + ax)%nat / x_dt_ekf_avg (fc f) in
  let innov := - (1 / 2) * binv * rho * (v * Rabs v) - m in
  exists h, gradient (drag_model ax (drag_slope rho binv m)) (fx f) h /\
  let Sv := quad h (fP f) + rn in
  fi f' (6 + ax)%nat = innov /\ fv f' (6 + ax)%nat = Sv /\
  (innov * innov <= 25 * Sv -> fused wind_states h rn innov f f') /\
  (25 * Sv < innov * innov -> same_estimate f f').
Lemma dragKR rho binv m : dragK rho binv m = drag_slope rho binv m.
Proof. unfold dragK, drag_slope. cbv zeta. rewrite !slitR. cbn [sfmax smul sdiv ssqrt sabs RScalar]. replace (2 / 1) with 2 by field. reflexivity. Qed.
Lemma dragPredR binv rho v : dragPred binv rho v = - (1 / 2) * binv * rho * (v * Rabs v).
Proof.
  unfold dragPred, sq. cbv zeta. rewrite szeroR, !slitR. cbn [sle smul sopp RScalar].
  destruct (Rle_dec 0 v) as [L|L]; [rewrite (Rabs_pos_eq v L)|rewrite (Rabs_left v) by lra]; field.
Qed.
Lemma gate25 (innov Sv : R) : 0 < Sv -> sle (sdiv (sq innov) (smul (slit 25 1) Sv)) (slit 1 1) = true <-> innov * innov <= 25 * Sv.
Proof.
  intros HS. unfold sq. rewrite !slitR. cbn [sle smul sdiv RScalar]. replace (25 / 1) with 25 by field. rewrite Rdiv_1.
  destruct (Rle_dec _ 1) as [L|L]; split; intros A; try reflexivity; try discriminate.
  - apply (Rmult_le_compat_r (25 * Sv)) in L; [|lra]. unfold Rdiv in L. rewrite Rmult_assoc, Rinv_l in L by lra. lra.
  - exfalso. apply L. apply (Rmult_le_reg_r (25 * Sv)); [lra|]. unfold Rdiv. rewrite Rmult_assoc, Rinv_l by lra. lra.
Qed.
Lemma wind_uninhibited f i : wind_states i && uninhibited f i = wind_states i.
Proof.
  unfold wind_states, uninhibited. destruct (Nat.leb_spec 22 i); [|reflexivity]. destruct (Nat.leb_spec i 15); [lia|]. rewrite andb_false_r. reflexivity.
Qed.
Theorem C37_drag_axis : forall ax (rn rho binv acc : R) (rel : nat -> R) (f : fus R), (ax < 2)%nat ->
  symmetric24 (fP f) -> psd (fP f) -> 0 < rn ->
  drag_axis_spec ax rn rho binv acc (rel ax) f (fst (dragAxis ax rn rho binv acc rel f)) /\ snd (dragAxis ax rn rho binv acc rel f) = false.
Proof.
  intros ax rn rho binv acc rel f Hax Sy Hp Rp. unfold dragAxis, drag_axis_spec. cbv zeta.
  change (dragMeas acc (fx f (13 + ax)%nat) (x_dt_ekf_avg (fc f))) with (acc - fx f (13 + ax)%nat / x_dt_ekf_avg (fc f)).
  set (m := acc - fx f (13 + ax)%nat / x_dt_ekf_avg (fc f)). rewrite dragKR. set (ka := drag_slope rho binv m).
  rewrite dragPredR. change (ssub (- (1 / 2) * binv * rho * (rel ax * Rabs (rel ax))) m) with (- (1 / 2) * binv * rho * (rel ax * Rabs (rel ax)) - m).
  set (innov := - (1 / 2) * binv * rho * (rel ax * Rabs (rel ax)) - m).
  assert (G : gradient (drag_model ax ka) (fx f) (hvec (if (ax =? 0)%nat then dx_H (fx f) ka else dy_H (fx f) ka))).
  { unfold drag_model. destruct (ax =? 0)%nat; [apply dx_gradient|apply dy_gradient]. }
  assert (V : (if (ax =? 0)%nat then dx_S (fx f) (fP f) rn ka else dy_S (fx f) (fP f) rn ka)
              = quad (hvec (if (ax =? 0)%nat then dx_H (fx f) ka else dy_H (fx f) ka)) (fP f) + rn).
  { destruct (ax =? 0)%nat; [apply dx_var|apply dy_var]; exact Sy. }
  assert (HK : kalman_gain wind_states (hvec (if (ax =? 0)%nat then dx_H (fx f) ka else dy_H (fx f) ka)) (fP f)
     (quad (hvec (if (ax =? 0)%nat then dx_H (fx f) ka else dy_H (fx f) ka)) (fP f) + rn) (if (ax =? 0)%nat then dx_K (fx f) (fP f) rn ka else dy_K (fx f) (fP f) rn ka)).
  { rewrite <- V. destruct (ax =? 0)%nat; [apply dx_gain|apply dy_gain]; exact Sy. }
  assert (HF : Forall (fun p => (fst p < 24)%nat) (if (ax =? 0)%nat then dx_H (fx f) ka else dy_H (fx f) ka)).
  { destruct (ax =? 0)%nat; [unfold dx_H|unfold dy_H]; dfields. }
  rewrite V. clear V. revert G HK HF.
  generalize (if (ax =? 0)%nat then dx_H (fx f) ka else dy_H (fx f) ka) (if (ax =? 0)%nat then dx_K (fx f) (fP f) rn ka else dy_K (fx f) (fP f) rn ka).
  intros H K G HK HF. set (Sv := quad (hvec H) (fP f) + rn) in *.
  assert (Q0 : 0 <= quad (hvec H) (fP f)) by apply Hp. assert (HSv : 0 < Sv) by (unfold Sv; lra).
  assert (slt Sv rn = false) as -> by (apply sltR_false; unfold Sv; lra).
  pose proof (gate25 innov Sv HSv) as RG.
  assert (PUT : forall (v : R) g, put (6 + ax) v g (6 + ax)%nat = v) by (intros; unfold put; rewrite Nat.eqb_refl; reflexivity).
  destruct (sle (sdiv (sq innov) (smul (slit 25 1) Sv)) (slit 1 1)).
  - match goal with |- context [mupd ?K ?H ?i ?g] => destruct (fuse_step K H wind_states rn innov f g eq_refl eq_refl HF Sy Hp Rp HK) as (c & s & E & F) end.
    rewrite E. split; [|reflexivity]. exists (hvec H). split; [exact G|]. fold Sv. cbn [fst setInnov setVar setRatio setCS fc fs fi fv]. rewrite !PUT.
    split; [reflexivity|]. split; [reflexivity|]. split.
    + intros _. apply (fused_rows (fun i => wind_states i && uninhibited f i)); [apply wind_uninhibited|]. apply F; reflexivity.
    + intros L. assert (innov * innov <= 25 * Sv) by (apply RG; reflexivity). lra.
  - split; [|reflexivity]. exists (hvec H). split; [exact G|]. fold Sv. cbn [fst setInnov setVar setRatio setCS fc fs fi fv]. rewrite !PUT.
    split; [reflexivity|]. split; [reflexivity|]. split; [intros L; apply RG in L; discriminate|]. intros _. split; reflexivity.
Qed.
(** both axes in turn; the air-relative velocity is that before either fusion *)
Theorem C37_drag : forall (noise rho bx b_y ax ay : R) (f : fus R), symmetric24 (fP f) -> psd (fP f) ->
  let f' := fuseDrag noise rho bx b_y ax ay f in
  let rn := Rmax noise (1 / 2) in let rho' := Rmax rho (1 / 10) in let wind := to_body (fx f) (air_vel (fx f)) in
  (bx < 1 \/ b_y < 1 -> f' = f) /\
  (1 <= bx -> 1 <= b_y -> exists f1, drag_axis_spec 0 rn rho' (/ bx) ax (RealGeom.vx wind) f f1 /\
     (symmetric24 (fP f1) -> psd (fP f1) -> drag_axis_spec 1 rn rho' (/ b_y) ay (RealGeom.vy wind) f1 f')).
Proof.
  intros noise rho bx b_y ax ay f Sy Hp f' rn rho' wind. unfold f', fuseDrag. cbv zeta.
  change (sfmax noise (slit 1 2)) with rn. change (sfmax rho (slit 1 10)) with rho'.
  assert (Rp : 0 < rn) by (unfold rn; pose proof (Rmax_r noise (1 / 2)); lra). clearbody rn rho'. clear f'.
  split.
  - intros [L|L].
    + assert (slt bx (slit 1 1) = true) as -> by (apply sltR_true; rewrite slitR; lra). reflexivity.
    + assert (slt b_y (slit 1 1) = true) as -> by (apply sltR_true; rewrite slitR; lra). rewrite orb_true_r. reflexivity.
  - intros A B. assert (slt bx (slit 1 1) = false) as -> by (apply sltR_false; rewrite slitR; lra).
    assert (slt b_y (slit 1 1) = false) as -> by (apply sltR_false; rewrite slitR; lra). cbn [orb].
    assert (I1 : sdiv (slit 1 1) bx = / bx) by (rewrite slitR; cbn [sdiv RScalar]; field; lra).
    assert (I2 : sdiv (slit 1 1) b_y = / b_y) by (rewrite slitR; cbn [sdiv RScalar]; field; lra).
    rewrite I1, I2. unfold wind. rewrite <- relWind0, <- relWind1.
    destruct (C37_drag_axis 0 rn rho' (/ bx) ax (relWindBody (fx f)) f ltac:(lia) Sy Hp Rp) as [S0 E0].
    destruct (dragAxis 0 rn rho' (/ bx) ax (relWindBody (fx f)) f) as [f1 st]. cbn [fst snd] in S0, E0. subst st.
    exists f1. split; [exact S0|]. intros Sy1 Hp1.
    exact (proj1 (C37_drag_axis 1 rn rho' (/ b_y) ay (relWindBody (fx f)) f1 ltac:(lia) Sy1 Hp1 Rp)).
Qed.

(** ** Optical flow *)
(** distance to the ground along the sensor axis, off: sensor position (body) *)
Definition flow_range (gnd terrain : R) (Re : nat -> nat -> R) (off : V3) (x : nat -> R) : R :=
  Rmax (terrain - x 9%nat - (Re 2%nat 0%nat * RealGeom.vx off + Re 2%nat 1%nat * RealGeom.vy off + Re 2%nat 2%nat * RealGeom.vz off)) (Rmax gnd (1 / 10))
  / m22 (dcm (quat_of x)).
Definition mat_of (M : nat -> nat -> R) : M3 :=
  mkM (M 0%nat 0%nat) (M 0%nat 1%nat) (M 0%nat 2%nat) (M 1%nat 0%nat) (M 1%nat 1%nat) (M 1%nat 2%nat) (M 2%nat 0%nat) (M 2%nat 1%nat) (M 2%nat 2%nat).
Definition vec_of (v : nat -> R) : V3 := mkV (v 0%nat) (v 1%nat) (v 2%nat).
(** velocity of the sensor over ground in body axes: w is the body rate *)
Definition sensor_vel (Re : nat -> nat -> R) (w off : V3) (x : nat -> R) : V3 :=
  to_body x (vadd (ground_vel x) (mapp (mat_of Re) (cross w off))).
Lemma flowRangeR gnd terrain (Re : nat -> nat -> R) off (x : nat -> R) : flowRange gnd terrain (Re 2%nat) off x = flow_range gnd terrain Re (vec_of off) x.
Proof.
  unfold flowRange, flow_range, vec_of. cbv zeta. rewrite smaxi_R. unfold dot3. rewrite szeroR, slitR. cbn [sadd ssub smul sdiv sfmax RScalar RealGeom.vx RealGeom.vy RealGeom.vz].
  f_equal; [f_equal; ring|]. unfold invRot, sq. cbn [sadd ssub smul RScalar]. unfold dcm, quat_of. cbn [m22 RealGeom.q0 RealGeom.q1 RealGeom.q2 RealGeom.q3]. ring.
Qed.
Lemma flowVelR (Re : nat -> nat -> R) gyro off dt (x : nat -> R) k : (k < 3)%nat ->
  flowVel Re gyro off dt x k = (let v := sensor_vel Re (mkV (- gyro 0%nat / dt) (- gyro 1%nat / dt) (- gyro 2%nat / dt)) (vec_of off) x in
    match k with 0%nat => RealGeom.vx v | 1%nat => RealGeom.vy v | _ => RealGeom.vz v end).
Proof.
  intros Hk. unfold flowVel, sensor_vel, mat_of, vec_of, cross, ground_vel, mvec. cbv zeta. rewrite !szeroR.
  assert (C : forall a b c, to_body x (mkV a b c) = mkV (b0 x a b c) (b1 x a b c) (b2 x a b c)).
  { intros a b c. rewrite <- to_body0, <- to_body1, <- to_body2. destruct (to_body x (mkV a b c)). reflexivity. }
  unfold vadd, mapp. cbn [RealGeom.vx RealGeom.vy RealGeom.vz m00 m01 m02 m10 m11 m12 m20 m21 m22]. rewrite C. cbn [RealGeom.vx RealGeom.vy RealGeom.vz].
  destruct k as [|[|[|k]]]; [| | |lia]; unfold invRot, sq, b0, b1, b2; cbn [sadd ssub smul sdiv sopp slit RScalar Nat.add]; rewrite ?Rdiv_1; ring.
Qed.
(** gain of the second axis: quaternion and velocity rows from the covariance
    before the first axis was fused, the other rows from the one after *)
Definition mixed_gain (h : nat -> R) (P P1 : nat -> nat -> R) (Sv : R) (K : nat -> R) : Prop :=
  forall i, (i < 24)%nat -> K i = rsum 24 (fun j => (if (i <=? 6)%nat then P i j else P1 j i) * h j) / Sv.
Lemma mupd_corrected (K : Vec R) H innov (f : fus R) : exists c s ok, mupd K H innov f = (setCS c s f, ok) /\
  (ok = true -> exists K', (forall i, (i < 24)%nat -> K' i = if uninhibited f i then K i else 0) /\ corrected (fx f) K' innov (x_st c)) /\ (ok = false -> c = fc f).
Proof.
  unfold mupd, measurementUpdate, applyUpdate. destruct (checkAndFix _ _ _) as [M1 ok]. destruct ok.
  - do 3 eexists. split; [reflexivity|]. split; [|discriminate]. intros _. eexists. split; [|apply corrected_fuse].
    intros i Hi. cbv beta. unfold uninhibited. replace ((13 <=? i) && (i <=? 15))%nat with (inb 13 3 i).
    + destruct (inb 13 3 i && c_inhibit (fs f) (i - 13)%nat)%bool; cbn [negb]; [apply szeroR|reflexivity].
    + unfold inb. destruct (Nat.leb_spec 13 i), (Nat.leb_spec i 15), (Nat.ltb_spec i (13 + 3)); try reflexivity; lia.
  - do 3 eexists. split; [reflexivity|]. split; [discriminate|]. reflexivity.
Qed.
Lemma flowAxis_fused K H rn innov (f g : fus R) : fc g = fc f -> fs g = fs f ->
  Forall (fun p => (fst p < 24)%nat) H -> symmetric24 (fP f) -> psd (fP f) -> 0 < rn ->
  kalman_gain all_states (hvec H) (fP f) (quad (hvec H) (fP f) + rn) K ->
  let f' := flowAxis 8 K H innov g in
  fused (uninhibited f) (hvec H) rn innov f f' /\ fi f' = fi g /\ fv f' = fv g /\ ftime f' 8%nat = x_time_last_imu (fc f).
Proof.
  intros A B HF Sy Hp Rp HK. cbv zeta. unfold flowAxis.
  destruct (fuse_step K H all_states rn innov f g A B HF Sy Hp Rp HK) as (c & s & E & F). rewrite E. rewrite A.
  split; [|split; [reflexivity|split; reflexivity]].
  apply (fused_rows (fun i => all_states i && uninhibited f i)); [reflexivity|apply F; reflexivity].
Qed.
Lemma flowAxis_any K H innov (g : fus R) : let f' := flowAxis 9 K H innov g in
  fi f' = fi g /\ fv f' = fv g /\ (ftime f' 8%nat = x_time_last_imu (fc g) \/ ftime f' = ftime g) /\
  (fbad f' 9%nat = true /\ fx f' = fx g \/
   fbad f' 9%nat = false /\ exists K', (forall i, (i < 24)%nat -> K' i = if uninhibited g i then K i else 0) /\ corrected (fx g) K' innov (fx f')).
Proof.
  cbv zeta. unfold flowAxis. destruct (mupd_corrected K H innov g) as (c & s & ok & E & T & N). rewrite E. clear E.
  destruct ok; fr; (split; [reflexivity|]; split; [reflexivity|]; split).
  - left. reflexivity.
  - right. split; [reflexivity|]. exact (T eq_refl).
  - right. reflexivity.
  - left. split; [reflexivity|]. rewrite (N eq_refl). reflexivity.
Qed.
Lemma flowApply_spec resetAll (rn gate i0 i1 S0 S1 : R) (K0 : Vec R) (H0 : list (nat * R)) (K1 : Mat R -> Vec R) (H1 : list (nat * R)) (f : fus R) :
  symmetric24 (fP f) -> psd (fP f) -> 0 < rn -> Forall (fun p => (fst p < 24)%nat) H0 ->
  S0 = quad (hvec H0) (fP f) + rn -> S1 = quad (hvec H1) (fP f) + rn ->
  kalman_gain all_states (hvec H0) (fP f) S0 K0 -> (forall M, mixed_gain (hvec H1) (fP f) M S1 (K1 M)) ->
  let f' := flowApply resetAll rn gate i0 i1 S0 S1 K0 H0 K1 H1 f in
  fi f' 8%nat = i0 /\ fi f' 9%nat = i1 /\ fv f' 8%nat = S0 /\ fv f' 9%nat = S1 /\
  (~ (in_gate gate i0 S0 /\ in_gate gate i1 S1) -> same_estimate f f' /\ ftime f' 8%nat = ftime f 8%nat) /\
  (in_gate gate i0 S0 -> in_gate gate i1 S1 -> ftime f' 8%nat = x_time_last_imu (fc f) /\
   exists f1, fused (uninhibited f) (hvec H0) rn i0 f f1 /\
   (fbad f' 9%nat = true /\ fx f' = fx f1 \/
    fbad f' 9%nat = false /\ exists K K', mixed_gain (hvec H1) (fP f) (fP f1) S1 K /\ (forall i, (i < 24)%nat -> K' i = if uninhibited f i then K i else 0) /\
      corrected (fx f1) K' i1 (fx f'))).
Proof.
  intros Sy Hp Rp HF E0 E1 HK HM. cbv zeta.
  assert (Q0 : 0 <= quad (hvec H0) (fP f)) by apply Hp. assert (Q1 : 0 <= quad (hvec H1) (fP f)) by apply Hp.
  assert (P0 : 0 < S0) by lra. assert (P1 : 0 < S1) by lra.
  unfold flowApply. cbv zeta.
  assert (slt S0 rn = false) as -> by (apply sltR_false; lra).
  assert (slt S1 rn = false) as -> by (apply sltR_false; lra).
  assert (L1 : (slit 1 1 : R) = 1) by (rewrite slitR; field). rewrite smaxi_R, L1.
  pose proof (ratio_gate (Rmax gate 1) i0 S0 (Rmax_pos gate) P0) as G0. pose proof (ratio_gate (Rmax gate 1) i1 S1 (Rmax_pos gate) P1) as G1.
  rewrite L1 in G0, G1.
  destruct (slt 1 (ratio i0 (Rmax gate 1) S0)) eqn:R0; [|destruct (slt 1 (ratio i1 (Rmax gate 1) S1)) eqn:R1].
  - cbn [orb]. fr. split; [reflexivity|]. split; [reflexivity|]. split; [reflexivity|]. split; [reflexivity|]. split.
    + intros _. split; [split; reflexivity|reflexivity].
    + intros A. apply G0 in A. discriminate.
  - cbn [orb]. fr. split; [reflexivity|]. split; [reflexivity|]. split; [reflexivity|]. split; [reflexivity|]. split.
    + intros _. split; [split; reflexivity|reflexivity].
    + intros _ A. apply G1 in A. discriminate.
  - cbn [orb]. rewrite E0 in HK.
    assert (A0 : in_gate gate i0 S0) by (apply G0; reflexivity). assert (A1 : in_gate gate i1 S1) by (apply G1; reflexivity).
    match goal with |- context [flowAxis 8 K0 H0 i0 ?g] => destruct (flowAxis_fused K0 H0 rn i0 f g eq_refl eq_refl HF Sy Hp Rp HK) as (FF & B1 & B2 & B3) end.
    match type of FF with fused _ _ _ _ _ ?g => set (gg := g) in *; clearbody gg end.
    destruct (flowAxis_any (K1 (fP gg)) H1 i1 gg) as (C1 & C2 & C3 & C4).
    rewrite C1, C2, B1, B2. split; [reflexivity|]. split; [reflexivity|]. split; [reflexivity|]. split; [reflexivity|].
    split; [intros C; exfalso; apply C; split; assumption|]. intros _ _.
    pose proof FF as (_ & (SC & I) & _). split.
    + destruct C3 as [-> | ->]; [rewrite <- SC; reflexivity|exact B3].
    + exists gg. split; [exact FF|]. destruct C4 as [C4|[C4 (K' & HK' & C)]]; [left; exact C4|]. right. split; [exact C4|].
      exists (K1 (fP gg)), K'. split; [apply HM|split; [|exact C]].
      intros i Hi. rewrite HK' by exact Hi. unfold uninhibited. rewrite I. reflexivity.
Qed.
Lemma fuseOptFlow_apply resetAll (rn gate gnd terrain dt : R) (Re : nat -> nat -> R) (gyro off comp bias : nat -> R) (f : fus R) :
  let rg := flow_range gnd terrain Re (vec_of off) (fx f) in
  let vel := sensor_vel Re (mkV (- gyro 0%nat / dt) (- gyro 1%nat / dt) (- gyro 2%nat / dt)) (vec_of off) (fx f) in
  fuseOptFlow resetAll rn gate gnd terrain dt Re gyro off comp bias f =
  flowApply resetAll rn gate (RealGeom.vy vel / rg - (comp 0%nat / dt + bias 0%nat)) (- RealGeom.vx vel / rg - (comp 1%nat / dt + bias 1%nat))
    (ox_S (fx f) (fP f) rn rg) (oy_S (fx f) (fP f) rn rg)
    (ox_K (fx f) (fP f) rn rg) (ox_H (fx f) rg) (fun M => oy_K (fx f) (fP f) M rn rg) (oy_H (fx f) rg) f.
Proof.
  intros rg vel. unfold fuseOptFlow. cbv zeta.
  assert (E0 : flowVel Re gyro off dt (fx f) 0%nat = RealGeom.vx vel) by (rewrite flowVelR by lia; reflexivity).
  assert (E1 : flowVel Re gyro off dt (fx f) 1%nat = RealGeom.vy vel) by (rewrite flowVelR by lia; reflexivity).
  rewrite E0, E1. clearbody vel. assert (E : flowRange gnd terrain (Re 2%nat) off (fx f) = rg) by apply flowRangeR. rewrite E. clearbody rg. clear.
  cbn [sadd ssub sdiv sopp RScalar]. reflexivity.
Qed.
Theorem C37_optical_flow : forall resetAll (rn gate gnd terrain dt : R) (Re : nat -> nat -> R) (gyro off comp bias : nat -> R) (f : fus R),
  symmetric24 (fP f) -> psd (fP f) -> 0 < rn -> m22 (dcm (quat_of (fx f))) <> 0 ->
  let f' := fuseOptFlow resetAll rn gate gnd terrain dt Re gyro off comp bias f in
  let rg := flow_range gnd terrain Re (vec_of off) (fx f) in
  let vel := sensor_vel Re (mkV (- gyro 0%nat / dt) (- gyro 1%nat / dt) (- gyro 2%nat / dt)) (vec_of off) (fx f) in
  let i0 := RealGeom.vy vel / rg - (comp 0%nat / dt + bias 0%nat) in
  let i1 := - RealGeom.vx vel / rg - (comp 1%nat / dt + bias 1%nat) in
  exists hx hy, gradient (flow_model_x rg) (fx f) hx /\ gradient (flow_model_y rg) (fx f) hy /\
  let S0 := quad hx (fP f) + rn in let S1 := quad hy (fP f) + rn in
  fi f' 8%nat = i0 /\ fi f' 9%nat = i1 /\ fv f' 8%nat = S0 /\ fv f' 9%nat = S1 /\
  (~ (in_gate gate i0 S0 /\ in_gate gate i1 S1) -> same_estimate f f' /\ ftime f' 8%nat = ftime f 8%nat) /\
  (in_gate gate i0 S0 -> in_gate gate i1 S1 -> ftime f' 8%nat = x_time_last_imu (fc f) /\
   exists f1, fused (uninhibited f) hx rn i0 f f1 /\
   (fbad f' 9%nat = true /\ fx f' = fx f1 \/
    fbad f' 9%nat = false /\ exists K K', mixed_gain hy (fP f) (fP f1) S1 K /\ (forall i, (i < 24)%nat -> K' i = if uninhibited f i then K i else 0) /\
      corrected (fx f1) K' i1 (fx f'))).
Proof.
  intros resetAll rn gate gnd terrain dt Re gyro off comp bias f Sy Hp Rp Nz f' rg vel i0 i1.
  assert (Nr : rg <> 0).
  { unfold rg, flow_range. apply Rmult_integral_contrapositive. split; [|apply Rinv_neq_0_compat; exact Nz].
    match goal with |- Rmax ?a (Rmax ?b ?c) <> 0 => pose proof (Rmax_r a (Rmax b c)); pose proof (Rmax_r b c) end. lra. }
  pose proof (fuseOptFlow_apply resetAll rn gate gnd terrain dt Re gyro off comp bias f) as Ef. cbv zeta in Ef. fold rg vel in Ef. fold i0 i1 f' in Ef.
  rewrite Ef. clear Ef. clearbody i0 i1 rg. clear f' vel.
  exists (hvec (ox_H (fx f) rg)), (hvec (oy_H (fx f) rg)). split; [apply ox_gradient|]. split; [apply oy_gradient|]. cbv zeta.
  rewrite <- (ox_var (fx f) (fP f) rn rg Nr Sy), <- (oy_var (fx f) (fP f) rn rg Nr Sy).
  apply flowApply_spec; [exact Sy|exact Hp|exact Rp|unfold ox_H; dfields|apply ox_var; assumption|apply oy_var; assumption|apply ox_gain; exact Sy|].
  intros M i Hi. apply oy_gain_rows; assumption.
Qed.

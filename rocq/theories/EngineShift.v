(** * Moving the origin: lemmas *)
From Coq Require Import Reals Lra Lia List ZArith Bool FunctionalExtensionality.
From Verif Require Import CBase Scalar CovPredGen RealGeom RotModel GeoModel CovModel CovQuat CovQuat2 FusionGen FusionModel FusionSpec OutputModel NanModel VelPosModel ObsModel
  TerrainModel HeadingModel EngineModel.
Import ListNotations.
Open Scope R_scope.

(** the same situation seen from an origin displaced by -d: the positions (states 7, 8, 9) are larger by d *)
Definition moved (d x : Vec R) : Vec R := fun i => if inb 7 3 i then x i + d (i - 7)%nat else x i.
Definition mctx (d : Vec R) (c : covctx R) : covctx R := setState (moved d (x_st c)) c.
Definition mfus (d : Vec R) (f : fus R) : fus R := setX (moved d (fx f)) f.
Definition mvp (d : Vec R) (v : vpst R) : vpst R :=
  mkVp (mctx d (v_c v)) (v_s v) (v_rej_hvel v) (v_rej_vvel v) (v_rej_hpos v) (v_rej_vpos v) (v_t_hvel v) (v_t_vvel v) (v_t_hpos v)
    (v_t_delpos v) (v_t_hgt v) (v_bad v) (v_fail0 v) (v_fail1 v) (v_vvel_ratio v) (v_vpos_ratio v) (v_vvel_time v) (v_vpos_time v) (v_odom v).

Lemma moved_other d x i : inb 7 3 i = false -> moved d x i = x i. Proof. intros H. unfold moved. rewrite H. reflexivity. Qed.

Lemma fuse_moved d K innov x : fuse K innov (moved d x) = moved d (fuse K innov x).
Proof.
  apply functional_extensionality. intros i. unfold fuse, normQuat, moved. destruct (Nat.ltb_spec i 4) as [L|L].
  - do 4 (destruct i as [|i]; [reflexivity|]). lia.
  - unfold fuseRaw. destruct (inb 7 3 i); [|reflexivity]. cbn [ssub smul RScalar]. ring.
Qed.
Lemma fix_moved b d c s : fixCovarianceErrors b (mctx d c) s = fixCovarianceErrors b c s. Proof. reflexivity. Qed.
Lemma apply_moved d KHP K innov c s :
  applyUpdate KHP K innov (mctx d c) s = let '(c', s', ok) := applyUpdate KHP K innov c s in (mctx d c', s', ok).
Proof.
  unfold applyUpdate. destruct (checkAndFix 24 KHP (cP s)) as [M1 h]. destruct h; [|reflexivity].
  change (x_st (mctx d c)) with (moved d (x_st c)). rewrite fuse_moved, fix_moved. reflexivity.
Qed.
Lemma mupd_moved d K H innov f : mupd K H innov (mfus d f) = (mfus d (fst (mupd K H innov f)), snd (mupd K H innov f)).
Proof.
  unfold mupd, measurementUpdate. change (fc (mfus d f)) with (mctx d (fc f)). change (fs (mfus d f)) with (fs f).
  rewrite apply_moved. destruct (applyUpdate _ _ _ _ _) as [[c' s'] ok]. reflexivity.
Qed.
(** setters *)
Lemma mv_innov d k v f : setInnov k v (mfus d f) = mfus d (setInnov k v f). Proof. reflexivity. Qed.
Lemma mv_var d k v f : setVar k v (mfus d f) = mfus d (setVar k v f). Proof. reflexivity. Qed.
Lemma mv_ratio d k v f : setRatio k v (mfus d f) = mfus d (setRatio k v f). Proof. reflexivity. Qed.
Lemma mv_bad d k v f : setBad k v (mfus d f) = mfus d (setBad k v f). Proof. reflexivity. Qed.
Lemma mv_rej d k v f : setRej k v (mfus d f) = mfus d (setRej k v f). Proof. reflexivity. Qed.
Lemma mv_time d k v f : setTime k v (mfus d f) = mfus d (setTime k v f). Proof. reflexivity. Qed.
Lemma mv_aspd d v f : setAspd v (mfus d f) = mfus d (setAspd v f). Proof. reflexivity. Qed.
Lemma mv_CS d c s f : setCS (mctx d c) s (mfus d f) = mfus d (setCS c s f). Proof. reflexivity. Qed.
Lemma mv_M d M f : setM M (mfus d f) = mfus d (setM M f). Proof. reflexivity. Qed.
Lemma mv_X d x f : setX (moved d x) (mfus d f) = mfus d (setX x f). Proof. reflexivity. Qed.
Lemma mv_fx d f : fx (mfus d f) = moved d (fx f). Proof. reflexivity. Qed.
Lemma mv_fP d f : fP (mfus d f) = fP f. Proof. reflexivity. Qed.
Lemma mv_now d f : x_time_last_imu (fc (mfus d f)) = x_time_last_imu (fc f). Proof. reflexivity. Qed.
Lemma mv_dt d f : x_dt_ekf_avg (fc (mfus d f)) = x_dt_ekf_avg (fc f). Proof. reflexivity. Qed.
Lemma mv_air d f : f_in_air (fc (mfus d f)) = f_in_air (fc f). Proof. reflexivity. Qed.
Lemma mv_windf d f : f_wind (fc (mfus d f)) = f_wind (fc f). Proof. reflexivity. Qed.
Lemma mv_if d (b : bool) f g : (if b then mfus d f else mfus d g) = mfus d (if b then f else g). Proof. destruct b; reflexivity. Qed.
Lemma wind_moved d (z : R) x : (fun i => if inb 22 2 i then z else moved d x i) = moved d (fun i => if inb 22 2 i then z else x i).
Proof.
  apply functional_extensionality. intros i. unfold moved. destruct (inb 22 2 i) eqn:E; [|reflexivity].
  destruct (inb 7 3 i) eqn:F; [|reflexivity]. unfold inb in *. rewrite !andb_true_iff, !Nat.leb_le, !Nat.ltb_lt in *. lia.
Qed.
(** updates of single states other than the position *)
Lemma upd_moved d (g : nat -> bool) (w x : Vec R) : (forall i, inb 7 3 i = true -> g i = false) ->
  (fun i => if g i then w i else moved d x i) = moved d (fun i => if g i then w i else x i).
Proof. intros H. apply functional_extensionality. intros i. unfold moved. destruct (inb 7 3 i) eqn:F; [rewrite (H i F)|]; reflexivity. Qed.
#[export] Hint Rewrite mv_innov mv_var mv_ratio mv_bad mv_rej mv_time mv_aspd mv_M mv_X mv_fx mv_fP mv_now mv_dt mv_air mv_windf mv_if wind_moved mupd_moved : mv.

(** ** The formulas do not read the position *)
Section Formulas.
Variables (d x : Vec R) (P : Mat R).
Lemma f_as_pred : as_v_tas_pred (moved d x) = as_v_tas_pred x. Proof. reflexivity. Qed.
Lemma f_as_S rn : as_S (moved d x) P rn = as_S x P rn. Proof. reflexivity. Qed.
Lemma f_as_H : as_H (moved d x) = as_H x. Proof. reflexivity. Qed.
Lemma f_as_K rn b : as_K (moved d x) P rn b = as_K x P rn b. Proof. reflexivity. Qed.
Lemma f_rel : relWindBody (moved d x) = relWindBody x. Proof. reflexivity. Qed.
Lemma f_ss_S rn : ss_S (moved d x) P rn = ss_S x P rn. Proof. reflexivity. Qed.
Lemma f_ss_H : ss_H (moved d x) = ss_H x. Proof. reflexivity. Qed.
Lemma f_ss_K rn b : ss_K (moved d x) P rn b = ss_K x P rn b. Proof. reflexivity. Qed.
Lemma f_dx_S rn k : dx_S (moved d x) P rn k = dx_S x P rn k. Proof. reflexivity. Qed.
Lemma f_dx_H k : dx_H (moved d x) k = dx_H x k. Proof. reflexivity. Qed.
Lemma f_dx_K rn k : dx_K (moved d x) P rn k = dx_K x P rn k. Proof. reflexivity. Qed.
Lemma f_dy_S rn k : dy_S (moved d x) P rn k = dy_S x P rn k. Proof. reflexivity. Qed.
Lemma f_dy_H k : dy_H (moved d x) k = dy_H x k. Proof. reflexivity. Qed.
Lemma f_dy_K rn k : dy_K (moved d x) P rn k = dy_K x P rn k. Proof. reflexivity. Qed.
Lemma f_ox_S rn k : ox_S (moved d x) P rn k = ox_S x P rn k. Proof. reflexivity. Qed.
Lemma f_ox_H k : ox_H (moved d x) k = ox_H x k. Proof. reflexivity. Qed.
Lemma f_ox_K rn k : ox_K (moved d x) P rn k = ox_K x P rn k. Proof. reflexivity. Qed.
Lemma f_oy_S rn k : oy_S (moved d x) P rn k = oy_S x P rn k. Proof. reflexivity. Qed.
Lemma f_oy_H k : oy_H (moved d x) k = oy_H x k. Proof. reflexivity. Qed.
Lemma f_oy_K M rn k : oy_K (moved d x) P M rn k = oy_K x P M rn k. Proof. reflexivity. Qed.
Lemma f_mx_S rn : mx_S (moved d x) P rn = mx_S x P rn. Proof. reflexivity. Qed.
Lemma f_mx_H : mx_H (moved d x) = mx_H x. Proof. reflexivity. Qed.
Lemma f_mx_K rn b : mx_K (moved d x) P rn b = mx_K x P rn b. Proof. reflexivity. Qed.
Lemma f_my_S rn : my_S (moved d x) P rn = my_S x P rn. Proof. reflexivity. Qed.
Lemma f_my_H : my_H (moved d x) = my_H x. Proof. reflexivity. Qed.
Lemma f_my_K rn b : my_K (moved d x) P rn b = my_K x P rn b. Proof. reflexivity. Qed.
Lemma f_mz_S rn : mz_S (moved d x) P rn = mz_S x P rn. Proof. reflexivity. Qed.
Lemma f_mz_H : mz_H (moved d x) = mz_H x. Proof. reflexivity. Qed.
Lemma f_mz_K rn b : mz_K (moved d x) P rn b = mz_K x P rn b. Proof. reflexivity. Qed.
Lemma f_iv1 rn : iv_S1 (moved d x) P rn = iv_S1 x P rn. Proof. reflexivity. Qed.
Lemma f_iv2 rn : iv_S2 (moved d x) P rn = iv_S2 x P rn. Proof. reflexivity. Qed.
Lemma f_de_S rn : de_S (moved d x) P rn = de_S x P rn. Proof. reflexivity. Qed.
Lemma f_de_H : de_H (moved d x) = de_H x. Proof. reflexivity. Qed.
Lemma f_de_K rn : de_K (moved d x) P rn = de_K x P rn. Proof. reflexivity. Qed.
Lemma f_ga9 a b : ga_HK9 (moved d x) a b = ga_HK9 x a b. Proof. reflexivity. Qed.
Lemma f_ga17 a b : ga_HK17 (moved d x) a b = ga_HK17 x a b. Proof. reflexivity. Qed.
Lemma f_ga19 a b : ga_HK19_inverse (moved d x) a b = ga_HK19_inverse x a b. Proof. reflexivity. Qed.
Lemma f_ga_S rn a b : ga_S (moved d x) P rn a b = ga_S x P rn a b. Proof. reflexivity. Qed.
Lemma f_ga_H a b : ga_H (moved d x) a b = ga_H x a b. Proof. reflexivity. Qed.
Lemma f_ga_K rn a b : ga_K (moved d x) P rn a b = ga_K x P rn a b. Proof. reflexivity. Qed.
Lemma f_H321 : H321 (moved d x) = H321 x. Proof. reflexivity. Qed.
Lemma f_H312 : H312 (moved d x) = H312 x. Proof. reflexivity. Qed.
Lemma f_magInnov b m : magInnov b m (moved d x) = magInnov b m x. Proof. reflexivity. Qed.
Lemma f_decl ta a b c e : getMagDeclination ta a b c e (moved d x) = getMagDeclination ta a b c e x. Proof. reflexivity. Qed.
Lemma f_dcm : dcm (quat_of (moved d x)) = dcm (quat_of x). Proof. reflexivity. Qed.
Lemma f_yaw : yaw321_q (quat_of (moved d x)) = yaw321_q (quat_of x). Proof. reflexivity. Qed.
Lemma f_all k : allReset k (moved d x) P = allReset k x P. Proof. reflexivity. Qed.
Lemma f_mag k : EngineModel.magReset k (moved d x) P = EngineModel.magReset k x P. Proof. reflexivity. Qed.
End Formulas.
#[export] Hint Rewrite f_as_pred f_as_S f_as_H f_as_K f_rel f_ss_S f_ss_H f_ss_K f_dx_S f_dx_H f_dx_K f_dy_S f_dy_H f_dy_K f_ox_S f_ox_H f_ox_K f_oy_S f_oy_H f_oy_K
  f_mx_S f_mx_H f_mx_K f_my_S f_my_H f_my_K f_mz_S f_mz_H f_mz_K f_iv1 f_iv2 f_de_S f_de_H f_de_K f_ga9 f_ga17 f_ga19 f_ga_S f_ga_H f_ga_K f_H321 f_H312 f_magInnov f_decl
  f_dcm f_yaw f_all f_mag : mv.

(** ** The fusions *)
#[local] Opaque as_v_tas_pred as_S as_H as_K relWindBody ss_S ss_H ss_K dx_S dx_H dx_K dy_S dy_H dy_K ox_S ox_H ox_K oy_S oy_H oy_K mx_S mx_H mx_K my_S my_H my_K mz_S mz_H mz_K
  iv_S1 iv_S2 de_S de_H de_K ga_HK9 ga_HK17 ga_HK19_inverse ga_S ga_H ga_K H321 H312 magInnov allReset EngineModel.magReset mupd applyUpdate resetWindCovariance dcm yaw321_q.
Lemma windReset_moved k a d f : windReset k a (mfus d f) = mfus d (windReset k a f).
Proof.
  unfold windReset. cbv zeta. rewrite mv_fx, mv_fP, f_yaw. change (moved d (fx f) 4%nat) with (fx f 4%nat). change (moved d (fx f) 5%nat) with (fx f 5%nat).
  set (wn := if ts_recent a then _ else _). set (we := if ts_recent a then _ else _).
  replace (fun i => if (i =? 22)%nat then wn else if (i =? 23)%nat then we else moved d (fx f) i) with (moved d (fun i => if (i =? 22)%nat then wn else if (i =? 23)%nat then we else fx f i)).
  - reflexivity.
  - apply functional_extensionality. intros i. unfold moved. destruct (inb 7 3 i) eqn:F; [|reflexivity].
    unfold inb in F. rewrite !andb_true_iff, !Nat.leb_le, !Nat.ltb_lt in F. destruct (Nat.eqb_spec i 22); [lia|]. destruct (Nat.eqb_spec i 23); [lia|]. reflexivity.
Qed.
Lemma airspeed_moved rw k full n g t e d f : (forall f, rw (mfus d f) = mfus d (rw f)) ->
  fuseAirspeed rw (allReset k) full n g t e (mfus d f) = mfus d (fuseAirspeed rw (allReset k) full n g t e f).
Proof.
  intros W. unfold fuseAirspeed. cbv zeta. autorewrite with mv. rewrite W. autorewrite with mv.
  match goal with |- context [if slt ?a (slit 1 1) then _ else _] => destruct (slt a (slit 1 1)) end; [reflexivity|].
  match goal with |- context [if slt ?a (tasVar n e) then _ else _] => destruct (slt a (tasVar n e)) end; [destruct full; reflexivity|].
  match goal with |- context [if slt (slit 1 1) ?a then _ else _] => destruct (slt (slit 1 1) a) end; [reflexivity|].
  destruct (mupd _ _ _ _) as [g1 ok]. cbn [fst snd]. destruct ok; reflexivity.
Qed.
Lemma sideslip_moved rw k full n g d f : (forall f, rw (mfus d f) = mfus d (rw f)) ->
  fuseSideslip rw (allReset k) full n g (mfus d f) = mfus d (fuseSideslip rw (allReset k) full n g f).
Proof.
  intros W. unfold fuseSideslip. cbv zeta. autorewrite with mv. rewrite W. autorewrite with mv.
  match goal with |- context [if slt (slit 7 1) ?a then _ else _] => destruct (slt (slit 7 1) a) end; [|reflexivity].
  match goal with |- context [if slt ?a (sq n) then _ else _] => destruct (slt a (sq n)) end; [destruct full; reflexivity|].
  match goal with |- context [if slt (slit 1 1) ?a then _ else _] => destruct (slt (slit 1 1) a) end; [reflexivity|].
  destruct (mupd _ _ _ _) as [g1 ok]. cbn [fst snd]. destruct ok; reflexivity.
Qed.
Lemma dragAxis_moved ax rn rho binv acc rel d f : (ax <= 1)%nat ->
  dragAxis ax rn rho binv acc rel (mfus d f) = (mfus d (fst (dragAxis ax rn rho binv acc rel f)), snd (dragAxis ax rn rho binv acc rel f)).
Proof.
  intros A. unfold dragAxis. cbv zeta. rewrite mv_fx, mv_fP, mv_dt. rewrite (moved_other d (fx f) (13 + ax)%nat) by (unfold inb; destruct ax as [|[|]]; [reflexivity|reflexivity|lia]).
  set (mea := dragMeas _ _ _). set (ka := dragK _ _ _).
  rewrite f_dx_S, f_dy_S, f_dx_H, f_dy_H, f_dx_K, f_dy_K. set (var := if (ax =? 0)%nat then dx_S _ _ _ _ else _).
  destruct (slt var rn); [reflexivity|]. destruct (sle _ _); [|reflexivity]. autorewrite with mv. reflexivity.
Qed.
Lemma drag_moved n rho bx by_ ax ay d f : fuseDrag n rho bx by_ ax ay (mfus d f) = mfus d (fuseDrag n rho bx by_ ax ay f).
Proof.
  unfold fuseDrag. cbv zeta. destruct (slt bx (slit 1 1) || slt by_ (slit 1 1)); [reflexivity|].
  rewrite mv_fx, f_rel, dragAxis_moved by lia. destruct (dragAxis 0 _ _ _ _ _ _) as [f1 st]. cbn [fst snd]. destruct st; [reflexivity|].
  rewrite dragAxis_moved by lia. reflexivity.
Qed.
Lemma flowAxis_moved ax K H i d f : FusionModel.flowAxis ax K H i (mfus d f) = mfus d (FusionModel.flowAxis ax K H i f).
Proof. unfold FusionModel.flowAxis. rewrite mupd_moved. destruct (mupd K H i f) as [f1 ok]. cbn [fst snd]. destruct ok; reflexivity. Qed.
Lemma flowApply_moved k rn g i0 i1 v0 v1 K0 H0 K1 H1 d f :
  flowApply (allReset k) rn g i0 i1 v0 v1 K0 H0 K1 H1 (mfus d f) = mfus d (flowApply (allReset k) rn g i0 i1 v0 v1 K0 H0 K1 H1 f).
Proof.
  unfold flowApply. cbv zeta. autorewrite with mv. destruct (slt v0 rn); [reflexivity|]. destruct (slt v1 rn); [reflexivity|].
  destruct (slt _ _ || slt _ _); [reflexivity|]. rewrite flowAxis_moved, mv_fP, flowAxis_moved. reflexivity.
Qed.
Lemma flow_moved k rn g gnd t dt R_ gy off comp bias d f :
  fuseOptFlow (allReset k) rn g gnd (t + d 2%nat) dt R_ gy off comp bias (mfus d f) = mfus d (fuseOptFlow (allReset k) rn g gnd t dt R_ gy off comp bias f).
Proof.
  unfold fuseOptFlow. cbv zeta. rewrite mv_fx, mv_fP.
  assert (E : flowRange gnd (t + d 2%nat) (R_ 2%nat) off (moved d (fx f)) = flowRange gnd t (R_ 2%nat) off (fx f)).
  { unfold flowRange. cbv zeta. change (moved d (fx f) 9%nat) with (fx f 9%nat + d 2%nat). change (FusionModel.invRot (moved d (fx f))) with (FusionModel.invRot (fx f)).
    cbn [ssub RScalar]. replace (t + d 2%nat - (fx f 9%nat + d 2%nat)) with (t - fx f 9%nat) by ring. reflexivity. }
  rewrite E. change (flowVel R_ gy off dt (moved d (fx f))) with (flowVel R_ gy off dt (fx f)).
  rewrite f_ox_S, f_oy_S, f_ox_K, f_ox_H, f_oy_H. change (fun M => oy_K (moved d (fx f)) (fP f) M rn (flowRange gnd t (R_ 2%nat) off (fx f))) with (fun M => oy_K (fx f) (fP f) M rn (flowRange gnd t (R_ 2%nat) off (fx f))).
  apply flowApply_moved.
Qed.
Lemma limitDecl_moved c s t dd d x : limitDeclination c s t dd (moved d x) = moved d (limitDeclination c s t dd x).
Proof.
  unfold limitDeclination. cbv zeta. change (moved d x 16%nat) with (x 16%nat). change (moved d x 17%nat) with (x 17%nat). rewrite f_decl.
  destruct (limitAngle _ _ _ _ _) as [n e]. apply functional_extensionality. intros i. unfold moved. destruct (inb 7 3 i) eqn:F; [|reflexivity].
  unfold inb in F. rewrite !andb_true_iff, !Nat.leb_le, !Nat.ltb_lt in F. destruct (Nat.eqb_spec i 16); [lia|]. destruct (Nat.eqb_spec i 17); [lia|]. reflexivity.
Qed.
Lemma magAxis_moved c s t dd ax K H i d f : magAxis c s t dd ax K H i (mfus d f) = mfus d (magAxis c s t dd ax K H i f).
Proof.
  unfold magAxis. rewrite mupd_moved. destruct (mupd K H i f) as [f1 ok]. cbn [fst snd]. destruct ok; [|reflexivity].
  rewrite mv_bad, mv_fx, limitDecl_moved. reflexivity.
Qed.
Lemma magAxes_moved c s t k dd all syn rn inn d f : magAxes c s t (EngineModel.magReset k) dd all syn rn inn (mfus d f) = mfus d (magAxes c s t (EngineModel.magReset k) dd all syn rn inn f).
Proof.
  unfold magAxes. cbv zeta. rewrite mv_fx, mv_fP, f_mx_K, f_mx_H, magAxis_moved. set (f1 := magAxis _ _ _ _ 0 _ _ _ _).
  rewrite !mv_var, !mv_fx, !mv_fP, f_my_S, f_my_K, f_my_H, f_mag. destruct (slt _ _); [reflexivity|]. rewrite magAxis_moved. set (f3 := magAxis _ _ _ _ 1 _ _ _ _).
  destruct syn; [reflexivity|]. rewrite !mv_var, !mv_fx, !mv_fP, f_mz_S, f_mz_K, f_mz_H, f_mag. destruct (slt _ _); [reflexivity|]. apply magAxis_moved.
Qed.
Lemma mag_moved c s t k dd all syn n g m d f : fuseMag c s t (EngineModel.magReset k) dd all syn n g m (mfus d f) = mfus d (fuseMag c s t (EngineModel.magReset k) dd all syn n g m f).
Proof.
  unfold fuseMag. cbv zeta. autorewrite with mv.
  match goal with |- context [if slt (mx_S ?a ?b ?c) ?e then _ else _] => destruct (slt (mx_S a b c) e) end; [reflexivity|].
  match goal with |- context [if slt (iv_S1 ?a ?b ?c) ?e then _ else _] => destruct (slt (iv_S1 a b c) e) end; [reflexivity|].
  match goal with |- context [if slt (iv_S2 ?a ?b ?c) ?e then _ else _] => destruct (slt (iv_S2 a b c) e) end; [reflexivity|].
  destruct (_ || _ || _); [reflexivity|]. apply magAxes_moved.
Qed.
Lemma decl_moved c s t dd sg d f : fuseDeclination c s t dd sg (mfus d f) = mfus d (fuseDeclination c s t dd sg f).
Proof.
  unfold fuseDeclination. cbv zeta. rewrite mv_fx, mv_fP. change (moved d (fx f) 16%nat) with (fx f 16%nat). change (moved d (fx f) 17%nat) with (fx f 17%nat).
  rewrite f_de_S, f_de_K, f_de_H, f_decl, mupd_moved. destruct (slt (sabs _) _); [reflexivity|]. destruct (slt _ _); [|reflexivity].
  destruct (mupd _ _ _ _) as [f1 ok]. cbn [fst snd]. destruct ok; [|reflexivity]. rewrite mv_bad, mv_fx, limitDecl_moved. reflexivity.
Qed.
Lemma gpsYaw_moved c s t w k c30 R_ y o n g d f : fuseGpsYaw c s t w (allReset k) c30 R_ y o n g (mfus d f) = mfus d (fuseGpsYaw c s t w (allReset k) c30 R_ y o n g f).
Proof.
  unfold fuseGpsYaw. cbv zeta. autorewrite with mv.
  destruct (slt c30 _); [reflexivity|].
  match goal with |- context [if slt (sabs (ga_HK9 ?a ?b ?c)) ?e then _ else _] => destruct (slt (sabs (ga_HK9 a b c)) e) end; [reflexivity|].
  match goal with |- context [if slt (sabs (ga_HK17 ?a ?b ?c)) ?e then _ else _] => destruct (slt (sabs (ga_HK17 a b c)) e) end; [reflexivity|].
  match goal with |- context [if slt (sabs (ga_HK19_inverse ?a ?b ?c)) ?e then _ else _] => destruct (slt (sabs (ga_HK19_inverse a b c)) e) end; [reflexivity|].
  match goal with |- context [if slt (ga_S ?a ?b ?c ?x ?y) ?e then _ else _] => destruct (slt (ga_S a b c x y) e) end; [reflexivity|].
  match goal with |- context [if ?b && f_in_air _ then _ else _] => destruct (b && f_in_air (fc f)) end; [reflexivity|].
  destruct (mupd _ _ _ _) as [f1 ok]. cbn [fst snd]. destruct ok; reflexivity.
Qed.
Lemma updateQuat_moved k gnd i v g h d f : updateQuaternion (allReset k) gnd i v g h (mfus d f) = mfus d (updateQuaternion (allReset k) gnd i v g h f).
Proof.
  unfold updateQuaternion. cbv zeta. autorewrite with mv. destruct (sle _ _); [|reflexivity].
  match goal with |- context [if ?b && negb gnd then _ else _] => destruct (b && negb gnd) end; [reflexivity|].
  match goal with |- context [fc (mfus d ?g)] => change (fc (mfus d g)) with (mctx d (fc g)); change (fs (mfus d g)) with (fs g) end.
  rewrite apply_moved. destruct (applyUpdate _ _ _ _ _) as [[c' s'] ok]. rewrite mv_CS, mv_bad. reflexivity.
Qed.
Lemma heading_moved k gnd dd i y d f : headingFusion (allReset k) gnd dd i y (mfus d f) =
  (mfus d (fst (headingFusion (allReset k) gnd dd i y f)), snd (headingFusion (allReset k) gnd dd i y f)).
Proof.
  unfold headingFusion. cbv zeta. rewrite mv_fx, f_dcm, f_decl. change (moved d (fx f) 19%nat) with (fx f 19%nat). change (moved d (fx f) 20%nat) with (fx f 20%nat). change (moved d (fx f) 21%nat) with (fx f 21%nat).
  unfold fuseHeading. rewrite mv_fP, mv_fx, f_H321, f_H312. destruct (hdgSelect _ _ _ _) as [[[m v] z] st]. cbn [fst snd]. f_equal.
  unfold fuseYaw. destruct (if shouldUse321 _ then _ else _) as [h|]; [|reflexivity]. apply updateQuat_moved.
Qed.

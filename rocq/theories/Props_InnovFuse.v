(** * C99 (continued): reports of airspeed, sideslip, drag and the magnetometer *)
From Coq Require Import Lia ZArith List Bool.
From Verif Require Import CBase Scalar CovPredGen CovModel FusionGen FusionModel.
Import ListNotations.
Open Scope nat_scope.
Section G.
Context {T : Type} {S : Scalar T}.
Open Scope scal_scope.

(** ** Specification *)
(** report of observation [k] (indices in FusionModel: 0 1 2 magnetometer, 4 airspeed, 5 sideslip, 6 7 drag) *)
Definition report (f : fus T) (k : nat) : T * T * T := (fi f k, fv f k, fr f k).
(** the three parts belong to one measurement with innovation [i], variance [v] and gate [g] *)
Definition report_is (f : fus T) (k : nat) (i v g : T) : Prop := fi f k = i /\ fv f k = v /\ fr f k = i * i / (g * g * v).
(** the new variance next to the innovation and ratio of an earlier measurement *)
Definition report_mixed (before f : fus T) (k : nat) (v : T) : Prop := fi f k = fi before k /\ fv f k = v /\ fr f k = fr before k.
(** a reset of the wind does not touch the reports *)
Definition keeps_reports (h : fus T -> fus T) : Prop := forall f k, report (h f) k = report f k.

Lemma mupd_rep K H i (f : fus T) : forall k, report (fst (mupd K H i f)) k = report f k.
Proof. intros k. unfold mupd. destruct (measurementUpdate K H i (fc f) (fs f)) as [[c s] ok]. reflexivity. Qed.

(** airspeed: nothing below 1 m/s; a badly conditioned update mixes; otherwise the report is of this measurement *)
Theorem C99_airspeed_report : forall rW rA full noise gate tas e2t (f : fus T), keeps_reports rW ->
  let g := fuseAirspeed rW rA full noise gate tas e2t f in
  let pred := as_v_tas_pred (fx f) in let var := as_S (fx f) (fP f) (tasVar noise e2t) in
  (forall k, k <> 4 -> report g k = report f k) /\
  (if slt pred (slit 1 1) then g = f
   else if slt var (tasVar noise e2t) then report_mixed f g 4 var
   else report_is g 4 (pred - tas) var (sfmax gate (slit 1 1))).
Proof.
  intros rW rA full noise gate tas e2t f W. cbv zeta. unfold fuseAirspeed. cbv zeta.
  destruct (slt _ (slit 1 1)); [split; auto|].
  set (var := as_S _ _ _). destruct (slt var _).
  - assert (H : forall g : fus T, (forall k, report g k = report (setVar 4 var f) k) -> 
      (forall k, k <> 4 -> report (setBad 4 true g) k = report f k) /\ report_mixed f (setBad 4 true g) 4 var).
    { intros g H. split.
      - intros k K. change (report (setBad 4 true g) k) with (report g k). rewrite H. unfold report, setVar, put. cbn [fi fv fr].
        destruct (k =? 4) eqn:E; [apply Nat.eqb_eq in E; contradiction|reflexivity].
      - pose proof (H 4) as H4. unfold report, setVar, put in H4. cbn in H4. unfold report_mixed. cbn [setBad fi fv fr].
        injection H4 as -> -> ->. auto. }
    apply H. intros k. destruct full; [reflexivity|apply W].
  - set (innov := _ - tas). set (rt := ratio _ _ _).
    assert (H : forall g : fus T, (forall k, report g k = report (setRatio 4 rt (setInnov 4 innov (setVar 4 var f))) k) ->
      (forall k, k <> 4 -> report g k = report f k) /\ report_is g 4 innov var (sfmax gate (slit 1 1))).
    { intros g H. split.
      - intros k K. rewrite H. unfold report, setRatio, setInnov, setVar, put. cbn [fi fv fr].
        destruct (k =? 4) eqn:E; [apply Nat.eqb_eq in E; contradiction|reflexivity].
      - pose proof (H 4) as H4. unfold report in H4. cbn in H4. unfold report_is. injection H4 as -> -> ->. auto. }
    destruct (slt (slit 1 1) rt); [apply H; reflexivity|].
    destruct (mupd _ _ _ _) as [f5 ok] eqn:E.
    apply H. intros k. destruct ok; change (report f5 k = report (setRatio 4 rt (setInnov 4 innov (setVar 4 var f))) k);
      pose proof (mupd_rep _ _ _ _ k : report (fst (mupd (as_K (fx f) (fP f) (tasVar noise e2t) full) (as_H (fx f)) innov (setRej 4 false (setRatio 4 rt (setInnov 4 innov (setBad 4 false (setVar 4 var f))))))) k = _) as M; rewrite E in M; exact M.
Qed.

(** sideslip: likewise, above 7 m/s relative wind *)
Theorem C99_sideslip_report : forall rW rA full noise gate (f : fus T), keeps_reports rW ->
  let g := fuseSideslip rW rA full noise gate f in
  let rel := relWindBody (fx f) in let var := ss_S (fx f) (fP f) (sq noise) in
  (forall k, k <> 5 -> report g k = report f k) /\
  (if slt (slit 7 1) (norm3 rel) then
     if slt var (sq noise) then report_mixed f g 5 var else report_is g 5 (rel 1 / rel 0) var (sfmax gate (slit 1 1))
   else g = f).
Proof.
  intros rW rA full noise gate f W. cbv zeta. unfold fuseSideslip. cbv zeta.
  destruct (slt (slit 7 1) _); [|split; auto].
  set (var := ss_S _ _ _). destruct (slt var _).
  - assert (H : forall g : fus T, (forall k, report g k = report (setVar 5 var f) k) -> 
      (forall k, k <> 5 -> report g k = report f k) /\ report_mixed f g 5 var).
    { intros g H. split.
      - intros k K. rewrite H. unfold report, setVar, put. cbn [fi fv fr].
        destruct (k =? 5) eqn:E; [apply Nat.eqb_eq in E; contradiction|reflexivity].
      - pose proof (H 5) as H4. unfold report, setVar, put in H4. cbn in H4. unfold report_mixed.
        injection H4 as -> -> ->. auto. }
    apply H. intros k. destruct full; [reflexivity|]. rewrite W. reflexivity.
  - set (innov := _ / _). set (rt := ratio _ _ _).
    assert (H : forall g : fus T, (forall k, report g k = report (setRatio 5 rt (setInnov 5 innov (setVar 5 var f))) k) ->
      (forall k, k <> 5 -> report g k = report f k) /\ report_is g 5 innov var (sfmax gate (slit 1 1))).
    { intros g H. split.
      - intros k K. rewrite H. unfold report, setRatio, setInnov, setVar, put. cbn [fi fv fr].
        destruct (k =? 5) eqn:E; [apply Nat.eqb_eq in E; contradiction|reflexivity].
      - pose proof (H 5) as H4. unfold report in H4. cbn in H4. unfold report_is. injection H4 as -> -> ->. auto. }
    destruct (slt (slit 1 1) rt); [apply H; reflexivity|].
    destruct (mupd _ _ _ _) as [f5 ok] eqn:E.
    apply H. intros k. destruct ok; change (report f5 k = report (setRatio 5 rt (setInnov 5 innov (setVar 5 var f))) k);
      pose proof (mupd_rep _ _ _ _ k : report (fst (mupd (ss_K (fx f) (fP f) (sq noise) full) (ss_H (fx f)) innov (setRej 5 false (setRatio 5 rt (setInnov 5 innov (setBad 5 false (setVar 5 var f))))))) k = _) as M; rewrite E in M; exact M.
Qed.

(** drag, one axis: five sigma gate; a badly conditioned axis mixes and ends the whole fusion *)
Definition drag_report_is (f : fus T) (k : nat) (i v : T) : Prop := fi f k = i /\ fv f k = v /\ fr f k = i * i / (slit 25 1 * v).
Theorem C99_drag_axis_report : forall ax rn rho binv acc rel (f : fus T), 
  let g := fst (dragAxis ax rn rho binv acc rel f) in let stop := snd (dragAxis ax rn rho binv acc rel f) in
  let mea := acc - fx f (13 + ax)%nat / x_dt_ekf_avg (fc f) in let ka := dragK rho binv mea in
  let var := if ax =? 0 then dx_S (fx f) (fP f) rn ka else dy_S (fx f) (fP f) rn ka in
  (forall k, k <> (6 + ax)%nat -> report g k = report f k) /\ stop = slt var rn /\
  (if stop then report_mixed f g (6 + ax)%nat var else drag_report_is g (6 + ax)%nat (dragPred binv rho (rel ax) - mea) var).
Proof.
  intros ax rn rho binv acc rel f. cbv zeta. unfold dragAxis. cbv zeta. unfold dragMeas.
  set (mea := acc - _). set (ka := dragK rho binv mea).
  set (var := if ax =? 0 then dx_S _ _ _ _ else dy_S _ _ _ _).
  assert (E : forall k, k <> (6 + ax)%nat -> (k =? 6 + ax)%nat = false) by (intros; apply Nat.eqb_neq; assumption).
  destruct (slt var rn); cbn [fst snd].
  - split; [|split; [reflexivity|]].
    + intros k K. unfold report, setVar, put. cbn [fi fv fr]. rewrite (E k K). reflexivity.
    + unfold report_mixed, setVar, put. cbn [fi fv fr]. rewrite Nat.eqb_refl. auto.
  - set (innov := _ - mea). set (rt := sq innov / _). set (f2 := setRatio _ _ _).
    assert (H : forall g : fus T, (forall k, report g k = report f2 k) ->
      (forall k, k <> (6 + ax)%nat -> report g k = report f k) /\ drag_report_is g (6 + ax)%nat innov var).
    { intros g H. split.
      - intros k K. rewrite H. unfold f2, report, setRatio, setInnov, setVar, put. cbn [fi fv fr]. rewrite (E k K). reflexivity.
      - pose proof (H (6 + ax)%nat) as M. unfold f2, report, setRatio, setInnov, setVar, put in M. cbn [fi fv fr] in M. rewrite Nat.eqb_refl in M.
        pose proof (f_equal (fun p => fst (fst p)) M) as M1. pose proof (f_equal (fun p => snd (fst p)) M) as M2. pose proof (f_equal snd M) as M3.
        cbv beta in M1, M2. cbn [fst snd] in M1, M2, M3. unfold drag_report_is. split; [exact M1|]. split; [exact M2|exact M3]. }
    destruct (sle rt (slit 1 1)); cbn [fst snd]; [destruct (H _ (mupd_rep (if ax =? 0 then dx_K (fx f) (fP f) rn ka else dy_K (fx f) (fP f) rn ka) (if ax =? 0 then dx_H (fx f) ka else dy_H (fx f) ka) innov f2)) as [A B]|destruct (H f2 (fun k => eq_refl)) as [A B]]; auto.
Qed.
(** both axes: X first; Y - with the state [f1] left by X - only if X was well conditioned, else the Y report stays what it was *)
Theorem C99_drag_report : forall noise rho0 bx by_ ax ay (f : fus T),
  let g := fuseDrag noise rho0 bx by_ ax ay f in
  let rn := sfmax noise (slit 1 2) in let rho := sfmax rho0 (slit 1 10) in let rel := relWindBody (fx f) in
  let meas := fun a acc (e : fus T) => acc - fx e (13 + a)%nat / x_dt_ekf_avg (fc e) in
  let var0 := dx_S (fx f) (fP f) rn (dragK rho (slit 1 1 / bx) (meas 0 ax f)) in
  (forall k, k <> 6 -> k <> 7 -> report g k = report f k) /\
  (if slt bx (slit 1 1) || slt by_ (slit 1 1) then g = f
   else if slt var0 rn then report_mixed f g 6 var0 /\ report g 7 = report f 7
   else drag_report_is g 6 (dragPred (slit 1 1 / bx) rho (rel 0) - meas 0 ax f) var0 /\
     exists f1, f1 = fst (dragAxis 0 rn rho (slit 1 1 / bx) ax rel f) /\
       let var1 := dy_S (fx f1) (fP f1) rn (dragK rho (slit 1 1 / by_) (meas 1 ay f1)) in
       if slt var1 rn then report_mixed f g 7 var1
       else drag_report_is g 7 (dragPred (slit 1 1 / by_) rho (rel 1) - meas 1 ay f1) var1).
Proof.
  intros noise rho0 bx by_ ax ay f. cbv zeta. unfold fuseDrag. cbv zeta.
  destruct (slt bx (slit 1 1) || slt by_ (slit 1 1)); [split; reflexivity|].
  set (rn := sfmax noise _). set (rho := sfmax rho0 _). set (rel := relWindBody _).
  pose proof (C99_drag_axis_report 0 rn rho (slit 1 1 / bx) ax rel f) as H. cbv zeta in H.
  destruct (dragAxis 0 rn rho (slit 1 1 / bx) ax rel f) as [f1 stop] eqn:E0. cbn [fst snd] in H. destruct H as (A & B & C).
  cbn [Nat.eqb] in B, C. cbv iota in B, C. change (6 + 0)%nat with 6%nat in A, C. rewrite <- B. destruct stop.
  - split; [intros k K6 K7; apply A; exact K6|]. split; [exact C|apply A; discriminate].
  - pose proof (C99_drag_axis_report 1 rn rho (slit 1 1 / by_) ay rel f1) as H. cbv zeta in H.
    destruct (dragAxis 1 rn rho (slit 1 1 / by_) ay rel f1) as [g stop1] eqn:E1. cbn [fst snd] in *. destruct H as (A1 & B1 & C1).
    cbn [Nat.eqb] in B1, C1. cbv iota in B1, C1. change (6 + 1)%nat with 7%nat in A1, C1.
    split; [intros k K6 K7; rewrite A1 by exact K7; apply A; exact K6|].
    assert (M6 : report g 6 = report f1 6) by (apply A1; discriminate). assert (M7 : report f1 7 = report f 7) by (apply A; discriminate).
    pose proof (f_equal (fun p => fst (fst p)) M6) as P1. pose proof (f_equal (fun p => snd (fst p)) M6) as P2. pose proof (f_equal snd M6) as P3.
    pose proof (f_equal (fun p => fst (fst p)) M7) as Q1. pose proof (f_equal snd M7) as Q3.
    cbv beta in P1, P2, Q1. cbn [report fst snd] in P1, P2, P3, Q1, Q3.
    split; [unfold drag_report_is; rewrite P1, P2, P3; exact C|].
    exists f1. split; [reflexivity|]. rewrite <- B1. destruct stop1; [|exact C1].
    unfold report_mixed in *. rewrite <- Q1, <- Q3. exact C1.
Qed.

(** magnetometer: only its own reports change (and the heading ratio is set to zero); when the three variances are
    well conditioned the innovations and ratios are those of this measurement with the variances of the moment before
    any axis is fused; but once it is accepted the reported variances of Y and Z are replaced: Y by the one after X has
    been fused, so ratio and variance reported for Y are not of the same moment *)
(** C library functions (any) *)
Variables (tc ts : T -> T) (ta : T -> T -> T).
Lemma magAxis_rep d ax K H i (f : fus T) k : report (magAxis tc ts ta d ax K H i f) k = report f k.
Proof.
  unfold magAxis. destruct (mupd K H i f) as [f1 ok] eqn:E. pose proof (mupd_rep K H i f k) as M. rewrite E in M. cbn in M.
  destruct ok; exact M.
Qed.
Theorem C99_mag_report : forall rM d all synth noise gate meas (f : fus T),
  let g := fuseMag tc ts ta rM d all synth noise gate meas f in
  let x := fx f in let P := fP f in let rn := sq (sfmax noise szero) in let gg := smaxi gate (slit 1 1) in
  let inn := magInnov synth meas x in
  let v := fun k => match k with 0 => mx_S x P rn | 1 => iv_S1 x P rn | _ => iv_S2 x P rn end in
  (forall k, 4 <= k -> report g k = report f k) /\ fi g 3 = fi f 3 /\ fv g 3 = fv f 3 /\
  (slt (v 0) rn = false -> slt (v 1) rn = false -> slt (v 2) rn = false ->
     (forall k, k < 3 -> fi g k = inn k /\ fr g k = inn k * inn k / (gg * gg * v k)) /\ fr g 3 = szero /\ fv g 0 = v 0 /\
     let accepted := negb (existsb (fun k => slt (slit 1 1) (inn k * inn k / (gg * gg * v k))) [0; 1; 2]) in
     if accepted then exists h, fv g 1 = my_S (fx h) (fP h) rn /\
        (exists f', fx f' = x /\ fP f' = P /\ h = magAxis tc ts ta d 0 (mx_K x P rn all) (mx_H x) (inn 0) f')
     else fv g 1 = v 1 /\ fv g 2 = v 2).
Proof.
  intros rM d all synth noise gate meas f. cbv zeta. unfold fuseMag. cbv zeta.
  set (x := fx f). set (P := fP f). set (rn := sq _). set (inn := magInnov synth meas x). set (gg := smaxi _ _).
  set (v0 := mx_S x P rn). set (v1 := iv_S1 x P rn). set (v2 := iv_S2 x P rn).
  assert (K4 : forall (k : nat) (g : fus T), 4 <= k -> forall a b c e, report (setVar 2 a (setVar 1 b (setVar 0 c e))) k = report e k).
  { intros k g Hk a b c e. unfold report, setVar, put. cbn. destruct k as [|[|[|k]]]; try lia. reflexivity. }
  destruct (slt v0 rn).
  { split; [|split; [reflexivity|split; [reflexivity|discriminate]]].
    intros k Hk. destruct k as [|[|[|k]]]; try lia. reflexivity. }
  destruct (slt v1 rn).
  { split; [|split; [reflexivity|split; [reflexivity|discriminate]]].
    intros k Hk. destruct k as [|[|[|k]]]; try lia. reflexivity. }
  destruct (slt v2 rn).
  { split; [|split; [reflexivity|split; [reflexivity|discriminate]]].
    intros k Hk. destruct k as [|[|[|k]]]; try lia. reflexivity. }
  cbn [existsb].
  change (inn 0 * inn 0 / (gg * gg * v0)) with (ratio (inn 0) gg v0).
  change (inn 1 * inn 1 / (gg * gg * v1)) with (ratio (inn 1) gg v1).
  change (inn 2 * inn 2 / (gg * gg * v2)) with (ratio (inn 2) gg v2).
  set (r0 := ratio (inn 0) gg v0). set (r1 := ratio (inn 1) gg v1). set (r2 := ratio (inn 2) gg v2).
  match goal with |- context [magAxes tc ts ta rM d all synth rn inn ?F] => set (f7 := F) end.
  rewrite orb_false_r, orb_assoc.
  destruct (slt (slit 1 1) r0 || slt (slit 1 1) r1 || slt (slit 1 1) r2) eqn:E; cbn [negb].
  - split; [intros k Hk; destruct k as [|[|[|[|k]]]]; try lia; reflexivity|]. split; [reflexivity|split; [reflexivity|]]. intros _ _ _.
    split; [intros k Hk; destruct k as [|[|[|k]]]; try lia; split; reflexivity|]. repeat split; reflexivity.
  - assert (A : forall k, report (magAxes tc ts ta rM d all synth rn inn f7) k = report f7 k \/ k = 1 \/ k = 2).
    { intros k. destruct (Nat.eq_dec k 1); [auto|]. destruct (Nat.eq_dec k 2); [auto|]. left.
      assert (V : forall w (e : fus T), report (setVar 1 w e) k = report e k) by (intros; unfold report, setVar, put; cbn [fi fv fr]; destruct (Nat.eqb_spec k 1); [contradiction|reflexivity]).
      assert (V2 : forall w (e : fus T), report (setVar 2 w e) k = report e k) by (intros; unfold report, setVar, put; cbn [fi fv fr]; destruct (Nat.eqb_spec k 2); [contradiction|reflexivity]).
      unfold magAxes. cbv zeta.
      set (m1 := magAxis tc ts ta d 0 _ _ _ f7). set (u1 := setVar 1 _ m1).
      assert (U1 : report u1 k = report f7 k) by (unfold u1; rewrite V; unfold m1; apply magAxis_rep).
      destruct (slt _ rn); [exact U1|]. set (m2 := magAxis tc ts ta d 1 _ _ _ u1). assert (U2 : report m2 k = report f7 k) by (unfold m2; rewrite magAxis_rep; exact U1).
      destruct synth; [exact U2|]. set (u2 := setVar 2 _ m2). assert (U3 : report u2 k = report f7 k) by (unfold u2; rewrite V2; exact U2).
      destruct (slt _ rn); [exact U3|]. rewrite magAxis_rep. exact U3. }
    assert (B : forall k, fi (magAxes tc ts ta rM d all synth rn inn f7) k = fi f7 k /\ fr (magAxes tc ts ta rM d all synth rn inn f7) k = fr f7 k).
    { intros k. assert (R : forall d ax K H i (e : fus T), fi (magAxis tc ts ta d ax K H i e) k = fi e k /\ fr (magAxis tc ts ta d ax K H i e) k = fr e k).
      { intros. pose proof (magAxis_rep d0 ax K H i e k) as M. unfold report in M. injection M. auto. }
      unfold magAxes. cbv zeta.
      set (m1 := magAxis tc ts ta d 0 _ _ _ f7). set (u1 := setVar 1 _ m1).
      assert (U1 : fi u1 k = fi f7 k /\ fr u1 k = fr f7 k) by (apply R).
      destruct (slt _ rn); [exact U1|]. set (m2 := magAxis tc ts ta d 1 _ _ _ u1).
      assert (U2 : fi m2 k = fi f7 k /\ fr m2 k = fr f7 k) by (destruct U1 as [<- <-]; apply R).
      destruct synth; [exact U2|]. set (u2 := setVar 2 _ m2).
      destruct (slt _ rn); [exact U2|]. destruct U2 as [<- <-]. apply (R d 2 _ _ _ u2). }
    assert (C : exists h, fv (magAxes tc ts ta rM d all synth rn inn f7) 1 = my_S (fx h) (fP h) rn /\ h = magAxis tc ts ta d 0 (mx_K x P rn all) (mx_H x) (inn 0) f7).
    { exists (magAxis tc ts ta d 0 (mx_K x P rn all) (mx_H x) (inn 0) f7). split; [|reflexivity].
      unfold magAxes. cbv zeta. change (fx f7) with x. change (fP f7) with P.
      set (m1 := magAxis tc ts ta d 0 _ _ _ f7). set (w := my_S (fx m1) (fP m1) rn). set (u1 := setVar 1 w m1).
      destruct (slt w rn); [reflexivity|]. set (m2 := magAxis tc ts ta d 1 _ _ _ u1).
      assert (U2 : fv m2 1 = w). { pose proof (magAxis_rep d 1 (my_K (fx m1) (fP m1) rn all) (my_H (fx m1)) (inn 1) u1 1) as M. unfold report in M. injection M as _ M _. exact M. }
      destruct synth; [exact U2|]. destruct (slt _ rn); [exact U2|].
      match goal with |- fv (magAxis tc ts ta d 2 ?K ?H ?i ?e) 1 = _ => pose proof (magAxis_rep d 2 K H i e 1) as M end.
      unfold report in M. injection M as _ M _. rewrite M. exact U2. }
    split; [intros k Hk; destruct (A k) as [->|[->| ->]]; [destruct k as [|[|[|[|k]]]]; try lia; reflexivity|lia|lia]|].
    split; [apply (B 3)|]. split; [destruct (A 3) as [Q|[Q|Q]]; [unfold report in Q; injection Q as _ -> _; reflexivity|discriminate|discriminate]|].
    intros _ _ _. split; [|split; [|split]].
    + intros k Hk. destruct (B k) as [-> ->]. destruct k as [|[|[|k]]]; try lia; split; reflexivity.
    + apply (B 3).
    + destruct (A 0) as [Q|[Q|Q]]; [unfold report in Q; injection Q as _ -> _; reflexivity|discriminate|discriminate].
    + destruct C as (h & Ch & Hh). exists h. split; [exact Ch|]. exists f7. repeat split. exact Hh.
Qed.
(** optical flow: the innovations are always new; a badly conditioned X axis leaves the Y variance and the ratio, a badly
    conditioned Y axis leaves the ratio; otherwise the ratio is the larger of the two of this measurement *)
Theorem C99_flow_report : forall rA rn gate i0 i1 v0 v1 K0 H0 K1 H1 (f : fus T),
  let g := flowApply rA rn gate i0 i1 v0 v1 K0 H0 K1 H1 f in let gg := smaxi gate (slit 1 1) in
  (forall k, k <> 8 -> k <> 9 -> report g k = report f k) /\ fi g 8 = i0 /\ fi g 9 = i1 /\ fv g 8 = v0 /\
  (if slt v0 rn then fv g 9 = fv f 9 /\ fr g 8 = fr f 8
   else fv g 9 = v1 /\ fr g 8 = if slt v1 rn then fr f 8 else smaxi (i0 * i0 / (gg * gg * v0)) (i1 * i1 / (gg * gg * v1))).
Proof.
  intros rA rn gate i0 i1 v0 v1 K0 H0 K1 H1 f. cbv zeta. unfold flowApply. cbv zeta.
  assert (A : forall ax K H i (e : fus T) k, report (flowAxis ax K H i e) k = report e k).
  { intros. unfold flowAxis. destruct (mupd K H i e) as [f1 ok] eqn:E. pose proof (mupd_rep K H i e k) as M. rewrite E in M. cbn [fst] in M.
    destruct ok; exact M. }
  assert (N : forall k, k <> 8 -> k <> 9 -> (k =? 8)%nat = false /\ (k =? 9)%nat = false) by (intros; split; apply Nat.eqb_neq; assumption).
  destruct (slt v0 rn).
  { split; [|repeat split]. intros k P Q. destruct (N k P Q) as [X Y]. unfold report, setM, setCS, setVar, setInnov, put. cbn [fi fv fr]. rewrite X, Y. reflexivity. }
  destruct (slt v1 rn).
  { split; [|repeat split]. intros k P Q. destruct (N k P Q) as [X Y]. unfold report, setM, setCS, setVar, setInnov, put. cbn [fi fv fr]. rewrite X, Y. reflexivity. }
  change (i0 * i0 / (smaxi gate (slit 1 1) * smaxi gate (slit 1 1) * v0)) with (ratio i0 (smaxi gate (slit 1 1)) v0).
  change (i1 * i1 / (smaxi gate (slit 1 1) * smaxi gate (slit 1 1) * v1)) with (ratio i1 (smaxi gate (slit 1 1)) v1).
  set (r0 := ratio i0 _ v0). set (r1 := ratio i1 _ v1).
  set (f3 := setRatio 8 (smaxi r0 r1) (setVar 9 v1 (setVar 8 v0 (setInnov 9 i1 (setInnov 8 i0 f))))).
  assert (F : forall e : fus T, (forall k, report e k = report f3 k) ->
    (forall k, k <> 8 -> k <> 9 -> report e k = report f k) /\ fi e 8 = i0 /\ fi e 9 = i1 /\ fv e 8 = v0 /\ fv e 9 = v1 /\ fr e 8 = smaxi r0 r1).
  { intros e E. split.
    - intros k P Q. rewrite E. destruct (N k P Q) as [X Y]. unfold f3, report, setRatio, setVar, setInnov, put. cbn [fi fv fr]. rewrite X, Y. reflexivity.
    - pose proof (E 8) as E8. pose proof (E 9) as E9. unfold report in E8, E9. cbn in E8, E9. injection E8 as -> -> ->. injection E9 as -> -> _. repeat split. }
  destruct (_ || _); apply F; intros k; [reflexivity|]. rewrite !A. reflexivity.
Qed.
(** heading (magnetometer, vision, rest, GPS yaw: the common last step), for every filter: the variance reported is always
    this measurement's; a badly conditioned one leaves innovation and ratio; a rejected one in the air leaves the innovation;
    on the ground a rejected one reports the innovation limited to the gate next to the ratio of the unlimited one;
    the magnetometer ratios are set to zero *)
Theorem C99_heading_report : forall rA ground innov variance gate h (f : fus T),
  let g := updateQuaternion rA ground innov variance gate h f in
  let var := yawVar (fP f) h variance in let rt := innov * innov / (gate * gate * var) in let lim := ssqrt (gate * gate * var) in
  (forall k, 4 <= k -> report g k = report f k) /\ (forall k, k < 3 -> fi g k = fi f k /\ fv g k = fv f k) /\ fv g 3 = var /\
  (if sle variance var then
     fr g 3 = rt /\ (forall k, k < 3 -> fr g k = szero) /\
     fi g 3 = (if slt (slit 1 1) rt then if ground then sconstrain innov (- lim) lim else fi f 3 else innov)
   else fi g 3 = fi f 3 /\ forall k, fr g k = fr f k).
Proof.
  intros rA ground innov variance gate h f. cbv zeta. unfold updateQuaternion. cbv zeta.
  set (var := yawVar _ _ _). unfold ratio, sq. set (rt := innov * innov / _).
  destruct (sle variance var).
  - set (rej := slt (slit 1 1) rt).
    assert (F : forall e : fus T, (forall k, report e k = report (setRatio 2 szero (setRatio 1 szero (setRatio 0 szero (setRatio 3 rt (setVar 3 var f))))) k) ->
      (forall k, 4 <= k -> report e k = report f k) /\ (forall k, k < 3 -> fi e k = fi f k /\ fv e k = fv f k) /\ fv e 3 = var /\
      fr e 3 = rt /\ (forall k, k < 3 -> fr e k = szero) /\ fi e 3 = fi f 3).
    { intros e E. split; [intros k Hk; rewrite E; destruct k as [|[|[|[|k]]]]; try lia; reflexivity|].
      split; [intros k Hk; pose proof (E k) as Q; destruct k as [|[|[|k]]]; try lia; unfold report in Q; cbn in Q; injection Q as -> -> _; auto|].
      pose proof (E 3) as Q. unfold report in Q; cbn in Q; injection Q as -> -> ->. split; [reflexivity|]. split; [reflexivity|]. split; [|reflexivity].
      intros k Hk; pose proof (E k) as Q; destruct k as [|[|[|k]]]; try lia; unfold report in Q; cbn in Q; injection Q as _ _ ->; reflexivity. }
    destruct rej eqn:R; [destruct ground|]; cbn [andb negb].
    2: { destruct (F (setRej 3 true (setRatio 2 szero (setRatio 1 szero (setRatio 0 szero (setRatio 3 rt (setBad 3 false (setVar 3 var f)))))))) as (A & B & C & D & E & G); [reflexivity|]. repeat split; auto; apply B; assumption. }
    all: destruct (applyUpdate _ _ _ _ _) as [[c s] ok];
      match goal with |- context [setInnov 3 ?v (setRej 3 ?b ?z)] =>
        destruct (F (setRej 3 b z) (fun k => eq_refl)) as (A & B & C & D & E & G) end;
      (split; [intros k Hk; rewrite <- (A k Hk); destruct k as [|[|[|[|k]]]]; try lia; reflexivity|]);
      (split; [intros k Hk; rewrite <- (proj1 (B k Hk)), <- (proj2 (B k Hk)); destruct k as [|[|[|k]]]; try lia; split; reflexivity|]);
      (split; [exact C|]); (split; [exact D|]); (split; [exact E|reflexivity]).
  - split; [intros k Hk; destruct k as [|[|[|[|k]]]]; try lia; reflexivity|].
    split; [intros k Hk; destruct k as [|[|[|k]]]; try lia; split; reflexivity|]. repeat split.
Qed.
(** a badly conditioned magnetometer sample: no innovation and no ratio changes, the offending variance is already reported,
    the fault flag of its axis is set *)
Theorem C99_mag_bad_report : forall rM d all synth noise gate meas (f : fus T),
  let g := fuseMag tc ts ta rM d all synth noise gate meas f in
  let x := fx f in let P := fP f in let rn := sq (sfmax noise szero) in
  let v := fun k => match k with 0 => mx_S x P rn | 1 => iv_S1 x P rn | _ => iv_S2 x P rn end in
  forall k, k < 3 -> slt (v k) rn = true -> (forall j, j < k -> slt (v j) rn = false) ->
  (forall j, fi g j = fi f j /\ fr g j = fr f j) /\ fv g k = v k /\ fbad g k = true.
Proof.
  intros rM d all synth noise gate meas f. cbv zeta. intros k Hk B O. unfold fuseMag. cbv zeta.
  set (v0 := mx_S _ _ _) in *. set (v1 := iv_S1 _ _ _) in *. set (v2 := iv_S2 _ _ _) in *.
  destruct k as [|[|[|k]]]; try lia.
  - rewrite B. repeat split.
  - pose proof (O 0 ltac:(lia)) as O0. cbv beta iota in O0. rewrite O0, B. repeat split.
  - pose proof (O 0 ltac:(lia)) as O0. pose proof (O 1 ltac:(lia)) as O1. cbv beta iota in O0, O1. rewrite O0, O1, B. repeat split.
Qed.
(** the identity keeps reports: the hypothesis of the first two theorems can be met *)
Example C99_keeps : keeps_reports (fun f => f). Proof. intros f k. reflexivity. Qed.
End G.
Print Assumptions C99_airspeed_report.
Print Assumptions C99_sideslip_report.
Print Assumptions C99_drag_report.
Print Assumptions C99_heading_report.
Print Assumptions C99_mag_report.

(** * C99: reported innovations, variances and test ratios *)
From Coq Require Import Reals Lra Lia ZArith List Bool.
From Verif Require Import CBase Scalar CovPredGen CovModel VelPosModel InnovModel.
Import ListNotations.
Open Scope nat_scope.
Section G.
Context {T : Type} {S : Scalar T}.
Open Scope scal_scope.

(** ** Specification *)
(** an operation that measures the two horizontal components of a source: innovations, gate in standard deviations,
    observation variances, first covariance index (4 velocity, 7 position) *)
Definition horizontal (o : iop T) (s : src) : option (T * T * T * T * T * nat) := match o with
  | IVel gps _ i gate q => if src_eqb s (if gps then GpsVel else EvVel) then Some (i 0, i 1, sfmax gate (slit 1 1), q 0, q 1, 4) else None
  | IAux i gate q => if src_eqb s Aux then Some (i 0, i 1, gate, q 0, q 1, 4) else None
  | IPos gps i0 i1 gate q0 q1 => if src_eqb s (if gps then GpsPos else EvPos) then Some (i0, i1, sfmax gate (slit 1 1), q0, q1, 7) else None
  (* a position hold measurement is reported as a GPS position *)
  | ISynth i0 i1 q => if src_eqb s GpsPos then Some (i0, i1, slit 3 1, q, q, 7) else None
  | _ => None end.
(** the vertical component: innovation and gate *)
Definition vertical (o : iop T) (s : src) : option (T * T) := match o with
  | IVel gps _ i gate q => if src_eqb s (if gps then GpsVel else EvVel) then Some (i 2, sfmax gate (slit 1 1)) else None
  | IHgt h _ i gate q => if src_eqb s (hrep h) then Some (i, sfmax gate (slit 1 1)) else None
  | _ => None end.
Definition stops (o : iop T) (s : src) : bool := match o with
  | IStopGps => src_eqb s GpsVel || src_eqb s GpsPos | IStopEv => src_eqb s EvVel || src_eqb s EvPos | _ => false end.
Definition is_none {A} (a : option A) : bool := match a with None => true | _ => false end.
(** squared innovation over the squared gate times the variance *)
Definition test_ratio (i gate var : T) : T := i * i / (gate * gate * var).

(** the horizontal report of [s] after the history [l] (starting with filter [v]) *)
Definition horizontal_report_of_last (s : src) (l : list (iop T)) (v : vpst T) : Prop :=
  let r := st_r (irun l (istart v)) s in
  (ri r 0 = szero /\ ri r 1 = szero /\ rv r 0 = szero /\ rv r 1 = szero /\ rh r = szero /\
     (Forall (fun o => is_none (horizontal o s) = true) l \/
      exists l1 o l2, l = l1 ++ o :: l2 /\ stops o s = true /\ Forall (fun o => is_none (horizontal o s) = true) l2)) \/
  exists l1 o l2 i0 i1 g q0 q1 k, l = l1 ++ o :: l2 /\ horizontal o s = Some (i0, i1, g, q0, q1, k) /\
    Forall (fun o => is_none (horizontal o s) = true /\ stops o s = false) l2 /\
    let P := cP (v_s (st_v (irun l1 (istart v)))) in
    ri r 0 = i0 /\ ri r 1 = i1 /\ rv r 0 = P k k + q0 /\ rv r 1 = P (k + 1)%nat (k + 1)%nat + q1 /\
    rh r = sfmax (test_ratio i0 g (rv r 0)) (test_ratio i1 g (rv r 1)).
Definition vertical_report_of_last (s : src) (l : list (iop T)) (v : vpst T) : Prop :=
  let r := st_r (irun l (istart v)) s in
  (ri r 2 = szero /\ rv r 2 = szero /\ rz r = szero /\
     (Forall (fun o => is_none (vertical o s) = true) l \/
      exists l1 o l2, l = l1 ++ o :: l2 /\ stops o s = true /\ Forall (fun o => is_none (vertical o s) = true) l2)) \/
  exists l1 o l2 i g, l = l1 ++ o :: l2 /\ vertical o s = Some (i, g) /\
    Forall (fun o => is_none (vertical o s) = true /\ stops o s = false) l2 /\
    ri r 2 = i /\ rz r = test_ratio i g (rv r 2).

Lemma hv_ratio i0 i1 g o0 o1 (v : vpst T) : let r := fuseHorizontalVelocity i0 i1 g o0 o1 v in
  r_ratio r = sfmax (i0 * i0 / (g * g * r_var0 r)) (i1 * i1 / (g * g * r_var1 r)).
Proof. cbv zeta. unfold fuseHorizontalVelocity. destruct (sle _ _); reflexivity. Qed.
Lemma vv_ratio b i2 g o2 (v : vpst T) : let r := fuseVerticalVelocity b i2 g o2 v in r_ratio r = i2 * i2 / (g * g * r_var0 r).
Proof. cbv zeta. unfold fuseVerticalVelocity. destruct (_ || _); reflexivity. Qed.
Lemma hp_ratio b i0 i1 g o0 o1 (v : vpst T) : let r := fuseHorizontalPosition b i0 i1 g o0 o1 v in
  r_ratio r = sfmax (i0 * i0 / (g * g * r_var0 r)) (i1 * i1 / (g * g * r_var1 r)).
Proof. cbv zeta. unfold fuseHorizontalPosition. destruct (_ || _); [destruct (_ && _)|]; reflexivity. Qed.
Lemma vp_ratio b i2 g o2 (v : vpst T) : let r := fuseVerticalPosition b i2 g o2 v in r_ratio r = i2 * i2 / (g * g * r_var0 r).
Proof. cbv zeta. unfold fuseVerticalPosition. destruct (_ || _); reflexivity. Qed.

(** ** Velocity, position, height *)
Lemma irun_snoc l o (x : ist T) : irun (l ++ [o]) x = istep o (irun l x).
Proof. unfold irun. rewrite fold_left_app. reflexivity. Qed.
Lemma hv_var i0 i1 g o0 o1 (v : vpst T) : let r := fuseHorizontalVelocity i0 i1 g o0 o1 v in
  r_var0 r = cP (v_s v) 4 4 + o0 /\ r_var1 r = cP (v_s v) 5 5 + o1.
Proof. cbv zeta. unfold fuseHorizontalVelocity. destruct (sle _ _); split; reflexivity. Qed.
Lemma hp_var b i0 i1 g o0 o1 (v : vpst T) : let r := fuseHorizontalPosition b i0 i1 g o0 o1 v in
  r_var0 r = cP (v_s v) 7 7 + o0 /\ r_var1 r = cP (v_s v) 8 8 + o1.
Proof. cbv zeta. unfold fuseHorizontalPosition. destruct (_ || _); [destruct (_ && _)|]; split; reflexivity. Qed.
Lemma vv_var b i2 g o2 (v : vpst T) : r_var0 (fuseVerticalVelocity b i2 g o2 v) = cP (v_s v) 6 6 + o2.
Proof. unfold fuseVerticalVelocity. destruct (_ || _); reflexivity. Qed.
Lemma vp_var b i2 g o2 (v : vpst T) : r_var0 (fuseVerticalPosition b i2 g o2 v) = cP (v_s v) 9 9 + o2.
Proof. unfold fuseVerticalPosition. destruct (_ || _); reflexivity. Qed.

(** one operation, horizontal: measured, stopped or left alone *)
Lemma h_measured o (x : ist T) s i0 i1 g q0 q1 k : horizontal o s = Some (i0, i1, g, q0, q1, k) ->
  let r := st_r (istep o x) s in let P := cP (v_s (st_v x)) in
  ri r 0 = i0 /\ ri r 1 = i1 /\ rv r 0 = P k k + q0 /\ rv r 1 = P (k + 1)%nat (k + 1)%nat + q1 /\
  rh r = sfmax (test_ratio i0 g (rv r 0)) (test_ratio i1 g (rv r 1)).
Proof.
  intros H. destruct o; cbn [horizontal] in H; try discriminate;
    destruct (src_eqb s _) eqn:E in H; try discriminate; injection H as <- <- <- <- <- <-;
    cbn [istep setV st_r]; unfold upd; rewrite E; cbv zeta; cbn [ri rv rh xy zz Nat.add]; repeat split;
    first [apply hv_var|apply hp_var|apply hv_ratio|apply hp_ratio].
Qed.
Lemma h_stopped o (x : ist T) s : stops o s = true -> st_r (istep o x) s = rep0.
Proof. intros H. destruct o; try discriminate; destruct s; try discriminate; reflexivity. Qed.
Definition hpart (r : rep T) := (ri r 0, ri r 1, rv r 0, rv r 1, rh r).
Lemma h_alone o (x : ist T) s : horizontal o s = None -> stops o s = false -> hpart (st_r (istep o x) s) = hpart (st_r x s).
Proof.
  intros H K. destruct o; cbn [horizontal] in H; cbn [istep setV st_r]; unfold upd; try reflexivity.
  1-4: destruct (src_eqb s _); [discriminate|reflexivity].
  - destruct (src_eqb s (hrep h)) eqn:E; [|reflexivity]. destruct h, s; try discriminate; reflexivity.
  - destruct s; try discriminate; reflexivity.
  - destruct s; try discriminate; reflexivity.
Qed.
Lemma v_measured o (x : ist T) s i g : vertical o s = Some (i, g) ->
  let r := st_r (istep o x) s in ri r 2 = i /\ rz r = test_ratio i g (rv r 2).
Proof.
  intros H. destruct o; cbn [vertical] in H; try discriminate;
    destruct (src_eqb s _) eqn:E in H; try discriminate; injection H as <- <-;
    cbn [istep setV st_r]; unfold upd; rewrite E; cbv zeta; cbn [ri rv rz xy zz]; split; try reflexivity;
    first [apply vv_ratio|apply vp_ratio].
Qed.
Definition vpart (r : rep T) := (ri r 2, rv r 2, rz r).
Lemma v_alone o (x : ist T) s : s <> Aux -> vertical o s = None -> stops o s = false -> vpart (st_r (istep o x) s) = vpart (st_r x s).
Proof.
  intros A H K. destruct o; cbn [vertical] in H; cbn [istep setV st_r]; unfold upd; try reflexivity.
  - destruct (src_eqb s _); [discriminate|reflexivity].
  - destruct s; try reflexivity. congruence.
  - destruct (src_eqb s _) eqn:E; [|reflexivity]. destruct gps, s; try discriminate; reflexivity.
  - destruct s; reflexivity.
  - destruct (src_eqb s _); [discriminate|reflexivity].
  - destruct s; try discriminate; reflexivity.
  - destruct s; try discriminate; reflexivity.
Qed.

(** C99: after every history each source's reported horizontal innovation, variance and test ratio are those of one and
    the same measurement - the last one of that source (position hold counts as GPS position) - with the covariance
    of that moment; or all zero when nothing was measured since the start or the last stop. *)
Theorem C99_reports_last_horizontal_measurement : forall s l v, horizontal_report_of_last s l v.
Proof.
  intros s l v. induction l as [|o l IH] using rev_ind.
  - left. cbn. repeat split; try reflexivity. left. constructor.
  - unfold horizontal_report_of_last in *. rewrite irun_snoc. set (x := irun l (istart v)) in *. cbv zeta in *.
    destruct (horizontal o s) as [[[[[[i0 i1] g] q0] q1] k]|] eqn:E.
    + right. exists l, o, [], i0, i1, g, q0, q1, k. repeat split; auto; apply (h_measured o x s _ _ _ _ _ _ E).
    + destruct (stops o s) eqn:K.
      * left. rewrite (h_stopped o x s K). cbn. repeat split. right. exists l, o, []. repeat split; auto.
      * pose proof (h_alone o x s E K) as H. unfold hpart in H. injection H as -> -> -> -> ->.
        destruct IH as [(a & b & c & d & e & F)|(l1 & m & l2 & i0 & i1 & g & q0 & q1 & k & F & G & H & R)].
        -- left. repeat split; auto. destruct F as [F|(l1 & m & l2 & F & G & H)].
           ++ left. apply Forall_app. split; auto. constructor; auto. rewrite E. reflexivity.
           ++ right. exists l1, m, (l2 ++ [o]). subst l. rewrite <- app_assoc. repeat split; auto.
              apply Forall_app. split; auto. constructor; auto. rewrite E. reflexivity.
        -- right. exists l1, m, (l2 ++ [o]), i0, i1, g, q0, q1, k. split; [rewrite F, <- app_assoc; reflexivity|].
           split; [exact G|]. split; [|exact R]. apply Forall_app. split; auto. constructor; auto. rewrite E. auto.
Qed.
(** ... and likewise the vertical one (the auxiliary velocity has none) *)
Theorem C99_reports_last_vertical_measurement : forall s l v, s <> Aux -> vertical_report_of_last s l v.
Proof.
  intros s l v A. induction l as [|o l IH] using rev_ind.
  - left. cbn. repeat split; try reflexivity. left. constructor.
  - unfold vertical_report_of_last in *. rewrite irun_snoc. set (x := irun l (istart v)) in *. cbv zeta in *.
    destruct (vertical o s) as [[i g]|] eqn:E.
    + right. exists l, o, [], i, g. repeat split; auto; apply (v_measured o x s _ _ E).
    + destruct (stops o s) eqn:K.
      * left. rewrite (h_stopped o x s K). cbn. repeat split. right. exists l, o, []. repeat split; auto.
      * pose proof (v_alone o x s A E K) as H. unfold vpart in H. injection H as -> -> ->.
        destruct IH as [(a & b & c & F)|(l1 & m & l2 & i & g & F & G & H & R)].
        -- left. repeat split; auto. destruct F as [F|(l1 & m & l2 & F & G & H)].
           ++ left. apply Forall_app. split; auto. constructor; auto. rewrite E. reflexivity.
           ++ right. exists l1, m, (l2 ++ [o]). subst l. rewrite <- app_assoc. repeat split; auto.
              apply Forall_app. split; auto. constructor; auto. rewrite E. reflexivity.
        -- right. exists l1, m, (l2 ++ [o]), i, g. split; [rewrite F, <- app_assoc; reflexivity|].
           split; [exact G|]. split; [|exact R]. apply Forall_app. split; auto. constructor; auto. rewrite E. auto.
Qed.
(** the vertical variances at the moment of the measurement *)
Theorem C99_vertical_variance : forall (x : ist T) h bad i gate q, 
  rv (st_r (istep (IHgt h bad i gate q) x) (hrep h)) 2 = cP (v_s (st_v x)) 9 9 + q.
Proof. intros. cbn [istep setV st_r]. unfold upd. destruct h; cbn [src_eqb hrep rv zz]; apply vp_var. Qed.

(** ** Where the reports mislead *)
(** position hold overwrites whatever the GPS position report said *)
Theorem C99_position_hold_reported_as_gps : forall (x : ist T) i0 i1 q,
  let r := st_r (istep (ISynth i0 i1 q) x) GpsPos in
  ri r 0 = i0 /\ ri r 1 = i1 /\ rv r 0 = cP (v_s (st_v x)) 7 7 + q /\ rv r 1 = cP (v_s (st_v x)) 8 8 + q.
Proof.
  intros x i0 i1 q. destruct (h_measured (ISynth i0 i1 q) x GpsPos i0 i1 (slit 3 1) q q 7 eq_refl) as (A & B & C & D & _).
  cbv zeta in *. auto.
Qed.
(** the auxiliary velocity report is never cleared: whatever else happens it stays what the last sample left *)
Theorem C99_auxiliary_report_never_cleared : forall l (x : ist T),
  Forall (fun o => match o with IAux _ _ _ => False | _ => True end) l -> st_r (irun l x) Aux = st_r x Aux.
Proof.
  induction l as [|o l IH]; intros x H; [reflexivity|]. inversion_clear H. cbn. fold (irun l (istep o x)). rewrite IH by auto.
  destruct o; try contradiction; try reflexivity; cbn [istep setV st_r]; unfold upd; repeat (match goal with |- context [if ?b then _ else _] => is_var b; destruct b end); try reflexivity.
  destruct h; reflexivity.
Qed.
(** heading rejected in the air: the previous innovation next to the new variance and ratio *)
Theorem C99_rejected_heading_keeps_old_innovation : forall (x : ist T) i var gate,
  sgt (test_ratio i gate var) (slit 1 1) = true ->
  let y := istep (IHeading false i var gate) x in
  hd_i y = hd_i x /\ hd_v y = var /\ hd_r y = test_ratio i gate var.
Proof. intros x i var gate H. cbv zeta. cbn [istep hd_i hd_v hd_r]. unfold test_ratio, sq in *. rewrite H. auto. Qed.
(** terrain estimation from flow writes the flow innovations but never the flow ratio: after flow was stopped the ratio
    stays zero whatever the innovations *)
Theorem C99_terrain_flow_has_no_ratio : forall l (x : ist T), 
  Forall (fun o => match o with IFlow _ _ _ => False | _ => True end) l -> fl_r x = szero -> fl_r (irun l x) = szero.
Proof.
  induction l as [|o l IH]; intros x H Z; [exact Z|]. inversion_clear H. cbn. fold (irun l (istep o x)). apply IH; auto.
  destruct o; try contradiction; try exact Z; reflexivity.
Qed.
Theorem C99_terrain_flow_innovation_reported : forall (x : ist T) i w, 
  fl_i (istep (ITerrain i w) x) = i /\ fl_v (istep (ITerrain i w) x) = w.
Proof. intros. split; reflexivity. Qed.
End G.

(** ** Exact arithmetic *)
Open Scope R_scope.
Lemma slitR n d : (slit n d : R) = IZR n / IZR d. Proof. reflexivity. Qed.
Lemma sgt_true (a b : R) : b < a -> sgt a b = true. Proof. intros. unfold sgt. cbn. destruct (Rlt_dec b a); [reflexivity|lra]. Qed.
Lemma sgt_false (a b : R) : a <= b -> sgt a b = false. Proof. intros. unfold sgt. cbn. destruct (Rlt_dec b a); [lra|reflexivity]. Qed.
(** a passing heading is reported consistently; a rejected one in the air need not be: the ratio of the reported
    innovation and variance with the gate in force is not the reported ratio *)
Theorem C99_heading_accepted_consistent : forall (x : ist R) ground i var gate, test_ratio i gate var <= 1 ->
  let y := istep (IHeading ground i var gate) x in hd_r y = test_ratio (hd_i y) gate (hd_v y).
Proof.
  intros x ground i var gate H. cbv zeta. cbn [istep hd_i hd_v hd_r]. unfold test_ratio, sq in *.
  assert (E : sgt (i * i / (gate * gate * var))%scal (slit 1 1) = false) by (apply sgt_false; rewrite slitR; lra).
  rewrite E. reflexivity.
Qed.
Theorem C99_heading_report_inconsistent : forall v : vpst R,
  let y := irun [IHeading false 0 1 1; IHeading false 2 1 1] (istart v) in
  hd_i y = 0 /\ hd_v y = 1 /\ hd_r y = 4.
Proof.
  intros v. cbv zeta. unfold irun. cbn [fold_left].
  set (x := istep (IHeading false 0 1 1) (istart v)).
  assert (X : hd_i x = 0). { unfold x. cbn [istep hd_i istart]. destruct (sgt _ _); [unfold szero; rewrite slitR; lra|reflexivity]. }
  assert (E : @test_ratio R _ 2 1 1 = 4) by (unfold test_ratio; cbn; field).
  destruct (C99_rejected_heading_keeps_old_innovation x 2 1 1) as (A & B & C).
  - rewrite E. apply sgt_true. rewrite slitR. lra.
  - cbv zeta in *. rewrite A, B, C. auto.
Qed.
(** witness: the first alternative is not the only one *)
Example C99_ex : forall v : vpst R, cP (v_s v) 7%nat 7%nat = 1 -> cP (v_s v) 8%nat 8%nat = 1 ->
  let r := st_r (irun [IPos true 2 0 1 3 3; IHgt HBaro false 5 3 4] (istart v)) GpsPos in ri r 0%nat = 2 /\ rv r 0%nat = 4 /\ rv r 1%nat = 4.
Proof.
  intros v A B. cbv zeta. unfold irun. cbn [fold_left].
  set (y := istep (IPos true 2 0 1 3 3) (istart v)). change (st_r (istep (IHgt HBaro false 5 3 4) y) GpsPos) with (st_r y GpsPos). unfold y.
  destruct (h_measured (IPos true 2 0 1 3 3) (istart v) GpsPos _ _ _ _ _ _ eq_refl) as (C & _ & D & E & _).
  cbv zeta in *. cbn [Nat.add] in E. rewrite C, D, E. cbn [st_v istart]. rewrite A, B. cbn. lra.
Qed.
Print Assumptions C99_reports_last_horizontal_measurement.
Print Assumptions C99_reports_last_vertical_measurement.
Print Assumptions C99_heading_report_inconsistent.

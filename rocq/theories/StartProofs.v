(** * Start-up: when it completes, and with what *)
From Coq Require Import Reals Lra Psatz ZArith List Lia Bool.
From Verif Require Import RealGeom RotModel RotProofs PredictModel PredictProofs.
Import ListNotations.
Open Scope R_scope.

(** ** Specification: what the history of updates delivers *)
Definition usable (i : startin) : bool :=
  if Rle_dec (1 / 10000) (pi_dvdt (st_imu i)) then if Rle_dec (1 / 10000) (pi_dadt (st_imu i)) then true else false else false.
Definition accels (l : list startin) : list V3 := map (fun i => vscale (/ pi_dvdt (st_imu i)) (pi_dv (st_imu i))) (filter usable l).
Definition gyros (l : list startin) : list V3 := map (fun i => vscale (/ pi_dadt (st_imu i)) (pi_da (st_imu i))) (filter usable l).
Definition stamped {A} (o : option (Z * A)) : list A := match o with Some (t, a) => if (t =? 0)%Z then [] else [a] | None => [] end.
Definition mags (l : list startin) : list V3 := flat_map (fun i => stamped (st_mag i)) (filter usable l).
Definition baros (l : list startin) : list R := flat_map (fun i => stamped (st_baro i)) (filter usable l).
(** first sample, then 0.9 old + 0.1 new *)
Definition smooth (l : list V3) : V3 := match l with [] => vzero | x :: r => fold_left (fun m u => vadd (vscale (9 / 10) m) (vscale (1 / 10) u)) r x end.
Definition rsmooth (l : list R) : R := match l with [] => 0 | x :: r => fold_left (fun m u => 9 / 10 * m + 1 / 10 * u) r x end.
(** enough magnetometer samples (if needed), enough barometer samples, not accelerating, not turning *)
Definition ready (use_mag : bool) (n : Z) (l : list startin) : Prop :=
  (use_mag = true -> (n <= Z.of_nat (length (mags l)))%Z) /\ (n <= Z.of_nat (length (baros l)))%Z /\
  8 / 10 * gravity <= vnorm (smooth (accels l)) <= 12 / 10 * gravity /\ vnorm (smooth (gyros l)) <= 15 * PI / 180.

(** ** Proofs *)
Lemma smooth_snoc l u : smooth (l ++ [u]) = if match l with [] => true | _ => false end then u else vadd (vscale (9 / 10) (smooth l)) (vscale (1 / 10) u).
Proof. destruct l as [|x r]; [reflexivity|]. cbn [app smooth]. rewrite fold_left_app. reflexivity. Qed.
Lemma rsmooth_snoc l u : rsmooth (l ++ [u]) = if match l with [] => true | _ => false end then u else 9 / 10 * rsmooth l + 1 / 10 * u.
Proof. destruct l as [|x r]; [reflexivity|]. cbn [app rsmooth]. rewrite fold_left_app. reflexivity. Qed.
Definition nil_b {A} (l : list A) : bool := match l with [] => true | _ => false end.
Definition stOf (l : list startin) : startst :=
  StartSt (nil_b (filter usable l)) (smooth (accels l)) (smooth (gyros l)) (smooth (mags l)) (Z.of_nat (length (mags l))) (Z.of_nat (length (baros l))) (rsmooth (baros l)).
Lemma len_flat {A} (f : startin -> option (Z * A)) l : (length (flat_map (fun i => stamped (f i)) (filter usable l)) <= length l)%nat.
Proof.
  induction l as [|i l IH]; cbn [filter flat_map length]; [lia|]. destruct (usable i); cbn [flat_map]; [|lia]. rewrite app_length. unfold stamped at 1. destruct (f i) as [[t a]|]; [destruct (t =? 0)%Z|]; cbn [length]; lia.
Qed.
Lemma zlen_nil {A} (l : list A) : (Z.of_nat (length l) =? 0)%Z = nil_b l.
Proof. destruct l; cbn [length nil_b]; [reflexivity|]. apply Z.eqb_neq. lia. Qed.
Lemma usable_false i : usable i = false -> pi_dvdt (st_imu i) < 1 / 10000 \/ pi_dadt (st_imu i) < 1 / 10000.
Proof. unfold usable. destruct (Rle_dec _ _); [|lra]. destruct (Rle_dec _ _); [discriminate|lra]. Qed.
Lemma usable_true i : usable i = true -> 1 / 10000 <= pi_dvdt (st_imu i) /\ 1 / 10000 <= pi_dadt (st_imu i).
Proof. unfold usable. destruct (Rle_dec _ _); [|discriminate]. destruct (Rle_dec _ _); [lra|discriminate]. Qed.

Lemma step_unusable um n i s : usable i = false -> startStep um n i s = (s, None).
Proof.
  intros U. apply usable_false in U. unfold startStep. destruct (Rlt_dec _ _); [reflexivity|]. destruct (Rlt_dec (pi_dadt _) _); [reflexivity|]. lra.
Qed.
Lemma filter_snoc (l : list startin) i : filter usable (l ++ [i]) = filter usable l ++ (if usable i then [i] else []).
Proof. rewrite filter_app. cbn [filter]. destruct (usable i); reflexivity. Qed.
Lemma stOf_unusable l i : usable i = false -> stOf (l ++ [i]) = stOf l.
Proof. intros U. unfold stOf, accels, gyros, mags, baros. rewrite filter_snoc, U, app_nil_r. reflexivity. Qed.
(** the readiness test the code performs on the state *)
Definition readyb (um : bool) (n : Z) (s : startst) : bool :=
  negb (um && (u_magc s <? n)%Z) && negb (u_baroc s <? n)%Z && tiltOk s.
Lemma readyb_ready um n l : readyb um n (stOf l) = true <-> ready um n l.
Proof.
  unfold readyb, ready, stOf, tiltOk. cbn [u_magc u_baroc u_acc u_gyr].
  set (a := vnorm (smooth (accels l))). set (g := vnorm (smooth (gyros l))).
  split.
  - intros H. apply andb_prop in H. destruct H as (H & T). apply andb_prop in H. destruct H as (M & B).
    destruct (Rlt_dec a _) as [|A1]; [discriminate|]. destruct (Rlt_dec _ a) as [|A2]; [discriminate|]. destruct (Rlt_dec _ g) as [|G]; [discriminate|].
    apply negb_true_iff in M. apply negb_true_iff in B. apply Z.ltb_ge in B.
    split; [intros ->; cbn [andb] in M; apply Z.ltb_ge in M; exact M|]. split; [exact B|]. split; lra.
  - intros (M & B & A & G). destruct (Rlt_dec a _); [lra|]. destruct (Rlt_dec _ a); [lra|]. destruct (Rlt_dec _ g); [lra|].
    apply Z.ltb_ge in B. rewrite B. destruct um; [|reflexivity]. specialize (M eq_refl). apply Z.ltb_ge in M. rewrite M. reflexivity.
Qed.
Lemma step_usable um n l i : usable i = true -> (Z.of_nat (length (l ++ [i])) < 2 ^ 32)%Z ->
  startStep um n i (stOf l) = (stOf (l ++ [i]), if readyb um n (stOf (l ++ [i])) then Some (tiltQuat (smooth (accels (l ++ [i])))) else None).
Proof.
  intros U LEN. pose proof (usable_true i U) as (D1 & D2). rewrite app_length in LEN. cbn [length] in LEN.
  unfold startStep. destruct (Rlt_dec _ _) as [X|_]; [lra|]. destruct (Rlt_dec _ _) as [X|_]; [lra|].
  set (a := vscale (/ pi_dvdt (st_imu i)) _). set (w := vscale (/ pi_dadt (st_imu i)) _).
  assert (EA : accels (l ++ [i]) = accels l ++ [a]) by (unfold accels; rewrite filter_snoc, U, map_app; reflexivity).
  assert (EG : gyros (l ++ [i]) = gyros l ++ [w]) by (unfold gyros; rewrite filter_snoc, U, map_app; reflexivity).
  assert (EM : mags (l ++ [i]) = mags l ++ stamped (st_mag i)) by (unfold mags; rewrite filter_snoc, U, flat_map_app; cbn [flat_map]; rewrite app_nil_r; reflexivity).
  assert (EB : baros (l ++ [i]) = baros l ++ stamped (st_baro i)) by (unfold baros; rewrite filter_snoc, U, flat_map_app; cbn [flat_map]; rewrite app_nil_r; reflexivity).
  assert (NA : match accels l with [] => true | _ => false end = nil_b (filter usable l)) by (unfold accels; destruct (filter usable l); reflexivity).
  assert (NG : match gyros l with [] => true | _ => false end = nil_b (filter usable l)) by (unfold gyros; destruct (filter usable l); reflexivity).
  assert (NF : nil_b (filter usable (l ++ [i])) = false) by (rewrite filter_snoc, U; destruct (filter usable l); reflexivity).
  pose proof (len_flat st_mag l) as LM. fold (mags l) in LM. pose proof (len_flat st_baro l) as LB. fold (baros l) in LB.
  assert (ST : forall x y, x = y -> (x, if readyb um n x then Some (tiltQuat (u_acc x)) else None) = (y, if readyb um n y then Some (tiltQuat (u_acc y)) else None)) by (intros x y ->; reflexivity).
  assert (SP : stOf (l ++ [i]) = StartSt false (if u_first (stOf l) then a else lpf (u_acc (stOf l)) a) (if u_first (stOf l) then w else lpf (u_gyr (stOf l)) w)
     (fst (match st_mag i with Some (t, b) => if (t =? 0)%Z then (u_mag (stOf l), u_magc (stOf l)) else (if (u_magc (stOf l) =? 0)%Z then b else lpf (u_mag (stOf l)) b, ((u_magc (stOf l) + 1) mod 2 ^ 32)%Z) | None => (u_mag (stOf l), u_magc (stOf l)) end))
     (snd (match st_mag i with Some (t, b) => if (t =? 0)%Z then (u_mag (stOf l), u_magc (stOf l)) else (if (u_magc (stOf l) =? 0)%Z then b else lpf (u_mag (stOf l)) b, ((u_magc (stOf l) + 1) mod 2 ^ 32)%Z) | None => (u_mag (stOf l), u_magc (stOf l)) end))
     (snd (match st_baro i with Some (t, h) => if (t =? 0)%Z then (u_off (stOf l), u_baroc (stOf l)) else (if (u_baroc (stOf l) =? 0)%Z then h else 9 / 10 * u_off (stOf l) + 1 / 10 * h, ((u_baroc (stOf l) + 1) mod 2 ^ 32)%Z) | None => (u_off (stOf l), u_baroc (stOf l)) end))
     (fst (match st_baro i with Some (t, h) => if (t =? 0)%Z then (u_off (stOf l), u_baroc (stOf l)) else (if (u_baroc (stOf l) =? 0)%Z then h else 9 / 10 * u_off (stOf l) + 1 / 10 * h, ((u_baroc (stOf l) + 1) mod 2 ^ 32)%Z) | None => (u_off (stOf l), u_baroc (stOf l)) end))).
  { unfold stOf at 1. rewrite NF, EA, EG, EM, EB, !smooth_snoc, NA, NG.
    assert (QM : smooth (mags l ++ stamped (st_mag i)) = fst (match st_mag i with Some (t, b) => if (t =? 0)%Z then (u_mag (stOf l), u_magc (stOf l)) else (if (u_magc (stOf l) =? 0)%Z then b else lpf (u_mag (stOf l)) b, ((u_magc (stOf l) + 1) mod 2 ^ 32)%Z) | None => (u_mag (stOf l), u_magc (stOf l)) end)
         /\ Z.of_nat (length (mags l ++ stamped (st_mag i))) = snd (match st_mag i with Some (t, b) => if (t =? 0)%Z then (u_mag (stOf l), u_magc (stOf l)) else (if (u_magc (stOf l) =? 0)%Z then b else lpf (u_mag (stOf l)) b, ((u_magc (stOf l) + 1) mod 2 ^ 32)%Z) | None => (u_mag (stOf l), u_magc (stOf l)) end)).
    { unfold stOf. cbn [u_mag u_magc]. destruct (st_mag i) as [[t b]|]; cbn [stamped]; [destruct (t =? 0)%Z|]; rewrite ?app_nil_r; cbn [fst snd]; [split; reflexivity| |split; reflexivity].
      rewrite smooth_snoc, zlen_nil. split; [unfold nil_b; destruct (mags l); reflexivity|]. rewrite app_length. cbn [length]. rewrite Z.mod_small by lia. lia. }
    assert (QB : rsmooth (baros l ++ stamped (st_baro i)) = fst (match st_baro i with Some (t, h) => if (t =? 0)%Z then (u_off (stOf l), u_baroc (stOf l)) else (if (u_baroc (stOf l) =? 0)%Z then h else 9 / 10 * u_off (stOf l) + 1 / 10 * h, ((u_baroc (stOf l) + 1) mod 2 ^ 32)%Z) | None => (u_off (stOf l), u_baroc (stOf l)) end)
         /\ Z.of_nat (length (baros l ++ stamped (st_baro i))) = snd (match st_baro i with Some (t, h) => if (t =? 0)%Z then (u_off (stOf l), u_baroc (stOf l)) else (if (u_baroc (stOf l) =? 0)%Z then h else 9 / 10 * u_off (stOf l) + 1 / 10 * h, ((u_baroc (stOf l) + 1) mod 2 ^ 32)%Z) | None => (u_off (stOf l), u_baroc (stOf l)) end)).
    { unfold stOf. cbn [u_off u_baroc]. destruct (st_baro i) as [[t b]|]; cbn [stamped]; [destruct (t =? 0)%Z|]; rewrite ?app_nil_r; cbn [fst snd]; [split; reflexivity| |split; reflexivity].
      rewrite rsmooth_snoc, zlen_nil. split; [unfold nil_b; destruct (baros l); reflexivity|]. rewrite app_length. cbn [length]. rewrite Z.mod_small by lia. lia. }
    destruct QM as (-> & ->), QB as (-> & ->). reflexivity. }
  replace (Some (tiltQuat (smooth (accels (l ++ [i]))))) with (Some (tiltQuat (u_acc (stOf (l ++ [i]))))) by reflexivity.
  rewrite SP. clear SP ST EA EG EM EB NA NG NF LM LB.
  destruct (match st_mag i with Some _ => _ | None => _ end) as [mg mc]. destruct (match st_baro i with Some _ => _ | None => _ end) as [of bc]. cbn [fst snd].
  unfold readyb. cbn [u_magc u_baroc]. destruct (um && (mc <? n)%Z); [reflexivity|]. destruct (bc <? n)%Z; [reflexivity|]. cbn [negb andb].
  destruct (tiltOk _); reflexivity.
Qed.
Lemma run_spec um n : forall l pre q s, (Z.of_nat (length (pre ++ l)) < 2 ^ 32)%Z ->
  startRun um n l (stOf pre) = (s, Some q) <->
  exists a i b, l = a ++ i :: b /\ usable i = true /\ ready um n (pre ++ a ++ [i]) /\
    (forall a' i' b', a = a' ++ i' :: b' -> usable i' = true -> ~ ready um n (pre ++ a' ++ [i'])) /\
    s = stOf (pre ++ a ++ [i]) /\ q = tiltQuat (smooth (accels (pre ++ a ++ [i]))).
Proof.
  induction l as [|x l IH]; intros pre q s LEN.
  - cbn [startRun]. split; [discriminate|]. intros (a & i & b & E & _). destruct a; discriminate E.
  - assert (L1 : (Z.of_nat (length (pre ++ [x])) < 2 ^ 32)%Z) by (rewrite app_length in *; cbn [length] in *; lia).
    assert (L2 : (Z.of_nat (length ((pre ++ [x]) ++ l)) < 2 ^ 32)%Z) by (rewrite <- app_assoc; exact LEN).
    cbn [startRun].
    assert (GO : (usable x = true -> ~ ready um n (pre ++ [x])) ->
       (startRun um n l (stOf (pre ++ [x])) = (s, Some q) <-> exists a i b, x :: l = a ++ i :: b /\ usable i = true /\ ready um n (pre ++ a ++ [i]) /\
    (forall a' i' b', a = a' ++ i' :: b' -> usable i' = true -> ~ ready um n (pre ++ a' ++ [i'])) /\
    s = stOf (pre ++ a ++ [i]) /\ q = tiltQuat (smooth (accels (pre ++ a ++ [i]))))).
    { intros NR. rewrite (IH (pre ++ [x]) q s L2). split.
      - intros (a & i & b & E & U & R & F & S1 & Q1). exists (x :: a), i, b. rewrite <- !app_assoc in *. cbn [app] in *.
        split; [rewrite E; reflexivity|]. split; [exact U|]. split; [exact R|]. split; [|auto].
        intros a' i' b' E' U'. destruct a' as [|y a']; cbn [app] in E'; injection E' as -> E'; [subst; apply NR; exact U'|]. specialize (F a' i' b' E' U'). rewrite <- app_assoc in F. exact F.
      - intros (a & i & b & E & U & R & F & S1 & Q1). destruct a as [|y a]; cbn [app] in E; injection E as -> E; [exfalso; exact (NR U R)|].
        exists a, i, b. rewrite <- !app_assoc. cbn [app] in *. split; [exact E|]. split; [exact U|]. split; [exact R|]. split; [|auto].
        intros a' i' b' E' U'. rewrite <- app_assoc. cbn [app]. apply (F (y :: a') i' b'); [rewrite E'; reflexivity|exact U']. }
    destruct (usable x) eqn:U.
    + rewrite (step_usable um n pre x U L1). destruct (readyb um n (stOf (pre ++ [x]))) eqn:RB.
      * apply readyb_ready in RB. split.
        -- intros E. injection E as <- <-. exists [], x, l. split; [reflexivity|]. split; [exact U|]. split; [exact RB|]. split; [|auto]. intros a' i' b' E. destruct a'; discriminate E.
        -- intros (a & i & b & E & U' & R & F & S1 & Q1). destruct a as [|y a]; cbn [app] in E; injection E as -> E; [subst; reflexivity|]. exfalso. apply (F [] y a eq_refl U RB).
      * apply GO. intros _ R. apply readyb_ready in R. congruence.
    + rewrite (step_unusable um n x _ U). rewrite <- (stOf_unusable pre x U). apply GO. congruence.
Qed.
Lemma start0_stOf : start0 = stOf []. Proof. reflexivity. Qed.
(** the smoothed value stays between bounds of the samples *)
Lemma rsmooth_hull lo hi l : l <> [] -> (forall h, In h l -> lo <= h <= hi) -> lo <= rsmooth l <= hi.
Proof.
  induction l as [|u l IH] using rev_ind; intros N H; [contradiction|]. rewrite rsmooth_snoc. assert (U : lo <= u <= hi) by (apply H, in_or_app; right; left; reflexivity).
  destruct l as [|x l]; [exact U|]. specialize (IH ltac:(discriminate) (fun h J => H h (in_or_app _ _ _ (or_introl J)))). lra.
Qed.
Lemma smooth_const a l : l <> [] -> (forall u, In u l -> u = a) -> smooth l = a.
Proof.
  induction l as [|u l IH] using rev_ind; intros N H; [contradiction|]. rewrite smooth_snoc. assert (U : u = a) by (apply H, in_or_app; right; left; reflexivity). subst u.
  destruct l as [|x l]; [reflexivity|]. rewrite (IH ltac:(discriminate) (fun h J => H h (in_or_app _ _ _ (or_introl J)))). destruct a as [a1 a2 a3]. unfold vadd, vscale. cbn [vx vy vz]. f_equal; field.
Qed.

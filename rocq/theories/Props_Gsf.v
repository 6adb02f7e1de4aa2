(** * Properties C34, C57, C58: the emergency yaw estimator (EKFGSF_yaw) *)
From Coq Require Import Reals Lra Lia Bool List Arith ZArith.
From Coquelicot Require Import Coquelicot.
From Verif Require Import CBase F32 Scalar RealGeom RotModel GeoModel GeoProofs RotProofs GsfModel GsfProofs1 GsfProofs2 GsfProofs3 GsfProofs4 GsfFloat.
Import ListNotations.
Open Scope R_scope.

(** ** Specification *)
(** sum over the five filters *)
Definition S5 (f : nat -> R) : R := f 0%nat + f 1%nat + f 2%nat + f 3%nat + f 4%nat.
(** bivariate normal density (with the code's 9-digit 1/(2 pi)) of innovation (n0, n1) under covariance [s00 s01; s01 s11] *)
Definition normal2 (s00 s01 s11 n0 n1 : R) : R :=
  let det := s00 * s11 - s01 * s01 in
  159154943 / 1000000000 * / sqrt det * exp (- (1 / 2) * ((n0 * n0 * s11 - 2 * n0 * n1 * s01 + n1 * n1 * s00) / det)).
(** variance of a velocity measurement of accuracy acc *)
Definition measVar (acc : R) : R := Rmax acc (1 / 2) * Rmax acc (1 / 2).
Lemma sum5_S5 f : sum5 f = S5 f. Proof. unfold sum5, S5. ring. Qed.

(** ** C34: weights and composite output *)
(** after every history, whenever an estimate is reported: the weights are a probability distribution, the composite yaw
    is the direction of the weighted sum of the unit vectors of the filters' yaws, and the variance is the weighted mean of
    the filters' yaw variances (each at least 1e-6) and squared deviations from the composite, taken the short way round *)
Theorem C34_reported_estimate : forall l yaw var f, getLogData (grun l) = Some (yaw, var, f) ->
  let psi k := fst (fst (fst (f k))) in let w k := snd (f k) in
  getYawData (grun l) = Some (yaw, var) /\
  (forall k, (k < 5)%nat -> 0 < w k) /\ S5 w = 1 /\
  - PI < yaw <= PI /\
  (exists rho, 0 <= rho /\ S5 (fun k => w k * cos (psi k)) = rho * cos yaw /\ S5 (fun k => w k * sin (psi k)) = rho * sin yaw) /\
  (exists d v, var = S5 (fun k => w k * (v k + d k * d k)) /\ 1 / 1000000 + S5 (fun k => w k * (d k * d k)) <= var /\
    forall k, (k < 5)%nat -> v k = b_P (g_bank (grun l) k) 2%nat 2%nat /\ 1 / 1000000 <= v k /\ Rabs (d k) <= PI /\ cos (d k) = cos (psi k - yaw) /\ sin (d k) = sin (psi k - yaw)).
Proof.
  intros l yaw var f H. unfold getLogData in H. destruct (g_started (grun l)) eqn:S; [|discriminate].
  assert (E1 : g_yaw (grun l) = yaw) by congruence. assert (E2 : g_var (grun l) = var) by congruence. injection H as _ _ <-. cbn [fst snd]. cbv zeta.
  destruct (started_ok l S) as [B W]. destruct (grun_composed l S) as (_ & CY & CV). cbn [composite g_yaw g_var] in CY, CV.
  split; [unfold getYawData; rewrite S, E1, E2; reflexivity|]. destruct W as [WP WS]. split; [exact WP|]. split; [rewrite <- sum5_S5; exact WS|].
  split; [rewrite <- E1, <- CY; apply atan2_range|]. split.
  - rewrite <- E1, <- CY. rewrite <- !sum5_S5. apply atan2_dir.
  - rewrite CY in CV. rewrite E1, E2 in CV. exists (fun k => wrap_pi (vz (b_X (g_bank (grun l) k)) - yaw)), (fun k => b_P (g_bank (grun l) k) 2%nat 2%nat).
    rewrite <- !sum5_S5. split; [symmetry; exact CV|]. split.
    + rewrite <- CV. pose proof (sum5_ge (g_w (grun l)) (fun k => b_P (g_bank (grun l) k) 2%nat 2%nat) (1 / 1000000) (conj WP WS) ltac:(intros k Hk; apply (B k Hk))) as G. unfold sum5 in *. lra.
    + intros k Hk. split; [reflexivity|]. split; [apply (B k Hk)|]. pose proof (wrap_pi_range (vz (b_X (g_bank (grun l) k)) - yaw)) as R. split; [apply Rabs_le; lra|apply wrap_pi_trig].
Qed.
(** filters that agree: the composite is their common yaw *)
Theorem C34_agreeing_filters : forall l yaw var f a, getLogData (grun l) = Some (yaw, var, f) ->
  (forall k, (k < 5)%nat -> cos (fst (fst (fst (f k)))) = cos a /\ sin (fst (fst (fst (f k)))) = sin a) -> cos yaw = cos a /\ sin yaw = sin a.
Proof.
  intros l yaw var f a H A. destruct (C34_reported_estimate l yaw var f H) as (_ & _ & W & _ & (rho & R0 & C & S) & _). cbv zeta in *. unfold S5 in *.
  rewrite (proj1 (A 0%nat ltac:(lia))), (proj1 (A 1%nat ltac:(lia))), (proj1 (A 2%nat ltac:(lia))), (proj1 (A 3%nat ltac:(lia))), (proj1 (A 4%nat ltac:(lia))) in C.
  rewrite (proj2 (A 0%nat ltac:(lia))), (proj2 (A 1%nat ltac:(lia))), (proj2 (A 2%nat ltac:(lia))), (proj2 (A 3%nat ltac:(lia))), (proj2 (A 4%nat ltac:(lia))) in S.
  assert (C' : cos a = rho * cos yaw). { rewrite <- C. transitivity ((snd (f 0%nat) + snd (f 1%nat) + snd (f 2%nat) + snd (f 3%nat) + snd (f 4%nat)) * cos a); [rewrite W; ring|ring]. }
  assert (S' : sin a = rho * sin yaw). { rewrite <- S. transitivity ((snd (f 0%nat) + snd (f 1%nat) + snd (f 2%nat) + snd (f 3%nat) + snd (f 4%nat)) * sin a); [rewrite W; ring|ring]. }
  pose proof (sc a) as T1. pose proof (sc yaw) as T2. assert (rho * rho = 1). { rewrite C', S' in T1. transitivity (rho * rho * (sin yaw * sin yaw + cos yaw * cos yaw)); [rewrite T2; ring|]. rewrite <- T1. ring. }
  assert (rho = 1) by nra. subst rho. lra.
Qed.
(** a velocity measurement multiplies each weight by the likelihood of its filter's innovation, floors it at 1e-5 and
    normalises; if all fall below the floor the estimator stops reporting and starts over *)
Theorem C34_weight_update : forall l i, let g := grun l in
  g_started g = true -> g_velup g = true -> i_run i = true ->
  let like k := let b := predicted i g k in let r := measVar (g_acc g) in
    normal2 (b_P b 0%nat 0%nat + r) (b_P b 0%nat 1%nat) (b_P b 1%nat 1%nat + r) (vx (b_X b) - g_vn g) (vy (b_X b) - g_ve g) in
  let raw k := like k * g_w g k in
  (forall k, (k < 5)%nat -> 0 < like k <= 1) /\
  ((exists k, (k < 5)%nat /\ 1 / 100000 <= raw k) -> g_started (update i g) = true /\
    forall k, (k < 5)%nat -> g_w (update i g) k = Rmax (1 / 100000) (raw k) / S5 (fun k => Rmax (1 / 100000) (raw k))) /\
  ((forall k, (k < 5)%nat -> raw k < 1 / 100000) -> getYawData (update i g) = None /\ getLogData (update i g) = None /\ forall k, g_w (update i g) k = 1 / 5).
Proof.
  intros l i g St Vu Ru. destruct (grun_composed l St) as (T & _). destruct (started_ok l St) as [B W]. fold g in T, B, W.
  set (gp := predictAll i (filterAccel i g)). assert (IP : inv gp) by (apply predictAll_inv; [exact T|apply (grun_inv l)]). assert (TP : g_tilt gp = true) by exact T.
  assert (BP : forall k, (k < 5)%nat -> okBank (predicted i g k)). { intros k Hk. unfold inv in IP. rewrite TP in IP. apply (proj1 IP k Hk). }
  assert (DL : forall k, (k < 5)%nat -> gaussianDensity (fst (updateEKF (g_vn g) (g_ve g) (g_acc g) (predicted i g k))) = normal2 (b_P (predicted i g k) 0%nat 0%nat + measVar (g_acc g)) (b_P (predicted i g k) 0%nat 1%nat) (b_P (predicted i g k) 1%nat 1%nat + measVar (g_acc g)) (vx (b_X (predicted i g k)) - g_vn g) (vy (b_X (predicted i g k)) - g_ve g)).
  { intros k Hk. rewrite (density_S _ _ _ _ (BP k Hk)). reflexivity. }
  cbv zeta. set (like := fun k => normal2 _ _ _ _ _) in *.
  assert (UE : update i g = clearVel (composite (match weigh (fun k => gaussianDensity (fst (updateEKF (g_vn g) (g_ve g) (g_acc g) (predicted i g k)))) (g_w g) with Some w => setW w (setBank (fun k => fst (updateEKF (g_vn g) (g_ve g) (g_acc g) (predicted i g k))) gp) | None => initialiseEKFGSF (setBank (fun k => fst (updateEKF (g_vn g) (g_ve g) (g_acc g) (predicted i g k))) gp) end))).
  { rewrite (update_aligned i g T). fold gp. rewrite (fuse_started i gp TP IP Ru Vu St). reflexivity. }
  split; [intros k Hk; change (0 < like k <= 1); unfold like; rewrite <- DL by exact Hk; apply density_le1, BP, Hk|].
  destruct (weigh _ _) as [w'|] eqn:EW.
  - split.
    + intros _. rewrite UE. split; [exact St|]. intros k Hk. cbn [clearVel composite setW g_w]. rewrite (weigh_R _ _ _ EW). rewrite sum5_S5. unfold S5. rewrite !DL by lia. reflexivity.
    + intros A. exfalso. assert (N : weigh (fun k => gaussianDensity (fst (updateEKF (g_vn g) (g_ve g) (g_acc g) (predicted i g k)))) (g_w g) = None). { apply weigh_none. intros k Hk. rewrite DL by exact Hk. apply A, Hk. } rewrite N in EW. discriminate.
  - apply weigh_none in EW || (pose proof (proj1 (weigh_none _ _) EW) as EW'). split.
    + intros (k & Hk & A). exfalso. assert (X : like k * g_w g k < 1 / 100000). { unfold like. rewrite <- DL by exact Hk. first [exact (EW k Hk)|exact (EW' k Hk)]. } change (1 / 100000 <= like k * g_w g k) in A. lra.
    + intros _. rewrite UE. split; [reflexivity|]. split; [reflexivity|]. intros k. cbn [clearVel composite initialiseEKFGSF g_w]. unfold NM. cbn [INR]. lra.
Qed.
(** when flying starts: five equally weighted hypotheses spread evenly over the circle, at the measured velocity *)
Theorem C34_start : forall i g, g_tilt g = true -> g_started g = false -> g_velup g = true -> i_run i = true ->
  g_started (update i g) = true /\ forall k, (k < 5)%nat ->
    g_w (update i g) k = 1 / 5 /\ vx (b_X (g_bank (update i g) k)) = g_vn g /\ vy (b_X (g_bank (update i g) k)) = g_ve g /\
    vz (b_X (g_bank (update i g) k)) = 3.14159265 * (- 1 + (2 * INR k + 1) / 5) /\ b_gb (g_bank (update i g) k) = i_gb i /\
    forall a b, b_P (g_bank (update i g) k) a b = if (a =? b)%nat && (a <? 3)%nat then (if (a =? 2)%nat then (3.14159265 / 5) * (3.14159265 / 5) else g_acc g * g_acc g) else 0.
Proof.
  replace 3.14159265 with m_pi by (unfold m_pi; lra).
  intros i g T St Vu Ru. rewrite (update_aligned i g T). assert (F : fuse i (predictAll i (filterAccel i g)) = setStarted true (setBank (fun k => setAhrs (b_R (g_bank (ahrsAlignYaw (initialiseEKFGSF (predictAll i (filterAccel i g)))) k)) (i_gb i) (g_bank (ahrsAlignYaw (initialiseEKFGSF (predictAll i (filterAccel i g)))) k)) (ahrsAlignYaw (initialiseEKFGSF (predictAll i (filterAccel i g)))))).
  { unfold fuse. rewrite Ru. change (g_velup (predictAll i (filterAccel i g))) with (g_velup g). change (g_started (predictAll i (filterAccel i g))) with (g_started g). rewrite Vu, St. reflexivity. }
  rewrite F. split; [reflexivity|]. intros k Hk. split; [cbn [clearVel composite setStarted setBank ahrsAlignYaw initialiseEKFGSF g_w]; unfold NM; cbn [INR]; lra|].
  split; [reflexivity|]. split; [reflexivity|]. split; [cbn [clearVel composite setStarted setBank setAhrs ahrsAlignYaw alignYawBank initialiseEKFGSF initBank g_bank b_X vz]; unfold NM; replace (INR 5) with 5 by (cbn [INR]; lra); field|].
  split; [reflexivity|]. intros a b. cbn [clearVel composite setStarted setBank setAhrs ahrsAlignYaw alignYawBank initialiseEKFGSF initBank g_bank b_P predictAll filterAccel g_acc]. unfold mset, mzero, rsq, NM. replace (INR 5) with 5 by (cbn [INR]; lra).
  destruct a as [|[|[|a]]]; destruct b as [|[|[|b]]]; cbn [Nat.eqb Nat.ltb Nat.leb andb]; try reflexivity; try (destruct (a =? b)%nat; reflexivity); field.
Qed.
(** on the ground nothing is reported; without a new velocity the weights and the filters' velocities do not change; a
    velocity sample is used at most once *)
Theorem C34_not_flying : forall i g, i_run i = false -> g_tilt g = true -> getYawData (update i g) = None /\ getLogData (update i g) = None.
Proof.
  intros i g R T. rewrite (update_aligned i g T). unfold fuse. rewrite R. cbn [andb negb]. rewrite andb_true_r. unfold getYawData, getLogData. cbn [clearVel composite g_started].
  destruct (g_started (predictAll i (filterAccel i g))) eqn:E; [cbn [setStarted g_started]; auto|rewrite E; auto].
Qed.
Theorem C34_velocity_used_once : forall i j g, g_tilt g = true -> g_velup (update i g) = false /\
  (g_velup g = false -> (forall k, g_w (update i g) k = g_w g k) /\ g_started (update i g) = (g_started g && i_run i)%bool) /\
  g_w (update j (update i g)) = g_w (update i g).
Proof.
  intros i j g T. assert (V : g_velup (update i g) = false) by (rewrite (update_aligned i g T); reflexivity). split; [exact V|].
  assert (K : forall i g, g_tilt g = true -> g_velup g = false -> g_w (update i g) = g_w g /\ g_started (update i g) = (g_started g && i_run i)%bool).
  { clear. intros i g T V. rewrite (update_aligned i g T). unfold fuse. change (g_velup (predictAll i (filterAccel i g))) with (g_velup g). change (g_started (predictAll i (filterAccel i g))) with (g_started g). rewrite V, andb_false_r. destruct (g_started g) eqn:E; destruct (i_run i); cbn [andb negb]; (split; [reflexivity|]); cbn [clearVel composite setStarted g_started predictAll setBank filterAccel]; auto. }
  split; [intros V0; destruct (K i g T V0) as [-> ->]; auto|]. apply K; [|exact V]. rewrite (update_aligned i g T). cbn [clearVel composite g_tilt]. unfold fuse. destruct (i_run i && _); [destruct (negb _); [exact T|]; destruct (negb _); [exact T|]; destruct (weigh _ _); exact T|]. destruct (_ && _); exact T.
Qed.
(** binary32: for every history of finite likelihoods between 0 and 1 the computed weights stay finite and positive and
    sum to one within 1e-6, and one update normalises within 1e-6 *)
Theorem C34_binary32_weights : forall h : list (nat -> f32), (forall d, In d h -> forall k, (k < 5)%nat -> is_finite (d k) = true /\ 0 <= R32 (d k) <= 1) ->
  (forall k, (k < 5)%nat -> is_finite (wrun h k) = true /\ 0 < R32 (wrun h k)) /\ Rabs (S5 (fun k => R32 (wrun h k)) - 1) <= 1 / 1000000.
Proof. intros h H. destruct (wrun_ok h H) as [A B]. split; [intros k Hk; destruct (A k Hk) as [F R]; split; [exact F|lra]|exact B]. Qed.
(** the floor does not catch NaN: one NaN likelihood (or weight) makes every weight NaN, for good *)
Theorem C34_nan_likelihood_refuted : forall (h : list (nat -> f32)) (dens w : nat -> f32) k, (k < 5)%nat -> dens k = fnan \/ w k = fnan ->
  forall j, fold_left wstep h (wstep w dens) j = fnan.
Proof.
  intros h dens w k Hk H. assert (A : forall j, wstep w dens j = fnan). { unfold wstep. destruct (weigh_nan dens w k Hk H) as (w' & -> & E). exact E. }
  revert A. generalize (wstep w dens). induction h as [|d h IH]; intros v A; [exact A|]. cbn [fold_left]. apply IH. intros j. unfold wstep. destruct (weigh_nan d v 0%nat ltac:(lia) (or_intror (A 0%nat))) as (w' & -> & E). apply E.
Qed.

(** ** C57: the filters of the bank *)
(** process model: velocity changes by the delta velocity (d0 forward, d1 right) turned by the yaw, the yaw by d2 *)
Definition process (x u : nat -> R) (i : nat) : R := match i with
  | 0%nat => x 0%nat + (u 0%nat * cos (x 2%nat) - u 1%nat * sin (x 2%nat))
  | 1%nat => x 1%nat + (u 0%nat * sin (x 2%nat) + u 1%nat * cos (x 2%nat))
  | _ => x 2%nat + u 2%nat end.
Definition at_ (v : nat -> R) (j : nat) (t : R) : nat -> R := fun k => if (k =? j)%nat then t else v k.
(** A P A^T for 3x3 matrices *)
Definition congr3 (A P : nat -> nat -> R) (i j : nat) : R :=
  (A i 0%nat * P 0%nat 0%nat + A i 1%nat * P 1%nat 0%nat + A i 2%nat * P 2%nat 0%nat) * A j 0%nat +
  (A i 0%nat * P 0%nat 1%nat + A i 1%nat * P 1%nat 1%nat + A i 2%nat * P 2%nat 1%nat) * A j 1%nat +
  (A i 0%nat * P 0%nat 2%nat + A i 1%nat * P 1%nat 2%nat + A i 2%nat * P 2%nat 2%nat) * A j 2%nat.
Definition diagm (d : nat -> R) (i j : nat) : R := if (i =? j)%nat then d i else 0.
Definition floored (P : nat -> nat -> R) (i j : nat) : R := if (i =? j)%nat then Rmax (P i i) (1 / 1000000) else P i j.
(** covariance: symmetric and positive semi-definite after every history *)
Theorem C57_covariance_valid : forall l k, (k < 5)%nat -> g_tilt (grun l) = true -> let P := b_P (g_bank (grun l) k) in
  (forall i j, (i < 3)%nat -> (j < 3)%nat -> P i j = P j i) /\
  (forall x : nat -> R, 0 <= x 0%nat * (P 0%nat 0%nat * x 0%nat + P 0%nat 1%nat * x 1%nat + P 0%nat 2%nat * x 2%nat) + x 1%nat * (P 1%nat 0%nat * x 0%nat + P 1%nat 1%nat * x 1%nat + P 1%nat 2%nat * x 2%nat) + x 2%nat * (P 2%nat 0%nat * x 0%nat + P 2%nat 1%nat * x 1%nat + P 2%nat 2%nat * x 2%nat)) /\
  1 / 1000000 <= P 2%nat 2%nat.
Proof.
  intros l k Hk T P. pose proof (grun_inv l) as I. unfold inv in I. rewrite T in I. destruct (proj1 I k Hk) as ((E1 & E2 & E3) & PS & V). fold P in E1, E2, E3, PS, V. split; [|split; [|exact V]].
  - intros i j Hi Hj. cases3 i Hi; cases3 j Hj; auto.
  - intros x. pose proof (PS (x 0%nat) (x 1%nat) (x 2%nat)) as Q. unfold qf in Q. rewrite E1, E2, E3. match type of Q with _ <= ?a => match goal with |- _ <= ?b => replace b with a by ring end end. exact Q.
Qed.
(** prediction: the state follows the process model for the delta velocity rotated by the predicted attitude; the
    covariance is F P F^T + G Q G^T with F and G the Jacobians of the process model, variances floored at 1e-6 *)
Theorem C57_prediction : forall i accel norm gain b, sym3 (b_P b) ->
  let b' := predictEKF i true accel norm gain b in
  let psi := vz (b_X b') in let dv := mapp (b_R b') (i_dv i) in
  let u := fun k => match k with 0%nat => vx dv * cos psi + vy dv * sin psi | 1%nat => vy dv * cos psi - vx dv * sin psi | _ => 0 end in
  let x := fun k => match k with 0%nat => vx (b_X b) | 1%nat => vy (b_X b) | _ => psi end in
  psi = (if shouldUse321 (b_R b') then yaw321 (b_R b') else yaw312 (b_R b')) /\
  vx (b_X b') = process x u 0%nat /\ vy (b_X b') = process x u 1%nat /\ psi = process x u 2%nat /\
  exists F G : nat -> nat -> R,
    (forall a c, (a < 3)%nat -> (c < 3)%nat -> is_derive (fun t => process (at_ x c t) u a) (x c) (F a c)) /\
    (forall a c, (a < 3)%nat -> (c < 3)%nat -> is_derive (fun t => process x (at_ u c t) a) (u c) (G a c)) /\
    forall a c, (a < 3)%nat -> (c < 3)%nat -> b_P b' a c = floored (fun a c => congr3 F (b_P b) a c +
      congr3 G (diagm (fun k => match k with 2%nat => (1 / 10 * i_dadt i) * (1 / 10 * i_dadt i) | _ => (2 * i_dvdt i) * (2 * i_dvdt i) end)) a c) a c.
Proof.
  intros i accel norm gain b SY. cbv zeta. unfold predictEKF. cbn [negb]. cbv zeta. set (b1 := ahrsPredict i accel norm gain b). cbn [b_X b_R b_P vx vy vz].
  assert (BP : b_P b1 = b_P b) by reflexivity. assert (BX : b_X b1 = b_X b) by reflexivity. rewrite BP, BX. set (psi := if shouldUse321 (b_R b1) then yaw321 (b_R b1) else yaw312 (b_R b1)). set (dv := mapp (b_R b1) (i_dv i)).
  clearbody b1 psi dv. clear BP BX. split; [reflexivity|]. pose proof (sc psi) as SC. cbn [process].
  split. { transitivity (vx (b_X b) + vx dv * (sin psi * sin psi + cos psi * cos psi)); [rewrite SC; ring|ring]. }
  split. { transitivity (vy (b_X b) + vy dv * (sin psi * sin psi + cos psi * cos psi)); [rewrite SC; ring|ring]. }
  split; [ring|]. set (dx := vx dv * cos psi + vy dv * sin psi). assert (DY : - vx dv * sin psi + vy dv * cos psi = vy dv * cos psi - vx dv * sin psi) by ring. rewrite DY. set (dy := vy dv * cos psi - vx dv * sin psi).
  exists (Fjac psi dx dy), (Gjac psi). split; [|split].
  - intros a c Ha Hc. cases3 a Ha; cases3 c Hc; unfold process, at_, Fjac; cbn [Nat.eqb m9]; (auto_derive; [trivial|ring]).
  - intros a c Ha Hc. cases3 a Ha; cases3 c Hc; unfold process, at_, Gjac; cbn [Nat.eqb m9]; (auto_derive; [trivial|ring]).
  - intros a c Ha Hc. assert (E : predictP psi dx dy (rsq (accel_noise * i_dvdt i)) (rsq (accel_noise * i_dvdt i)) (rsq (gyro_noise * i_dadt i)) (b_P b) a c = congr3 (Fjac psi dx dy) (b_P b) a c + congr3 (Gjac psi) (diagm (fun k => match k with 2%nat => (1 / 10 * i_dadt i) * (1 / 10 * i_dadt i) | _ => (2 * i_dvdt i) * (2 * i_dvdt i) end)) a c).
    { rewrite predictP_spec by assumption. unfold sandwich, sum3, congr3, rsq, accel_noise, gyro_noise. unfold diag3, diagm. cases3 a Ha; cases3 c Hc; cbn [m9 Fjac Gjac Nat.eqb]; ring. }
    unfold floored. rewrite <- E. assert (ED : forall q, (q < 3)%nat -> predictP psi dx dy (rsq (accel_noise * i_dvdt i)) (rsq (accel_noise * i_dvdt i)) (rsq (gyro_noise * i_dadt i)) (b_P b) q q = congr3 (Fjac psi dx dy) (b_P b) q q + congr3 (Gjac psi) (diagm (fun k => match k with 2%nat => (1 / 10 * i_dadt i) * (1 / 10 * i_dadt i) | _ => (2 * i_dvdt i) * (2 * i_dvdt i) end)) q q).
    { intros q Hq. rewrite predictP_spec by assumption. unfold sandwich, sum3, congr3, rsq, accel_noise, gyro_noise. unfold diag3, diagm. cases3 q Hq; cbn [m9 Fjac Gjac Nat.eqb]; ring. }
    rewrite <- (ED a Ha). set (PP := predictP _ _ _ _ _ _ _). clearbody PP. unfold floorVar. cases3 a Ha; cases3 c Hc; cbn [mset Nat.eqb andb]; reflexivity.
Qed.
(** measurement update: never rejected in a reachable state; the Kalman equations, with the innovation shortened to at
    most five standard deviations; the attitude is turned about the vertical by exactly the yaw correction *)
Theorem C57_update : forall vn ve acc b, okBank b ->
  let P := b_P b in let r := measVar acc in let n0 := vx (b_X b) - vn in let n1 := vy (b_X b) - ve in
  let s00 := P 0%nat 0%nat + r in let s01 := P 0%nat 1%nat in let s11 := P 1%nat 1%nat + r in let det := s00 * s11 - s01 * s01 in
  let ratio := (n0 * n0 * s11 - 2 * n0 * n1 * s01 + n1 * n1 * s00) / det in
  let b' := fst (updateEKF vn ve acc b) in
  snd (updateEKF vn ve acc b) = true /\ 0 < det /\ 0 <= ratio /\
  exists K : nat -> nat -> R, exists s,
    (* K S = P H^T *)
    (forall a, (a < 3)%nat -> K a 0%nat * s00 + K a 1%nat * s01 = P a 0%nat /\ K a 0%nat * s01 + K a 1%nat * s11 = P a 1%nat) /\
    0 < s <= 1 /\ (ratio <= 25 -> s = 1) /\ (25 < ratio -> s * s * ratio = 25) /\
    vx (b_X b') = vx (b_X b) - s * (K 0%nat 0%nat * n0 + K 0%nat 1%nat * n1) /\
    vy (b_X b') = vy (b_X b) - s * (K 1%nat 0%nat * n0 + K 1%nat 1%nat * n1) /\
    vz (b_X b') = vz (b_X b) - s * (K 2%nat 0%nat * n0 + K 2%nat 1%nat * n1) /\
    (forall a c, (a < 3)%nat -> (c < 3)%nat -> b_P b' a c = floored (fun a c => P a c - (K a 0%nat * P 0%nat c + K a 1%nat * P 1%nat c)) a c) /\
    b_in b' = mkV n0 n1 0 /\
    b_R b' = mmul (Rz (vz (b_X b') - vz (b_X b))) (b_R b).
Proof.
  intros vn ve acc b O. cbv zeta. split; [apply (update_ok vn ve acc b O)|]. destruct O as (SY & PS & V). pose proof (obsVar_pos acc) as OV.
  pose proof (Sdet_pos (obsVar acc) (b_P b) ltac:(lra) PS) as SP. change (measVar acc) with (obsVar acc). set (r := obsVar acc) in *. set (P := b_P b) in *.
  change ((P 0%nat 0%nat + r) * (P 1%nat 1%nat + r) - P 0%nat 1%nat * P 0%nat 1%nat) with (Sdet r P). assert (DP : 0 < Sdet r P) by nra. split; [exact DP|].
  set (n0 := vx (b_X b) - vn). set (n1 := vy (b_X b) - ve). assert (QN : 0 <= n0 * n0 * (P 1%nat 1%nat + r) - 2 * n0 * n1 * P 0%nat 1%nat + n1 * n1 * (P 0%nat 0%nat + r)).
  { pose proof (PS n1 (- n0) 0) as H. unfold qf in H. pose proof (Rle_0_sqr n0) as S0. pose proof (Rle_0_sqr n1) as S1. unfold Rsqr in S0, S1. assert (R0 : 0 <= r * (n0 * n0 + n1 * n1)) by (apply Rmult_le_pos; lra). match type of H with _ <= ?a => match type of R0 with _ <= ?b => match goal with |- _ <= ?c => replace c with (a + b) by ring end end end. lra. }
  assert (RN : 0 <= (n0 * n0 * (P 1%nat 1%nat + r) - 2 * n0 * n1 * P 0%nat 1%nat + n1 * n1 * (P 0%nat 0%nat + r)) / Sdet r P) by (apply Rmult_le_pos; [exact QN|left; apply Rinv_0_lt_compat; exact DP]). split; [exact RN|].
  destruct (updateEKF_eq vn ve acc b (conj SY (conj PS V))) as (u & E & H). cbv zeta in H. cbn [vx vy] in H. fold n0 n1 in H. fold r in E. fold P in E. rewrite (normDist_S _ _ _ _ _ _ E) in H.
  set (ratio := (n0 * n0 * (P 1%nat 1%nat + r) - 2 * n0 * n1 * P 0%nat 1%nat + n1 * n1 * (P 0%nat 0%nat + r)) / Sdet r P) in *. rewrite H. clear H.
  destruct (updateP_inv _ _ _ E) as (D0 & _ & _ & HK & _ & P1 & EP & S1 & H1). set (s := if Rlt_dec 25 ratio then sqrt (25 / ratio) else 1). exists (u_K u), s. cbn [b_X b_P b_in b_R vx vy vz].
  split. { intros a Ha. destruct (HK a Ha SY) as [-> ->]. unfold Sdet in *. split; field; exact D0. }
  assert (SS : 0 < s <= 1 /\ (ratio <= 25 -> s = 1) /\ (25 < ratio -> s * s * ratio = 25)).
  { unfold s. destruct (Rlt_dec 25 ratio) as [L|L]; [|split; [lra|split; [auto|intros; contradiction]]].
    assert (X : 0 < 25 / ratio) by (apply Rdiv_lt_0_compat; lra). split; [|split].
    - split; [apply sqrt_lt_R0; exact X|]. rewrite <- sqrt_1. apply sqrt_le_1; [lra|lra|]. apply Rmult_le_reg_r with ratio; [lra|]. replace (25 / ratio * ratio) with 25 by (field; lra). lra.
    - intros; lra.
    - intros _. rewrite sqrt_sqrt by lra. field. lra. }
  destruct SS as (SA & SB & SC). split; [exact SA|]. split; [exact SB|]. split; [exact SC|]. split; [ring|]. split; [ring|]. split; [ring|]. split; [|split; [reflexivity|apply rotYaw_Rz]].
  intros a c Ha Hc. rewrite EP. specialize (H1 SY). unfold floored, floorVar. rewrite <- (H1 a a Ha Ha), <- (H1 a c Ha Hc). cases3 a Ha; cases3 c Hc; cbn [mset Nat.eqb andb]; reflexivity.
Qed.
(** the updates of C57_update are those of every reachable state: none is ever rejected *)
Theorem C57_never_rejected : forall l i k, (k < 5)%nat -> g_tilt (grun l) = true ->
  okBank (predicted i (grun l) k) /\ snd (updateEKF (g_vn (grun l)) (g_ve (grun l)) (g_acc (grun l)) (predicted i (grun l) k)) = true.
Proof.
  intros l i k Hk T. pose proof (predictAll_inv i (filterAccel i (grun l)) T (grun_inv l)) as IP. unfold inv in IP. change (g_tilt (predictAll i (filterAccel i (grun l)))) with (g_tilt (grun l)) in IP. rewrite T in IP.
  split; [apply (proj1 IP k Hk)|]. apply update_ok. apply (proj1 IP k Hk).
Qed.
(** the filter passes the vertical position accuracy of the GPS as velocity accuracy: the reported speed accuracy has no
    influence on the estimator (a defect) *)
Theorem C57_speed_accuracy_ignored_refuted : forall ta fw air td tas i p sacc g,
  runYaw ta fw air td tas i p g = runYaw ta fw air td tas i (mkGps (gps_ready p) (gps_vn p) (gps_ve p) (gps_vacc p) sacc) g /\
  (gps_ready p = true -> flt_eps < gps_vacc p -> g_acc (runYaw ta fw air td tas i p g) = gps_vacc p).
Proof.
  intros. split; [reflexivity|]. intros R A. unfold runYaw. cbv zeta. rewrite R. cbn [andb]. destruct (Rlt_dec flt_eps (gps_vacc p)); [reflexivity|contradiction].
Qed.
(** what the filter does with its inputs: flying and airspeed (or its default, fixed wing without airspeed data) are passed
    on, and a GPS velocity becomes available for the next run *)
Theorem C57_run : forall ta fw air td tas i p g,
  runYaw ta fw air td tas i p g =
    (let g' := update (mkGin (i_da i) (i_dv i) (i_dadt i) (i_dvdt i) air (if ta && fw then td else tas) (i_gb i)) g in
     if gps_ready p && (if Rlt_dec flt_eps (gps_vacc p) then true else false) then
       mkG (g_tilt g') (g_accel g') (g_bank g') (g_w g') (g_yaw g') (g_var g') true (gps_vn p) (gps_ve p) (gps_vacc p) (g_started g') else g').
Proof. reflexivity. Qed.

(** ** C58: attitude reference of the yaw estimator *)
(** tilt gain: between 0 and 0.2, full at 1 g, zero when the acceleration is 0.5 g (with airspeed compensation above 1 g:
    1 g) or more away from it *)
Theorem C58_gain : forall tas n, 0 <= accelGain tas n <= 1 / 5 /\ accelGain tas 9.80665 = 1 / 5 /\
  (9.80665 <= Rabs (n - 9.80665) \/ (tas <= flt_eps \/ n <= 9.80665) /\ 9.80665 / 2 <= Rabs (n - 9.80665) -> accelGain tas n = 0).
Proof. replace 9.80665 with one_g by (unfold one_g; lra). intros. split; [apply gain_range|]. split; [apply gain_one_g|apply gain_zero]. Qed.
(** gyro biases never exceed 0.05 rad/s or the largest bias handed in by the filter, after every history *)
Theorem C58_gyro_bias_bounded : forall l m, 5 / 100 <= m ->
  (forall i, In (OUpdate i) l -> Rabs (vx (i_gb i)) <= m /\ Rabs (vy (i_gb i)) <= m /\ Rabs (vz (i_gb i)) <= m) ->
  forall k, let v := b_gb (g_bank (grun l) k) in Rabs (vx v) <= m /\ Rabs (vy v) <= m /\ Rabs (vz v) <= m.
Proof.
  intros l m M H k. apply (grun_gb l m M). apply Forall_forall. intros o Ho. destruct o as [i|]; cbn [gb_in]; [apply H; exact Ho|exact I].
Qed.
(** tilt alignment: performed on the first sample whose specific force is within 10% of 1 g; a rotation that turns the
    measured specific force to straight up, with heading zero, unless the specific force is along the body x axis *)
Theorem C58_tilt_alignment : forall i g, g_tilt g = false ->
  let a2 := vnorm2 (vscale (/ Rmax (i_dvdt i) (1 / 1000)) (i_dv i)) in
  (g_tilt (update i g) = true <-> (9.80665 * (9 / 10)) * (9.80665 * (9 / 10)) < a2 < (9.80665 * (11 / 10)) * (9.80665 * (11 / 10))) /\
  (g_tilt (update i g) = true -> vy (i_dv i) <> 0 \/ vz (i_dv i) <> 0 -> forall k, let m := b_R (g_bank (update i g) k) in
    is_rotation m /\ mapp m (i_dv i) = mkV 0 0 (- sqrt (vnorm2 (i_dv i))) /\ m10 m = 0 /\ 0 < m00 m /\ yaw321 m = 0).
Proof.
  replace 9.80665 with one_g by (unfold one_g; lra).
  intros i g T a2. unfold update. cbv zeta. change (g_tilt (filterAccel i g)) with (g_tilt g). rewrite T. cbn [negb].
  assert (OK : okToAlign i = true <-> (one_g * (9 / 10)) * (one_g * (9 / 10)) < a2 < (one_g * (11 / 10)) * (one_g * (11 / 10))).
  { unfold okToAlign. fold a2. unfold accelOf, rsq. fold a2. destruct (Rlt_dec _ a2); destruct (Rlt_dec a2 _); cbn [andb]; split; intros; try discriminate; auto; lra. }
  split.
  - destruct (okToAlign i) eqn:E; [split; [intros _; apply OK; reflexivity|reflexivity]|]. split; [change (g_tilt (filterAccel i g)) with (g_tilt g); rewrite T; discriminate|intros H; apply OK in H; discriminate].
  - destruct (okToAlign i) eqn:E; [|change (g_tilt (filterAccel i g)) with (g_tilt g); rewrite T; discriminate]. intros _ H k. cbv zeta. change (b_R (g_bank (alignTilt i (filterAccel i g)) k)) with (tiltMatrix (i_dv i)).
    destruct (tilt_rotation (i_dv i) H) as (A & B & C & D). split; [exact A|]. split; [exact B|]. split; [exact C|]. split; [exact D|]. unfold yaw321. rewrite C. unfold atan2. destruct (Rlt_dec 0 (m00 (tiltMatrix (i_dv i)))); [|contradiction]. replace (0 / m00 (tiltMatrix (i_dv i))) with 0 by (field; lra). apply atan_0.
Qed.
(** ... but there (vehicle pointing straight up or down) the north vector is the normalised zero vector: NaN in binary32 *)
Theorem C58_tilt_alignment_nose_up_refuted : forall x, x <> 0 -> exists down, down = vneg (vunit (mkV x 0 0)) /\ vsub (mkV 1 0 0) (vscale (vdot (mkV 1 0 0) down) down) = vzero /\ ~ is_rotation (tiltMatrix (mkV x 0 0)).
Proof.
  intros x Hx. eexists. split; [reflexivity|].
  assert (Z : vsub (mkV 1 0 0) (vscale (vdot (mkV 1 0 0) (vneg (vunit (mkV x 0 0)))) (vneg (vunit (mkV x 0 0)))) = vzero).
  { unfold vunit. assert (X2 : 0 < vnorm2 (mkV x 0 0)) by (unfold vnorm2, vdot; cbn [vx vy vz]; pose proof (Rsqr_pos_lt x Hx) as Q; unfold Rsqr in Q; lra). pose proof (sqrt_inv_sq _ X2) as Q. set (j := / sqrt (vnorm2 (mkV x 0 0))) in *.
    assert (Q1 : j * j * (x * x) = 1). { rewrite Q. unfold vnorm2, vdot. cbn [vx vy vz]. field. exact Hx. } clearbody j. unfold vsub, vscale, vdot, vneg, vzero. cbn [vx vy vz]. f_equal; [|ring|ring]. transitivity (1 - j * j * (x * x)); [ring|rewrite Q1; ring]. }
  split; [exact Z|]. intros (H & _). unfold tiltMatrix in H. cbv zeta in H. rewrite Z in H. apply (f_equal m00) in H. unfold mmul, mtr, mident, vunit, vscale, vzero in H. cbn [vx vy vz m00 m01 m02 m10 m11 m12 m20 m21 m22] in H. rewrite !Rmult_0_r in H. lra.
Qed.
(** attitude prediction: for any sequence of gyro steps of at most 1 rad and yaw corrections from a rotation, all rows stay
    bounded, and with steps of at most 0.5 rad the down row keeps a squared length between 0.95 and 1 *)
Theorem C58_attitude_bounded : forall ops m, is_rotation m ->
  ((forall g, In (DTurn g) ops -> vnorm2 g <= 1) -> vnorm2 (row0 (drun ops m)) + vnorm2 (row1 (drun ops m)) <= 2 /\ vnorm2 (row2 (drun ops m)) <= 1) /\
  ((forall g, In (DTurn g) ops -> vnorm2 g <= 1 / 4) -> 95 / 100 <= vnorm2 (row2 (drun ops m)) <= 1).
Proof.
  intros ops m H. destruct (rot_rows_unit m H) as (A & B & C). split; intros G.
  - apply drun_bounded; [|split; lra]. apply Forall_forall. intros [g|d] Ho; cbn [turn_le]; [apply G; exact Ho|exact I].
  - apply drun_down; [|lra]. apply Forall_forall. intros [g|d] Ho; cbn [turn_le]; [apply G; exact Ho|exact I].
Qed.
(** the rows are renormalised but never made orthogonal: under steady rotation about an axis oblique to the navigation axes
    the components of all three axes along the rotation axis decay to zero (for a rotation their squares sum to one) *)
Theorem C58_orthogonality_lost_refuted : forall g m, is_rotation m -> 0 < vnorm2 g <= 1 ->
  (forall k, (k < 3)%nat -> 0 < vnorm2 (cross (rowk k m) g)) ->
  vdot (row0 m) g * vdot (row0 m) g + vdot (row1 m) g * vdot (row1 m) g + vdot (row2 m) g * vdot (row2 m) g = vnorm2 g /\
  forall eps, 0 < eps -> exists N, forall n, (N <= n)%nat -> let m' := spin n g m in
    vdot (row0 m') g * vdot (row0 m') g + vdot (row1 m') g * vdot (row1 m') g + vdot (row2 m') g * vdot (row2 m') g <= eps.
Proof.
  intros g m H G C. split; [apply rot_axis; exact H|]. intros eps He. destruct (rot_rows_unit m H) as (U0 & U1 & U2).
  destruct (spin_vanish g m (eps / 3) ltac:(lra) G) as [N HN]; [intros k Hk; split; [cases3 k Hk; cbn [rowk]; lra|apply C; exact Hk]|]. exists N. intros n Hn. cbv zeta.
  pose proof (HN n Hn 0%nat ltac:(lia)) as A0. pose proof (HN n Hn 1%nat ltac:(lia)) as A1. pose proof (HN n Hn 2%nat ltac:(lia)) as A2. cbn [rowk] in A0, A1, A2. lra.
Qed.
(** spin is the repeated attitude prediction of the code *)
Theorem C58_spin_is_prediction : forall n g m, spin 0 g m = m /\ spin (Datatypes.S n) g m = predictRotMat (spin n g m) g.
Proof. intros. split; [reflexivity|apply spin_S]. Qed.
(** one attitude prediction: angular step plus tilt correction minus bias; with no acceleration gain it is pure gyro *)
Theorem C58_prediction : forall i accel norm b, let b' := ahrsPredict i accel norm 0 b in
  b_R b' = predictRotMat (b_R b) (vsub (i_da i) (vscale (i_dadt i) (b_gb b'))) /\ (gb_le (5 / 100) (b_gb b) -> b_gb b' = b_gb b).
Proof.
  intros i accel norm b. cbv zeta. unfold ahrsPredict. destruct (Rlt_dec 0 0) as [L|_]; [lra|]. cbv zeta. cbn [setAhrs b_R b_gb]. match goal with |- context [if ?c then vclamp ?l ?x else ?y] => set (gb := if c then vclamp l x else y) end. split.
  - f_equal. clearbody gb. v3 gb. destruct (i_da i) as [x y z]. unfold vadd, vsub, vscale, vzero. cbn [vx vy vz]. f_equal; ring.
  - intros (A & B & C). unfold gb. match goal with |- context [if ?c then _ else _] => destruct c end; [|reflexivity]. destruct (b_gb b) as [x y z]. unfold vclamp, vsub, vscale, vzero. cbn [vx vy vz] in *.
    apply Rabs_le_inv in A. apply Rabs_le_inv in B. apply Rabs_le_inv in C. assert (RC : forall t, - (5 / 100) <= t <= 5 / 100 -> rconstrain (t - gyro_bias_gain * i_dadt i * 0) (- (5 / 100)) (5 / 100) = t).
    { intros t Ht. rewrite Rmult_0_r, Rminus_0_r. unfold rconstrain. destruct (Rlt_dec t _); [lra|]. destruct (Rlt_dec _ t); [lra|reflexivity]. } rewrite !RC by assumption. reflexivity.
Qed.

(** tilt correction: the specific force, less the centripetal acceleration of flight along the body x axis (rate x airspeed),
    is taken as up; the attitude and the bias are corrected in proportion to the rotation from the estimated to the measured
    down direction, which brings them closer *)
Theorem C58_tilt_correction : forall i accel norm gain b, 0 < gain -> 0 < norm ->
  let rate := vsub (vscale (/ Rmax (i_dadt i) (1 / 1000)) (i_da i)) (b_gb b) in
  let centri := if Rlt_dec flt_eps (i_tas i) then cross rate (mkV (i_tas i) 0 0) else vzero in
  let down := vscale (- / norm) (vsub accel centri) in
  let e := row2 (b_R b) in
  let c := vscale gain (cross down e) in
  let b' := ahrsPredict i accel norm gain b in
  b_gb b' = (if Rlt_dec (sqrt (vnorm2 rate)) (175 / 1000) then
    let v := vsub (b_gb b) (vscale (4 / 100 * i_dadt i) c) in mkV (Rmax (- (5 / 100)) (Rmin (5 / 100) (vx v))) (Rmax (- (5 / 100)) (Rmin (5 / 100) (vy v))) (Rmax (- (5 / 100)) (Rmin (5 / 100) (vz v))) else b_gb b) /\
  b_R b' = predictRotMat (b_R b) (vadd (i_da i) (vscale (i_dadt i) (vsub c (b_gb b')))) /\
  vdot (cross e c) down = gain * (vnorm2 e * vnorm2 down - vdot e down * vdot e down) /\ 0 <= vdot (cross e c) down.
Proof.
  intros i accel norm gain b G N. cbv zeta. unfold ahrsPredict. destruct (Rlt_dec 0 gain); [|contradiction]. cbv zeta. cbn [setAhrs b_R b_gb].
  set (rate := vsub (vscale (/ Rmax (i_dadt i) (1 / 1000)) (i_da i)) (b_gb b)). set (e := row2 (b_R b)).
  set (centri := if Rlt_dec flt_eps (i_tas i) then cross rate (mkV (i_tas i) 0 0) else vzero). set (down := vscale (- / norm) (vsub accel centri)).
  assert (TC : vscale (gain / norm) (cross e (if Rlt_dec flt_eps (i_tas i) then vsub accel (mkV 0 (i_tas i * vz rate) (- i_tas i * vy rate)) else accel)) = vscale gain (cross down e)).
  { unfold down, centri. clearbody e rate. v3 e. v3 rate. v3 accel. destruct (Rlt_dec _ _); unfold vscale, cross, vsub, vzero; cbn [vx vy vz]; f_equal; field; lra. }
  rewrite TC. set (c := vscale gain (cross down e)).
  assert (RC : forall t, rconstrain t (- (5 / 100)) (5 / 100) = Rmax (- (5 / 100)) (Rmin (5 / 100) t)).
  { intros t. unfold rconstrain, Rmax, Rmin. destruct (Rlt_dec t (- (5 / 100))); destruct (Rlt_dec (5 / 100) t); destruct (Rle_dec (5 / 100) t); match goal with |- context [Rle_dec ?a ?b] => destruct (Rle_dec a b) | _ => idtac end; lra. }
  split; [|split; [reflexivity|]].
  - destruct (Rlt_dec (sqrt (vnorm2 rate)) (175 / 1000)); [|reflexivity]. unfold vclamp, gyro_bias_gain. rewrite !RC. reflexivity.
  - assert (D : vdot (cross e c) down = gain * (vnorm2 e * vnorm2 down - vdot e down * vdot e down)) by (unfold c; clearbody e down; v3 e; v3 down; unfold vdot, vnorm2, cross, vscale; unfold vdot; cbn [vx vy vz]; ring).
    split; [exact D|]. rewrite D. apply Rmult_le_pos; [lra|]. pose proof (dot_le e down). lra.
Qed.

(** ** the hypotheses are met *)
(** a flight: alignment, velocity, start *)
Definition ex_imu (run : bool) : gin := mkGin (mkV 0 0 (1 / 100)) (mkV 0 0 (- (980665 / 10000000))) (1 / 100) (1 / 100) run 0 vzero.
Definition ex_hist : list gop := [OUpdate (ex_imu false); OVelocity 1 2 (1 / 2); OUpdate (ex_imu true); OVelocity 1 2 (1 / 2)].
Lemma ex_align : g_tilt (update (ex_imu false) gsf0) = true.
Proof. apply (proj1 (C58_tilt_alignment (ex_imu false) gsf0 eq_refl)). unfold ex_imu. cbn [i_dvdt i_dv]. rewrite Rmax_left by lra. unfold vnorm2, vdot, vscale, one_g. cbn [vx vy vz]. split; lra. Qed.
Lemma ex_g1 : g_started (update (ex_imu false) gsf0) = false.
Proof. unfold update. cbv zeta. change (g_tilt (filterAccel (ex_imu false) gsf0)) with false. cbn [negb]. destruct (okToAlign _); reflexivity. Qed.
Example ex_started : g_started (grun ex_hist) = true /\ g_velup (grun ex_hist) = true.
Proof.
  split; [|reflexivity]. unfold grun, ex_hist. cbn [fold_left gstep]. change (g_started (setVelocity 1 2 (1 / 2) (update (ex_imu true) (setVelocity 1 2 (1 / 2) (update (ex_imu false) gsf0))))) with (g_started (update (ex_imu true) (setVelocity 1 2 (1 / 2) (update (ex_imu false) gsf0)))).
  apply C34_start; [exact ex_align|exact ex_g1|reflexivity|reflexivity].
Qed.
Example ex_reported : exists yaw var f, getLogData (grun ex_hist) = Some (yaw, var, f).
Proof. unfold getLogData. rewrite (proj1 ex_started). eauto. Qed.
Example ex_okBank : exists b, okBank b /\ b_P b 0%nat 0%nat = 1 / 4.
Proof. exists (initBank 0 0 (1 / 2) 0 bank0). split; [apply init_ok|]. unfold initBank, rsq. cbn [b_P mset Nat.eqb andb]. lra. Qed.
Example ex_oblique : is_rotation mident /\ 0 < vnorm2 (mkV (1 / 100) (1 / 100) (1 / 100)) <= 1 /\ forall k, (k < 3)%nat -> 0 < vnorm2 (cross (rowk k mident) (mkV (1 / 100) (1 / 100) (1 / 100))).
Proof.
  split; [unfold is_rotation, mmul, mtr, mident, mdet; cbn [m00 m01 m02 m10 m11 m12 m20 m21 m22]; split; [f_equal; ring|split; [f_equal; ring|ring]]|]. split; [unfold vnorm2, vdot; cbn [vx vy vz]; lra|].
  intros k Hk. cases3 k Hk; unfold rowk, row0, row1, row2, mident, vnorm2, vdot, cross; cbn [vx vy vz m00 m01 m02 m10 m11 m12 m20 m21 m22]; lra.
Qed.
Example ex_densities : forall k : nat, is_finite (slit 1 5 : f32) = true /\ 0 <= R32 (slit 1 5 : f32) <= 1.
Proof. intros _. destruct fifth as [F R]. apply Rabs_le_inv in R. split; [exact F|lra]. Qed.

Print Assumptions C34_reported_estimate.
Print Assumptions C34_weight_update.
Print Assumptions C34_binary32_weights.
Print Assumptions C57_prediction.
Print Assumptions C57_update.
Print Assumptions C58_tilt_alignment.
Print Assumptions C58_orthogonality_lost_refuted.

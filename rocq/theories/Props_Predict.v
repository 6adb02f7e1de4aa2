(** * C70 (state prediction) and C71 (start-up of the filter)

    Model: PredictModel.v (exact reals).  Specification: true motion of a
    vehicle in legs of constant acceleration ([moveLeg], [senseLeg] in
    PredictProofs.v), Rodrigues' formula, and the record of the updates before
    initialisation ([usable], [accels], [gyros], [mags], [baros], [smooth],
    [ready] in StartProofs.v). *)
From Coq Require Import Reals Lra ZArith List Lia.
From Verif Require Import RealGeom RotModel RotProofs PredictModel PredictProofs PredictProofs2 StartProofs.
Import ListNotations.
Open Scope R_scope.

(** ** C70 *)
(** attitude: the new attitude is the old one turned by the measured rotation, less the gyro bias and the earth's rotation;
    it stays a unit quaternion, and the rotation matrix always is the one of the quaternion *)
Theorem C70_attitude : forall (lim : R) (earth : V3) (i : pimu) (s : pred), qnorm2 (s_q (p_s s)) = 1 -> p_R s = dcm (s_q (p_s s)) ->
  let s' := predictState lim earth i s in
  let w := vsub (vsub (pi_da i) (s_ab (p_s s))) (vscale (pi_dadt i) (mapp (mtr (dcm (s_q (p_s s)))) earth)) in
  qnorm2 (s_q (p_s s')) = 1 /\ p_R s' = dcm (s_q (p_s s')) /\ is_rotation (p_R s') /\
  (1 / 10 ^ 10 <= sqrt (vnorm2 w) -> forall x, mapp (p_R s') x = mapp (p_R s) (rodrigues w x)) /\
  (sqrt (vnorm2 w) < 1 / 10 ^ 10 -> s_q (p_s s') = s_q (p_s s)).
Proof.
  intros lim earth i s U RR. cbv zeta. destruct (predict_attitude lim earth i s U) as (A & U' & R'). cbv zeta in *. unfold corrected_da in A. rewrite RR in A. set (w := vsub _ (vscale _ _)) in *.
  split; [exact U'|]. split; [exact R'|]. split; [rewrite R'; apply dcm_rotation; exact U'|]. split.
  - intros H x. rewrite R', A, dcm_mul, mapp_mmul, (dcm_qexp w x H), RR. reflexivity.
  - intros H. rewrite A. unfold qexp. destruct (Rlt_dec _ _) as [_|N]; [apply qmul_1_r|contradiction].
Qed.
(** velocity and position: specific force less accelerometer bias, turned to earth axes with the new attitude, plus gravity; trapezoidal position *)
Theorem C70_velocity_position : forall (lim : R) (earth : V3) (i : pimu) (s : pred), qnorm2 (s_q (p_s s)) = 1 ->
  let s' := predictState lim earth i s in
  let v' := vadd (vadd (s_v (p_s s)) (mapp (p_R s') (vsub (pi_dv i) (s_vb (p_s s))))) (mkV 0 0 (980665 / 100000 * pi_dvdt i)) in
  let p' := vadd (s_p (p_s s)) (vscale (pi_dvdt i / 2) (vadd (s_v (p_s s)) v')) in
  (within 1000 v' -> s_v (p_s s') = v') /\ (within 1000000 p' -> s_p (p_s s') = p').
Proof.
  intros lim earth i s U. cbv zeta. destruct (predict_motion lim earth i s U) as (A & B). cbv zeta in *. unfold nextVel, gravity in A, B.
  split; intros W; [rewrite A|rewrite B]; apply vcon_id; exact W.
Qed.
(** limits: after every prediction, whatever the history and the samples *)
Theorem C70_limits : forall (lim : R) (earth : V3) (l : list pimu) (i : pimu) (s : pred), 0 <= lim -> 1 / 200 <= p_dt s <= 2 / 100 -> qnorm2 (s_q (p_s s)) = 1 ->
  let s' := predictAll lim earth (l ++ [i]) s in let x := p_s s' in
  within 1000 (s_v x) /\ within 1000000 (s_p x) /\ within (20 * PI / 180 * (2 / 100)) (s_ab x) /\ within (lim * (2 / 100)) (s_vb x) /\
  within 1 (s_mi x) /\ within (1 / 2) (s_mb x) /\ Rabs (s_wn x) <= 100 /\ Rabs (s_we x) <= 100 /\ qnorm2 (s_q x) = 1 /\ 1 / 200 <= p_dt s' <= 2 / 100.
Proof.
  intros lim earth l i s L D U. cbv zeta. rewrite predictAll_app. cbn [predictAll].
  assert (I : 1 / 200 <= p_dt (predictAll lim earth l s) <= 2 / 100 /\ qnorm2 (s_q (p_s (predictAll lim earth l s))) = 1).
  { apply (predictAll_inv (fun s => 1 / 200 <= p_dt s <= 2 / 100 /\ qnorm2 (s_q (p_s s)) = 1)); [|auto]. intros j r (A & B). split; [apply dt_range; exact A|apply predict_attitude; exact B]. }
  destruct I as (D' & U'). set (r := predictAll lim earth l s) in *. destruct (predict_limits lim earth i r L ltac:(lra)) as (A & B & C & E & F & G & H & J).
  split; [exact A|]. split; [exact B|]. split.
  { destruct C as (X & Y & Z). assert (20 * PI / 180 * p_dt r <= 20 * PI / 180 * (2 / 100)) by (pose proof PI_RGT_0; apply Rmult_le_compat_l; lra). unfold within. lra. }
  split. { destruct E as (X & Y & Z). assert (lim * p_dt r <= lim * (2 / 100)) by (apply Rmult_le_compat_l; lra). unfold within. lra. }
  split; [exact F|]. split; [exact G|]. split; [exact H|]. split; [exact J|]. split; [apply predict_attitude; exact U'|apply dt_range; exact D'].
Qed.
(** prediction changes no other state that is within its limits *)
Theorem C70_others_kept : forall (lim : R) (earth : V3) (i : pimu) (s : pred), in_limits lim (p_dt s) (p_s s) ->
  let x := p_s s in let y := p_s (predictState lim earth i s) in
  s_ab y = s_ab x /\ s_vb y = s_vb x /\ s_mi y = s_mi x /\ s_mb y = s_mb x /\ s_wn y = s_wn x /\ s_we y = s_we x.
Proof.
  intros lim earth i s (_ & _ & A & B & C & D & E & F). cbv zeta. destruct (predict_rest lim earth i s) as (_ & P & Q & R & S & T & V). cbv zeta in *.
  rewrite P, Q, R, S, T, V, !vcon_id by assumption. apply Rabs_le_inv in E. apply Rabs_le_inv in F. rewrite !rcon_id by lra. auto 10.
Qed.
(** a filter that starts at the truth, with the true biases, stays at the truth: any rotation, any sequence of legs of constant acceleration, any sample times *)
Theorem C70_exact_kinematics : forall (lim : R) (earth : V3) (l : list leg) (s : pred), qnorm2 (s_q (p_s s)) = 1 -> p_R s = dcm (s_q (p_s s)) -> 0 <= lim ->
  1 / 200 <= p_dt s <= 2 / 100 -> within (20 * PI / 180 / 200) (s_ab (p_s s)) -> within (lim / 200) (s_vb (p_s s)) ->
  let k := Kin (s_q (p_s s)) (s_v (p_s s)) (s_p (p_s s)) in
  (forall a b, l = a ++ b -> within 1000 (k_v (moveAll a k)) /\ within 1000000 (k_p (moveAll a k))) ->
  let x := p_s (predictAll lim earth (senseAll earth (s_ab (p_s s)) (s_vb (p_s s)) l k) s) in
  s_q x = k_q (moveAll l k) /\ s_v x = k_v (moveAll l k) /\ s_p x = k_p (moveAll l k).
Proof.
  intros lim earth l s U RR L D WA WV. cbv zeta. fold (kin_of s). intros K. pose proof (predict_tracks lim earth l s U RR L D WA WV K) as T. rewrite <- T. auto.
Qed.
(** constant acceleration: however the time is divided into samples, and however the vehicle turns, v = v0 + a T and p = p0 + v0 T + a T^2 / 2 *)
Theorem C70_constant_acceleration : forall (lim : R) (earth a : V3) (l : list leg) (s : pred), qnorm2 (s_q (p_s s)) = 1 -> p_R s = dcm (s_q (p_s s)) -> 0 <= lim ->
  1 / 200 <= p_dt s <= 2 / 100 -> within (20 * PI / 180 / 200) (s_ab (p_s s)) -> within (lim / 200) (s_vb (p_s s)) ->
  let k := Kin (s_q (p_s s)) (s_v (p_s s)) (s_p (p_s s)) in
  (forall h, In h l -> h_a h = a) ->
  (forall x y, l = x ++ y -> within 1000 (k_v (moveAll x k)) /\ within 1000000 (k_p (moveAll x k))) ->
  let x := p_s (predictAll lim earth (senseAll earth (s_ab (p_s s)) (s_vb (p_s s)) l k) s) in
  let T := fold_right (fun h t => h_dt h + t) 0 l in
  s_v x = vadd (s_v (p_s s)) (vscale T a) /\ s_p x = vadd (s_p (p_s s)) (vadd (vscale T (s_v (p_s s))) (vscale (T * T / 2) a)).
Proof.
  intros lim earth a l s U RR L D WA WV k A K. destruct (C70_exact_kinematics lim earth l s U RR L D WA WV K) as (_ & V & P). cbv zeta in *. fold k in V, P. rewrite V, P. exact (const_accel a l k A).
Qed.
(** a vehicle at rest on the turning earth is predicted at rest, for ever *)
Theorem C70_at_rest : forall (lim : R) (earth : V3) (dts : list R) (s : pred), qnorm2 (s_q (p_s s)) = 1 -> p_R s = dcm (s_q (p_s s)) -> 0 <= lim ->
  1 / 200 <= p_dt s <= 2 / 100 -> within (20 * PI / 180 / 200) (s_ab (p_s s)) -> within (lim / 200) (s_vb (p_s s)) ->
  s_v (p_s s) = vzero -> within 1000000 (s_p (p_s s)) ->
  let rt := mtr (dcm (s_q (p_s s))) in
  let imu := fun dt => Pimu (vadd (s_ab (p_s s)) (vscale dt (mapp rt earth))) (vadd (s_vb (p_s s)) (vscale dt (mapp rt (mkV 0 0 (- gravity))))) dt dt in
  let x := p_s (predictAll lim earth (map imu dts) s) in
  s_q x = s_q (p_s s) /\ s_v x = vzero /\ s_p x = s_p (p_s s).
Proof.
  intros lim earth dts s U RR L D WA WV V0 WP. cbv zeta. set (k := Kin (s_q (p_s s)) (s_v (p_s s)) (s_p (p_s s))).
  assert (ST : forall dt, moveLeg (Leg vzero vzero dt) k = k).
  { intros dt. unfold moveLeg, k. cbn [k_q k_v k_p h_w h_a h_dt]. rewrite V0. f_equal.
    - unfold qexp, vnorm2, vdot, vzero. cbn [vx vy vz]. replace (0 * 0 + 0 * 0 + 0 * 0) with 0 by ring. rewrite sqrt_0. destruct (Rlt_dec _ _) as [_|N]; [apply qmul_1_r|exfalso; apply N; apply Rdiv_lt_0_compat; [lra|apply pow_lt; lra]].
    - unfold vadd, vscale, vzero. cbn [vx vy vz]. f_equal; ring.
    - destruct (s_p (p_s s)) as [a b c]. unfold vadd, vscale, vzero. cbn [vx vy vz]. f_equal; ring. }
  assert (SA : forall l, moveAll (map (Leg vzero vzero) l) k = k) by (induction l as [|d l IH]; [reflexivity|]; cbn [map moveAll]; rewrite ST; exact IH).
  assert (SE : forall l, senseAll earth (s_ab (p_s s)) (s_vb (p_s s)) (map (Leg vzero vzero) l) k =
    map (fun dt => Pimu (vadd (s_ab (p_s s)) (vscale dt (mapp (mtr (dcm (s_q (p_s s)))) earth))) (vadd (s_vb (p_s s)) (vscale dt (mapp (mtr (dcm (s_q (p_s s)))) (mkV 0 0 (- gravity))))) dt dt) l).
  { induction l as [|d l IH]; [reflexivity|]. cbn [map senseAll]. rewrite ST, IH. f_equal. unfold senseLeg. rewrite ST. unfold k. cbn [k_q h_w h_a h_dt]. rewrite vadd_0_l. do 3 f_equal.
    unfold vsub, vzero. cbn [vx vy vz]. f_equal. f_equal; ring. }
  destruct (C70_exact_kinematics lim earth (map (Leg vzero vzero) dts) s U RR L D WA WV) as (A & B & C).
  { fold k. intros a b E. assert (a = map (Leg vzero vzero) (firstn (length a) dts)) as ->.
    { rewrite <- firstn_map, E, firstn_app, Nat.sub_diag, firstn_all. cbn [firstn]. rewrite app_nil_r. reflexivity. }
    rewrite SA. unfold k. cbn [k_v k_p]. split; [|exact WP]. rewrite V0. unfold within, vzero. cbn [vx vy vz]. rewrite Rabs_R0. lra. }
  cbv zeta in A, B, C. fold k in A, B, C. rewrite SE, SA in A, B, C. rewrite A, B, C. unfold k. cbn [k_q k_v k_p]. auto.
Qed.
(** dead reckoning: an initial velocity error stays as it is, an initial position error grows linearly with it *)
Theorem C70_error_growth : forall (lim : R) (earth : V3) (l : list pimu) (s t : pred), qnorm2 (s_q (p_s s)) = 1 ->
  s_q (p_s t) = s_q (p_s s) -> p_R t = p_R s -> s_ab (p_s t) = s_ab (p_s s) -> s_vb (p_s t) = s_vb (p_s s) -> p_dt t = p_dt s ->
  unlimitedAll lim earth l s -> unlimitedAll lim earth l t ->
  let s' := predictAll lim earth l s in let t' := predictAll lim earth l t in let T := fold_right (fun i t => pi_dvdt i + t) 0 l in
  s_q (p_s t') = s_q (p_s s') /\ vsub (s_v (p_s t')) (s_v (p_s s')) = vsub (s_v (p_s t)) (s_v (p_s s)) /\
  vsub (s_p (p_s t')) (s_p (p_s s')) = vadd (vsub (s_p (p_s t)) (s_p (p_s s))) (vscale T (vsub (s_v (p_s t)) (s_v (p_s s)))).
Proof. exact error_growth. Qed.
(** the average update period: one hundredth of the new (limited) period each time; it stays in [5 ms, 20 ms], and converges for a steady rate *)
Theorem C70_update_period : forall (lim c : R) (earth : V3) (l : list pimu) (s : pred), (forall i, In i l -> 1 / 2 * (pi_dvdt i + pi_dadt i) = c) -> 1 / 200 <= c <= 2 / 100 ->
  p_dt (predictAll lim earth l s) - c = (99 / 100) ^ length l * (p_dt s - c).
Proof. intros. apply dt_converges; assumption. Qed.
(** the filtered horizontal acceleration converges to a constant acceleration with a time constant of one second *)
Theorem C70_filtered_acceleration : forall (lim : R) (earth a : V3) (l : list leg) (s : pred), qnorm2 (s_q (p_s s)) = 1 -> p_R s = dcm (s_q (p_s s)) -> 0 <= lim ->
  1 / 200 <= p_dt s <= 2 / 100 -> within (20 * PI / 180 / 200) (s_ab (p_s s)) -> within (lim / 200) (s_vb (p_s s)) ->
  let k := Kin (s_q (p_s s)) (s_v (p_s s)) (s_p (p_s s)) in
  (forall h, In h l -> h_a h = a /\ 0 <= h_dt h <= 1) ->
  (forall x y, l = x ++ y -> within 1000 (k_v (moveAll x k)) /\ within 1000000 (k_p (moveAll x k))) ->
  let s' := predictAll lim earth (senseAll earth (s_ab (p_s s)) (s_vb (p_s s)) l k) s in
  let T := fold_right (fun h t => h_dt h + t) 0 l in
  Rabs (p_lpn s' - vx a) <= exp (- T) * Rabs (p_lpn s - vx a) /\ Rabs (p_lpe s' - vy a) <= exp (- T) * Rabs (p_lpe s - vy a).
Proof. intros lim earth a l s U RR L D WA WV k H K. apply (lpf_converges lim earth a l s); [unfold ready_state; auto 10|exact H|exact K]. Qed.
(** the raw angular rate: measured rotation over its period, kept when the period is 2.5 ms or less *)
Theorem C70_raw_rate : forall (lim : R) (earth : V3) (i : pimu) (s : pred), let s' := predictState lim earth i s in
  (1 / 400 < pi_dadt i -> vscale (pi_dadt i) (p_rate s') = pi_da i) /\ (pi_dadt i <= 1 / 400 -> p_rate s' = p_rate s).
Proof. exact predict_rate. Qed.

(** a tilted vehicle that turns, accelerates, and has biases *)
Definition ex_s : pred := Pred (PState (mkQ (4 / 5) (3 / 5) 0 0) (mkV 10 (-5) 1) (mkV 100 200 (-30)) (mkV (1 / 1000) 0 (-1 / 1000)) (mkV (1 / 1000) 0 0) (mkV (1 / 5) 0 (2 / 5)) (mkV 0 (1 / 10) 0) 3 4)
  (dcm (mkQ (4 / 5) (3 / 5) 0 0)) 0 0 (1 / 100) vzero.
Definition ex_legs : list leg := [Leg (mkV 0 0 (1 / 10)) (mkV 2 0 (-1)) (1 / 100); Leg vzero (mkV 2 0 (-1)) (12 / 1000)].
Example C70_ex : qnorm2 (s_q (p_s ex_s)) = 1 /\ p_R ex_s = dcm (s_q (p_s ex_s)) /\ 1 / 200 <= p_dt ex_s <= 2 / 100 /\
  within (20 * PI / 180 / 200) (s_ab (p_s ex_s)) /\ within (4 / 10 / 200) (s_vb (p_s ex_s)) /\
  (forall h, In h ex_legs -> h_a h = mkV 2 0 (-1) /\ 0 <= h_dt h <= 1) /\
  (forall a b, ex_legs = a ++ b -> within 1000 (k_v (moveAll a (kin_of ex_s))) /\ within 1000000 (k_p (moveAll a (kin_of ex_s)))) /\
  in_limits (4 / 10) (p_dt ex_s) (p_s ex_s).
Proof.
  assert (P3 : 3 < PI) by (pose proof PI_4; pose proof PI2_3_2; lra).
  split; [unfold qnorm2, ex_s; cbn; field|]. split; [reflexivity|]. split; [cbn; lra|].
  assert (W : forall b x y z, - b <= x <= b -> - b <= y <= b -> - b <= z <= b -> within b (mkV x y z)) by (intros b x y z X Y Z; unfold within; cbn [vx vy vz]; split; [|split]; apply Rabs_le; lra).
  split; [apply W; lra|]. split; [apply W; lra|].
  split. { intros h [<-|[<-|[]]]; cbn [h_a h_dt]; (split; [reflexivity|lra]). }
  split.
  { intros a b E. destruct a as [|h1 [|h2 [|h3 a]]]; cbn [app] in E; unfold ex_legs in E.
    - cbn [moveAll]. unfold kin_of, ex_s. cbn [k_v k_p p_s s_v s_p]. split; apply W; lra.
    - injection E as <- _. cbn [moveAll moveLeg]. unfold moveLeg, kin_of, ex_s, vadd, vscale. cbn [k_v k_p p_s s_v s_p h_a h_dt vx vy vz]. split; apply W; lra.
    - injection E as <- <- _. cbn [moveAll]. unfold moveLeg, kin_of, ex_s, vadd, vscale, vzero. cbn [k_v k_p p_s s_v s_p h_a h_dt vx vy vz]. split; apply W; lra.
    - discriminate E. }
  unfold in_limits, ex_s. cbn [p_s p_dt s_v s_p s_ab s_vb s_mi s_mb s_wn s_we].
  split; [apply W; lra|]. split; [apply W; lra|]. split; [apply W; lra|]. split; [apply W; lra|]. split; [apply W; lra|]. split; [apply W; lra|]. split; apply Rabs_le; lra.
Qed.

(** ** C71 *)
(** initialisation completes exactly at the first update with usable IMU periods at which enough barometer (and, if a magnetometer is used, magnetometer)
    samples have arrived, the filtered acceleration is within 20 % of gravity and the filtered rate is at most 15 degrees per second *)
Theorem C71_completes_exactly : forall (use_mag : bool) (n : Z) (l : list startin) (s : startst) (q : Q4), (Z.of_nat (length l) < 2 ^ 32)%Z ->
  (startRun use_mag n l start0 = (s, Some q) <->
   exists a i b, l = a ++ i :: b /\ usable i = true /\ ready use_mag n (a ++ [i]) /\
     (forall a' i' b', a = a' ++ i' :: b' -> usable i' = true -> ~ ready use_mag n (a' ++ [i'])) /\
     s = StartSt false (smooth (accels (a ++ [i]))) (smooth (gyros (a ++ [i]))) (smooth (mags (a ++ [i])))
           (Z.of_nat (length (mags (a ++ [i])))) (Z.of_nat (length (baros (a ++ [i])))) (rsmooth (baros (a ++ [i]))) /\
     q = tiltQuat (smooth (accels (a ++ [i])))).
Proof.
  intros um n l s q LEN. rewrite start0_stOf, (run_spec um n l [] q s LEN). cbn [app].
  split; intros (a & i & b & E & U & R & F & S & Q); exists a, i, b; (split; [exact E|]); (split; [exact U|]); (split; [exact R|]); (split; [exact F|]); (split; [|exact Q]); rewrite S; unfold stOf;
    rewrite filter_snoc, U; (assert (N : nil_b (filter usable a ++ [i]) = false) by (destruct (filter usable a); reflexivity)); rewrite N; reflexivity.
Qed.
(** the initial attitude: unit, heading zero, and the filtered acceleration points straight up *)
Theorem C71_initial_attitude : forall (use_mag : bool) (n : Z) (l : list startin) (s : startst) (q : Q4), (Z.of_nat (length l) < 2 ^ 32)%Z ->
  startRun use_mag n l start0 = (s, Some q) ->
  qnorm2 q = 1 /\ mapp (dcm q) (u_acc s) = mkV 0 0 (- sqrt (vnorm2 (u_acc s))) /\
  m10 (dcm q) = 0 /\ 0 <= m00 (dcm q) /\ (m00 (dcm q) <> 0 -> yaw321 (dcm q) = 0).
Proof.
  intros um n l s q LEN H. apply (C71_completes_exactly um n l s q LEN) in H. destruct H as (a & i & b & E & U & (_ & _ & A & _) & _ & -> & ->). cbn [u_acc].
  set (acc := smooth _) in *. assert (P : 0 < vnorm acc) by (unfold gravity in A; lra).
  split; [apply quatOfEuler_unit|]. split; [exact (tilt_up acc P)|]. destruct (tilt_third_row acc P) as (_ & _ & _ & M & N). cbv zeta in *. split; [exact M|]. split; [exact N|].
  intros NZ. unfold yaw321. rewrite M. unfold atan2. destruct (Rlt_dec 0 _) as [_|X]; [|lra]. unfold Rdiv. rewrite Rmult_0_l. apply atan_0.
Qed.
(** a vehicle at rest: initialisation finds its true roll and pitch; only the heading is open *)
Theorem C71_at_rest_tilt : forall (use_mag : bool) (n : Z) (l : list startin) (s : startst) (q truth : Q4), (Z.of_nat (length l) < 2 ^ 32)%Z ->
  qnorm2 truth = 1 ->
  (forall i, In i l -> pi_dv (st_imu i) = vscale (pi_dvdt (st_imu i)) (mapp (mtr (dcm truth)) (mkV 0 0 (- gravity)))) ->
  startRun use_mag n l start0 = (s, Some q) ->
  exists d, - PI < d <= PI /\ dcm truth = mmul (Rz d) (dcm q).
Proof.
  intros um n l s q truth LEN U IM H. apply (C71_completes_exactly um n l s q LEN) in H. destruct H as (a & i & b & E & US & _ & _ & _ & ->).
  assert (S : smooth (accels (a ++ [i])) = mapp (mtr (dcm truth)) (mkV 0 0 (- gravity))).
  { apply smooth_const.
    - unfold accels. rewrite filter_snoc, US, map_app. destruct (map _ (filter usable a)); discriminate.
    - intros u I. unfold accels in I. apply in_map_iff in I. destruct I as (j & <- & J). apply filter_In in J. destruct J as (J & UJ). apply usable_true in UJ.
      rewrite IM by (rewrite E; apply in_app_iff in J; apply in_or_app; destruct J as [J|[<-|[]]]; [left; exact J|right; left; reflexivity]).
      destruct (mapp _ _) as [x y z]. unfold vscale. cbn [vx vy vz]. f_equal; field; lra. }
  rewrite S. apply tilt_true; [exact U|unfold gravity; lra].
Qed.
(** the height reference starts within the range of the barometer samples received *)
Theorem C71_baro_offset_in_hull : forall (use_mag : bool) (n : Z) (lo hi : R) (l : list startin) (s : startst) (q : Q4), (Z.of_nat (length l) < 2 ^ 32)%Z -> (0 < n)%Z ->
  (forall i t h, In i l -> st_baro i = Some (t, h) -> lo <= h <= hi) ->
  startRun use_mag n l start0 = (s, Some q) -> lo <= u_off s <= hi.
Proof.
  intros um n lo hi l s q LEN NP B H. apply (C71_completes_exactly um n l s q LEN) in H. destruct H as (a & i & b & E & US & (_ & R & _) & _ & -> & _). cbn [u_off].
  apply rsmooth_hull; [intros Z; rewrite Z in R; cbn in R; lia|].
  intros h I. unfold baros in I. apply in_flat_map in I. destruct I as (j & J & I). apply filter_In in J. destruct J as (J & _). unfold stamped in I. destruct (st_baro j) as [[t h']|] eqn:SB; [|destruct I].
  destruct (t =? 0)%Z; [destruct I|]. destruct I as [<-|[]]. apply (B j t h'); [|exact SB]. rewrite E. apply in_app_iff in J. apply in_or_app. destruct J as [J|[<-|[]]]; [left; exact J|right; left; reflexivity].
Qed.
(** updates whose IMU periods are below 0.1 ms are ignored altogether *)
Theorem C71_unusable_ignored : forall (use_mag : bool) (n : Z) (i : startin) (s : startst),
  pi_dvdt (st_imu i) < 1 / 10000 \/ pi_dadt (st_imu i) < 1 / 10000 -> startStep use_mag n i s = (s, None).
Proof. intros um n i s H. apply step_unusable. unfold usable. destruct (Rle_dec _ _); [|reflexivity]. destruct (Rle_dec _ _); [lra|reflexivity]. Qed.
(** a moving or turning vehicle never initialises *)
Theorem C71_never_while_moving : forall (use_mag : bool) (n : Z) (l : list startin), (Z.of_nat (length l) < 2 ^ 32)%Z ->
  (forall a i b, l = a ++ i :: b -> sqrt (vnorm2 (smooth (accels (a ++ [i])))) < 8 / 10 * gravity \/ 12 / 10 * gravity < sqrt (vnorm2 (smooth (accels (a ++ [i])))) \/ 15 * PI / 180 < sqrt (vnorm2 (smooth (gyros (a ++ [i]))))) ->
  snd (startRun use_mag n l start0) = None.
Proof.
  intros um n l LEN H. destruct (startRun um n l start0) as [s [q|]] eqn:E; [|reflexivity]. exfalso. apply (C71_completes_exactly um n l s q LEN) in E. destruct E as (a & i & b & E & _ & (_ & _ & A & G) & _).
  specialize (H a i b E). unfold vnorm in *. lra.
Qed.
(** one update that delivers everything; the vehicle lies on its side *)
Example C71_ex : exists q, snd (startRun true 1 [StartIn (Pimu vzero (mkV 0 (- (98 / 1000)) 0) (1 / 100) (1 / 100)) (Some (5%Z, mkV (1 / 5) 0 (2 / 5))) (Some (7%Z, 400))] start0) = Some q /\ mapp (dcm q) (mkV 0 (-98 / 10) 0) = mkV 0 0 (- (98 / 10)).
Proof.
  set (i := StartIn _ _ _). assert (US : usable i = true) by (unfold usable, i; cbn [st_imu pi_dvdt pi_dadt]; destruct (Rle_dec _ _); [|lra]; reflexivity).
  assert (SA : smooth (accels [i]) = mkV 0 (-98 / 10) 0).
  { unfold accels. cbn [filter]. rewrite US. cbn [map smooth fold_left]. unfold i, vscale. cbn [st_imu pi_dvdt pi_dv vx vy vz]. f_equal; field. }
  assert (NA : vnorm (mkV 0 (-98 / 10) 0) = 98 / 10).
  { unfold vnorm, vnorm2, vdot. cbn [vx vy vz]. replace (0 * 0 + -98 / 10 * (-98 / 10) + 0 * 0) with (Rsqr (98 / 10)) by (unfold Rsqr; field). apply sqrt_Rsqr. lra. }
  assert (RD : ready true 1 [i]).
  { unfold ready. rewrite SA, NA. unfold mags, baros, gyros. cbn [filter]. rewrite US. cbn. split; [intros _; lia|]. split; [lia|]. split; [unfold gravity; lra|].
    unfold vnorm, vnorm2, vdot, vscale, vzero. cbn [vx vy vz]. replace (/ (1 / 100) * 0 * (/ (1 / 100) * 0) + / (1 / 100) * 0 * (/ (1 / 100) * 0) + / (1 / 100) * 0 * (/ (1 / 100) * 0)) with 0 by ring. rewrite sqrt_0. pose proof PI_RGT_0. lra. }
  exists (tiltQuat (mkV 0 (-98 / 10) 0)). split.
  - assert (E : startRun true 1 [i] start0 = (stOf [i], Some (tiltQuat (smooth (accels [i]))))).
    { rewrite start0_stOf. apply (run_spec true 1 [i] []); [cbn; lia|]. exists [], i, []. split; [reflexivity|]. split; [exact US|]. split; [exact RD|]. split; [intros a' i' b' X; destruct a'; discriminate X|auto]. }
    rewrite E, SA. reflexivity.
  - rewrite tilt_up by (rewrite NA; lra). rewrite NA. reflexivity.
Qed.

(** state limits: each component becomes the nearest value within its limits (nothing else), so in-limit states are untouched *)
Definition nearest (b x y : R) : Prop := Rabs y <= b /\ forall z, Rabs z <= b -> Rabs (y - x) <= Rabs (z - x).
Definition nearest3 (b : R) (v w : V3) : Prop := nearest b (vx v) (vx w) /\ nearest b (vy v) (vy w) /\ nearest b (vz v) (vz w).
Lemma rcon_nearest b x : 0 <= b -> nearest b x (rcon (- b) b x).
Proof.
  intros B. unfold nearest, rcon. destruct (Rlt_dec x (- b)); [|destruct (Rlt_dec b x)].
  - split; [rewrite Rabs_Ropp, Rabs_right; lra|]. intros z Z. apply Rabs_le_inv in Z. rewrite !Rabs_right; lra.
  - split; [rewrite Rabs_right; lra|]. intros z Z. apply Rabs_le_inv in Z. rewrite !Rabs_left1; lra.
  - split; [apply Rabs_le; lra|]. intros z Z. rewrite Rminus_eq_0, Rabs_R0. apply Rabs_pos.
Qed.
Theorem C70_state_limits : forall (lim dt : R) (s : pstate), 0 <= lim -> 0 <= dt -> let s' := constrainStates lim dt s in
  nearest 1 (q0 (s_q s)) (q0 (s_q s')) /\ nearest 1 (q1 (s_q s)) (q1 (s_q s')) /\ nearest 1 (q2 (s_q s)) (q2 (s_q s')) /\ nearest 1 (q3 (s_q s)) (q3 (s_q s')) /\
  nearest3 1000 (s_v s) (s_v s') /\ nearest3 1000000 (s_p s) (s_p s') /\ nearest3 (20 * PI / 180 * dt) (s_ab s) (s_ab s') /\ nearest3 (lim * dt) (s_vb s) (s_vb s') /\
  nearest3 1 (s_mi s) (s_mi s') /\ nearest3 (1 / 2) (s_mb s) (s_mb s') /\ nearest 100 (s_wn s) (s_wn s') /\ nearest 100 (s_we s) (s_we s').
Proof.
  intros lim dt s A B. cbv zeta. assert (P : 0 <= 20 * PI / 180 * dt) by (pose proof PI_RGT_0; apply Rmult_le_pos; lra). assert (L : 0 <= lim * dt) by (apply Rmult_le_pos; lra).
  assert (V : forall b v, 0 <= b -> nearest3 b v (vcon b v)) by (intros b v H; unfold nearest3, vcon; cbn [vx vy vz]; split; [|split]; apply rcon_nearest; exact H).
  unfold constrainStates. cbn [s_q s_v s_p s_ab s_vb s_mi s_mb s_wn s_we]. unfold qcon. cbn [q0 q1 q2 q3].
  pose proof (fun x => rcon_nearest 1 x ltac:(lra)) as N1. pose proof (fun x => rcon_nearest 100 x ltac:(lra)) as N2.
  split; [apply N1|]. split; [apply N1|]. split; [apply N1|]. split; [apply N1|]. split; [apply V; lra|]. split; [apply V; lra|]. split; [apply V; exact P|]. split; [apply V; exact L|].
  split; [apply V; lra|]. split; [apply V; lra|]. split; apply N2.
Qed.
Print Assumptions C70_state_limits.
Print Assumptions C70_attitude.
Print Assumptions C70_exact_kinematics.
Print Assumptions C71_completes_exactly.
Print Assumptions C71_at_rest_tilt.

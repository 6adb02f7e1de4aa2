(** * Proofs about prediction and start-up *)
From Coq Require Import Reals Lra Psatz ZArith List Lia.
From Verif Require Import RealGeom RotModel RotProofs PredictModel.
Import ListNotations.
Open Scope R_scope.

Lemma Rabs_le_inv x b : Rabs x <= b -> - b <= x <= b.
Proof. intros H. pose proof (Rle_abs x). pose proof (Rle_abs (- x)) as M. rewrite Rabs_Ropp in M. lra. Qed.

(** ** Limits *)
Lemma rcon_id lo hi x : lo <= x <= hi -> rcon lo hi x = x.
Proof. intros H. unfold rcon. destruct (Rlt_dec x lo); [lra|]. destruct (Rlt_dec hi x); [lra|reflexivity]. Qed.
Lemma rcon_range lo hi x : lo <= hi -> lo <= rcon lo hi x <= hi.
Proof. intros H. unfold rcon. destruct (Rlt_dec x lo); [lra|]. destruct (Rlt_dec hi x); lra. Qed.
(** every component within [b] *)
Definition within (b : R) (v : V3) : Prop := Rabs (vx v) <= b /\ Rabs (vy v) <= b /\ Rabs (vz v) <= b.
Lemma vcon_id b v : within b v -> vcon b v = v.
Proof.
  destruct v as [x y z]. intros (A & B & C). cbn [vx vy vz] in *. apply Rabs_le_inv in A. apply Rabs_le_inv in B. apply Rabs_le_inv in C.
  unfold vcon. cbn [vx vy vz]. rewrite !rcon_id by lra. reflexivity.
Qed.
Lemma vcon_within b v : 0 <= b -> within b (vcon b v).
Proof. intros H. unfold within, vcon. cbn [vx vy vz]. pose proof (rcon_range (- b) b (vx v)). pose proof (rcon_range (- b) b (vy v)). pose proof (rcon_range (- b) b (vz v)). split; [|split]; apply Rabs_le; lra. Qed.
Lemma qcon_unit q : qnorm2 q = 1 -> qcon q = q.
Proof.
  destruct q as [a b c d]. unfold qnorm2, qcon. cbn [q0 q1 q2 q3]. intros H.
  rewrite !rcon_id; [reflexivity|split; nra..].
Qed.
(** the states respect their limits *)
Definition in_limits (acc_bias_lim dt : R) (s : pstate) : Prop :=
  within 1000 (s_v s) /\ within 1000000 (s_p s) /\ within (20 * PI / 180 * dt) (s_ab s) /\ within (acc_bias_lim * dt) (s_vb s) /\
  within 1 (s_mi s) /\ within (1 / 2) (s_mb s) /\ Rabs (s_wn s) <= 100 /\ Rabs (s_we s) <= 100.
Lemma constrain_limits lim dt s : 0 <= lim -> 0 <= dt -> in_limits lim dt (constrainStates lim dt s).
Proof.
  intros A B. assert (P : 0 <= 20 * PI / 180 * dt) by (pose proof PI_RGT_0; apply Rmult_le_pos; lra). assert (L : 0 <= lim * dt) by (apply Rmult_le_pos; lra).
  unfold in_limits, constrainStates. cbn [s_v s_p s_ab s_vb s_mi s_mb s_wn s_we].
  split; [apply vcon_within; lra|]. split; [apply vcon_within; lra|]. split; [apply vcon_within; exact P|]. split; [apply vcon_within; exact L|]. split; [apply vcon_within; lra|]. split; [apply vcon_within; lra|].
  pose proof (rcon_range (-100) 100 (s_wn s)). pose proof (rcon_range (-100) 100 (s_we s)). split; apply Rabs_le; lra.
Qed.
Lemma constrain_id lim dt s : qnorm2 (s_q s) = 1 -> in_limits lim dt s -> constrainStates lim dt s = s.
Proof.
  intros Q (A & B & C & D & E & F & G & H). destruct s as [q v p ab vb mi mb wn we]. cbn [s_q s_v s_p s_ab s_vb s_mi s_mb s_wn s_we] in *. unfold constrainStates. cbn [s_q s_v s_p s_ab s_vb s_mi s_mb s_wn s_we].
  rewrite qcon_unit, !vcon_id by assumption. apply Rabs_le_inv in G. apply Rabs_le_inv in H. rewrite !rcon_id by lra. reflexivity.
Qed.

(** ** The rotation of a rotation vector: Rodrigues' formula *)
Definition rodrigues (w x : V3) : V3 :=
  let a := sqrt (vnorm2 w) in let n := vscale (/ a) w in
  vadd (vadd (vscale (cos a) x) (vscale (sin a) (cross n x))) (vscale ((1 - cos a) * vdot n x) n).
Lemma dcm_qexp w x : 1 / 10 ^ 10 <= sqrt (vnorm2 w) -> mapp (dcm (qexp w)) x = rodrigues w x.
Proof.
  intros H. unfold qexp. destruct (Rlt_dec _ _) as [L|L]; [lra|]. clear L. unfold rodrigues. set (a := sqrt (vnorm2 w)) in *.
  assert (A : 0 < a) by (assert (0 < 1 / 10 ^ 10) by (apply Rdiv_lt_0_compat; [lra|apply pow_lt; lra]); lra).
  assert (E : a * a = vnorm2 w). { unfold a. apply sqrt_sqrt. destruct w as [p q r]. unfold vnorm2, vdot. cbn [vx vy vz]. nra. }
  clearbody a.
  assert (N : vnorm2 (vscale (/ a) w) = 1).
  { transitivity (/ a * / a * vnorm2 w); [destruct w as [w1 w2 w3]; unfold vnorm2, vdot, vscale; cbn [vx vy vz]; ring|]. rewrite <- E. field. lra. }
  set (n := vscale (/ a) w) in *.
  assert (EQ : mkQ (cos (a / 2)) (vx w / a * sin (a / 2)) (vy w / a * sin (a / 2)) (vz w / a * sin (a / 2)) = mkQ (cos (a / 2)) (vx n * sin (a / 2)) (vy n * sin (a / 2)) (vz n * sin (a / 2))).
  { unfold n, vscale. cbn [vx vy vz]. f_equal; unfold Rdiv; ring. }
  rewrite EQ. clear EQ H E. clearbody n. replace (cos a) with (cos (2 * (a / 2))) by (f_equal; field). replace (sin a) with (sin (2 * (a / 2))) by (f_equal; field).
  rewrite sin_2a, cos_2a. pose proof (sc (a / 2)) as S1. set (c := cos (a / 2)) in *. set (h := sin (a / 2)) in *. clearbody c h. clear A.
  destruct n as [n1 n2 n3], x as [x1 x2 x3]. unfold vnorm2, vdot in N. cbn [vx vy vz] in N.
  unfold mapp, dcm, vadd, vscale, cross, vdot. cbn [vx vy vz q0 q1 q2 q3 m00 m01 m02 m10 m11 m12 m20 m21 m22].
  assert (N' : 1 - (n1 * n1 + n2 * n2 + n3 * n3) = 0) by lra. assert (S' : 1 - (h * h + c * c) = 0) by lra.
  f_equal; apply Rminus_diag_uniq.
  - transitivity (h * h * x1 * (1 - (n1 * n1 + n2 * n2 + n3 * n3)) - (1 - (h * h + c * c)) * n1 * (n1 * x1 + n2 * x2 + n3 * x3)); [ring|rewrite N', S'; ring].
  - transitivity (h * h * x2 * (1 - (n1 * n1 + n2 * n2 + n3 * n3)) - (1 - (h * h + c * c)) * n2 * (n1 * x1 + n2 * x2 + n3 * x3)); [ring|rewrite N', S'; ring].
  - transitivity (h * h * x3 * (1 - (n1 * n1 + n2 * n2 + n3 * n3)) - (1 - (h * h + c * c)) * n3 * (n1 * x1 + n2 * x2 + n3 * x3)); [ring|rewrite N', S'; ring].
Qed.

(** ** One prediction step *)
Lemma predict_attitude lim earth i s : qnorm2 (s_q (p_s s)) = 1 ->
  let s' := predictState lim earth i s in
  s_q (p_s s') = qmul (s_q (p_s s)) (qexp (corrected_da earth i s)) /\ qnorm2 (s_q (p_s s')) = 1 /\ p_R s' = dcm (s_q (p_s s')).
Proof.
  intros U. cbv zeta.
  assert (N : qnorm2 (qmul (s_q (p_s s)) (qexp (corrected_da earth i s))) = 1) by (rewrite qnorm2_mul, U, qexp_unit; ring).
  unfold predictState, constrainStates. cbv zeta. cbn [p_s p_R s_q]. rewrite (qnormalize_unit _ N), (qcon_unit _ N). auto.
Qed.
(** the velocity and position before the limits are applied *)
Definition nextVel (i : pimu) (vb : V3) (r : M3) (v : V3) : V3 := vadd (vadd v (mapp r (vsub (pi_dv i) vb))) (mkV 0 0 (gravity * pi_dvdt i)).
Lemma predict_motion lim earth i s : qnorm2 (s_q (p_s s)) = 1 ->
  let s' := predictState lim earth i s in
  let v' := nextVel i (s_vb (p_s s)) (p_R s') (s_v (p_s s)) in
  let p' := vadd (s_p (p_s s)) (vscale (pi_dvdt i / 2) (vadd (s_v (p_s s)) v')) in
  s_v (p_s s') = vcon 1000 v' /\ s_p (p_s s') = vcon 1000000 p'.
Proof.
  intros U. destruct (predict_attitude lim earth i s U) as (A & B & C). cbv zeta in *. rewrite C.
  rewrite A. assert (N : qnorm2 (qmul (s_q (p_s s)) (qexp (corrected_da earth i s))) = 1) by (rewrite qnorm2_mul, U, qexp_unit; ring).
  unfold predictState, constrainStates. cbv zeta. cbn [p_s p_R s_q s_v s_p]. rewrite (qnormalize_unit _ N).
  set (d := mapp _ _). set (v := s_v (p_s s)). set (p := s_p (p_s s)).
  assert (E : mkV (vx (vadd v d)) (vy (vadd v d)) (vz (vadd v d) + gravity * pi_dvdt i) = nextVel i (s_vb (p_s s)) (dcm (qmul (s_q (p_s s)) (qexp (corrected_da earth i s)))) v).
  { unfold nextVel. fold d. destruct v as [v1 v2 v3], d as [d1 d2 d3]. unfold vadd. cbn [vx vy vz]. f_equal; ring. }
  rewrite E. split; [reflexivity|]. f_equal. set (w := nextVel _ _ _ _). destruct v as [v1 v2 v3], w as [w1 w2 w3], p as [x1 x2 x3]. unfold vadd, vscale. cbn [vx vy vz]. f_equal; field.
Qed.
Lemma predict_rest lim earth i s :
  let s' := predictState lim earth i s in
  p_dt s' = 99 / 100 * p_dt s + 1 / 100 * rcon (1 / 200) (2 / 100) (1 / 2 * (pi_dvdt i + pi_dadt i)) /\
  s_ab (p_s s') = vcon (20 * PI / 180 * p_dt s) (s_ab (p_s s)) /\ s_vb (p_s s') = vcon (lim * p_dt s) (s_vb (p_s s)) /\
  s_mi (p_s s') = vcon 1 (s_mi (p_s s)) /\ s_mb (p_s s') = vcon (1 / 2) (s_mb (p_s s)) /\
  s_wn (p_s s') = rcon (-100) 100 (s_wn (p_s s)) /\ s_we (p_s s') = rcon (-100) 100 (s_we (p_s s)).
Proof. cbv zeta. unfold predictState, constrainStates. cbv zeta. cbn [p_s p_dt s_ab s_vb s_mi s_mb s_wn s_we]. repeat (split; [reflexivity|]). reflexivity. Qed.
(** limits *)
Lemma predict_limits lim earth i s : 0 <= lim -> 0 <= p_dt s -> in_limits lim (p_dt s) (p_s (predictState lim earth i s)).
Proof. intros. unfold predictState. cbv zeta. cbn [p_s]. apply constrain_limits; assumption. Qed.
Lemma dt_range lim earth i s : 1 / 200 <= p_dt s <= 2 / 100 -> 1 / 200 <= p_dt (predictState lim earth i s) <= 2 / 100.
Proof. intros H. destruct (predict_rest lim earth i s) as (A & _). rewrite A. pose proof (rcon_range (1 / 200) (2 / 100) (1 / 2 * (pi_dvdt i + pi_dadt i)) ltac:(lra)). lra. Qed.
Lemma predictAll_app lim earth a b s : predictAll lim earth (a ++ b) s = predictAll lim earth b (predictAll lim earth a s).
Proof. revert s. induction a as [|i a IH]; intros s; [reflexivity|]. cbn [app predictAll]. apply IH. Qed.
Lemma predictAll_inv (P : pred -> Prop) lim earth : (forall i s, P s -> P (predictState lim earth i s)) -> forall l s, P s -> P (predictAll lim earth l s).
Proof. intros H. induction l as [|i l IH]; intros s S; [exact S|]. cbn [predictAll]. apply IH, H, S. Qed.
(** average update period: geometric convergence *)
Lemma dt_converges lim earth c l s : (forall i, In i l -> 1 / 2 * (pi_dvdt i + pi_dadt i) = c) -> 1 / 200 <= c <= 2 / 100 ->
  p_dt (predictAll lim earth l s) - c = (99 / 100) ^ length l * (p_dt s - c).
Proof.
  intros H C. revert s H. induction l as [|i l IH]; intros s H; [cbn [predictAll length pow]; ring|].
  cbn [predictAll length]. rewrite IH by (intros j J; apply H; right; exact J). destruct (predict_rest lim earth i s) as (A & _). rewrite A, (H i (or_introl eq_refl)), rcon_id by exact C.
  cbn [pow]. field.
Qed.
(** horizontal acceleration filter *)
Lemma predict_lpf lim earth i s : qnorm2 (s_q (p_s s)) = 1 ->
  let s' := predictState lim earth i s in let d := mapp (p_R s') (vsub (pi_dv i) (s_vb (p_s s))) in
  p_lpn s' = (1 - pi_dvdt i) * p_lpn s + vx d /\ p_lpe s' = (1 - pi_dvdt i) * p_lpe s + vy d.
Proof.
  intros U. destruct (predict_attitude lim earth i s U) as (A & B & C). cbv zeta in *. unfold predictState. cbv zeta. cbn [p_R p_lpn p_lpe]. split; ring.
Qed.
Lemma predict_rate lim earth i s : let s' := predictState lim earth i s in
  (1 / 400 < pi_dadt i -> vscale (pi_dadt i) (p_rate s') = pi_da i) /\ (pi_dadt i <= 1 / 400 -> p_rate s' = p_rate s).
Proof.
  cbv zeta. unfold predictState. cbv zeta. cbn [p_rate]. destruct (Rlt_dec (1 / 400) (pi_dadt i)) as [L|L]; split; intros H; try lra; [|reflexivity].
  destruct (pi_da i) as [a b c]. unfold vscale. cbn [vx vy vz]. f_equal; field; lra.
Qed.

(** ** True motion, perfect inertial sensor *)
(** over an interval the vehicle turns by the rotation vector [h_w] (body axes) and has the constant acceleration [h_a] (earth axes) *)
Record leg := Leg { h_w : V3; h_a : V3; h_dt : R }.
Record kin := Kin { k_q : Q4; k_v : V3; k_p : V3 }.
Definition moveLeg (h : leg) (k : kin) : kin :=
  Kin (qmul (k_q k) (qexp (h_w h))) (vadd (k_v k) (vscale (h_dt h) (h_a h)))
      (vadd (k_p k) (vadd (vscale (h_dt h) (k_v k)) (vscale (h_dt h * h_dt h / 2) (h_a h)))).
(** what an inertial sensor with biases (per sample) [bg], [ba] reports for the leg: rotation relative to inertial space,
    specific force (acceleration minus gravity) in body axes at the end of the leg *)
Definition senseLeg (earth bg ba : V3) (h : leg) (k : kin) : pimu :=
  Pimu (vadd (vadd (h_w h) bg) (vscale (h_dt h) (mapp (mtr (dcm (k_q k))) earth)))
       (vadd ba (vscale (h_dt h) (mapp (mtr (dcm (k_q (moveLeg h k)))) (vsub (h_a h) (mkV 0 0 gravity))))) (h_dt h) (h_dt h).
Fixpoint moveAll (l : list leg) (k : kin) : kin := match l with [] => k | h :: r => moveAll r (moveLeg h k) end.
Fixpoint senseAll (earth bg ba : V3) (l : list leg) (k : kin) : list pimu :=
  match l with [] => [] | h :: r => senseLeg earth bg ba h k :: senseAll earth bg ba r (moveLeg h k) end.
Definition kin_of (s : pred) : kin := Kin (s_q (p_s s)) (s_v (p_s s)) (s_p (p_s s)).
Definition kin_ok (k : kin) : Prop := within 1000 (k_v k) /\ within 1000000 (k_p k).

Lemma rot_undo q v : qnorm2 q = 1 -> mapp (dcm q) (mapp (mtr (dcm q)) v) = v.
Proof. intros H. rewrite <- mapp_mmul. destruct (dcm_rotation q H) as (A & _). rewrite A. apply mapp_ident. Qed.
Lemma vsub_self a b : vsub (vadd b a) b = a.
Proof. destruct a as [a1 a2 a3], b as [b1 b2 b3]. unfold vsub, vadd. cbn [vx vy vz]. f_equal; ring. Qed.

Lemma predict_tracks1 lim earth h s : qnorm2 (s_q (p_s s)) = 1 -> p_R s = dcm (s_q (p_s s)) -> 0 <= lim ->
  1 / 200 <= p_dt s <= 2 / 100 -> within (20 * PI / 180 / 200) (s_ab (p_s s)) -> within (lim / 200) (s_vb (p_s s)) ->
  kin_ok (moveLeg h (kin_of s)) ->
  let s' := predictState lim earth (senseLeg earth (s_ab (p_s s)) (s_vb (p_s s)) h (kin_of s)) s in
  kin_of s' = moveLeg h (kin_of s) /\ s_ab (p_s s') = s_ab (p_s s) /\ s_vb (p_s s') = s_vb (p_s s).
Proof.
  intros U RR L D WA WV (K1 & K2). set (i := senseLeg _ _ _ _ _). cbv zeta.
  assert (CD : corrected_da earth i s = h_w h).
  { unfold corrected_da, i, senseLeg, kin_of. cbn [pi_da pi_dadt k_q]. rewrite RR. set (e := mapp _ earth). destruct (h_w h) as [a b c], (s_ab (p_s s)) as [a1 b1 c1], e as [a2 b2 c2]. unfold vsub, vadd, vscale. cbn [vx vy vz]. f_equal; ring. }
  destruct (predict_attitude lim earth i s U) as (A & B & C). destruct (predict_motion lim earth i s U) as (MV & MP). destruct (predict_rest lim earth i s) as (_ & RA & RV & _). cbv zeta in *.
  rewrite CD in A.
  assert (V : nextVel i (s_vb (p_s s)) (p_R (predictState lim earth i s)) (s_v (p_s s)) = k_v (moveLeg h (kin_of s))).
  { rewrite C, A. unfold nextVel, i, senseLeg. cbn [pi_dv pi_dvdt]. rewrite vsub_self, mapp_vscale. unfold moveLeg, kin_of. cbn [k_q k_v].
    rewrite rot_undo by (rewrite <- A; exact B). destruct (s_v (p_s s)) as [v1 v2 v3], (h_a h) as [a1 a2 a3]. unfold vadd, vscale, vsub. cbn [vx vy vz kin_of k_v]. f_equal; ring. }
  rewrite V in MV, MP.
  assert (P : vadd (s_p (p_s s)) (vscale (pi_dvdt i / 2) (vadd (s_v (p_s s)) (k_v (moveLeg h (kin_of s))))) = k_p (moveLeg h (kin_of s))).
  { unfold i, senseLeg, moveLeg, kin_of. cbn [pi_dvdt k_v k_p]. destruct (s_v (p_s s)) as [v1 v2 v3], (h_a h) as [a1 a2 a3], (s_p (p_s s)) as [p1 p2 p3]. unfold vadd, vscale. cbn [vx vy vz]. f_equal; field. }
  rewrite P in MP. rewrite vcon_id in MV by exact K1. rewrite vcon_id in MP by exact K2. rewrite vcon_id in RA, RV.
  - split; [|auto]. unfold kin_of at 1. rewrite A, MV, MP. unfold moveLeg, kin_of. cbn [k_q k_v k_p]. reflexivity.
  - assert (lim / 200 <= lim * p_dt s) by nra. destruct WV as (X & Y & Z). unfold within. lra.
  - assert (20 * PI / 180 / 200 <= 20 * PI / 180 * p_dt s) by (pose proof PI_RGT_0; nra). destruct WA as (X & Y & Z). unfold within. lra.
Qed.
Lemma predict_tracks lim earth l : forall s, qnorm2 (s_q (p_s s)) = 1 -> p_R s = dcm (s_q (p_s s)) -> 0 <= lim ->
  1 / 200 <= p_dt s <= 2 / 100 -> within (20 * PI / 180 / 200) (s_ab (p_s s)) -> within (lim / 200) (s_vb (p_s s)) ->
  (forall a b, l = a ++ b -> kin_ok (moveAll a (kin_of s))) ->
  kin_of (predictAll lim earth (senseAll earth (s_ab (p_s s)) (s_vb (p_s s)) l (kin_of s)) s) = moveAll l (kin_of s).
Proof.
  induction l as [|h l IH]; intros s U RR L D WA WV K; [reflexivity|]. cbn [senseAll predictAll moveAll].
  destruct (predict_tracks1 lim earth h s U RR L D WA WV (K [h] l eq_refl)) as (A & B & C). cbv zeta in *.
  destruct (predict_attitude lim earth (senseLeg earth (s_ab (p_s s)) (s_vb (p_s s)) h (kin_of s)) s U) as (_ & U' & R'). cbv zeta in *.
  pose proof (dt_range lim earth (senseLeg earth (s_ab (p_s s)) (s_vb (p_s s)) h (kin_of s)) s D) as D'.
  set (s' := predictState _ _ _ _) in *. rewrite <- A. rewrite <- B at 1. rewrite <- C at 1. apply IH; try assumption; [rewrite B; exact WA|rewrite C; exact WV|].
  intros a b E. rewrite A. specialize (K (h :: a) b). cbn [moveAll] in K. apply K. rewrite E. reflexivity.
Qed.

(** total time of a history *)
Definition legTime (l : list leg) : R := fold_right (fun h t => h_dt h + t) 0 l.
Lemma const_accel a l : forall k, (forall h, In h l -> h_a h = a) ->
  k_v (moveAll l k) = vadd (k_v k) (vscale (legTime l) a) /\
  k_p (moveAll l k) = vadd (k_p k) (vadd (vscale (legTime l) (k_v k)) (vscale (legTime l * legTime l / 2) a)).
Proof.
  induction l as [|h l IH]; intros k H.
  - cbn [moveAll legTime fold_right]. destruct (k_v k) as [v1 v2 v3], (k_p k) as [p1 p2 p3], a as [a1 a2 a3]. unfold vadd, vscale. cbn [vx vy vz]. split; f_equal; field.
  - cbn [moveAll]. destruct (IH (moveLeg h k)) as (A & B); [intros g G; apply H; right; exact G|]. rewrite A, B. unfold moveLeg. cbn [k_v k_p legTime fold_right]. rewrite (H h (or_introl eq_refl)). fold (legTime l). set (t := legTime l).
    destruct (k_v k) as [v1 v2 v3], (k_p k) as [p1 p2 p3], a as [a1 a2 a3]. unfold vadd, vscale. cbn [vx vy vz]. split; f_equal; field.
Qed.

(** ** Tilt initialisation *)
Lemma dcm_quatOfEuler2 a b c : dcm (quatOfEuler (2 * a) (2 * b) (2 * c)) = dcm321 (2 * a) (2 * b) (2 * c).
Proof.
  unfold dcm321, quatOfEuler, dcm. cbn [q0 q1 q2 q3].
  replace (2 * a / 2) with a by field. replace (2 * b / 2) with b by field. replace (2 * c / 2) with c by field.
  rewrite !sin_2a, !cos_2a. pose proof (sc a) as A. pose proof (sc b) as B. pose proof (sc c) as C.
  set (sa := sin a) in *. set (ca := cos a) in *. set (sb := sin b) in *. set (cb := cos b) in *. set (s := sin c) in *. set (k := cos c) in *. clearbody sa ca sb cb s k.
  assert (A' : 1 - (sa * sa + ca * ca) = 0) by lra. assert (B' : 1 - (sb * sb + cb * cb) = 0) by lra. assert (C' : 1 - (s * s + k * k) = 0) by lra.
  assert (A2 : sa * sa = 1 - ca * ca) by lra. assert (B2 : sb * sb = 1 - cb * cb) by lra. assert (C2 : s * s = 1 - k * k) by lra.
  f_equal; ring [A2 B2 C2].
Qed.
Lemma quatOfEuler_unit a b c : qnorm2 (quatOfEuler a b c) = 1.
Proof.
  unfold quatOfEuler, qnorm2. cbn [q0 q1 q2 q3]. pose proof (sc (a / 2)) as A. pose proof (sc (b / 2)) as B. pose proof (sc (c / 2)) as C.
  set (sa := sin (a / 2)) in *. set (ca := cos (a / 2)) in *. set (sb := sin (b / 2)) in *. set (cb := cos (b / 2)) in *. set (s := sin (c / 2)) in *. set (k := cos (c / 2)) in *. clearbody sa ca sb cb s k.
  transitivity ((sa * sa + ca * ca) * (sb * sb + cb * cb) * (s * s + k * k)); [ring|]. rewrite A, B, C. ring.
Qed.
Lemma dcm_quatOfEuler a b c : dcm (quatOfEuler a b c) = dcm321 a b c.
Proof. replace a with (2 * (a / 2)) by field. replace b with (2 * (b / 2)) by field. replace c with (2 * (c / 2)) by field. apply dcm_quatOfEuler2. Qed.
Lemma vnorm2_ge0 v : 0 <= vnorm2 v. Proof. destruct v as [a b c]. unfold vnorm2, vdot. cbn [vx vy vz]. nra. Qed.
Lemma vnorm_sq v : vnorm v * vnorm v = vnorm2 v. Proof. unfold vnorm. apply sqrt_sqrt, vnorm2_ge0. Qed.
Lemma vnorm_ge0 v : 0 <= vnorm v. Proof. apply sqrt_pos. Qed.
Lemma tilt_third_row acc : 0 < vnorm acc -> let r := dcm (tiltQuat acc) in
  vnorm acc * m20 r = - vx acc /\ vnorm acc * m21 r = - vy acc /\ vnorm acc * m22 r = - vz acc /\ m10 r = 0 /\ 0 <= m00 r.
Proof.
  intros H. cbv zeta. unfold tiltQuat. rewrite dcm_quatOfEuler.
  set (n := vnorm acc) in *. set (g := vscale (/ n) acc).
  assert (G : vx g * vx g + vy g * vy g + vz g * vz g = 1).
  { pose proof (vnorm_sq acc) as Q. fold n in Q. unfold g, vscale. cbn [vx vy vz]. transitivity (/ n * / n * vnorm2 acc); [unfold vnorm2, vdot; ring|rewrite <- Q; field; lra]. }
  assert (GX : n * vx g = vx acc) by (unfold g, vscale; cbn [vx]; field; lra).
  assert (GY : n * vy g = vy acc) by (unfold g, vscale; cbn [vy]; field; lra).
  assert (GZ : n * vz g = vz acc) by (unfold g, vscale; cbn [vz]; field; lra).
  clearbody g. destruct g as [g1 g2 g3]. cbn [vx vy vz] in *.
  assert (L : -1 <= g1 <= 1) by nra. pose proof (sin_asin g1 L) as SA. pose proof (cos_asin g1 L) as CA. pose proof (sqrt_pos (1 - Rsqr g1)) as SP.
  assert (CR : cos (atan2 (- g2) (- g3)) * cos (asin g1) = - g3 /\ sin (atan2 (- g2) (- g3)) * cos (asin g1) = - g2).
  { rewrite CA. destruct (Req_dec g3 0) as [Z3|Z3]; [destruct (Req_dec g2 0) as [Z2|Z2]|].
    - subst. replace (1 - Rsqr g1) with 0 by (unfold Rsqr; lra). rewrite sqrt_0. split; ring.
    - destruct (atan2_polar (- g2) (- g3)) as (_ & X & Y); [right; lra|]. replace (- g3 * - g3 + - g2 * - g2) with (1 - Rsqr g1) in X, Y by (unfold Rsqr; lra). rewrite Rmult_comm in X, Y. lra.
    - destruct (atan2_polar (- g2) (- g3)) as (_ & X & Y); [left; lra|]. replace (- g3 * - g3 + - g2 * - g2) with (1 - Rsqr g1) in X, Y by (unfold Rsqr; lra). rewrite Rmult_comm in X, Y. lra. }
  destruct CR as (C1 & C2). unfold dcm321. cbn [m00 m10 m20 m21 m22]. rewrite SA, C1, C2, sin_0, cos_0, CA.
  split; [lra|]. split; [lra|]. split; [lra|]. split; [ring|lra].
Qed.
Lemma tilt_up acc : 0 < vnorm acc -> mapp (dcm (tiltQuat acc)) acc = mkV 0 0 (- vnorm acc).
Proof.
  intros H. destruct (tilt_third_row acc H) as (A & B & C & D & E). cbv zeta in *.
  assert (U : qnorm2 (tiltQuat acc) = 1) by apply quatOfEuler_unit.
  pose proof (rotation_preserves_norm (dcm (tiltQuat acc)) acc (dcm_rotation _ U)) as N. set (r := dcm (tiltQuat acc)) in *. rewrite <- (vnorm_sq acc) in N.
  assert (Z : vz (mapp r acc) = - vnorm acc).
  { pose proof (vnorm_sq acc) as Q. unfold mapp. cbn [vz]. apply (Rmult_eq_reg_l (vnorm acc)); [|lra].
    transitivity ((vnorm acc * m20 r) * vx acc + (vnorm acc * m21 r) * vy acc + (vnorm acc * m22 r) * vz acc); [ring|]. rewrite A, B, C. unfold vnorm2, vdot in Q. lra. }
  destruct (mapp r acc) as [x y z]. unfold vnorm2, vdot in N. cbn [vx vy vz] in *. subst z. assert (x * x + y * y = 0) by lra. f_equal; nra.
Qed.
(** a vehicle at rest with true attitude [q]: the initial attitude is the true one up to a turn about the vertical *)
Lemma tilt_true q g : qnorm2 q = 1 -> 0 < g ->
  exists d, - PI < d <= PI /\ dcm q = mmul (Rz d) (dcm (tiltQuat (mapp (mtr (dcm q)) (mkV 0 0 (- g))))).
Proof.
  intros U G. set (acc := mapp (mtr (dcm q)) (mkV 0 0 (- g))). pose proof (dcm_rotation q U) as RQ.
  assert (N : vnorm acc = g).
  { unfold vnorm, acc. rewrite (rotation_preserves_norm _ _ (rot_tr _ RQ)). unfold vnorm2, vdot. cbn [vx vy vz]. replace (0 * 0 + 0 * 0 + - g * - g) with (Rsqr g) by (unfold Rsqr; ring). apply sqrt_Rsqr. lra. }
  destruct (tilt_third_row acc) as (A & B & C & _); [lra|]. cbv zeta in *. rewrite N in A, B, C.
  apply same_tilt_Rz; [apply dcm_rotation, quatOfEuler_unit|exact RQ|..]; symmetry; (apply (Rmult_eq_reg_l g); [|lra]).
  - rewrite A. unfold acc, mapp, mtr. cbn [vx m00 m01 m02 m10 m11 m12 m20 m21 m22 vy vz]. ring.
  - rewrite B. unfold acc, mapp, mtr. cbn [vx m00 m01 m02 m10 m11 m12 m20 m21 m22 vy vz]. ring.
  - rewrite C. unfold acc, mapp, mtr. cbn [vx m00 m01 m02 m10 m11 m12 m20 m21 m22 vy vz]. ring.
Qed.

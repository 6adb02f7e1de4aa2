(** * C85: the specific force samples used by drag fusion *)
From Coq Require Import Reals Lra Lia ZArith List Bool.
From Verif Require Import CBase Scalar F32 F32More RealGeom FilterModel DragModel InterfaceModel InterfaceProofs3.
Import ListNotations.
Open Scope Z_scope.

(** ** Specification *)
Section G.
Context {T : Type} {S : Scalar T}.
Definition sumf (f : dragIn T -> T) (g : list (dragIn T)) : T := fold_left (fun a x => sadd a (f x)) g szero.
Definition sumt (g : list (dragIn T)) : Z := fold_left (fun a x => add64 a (di_t x)) g 0.
(** accumulated delta velocity over accumulated period, mean time stamp *)
Definition groupMean (g : list (dragIn T)) : dragOut T :=
  DragOut (sumt g / Z.of_nat (length g)) (sdiv (sumf di_x g) (sumf di_dt g)) (sdiv (sumf di_y g) (sumf di_dt g)).

Definition acc (g : list (dragIn T)) (s : dragSt T) : dragSt T :=
  DragSt (dr_n s + Z.of_nat (length g)) (fold_left (fun a x => sadd a (di_x x)) g (dr_x s)) (fold_left (fun a x => sadd a (di_y x)) g (dr_y s))
    (fold_left (fun a x => add64 a (di_t x)) g (dr_t s)) (fold_left (fun a x => sadd a (di_dt x)) g (dr_dt s)).
Definition onl (l : list (dragIn T)) : list (bool * dragIn T) := map (fun x => (true, x)) l.
Lemma run_short r : r <= 255 -> forall g (s : dragSt T), 0 <= dr_n s -> dr_n s + Z.of_nat (length g) < r -> dragRun r (onl g) s = ([], acc g s).
Proof.
  intros Hr g. induction g as [|x g IH]; intros s H0 HL.
  - cbn [onl map dragRun]. unfold acc. cbn [length fold_left]. replace (dr_n s + Z.of_nat 0) with (dr_n s) by lia. destruct s; reflexivity.
  - cbn [onl map dragRun]. fold (onl g). unfold setDragData. cbn [negb]. cbv zeta. cbn [length] in HL. rewrite Nat2Z.inj_succ in HL.
    assert (U : u8 (dr_n s + 1) = dr_n s + 1) by (apply u8_small; rewrite two8_val; lia). rewrite U.
    destruct (Z.geb_spec (dr_n s + 1) r); [lia|]. rewrite IH; cbn [dr_n]; [|lia|lia]. f_equal. unfold acc. cbn [dr_n dr_x dr_y dr_t dr_dt length fold_left].
    rewrite Nat2Z.inj_succ. f_equal. lia.
Qed.
Lemma run_app r a : forall b (s : dragSt T), dragRun r (a ++ b) s =
  (fst (dragRun r a s) ++ fst (dragRun r b (snd (dragRun r a s))), snd (dragRun r b (snd (dragRun r a s)))).
Proof.
  induction a as [|[on x] a IH]; intros b s; [cbn [app dragRun fst snd]; destruct (dragRun r b s); reflexivity|].
  cbn [app dragRun]. destruct (setDragData on r x s) as [s1 o]. rewrite IH. destruct (dragRun r a s1) as [os s2]. cbn [fst snd]. destruct o; reflexivity.
Qed.
Lemma run_group r (g : list (dragIn T)) : 1 <= r <= 255 -> Z.of_nat (length g) = r -> dragRun r (onl g) drag0 = ([groupMean g], drag0).
Proof.
  intros Hr HL. destruct (@exists_last _ g) as (h & x & ->). { intros ->. cbn in HL. lia. }
  rewrite app_length in HL. cbn [length] in HL. rewrite Nat2Z.inj_add in HL.
  unfold onl. rewrite map_app. rewrite run_app. fold (onl h). rewrite run_short by (cbn [dr_n drag0]; lia). cbn [fst snd app map dragRun].
  unfold setDragData. cbn [negb]. cbv zeta.
  assert (N : dr_n (acc h drag0) = r - 1). { unfold acc. cbn [dr_n drag0]. lia. }
  assert (U : u8 (dr_n (acc h drag0) + 1) = r) by (rewrite N, u8_small by (rewrite two8_val; lia); lia). rewrite U.
  destruct (Z.geb_spec r r); [|lia]. cbn [fst snd]. f_equal. f_equal.
  unfold groupMean, sumf, sumt. rewrite app_length. cbn [length]. replace (Z.of_nat (length h + 1)) with r by lia. rewrite !fold_left_app. cbn [fold_left]. reflexivity.
Qed.
End G.
Open Scope Z_scope.

(** every buffered drag sample is the mean of its own group of [r] consecutive
    inputs and of nothing else; a NaN or infinite input spoils only its own group
    (any arithmetic, in particular binary32) *)
Theorem C85_samples_are_group_means {T} {S : Scalar T} (r : nat) (l : list (dragIn T)) : (5 <= r <= 255)%nat ->
  let out := fst (dragRun (Z.of_nat r) (onl l) drag0) in
  length out = (length l / r)%nat /\
  forall i, (i < length l / r)%nat -> nth_error out i = Some (groupMean (firstn r (skipn (i * r) l))).
Proof.
  intros Hr. cbv zeta. remember (length l / r)%nat as k eqn:Ek. revert l Ek. induction k as [|k IH]; intros l Ek.
  - assert (L : (length l < r)%nat). { apply Nat.div_small_iff; [lia|congruence]. }
    rewrite run_short by (cbn [dr_n drag0]; lia). split; [reflexivity|]. intros i Hi. lia.
  - assert (L : (r <= length l)%nat). { destruct (le_lt_dec r (length l)); [assumption|]. rewrite Nat.div_small in Ek by assumption. discriminate. }
    assert (E : l = firstn r l ++ skipn r l) by (symmetry; apply firstn_skipn).
    assert (LF : length (firstn r l) = r) by (rewrite firstn_length; lia).
    assert (LK : (length (skipn r l) / r = k)%nat).
    { rewrite skipn_length. replace (length l) with ((length l - r) + 1 * r)%nat in Ek by lia. rewrite Nat.div_add in Ek by lia. lia. }
    destruct (IH (skipn r l) (eq_sym LK)) as (A & B).
    assert (RUN : fst (dragRun (Z.of_nat r) (onl l) drag0) = groupMean (firstn r l) :: fst (dragRun (Z.of_nat r) (onl (skipn r l)) drag0)).
    { rewrite E at 1. unfold onl. rewrite map_app, run_app. fold (onl (firstn r l)). fold (onl (skipn r l)). rewrite run_group by lia. reflexivity. }
    rewrite RUN. split; [cbn [length]; lia|]. intros [|i] Hi; [reflexivity|]. cbn [nth_error]. rewrite B by lia. f_equal. f_equal. f_equal.
    replace (Datatypes.S i * r)%nat with (i * r + r)%nat by lia. clear. revert l. generalize (i * r)%nat as m. induction r as [|r IH]; intros m l; [cbn; rewrite Nat.add_0_r; reflexivity|].
    destruct l as [|x l]; [rewrite !skipn_nil; reflexivity|]. replace (m + Datatypes.S r)%nat with (Datatypes.S (m + r)) by lia. cbn [skipn]. apply IH.
Qed.

(** ** Exact arithmetic: a period-weighted mean acceleration *)
Open Scope R_scope.
Definition rsumf (f : dragIn R -> R) (g : list (dragIn R)) : R := fold_right (fun x a => f x + a) 0 g.
Lemma sumf_R f g : @sumf R RScalar f g = rsumf f g.
Proof.
  unfold sumf. assert (H : forall a, fold_left (fun a x => sadd a (f x)) g a = a + rsumf f g).
  { induction g as [|x g IH]; intros a; [cbn [fold_left rsumf fold_right]; ring|]. cbn [fold_left]. rewrite IH. change (sadd a (f x)) with (a + f x). unfold rsumf. cbn [fold_right]. ring. }
  rewrite H. unfold szero. cbn [slit RScalar]. field.
Qed.
Theorem C85_between_the_accelerations (g : list (dragIn R)) (f : dragIn R -> R) (lo hi : R) :
  g <> [] -> Forall (fun x => 0 < di_dt x /\ lo <= f x / di_dt x <= hi) g ->
  lo <= rsumf f g / rsumf di_dt g <= hi.
Proof.
  intros NE H. assert (P : 0 < rsumf di_dt g /\ lo * rsumf di_dt g <= rsumf f g <= hi * rsumf di_dt g).
  { destruct g as [|x g]; [contradiction|]. clear NE. revert x H. induction g as [|y g IH]; intros x H; inversion H as [|? ? (D & A & B) HR]; subst.
    - cbn [rsumf fold_right]. assert (E : f x = f x / di_dt x * di_dt x) by (field; lra). split; [lra|]. rewrite E. split; nra.
    - destruct (IH y HR) as (D2 & A2 & B2). assert (C : forall h, rsumf h (x :: y :: g) = h x + rsumf h (y :: g)) by reflexivity. rewrite !C.
      assert (E : f x = f x / di_dt x * di_dt x) by (field; lra). split; [lra|]. rewrite E. split; nra. }
  destruct P as (D & A & B). split; apply Rmult_le_reg_r with (rsumf di_dt g); try lra; unfold Rdiv; rewrite Rmult_assoc, Rinv_l by lra; lra.
Qed.
(** a constant acceleration is reported exactly *)
Theorem C85_constant_acceleration (g : list (dragIn R)) (a : R) : g <> [] -> Forall (fun x => 0 < di_dt x /\ di_x x = a * di_dt x) g ->
  do_x (groupMean g) = a.
Proof.
  intros NE H. unfold groupMean. cbn [do_x sdiv RScalar]. rewrite !sumf_R.
  destruct (C85_between_the_accelerations g di_x a a NE) as (A & B); [|lra]. revert H. apply Forall_impl. intros x (D & E). split; [exact D|].
  rewrite E. replace (a * di_dt x / di_dt x) with a by (field; lra). lra.
Qed.
Open Scope Z_scope.

(** ** Time stamps *)
Theorem C85_time_is_the_mean {T} {S : Scalar T} (g : list (dragIn T)) (lo hi : Z) : g <> [] -> (length g <= 255)%nat ->
  0 <= lo -> hi < 2 ^ 56 -> Forall (fun x => lo <= di_t x <= hi) g ->
  do_t (groupMean g) = fold_right (fun x a => di_t x + a) 0 g / Z.of_nat (length g) /\ lo <= do_t (groupMean g) <= hi.
Proof.
  intros NE HL H0 HH H. unfold groupMean. cbn [do_t]. unfold sumt.
  assert (P56 : 2 ^ 56 = 72057594037927936) by reflexivity. assert (P64 : 2 ^ 64 = 18446744073709551616) by reflexivity.
  assert (K : forall (l : list (dragIn T)) a, Forall (fun x => lo <= di_t x <= hi) l -> 0 <= a -> a + Z.of_nat (length l) * hi < 2 ^ 64 ->
    fold_left (fun a x => add64 a (di_t x)) l a = a + fold_right (fun x a => di_t x + a) 0 l).
  { induction l as [|x l IH]; intros a HF A B; [cbn [fold_left fold_right]; lia|]. inversion HF as [|? ? HX HR]; subst. cbn [length] in B. rewrite Nat2Z.inj_succ in B.
    assert (0 <= Z.of_nat (length l) * hi) by nia.
    assert (E : add64 a (di_t x) = a + di_t x). { unfold add64, u64. rewrite two64_val. apply Z.mod_small. lia. }
    cbn [fold_left fold_right]. rewrite E, IH; [lia|exact HR|lia|lia]. }
  assert (B : forall l, Forall (fun x : dragIn T => lo <= di_t x <= hi) l -> lo * Z.of_nat (length l) <= fold_right (fun x a => di_t x + a) 0 l <= hi * Z.of_nat (length l)).
  { induction 1 as [|x l HX HR IH]; [cbn; lia|]. cbn [length fold_right]. rewrite Nat2Z.inj_succ. lia. }
  rewrite K; [|exact H|lia|nia]. rewrite Z.add_0_l. split; [reflexivity|]. specialize (B g H).
  assert (0 < Z.of_nat (length g)) by (destruct g; [contradiction|cbn [length]; lia]).
  split; [apply Z.div_le_lower_bound; lia|apply Z.div_le_upper_bound; lia].
Qed.

(** ** Selecting and deselecting drag fusion *)
(** inputs delivered while drag fusion is not selected leave the accumulators as
    they are: a group is completed with the next samples after the gap, however long *)
Theorem C85_gap_is_bridged {T} {S : Scalar T} (r : Z) (l : list (bool * dragIn T)) (s : dragSt T) :
  dragRun r l s = dragRun r (filter fst l) s.
Proof.
  revert s. induction l as [|[on x] l IH]; intros s; [reflexivity|]. destruct on; cbn [filter fst dragRun].
  - destruct (setDragData true r x s) as [s1 o]. rewrite IH. reflexivity.
  - cbn [setDragData negb]. rewrite IH. destruct (dragRun r (filter fst l) s) as [os s2]. reflexivity.
Qed.
(** so a sample can be stamped far from every input of the last group: four inputs
    at t, one 50 s later give the mean, 10 s after t *)
Theorem C85_stamp_after_gap_refuted :
  let x (t : Z) : dragIn R := DragIn t 0%R 0%R (1 / 100)%R in
  let l := [(true, x 1000000); (true, x 1000000); (true, x 1000000); (true, x 1000000); (false, x 2000000); (true, x 51000000)] in
  map do_t (fst (dragRun 5 l drag0)) = [11000000].
Proof. cbv zeta. rewrite C85_gap_is_bridged. reflexivity. Qed.

(** ** Which IMU samples enter *)
Section W.
Variable qlog : Q4 -> V3.
Variable target : f32.
(** completion depends only on the integration periods *)
Definition same_pace (x y : imu_sample) : Prop := i_dang_dt x = i_dang_dt y.
Definition st_eq (s1 s2 : ds_state) : Prop := ds_do_reset s1 = ds_do_reset s2 /\ ds_adj s1 = ds_adj s2 /\ i_dang_dt (ds_acc s1) = i_dang_dt (ds_acc s2).
Definition done_at (x : imu_sample) (s : ds_state) : bool := fst (ds_update qlog target x s).
Lemma pace_step x y s1 s2 : same_pace x y -> st_eq s1 s2 ->
  done_at x s1 = done_at y s2 /\ st_eq (snd (ds_update qlog target x s1)) (snd (ds_update qlog target y s2)).
Proof.
  intros P (A & B & C). unfold done_at, ds_update, same_pace in *. rewrite <- A.
  assert (E : st_eq (if ds_do_reset s1 then ds_reset s1 else s1) (if ds_do_reset s1 then ds_reset s2 else s2)).
  { destruct (ds_do_reset s1) eqn:D; [|split; [congruence|split; assumption]]. unfold ds_reset, st_eq. cbn [ds_do_reset ds_adj ds_acc i_dang_dt]. auto. }
  set (u1 := if ds_do_reset s1 then ds_reset s1 else s1) in *. set (u2 := if ds_do_reset s1 then ds_reset s2 else s2) in *. clearbody u1 u2.
  destruct E as (E1 & E2 & E3). cbv zeta. rewrite <- E3, <- P, <- E2.
  destruct (fge (fadd (i_dang_dt (ds_acc u1)) (i_dang_dt x)) (fsub target (ds_adj u1))); cbn [fst snd]; (split; [reflexivity|]); unfold st_eq; cbn [ds_do_reset ds_adj ds_acc i_dang_dt]; auto.
Qed.
(** two streams of equal pace that carry the same sample wherever the down-sampler completes *)
Inductive agree : list imu_sample -> list imu_sample -> ds_state -> ds_state -> Prop :=
| ag_nil s1 s2 : agree [] [] s1 s2
| ag_done x l l' s1 s2 : done_at x s1 = true ->
    agree l l' (snd (ds_get (snd (ds_update qlog target x s1)))) (snd (ds_get (snd (ds_update qlog target x s2)))) -> agree (x :: l) (x :: l') s1 s2
| ag_skip x y l l' s1 s2 : done_at x s1 = false -> same_pace x y ->
    agree l l' (snd (ds_update qlog target x s1)) (snd (ds_update qlog target y s2)) -> agree (x :: l) (y :: l') s1 s2.
Lemma completing_agree l l' s1 s2 : agree l l' s1 s2 -> st_eq s1 s2 -> completing qlog target l s1 = completing qlog target l' s2.
Proof.
  induction 1 as [s1 s2|x l l' s1 s2 D H IH|x y l l' s1 s2 D P H IH]; intros E; cbn [completing]; [reflexivity| |].
  - destruct (pace_step x x s1 s2 eq_refl E) as (A & B). unfold done_at in D, A. destruct (ds_update qlog target x s1) as [b1 t1]. destruct (ds_update qlog target x s2) as [b2 t2]. cbn [fst snd] in *. subst b1. subst b2.
    f_equal. apply IH. unfold ds_get, st_eq. cbn [snd ds_do_reset ds_adj ds_acc]. destruct B as (B1 & B2 & B3). auto.
  - destruct (pace_step x y s1 s2 P E) as (A & B). unfold done_at in D, A. destruct (ds_update qlog target x s1) as [b1 t1]. destruct (ds_update qlog target y s2) as [b2 t2]. cbn [fst snd] in *. subst b1. subst b2. apply IH. exact B.
Qed.
(** DEFECT: only the raw sample that completes a down-sampled one enters; the drag
    samples do not depend on the specific force measured in between *)
Theorem C85_only_completing_samples_count (ratio : Z) (l l' : list imu_sample) :
  agree l l' ds_init ds_init -> dragStream qlog target ratio l = dragStream qlog target ratio l'.
Proof. intros H. unfold dragStream. rewrite (completing_agree l l' ds_init ds_init H); [reflexivity|]. split; [reflexivity|]. split; reflexivity. Qed.
End W.

(** a stream at 250 Hz with target period 10 ms: every third raw sample completes.
    The acceleration is 0 at those and 10 m/s^2 in between: the mean specific force
    is 20/3 m/s^2, the drag observation is 0 *)
Definition raw (t : Z) (a : R) : imu_sample :=
  {| i_time := t; i_dang := vzero; i_dvel := mkV (a * R32 (flit 4 1000)) 0 0; i_dang_dt := flit 4 1000; i_dvel_dt := flit 4 1000;
     i_clip0 := false; i_clip1 := false; i_clip2 := false |}.
Definition triple (t : Z) : list imu_sample := [raw t 10; raw (t + 4000) 10; raw (t + 8000) 0].
Definition aliased : list imu_sample := triple 1000000 ++ triple 1012000 ++ triple 1024000 ++ triple 1036000 ++ triple 1048000.
(** completion pattern as a function of the periods alone *)
Fixpoint pace (target : f32) (l : list f32) (a adj : f32) (rst : bool) : list bool :=
  match l with
  | [] => []
  | d :: r =>
      let a := if rst then f0 else a in
      let p := fadd a d in
      if fge p (fsub target adj)
      then true :: pace target r p (math_constrain (fadd adj (fmul (flit 1 100) (fsub p target))) (fmul (fneg (flit 1 2)) target) (fmul (flit 1 2) target)) true
      else false :: pace target r p adj false
  end.
Fixpoint pick (l : list imu_sample) (b : list bool) : list imu_sample :=
  match l, b with x :: l, true :: b => x :: pick l b | _ :: l, false :: b => pick l b | _, _ => [] end.
Lemma completing_pick qlog target l : forall s, completing qlog target l s = pick l (pace target (map i_dang_dt l) (i_dang_dt (ds_acc s)) (ds_adj s) (ds_do_reset s)).
Proof.
  induction l as [|x l IH]; intros s; [reflexivity|]. cbn [completing map pace].
  destruct (ds_do_reset s) eqn:D.
  - unfold ds_update. rewrite D. cbv zeta. cbn [ds_acc ds_reset i_dang_dt ds_adj ds_q ds_do_reset i_dvel].
    destruct (fge (fadd f0 (i_dang_dt x)) (fsub target (ds_adj s))); cbn [ds_get snd pick]; rewrite IH; reflexivity.
  - unfold ds_update. rewrite D. cbv zeta.
    destruct (fge (fadd (i_dang_dt (ds_acc s)) (i_dang_dt x)) (fsub target (ds_adj s))); cbn [ds_get snd pick]; rewrite IH; cbn [ds_acc i_dang_dt ds_adj ds_do_reset]; rewrite ?D; reflexivity.
Qed.
Lemma aliased_pace : pace (flit 1 100) (map i_dang_dt aliased) f0 f0 true = concat (repeat [false; false; true] 5).
Proof. vm_compute. reflexivity. Qed.
Open Scope R_scope.
Theorem C85_mean_specific_force_refuted (qlog : Q4 -> V3) :
  map (fun o => (do_t o, do_x o)) (dragStream qlog (flit 1 100) 5 aliased) = [(1032000%Z, 0)] /\
  fold_right (fun x a => vx (i_dvel x) + a) 0 aliased / fold_right (fun x a => R32 (i_dvel_dt x) + a) 0 aliased = 20 / 3.
Proof.
  assert (D : 0 < R32 (flit 4 1000)). { destruct (flit_R 4 1000 ltac:(lia) ltac:(lia)) as (E & _). rewrite E. destruct (rnd32_bounds (4 / 1000)) as (A & B); lra. }
  split.
  - unfold dragStream. rewrite completing_pick.
    replace (pick aliased _) with [raw 1008000 0; raw 1020000 0; raw 1032000 0; raw 1044000 0; raw 1056000 0].
    2:{ transitivity (pick aliased (concat (repeat [false; false; true] 5))); [reflexivity|]. rewrite <- aliased_pace. reflexivity. }
    set (g := [raw 1008000 0; _; _; _; _]). change (map (fun x => (true, rawDrag x)) g) with (onl (map rawDrag g)). rewrite run_group; [|lia|reflexivity].
    cbn [fst map]. f_equal. f_equal. apply C85_constant_acceleration; [discriminate|]. unfold g. repeat (constructor; [cbn [rawDrag raw di_dt di_x i_dvel_dt i_dvel vx]; split; [exact D|ring]|]). constructor.
  - unfold aliased, triple. cbn [app fold_right raw i_dvel i_dvel_dt vx]. field. lra.
Qed.
Open Scope Z_scope.
(** the group size the code computes is within the range used above, for all buffer lengths the interface can choose *)
Theorem C85_group_size (imu_len obs_len : Z) : 1 <= obs_len <= imu_len -> imu_len <= 255 ->
  exists r, drag_ratio imu_len obs_len = Ok (Z.of_nat r) /\ (5 <= r <= 255)%nat.
Proof.
  intros A B. destruct (drag_ratio_ok imu_len obs_len A B) as (r & E & R). exists (Z.to_nat r). rewrite Z2Nat.id by lia. split; [exact E|lia].
Qed.
Example C85_two_groups : let x (t : Z) (a : R) : dragIn R := DragIn t (a / 100)%R 0%R (1 / 100)%R in
  let l := map (fun k => x (1000000 + 10000 * Z.of_nat k) (INR k)) (seq 0 12) in
  length (fst (dragRun 5 (onl l) drag0)) = 2%nat /\ map do_t (fst (dragRun 5 (onl l) drag0)) = [1020000; 1070000].
Proof. cbv zeta. split; reflexivity. Qed.
Print Assumptions C85_samples_are_group_means.
Print Assumptions C85_between_the_accelerations.
Print Assumptions C85_only_completing_samples_count.
Print Assumptions C85_mean_specific_force_refuted.

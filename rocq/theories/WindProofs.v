(** proofs about the wind estimator model *)
From Coq Require Import ZArith Bool Reals Lra Lia Psatz List.
From Coquelicot Require Import Coquelicot.
From Verif Require Import CBase F32 F32More Scalar RotModel RealGeom WindModel.
Import ListNotations.
Open Scope R_scope.

Definition rlibm : libm R := mkLibm R cos sin atan2 (fun _ => true).
Lemma div1 a : a / 1 = a. Proof. field. Qed.
Ltac rs := unfold szero, sone, smax in *; cbn [RScalar sadd ssub smul sdiv sopp sabs ssqrt slt sle slit sfmax] in *; rewrite ?div1 in *.

(** quadratic form of a 3x3 matrix *)
Definition bil3 (u : nat -> R) (P : Mat R) (v : nat -> R) : R :=
  u 0%nat * (P 0%nat 0%nat * v 0%nat + P 0%nat 1%nat * v 1%nat + P 0%nat 2%nat * v 2%nat) +
  u 1%nat * (P 1%nat 0%nat * v 0%nat + P 1%nat 1%nat * v 1%nat + P 1%nat 2%nat * v 2%nat) +
  u 2%nat * (P 2%nat 0%nat * v 0%nat + P 2%nat 1%nat * v 1%nat + P 2%nat 2%nat * v 2%nat).
Definition psd3 (P : Mat R) : Prop := forall v, 0 <= bil3 v P v.
Definition sym3 {T} (P : Mat T) : Prop := forall i j, (i < 3)%nat -> (j < 3)%nat -> P i j = P j i.

Lemma lt3 (Q : nat -> Prop) : Q 0%nat -> Q 1%nat -> Q 2%nat -> forall i, (i < 3)%nat -> Q i.
Proof. intros A B C i H. destruct i as [|[|[|i]]]; try assumption. lia. Qed.
Lemma sym3_intro {T} (P : Mat T) : P 0%nat 1%nat = P 1%nat 0%nat -> P 0%nat 2%nat = P 2%nat 0%nat -> P 1%nat 2%nat = P 2%nat 1%nat -> sym3 P.
Proof. intros A B C i j Hi Hj. destruct i as [|[|[|i]]], j as [|[|[|j]]]; try lia; auto. Qed.

Lemma wn_diag P k : psd3 P -> (k < 3)%nat -> 0 <= P k k.
Proof.
  intros H Hk. specialize (H (fun i => if (i =? k)%nat then 1 else 0)). unfold bil3 in H.
  destruct k as [|[|[|k]]]; [..|lia]; cbn [Nat.eqb] in H; lra.
Qed.

(** Joseph-style update *)
Lemma upd_psd3 P h Sv r : sym3 P -> psd3 P -> 0 < r -> Sv = bil3 h P h + r ->
  psd3 (fun i j => P i j - (P i 0%nat * h 0%nat + P i 1%nat * h 1%nat + P i 2%nat * h 2%nat) * (1 / Sv) * (h 0%nat * P 0%nat j + h 1%nat * P 1%nat j + h 2%nat * P 2%nat j)).
Proof.
  intros Y H Hr HS v. pose proof (H h) as Hh. assert (Sp : 0 < Sv) by lra.
  set (c := bil3 v P h). set (t := c / Sv).
  pose proof (H (fun i => v i - t * h i)) as Q.
  assert (Ys : P 1%nat 0%nat = P 0%nat 1%nat /\ P 2%nat 0%nat = P 0%nat 2%nat /\ P 2%nat 1%nat = P 1%nat 2%nat) by (repeat split; apply Y; lia).
  destruct Ys as (Y1 & Y2 & Y3).
  assert (E1 : bil3 (fun i => v i - t * h i) P (fun i => v i - t * h i) = bil3 v P v - 2 * t * c + t * t * bil3 h P h).
  { unfold c, bil3. rewrite Y1, Y2, Y3. ring. }
  assert (E2 : bil3 v (fun i j => P i j - (P i 0%nat * h 0%nat + P i 1%nat * h 1%nat + P i 2%nat * h 2%nat) * (1 / Sv) * (h 0%nat * P 0%nat j + h 1%nat * P 1%nat j + h 2%nat * P 2%nat j)) v = bil3 v P v - c * c / Sv).
  { unfold c, bil3. rewrite Y1, Y2, Y3. field. lra. }
  rewrite E2. rewrite E1 in Q.
  assert (E3 : c = t * Sv) by (unfold t; field; lra). replace (c * c / Sv) with (t * t * Sv) by (rewrite E3; field; lra). rewrite E3 in Q.
  assert (0 <= t * t) by (apply Rle_0_sqr). assert (t * t * bil3 h P h <= t * t * Sv) by (apply Rmult_le_compat_l; lra). lra.
Qed.

(** *** exact-arithmetic reading of the model's products *)
Lemma mm3_R A B i j : mm3 A B i j = A i 0%nat * B 0%nat j + A i 1%nat * B 1%nat j + A i 2%nat * B 2%nat j.
Proof. unfold mm3. rs. ring. Qed.
Lemma mv3_R A v i : mv3 A v i = A i 0%nat * v 0%nat + A i 1%nat * v 1%nat + A i 2%nat * v 2%nat.
Proof. unfold mv3. rs. ring. Qed.
Lemma S_R (H : nat -> R) P : dot3 (vm3 H P) H = bil3 H P H.
Proof. unfold dot3, vm3, bil3. rs. ring. Qed.

(** congruence *)
Lemma cong_psd3 (L D : Mat R) : psd3 D -> psd3 (mm3 (mm3 L D) (fun i j => L j i)).
Proof.
  intros H v. specialize (H (fun k => v 0%nat * L 0%nat k + v 1%nat * L 1%nat k + v 2%nat * L 2%nat k)).
  unfold bil3 in *. rewrite !mm3_R. eapply Rle_trans; [exact H|]. right. ring.
Qed.
Lemma cong_sym3 (L D : Mat R) : sym3 D -> sym3 (mm3 (mm3 L D) (fun i j => L j i)).
Proof.
  intros H. assert (Ys : D 1%nat 0%nat = D 0%nat 1%nat /\ D 2%nat 0%nat = D 0%nat 2%nat /\ D 2%nat 1%nat = D 1%nat 2%nat) by (repeat split; apply H; lia).
  destruct Ys as (Y1 & Y2 & Y3). apply sym3_intro; rewrite !mm3_R, Y1, Y2, Y3; ring.
Qed.
Lemma diag_psd3 a b c : 0 <= a -> 0 <= b -> 0 <= c -> psd3 (m33 a 0 0 0 b 0 0 0 c).
Proof.
  intros A B C v. unfold bil3, m33, v3.
  apply Rle_trans with (a * (v 0%nat * v 0%nat) + b * (v 1%nat * v 1%nat) + c * (v 2%nat * v 2%nat)); [|right; ring].
  pose proof (Rle_0_sqr (v 0%nat)). pose proof (Rle_0_sqr (v 1%nat)). pose proof (Rle_0_sqr (v 2%nat)). unfold Rsqr in *.
  pose proof (Rmult_le_pos _ _ A H). pose proof (Rmult_le_pos _ _ B H0). pose proof (Rmult_le_pos _ _ C H1). lra.
Qed.

(** *** sanity checks, any scalar type *)
Section Gen.
Context {T : Type} {SC : Scalar T} (lm : libm T).
Lemma sanity_sym (w : @wind T) : w_initialised w = true -> w_initialised (sanity lm w) = true -> sym3 (w_P (sanity lm w)).
Proof.
  intros _. unfold sanity. cbv zeta.
  destruct (slt (w_P w 0%nat 0%nat) szero); [discriminate|].
  match goal with |- context [if slt ?a szero then _ else _] => destruct (slt a szero); [discriminate|] end.
  match goal with |- context [if slt ?a szero then _ else _] => destruct (slt a szero); [discriminate|] end.
  match goal with |- context [if ?a || ?b || ?c then _ else _] => destruct (a || b || c); [discriminate|] end.
  intros _. cbn [set_est w_P]. apply sym3_intro; unfold symm, mset; cbn [Nat.eqb andb]; reflexivity.
Qed.
Lemma sanity_finite (w : @wind T) : w_initialised w = true -> w_initialised (sanity lm w) = true ->
  let x := w_x w in let x' := w_x (sanity lm w) in
  l_finite lm (x 0%nat) = true /\ l_finite lm (x 1%nat) = true /\ l_finite lm (x 2%nat) = true /\
  x' 0%nat = x 0%nat /\ x' 1%nat = x 1%nat /\ x' 2%nat = (if slt (w_enforced w) szero then smax szero (x 2%nat) else w_enforced w).
Proof.
  intros _. unfold sanity. cbv zeta.
  destruct (slt (w_P w 0%nat 0%nat) szero); [discriminate|].
  match goal with |- context [if slt ?a szero then _ else _] => destruct (slt a szero); [discriminate|] end.
  match goal with |- context [if slt ?a szero then _ else _] => destruct (slt a szero); [discriminate|] end.
  destruct (l_finite lm (w_x w 0%nat)), (l_finite lm (w_x w 1%nat)), (l_finite lm (w_x w 2%nat)); cbn [negb orb]; try discriminate.
  intros _. cbn [set_est w_x v3]. repeat split.
Qed.
(** the diagonal after the checks *)
Lemma sanity_diag (w : @wind T) : w_initialised w = true -> w_initialised (sanity lm w) = true ->
  forall i, (i < 3)%nat -> slt (w_P w i i) szero = false /\
  w_P (sanity lm w) i i = (let lim := if (i <? 2)%nat then slit 25 1 else slit 1 10 in if slt lim (w_P w i i) then lim else w_P w i i).
Proof.
  intros _. unfold sanity. cbv zeta.
  destruct (slt (w_P w 0%nat 0%nat) szero) eqn:E0; [discriminate|].
  match goal with |- context [if slt ?a szero then _ else _] => destruct (slt a szero) eqn:E1; [discriminate|] end.
  match goal with |- context [if slt ?a szero then _ else _] => destruct (slt a szero) eqn:E2; [discriminate|] end.
  match goal with |- context [if ?a || ?b || ?c then _ else _] => destruct (a || b || c); [discriminate|] end.
  intros _. unfold clipd, mset in E1, E2. cbn [Nat.eqb andb] in E1, E2.
  apply lt3; cbn [set_est w_P]; unfold symm, clipd, mset; cbn [Nat.eqb Nat.ltb Nat.leb andb]; split; try assumption; reflexivity.
Qed.
Lemma sanity_keeps (w : @wind T) : let w' := sanity lm w in
  w_rej_tas w' = w_rej_tas w /\ w_rej_beta w' = w_rej_beta w /\ w_t_tas w' = w_t_tas w /\ w_t_beta w' = w_t_beta w /\ w_t_update w' = w_t_update w /\
  w_reset w' = w_reset w /\ w_enforced w' = w_enforced w /\ w_tas_innov w' = w_tas_innov w /\ w_beta_innov w' = w_beta_innov w /\
  w_tas_innov_var w' = w_tas_innov_var w /\ w_beta_innov_var w' = w_beta_innov_var w /\
  (w_initialised w' = true -> w_initialised w = true).
Proof.
  cbv zeta. unfold sanity. cbv zeta.
  destruct (slt (w_P w 0%nat 0%nat) szero); [cbn [set_init set_est w_rej_tas w_rej_beta w_t_tas w_t_beta w_t_update w_reset w_enforced w_tas_innov w_beta_innov w_tas_innov_var w_beta_innov_var w_initialised]; repeat split; discriminate|].
  match goal with |- context [if slt ?a szero then _ else _] => destruct (slt a szero); [cbn [set_init set_est w_rej_tas w_rej_beta w_t_tas w_t_beta w_t_update w_reset w_enforced w_tas_innov w_beta_innov w_tas_innov_var w_beta_innov_var w_initialised]; repeat split; discriminate|] end.
  match goal with |- context [if slt ?a szero then _ else _] => destruct (slt a szero); [cbn [set_init set_est w_rej_tas w_rej_beta w_t_tas w_t_beta w_t_update w_reset w_enforced w_tas_innov w_beta_innov w_tas_innov_var w_beta_innov_var w_initialised]; repeat split; discriminate|] end.
  match goal with |- context [if ?a || ?b || ?c then _ else _] => destruct (a || b || c); [cbn [set_init set_est w_rej_tas w_rej_beta w_t_tas w_t_beta w_t_update w_reset w_enforced w_tas_innov w_beta_innov w_tas_innov_var w_beta_innov_var w_initialised]; repeat split; discriminate|] end.
  cbn [set_est w_rej_tas w_rej_beta w_t_tas w_t_beta w_t_update w_reset w_enforced w_tas_innov w_beta_innov w_tas_innov_var w_beta_innov_var w_initialised].
  repeat split; auto.
Qed.
End Gen.

(** *** the three outcomes of a measurement, any scalar type *)
Section Outcomes.
Context {T : Type} {SC : Scalar T} (lm : libm T).
Definition over_gate (gate : Z) (innov var : T) : bool := slt (slit (gate * gate) 1 * var)%scal (innov * innov)%scal.
(** what the filter computes for an airspeed and for a sideslip measurement *)
Definition tas_innov_of (tas vn ve vd : T) (w : @wind T) : T := ssub tas (tas_pred vn ve vd (w_x w 0%nat) (w_x w 1%nat) (w_x w 2%nat)).
Definition tas_var_of (vn ve vd : T) (w : @wind T) : T :=
  let H := tas_H vn ve vd (w_x w 0%nat) (w_x w 1%nat) (w_x w 2%nat) in sadd (dot3 (vm3 H (w_P w)) H) (w_tas_var w).
Definition beta_innov_of (vn ve vd : T) (q : nat -> T) (w : @wind T) : T :=
  let rel := rel_wind_body vn ve vd (w_x w 0%nat) (w_x w 1%nat) q in ssub szero (sdiv (rel 1%nat) (rel 0%nat)).
Definition beta_var_of (vn ve vd : T) (q : nat -> T) (w : @wind T) : T :=
  let H := beta_H vn ve vd (w_x w 0%nat) (w_x w 1%nat) q in sadd (dot3 (vm3 H (w_P w)) H) (w_beta_var w).

Lemma initialise_ok vn ve a b tas (w w' : @wind T) ok : initialise lm vn ve a b tas w = (w', ok) ->
  (ok = slt (ssqrt (vn * vn + ve * ve)%scal) (slit 3 1) -> False) /\
  (ok = true -> w_reset w' = true /\ w_rej_tas w' = 0%Z /\ w_rej_beta w' = 0%Z /\ w_x w' 2%nat = sone) /\
  (ok = false -> w' = w) /\
  w_t_tas w' = w_t_tas w /\ w_t_beta w' = w_t_beta w /\ w_t_update w' = w_t_update w /\ w_tas_innov w' = w_tas_innov w /\ w_tas_innov_var w' = w_tas_innov_var w /\
  w_beta_innov w' = w_beta_innov w /\ w_beta_innov_var w' = w_beta_innov_var w.
Proof.
  unfold initialise. destruct (slt _ _); intros E; injection E as <- <-; repeat split; try discriminate; auto.
Qed.

Lemma tas_outcome t tas vn ve vd a b (w : @wind T) : w_initialised w = true -> (100000 <= sub64 t (w_t_tas w))%Z -> t <> 0%Z ->
  let w' := fuse_airspeed lm t tas vn ve vd a b w in
  let i := tas_innov_of tas vn ve vd w in let v := tas_var_of vn ve vd w in
  w_t_tas w' = t /\ w_tas_innov w' = i /\ w_tas_innov_var w' = v /\
  ((over_gate (w_tas_gate w) i v = true /\ slt v szero = false /\ (w_rej_tas w = 0%Z \/ (sub64 t (w_rej_tas w) <= 5000000)%Z) /\
     w_x w' = w_x w /\ w_P w' = w_P w /\ w_initialised w' = true /\ w_reset w' = w_reset w /\ w_rej_tas w' = (if w_rej_tas w =? 0 then t else w_rej_tas w)%Z /\
     w_rej_beta w' = w_rej_beta w)
   \/ ((slt v szero = true \/ (over_gate (w_tas_gate w) i v = true /\ w_rej_tas w <> 0%Z /\ (5000000 < sub64 t (w_rej_tas w))%Z)) /\
       exists w1, w' = set_init (negb (slt (ssqrt (vn * vn + ve * ve)%scal) (slit 3 1))) (fst (initialise lm vn ve (slit 1 10) (slit 1 10) tas w1)) )
   \/ (over_gate (w_tas_gate w) i v = false /\ slt v szero = false /\
       w' = correct lm (tas_H vn ve vd (w_x w 0%nat) (w_x w 1%nat) (w_x w 2%nat)) i v
              (set_rej 0 (w_rej_beta w) (set_innov i v (w_beta_innov w) (w_beta_innov_var w) (set_times t (w_t_beta w) (w_t_update w) w))))).
Proof.
  intros HI HT Ht0. cbv zeta. unfold fuse_airspeed. rewrite HI. cbn [negb].
  assert ((sub64 t (w_t_tas w) <? 100000)%Z = false) as -> by (apply Z.ltb_ge; exact HT).
  set (w1 := set_times t (w_t_beta w) (w_t_update w) w). cbv zeta.
  change (w_x w1) with (w_x w). change (w_P w1) with (w_P w). change (w_tas_var w1) with (w_tas_var w).
  change (ssub tas (tas_pred vn ve vd (w_x w 0%nat) (w_x w 1%nat) (w_x w 2%nat))) with (tas_innov_of tas vn ve vd w).
  set (H := tas_H vn ve vd (w_x w 0%nat) (w_x w 1%nat) (w_x w 2%nat)).
  change (sadd (dot3 (vm3 H (w_P w)) H) (w_tas_var w)) with (tas_var_of vn ve vd w).
  generalize (tas_innov_of tas vn ve vd w) as i. generalize (tas_var_of vn ve vd w) as v. intros v i.
  unfold check_rejected. cbn [w_tas_gate w_rej_tas w_rej_beta set_innov w_beta_innov w_beta_innov_var]. change (w_tas_gate w1) with (w_tas_gate w). change (w_rej_tas w1) with (w_rej_tas w). change (w_rej_beta w1) with (w_rej_beta w).
  change (slt (slit (w_tas_gate w * w_tas_gate w) 1 * v)%scal (i * i)%scal) with (over_gate (w_tas_gate w) i v).
  change (w_beta_innov w1) with (w_beta_innov w). change (w_beta_innov_var w1) with (w_beta_innov_var w).
  assert (S00 : sub64 t t = 0%Z) by (unfold sub64; rewrite Z.sub_diag; reflexivity).
  assert (RI : forall w2, w_t_tas w2 = t -> w_tas_innov w2 = i -> w_tas_innov_var w2 = v ->
    let w' := (let '(w'0, ok) := initialise lm vn ve (slit 1 10) (slit 1 10) tas w2 in set_init ok w'0) in
    w_t_tas w' = t /\ w_tas_innov w' = i /\ w_tas_innov_var w' = v /\
    exists w3, w' = set_init (negb (slt (ssqrt (vn * vn + ve * ve)%scal) (slit 3 1))) (fst (initialise lm vn ve (slit 1 10) (slit 1 10) tas w3))).
  { intros w2 A1 A2 A3. destruct (initialise lm vn ve (slit 1 10) (slit 1 10) tas w2) as [wi ok] eqn:E.
    pose proof (initialise_ok _ _ _ _ _ _ _ _ E) as (O & _ & _ & B1 & _ & _ & B2 & B3 & _). cbn [set_init w_t_tas w_tas_innov w_tas_innov_var].
    rewrite B1, B2, B3. repeat split; auto. exists w2. rewrite E. cbn [fst]. f_equal. destruct ok, (slt _ _); auto; exfalso; apply O; reflexivity. }
  destruct (over_gate (w_tas_gate w) i v) eqn:G.
  - destruct (w_rej_tas w =? 0)%Z eqn:Z0.
    + rewrite S00. cbn [Z.ltb Z.compare andb negb orb]. rewrite (proj2 (Z.eqb_neq t 0) Ht0). cbn [negb orb].
      destruct (slt v szero) eqn:V.
      * cbn [orb]. match goal with |- context [initialise lm vn ve (slit 1 10) (slit 1 10) tas ?w2] => destruct (RI w2 eq_refl eq_refl eq_refl) as (R1 & R2 & R3 & R4) end.
        split; [exact R1|]. split; [exact R2|]. split; [exact R3|]. right. left. split; [left; reflexivity|exact R4].
      * split; [reflexivity|]. split; [reflexivity|]. split; [reflexivity|]. left. apply Z.eqb_eq in Z0. repeat split; auto.
    + rewrite Z0. cbn [negb andb orb]. rewrite andb_true_r.
      destruct (5000000 <? sub64 t (w_rej_tas w))%Z eqn:L; cbn [orb].
      * match goal with |- context [initialise lm vn ve (slit 1 10) (slit 1 10) tas ?w2] => destruct (RI w2 eq_refl eq_refl eq_refl) as (R1 & R2 & R3 & R4) end.
        split; [exact R1|]. split; [exact R2|]. split; [exact R3|]. right. left. split; [right|exact R4]. repeat split; auto. { apply Z.eqb_neq; exact Z0. } { apply Z.ltb_lt; exact L. }
      * destruct (slt v szero) eqn:V.
        -- match goal with |- context [initialise lm vn ve (slit 1 10) (slit 1 10) tas ?w2] => destruct (RI w2 eq_refl eq_refl eq_refl) as (R1 & R2 & R3 & R4) end.
           split; [exact R1|]. split; [exact R2|]. split; [exact R3|]. right. left. split; [left; reflexivity|exact R4].
        -- split; [reflexivity|]. split; [reflexivity|]. split; [reflexivity|]. left. apply Z.ltb_ge in L. repeat split; auto.
  - cbn [Z.eqb negb]. rewrite andb_false_r. cbn [orb]. destruct (slt v szero) eqn:V.
    + match goal with |- context [initialise lm vn ve (slit 1 10) (slit 1 10) tas ?w2] => destruct (RI w2 eq_refl eq_refl eq_refl) as (R1 & R2 & R3 & R4) end.
      split; [exact R1|]. split; [exact R2|]. split; [exact R3|]. right. left. split; [left; reflexivity|exact R4].
    + match goal with |- context [correct lm H i v ?w2] => pose proof (sanity_keeps lm (set_est (v3 (w_x w2 0%nat + i * (mv3 (w_P w2) H 0%nat * (sone / v)))%scal (w_x w2 1%nat + i * (mv3 (w_P w2) H 1%nat * (sone / v)))%scal (w_x w2 2%nat + i * (mv3 (w_P w2) H 2%nat * (sone / v)))%scal)
         (fun i0 j => w_P w2 i0 j - mm3 (fun i1 j0 => szero + mv3 (w_P w2) H i1 * (sone / v) * H j0) (w_P w2) i0 j)%scal w2)) as K end.
      cbv zeta in K. unfold correct. cbv zeta. destruct K as (_ & _ & K1 & _ & _ & _ & _ & K2 & _ & K3 & _).
      split; [exact K1|]. split; [exact K2|]. split; [exact K3|]. right. right. repeat split; auto.
Qed.

Lemma beta_outcome t vn ve vd q (w : @wind T) : w_initialised w = true -> (100000 <= sub64 t (w_t_beta w))%Z -> t <> 0%Z ->
  let w' := fuse_beta lm t vn ve vd q w in
  let i := beta_innov_of vn ve vd q w in let v := beta_var_of vn ve vd q w in
  w_t_beta w' = t /\
  ((slt (sabs (rel_wind_body vn ve vd (w_x w 0%nat) (w_x w 1%nat) q 0%nat)) (slit 1 10) = true /\ w_x w' = w_x w /\ w_P w' = w_P w /\ w_initialised w' = true /\ w_reset w' = w_reset w /\
     w_rej_tas w' = w_rej_tas w /\ w_rej_beta w' = w_rej_beta w) \/
   (slt (sabs (rel_wind_body vn ve vd (w_x w 0%nat) (w_x w 1%nat) q 0%nat)) (slit 1 10) = false /\ w_beta_innov w' = i /\ w_beta_innov_var w' = v /\
  ((over_gate (w_beta_gate w) i v = true /\ slt v szero = false /\ (w_rej_beta w = 0%Z \/ (sub64 t (w_rej_beta w) <= 5000000)%Z) /\
     w_x w' = w_x w /\ w_P w' = w_P w /\ w_initialised w' = true /\ w_reset w' = w_reset w /\ w_rej_beta w' = (if w_rej_beta w =? 0 then t else w_rej_beta w)%Z /\
     w_rej_tas w' = w_rej_tas w)
   \/ ((slt v szero = true \/ (over_gate (w_beta_gate w) i v = true /\ w_rej_beta w <> 0%Z /\ (5000000 < sub64 t (w_rej_beta w))%Z)) /\
       exists w1, w' = set_init (negb (slt (ssqrt (vn * vn + ve * ve)%scal) (slit 3 1))) (fst (initialise lm vn ve (slit 1 10) (slit 1 10) (ssqrt (szero + vn * vn + ve * ve + vd * vd)%scal) w1)) )
   \/ (over_gate (w_beta_gate w) i v = false /\ slt v szero = false /\
       w' = correct lm (beta_H vn ve vd (w_x w 0%nat) (w_x w 1%nat) q) i v
              (set_rej (w_rej_tas w) 0 (set_innov (w_tas_innov w) (w_tas_innov_var w) i v (set_times (w_t_tas w) t (w_t_update w) w))))))).
Proof.
  intros HI HT Ht0. cbv zeta. unfold fuse_beta. rewrite HI. cbn [negb].
  assert ((sub64 t (w_t_beta w) <? 100000)%Z = false) as -> by (apply Z.ltb_ge; exact HT).
  set (w1 := set_times (w_t_tas w) t (w_t_update w) w). cbv zeta.
  change (w_x w1) with (w_x w). change (w_P w1) with (w_P w). change (w_beta_var w1) with (w_beta_var w).
  destruct (slt (sabs (rel_wind_body vn ve vd (w_x w 0%nat) (w_x w 1%nat) q 0%nat)) (slit 1 10)).
  { split; [reflexivity|]. left. repeat split; auto. }
  change (ssub szero (sdiv (rel_wind_body vn ve vd (w_x w 0%nat) (w_x w 1%nat) q 1%nat) (rel_wind_body vn ve vd (w_x w 0%nat) (w_x w 1%nat) q 0%nat))) with (beta_innov_of vn ve vd q w).
  set (H := beta_H vn ve vd (w_x w 0%nat) (w_x w 1%nat) q).
  change (sadd (dot3 (vm3 H (w_P w)) H) (w_beta_var w)) with (beta_var_of vn ve vd q w).
  set (tas := (ssqrt (szero + vn * vn + ve * ve + vd * vd)%scal)).
  generalize (beta_innov_of vn ve vd q w) as i. generalize (beta_var_of vn ve vd q w) as v. intros v i.
  unfold check_rejected. cbn [w_beta_gate w_rej_tas w_rej_beta set_innov w_tas_innov w_tas_innov_var]. change (w_beta_gate w1) with (w_beta_gate w). change (w_rej_tas w1) with (w_rej_tas w). change (w_rej_beta w1) with (w_rej_beta w).
  change (slt (slit (w_beta_gate w * w_beta_gate w) 1 * v)%scal (i * i)%scal) with (over_gate (w_beta_gate w) i v).
  change (w_tas_innov w1) with (w_tas_innov w). change (w_tas_innov_var w1) with (w_tas_innov_var w).
  assert (S00 : sub64 t t = 0%Z) by (unfold sub64; rewrite Z.sub_diag; reflexivity).
  assert (RI : forall w2, w_t_beta w2 = t -> w_beta_innov w2 = i -> w_beta_innov_var w2 = v ->
    let w' := (let '(w'0, ok) := initialise lm vn ve (slit 1 10) (slit 1 10) tas w2 in set_init ok w'0) in
    w_t_beta w' = t /\ w_beta_innov w' = i /\ w_beta_innov_var w' = v /\
    exists w3, w' = set_init (negb (slt (ssqrt (vn * vn + ve * ve)%scal) (slit 3 1))) (fst (initialise lm vn ve (slit 1 10) (slit 1 10) tas w3))).
  { intros w2 A1 A2 A3. destruct (initialise lm vn ve (slit 1 10) (slit 1 10) tas w2) as [wi ok] eqn:E.
    pose proof (initialise_ok _ _ _ _ _ _ _ _ E) as (O & _ & _ & _ & B1 & _ & _ & _ & B2 & B3). cbn [set_init w_t_beta w_beta_innov w_beta_innov_var].
    rewrite B1, B2, B3. repeat split; auto. exists w2. rewrite E. cbn [fst]. f_equal. destruct ok, (slt _ _); auto; exfalso; apply O; reflexivity. }
  destruct (over_gate (w_beta_gate w) i v) eqn:G.
  - destruct (w_rej_beta w =? 0)%Z eqn:Z0.
    + rewrite S00. cbn [Z.ltb Z.compare andb negb orb]. rewrite (proj2 (Z.eqb_neq t 0) Ht0). cbn [negb orb].
      destruct (slt v szero) eqn:V.
      * cbn [orb]. match goal with |- context [initialise lm vn ve (slit 1 10) (slit 1 10) tas ?w2] => destruct (RI w2 eq_refl eq_refl eq_refl) as (R1 & R2 & R3 & R4) end.
        split; [exact R1|]. right. split; [reflexivity|]. split; [exact R2|]. split; [exact R3|]. right. left. split; [left; reflexivity|exact R4].
      * split; [reflexivity|]. right. split; [reflexivity|]. split; [reflexivity|]. split; [reflexivity|]. left. apply Z.eqb_eq in Z0. repeat split; auto.
    + rewrite Z0. cbn [negb andb orb]. rewrite andb_true_r.
      destruct (5000000 <? sub64 t (w_rej_beta w))%Z eqn:L; cbn [orb].
      * match goal with |- context [initialise lm vn ve (slit 1 10) (slit 1 10) tas ?w2] => destruct (RI w2 eq_refl eq_refl eq_refl) as (R1 & R2 & R3 & R4) end.
        split; [exact R1|]. right. split; [reflexivity|]. split; [exact R2|]. split; [exact R3|]. right. left. split; [right|exact R4]. repeat split; auto. { apply Z.eqb_neq; exact Z0. } { apply Z.ltb_lt; exact L. }
      * destruct (slt v szero) eqn:V.
        -- match goal with |- context [initialise lm vn ve (slit 1 10) (slit 1 10) tas ?w2] => destruct (RI w2 eq_refl eq_refl eq_refl) as (R1 & R2 & R3 & R4) end.
           split; [exact R1|]. right. split; [reflexivity|]. split; [exact R2|]. split; [exact R3|]. right. left. split; [left; reflexivity|exact R4].
        -- split; [reflexivity|]. right. split; [reflexivity|]. split; [reflexivity|]. split; [reflexivity|]. left. apply Z.ltb_ge in L. repeat split; auto.
  - cbn [Z.eqb negb]. rewrite andb_false_r. cbn [orb]. destruct (slt v szero) eqn:V.
    + match goal with |- context [initialise lm vn ve (slit 1 10) (slit 1 10) tas ?w2] => destruct (RI w2 eq_refl eq_refl eq_refl) as (R1 & R2 & R3 & R4) end.
      split; [exact R1|]. right. split; [reflexivity|]. split; [exact R2|]. split; [exact R3|]. right. left. split; [left; reflexivity|exact R4].
    + match goal with |- context [correct lm H i v ?w2] => pose proof (sanity_keeps lm (set_est (v3 (w_x w2 0%nat + i * (mv3 (w_P w2) H 0%nat * (sone / v)))%scal (w_x w2 1%nat + i * (mv3 (w_P w2) H 1%nat * (sone / v)))%scal (w_x w2 2%nat + i * (mv3 (w_P w2) H 2%nat * (sone / v)))%scal)
         (fun i0 j => w_P w2 i0 j - mm3 (fun i1 j0 => szero + mv3 (w_P w2) H i1 * (sone / v) * H j0) (w_P w2) i0 j)%scal w2)) as K end.
      cbv zeta in K. unfold correct. cbv zeta. destruct K as (_ & _ & _ & K1 & _ & _ & _ & _ & K2 & _ & K3 & _).
      split; [exact K1|]. right. split; [reflexivity|]. split; [exact K2|]. split; [exact K3|]. right. right. repeat split; auto.
Qed.
End Outcomes.

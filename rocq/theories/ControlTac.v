(** Generic preservation machinery for the control state machine. *)
Require Import ZArith Bool List Lia.
Require Import Verif.CBase Verif.GpsModel Verif.ControlModel.
Import ListNotations.
Local Open Scope Z_scope.

(** [dep Kb Kz g P]: the predicate [P] only depends on the flags in [Kb], the numbers in [Kz] and, if [g], the log. *)
Definition dep (Kb : bk -> bool) (Kz : zk -> bool) (g : bool) (P : st -> Prop) : Prop :=
  forall s s', (forall k, Kb k = true -> gb s' k = gb s k) -> (forall k, Kz k = true -> gz s' k = gz s k) ->
    (g = true -> gsf s' = gsf s) -> P s -> P s'.

Lemma bk_eqb_true : forall a b, bk_eqb a b = true -> a = b.
Proof. intros a b. unfold bk_eqb. destruct (bk_eq_dec a b); congruence. Qed.
Lemma zk_eqb_true : forall a b, zk_eqb a b = true -> a = b.
Proof. intros a b. unfold zk_eqb. destruct (zk_eq_dec a b); congruence. Qed.

Section Pres.
Variables (Kb : bk -> bool) (Kz : zk -> bool) (g : bool) (P : st -> Prop).
Hypothesis D : dep Kb Kz g P.
Lemma pres_setb : forall k v s, Kb k = false -> P s -> P (setb k v s).
Proof.
  intros k v s Hk. apply D; simpl; auto. intros j Hj. destruct (bk_eqb k j) eqn:E; auto.
  apply bk_eqb_true in E. congruence.
Qed.
Lemma pres_setz : forall k v s, Kz k = false -> P s -> P (setz k v s).
Proof.
  intros k v s Hk. apply D; simpl; auto. intros j Hj. destruct (zk_eqb k j) eqn:E; auto.
  apply zk_eqb_true in E. congruence.
Qed.
Lemma pres_logr : forall e s, g = false -> P s -> P (logr e s).
Proof. intros e s Hg. apply D; simpl; auto. congruence. Qed.
End Pres.

Lemma pres_if_ : forall (P : st -> Prop) b f s, (forall s, P s -> P (f s)) -> P s -> P (if_ b f s).
Proof. intros P [] f s H H0; simpl; auto. Qed.
Lemma pres_let : forall (P : st -> Prop) (a : st) (F : st -> st), P a -> (forall s, P s -> P (F s)) -> P (F a).
Proof. intros P a F H H0. auto. Qed.
Lemma pres_letp : forall (P : st -> Prop) (a : bool * st) (F : bool * st -> st),
  P (snd a) -> (forall r, P (snd r) -> P (F r)) -> P (F a).
Proof. intros P a F H H0. auto. Qed.
Lemma pres_letsp : forall (P : st -> Prop) (a : st) (F : st -> bool * st),
  P a -> (forall s, P s -> P (snd (F s))) -> P (snd (F a)).
Proof. intros P a F H H0. auto. Qed.
Lemma pres_letpp : forall (P : st -> Prop) (a : bool * st) (F : bool * st -> bool * st),
  P (snd a) -> (forall r, P (snd r) -> P (snd (F r))) -> P (snd (F a)).
Proof. intros P a F H H0. auto. Qed.
Lemma pres_if_' : forall (P : st -> Prop) b f s, (b = true -> P s -> P (f s)) -> P s -> P (if_ b f s).
Proof. intros P [] f s H H0; simpl; auto. Qed.

Ltac hd t := match t with ?f _ => hd f | _ => t end.
Ltac pres_step D :=
  match goal with
  | H : ?P ?s |- ?P ?s => exact H
  | |- forall _, _ => intro
  | |- ?P (snd (?a, ?b)) => change (P b)
  | |- ?P (setz (if ?b then _ else _) ?v ?s) => destruct b
  | |- ?P ((if ?b then _ else _) ?s) => destruct b
  | |- ?P (setb ?k ?v ?s) => refine (pres_setb _ _ _ P D k v s eq_refl _)
  | |- ?P (setz ?k ?v ?s) => refine (pres_setz _ _ _ P D k v s eq_refl _)
  | |- ?P (setb _ _ _) => fail 1
  | |- ?P (setz _ _ _) => fail 1
  | |- ?P (logr ?e ?s) => refine (pres_logr _ _ _ P D e s eq_refl _)
  | |- ?P (logr _ _) => fail 1
  | |- ?P (if_ ?b ?f ?s) => refine (pres_if_ P b f s _ _)
  | |- ?P (if ?b then ?x else ?y) => destruct b
  | |- ?P (snd (if ?b then ?x else ?y)) => destruct b
  | |- ?P (let x : st := ?a in @?F x) => refine (pres_let P a F _ _); [|let s := fresh "s" in let H := fresh in intros s H; cbv beta]
  | |- ?P (let x : bool * st := ?a in @?F x) => refine (pres_letp P a F _ _); [|let s := fresh "r" in let H := fresh in intros s H; cbv beta]
  | |- ?P (let x : bool := ?a in @?F x) => let b := fresh "b" in generalize a; intro b; change (P (F b)); cbv beta
  | |- ?P (let x : Z := ?a in @?F x) => let b := fresh "z" in generalize a; intro b; change (P (F b)); cbv beta
  | |- ?P (snd (let x : st := ?a in @?F x)) => refine (pres_letsp P a F _ _); [|let s := fresh "s" in let H := fresh in intros s H; cbv beta]
  | |- ?P (snd (let x : bool * st := ?a in @?F x)) => refine (pres_letpp P a F _ _); [|let s := fresh "r" in let H := fresh in intros s H; cbv beta]
  | |- ?P (snd (let x : bool := ?a in @?F x)) => let b := fresh "b" in generalize a; intro b; change (P (snd (F b))); cbv beta
  | |- ?P (snd (let x := _ in _)) => cbv zeta
  | |- ?P ((fun _ => _) _) => cbv beta
  | |- ?P (snd (?f ?X)) => tryif is_var X then fail else (refine (pres_letsp P X f _ _); [|let s := fresh "s" in let H := fresh in intros s H])
  | |- ?P (?f ?X) => tryif is_var X then fail else (refine (pres_let P X f _ _); [|let s := fresh "s" in let H := fresh in intros s H])
  | |- ?P (snd (?f _)) => let h := hd f in unfold h
  | |- ?P (?f _) => let h := hd f in unfold h
  end.
Ltac pres D := intros; repeat (pres_step D).
(** the same, trying the tactic [hook] first at every goal *)
Ltac presh D hook := intros; repeat (first [progress hook | pres_step D]).

(** Single-field predicates. *)
Definition bis (k : bk) (v : bool) (s : st) : Prop := gb s k = v.
Definition zis (k : zk) (v : Z) (s : st) : Prop := gz s k = v.
Definition lis (l : list (Z * bool)) (s : st) : Prop := gsf s = l.
Definition noz (k : zk) := false.
Definition nob (k : bk) := false.
Lemma D_bis : forall k v, dep (bk_eqb k) noz false (bis k v).
Proof.
  intros k v s s' H _ _. unfold bis. rewrite H; auto. unfold bk_eqb. destruct (bk_eq_dec k k); congruence.
Qed.
Lemma D_zis : forall k v, dep nob (zk_eqb k) false (zis k v).
Proof.
  intros k v s s' _ H _. unfold zis. rewrite H; auto. unfold zk_eqb. destruct (zk_eq_dec k k); congruence.
Qed.
Lemma D_lis : forall l, dep nob noz true (lis l).
Proof. intros l s s' _ _ H. unfold lis. rewrite H; auto. Qed.
Lemma dep_and : forall Kb Kb' Kz Kz' g g' P P', dep Kb Kz g P -> dep Kb' Kz' g' P' ->
  dep (fun k => Kb k || Kb' k) (fun k => Kz k || Kz' k) (g || g') (fun s => P s /\ P' s).
Proof.
  intros Kb Kb' Kz Kz' g g' P P' H H' s s' A B C [p p']. split.
  - apply (H s s'); auto; intros; [apply A|apply B|apply C]; apply orb_true_iff; auto.
  - apply (H' s s'); auto; intros; [apply A|apply B|apply C]; apply orb_true_iff; auto.
Qed.
(** [fb k]: flag [k] is not written (as a goal [gb (f s) k = gb s k]); [fz k], [fl] likewise. *)
Ltac fb := intros; match goal with |- gb ?x ?k = ?v => change (bis k v x); pres (D_bis k v); try reflexivity end.
Ltac fz := intros; match goal with |- gz ?x ?k = ?v => change (zis k v x); pres (D_zis k v); try reflexivity end.

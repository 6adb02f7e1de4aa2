(** wind estimator in binary32: variances and scale never become negative *)
From Coq Require Import ZArith Bool Reals Lra Lia List.
From Verif Require Import CBase F32 F32More F32Sign Scalar WindModel WindProofs.
Import ListNotations.
Open Scope Z_scope.

Lemma szero_f0 : (szero : f32) = f0. Proof. vm_compute. reflexivity. Qed.
Lemma fnn_szero : fnn (szero : f32). Proof. rewrite szero_f0. reflexivity. Qed.
Lemma slt_fnn (x : f32) : slt x szero = false <-> fnn x. Proof. rewrite szero_f0. reflexivity. Qed.
Lemma fnn_lits : fnn (sone : f32) /\ fnn (slit 25 1 : f32) /\ fnn (slit 1 10 : f32) /\ fnn (slit 1 10000 : f32) /\ fnn (slit 14 10 : f32) /\ fnn (slit 5 10 : f32).
Proof. unfold fnn. vm_compute. repeat split. Qed.
Lemma c001 : exists m e H, flit 1 100 = B754_finite false m e H.
Proof.
  destruct (flit 1 100) as [s|s| |s m e H] eqn:E.
  - exfalso. assert (A : flt f0 (flit 1 100) = true) by (vm_compute; reflexivity). rewrite E in A. destruct s; discriminate.
  - exfalso. assert (A : is_finite (flit 1 100) = true) by (vm_compute; reflexivity). rewrite E in A. discriminate.
  - exfalso. assert (A : is_finite (flit 1 100) = true) by (vm_compute; reflexivity). rewrite E in A. discriminate.
  - assert (A : flt f0 (flit 1 100) = true) by (vm_compute; reflexivity). rewrite E in A. destruct s; [discriminate|]. eauto.
Qed.
Lemma fnn_smax (v : f32) : fnn (smax (slit 1 100) v).
Proof.
  unfold smax. change (@slit f32 FScalar) with flit. destruct c001 as (m & e & H & ->).
  change (@slt f32 FScalar) with flt. destruct (flt v (B754_finite false m e H)) eqn:E; [reflexivity|].
  apply fnn_iff. destruct v as [s|s| |s mv ev Hv]; cbn in *; try exact I; destruct s; try reflexivity; discriminate.
Qed.

Definition FInv (w : @wind f32) : Prop :=
  fnn (w_wind_p_var w) /\ fnn (w_tas_scale_p_var w) /\
  (w_initialised w = true -> fnn (w_x w 2%nat) /\ forall i, (i < 3)%nat -> fnn (w_P w i i)).

Lemma okS_szero s : okS s (szero : f32). Proof. rewrite szero_f0. exact I. Qed.
Lemma init_diag (L : Mat f32) a b c : fnn a -> fnn b -> fnn c -> forall i, (i < 3)%nat ->
  fnn (mm3 (mm3 L (m33 a szero szero szero b szero szero szero c)) (fun i j => L j i) i i).
Proof.
  intros Ha Hb Hc i Hi. unfold mm3 at 1.
  assert (Z : forall s l, okS s (smul l (szero : f32))) by (intros s l; rewrite szero_f0; apply okS_zero_r).
  change (@sadd f32 FScalar) with fadd. change (@smul f32 FScalar) with fmul.
  apply fnn_add; [apply fnn_add; [apply fnn_add; [apply fnn_szero|]|]|]; apply okS_mul_self; unfold mm3, m33, v3;
    change (@sadd f32 FScalar) with fadd; change (@smul f32 FScalar) with fmul; repeat apply okS_add; try apply okS_szero; try apply Z; apply okS_mul_nn; assumption.
Qed.
Lemma init_FInv lm vn ve a b tas (w : @wind f32) : FInv w -> fnn a -> fnn b ->
  FInv (let '(w', ok) := initialise lm vn ve a b tas w in set_init ok w').
Proof.
  intros (A & B & _) Ha Hb. unfold initialise. destruct (slt _ _).
  - split; [exact A|]. split; [exact B|]. discriminate.
  - split; [exact A|]. split; [exact B|]. intros _. cbn [set_init set_reset set_rej set_est w_x w_P v3]. split; [apply fnn_lits|].
    apply init_diag; try assumption. apply fnn_lits.
Qed.
Lemma sanity_FInv lm (w : @wind f32) : fnn (w_wind_p_var w) -> fnn (w_tas_scale_p_var w) -> w_initialised w = true -> FInv (sanity lm w).
Proof.
  intros A B HI.
  assert (KP : w_wind_p_var (sanity lm w) = w_wind_p_var w /\ w_tas_scale_p_var (sanity lm w) = w_tas_scale_p_var w).
  { unfold sanity. cbv zeta. repeat match goal with |- context [if slt ?a szero then set_init _ _ else _] => destruct (slt a szero); [split; reflexivity|] end.
    match goal with |- context [if ?a || ?b || ?c then _ else _] => destruct (a || b || c); split; reflexivity end. }
  destruct KP as [K1 K2]. split; [rewrite K1; exact A|]. split; [rewrite K2; exact B|]. intros HV.
  destruct (sanity_finite lm w HI HV) as (_ & _ & _ & _ & _ & X2). split.
  - rewrite X2. destruct (slt (w_enforced w) szero) eqn:E; [|apply slt_fnn; exact E].
    unfold smax. destruct (slt (w_x w 2%nat) szero) eqn:E2; [apply fnn_szero|apply slt_fnn; exact E2].
  - intros i Hi. destruct (sanity_diag lm w HI HV i Hi) as (N & ->). cbv zeta. destruct fnn_lits as (_ & L1 & L2 & _).
    match goal with |- fnn (if ?b then _ else _) => destruct b end; [destruct (i <? 2)%nat; assumption|apply slt_fnn; exact N].
Qed.
Lemma correct_FInv lm H innov Sv (w : @wind f32) : FInv w -> w_initialised w = true -> FInv (correct lm H innov Sv w).
Proof. intros (A & B & _) HI. unfold correct. cbv zeta. apply sanity_FInv; assumption. Qed.
Lemma FInv_keep (w w' : @wind f32) : FInv w -> w_wind_p_var w' = w_wind_p_var w -> w_tas_scale_p_var w' = w_tas_scale_p_var w ->
  (w_initialised w' = true -> w_initialised w = true) -> w_x w' = w_x w -> w_P w' = w_P w -> FInv w'.
Proof. intros (A & B & C) E1 E2 E3 E4 E5. split; [rewrite E1; exact A|]. split; [rewrite E2; exact B|]. rewrite E4, E5. auto. Qed.

Lemma update_FInv t (w : @wind f32) : FInv w -> FInv (update t w).
Proof.
  intros F. unfold update. destruct (w_initialised w) eqn:HI; cbn [negb]; [|exact F].
  cbn [set_reset w_t_update]. destruct ((sub64 t (w_t_update w) <? 1000000) || (w_t_update w =? 0)).
  { destruct (w_t_update w =? 0); apply (FInv_keep w); auto. }
  destruct F as (A & B & C). split; [exact A|]. split; [exact B|]. intros _. destruct (C HI) as [C1 C2]. split; [exact C1|].
  cbn [set_est w_P set_times set_reset w_wind_p_var w_tas_scale_p_var]. apply lt3; unfold m33, v3.
  - apply fnn_add; [|apply C2; lia]. apply fnn_mul; [apply fnn_sq|exact A].
  - apply fnn_add; [|apply C2; lia]. apply fnn_mul; [apply fnn_sq|exact A].
  - apply fnn_add; [|apply C2; lia]. apply fnn_mul; [apply fnn_sq|exact B].
Qed.

Lemma step_FInv lm (o : wop) (w : @wind f32) : FInv w -> FInv (wstep lm o w).
Proof.
  intros F. assert (L10 : fnn (slit 1 10 : f32)) by apply fnn_lits.
  destruct o as [t|t tas vn ve vd a b|t vn ve vd q|a b c d g1 g2 s]; cbn [wstep].
  - apply update_FInv. exact F.
  - unfold fuse_airspeed. cbv zeta. destruct (w_initialised w) eqn:HI; cbn [negb].
    2: { apply init_FInv; [exact F|apply fnn_smax|apply fnn_smax]. }
    destruct (sub64 t (w_t_tas w) <? 100000); [exact F|].
    match goal with |- context [check_rejected ?a1 ?a2 ?a3 ?a4 ?a5] => destruct (check_rejected a1 a2 a3 a4 a5) as [[tr re] rj] end.
    match goal with |- context [if ?c1 || ?c2 then (if ?c2 then _ else ?wk) else _] => assert (F' : FInv wk) by (apply (FInv_keep w); auto); destruct (c1 || c2); [destruct c2|] end.
    + apply init_FInv; assumption.
    + exact F'.
    + apply correct_FInv; [exact F'|exact HI].
  - unfold fuse_beta. cbv zeta. destruct (w_initialised w) eqn:HI; cbn [negb].
    2: { apply init_FInv; [exact F|exact L10|exact L10]. }
    destruct (sub64 t (w_t_beta w) <? 100000); [exact F|].
    match goal with |- context [if slt ?a ?b then ?wk else _] => destruct (slt a b); [apply (FInv_keep w); auto|] end.
    match goal with |- context [check_rejected ?a1 ?a2 ?a3 ?a4 ?a5] => destruct (check_rejected a1 a2 a3 a4 a5) as [[tr re] rj] end.
    match goal with |- context [if ?c1 || ?c2 then (if ?c2 then _ else ?wk) else _] => assert (F' : FInv wk) by (apply (FInv_keep w); auto); destruct (c1 || c2); [destruct c2|] end.
    + apply init_FInv; assumption.
    + exact F'.
    + apply correct_FInv; [exact F'|exact HI].
  - destruct F as (A & B & C). split; [apply fnn_sq|]. split; [apply fnn_sq|]. exact C.
Qed.
Lemma wind0_FInv : FInv wind0.
Proof. destruct fnn_lits as (_ & _ & A & B & _). split; [exact A|]. split; [exact B|]. discriminate. Qed.
Lemma run_FInv lm l w : FInv w -> FInv (wrun lm l w).
Proof. revert w. induction l as [|o l IH]; intros w F; [exact F|]. cbn. apply IH. apply step_FInv. exact F. Qed.

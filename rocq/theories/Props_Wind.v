(** * Properties C30, C31: stand-alone wind estimator *)
From Coq Require Import ZArith Bool Reals Lra Lia Psatz List.
From Coquelicot Require Import Coquelicot.
From Verif Require Import CBase F32 F32More F32Sign Scalar RotModel RealGeom WindModel WindProofs WindProofs2 WindFloat.
Import ListNotations.
Open Scope R_scope.

(** ** Specification vocabulary *)
(** every public call, in any order, from a freshly constructed estimator *)
Definition after {T} {SC : Scalar T} (lm : libm T) (calls : list wop) : wind := wrun lm calls wind0.
Definition is_valid {T} (w : @wind T) : bool := w_initialised w.
(** the reported variances and scale are what the getters return *)
Definition wind_var {T} (w : @wind T) (i : nat) : T := w_P w i i.
Definition tas_scale {T} (w : @wind T) : T := w_x w 2%nat.
(** an innovation is outside the gate when innov^2 > gate^2 var (C comparison: false for NaN) *)
Definition outside {T} {SC : Scalar T} (gate : Z) (innov var : T) : Prop := slt (smul (slit (gate * gate) 1) var) (smul innov innov) = true.

(** ** C30, binary32, any C library: along every history of calls with any inputs
    (NaN and infinities included), a valid estimate never reports a negative
    variance or a negative scale factor *)
Theorem C30_never_negative : forall (lm : libm f32) calls, let w := after lm calls in
  is_valid w = true -> flt (tas_scale w) f0 = false /\ forall i, (i < 3)%nat -> flt (wind_var w i) f0 = false.
Proof. intros lm calls w HV. destruct (run_FInv lm calls wind0 wind0_FInv) as (_ & _ & H). exact (H HV). Qed.

(** ** C30: what one processed airspeed measurement does.  Any scalar type: in
    particular binary32.  Rejected measurements leave the estimate alone and start
    (or continue) the rejection interval; rejection for more than five seconds or a
    negative innovation variance re-initialises; otherwise the measurement is fused
    and, if the estimate is still valid, the wind is finite, the covariance exactly
    symmetric, no variance is negative or above its limit, and the scale factor is
    non-negative or the enforced one *)
Definition fused_soundly {T} {SC : Scalar T} (lm : libm T) (w' : @wind T) : Prop :=
  sym3 (w_P w') /\ l_finite lm (w_x w' 0%nat) = true /\ l_finite lm (w_x w' 1%nat) = true /\
  (forall i, (i < 3)%nat -> let lim := if (i <? 2)%nat then slit 25 1 else slit 1 10 in
     wind_var w' i = lim \/ (slt (wind_var w' i) szero = false /\ slt lim (wind_var w' i) = false)) /\
  (if slt (w_enforced w') szero then tas_scale w' = szero \/ (slt (tas_scale w') szero = false /\ l_finite lm (tas_scale w') = true) else tas_scale w' = w_enforced w').

Lemma correct_sound {T} {SC : Scalar T} (lm : libm T) H i v (w : @wind T) : w_initialised w = true -> w_initialised (correct lm H i v w) = true -> fused_soundly lm (correct lm H i v w).
Proof.
  unfold correct. cbv zeta. set (w1 := set_est _ _ w). intros HI HV. assert (HI1 : w_initialised w1 = true) by exact HI.
  destruct (sanity_finite lm w1 HI1 HV) as (F0 & F1 & F2 & X0 & X1 & X2). cbv zeta in *.
  destruct (sanity_keeps lm w1) as (_ & _ & _ & _ & _ & _ & KE & _). cbv zeta in KE.
  split; [apply (sanity_sym lm w1 HI1 HV)|]. split; [rewrite X0; exact F0|]. split; [rewrite X1; exact F1|]. split.
  - intros k Hk. destruct (sanity_diag lm w1 HI1 HV k Hk) as (N & E). cbv zeta. unfold wind_var. rewrite E. cbv zeta.
    match goal with |- context [if slt ?lim ?p then _ else _] => destruct (slt lim p) eqn:L end; [left; reflexivity|right; split; assumption].
  - unfold tas_scale. rewrite KE, X2. destruct (slt (w_enforced w1) szero); [|reflexivity]. unfold smax.
    destruct (slt (w_x w1 2%nat) szero) eqn:E; [left; reflexivity|right; split; assumption].
Qed.

Theorem C30_airspeed_measurement : forall (T : Type) (SC : Scalar T) (lm : libm T) t tas vn ve vd a b (w : @wind T),
  is_valid w = true -> (100000 <= sub64 t (w_t_tas w))%Z -> t <> 0%Z ->
  let w' := fuse_airspeed lm t tas vn ve vd a b w in
  let i := w_tas_innov w' in let v := w_tas_innov_var w' in
  let long := w_rej_tas w <> 0%Z /\ (5000000 < sub64 t (w_rej_tas w))%Z in
  (outside (w_tas_gate w) i v -> slt v szero = false -> ~ long ->
     w_x w' = w_x w /\ w_P w' = w_P w /\ is_valid w' = true /\ w_reset w' = w_reset w /\
     w_rej_tas w' = (if w_rej_tas w =? 0 then t else w_rej_tas w)%Z) /\
  (slt v szero = true \/ (outside (w_tas_gate w) i v /\ long) ->
     (slt (ssqrt (vn * vn + ve * ve)%scal) (slit 3 1) = true -> is_valid w' = false) /\
     (slt (ssqrt (vn * vn + ve * ve)%scal) (slit 3 1) = false -> is_valid w' = true /\ w_reset w' = true /\ w_rej_tas w' = 0%Z /\ w_rej_beta w' = 0%Z /\ tas_scale w' = sone)) /\
  (~ outside (w_tas_gate w) i v -> slt v szero = false ->
     w_reset w' = w_reset w /\ w_rej_tas w' = 0%Z /\ (is_valid w' = true -> fused_soundly lm w')).
Proof.
  intros T SC lm t tas vn ve vd a b w HI HT H0. cbv zeta. unfold outside, is_valid in *.
  destruct (tas_outcome lm t tas vn ve vd a b w HI HT H0) as (_ & -> & -> & O). cbv zeta in O.
  change (slt (smul (slit (w_tas_gate w * w_tas_gate w) 1) (tas_var_of vn ve vd w)) (smul (tas_innov_of tas vn ve vd w) (tas_innov_of tas vn ve vd w)))
    with (over_gate (w_tas_gate w) (tas_innov_of tas vn ve vd w) (tas_var_of vn ve vd w)).
  set (w' := fuse_airspeed lm t tas vn ve vd a b w) in *.
  set (ov := over_gate _ _ _) in *. set (v := tas_var_of vn ve vd w) in *.
  destruct O as [(G & V & L & X & P & I & R & RJ & _)|[(C & w1 & E)|(G & V & E)]].
  - split; [intros _ _ _; auto|]. split; [intros [Z|[_ [Z1 Z2]]]; [congruence|exfalso; destruct L as [L|L]; [contradiction|lia]]|].
    intros N. rewrite G in N. contradiction N. reflexivity.
  - split.
    { intros G V N. exfalso. destruct C as [C|(_ & C1 & C2)]; [congruence|]. apply N. split; assumption. }
    split.
    + intros _. rewrite E. cbn [set_init w_initialised w_reset w_rej_tas w_rej_beta]. unfold tas_scale. cbn [set_init w_x].
      destruct (initialise lm vn ve (slit 1 10) (slit 1 10) tas w1) as [wi ok] eqn:EI. destruct (initialise_ok lm _ _ _ _ _ _ _ _ EI) as (O1 & O2 & O3 & _). cbn [fst].
      split; intros S; rewrite S in *; cbn [negb]; [reflexivity|]. destruct ok; [|exfalso; apply O1; reflexivity]. destruct (O2 eq_refl) as (A1 & A2 & A3 & A4). auto.
    + intros N V. exfalso. destruct C as [C|(C & _)]; [congruence|]. contradiction.
  - split; [congruence|]. split; [intros [Z|[Z _]]; congruence|]. intros _ _. rewrite E.
    set (w2 := set_rej 0 _ _) in *.
    assert (K : w_reset (correct lm (tas_H vn ve vd (w_x w 0%nat) (w_x w 1%nat) (w_x w 2%nat)) (tas_innov_of tas vn ve vd w) v w2) = w_reset w2 /\
                w_rej_tas (correct lm (tas_H vn ve vd (w_x w 0%nat) (w_x w 1%nat) (w_x w 2%nat)) (tas_innov_of tas vn ve vd w) v w2) = w_rej_tas w2).
    { unfold correct. cbv zeta. match goal with |- w_reset (sanity lm ?x) = _ /\ _ => destruct (sanity_keeps lm x) as (K1 & _ & _ & _ & _ & K2 & _) end. split; [exact K2|exact K1]. }
    destruct K as [-> ->]. split; [reflexivity|]. split; [reflexivity|]. apply correct_sound. exact HI.
Qed.
Theorem C30_sideslip_measurement : forall (T : Type) (SC : Scalar T) (lm : libm T) t vn ve vd q (w : @wind T),
  is_valid w = true -> (100000 <= sub64 t (w_t_beta w))%Z -> t <> 0%Z ->
  slt (sabs (rel_wind_body vn ve vd (w_x w 0%nat) (w_x w 1%nat) q 0%nat)) (slit 1 10) = false ->
  let w' := fuse_beta lm t vn ve vd q w in
  let i := w_beta_innov w' in let v := w_beta_innov_var w' in
  let long := w_rej_beta w <> 0%Z /\ (5000000 < sub64 t (w_rej_beta w))%Z in
  (outside (w_beta_gate w) i v -> slt v szero = false -> ~ long ->
     w_x w' = w_x w /\ w_P w' = w_P w /\ is_valid w' = true /\ w_reset w' = w_reset w /\
     w_rej_beta w' = (if w_rej_beta w =? 0 then t else w_rej_beta w)%Z) /\
  (slt v szero = true \/ (outside (w_beta_gate w) i v /\ long) ->
     (slt (ssqrt (vn * vn + ve * ve)%scal) (slit 3 1) = true -> is_valid w' = false) /\
     (slt (ssqrt (vn * vn + ve * ve)%scal) (slit 3 1) = false -> is_valid w' = true /\ w_reset w' = true /\ w_rej_tas w' = 0%Z /\ w_rej_beta w' = 0%Z /\ tas_scale w' = sone)) /\
  (~ outside (w_beta_gate w) i v -> slt v szero = false ->
     w_reset w' = w_reset w /\ w_rej_beta w' = 0%Z /\ (is_valid w' = true -> fused_soundly lm w')).
Proof.
  intros T SC lm t vn ve vd q w HI HT H0 HR. cbv zeta. unfold outside, is_valid in *.
  destruct (beta_outcome lm t vn ve vd q w HI HT H0) as (_ & [(C & _)|(_ & EI & EV & O)]); [congruence|]. cbv zeta in *. rewrite EI, EV.
  change (slt (smul (slit (w_beta_gate w * w_beta_gate w) 1) (beta_var_of vn ve vd q w)) (smul (beta_innov_of vn ve vd q w) (beta_innov_of vn ve vd q w)))
    with (over_gate (w_beta_gate w) (beta_innov_of vn ve vd q w) (beta_var_of vn ve vd q w)). clear EI EV HR.
  set (w' := fuse_beta lm t vn ve vd q w) in *.
  set (ov := over_gate _ _ _) in *. set (v := beta_var_of vn ve vd q w) in *.
  destruct O as [(G & V & L & X & P & I & R & RJ & _)|[(C & w1 & E)|(G & V & E)]].
  - split; [intros _ _ _; auto|]. split; [intros [Z|[_ [Z1 Z2]]]; [congruence|exfalso; destruct L as [L|L]; [contradiction|lia]]|].
    intros N. rewrite G in N. contradiction N. reflexivity.
  - split.
    { intros G V N. exfalso. destruct C as [C|(_ & C1 & C2)]; [congruence|]. apply N. split; assumption. }
    split.
    + intros _. rewrite E. cbn [set_init w_initialised w_reset w_rej_tas w_rej_beta]. unfold tas_scale. cbn [set_init w_x].
      match goal with |- context [initialise lm vn ve (slit 1 10) (slit 1 10) ?tas w1] => destruct (initialise lm vn ve (slit 1 10) (slit 1 10) tas w1) as [wi ok] eqn:EI end. destruct (initialise_ok lm _ _ _ _ _ _ _ _ EI) as (O1 & O2 & O3 & _). cbn [fst].
      split; intros S; rewrite S in *; cbn [negb]; [reflexivity|]. destruct ok; [|exfalso; apply O1; reflexivity]. destruct (O2 eq_refl) as (A1 & A2 & A3 & A4). auto.
    + intros N V. exfalso. destruct C as [C|(C & _)]; [congruence|]. contradiction.
  - split; [congruence|]. split; [intros [Z|[Z _]]; congruence|]. intros _ _. rewrite E.
    set (w2 := set_rej _ 0 _) in *.
    match goal with |- w_reset ?c = _ /\ _ => assert (K : w_reset c = w_reset w2 /\ w_rej_beta c = w_rej_beta w2) end.
    { unfold correct. cbv zeta. match goal with |- w_reset (sanity lm ?x) = _ /\ _ => destruct (sanity_keeps lm x) as (_ & K1 & _ & _ & _ & K2 & _) end. split; [exact K2|exact K1]. }
    destruct K as [-> ->]. split; [reflexivity|]. split; [reflexivity|]. apply correct_sound. exact HI.
Qed.

(** ** C30: rate limits.  A valid estimator ignores measurements less than 100 ms
    after the last processed one of the same kind, and predicts at most once a second *)
Theorem C30_rate_limits : forall (T : Type) (SC : Scalar T) (lm : libm T) (w : @wind T), is_valid w = true ->
  (forall t tas vn ve vd a b, (sub64 t (w_t_tas w) < 100000)%Z -> fuse_airspeed lm t tas vn ve vd a b w = w) /\
  (forall t vn ve vd q, (sub64 t (w_t_beta w) < 100000)%Z -> fuse_beta lm t vn ve vd q w = w) /\
  (forall t, (w_t_update w = 0 \/ sub64 t (w_t_update w) < 1000000)%Z -> w_x (update t w) = w_x w /\ w_P (update t w) = w_P w /\ is_valid (update t w) = true) /\
  (forall t, w_x (update t w) = w_x w /\ w_reset (update t w) = false).
Proof.
  intros T SC lm w HI. unfold is_valid in *. split; [|split; [|split]].
  - intros. unfold fuse_airspeed. rewrite HI. cbn [negb]. rewrite (proj2 (Z.ltb_lt _ _) H). reflexivity.
  - intros. unfold fuse_beta. rewrite HI. cbn [negb]. rewrite (proj2 (Z.ltb_lt _ _) H). reflexivity.
  - intros t H. unfold update. rewrite HI. cbn [negb set_reset w_t_update].
    assert ((sub64 t (w_t_update w) <? 1000000) || (w_t_update w =? 0) = true)%Z as -> by (apply orb_true_iff; destruct H as [->|H]; [right; reflexivity|left; apply Z.ltb_lt; exact H]).
    destruct (w_t_update w =? 0)%Z; cbn; auto.
  - intros t. unfold update. rewrite HI. cbn [negb set_reset w_t_update].
    destruct (_ || _); [destruct (w_t_update w =? 0)%Z|]; cbn; auto.
Qed.
(** without an estimate, measurements only try to initialise: success needs 3 m/s
    ground speed (a NaN ground speed also passes: see the refutation below) *)
Theorem C30_initialisation_speed : forall (T : Type) (SC : Scalar T) (lm : libm T) (w : @wind T), is_valid w = false ->
  (forall t, update t w = w) /\
  (forall t tas vn ve vd a b, is_valid (fuse_airspeed lm t tas vn ve vd a b w) = negb (slt (ssqrt (vn * vn + ve * ve)%scal) (slit 3 1))) /\
  (forall t vn ve vd q, is_valid (fuse_beta lm t vn ve vd q w) = negb (slt (ssqrt (vn * vn + ve * ve)%scal) (slit 3 1))).
Proof.
  intros T SC lm w HI. unfold is_valid in *. split; [intros; unfold update; rewrite HI; reflexivity|]. split; intros.
  - unfold fuse_airspeed. rewrite HI. cbn [negb]. unfold initialise. destruct (slt _ _); reflexivity.
  - unfold fuse_beta. rewrite HI. cbn [negb]. unfold initialise. destruct (slt _ _); reflexivity.
Qed.

(** ** C30: persistent rejection.  If airspeed measurements at t_0, t_1, ..., t_n are all
    processed and outside the gate, with none more than 5 s after t_0, nothing of the
    estimate changes; the next one outside the gate more than 5 s after t_0 re-initialises *)
Definition rejected_now {T} {SC : Scalar T} (lm : libm T) (t : Z) (tas vn ve vd a b : T) (w : @wind T) : Prop :=
  is_valid w = true /\ (100000 <= sub64 t (w_t_tas w))%Z /\ t <> 0%Z /\
  let w' := fuse_airspeed lm t tas vn ve vd a b w in outside (w_tas_gate w) (w_tas_innov w') (w_tas_innov_var w') /\ slt (w_tas_innov_var w') szero = false.
Record meas (T : Type) := mkMeas { m_t : Z; m_tas : T; m_vn : T; m_ve : T; m_vd : T; m_a : T; m_b : T }.
Arguments mkMeas {T}. Arguments m_t {T}. Arguments m_tas {T}. Arguments m_vn {T}. Arguments m_ve {T}. Arguments m_vd {T}. Arguments m_a {T}. Arguments m_b {T}.
Definition mfuse {T} {SC : Scalar T} (lm : libm T) (m : meas T) : @wind T -> @wind T := fuse_airspeed lm (m_t m) (m_tas m) (m_vn m) (m_ve m) (m_vd m) (m_a m) (m_b m).
Fixpoint all_rejected {T} {SC : Scalar T} (lm : libm T) (t0 : Z) (ms : list (meas T)) (w : @wind T) : Prop :=
  match ms with
  | [] => True
  | m :: ms => rejected_now lm (m_t m) (m_tas m) (m_vn m) (m_ve m) (m_vd m) (m_a m) (m_b m) w /\ (sub64 (m_t m) t0 <= 5000000)%Z /\ all_rejected lm t0 ms (mfuse lm m w)
  end.
Lemma rejected_step {T} {SC : Scalar T} (lm : libm T) t0 (m : meas T) (w : @wind T) :
  rejected_now lm (m_t m) (m_tas m) (m_vn m) (m_ve m) (m_vd m) (m_a m) (m_b m) w -> (sub64 (m_t m) t0 <= 5000000)%Z ->
  (w_rej_tas w = 0%Z /\ m_t m = t0 \/ w_rej_tas w = t0 /\ t0 <> 0%Z) ->
  let w' := mfuse lm m w in w_x w' = w_x w /\ w_P w' = w_P w /\ is_valid w' = true /\ w_rej_tas w' = t0 /\ w_reset w' = w_reset w.
Proof.
  intros (HI & HT & H0 & HO & HV) HL HR. cbv zeta in *. unfold mfuse.
  destruct (C30_airspeed_measurement T SC lm (m_t m) (m_tas m) (m_vn m) (m_ve m) (m_vd m) (m_a m) (m_b m) w HI HT H0) as (A & _ & _). cbv zeta in A.
  destruct (A HO HV) as (X & P & I & R & J). { intros (L1 & L2). destruct HR as [(Z & _)|(E & _)]; [contradiction|]. rewrite E in L2. lia. }
  split; [exact X|]. split; [exact P|]. split; [exact I|]. split; [|exact R].
  - rewrite J. destruct HR as [(Z & E)|(E & N)]; [rewrite Z; exact E|]. rewrite E, (proj2 (Z.eqb_neq _ _) N). reflexivity.
Qed.
Theorem C30_rejection_history : forall (T : Type) (SC : Scalar T) (lm : libm T) (m0 : meas T) ms (w : @wind T),
  w_rej_tas w = 0%Z -> all_rejected lm (m_t m0) (m0 :: ms) w ->
  let w' := fold_left (fun w m => mfuse lm m w) (m0 :: ms) w in
  w_x w' = w_x w /\ w_P w' = w_P w /\ is_valid w' = true /\ w_rej_tas w' = m_t m0 /\
  forall m, (100000 <= sub64 (m_t m) (w_t_tas w'))%Z -> m_t m <> 0%Z -> (5000000 < sub64 (m_t m) (m_t m0))%Z ->
    outside (w_tas_gate w') (w_tas_innov (mfuse lm m w')) (w_tas_innov_var (mfuse lm m w')) ->
    slt (ssqrt (m_vn m * m_vn m + m_ve m * m_ve m)%scal) (slit 3 1) = false ->
    w_reset (mfuse lm m w') = true /\ is_valid (mfuse lm m w') = true /\ tas_scale (mfuse lm m w') = sone.
Proof.
  intros T SC lm m0 ms w HZ (H1 & H2 & H3). cbv zeta. cbn [fold_left].
  assert (N0 : m_t m0 <> 0%Z) by (destruct H1 as (_ & _ & N & _); exact N).
  destruct (rejected_step lm (m_t m0) m0 w H1 H2 (or_introl (conj HZ eq_refl))) as (X & P & I & J & _). cbv zeta in *.
  assert (G : forall ms w1, is_valid w1 = true -> w_rej_tas w1 = m_t m0 -> all_rejected lm (m_t m0) ms w1 ->
    let w' := fold_left (fun w m => mfuse lm m w) ms w1 in w_x w' = w_x w1 /\ w_P w' = w_P w1 /\ is_valid w' = true /\ w_rej_tas w' = m_t m0).
  { clear - N0. induction ms as [|m ms IH]; intros w1 V J HA; [cbn; auto|]. destruct HA as (A1 & A2 & A3). cbn [fold_left].
    destruct (rejected_step lm (m_t m0) m w1 A1 A2 (or_intror (conj J N0))) as (X & P & I & J' & _). cbv zeta in *.
    destruct (IH _ I J' A3) as (X2 & P2 & I2 & J2). cbv zeta in *. rewrite X2, P2. auto. }
  destruct (G ms _ I J H3) as (X2 & P2 & I2 & J2). cbv zeta in *. rewrite X2, P2. split; [exact X|]. split; [exact P|]. split; [exact I2|]. split; [exact J2|].
  intros m HT Hm HL HO HS. set (w' := fold_left _ ms _) in *.
  destruct (C30_airspeed_measurement T SC lm (m_t m) (m_tas m) (m_vn m) (m_ve m) (m_vd m) (m_a m) (m_b m) w' I2 HT Hm) as (_ & A & _). cbv zeta in A.
  destruct A as (_ & A). { right. split; [exact HO|]. rewrite J2. split; assumption. }
  destruct (A HS) as (A1 & A2 & _ & _ & A3). unfold mfuse. auto.
Qed.

(** ** C30 in exact arithmetic *)
(** the covariance is symmetric along every history *)
Definition RInv (w : @wind R) : Prop := w_initialised w = true -> sym3 (w_P w).
Lemma init_RInv vn ve a b tas (w : @wind R) : RInv (let '(w', ok) := initialise rlibm vn ve a b tas w in set_init ok w').
Proof.
  unfold initialise. destruct (slt _ _); intros V; [discriminate|]. cbn [set_init set_reset set_rej set_est w_P]. apply cong_sym3. apply sym3_intro; reflexivity.
Qed.
Lemma step_RInv o (w : @wind R) : RInv w -> RInv (wstep rlibm o w).
Proof.
  intros F. destruct o as [t|t tas vn ve vd a b|t vn ve vd q|a b c d g1 g2 s]; cbn [wstep].
  - unfold update. destruct (w_initialised w) eqn:HI; cbn [negb]; [|exact F]. cbn [set_reset w_t_update].
    destruct (_ || _); [destruct (w_t_update w =? 0)%Z; intros _; exact (F HI)|]. intros _. cbn [set_est w_P]. apply sym3_intro; reflexivity.
  - unfold fuse_airspeed. cbv zeta. destruct (w_initialised w) eqn:HI; cbn [negb]; [|apply init_RInv].
    destruct (_ <? _)%Z; [exact F|]. match goal with |- context [check_rejected ?a1 ?a2 ?a3 ?a4 ?a5] => destruct (check_rejected a1 a2 a3 a4 a5) as [[tr re] rj] end.
    match goal with |- context [if ?c1 || ?c2 then _ else _] => destruct (c1 || c2); [destruct c2|] end; [apply init_RInv|intros _; exact (F HI)|].
    intros V. unfold correct in *. cbv zeta in *. apply sanity_sym; [exact HI|exact V].
  - unfold fuse_beta. cbv zeta. destruct (w_initialised w) eqn:HI; cbn [negb]; [|apply init_RInv].
    destruct (_ <? _)%Z; [exact F|]. match goal with |- context [if slt ?a ?b then ?wk else _] => destruct (slt a b); [intros _; exact (F HI)|] end.
    match goal with |- context [check_rejected ?a1 ?a2 ?a3 ?a4 ?a5] => destruct (check_rejected a1 a2 a3 a4 a5) as [[tr re] rj] end.
    match goal with |- context [if ?c1 || ?c2 then _ else _] => destruct (c1 || c2); [destruct c2|] end; [apply init_RInv|intros _; exact (F HI)|].
    intros V. unfold correct in *. cbv zeta in *. apply sanity_sym; [exact HI|exact V].
  - exact F.
Qed.
Theorem C30_symmetric_history : forall calls, is_valid (after rlibm calls) = true -> sym3 (w_P (after rlibm calls)).
Proof.
  intros calls. unfold after, is_valid. change (RInv (wrun rlibm calls wind0)). assert (F : RInv (@wind0 R _)) by discriminate. revert F.
  generalize (@wind0 R _). induction calls as [|o l IH]; intros w F; [exact F|]. cbn. apply IH. apply step_RInv. exact F.
Qed.
(** a fused measurement is the Kalman update: positive semidefinite, no variance grows.
    P' = P - P h h^T P / S, x' = x + P h innov / S, S = h^T P h + r *)
Definition within_limits (w : @wind R) : Prop := wind_var w 0%nat <= 25 /\ wind_var w 1%nat <= 25 /\ wind_var w 2%nat <= 1 / 10.
Definition kalman (h : nat -> R) (r innov : R) (w w' : @wind R) : Prop :=
  let P := w_P w in let S := bil3 h P h + r in
  let Ph := fun i => P i 0%nat * h 0%nat + P i 1%nat * h 1%nat + P i 2%nat * h 2%nat in
  (forall i j, (i < 3)%nat -> (j < 3)%nat -> w_P w' i j = P i j - Ph i * Ph j / S) /\
  w_x w' 0%nat = w_x w 0%nat + Ph 0%nat / S * innov /\ w_x w' 1%nat = w_x w 1%nat + Ph 1%nat / S * innov /\
  tas_scale w' = (if Rlt_dec (w_enforced w) 0 then Rmax 0 (tas_scale w + Ph 2%nat / S * innov) else w_enforced w).
Lemma kalman_of h r innov Sv (w0 w : @wind R) : w_P w0 = w_P w -> w_x w0 = w_x w -> w_enforced w0 = w_enforced w -> w_initialised w0 = true ->
  sym3 (w_P w) -> psd3 (w_P w) -> within_limits w -> 0 < r -> Sv = bil3 h (w_P w) h + r ->
  let w' := correct rlibm h innov Sv w0 in is_valid w' = true /\ kalman h r innov w w' /\ psd3 (w_P w') /\ sym3 (w_P w') /\ within_limits w'.
Proof.
  intros EP EX EE HI Y HP (L0 & L1 & L2) Hr HS. cbv zeta. unfold wind_var in *. rewrite <- EP in Y, HP, L0, L1, L2, HS.
  destruct (correct_R h innov Sv r w0 HI Y HP L0 L1 L2 Hr HS) as (V & P' & X0 & X1 & X2). cbv zeta in *.
  assert (Sp : 0 < Sv) by (pose proof (HP h); lra).
  assert (K : forall i j, (i < 3)%nat -> (j < 3)%nat -> updP (w_P w0) h Sv i j = w_P w i j - (w_P w i 0%nat * h 0%nat + w_P w i 1%nat * h 1%nat + w_P w i 2%nat * h 2%nat) * (w_P w j 0%nat * h 0%nat + w_P w j 1%nat * h 1%nat + w_P w j 2%nat * h 2%nat) / (bil3 h (w_P w) h + r)).
  { intros i j Hi Hj. rewrite <- EP, <- HS. unfold updP. rewrite (Y j 0%nat), (Y j 1%nat), (Y j 2%nat) by lia. field. lra. }
  split; [exact V|]. split.
  { assert (HS' : Sv = bil3 h (w_P w) h + r) by (rewrite <- EP; exact HS). unfold kalman, tas_scale. cbv zeta. rewrite <- HS'. split; [|split; [|split]].
    - intros i j Hi Hj. rewrite P' by assumption. rewrite K by assumption. rewrite HS'. reflexivity.
    - rewrite X0, EX, ?mv3_R, EP. reflexivity.
    - rewrite X1, EX, ?mv3_R, EP. reflexivity.
    - rewrite X2, EX, EE, ?mv3_R, EP. reflexivity. }
  split; [apply (psd3_ext (updP (w_P w0) h Sv)); [intros; symmetry; apply P'; assumption|apply (upd_psd3 _ _ _ r); assumption]|].
  split; [intros i j Hi Hj; rewrite !P' by assumption; apply updP_sym; assumption|].
  unfold within_limits, wind_var. rewrite !P' by lia. pose proof (updP_diag_le _ h Sv 0%nat Y Sp ltac:(lia)). pose proof (updP_diag_le _ h Sv 1%nat Y Sp ltac:(lia)). pose proof (updP_diag_le _ h Sv 2%nat Y Sp ltac:(lia)). lra.
Qed.
Theorem C30_airspeed_is_kalman_update : forall t tas vn ve vd a b (w : @wind R),
  is_valid w = true -> (100000 <= sub64 t (w_t_tas w))%Z -> t <> 0%Z -> sym3 (w_P w) -> psd3 (w_P w) -> within_limits w -> 0 < w_tas_var w ->
  let w' := fuse_airspeed rlibm t tas vn ve vd a b w in
  let pred := fun wn we k => k * sqrt ((vn - wn) ^ 2 + (ve - we) ^ 2 + vd ^ 2) in
  let x := w_x w in
  forall h : nat -> R, 0 < (vn - x 0%nat) ^ 2 + (ve - x 1%nat) ^ 2 + vd ^ 2 ->
    is_derive (fun y => pred y (x 1%nat) (x 2%nat)) (x 0%nat) (h 0%nat) -> is_derive (fun y => pred (x 0%nat) y (x 2%nat)) (x 1%nat) (h 1%nat) ->
    is_derive (fun y => pred (x 0%nat) (x 1%nat) y) (x 2%nat) (h 2%nat) ->
    let innov := tas - pred (x 0%nat) (x 1%nat) (x 2%nat) in
    innov ^ 2 <= IZR (w_tas_gate w) ^ 2 * (bil3 h (w_P w) h + w_tas_var w) ->
    is_valid w' = true /\ kalman h (w_tas_var w) innov w w' /\ psd3 (w_P w') /\ sym3 (w_P w') /\ within_limits w'.
Proof.
  intros t tas vn ve vd a b w HI HT H0 Y HP HL Hr. cbv zeta. intros h HN D0 D1 D2 HG.
  destruct (tas_outcome rlibm t tas vn ve vd a b w HI HT H0) as (_ & _ & _ & O). cbv zeta in O.
  set (x := w_x w) in *. set (H := tas_H vn ve vd (x 0%nat) (x 1%nat) (x 2%nat)) in *.
  assert (NQ : 0 < (vn - x 0%nat) * (vn - x 0%nat) + (ve - x 1%nat) * (ve - x 1%nat) + vd * vd) by lra.
  destruct (tas_jac vn ve vd (x 0%nat) (x 1%nat) (x 2%nat) NQ) as (J0 & J1 & J2).
  assert (PE : forall wn we k, tas_pred vn ve vd wn we k = k * sqrt ((vn - wn) ^ 2 + (ve - we) ^ 2 + vd ^ 2)) by (intros; unfold tas_pred; rs; f_equal; f_equal; ring).
  assert (E0 : h 0%nat = H 0%nat). { rewrite <- (is_derive_unique _ _ _ D0). apply is_derive_unique. eapply is_derive_ext; [|exact J0]. intros; apply PE. }
  assert (E1 : h 1%nat = H 1%nat). { rewrite <- (is_derive_unique _ _ _ D1). apply is_derive_unique. eapply is_derive_ext; [|exact J1]. intros; apply PE. }
  assert (E2 : h 2%nat = H 2%nat). { rewrite <- (is_derive_unique _ _ _ D2). apply is_derive_unique. eapply is_derive_ext; [|exact J2]. intros; apply PE. }
  assert (BH : bil3 h (w_P w) h = bil3 H (w_P w) H) by (unfold bil3; rewrite E0, E1, E2; reflexivity).
  assert (EV : tas_var_of vn ve vd w = bil3 H (w_P w) H + w_tas_var w) by (unfold tas_var_of; fold x; fold H; rewrite S_R; reflexivity).
  assert (EI : tas_innov_of tas vn ve vd w = tas - x 2%nat * sqrt ((vn - x 0%nat) ^ 2 + (ve - x 1%nat) ^ 2 + vd ^ 2)) by (unfold tas_innov_of; fold x; rewrite PE; reflexivity).
  rewrite EI, EV in O. set (inn := tas - _) in *.
  assert (Sp : 0 < bil3 H (w_P w) H + w_tas_var w) by (pose proof (HP H); lra).
  assert (G : over_gate (w_tas_gate w) inn (bil3 H (w_P w) H + w_tas_var w) = false).
  { unfold over_gate. rs. rewrite mult_IZR. match goal with |- context [Rlt_dec ?a ?b] => destruct (Rlt_dec a b) as [L|]; [|reflexivity] end. exfalso. rewrite BH in HG. lra. }
  assert (V : slt (bil3 H (w_P w) H + w_tas_var w) szero = false) by (rs; destruct (Rlt_dec _ _); [lra|reflexivity]).
  destruct O as [(G' & _)|[(C & _)|(_ & _ & E)]]; [congruence|destruct C as [C|(C & _)]; congruence|]. rewrite E.
  assert (KH : forall (w'' : @wind R), kalman H (w_tas_var w) inn w w'' -> kalman h (w_tas_var w) inn w w'').
  { intros w''. unfold kalman. cbv zeta. rewrite BH, E0, E1, E2. auto. }
  edestruct (kalman_of H (w_tas_var w) inn (bil3 H (w_P w) H + w_tas_var w)) as (A1 & A2 & A3 & A4 & A5); [..|split; [exact A1|split; [apply KH; exact A2|auto]]]; auto.
Qed.
Theorem C30_sideslip_is_kalman_update : forall t vn ve vd q (w : @wind R),
  is_valid w = true -> (100000 <= sub64 t (w_t_beta w))%Z -> t <> 0%Z -> sym3 (w_P w) -> psd3 (w_P w) -> within_limits w -> 0 < w_beta_var w ->
  let w' := fuse_beta rlibm t vn ve vd q w in
  let Q := mkQ (q 0%nat) (q 1%nat) (q 2%nat) (q 3%nat) in
  let body := fun wn we => mapp (mtr (dcm Q)) (mkV (vn - wn) (ve - we) vd) in
  let pred := fun wn we => vy (body wn we) / vx (body wn we) in
  let x := w_x w in
  forall h : nat -> R, 1 / 10 <= Rabs (vx (body (x 0%nat) (x 1%nat))) ->
    is_derive (fun y => pred y (x 1%nat)) (x 0%nat) (h 0%nat) -> is_derive (fun y => pred (x 0%nat) y) (x 1%nat) (h 1%nat) -> h 2%nat = 0 ->
    let innov := 0 - pred (x 0%nat) (x 1%nat) in
    innov ^ 2 <= IZR (w_beta_gate w) ^ 2 * (bil3 h (w_P w) h + w_beta_var w) ->
    is_valid w' = true /\ kalman h (w_beta_var w) innov w w' /\ psd3 (w_P w') /\ sym3 (w_P w') /\ within_limits w'.
Proof.
  intros t vn ve vd q w HI HT H0 Y HP HL Hr. cbv zeta. intros h HN D0 D1 D2 HG.
  set (Q := mkQ (q 0%nat) (q 1%nat) (q 2%nat) (q 3%nat)) in *.
  assert (RB : forall wn we, rel_wind_body vn ve vd wn we q 0%nat = vx (mapp (mtr (dcm Q)) (mkV (vn - wn) (ve - we) vd)) /\ rel_wind_body vn ve vd wn we q 1%nat = vy (mapp (mtr (dcm Q)) (mkV (vn - wn) (ve - we) vd))).
  { intros. unfold rel_wind_body, mv3, dcm3, m33, v3, mapp, mtr, dcm, Q. cbn [vx vy vz m00 m01 m02 m10 m11 m12 m20 m21 m22 q0 q1 q2 q3]. rs. split; ring. }
  destruct (beta_outcome rlibm t vn ve vd q w HI HT H0) as (_ & O). cbv zeta in O.
  set (x := w_x w) in *. set (H := beta_H vn ve vd (x 0%nat) (x 1%nat) q) in *.
  destruct O as [(C & _)|(_ & _ & _ & O)]. { exfalso. rewrite (proj1 (RB _ _)) in C. rs. destruct (Rlt_dec _ _); [lra|discriminate]. }
  assert (NZ : rel_wind_body vn ve vd (x 0%nat) (x 1%nat) q 0%nat <> 0). { rewrite (proj1 (RB _ _)). intros Z. match type of Z with ?L = 0 => assert (HN' : 1 / 10 <= Rabs L) by exact HN end. rewrite Z, Rabs_R0 in HN'. lra. }
  destruct (beta_jac vn ve vd (x 0%nat) (x 1%nat) q NZ) as (J0 & J1 & J2).
  assert (PE : forall wn we, beta_pred vn ve vd wn we q = vy (mapp (mtr (dcm Q)) (mkV (vn - wn) (ve - we) vd)) / vx (mapp (mtr (dcm Q)) (mkV (vn - wn) (ve - we) vd))).
  { intros. unfold beta_pred. rewrite (proj1 (RB wn we)), (proj2 (RB wn we)). reflexivity. }
  assert (E0 : h 0%nat = H 0%nat). { rewrite <- (is_derive_unique _ _ _ D0). apply is_derive_unique. eapply is_derive_ext; [|exact J0]. intros; apply PE. }
  assert (E1 : h 1%nat = H 1%nat). { rewrite <- (is_derive_unique _ _ _ D1). apply is_derive_unique. eapply is_derive_ext; [|exact J1]. intros; apply PE. }
  assert (E2 : h 2%nat = H 2%nat) by (rewrite D2; symmetry; exact J2).
  assert (BH : bil3 h (w_P w) h = bil3 H (w_P w) H) by (unfold bil3; rewrite E0, E1, E2; reflexivity).
  assert (EV : beta_var_of vn ve vd q w = bil3 H (w_P w) H + w_beta_var w) by (unfold beta_var_of; fold x; fold H; rewrite S_R; reflexivity).
  assert (EI : beta_innov_of vn ve vd q w = 0 - vy (mapp (mtr (dcm Q)) (mkV (vn - x 0%nat) (ve - x 1%nat) vd)) / vx (mapp (mtr (dcm Q)) (mkV (vn - x 0%nat) (ve - x 1%nat) vd))).
  { unfold beta_innov_of. fold x. rewrite <- PE. unfold beta_pred. rs. reflexivity. }
  rewrite EI, EV in O. set (inn := 0 - _) in *.
  assert (Sp : 0 < bil3 H (w_P w) H + w_beta_var w) by (pose proof (HP H); lra).
  assert (G : over_gate (w_beta_gate w) inn (bil3 H (w_P w) H + w_beta_var w) = false).
  { unfold over_gate. rs. rewrite mult_IZR. match goal with |- context [Rlt_dec ?a ?b] => destruct (Rlt_dec a b) as [L|]; [|reflexivity] end. exfalso. rewrite BH in HG. lra. }
  assert (V : slt (bil3 H (w_P w) H + w_beta_var w) szero = false) by (rs; destruct (Rlt_dec _ _); [lra|reflexivity]).
  destruct O as [(G' & _)|[(C & _)|(_ & _ & E)]]; [congruence|destruct C as [C|(C & _)]; congruence|]. rewrite E.
  assert (KH : forall (w'' : @wind R), kalman H (w_beta_var w) inn w w'' -> kalman h (w_beta_var w) inn w w'').
  { intros w''. unfold kalman. cbv zeta. rewrite BH, E0, E1, E2. auto. }
  edestruct (kalman_of H (w_beta_var w) inn (bil3 H (w_P w) H + w_beta_var w)) as (A1 & A2 & A3 & A4 & A5); [..|split; [exact A1|split; [apply KH; exact A2|auto]]]; auto.
Qed.
(** prediction keeps the covariance positive semidefinite and the state; the variances
    of both wind components grow by (sigma dt)^2 ... *)
Theorem C30_prediction : forall t (w : @wind R), is_valid w = true -> w_t_update w <> 0%Z -> (1000000 <= sub64 t (w_t_update w))%Z ->
  sym3 (w_P w) -> psd3 (w_P w) -> 0 <= w_wind_p_var w -> 0 <= w_tas_scale_p_var w ->
  let dt := IZR (sub64 t (w_t_update w)) / 1000000 in let w' := update t w in
  w_x w' = w_x w /\ psd3 (w_P w') /\ sym3 (w_P w') /\
  wind_var w' 0%nat = wind_var w 0%nat + dt ^ 2 * w_wind_p_var w /\ wind_var w' 1%nat = wind_var w 1%nat + dt ^ 2 * w_wind_p_var w /\
  wind_var w' 2%nat = wind_var w 2%nat + dt ^ 2 * w_tas_scale_p_var w.
Proof.
  intros t w HI H0 HT Y HP Hq Hk. cbv zeta. destruct (update_R t w HI H0 HT Y) as (X & _ & _ & P'). cbv zeta in P'.
  set (dt := IZR (sub64 t (w_t_update w)) / 1000000) in *. assert (D : 0 <= dt * dt) by apply Rle_0_sqr.
  assert (N : psd3 (noiseQ (dt * dt * w_wind_p_var w) (dt * dt * w_tas_scale_p_var w))) by (apply noise_psd; apply Rmult_le_pos; assumption).
  split; [exact X|]. split; [apply (psd3_ext (fun i j => w_P w i j + noiseQ (dt * dt * w_wind_p_var w) (dt * dt * w_tas_scale_p_var w) i j)); [intros; symmetry; apply P'; assumption|apply psd3_plus; assumption]|].
  split. { intros i j Hi Hj. rewrite !P' by assumption. rewrite (Y i j) by assumption. f_equal. destruct i as [|[|[|i]]], j as [|[|[|j]]]; try lia; reflexivity. }
  unfold wind_var. rewrite !P' by lia. unfold noiseQ, m33, v3. repeat split; ring.
Qed.
(** ... but (a defect) the same amount is added to the cross term: the process noise of
    the two wind components is taken as fully correlated, so the uncertainty of their
    difference never grows *)
Theorem C30_prediction_noise_is_correlated : forall t (w : @wind R), is_valid w = true -> w_t_update w <> 0%Z -> (1000000 <= sub64 t (w_t_update w))%Z -> sym3 (w_P w) ->
  let w' := update t w in
  bil3 (v3 1 (-1) 0) (w_P w') (v3 1 (-1) 0) = bil3 (v3 1 (-1) 0) (w_P w) (v3 1 (-1) 0).
Proof.
  intros t w HI H0 HT Y. cbv zeta. destruct (update_R t w HI H0 HT Y) as (_ & _ & _ & P'). cbv zeta in P'. unfold bil3. rewrite !P' by lia. unfold noiseQ, m33, v3. ring.
Qed.
(** limiting a variance does not limit the correlations: positive semidefiniteness can be lost (a defect) *)
Theorem C30_limiting_keeps_psd_refuted : ~ (forall (w : @wind R), is_valid w = true -> sym3 (w_P w) -> psd3 (w_P w) -> is_valid (sanity rlibm w) = true -> psd3 (w_P (sanity rlibm w))).
Proof.
  intros H. set (w := set_init true (set_est (fun _ => 1) (m33 36 24 0 24 16 0 0 0 0) (@wind0 R _))).
  specialize (H w eq_refl). assert (Y : sym3 (w_P w)) by (apply sym3_intro; reflexivity).
  assert (HP : psd3 (w_P w)). { intros v. unfold bil3, w, set_init, set_est, w_P, m33, v3. apply Rle_trans with ((6 * v 0%nat + 4 * v 1%nat) * (6 * v 0%nat + 4 * v 1%nat)); [apply Rle_0_sqr|right; ring]. }
  specialize (H Y HP).
  assert (SP : is_valid (sanity rlibm w) = true /\ w_P (sanity rlibm w) 0%nat 0%nat = 25 /\ w_P (sanity rlibm w) 0%nat 1%nat = 24 /\ w_P (sanity rlibm w) 1%nat 0%nat = 24 /\ w_P (sanity rlibm w) 1%nat 1%nat = 16 /\
     (forall i, (i < 3)%nat -> w_P (sanity rlibm w) 2%nat i = 0 /\ w_P (sanity rlibm w) i 2%nat = 0)).
  { unfold sanity. cbv zeta.
    assert (A0 : slt (w_P w 0%nat 0%nat) szero = false) by (unfold w; cbn; destruct (Rlt_dec _ _); [lra|reflexivity]). rewrite A0.
    assert (A1 : slt (clipd 0%nat (w_P w) 1%nat 1%nat) szero = false) by (unfold w, clipd, mset; cbn; destruct (Rlt_dec _ _); [lra|reflexivity]). rewrite A1.
    assert (A2 : slt (clipd 1%nat (clipd 0%nat (w_P w)) 2%nat 2%nat) szero = false) by (unfold w, clipd, mset; cbn; destruct (Rlt_dec _ _); [lra|reflexivity]). rewrite A2.
    cbn [rlibm l_finite negb orb]. split; [reflexivity|]. cbn [set_est w_P].
    assert (C : forall i j, (i < 3)%nat -> (j < 3)%nat -> clipd 2%nat (clipd 1%nat (clipd 0%nat (w_P w))) i j = m33 25 24 0 24 16 0 0 0 0 i j).
    { intros i j Hi Hj. unfold w, clipd, mset. cbn [set_init set_est w_P]. destruct i as [|[|[|i]]], j as [|[|[|j]]]; try lia; cbn [Nat.eqb andb m33 v3 Nat.ltb Nat.leb]; rs; try reflexivity; match goal with |- context [Rlt_dec ?a ?b] => destruct (Rlt_dec a b) end; try lra; reflexivity. }
    repeat split; try match goal with Hi : (?i < 3)%nat |- _ => destruct i as [|[|[|i]]]; [| | |lia] end; unfold symm, mset; cbn [Nat.eqb andb]; rewrite !C by lia; unfold m33, v3; rs; lra. }
  destruct SP as (V & P00 & P01 & P10 & P11 & P2). specialize (H V (v3 1 (-3 / 2) 0)). unfold bil3 in H.
  rewrite P00, P01, P10, P11 in H. destruct (P2 0%nat ltac:(lia)) as [Pa Pb], (P2 1%nat ltac:(lia)) as [Pc Pd], (P2 2%nat ltac:(lia)) as [Pe Pf]. rewrite Pa, Pb, Pc, Pd, Pe in H. unfold v3 in H. lra.
Qed.

(** ** C30: initialisation from NaN (a defect): valid, yet the wind is not finite *)
Theorem C30_valid_is_finite_refuted :
  ~ (forall (lm : libm f32) calls, l_finite lm = fis_finite -> is_valid (after lm calls) = true -> fis_finite (w_x (after lm calls) 0%nat) = true).
Proof.
  intros H. specialize (H (mkLibm f32 (fun _ => f1) (fun _ => f0) (fun _ _ => f0) fis_finite) [Wtas 1000000 f1 fnan fnan f0 f1 f1] eq_refl).
  unfold after, wrun in H. cbn [fold_left wstep] in H. unfold fuse_airspeed in H. cbn [wind0 w_initialised negb] in H. unfold initialise in H.
  assert (E : slt (ssqrt (smul fnan fnan + smul fnan fnan)%scal) (slit 3 1) = false) by (vm_compute; reflexivity). rewrite E in H.
  cbn [set_init set_reset set_rej set_est is_valid w_initialised w_x v3 l_cos l_atan2] in H. specialize (H eq_refl). discriminate H.
Qed.

(** ** C31: initial wind and covariance *)
(** the initial wind makes the airspeed vector parallel to the ground velocity with
    the measured magnitude; the covariance is symmetric positive semidefinite *)
Theorem C31_initial_wind : forall t tas vn ve vd a b (w : @wind R), is_valid w = false -> 3 <= sqrt (vn * vn + ve * ve) ->
  let w' := fuse_airspeed rlibm t tas vn ve vd a b w in
  is_valid w' = true /\ sym3 (w_P w') /\ psd3 (w_P w') /\ tas_scale w' = 1 /\
  vn - w_x w' 0%nat = tas * (vn / sqrt (vn * vn + ve * ve)) /\ ve - w_x w' 1%nat = tas * (ve / sqrt (vn * vn + ve * ve)).
Proof.
  intros t tas vn ve vd a b w HI HV. cbv zeta. unfold fuse_airspeed. unfold is_valid in *. rewrite HI. cbn [negb].
  assert (M : forall v, 0 <= smax (slit 1 100) v). { intros v. unfold smax. rs. destruct (Rlt_dec v (1 / 100)); lra. }
  destruct (init_R vn ve _ _ tas w HV (M a) (M b)) as (w' & E & Y & P & X0 & X1 & X2). rewrite E. cbn [set_init w_initialised w_P w_x]. unfold tas_scale. cbn [set_init w_x].
  split; [reflexivity|]. split; [exact Y|]. split; [exact P|]. split; [exact X2|]. split; [exact X0|exact X1].
Qed.
(** the first-order covariance of the initial wind would be J diag(var) J^T with J the
    Jacobian of (vn, ve) |-> v - tas v/|v|.  The code's matrix L has the correction term
    with its rows exchanged (a defect): L - I = X (J - I), X the exchange matrix *)
Definition init_wind (tas vn ve : R) (k : nat) : R := match k with O => vn - tas * (vn / sqrt (vn * vn + ve * ve)) | _ => ve - tas * (ve / sqrt (vn * vn + ve * ve)) end.
Definition jacobian (tas vn ve : R) (J : nat -> nat -> R) : Prop :=
  forall k, (k < 2)%nat -> is_derive (fun y => init_wind tas y ve k) vn (J k 0%nat) /\ is_derive (fun y => init_wind tas vn y k) ve (J k 1%nat).
Definition jac_exact (tas vn ve : R) (i j : nat) : R :=
  let s := sqrt (vn * vn + ve * ve) in
  match i, j with
  | O, O => 1 - tas * (ve * ve) / (s * s * s)
  | S _, S _ => 1 - tas * (vn * vn) / (s * s * s)
  | _, _ => tas * (vn * ve) / (s * s * s)
  end.
Lemma inv_s_deriv (p q : R) : 0 < p * p + q -> let s := sqrt (p * p + q) in is_derive (fun y => y / sqrt (y * y + q)) p (q / (s * s * s)) /\ is_derive (fun y => q / sqrt (y * y + q)) p (- (q * p) / (s * s * s)).
Proof.
  intros HN. cbv zeta. assert (Sp : 0 < sqrt (p * p + q)) by (apply sqrt_lt_R0; exact HN).
  assert (SS : sqrt (p * p + q) * sqrt (p * p + q) = p * p + q) by (apply sqrt_sqrt; lra).
  assert (Q : q = sqrt (p * p + q) * sqrt (p * p + q) - p * p) by lra.
  split.
  - auto_derive; [split; [exact HN|split; [lra|exact I]]|]. set (s := sqrt (p * p + q)) in *. clearbody s. rewrite Q. field. lra.
  - auto_derive; [split; [exact HN|split; [lra|exact I]]|]. set (s := sqrt (p * p + q)) in *. clearbody s. field. lra.
Qed.
Lemma inv_s_deriv2 (p q k : R) : 0 < p * p + q -> let s := sqrt (p * p + q) in is_derive (fun y => k / sqrt (y * y + q)) p (- (k * p) / (s * s * s)).
Proof.
  intros HN. cbv zeta. assert (Sp : 0 < sqrt (p * p + q)) by (apply sqrt_lt_R0; exact HN).
  auto_derive; [split; [exact HN|split; [lra|exact I]]|]. set (s := sqrt (p * p + q)) in *. clearbody s. field. lra.
Qed.
Lemma jac_ok tas vn ve : 0 < vn * vn + ve * ve -> jacobian tas vn ve (jac_exact tas vn ve).
Proof.
  intros HN. assert (Sp : 0 < sqrt (vn * vn + ve * ve)) by (apply sqrt_lt_R0; exact HN).
  destruct (inv_s_deriv vn (ve * ve) HN) as [A0 _]. pose proof (inv_s_deriv2 vn (ve * ve) ve HN) as A1. cbv zeta in *.
  assert (HN' : 0 < ve * ve + vn * vn) by lra.
  destruct (inv_s_deriv ve (vn * vn) HN') as [B1 _]. pose proof (inv_s_deriv2 ve (vn * vn) vn HN') as B0. cbv zeta in *.
  rewrite (Rplus_comm (ve * ve)) in B0, B1.
  assert (LIN : forall (f : R -> R) (x c d t' : R), is_derive f x d -> is_derive (fun y : R => c - t' * f y) x (- (t' * d))).
  { intros f x c d t' D. auto_derive; [exists d; exact D|]. change (Derive (fun x0 => f x0) x) with (Derive f x). rewrite (is_derive_unique f x d D). ring. }
  assert (LIN1 : forall (f : R -> R) (x d t' : R), is_derive f x d -> is_derive (fun y : R => y - t' * f y) x (1 - t' * d)).
  { intros f x d t' D. auto_derive; [exists d; exact D|]. change (Derive (fun x0 => f x0) x) with (Derive f x). rewrite (is_derive_unique f x d D). ring. }
  intros [|[|k]] Hk; [| |lia]; unfold init_wind, jac_exact; split.
  - replace (tas * (ve * ve) / _) with (tas * (ve * ve / (sqrt (vn * vn + ve * ve) * sqrt (vn * vn + ve * ve) * sqrt (vn * vn + ve * ve)))) by (unfold Rdiv; ring). apply (LIN1 (fun y => y / sqrt (y * y + ve * ve))). exact A0.
  - replace (tas * (vn * ve) / _) with (- (tas * (- (vn * ve) / (sqrt (vn * vn + ve * ve) * sqrt (vn * vn + ve * ve) * sqrt (vn * vn + ve * ve))))) by (unfold Rdiv; ring).
    apply (LIN (fun y => vn / sqrt (vn * vn + y * y))). eapply is_derive_ext; [|exact B0]. intros y. cbn beta. rewrite (Rplus_comm (y * y)). reflexivity.
  - replace (tas * (vn * ve) / _) with (- (tas * (- (ve * vn) / (sqrt (vn * vn + ve * ve) * sqrt (vn * vn + ve * ve) * sqrt (vn * vn + ve * ve))))) by (unfold Rdiv; ring).
    apply (LIN (fun y => ve / sqrt (y * y + ve * ve))). exact A1.
  - replace (tas * (vn * vn) / _) with (tas * (vn * vn / (sqrt (vn * vn + ve * ve) * sqrt (vn * vn + ve * ve) * sqrt (vn * vn + ve * ve)))) by (unfold Rdiv; ring). apply (LIN1 (fun y => y / sqrt (vn * vn + y * y))).
    eapply is_derive_ext; [|exact B1]. intros y. cbn beta. rewrite (Rplus_comm (y * y)). reflexivity.
Qed.
Lemma jac_unique tas vn ve J : 0 < vn * vn + ve * ve -> jacobian tas vn ve J -> forall i j, (i < 2)%nat -> (j < 2)%nat -> J i j = jac_exact tas vn ve i j.
Proof.
  intros HN HJ i j Hi Hj. destruct (HJ i Hi) as [A B], (jac_ok tas vn ve HN i Hi) as [C D].
  destruct j as [|[|j]]; [| |lia].
  - rewrite <- (is_derive_unique _ _ _ A). apply is_derive_unique. exact C.
  - rewrite <- (is_derive_unique _ _ _ B). apply is_derive_unique. exact D.
Qed.
Theorem C31_matrix_has_rows_exchanged : forall tas vn ve J, 0 < vn * vn + ve * ve -> jacobian tas vn ve J ->
  let L := init_L vn ve tas in
  L 0%nat 0%nat - 1 = J 1%nat 0%nat /\ L 0%nat 1%nat = J 1%nat 1%nat - 1 /\ L 1%nat 0%nat = J 0%nat 0%nat - 1 /\ L 1%nat 1%nat - 1 = J 0%nat 1%nat.
Proof.
  intros tas vn ve J HN HJ. cbv zeta. rewrite !(jac_unique tas vn ve J HN HJ) by lia.
  assert (Sp : 0 < sqrt (vn * vn + ve * ve)) by (apply sqrt_lt_R0; exact HN).
  assert (SS : sqrt (vn * vn + ve * ve) * sqrt (vn * vn + ve * ve) = vn * vn + ve * ve) by (apply sqrt_sqrt; lra).
  unfold init_L, jac_exact, m33, v3. rs. rewrite (Rplus_comm (ve * ve)). set (s := sqrt (vn * vn + ve * ve)) in *. rewrite <- SS. clearbody s.
  assert (V : vn * vn = s * s - ve * ve) by lra.
  split; [field; lra|]. split; [rewrite V; field; lra|]. split; [rewrite V; field; lra|field; lra].
Qed.
(** the reported initial covariance: L diag(var) L^T with that matrix, the input variances floored at 0.01 *)
Theorem C31_initial_covariance : forall t tas vn ve vd a b (w : @wind R) J, is_valid w = false -> 3 <= sqrt (vn * vn + ve * ve) -> jacobian tas vn ve J ->
  let P := w_P (fuse_airspeed rlibm t tas vn ve vd a b w) in let A := Rmax (1 / 100) a in let B := Rmax (1 / 100) b in
  P 0%nat 0%nat = (1 + J 1%nat 0%nat) ^ 2 * A + (J 1%nat 1%nat - 1) ^ 2 * B /\
  P 1%nat 1%nat = (J 0%nat 0%nat - 1) ^ 2 * A + (1 + J 0%nat 1%nat) ^ 2 * B /\
  P 0%nat 1%nat = (1 + J 1%nat 0%nat) * (J 0%nat 0%nat - 1) * A + (J 1%nat 1%nat - 1) * (1 + J 0%nat 1%nat) * B /\
  P 2%nat 2%nat = 1 / 10000.
Proof.
  intros t tas vn ve vd a b w J HI HV HJ. cbv zeta.
  assert (HN : 0 < vn * vn + ve * ve). { destruct (Rle_or_lt (vn * vn + ve * ve) 0) as [L|L]; [|exact L]. rewrite sqrt_neg_0 in HV by exact L. lra. }
  destruct (C31_matrix_has_rows_exchanged tas vn ve J HN HJ) as (E0 & E1 & E2 & E3). cbv zeta in *.
  unfold fuse_airspeed. unfold is_valid in HI. rewrite HI. cbn [negb]. unfold initialise.
  assert (slt (ssqrt (vn * vn + ve * ve)%scal) (slit 3 1) = false) as -> by (rs; destruct (Rlt_dec _ _); [lra|reflexivity]).
  cbn [set_init set_reset set_rej set_est w_P].
  assert (MX : forall v, smax (slit 1 100) v = Rmax (1 / 100) v). { intros v. unfold smax, Rmax. rs. destruct (Rlt_dec v (1 / 100)), (Rle_dec (1 / 100) v); lra. }
  rewrite !MX. unfold mm3.
  replace (init_L vn ve tas 0%nat 0%nat) with (1 + J 1%nat 0%nat) by lra. rewrite E1, E2. replace (init_L vn ve tas 1%nat 1%nat) with (1 + J 0%nat 1%nat) by lra.
  unfold init_L, m33, v3. rs. repeat split; field.
Qed.
Theorem C31_first_order_covariance_refuted : ~ (forall t tas vn ve vd a b (w : @wind R) J, is_valid w = false -> 3 <= sqrt (vn * vn + ve * ve) -> jacobian tas vn ve J -> 1 / 100 <= a -> 1 / 100 <= b ->
  forall i j, (i < 2)%nat -> (j < 2)%nat -> w_P (fuse_airspeed rlibm t tas vn ve vd a b w) i j = J i 0%nat * J j 0%nat * a + J i 1%nat * J j 1%nat * b).
Proof.
  intros H. assert (S5 : sqrt (3 * 3 + 4 * 4) = 5) by (replace (3 * 3 + 4 * 4) with (5 * 5) by lra; apply sqrt_square; lra).
  assert (HN : 0 < 3 * 3 + 4 * 4) by lra. assert (HV : 3 <= sqrt (3 * 3 + 4 * 4)) by (rewrite S5; lra).
  specialize (H 1%Z 20 3 4 0 1 1 wind0 (jac_exact 20 3 4) eq_refl HV (jac_ok 20 3 4 HN) ltac:(lra) ltac:(lra) 0%nat 0%nat ltac:(lia) ltac:(lia)).
  destruct (C31_initial_covariance 1%Z 20 3 4 0 1 1 wind0 (jac_exact 20 3 4) eq_refl HV (jac_ok 20 3 4 HN)) as (E & _). cbv zeta in E. rewrite E in H.
  unfold jac_exact in H. rewrite S5 in H. rewrite Rmax_right in H by lra. lra.
Qed.

(** sideslip initialises with variance 0.1 in each velocity component, and takes the
    ground speed for the airspeed *)
Theorem C31_sideslip_initialisation : forall t vn ve vd q (w : @wind R) J, is_valid w = false -> 3 <= sqrt (vn * vn + ve * ve) ->
  jacobian (sqrt (vn * vn + ve * ve + vd * vd)) vn ve J ->
  let w' := fuse_beta rlibm t vn ve vd q w in let P := w_P w' in
  is_valid w' = true /\ w_reset w' = true /\ tas_scale w' = 1 /\
  vn - w_x w' 0%nat = sqrt (vn * vn + ve * ve + vd * vd) * (vn / sqrt (vn * vn + ve * ve)) /\ ve - w_x w' 1%nat = sqrt (vn * vn + ve * ve + vd * vd) * (ve / sqrt (vn * vn + ve * ve)) /\
  P 0%nat 0%nat = ((1 + J 1%nat 0%nat) ^ 2 + (J 1%nat 1%nat - 1) ^ 2) / 10 /\
  P 1%nat 1%nat = ((J 0%nat 0%nat - 1) ^ 2 + (1 + J 0%nat 1%nat) ^ 2) / 10 /\
  P 0%nat 1%nat = ((1 + J 1%nat 0%nat) * (J 0%nat 0%nat - 1) + (J 1%nat 1%nat - 1) * (1 + J 0%nat 1%nat)) / 10 /\
  P 2%nat 2%nat = 1 / 10000.
Proof.
  intros t vn ve vd q w J HI HV HJ. cbv zeta.
  assert (HN : 0 < vn * vn + ve * ve). { destruct (Rle_or_lt (vn * vn + ve * ve) 0) as [L|L]; [|exact L]. rewrite sqrt_neg_0 in HV by exact L. lra. }
  destruct (C31_matrix_has_rows_exchanged _ vn ve J HN HJ) as (E0 & E1 & E2 & E3). cbv zeta in *.
  unfold fuse_beta. unfold is_valid, tas_scale in *. rewrite HI. cbn [negb].
  assert (ES : ssqrt (szero + vn * vn + ve * ve + vd * vd)%scal = sqrt (vn * vn + ve * ve + vd * vd)) by (rs; f_equal; field).
  rewrite ES. set (tas := sqrt (vn * vn + ve * ve + vd * vd)) in *. clearbody tas.
  assert (TP : 0 <= slit 1 10) by (cbn [slit RScalar]; lra).
  destruct (init_R vn ve (slit 1 10) (slit 1 10) tas w HV TP TP) as (w' & E & _ & _ & X0 & X1 & X2).
  assert (EP : w_P w' = mm3 (mm3 (init_L vn ve tas) (m33 (slit 1 10) szero szero szero (slit 1 10) szero szero szero (slit 1 10000))) (fun i j => init_L vn ve tas j i) /\ w_reset w' = true).
  { revert E. unfold initialise. assert (slt (ssqrt (vn * vn + ve * ve)%scal) (slit 3 1) = false) as -> by (rs; destruct (Rlt_dec _ _); [lra|reflexivity]).
    intros E. apply (f_equal fst) in E. cbn [fst] in E. rewrite <- E. cbn [set_reset set_rej set_est w_P w_reset]. split; reflexivity. }
  rewrite E. cbn [set_init w_initialised w_reset w_x w_P]. destruct EP as [EP ER]. rewrite EP.
  split; [reflexivity|]. split; [exact ER|]. split; [exact X2|]. split; [exact X0|]. split; [exact X1|].
  unfold mm3.
  replace (init_L vn ve tas 0%nat 0%nat) with (1 + J 1%nat 0%nat) by lra. rewrite E1, E2. replace (init_L vn ve tas 1%nat 1%nat) with (1 + J 0%nat 1%nat) by lra.
  unfold init_L, m33, v3. rs. repeat split; field.
Qed.

(** ** C30: settings.  Every noise setter takes a standard deviation and stores its
    square as the variance; gates are bytes; nothing else changes.  Defaults: wind process
    noise variance 0.1, scale 0.0001, airspeed 1.4, sideslip 0.5, gates 3 and 1 standard
    deviations, scale factor learned *)
Theorem C30_settings : forall a b c d g1 g2 sc (w : @wind R), (0 <= g1 < 256)%Z -> (0 <= g2 < 256)%Z ->
  let w' := wstep rlibm (Wset a b c d g1 g2 sc) w in
  w_wind_p_var w' = a ^ 2 /\ w_tas_scale_p_var w' = b ^ 2 /\ w_tas_var w' = c ^ 2 /\ w_beta_var w' = d ^ 2 /\
  w_tas_gate w' = g1 /\ w_beta_gate w' = g2 /\ w_enforced w' = sc /\
  w_x w' = w_x w /\ w_P w' = w_P w /\ is_valid w' = is_valid w /\ w_t_tas w' = w_t_tas w /\ w_t_beta w' = w_t_beta w /\ w_t_update w' = w_t_update w /\
  w_rej_tas w' = w_rej_tas w /\ w_rej_beta w' = w_rej_beta w.
Proof.
  intros a b c d g1 g2 sc w H1 H2. cbv zeta. cbn [wstep w_wind_p_var w_tas_scale_p_var w_tas_var w_beta_var w_tas_gate w_beta_gate w_enforced w_x w_P w_t_tas w_t_beta w_t_update w_rej_tas w_rej_beta].
  unfold is_valid. cbn [w_initialised]. rs. unfold u8 in *. rewrite !two8_val. rewrite !Z.mod_small by lia.
  repeat (split; [(ring || reflexivity)|]). reflexivity.
Qed.
Theorem C30_defaults : let w := @wind0 R _ in
  is_valid w = false /\ w_wind_p_var w = 1 / 10 /\ w_tas_scale_p_var w = 1 / 10000 /\ w_tas_var w = 14 / 10 /\ w_beta_var w = 1 / 2 /\
  w_tas_gate w = 3%Z /\ w_beta_gate w = 1%Z /\ w_enforced w = - 1 /\ (forall i, w_x w i = 0) /\ (forall i j, w_P w i j = 0).
Proof. cbv zeta. cbn [wind0 w_wind_p_var w_tas_scale_p_var w_tas_var w_beta_var w_tas_gate w_beta_gate w_enforced w_x w_P]. unfold is_valid. cbn [w_initialised]. rs. repeat (split; [(reflexivity || lra)|]). split; intros; lra. Qed.

(** ** Non-vacuity *)
(** a valid estimator (initialised by 10 m/s ground velocity and 12 m/s airspeed) meets the
    hypotheses of the update theorems *)
Definition w_ex : @wind R := set_init true (set_est (v3 1 2 1) (m33 1 0 0 0 1 0 0 0 (1 / 10000)) (@wind0 R _)).
Example C30_hypotheses_met : is_valid w_ex = true /\ (100000 <= sub64 5000000 (w_t_tas w_ex))%Z /\ sym3 (w_P w_ex) /\ psd3 (w_P w_ex) /\ within_limits w_ex /\ 0 < w_tas_var w_ex /\ 0 < w_beta_var w_ex.
Proof.
  split; [reflexivity|]. split; [vm_compute; discriminate|]. split; [apply sym3_intro; reflexivity|]. split; [apply diag_psd3; lra|]. unfold within_limits, wind_var, w_ex. cbn. lra.
Qed.
Example C31_hypotheses_met : is_valid (@wind0 R _) = false /\ 3 <= sqrt (3 * 3 + 4 * 4) /\ jacobian 20 3 4 (jac_exact 20 3 4).
Proof. split; [reflexivity|]. split; [|apply jac_ok; lra]. replace (3 * 3 + 4 * 4) with (5 * 5) by lra. rewrite sqrt_square; lra. Qed.
(** concrete binary32 run: an airspeed measurement initialises and a second, 0.2 s later, is fused *)
Definition lm_ex : libm f32 := mkLibm f32 (fun _ => f1) (fun _ => f0) (fun _ _ => f0) fis_finite.
Definition fz (z : Z) : f32 := slit z 1.
Definition run_ex : list (@wop f32) := [Wtas 1000000 (fz 12) (fz 10) f0 f0 f1 f1; Wupdate 1000000; Wupdate 2500000; Wtas 2600000 (fz 13) (fz 10) f0 f0 f1 f1].
Example C30_run : let w := after lm_ex run_ex in is_valid w = true /\ flt (wind_var w 0%nat) (fz 1) = true /\ w_t_tas w = 2600000%Z.
Proof. vm_compute. auto. Qed.

Print Assumptions C30_never_negative.
Print Assumptions C30_airspeed_is_kalman_update.
Print Assumptions C30_sideslip_is_kalman_update.
Print Assumptions C30_limiting_keeps_psd_refuted.
Print Assumptions C31_first_order_covariance_refuted.
Print Assumptions C31_initial_wind.
Print Assumptions C31_sideslip_initialisation.
Print Assumptions C30_settings.
Print Assumptions C30_defaults.

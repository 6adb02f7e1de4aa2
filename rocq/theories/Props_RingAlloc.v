(** * C86: memory safety of the sensor buffers and allocation failure *)
From Verif Require Import CBase RingBufferModel RingAllocModel.
Open Scope nat_scope.

Section P.
Context {A : Type}.
Variable z : A.
Notation smp := (sample A).

(** the object [o] holds exactly the abstract ring [r] *)
Definition holds (o : obj A) (r : ring A) : Prop := o = mk_obj (Some (buffer r)) (head r) (tail r) (size r) (first_write r).
Definition wf (r : ring A) : Prop := length (buffer r) = size r /\ head r < size r /\ tail r < size r.

Lemma store_length i (x : smp) l : length (store i x l) = length l.
Proof. revert i. induction l as [|y l IH]; intros [|i]; cbn; auto. Qed.
Lemma get_ok r i : wf r -> i < size r -> get i (mk_obj (Some (buffer r)) (head r) (tail r) (size r) (first_write r)) = Ok (load z i (buffer r)).
Proof.
  intros (L & _) H. unfold get. cbn [mem]. destruct (nth_error (buffer r) i) as [x|] eqn:E.
  - unfold load. rewrite (nth_error_nth _ _ _ E). reflexivity.
  - apply nth_error_None in E. lia.
Qed.
Lemma put_ok r i x : wf r -> i < size r -> put i x (mk_obj (Some (buffer r)) (head r) (tail r) (size r) (first_write r)) =
  Ok (mk_obj (Some (store i x (buffer r))) (head r) (tail r) (size r) (first_write r)).
Proof. intros (L & _) H. unfold put. cbn [mem o_head o_tail o_size o_first]. rewrite L. destruct (Nat.ltb_spec i (size r)); [reflexivity|lia]. Qed.
Lemma mod_ok a b : b <> 0 -> modulo_ a b = Ok (a mod b).
Proof. intros H. unfold modulo_. destruct (Nat.eqb_spec b 0); [contradiction|reflexivity]. Qed.

Lemma push_refines o r x : holds o r -> wf r -> exists o', cpush x o = Ok o' /\ holds o' (push x r) /\ wf (push x r).
Proof.
  intros -> W. pose proof W as (L & H & T). unfold cpush. cbn [o_head o_size o_first].
  set (h := if first_write r then head r else (head r + 1) mod size r).
  assert (E : (if first_write r then Ok (head r) else modulo_ (head r + 1) (size r)) = Ok h) by (unfold h; destruct (first_write r); [reflexivity|apply mod_ok; lia]).
  assert (HH : h < size r) by (unfold h; destruct (first_write r); [exact H|apply Nat.mod_upper_bound; lia]).
  rewrite E, put_ok by assumption. cbn [o_tail o_first o_size mem]. unfold push. fold h.
  destruct ((h =? tail r) && negb (first_write r)).
  - rewrite mod_ok by lia. eexists. split; [reflexivity|]. split; [reflexivity|]. unfold wf. cbn [buffer head tail size]. rewrite store_length. split; [exact L|]. split; [exact HH|apply Nat.mod_upper_bound; lia].
  - eexists. split; [reflexivity|]. split; [reflexivity|]. unfold wf. cbn [buffer head tail size]. rewrite store_length. auto.
Qed.
Lemma pop_refines o r ts : holds o r -> wf r ->
  match pop_first_older_than z ts r with
  | None => cpop ts o = Ok None
  | Some (x, r') => exists o', cpop ts o = Ok (Some (x, o')) /\ holds o' r' /\ wf r'
  end.
Proof.
  intros -> W. pose proof W as (L & H & T). unfold cpop, pop_first_older_than. cbn [o_size].
  assert (G : forall fuel i, i + fuel = size r -> match pop_loop z ts r fuel i with
    | None => cloop ts (mk_obj (Some (buffer r)) (head r) (tail r) (size r) (first_write r)) fuel i = Ok None
    | Some (x, r') => exists o', cloop ts (mk_obj (Some (buffer r)) (head r) (tail r) (size r) (first_write r)) fuel i = Ok (Some (x, o')) /\ holds o' r' /\ wf r' end).
  { induction fuel as [|f IH]; intros i E; [reflexivity|]. cbn [pop_loop cloop].
    assert (I : cindex (mk_obj (Some (buffer r)) (head r) (tail r) (size r) (first_write r)) i = pop_index r i) by reflexivity. rewrite I.
    assert (B : pop_index r i < size r). { unfold pop_index. destruct (Nat.leb_spec i (head r)); lia. }
    rewrite get_ok by assumption. destruct (due ts (load z (pop_index r i) (buffer r))).
    - unfold chit. rewrite get_ok by assumption. cbn [o_head o_size o_first]. unfold pop_hit.
      destruct (Nat.eqb_spec (pop_index r i) (head r)) as [Eh|Nh].
      + rewrite put_ok by assumption. cbn [mem o_head o_size]. eexists. split; [reflexivity|]. split; [reflexivity|]. unfold wf. cbn [buffer head tail size]. rewrite store_length. auto.
      + rewrite mod_ok by lia. rewrite put_ok by assumption. cbn [mem o_head o_size]. eexists. split; [reflexivity|]. split; [reflexivity|]. unfold wf. cbn [buffer head tail size]. rewrite store_length.
        split; [exact L|]. split; [exact H|apply Nat.mod_upper_bound; lia].
    - cbn [o_tail]. destruct (pop_index r i =? tail r); [reflexivity|]. apply IH. lia. }
  apply G. lia.
Qed.

(** ** Reference behaviour: the ring model of C01-C03, re-allocation replaces it by an empty ring
    unless the size is unchanged *)
Definition ref_step (a : aop A) (r : ring A) : ring A * aout A :=
  match a with
  | AAlloc n _ => if n =? size r then (r, OBool true) else match allocate z n with Some r' => (r', OBool true) | None => (r, OBool false) end
  | APush s => (push s r, OUnit)
  | APop ts => match pop_first_older_than z ts r with Some (x, r') => (r', OSample x) | None => (r, ONothing) end
  | ANewest => (r, OSample (get_newest z r))
  | AOldest => (r, OSample (get_oldest z r))
  end.
Fixpoint ref_run (l : list (aop A)) (r : ring A) : ring A * list (aout A) :=
  match l with [] => (r, []) | a :: t => let '(r1, x) := ref_step a r in let '(r2, xs) := ref_run t r1 in (r2, x :: xs) end.
Definition succeeds (a : aop A) : Prop := match a with AAlloc _ ok => ok = true | _ => True end.

Lemma step_refines a o r : holds o r -> wf r -> succeeds a ->
  exists o', astep z a o = Ok (o', snd (ref_step a r)) /\ holds o' (fst (ref_step a r)) /\ wf (fst (ref_step a r)).
Proof.
  intros HO W S. destruct a as [n ok|s|ts| |]; cbn [astep ref_step].
  - cbn in S. subst ok. red in HO; subst o. unfold alloc, valid. cbn [mem o_size]. pose proof W as (L & Hh & T).
    destruct (Nat.ltb_spec 0 (size r)); [|lia]. cbn [andb]. destruct (Nat.eqb_spec n (size r)) as [E|E].
    + eexists. split; [reflexivity|]. split; [reflexivity|exact W].
    + unfold allocate. destruct (Nat.eqb_spec n 0) as [Z|Z]; [eexists; split; [reflexivity|]; split; [reflexivity|exact W]|].
      eexists. split; [reflexivity|]. split; [reflexivity|]. unfold wf. cbn [fst buffer head tail size]. rewrite repeat_length. lia.
  - destruct (push_refines o r s HO W) as (o' & E & H1 & H2). rewrite E. eexists. split; [reflexivity|]. split; assumption.
  - pose proof (pop_refines o r ts HO W) as P. destruct (pop_first_older_than z ts r) as [[x r']|]; [destruct P as (o' & E & H1 & H2)|]; rewrite ?E, ?P; (eexists; split; [reflexivity|]; split; assumption).
  - red in HO; subst o. pose proof W as (L & Hh & T). cbn [o_head]. rewrite get_ok by assumption. eexists. split; [reflexivity|]. split; [reflexivity|exact W].
  - red in HO; subst o. pose proof W as (L & Hh & T). cbn [o_tail]. rewrite get_ok by assumption. eexists. split; [reflexivity|]. split; [reflexivity|exact W].
Qed.

(** Memory safety: as long as allocations succeed, no sequence of operations (any
    sizes, re-allocations, pushes, reads on an empty or full buffer) ever accesses
    memory outside the buffer or divides by zero, and the results are those of the
    queue of C01-C03 *)
Theorem C86_memory_safe (l : list (aop A)) : Forall succeeds l ->
  let r0 := {| buffer := [zero_sample z]; head := 0; tail := 0; size := 1; first_write := true |} in
  exists o', arun z l (construct z true) = Ok (o', snd (ref_run l r0)) /\ holds o' (fst (ref_run l r0)).
Proof.
  intros HL r0. assert (H0 : holds (construct z true) r0) by reflexivity. assert (W0 : wf r0) by (unfold wf, r0; cbn; lia).
  revert H0 W0. generalize (construct z true) as o. generalize r0 as r. clear r0. induction HL as [|a l S HL IH]; intros r o HO W.
  - exists o. split; [reflexivity|exact HO].
  - destruct (step_refines a o r HO W S) as (o1 & E & H1 & W1). cbn [arun ref_run]. rewrite E. destruct (ref_step a r) as [r1 x]. cbn [fst snd] in *.
    destruct (IH r1 o1 H1 W1) as (o2 & E2 & H2). rewrite E2. destruct (ref_run l r1) as [r2 xs]. cbn [fst snd] in *. exists o2. split; [reflexivity|exact H2].
Qed.

(** ** Allocation failure *)
(** DEFECT: when enlarging an existing buffer fails, the old storage is already freed but
    the old length is kept: the next read (or push, or look at the newest or oldest
    sample) goes through a null pointer *)
Theorem C86_read_after_failed_allocation_refuted (o : obj A) (n : nat) (ts : Z) (s : smp) :
  valid o = true -> n <> 0 -> n <> o_size o ->
  let o' := fst (alloc z false n o) in
  snd (alloc z false n o) = false /\ astep z (APop ts) o' = UB /\ astep z (APush s) o' = UB /\ astep z ANewest o' = UB /\ astep z AOldest o' = UB.
Proof.
  intros V N D. cbv zeta. unfold alloc. rewrite V. destruct (Nat.eqb_spec n (o_size o)); [contradiction|]. cbn [andb]. destruct (Nat.eqb_spec n 0); [contradiction|].
  cbn [fst snd]. split; [reflexivity|]. unfold valid in V. destruct (mem o); [|discriminate]. apply Nat.ltb_lt in V.
  split; [|split; [|split; reflexivity]].
  - cbn [astep]. unfold cpop. cbn [o_size]. destruct (o_size o); [lia|reflexivity].
  - cbn [astep]. unfold cpush. cbn [o_first o_head o_size]. rewrite mod_ok by lia. destruct (o_first o); reflexivity.
Qed.
(** a failure in the constructor is harmless for the time-horizon read: nothing is returned *)
Theorem C86_read_after_failed_construction (ts : Z) : astep z (APop ts) (construct z false) = Ok (construct z false, ONothing).
Proof. reflexivity. Qed.

(** a channel whose allocation failed stays failed: later deliveries never touch the
    storage again, whatever they are *)
Theorem C86_failure_is_latched (c : fchan A) (l : list (bool * nat * bool * bool * smp)) : fc_fail c = true ->
  fold_left (fun r d => match r with UB => UB | Ok c => let '(i, need, ok, want, s) := d in fdeliver z i need ok want s c end) l (Ok c) = Ok c.
Proof.
  intros F. induction l as [|[[[[i need] ok] want] s] l IH]; [reflexivity|]. cbn [fold_left]. unfold fdeliver at 2. rewrite F, orb_true_r. exact IH.
Qed.
(** deliveries with successful allocation never fault, and the channel never latches *)
Theorem C86_deliveries_safe (l : list (bool * nat * bool * smp)) (c : fchan A) :
  (exists r, holds (fc_obj c) r /\ wf r) -> fc_fail c = false -> Forall (fun d => snd (fst (fst d)) <> 0) l ->
  exists c', fold_left (fun r d => match r with UB => UB | Ok c => let '(i, need, want, s) := d in fdeliver z i need true want s c end) l (Ok c) = Ok c' /\
    fc_fail c' = false /\ exists r, holds (fc_obj c') r /\ wf r.
Proof.
  revert c. induction l as [|[[[i need] want] s] l IH]; intros c HR HF HN.
  - exists c. split; [reflexivity|]. split; assumption.
  - inversion HN as [|? ? N HN']; subst. cbn [fst snd] in N. cbn [fold_left].
    assert (ST : exists c1, fdeliver z i need true want s c = Ok c1 /\ fc_fail c1 = false /\ exists r, holds (fc_obj c1) r /\ wf r).
    { unfold fdeliver. rewrite HF, orb_false_r. destruct i; cbn [negb]; [|exists c; auto]. destruct HR as (r & HO & W).
      assert (AL : exists o1 r1, (if o_size (fc_obj c) <? need then alloc z true need (fc_obj c) else (fc_obj c, true)) = (o1, true) /\ holds o1 r1 /\ wf r1).
      { destruct (o_size (fc_obj c) <? need) eqn:LT; [|exists (fc_obj c), r; auto]. pose proof W as (L & H & T). rewrite HO in LT |- *. cbn [o_size] in LT. apply Nat.ltb_lt in LT.
        unfold alloc, valid. cbn [mem o_size]. destruct (Nat.eqb_spec need (size r)); [lia|]. rewrite andb_false_r. destruct (Nat.eqb_spec need 0); [contradiction|].
        exists (mk_obj (Some (repeat (zero_sample z) need)) 0 0 need true), {| buffer := repeat (zero_sample z) need; head := 0; tail := 0; size := need; first_write := true |}.
        split; [reflexivity|]. split; [reflexivity|]. unfold wf. cbn [buffer head tail size]. rewrite repeat_length. lia. }
      destruct AL as (o1 & r1 & -> & HO1 & W1). cbn [negb]. destruct want.
      - destruct (push_refines o1 r1 s HO1 W1) as (o2 & E & H2 & W2). rewrite E. exists (mk_fchan false o2). split; [reflexivity|]. split; [reflexivity|]. exists (push s r1). auto.
      - exists (mk_fchan false o1). split; [reflexivity|]. split; [reflexivity|]. exists r1. auto. }
    destruct ST as (c1 & E1 & F1 & R1). rewrite E1. apply IH; assumption.
Qed.
(** whatever allocations succeed or fail, deliveries never fault; a delivery that needs
    more room and gets no memory latches the failure *)
Theorem C86_deliveries_never_fault (l : list (bool * nat * bool * bool * smp)) (c : fchan A) :
  (fc_fail c = false -> exists r, holds (fc_obj c) r /\ wf r) -> Forall (fun d => snd (fst (fst (fst d))) <> 0) l ->
  exists c', fold_left (fun r d => match r with UB => UB | Ok c => let '(i, need, ok, want, s) := d in fdeliver z i need ok want s c end) l (Ok c) = Ok c' /\
    (fc_fail c' = false -> exists r, holds (fc_obj c') r /\ wf r).
Proof.
  revert c. induction l as [|[[[[i need] ok] want] s] l IH]; intros c HR HN.
  - exists c. split; [reflexivity|]. exact HR.
  - inversion HN as [|? ? N HN']; subst. cbn [fst snd] in N. cbn [fold_left].
    assert (ST : exists c1, fdeliver z i need ok want s c = Ok c1 /\ (fc_fail c1 = false -> exists r, holds (fc_obj c1) r /\ wf r)).
    { destruct ok.
      - destruct (fc_fail c) eqn:F.
        + exists c. split; [unfold fdeliver; rewrite F, orb_true_r; reflexivity|intros X; congruence].
        + destruct (C86_deliveries_safe [(i, need, want, s)] c (HR eq_refl) F) as (c1 & E & _ & R1); [constructor; [exact N|constructor]|].
          exists c1. split; [exact E|intros _; exact R1].
      - unfold fdeliver. destruct (negb i || fc_fail c) eqn:G; [exists c; auto|]. apply orb_false_iff in G as [_ F]. destruct (HR F) as (r & HO & W).
        destruct (o_size (fc_obj c) <? need) eqn:LT.
        + unfold alloc, valid. rewrite HO in LT |- *. cbn [mem o_size] in LT |- *. apply Nat.ltb_lt in LT. destruct (Nat.eqb_spec need (size r)); [lia|]. rewrite andb_false_r.
          destruct (Nat.eqb_spec need 0); [contradiction|]. cbn [negb]. eexists. split; [reflexivity|]. cbn [fc_fail]. discriminate.
        + cbn [negb]. destruct want.
          * destruct (push_refines (fc_obj c) r s HO W) as (o2 & E & H2 & W2). rewrite E. eexists. split; [reflexivity|]. intros _. exists (push s r). auto.
          * eexists. split; [reflexivity|]. intros _. exists r. auto. }
    destruct ST as (c1 & E1 & R1). rewrite E1. apply IH; assumption.
Qed.
Theorem C86_failure_latches (c : fchan A) (need : nat) (want : bool) (s : smp) :
  fc_fail c = false -> need <> 0 -> o_size (fc_obj c) < need ->
  exists c', fdeliver z true need false want s c = Ok c' /\ fc_fail c' = true /\ mem (fc_obj c') = None.
Proof.
  intros F N L. unfold fdeliver. rewrite F. cbn [negb orb]. destruct (Nat.ltb_spec (o_size (fc_obj c)) need); [|lia].
  unfold alloc. destruct (Nat.eqb_spec need (o_size (fc_obj c))); [lia|]. rewrite andb_false_r. destruct (Nat.eqb_spec need 0); [contradiction|]. cbn [negb].
  eexists. split; [reflexivity|]. split; reflexivity.
Qed.
End P.

(** the failing case arises in the first delivery of a sensor: constructed buffer of one
    slot, eight slots needed, no memory; the next filter update reads the buffer *)
Example C86_first_delivery_fails : let s := {| time_us := 1000000%Z; payload := 0%Z |} in
  let c := mk_fchan false (construct 0%Z true) in
  exists c', fdeliver 0%Z true 8 false true s c = Ok c' /\ fc_fail c' = true /\ astep 0%Z (APop 2000000) (fc_obj c') = UB.
Proof. cbv zeta. eexists. split; [reflexivity|]. split; reflexivity. Qed.
Example C86_safe_run : exists o', arun 0%Z [AAlloc 3 true; APush {| time_us := 1000000%Z; payload := 7%Z |}; ANewest; APop 1000000; APop 1000000; AAlloc 0 true; AOldest] (construct 0%Z true)
  = Ok (o', [OBool true; OUnit; OSample {| time_us := 1000000%Z; payload := 7%Z |}; OSample {| time_us := 1000000%Z; payload := 7%Z |}; ONothing; OBool false; OSample {| time_us := 0%Z; payload := 7%Z |}]).
Proof. eexists. vm_compute. reflexivity. Qed.
Print Assumptions C86_memory_safe. Print Assumptions C86_read_after_failed_allocation_refuted. Print Assumptions C86_failure_is_latched. Print Assumptions C86_deliveries_safe.
Print Assumptions C86_deliveries_never_fault. Print Assumptions C86_failure_latches.

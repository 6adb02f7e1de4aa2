(** * Consequences of the refinement for whole histories *)
From Verif Require Import CBase RingBufferModel RingBufferSpec RingBufferProofs.
From Coq Require Import PeanoNat.

(** [subseq a b]: [a] is obtained from [b] by deleting elements (specification) *)
Inductive subseq {B : Type} : list B -> list B -> Prop :=
| subseq_nil : forall b, subseq [] b
| subseq_skip : forall a x b, subseq a b -> subseq a (x :: b)
| subseq_take : forall x a b, subseq a b -> subseq (x :: a) (x :: b).

(** samples handed to the buffer, in order *)
Fixpoint pushed {A} (os : list (op A)) : list (sample A) :=
  match os with
  | [] => []
  | Push s :: r => s :: pushed r
  | _ :: r => pushed r
  end.

(** samples read from the buffer, in order *)
Fixpoint popped {A} (l : list (op A * out A)) : list (sample A) :=
  match l with
  | [] => []
  | (_, OPopped s) :: r => s :: popped r
  | _ :: r => popped r
  end.

Definition no_map {A} (o : op A) : Prop := match o with MapAll _ => False | _ => True end.

Section H.
Context {A : Type} (z : A).

Lemma q_run_app n (os1 os2 : list (op A)) : forall q,
  q_run n q (os1 ++ os2) =
  let '(q1, x1) := q_run n q os1 in let '(q2, x2) := q_run n q1 os2 in (q2, x1 ++ x2).
Proof.
  induction os1 as [|o os1 IH]; intros q; simpl.
  - destruct (q_run n q os2); reflexivity.
  - destruct (q_step n q o) as [q1 x]. rewrite IH.
    destruct (q_run n q1 os1) as [q2 xs]. destruct (q_run n q2 os2). reflexivity.
Qed.

Lemma reach n b os : (n < 256)%nat -> allocate z n = Some b -> Forall op_ok os ->
  Inv z (fst (run z b os)) /\ size (fst (run z b os)) = n /\
  contents z (fst (run z b os)) = fst (q_run n [] os).
Proof.
  intros Hn Ha Hos. destruct (inv_alloc z n b Hn Ha) as (Hi & Hc & Hs).
  pose proof (run_refines z os b Hi Hos) as H. destruct (run z b os) as [b' xs].
  destruct H as (H1 & H2 & H3). simpl. rewrite Hs, Hc in H3. rewrite H3. simpl. subst n. auto.
Qed.

Lemma ends_of_queue n b os : (n < 256)%nat -> allocate z n = Some b -> Forall op_ok os ->
  let q := fst (q_run n [] os) in
  let b' := fst (run z b os) in
  (length q <= n)%nat /\ size b' = n /\
  (q <> [] -> hd_error q = Some (get_newest z b') /\ hd_error (rev q) = Some (get_oldest z b')).
Proof.
  intros Hn Ha Hos q b'. destruct (reach n b os Hn Ha Hos) as (Hi & Hs & Hc).
  fold q in Hc. fold b' in Hi, Hs, Hc.
  assert (Hl : length q = len b') by (rewrite <- Hc; unfold contents; rewrite map_length, seq_length; reflexivity).
  split; [rewrite Hl, <- Hs; apply (len_le_size z b' Hi)|]. split; [exact Hs|].
  intros Hne. rewrite <- Hc in *. unfold contents in *.
  destruct (len b') as [|m] eqn:El; [simpl in Hne; congruence|].
  assert (Hf : first_write b' = false) by (unfold len in El; destruct (first_write b'); [discriminate|reflexivity]).
  split.
  - simpl. unfold item, pop_index, get_newest. simpl. rewrite Nat.sub_0_r. reflexivity.
  - replace (S m) with (m + 1)%nat by lia. rewrite seq_app, map_app, rev_app_distr. simpl.
    unfold item, get_oldest. f_equal. f_equal.
    pose proof (len_le_size z b' Hi).
    pose proof (pop_index_tail z b' m Hi Hf ltac:(lia)) as Ht.
    rewrite El, Nat.eqb_refl in Ht. apply Nat.eqb_eq in Ht. exact Ht.
Qed.

Lemma pushes_keep_last_n n (xs : list (sample A)) :
  fst (q_run n [] (map Push xs)) = firstn n (rev xs).
Proof.
  induction xs as [|x xs IH] using rev_ind; [destruct n; reflexivity|].
  rewrite map_app, q_run_app. simpl.
  destruct (q_run n [] (map Push xs)) as [q1 x1]. simpl in *. subst q1.
  rewrite rev_app_distr. unfold q_push.
  change (rev [x] ++ rev xs) with (x :: rev xs).
  destruct n as [|n]; [reflexivity|]. rewrite !firstn_cons. f_equal. rewrite firstn_firstn.
  f_equal. lia.
Qed.

Lemma not_due ts (s : sample A) : is_due ts s = false <-> ~ (time_us s <= ts < time_us s + 100000).
Proof. unfold is_due. lia. Qed.
Lemma is_due_iff ts (s : sample A) : is_due ts s = true <-> time_us s <= ts < time_us s + 100000.
Proof. unfold is_due. lia. Qed.

Lemma pop_from_reachable n b os ts : (n < 256)%nat -> allocate z n = Some b -> Forall op_ok os ->
  100000 <= ts < two64 ->
  let b1 := fst (run z b os) in
  let q := fst (q_run n [] os) in
  match pop_first_older_than z ts b1 with
  | Some (x, b2) =>
      exists newer older, q = newer ++ x :: older /\
        (time_us x <= ts < time_us x + 100000) /\
        Forall (fun s => ~ (time_us s <= ts < time_us s + 100000)) newer /\
        fst (q_run n [] (os ++ [Pop ts])) = newer /\
        (forall os', Forall op_ok os' -> snd (run z b2 os') = snd (q_run n newer os'))
  | None => Forall (fun s => ~ (time_us s <= ts < time_us s + 100000)) q
  end.
Proof.
  intros Hn Ha Hos Hts b1 q. destruct (reach n b os Hn Ha Hos) as (Hi & Hs & Hc).
  fold b1 q in Hi, Hs, Hc.
  pose proof (pop_spec z ts b1 Hi Hts) as Hp.
  destruct (pop_first_older_than z ts b1) as [[x b2]|].
  - destruct Hp as (Hi2 & Hs2 & Hq). rewrite Hc in Hq.
    destruct (q_pop_some _ _ _ _ Hq) as (older & E1 & E2 & E3).
    exists (contents z b2), older. split; [exact E1|]. split; [apply is_due_iff; exact E2|].
    split; [|split].
    + eapply Forall_impl; [|exact E3]. intros s. apply not_due.
    + rewrite q_run_app. destruct (q_run n [] os) as [q1 x1]. simpl. unfold q in Hq. simpl in Hq.
      rewrite Hq. reflexivity.
    + intros os' Hos'. pose proof (run_refines z os' b2 Hi2 Hos') as H.
      destruct (run z b2 os') as [b3 xs]. destruct H as (_ & _ & H).
      rewrite Hs2, Hs in H. rewrite H. reflexivity.
  - rewrite Hc in Hp. apply q_pop_none in Hp. eapply Forall_impl; [|exact Hp]. intros s. apply not_due.
Qed.

(** history: the queue (oldest first) is always a subsequence of what was
    pushed after the last returned sample *)
Lemma subseq_refl {B} (l : list B) : subseq l l.
Proof. induction l; [apply subseq_nil|apply subseq_take; assumption]. Qed.
Lemma subseq_app {B} (a1 b1 a2 b2 : list B) : subseq a1 b1 -> subseq a2 b2 -> subseq (a1 ++ a2) (b1 ++ b2).
Proof.
  intros H1 H2. induction H1; simpl.
  - induction b as [|y b IH]; simpl; [exact H2|apply subseq_skip; exact IH].
  - apply subseq_skip. exact IHsubseq.
  - apply subseq_take. exact IHsubseq.
Qed.
Lemma subseq_trans {B} (a b c : list B) : subseq a b -> subseq b c -> subseq a c.
Proof.
  intros Hab Hbc. revert a Hab. induction Hbc as [c|b x c Hbc IH|x b c Hbc IH]; intros a Hab.
  - inversion Hab. apply subseq_nil.
  - apply subseq_skip. apply IH. exact Hab.
  - inversion Hab as [|a' ? ? H|? a' ? H]; subst.
    + apply subseq_nil.
    + apply subseq_skip. apply IH. exact H.
    + apply subseq_take. apply IH. exact H.
Qed.
Lemma subseq_app_r {B} (a b c : list B) : subseq a c -> subseq a (b ++ c).
Proof. intros H. induction b; simpl; [exact H|apply subseq_skip; assumption]. Qed.
Lemma subseq_rev_firstn {B} n (l : list B) : subseq (rev (firstn n l)) (rev l).
Proof.
  rewrite <- (firstn_skipn n l) at 2. rewrite rev_app_distr. apply subseq_app_r. apply subseq_refl.
Qed.

Lemma popped_app (l1 l2 : list (op A * out A)) : popped (l1 ++ l2) = popped l1 ++ popped l2.
Proof. induction l1 as [|[o [|s|]] l1 IH]; simpl; rewrite ?IH; reflexivity. Qed.

Lemma q_history n (os : list (op A)) : forall q, Forall no_map os ->
  let '(q', xs) := q_run n q os in
  subseq (popped (combine os xs) ++ rev q') (rev q ++ pushed os).
Proof.
  induction os as [|o os IH]; intros q Hm; simpl.
  - rewrite app_nil_r. apply subseq_refl.
  - inversion Hm as [|? ? Ho Hr]; subst.
    destruct o as [s|ts|f]; simpl in Ho; [| |contradiction].
    + simpl. specialize (IH (q_push n s q) Hr). destruct (q_run n (q_push n s q) os) as [q' xs]. simpl.
      eapply subseq_trans; [exact IH|].
      replace (rev q ++ s :: pushed os) with ((rev q ++ [s]) ++ pushed os) by (rewrite <- app_assoc; reflexivity).
      apply subseq_app; [|apply subseq_refl].
      unfold q_push. apply (subseq_rev_firstn n (s :: q)).
    + simpl. destruct (q_pop ts q) as [[x newer]|] eqn:Eq.
      * specialize (IH newer Hr). destruct (q_run n newer os) as [q' xs]. simpl.
        destruct (q_pop_some _ _ _ _ Eq) as (older & E1 & _ & _). subst q.
        rewrite rev_app_distr. simpl. rewrite <- !app_assoc. simpl.
        apply subseq_app_r. apply subseq_take. exact IH.
      * specialize (IH q Hr). destruct (q_run n q os) as [q' xs]. simpl. exact IH.
Qed.

Lemma q_causal n (os : list (op A)) : forall q ts x,
  In (Pop ts, OPopped x) (combine os (snd (q_run n q os))) -> time_us x <= ts < time_us x + 100000.
Proof.
  induction os as [|o os IH]; intros q ts x; simpl; [contradiction|].
  destruct (q_step n q o) as [q1 y] eqn:Es. destruct (q_run n q1 os) as [q2 ys] eqn:Er. simpl.
  intros [H|H].
  - injection H as -> ->. simpl in Es. destruct (q_pop ts q) as [[w newer]|] eqn:Eq; [|discriminate].
    injection Es as -> ->. destruct (q_pop_some _ _ _ _ Eq) as (older & _ & E2 & _). apply is_due_iff. exact E2.
  - apply (IH q1). rewrite Er. exact H.
Qed.

Lemma history_subseq n b (os : list (op A)) : (n < 256)%nat -> allocate z n = Some b ->
  Forall op_ok os -> Forall no_map os ->
  let res := combine os (snd (run z b os)) in
  subseq (popped res) (pushed os) /\
  (forall ts x, In (Pop ts, OPopped x) res -> time_us x <= ts < time_us x + 100000).
Proof.
  intros Hn Ha Hos Hm. rewrite (run_outputs z n b os Hn Ha Hos). split.
  - pose proof (q_history n os [] Hm) as H. destruct (q_run n [] os) as [q' xs]. simpl in *.
    eapply subseq_trans; [|exact H].
    rewrite <- (app_nil_r (popped (combine os xs))) at 1.
    apply subseq_app; [apply subseq_refl|apply subseq_nil].
  - intros ts x. apply q_causal.
Qed.

Lemma empty_read_exact n b os ts : (n < 256)%nat -> allocate z n = Some b -> Forall op_ok os ->
  0 <= ts < two64 -> fst (q_run n [] os) = [] ->
  let b1 := fst (run z b os) in
  (pop_first_older_than z ts b1 <> None <-> ts < 100000) /\
  (forall x b2, pop_first_older_than z ts b1 = Some (x, b2) -> time_us x = 0).
Proof.
  intros Hn Ha Hos Hts Hq b1. destruct (reach n b os Hn Ha Hos) as (Hi & Hs & Hc).
  fold b1 in Hi, Hs, Hc. rewrite Hq in Hc.
  destruct (Z.ltb_spec ts 100000) as [Hlt|Hge].
  - assert (Hf : first_write b1 = true).
    { destruct (first_write b1) eqn:Hf; [reflexivity|]. exfalso.
      assert (Hl : length (contents z b1) = len b1) by (unfold contents; rewrite map_length, seq_length; reflexivity).
      rewrite Hc in Hl. simpl in Hl. unfold len in Hl. rewrite Hf in Hl.
      destruct (tail b1 <=? head b1)%nat; lia. }
    destruct (pop_empty_early z ts b1 Hi Hf ltac:(lia)) as (b' & E1 & E2).
    rewrite E1. split.
    + split; [intros _; exact Hlt|discriminate].
    + intros x b2 E. injection E as <- <-. exact E2.
  - pose proof (pop_spec z ts b1 Hi ltac:(lia)) as Hp.
    destruct (pop_first_older_than z ts b1) as [[x b2]|].
    + destruct Hp as (_ & _ & Hp). rewrite Hc in Hp. discriminate.
    + split; [split; [congruence|lia]|discriminate].
Qed.
End H.

Lemma spurious_witness :
  (exists b, allocate 0 3 = Some b /\
     snd (run 0 b [Pop 99999]) = [OPopped {| time_us := 0; payload := 0 |}]) /\
  (exists b, allocate 0 3 = Some b /\
     snd (run 0 b [Push {| time_us := 50000; payload := 7 |}; Pop 60000; Pop 60000]) =
       [ODone; OPopped {| time_us := 50000; payload := 7 |}; OPopped {| time_us := 0; payload := 7 |}]).
Proof. split; eexists; (split; [reflexivity|vm_compute; reflexivity]). Qed.

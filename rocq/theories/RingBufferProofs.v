(** * The array implementation refines the bounded queue *)
From Verif Require Import CBase RingBufferModel RingBufferSpec.
From Coq Require Import PeanoNat.

Section Proofs.
Context {A : Type}.
Variable z : A.
Notation sample := (sample A).
Notation ring := (ring A).
Notation load := (load z).
Notation pop_loop := (pop_loop z).
Notation pop_first_older_than := (pop_first_older_than z).

Definition len (b : ring) : nat :=
  if first_write b then 0%nat
  else if (tail b <=? head b)%nat then (head b - tail b + 1)%nat
  else (size b + head b - tail b + 1)%nat.

Definition item (b : ring) (i : nat) : sample := load (pop_index b i) (buffer b).

(** abstraction function: retained samples, newest first *)
Definition contents (b : ring) : list sample := map (item b) (seq 0 (len b)).

Definition time_ok (s : sample) : Prop := 0 <= time_us s < two64 - 100000.

Record Inv (b : ring) : Prop := {
  inv_len : length (buffer b) = size b;
  inv_size : (0 < size b < 256)%nat;
  inv_head : (head b < size b)%nat;
  inv_tail : (tail b < size b)%nat;
  inv_first : first_write b = true -> head b = tail b /\ time_us (load (head b) (buffer b)) = 0;
  inv_time : Forall time_ok (buffer b) }.

Lemma store_length i x (l : list sample) : length (store i x l) = length l.
Proof. revert i; induction l as [|y l IH]; intros [|i]; simpl; auto. Qed.

Lemma load_store i j x (l : list sample) : (i < length l)%nat ->
  load j (store i x l) = if (i =? j)%nat then x else load j l.
Proof.
  revert i j. induction l as [|y l IH]; intros [|i] [|j] H; simpl in *; try lia; auto.
  unfold RingBufferModel.load in *; simpl. apply IH. lia.
Qed.

Lemma load_store_eq i x (l : list sample) : (i < length l)%nat -> load i (store i x l) = x.
Proof. intros H. rewrite load_store by exact H. rewrite Nat.eqb_refl. reflexivity. Qed.

Lemma load_store_neq i j x (l : list sample) : (i < length l)%nat -> i <> j ->
  load j (store i x l) = load j l.
Proof. intros H Hn. rewrite load_store by exact H. apply Nat.eqb_neq in Hn. rewrite Hn. reflexivity. Qed.

Lemma store_Forall (Q : sample -> Prop) i x l : Q x -> Forall Q l -> Forall Q (store i x l).
Proof.
  intros Hx Hl. revert i. induction Hl as [|y l Hy Hl IH]; intros [|i]; simpl; constructor; auto.
Qed.

Lemma load_Forall (Q : sample -> Prop) i l : Forall Q l -> (i < length l)%nat -> Q (load i l).
Proof. intros Hl Hi. unfold RingBufferModel.load. apply (proj1 (Forall_nth Q l) Hl). exact Hi. Qed.

Lemma len_le_size b : Inv b -> (len b <= size b)%nat.
Proof.
  intros [H1 H2 H3 H4 H5 H6]. unfold len. destruct (first_write b); [lia|].
  destruct (Nat.leb_spec (tail b) (head b)); lia.
Qed.

Lemma pop_index_lt b i : Inv b -> (i < size b)%nat -> (pop_index b i < size b)%nat.
Proof.
  intros [H1 H2 H3 H4 H5 H6] Hi. unfold pop_index.
  destruct (Nat.leb_spec i (head b)); lia.
Qed.

Lemma pop_index_inj b i j : Inv b -> (i < size b)%nat -> (j < size b)%nat ->
  pop_index b i = pop_index b j -> i = j.
Proof.
  intros [H1 H2 H3 H4 H5 H6] Hi Hj. unfold pop_index.
  destruct (Nat.leb_spec i (head b)), (Nat.leb_spec j (head b)); lia.
Qed.

(** the tail is reached exactly at the last retained element *)
Lemma pop_index_tail b i : Inv b -> first_write b = false -> (i < size b)%nat ->
  (pop_index b i =? tail b)%nat = (S i =? len b)%nat.
Proof.
  intros [H1 H2 H3 H4 H5 H6] Hf Hi. unfold pop_index, len. rewrite Hf.
  destruct (Nat.leb_spec i (head b)), (Nat.leb_spec (tail b) (head b));
  apply eq_true_iff_eq; rewrite !Nat.eqb_eq; lia.
Qed.

Lemma mod_succ h s : (h < s)%nat -> ((h + 1) mod s)%nat = if (S h =? s)%nat then 0%nat else S h.
Proof.
  intros H. destruct (Nat.eqb_spec (S h) s) as [E|E].
  - replace (h + 1)%nat with s by lia. apply Nat.mod_same. lia.
  - replace (h + 1)%nat with (S h) by lia. apply Nat.mod_small. lia.
Qed.

Lemma inv_alloc n b : (n < 256)%nat -> allocate z n = Some b -> Inv b /\ contents b = [] /\ size b = n.
Proof.
  unfold allocate. intros Hn. destruct (Nat.eqb_spec n 0) as [E|E]; [discriminate|].
  intros H. injection H as <-. split; [|split; reflexivity].
  constructor; simpl.
  - apply repeat_length.
  - lia.
  - lia.
  - lia.
  - intros _. split; [reflexivity|]. unfold RingBufferModel.load. destruct n; [lia|]. reflexivity.
  - apply Forall_forall. intros x Hx. apply repeat_spec in Hx. subst x.
    unfold time_ok. cbn [time_us zero_sample]. rewrite two64_val. lia.
Qed.

Lemma inv_push b x : Inv b -> time_ok x -> Inv (push x b).
Proof.
  intros [H1 H2 H3 H4 H5 H6] Hx. unfold push.
  pose proof (mod_succ (head b) (size b) H3) as Eh.
  pose proof (mod_succ (tail b) (size b) H4) as Et.
  set (hn := if first_write b then head b else ((head b + 1) mod size b)%nat) in *.
  assert (Hhn : (hn < size b)%nat).
  { unfold hn. destruct (first_write b); [exact H3|]. rewrite Eh.
    destruct (Nat.eqb_spec (S (head b)) (size b)); lia. }
  destruct ((hn =? tail b)%nat && negb (first_write b))%bool eqn:E.
  - apply andb_true_iff in E. destruct E as [E1 E2].
    apply negb_true_iff in E2.
    constructor; simpl.
    + rewrite store_length. exact H1.
    + exact H2.
    + exact Hhn.
    + rewrite Et. destruct (Nat.eqb_spec (S (tail b)) (size b)); lia.
    + rewrite E2. discriminate.
    + apply store_Forall; assumption.
  - constructor; simpl.
    + rewrite store_length. exact H1.
    + exact H2.
    + exact Hhn.
    + exact H4.
    + discriminate.
    + apply store_Forall; assumption.
Qed.

Lemma push_size (b : ring) x : size (push x b) = size b.
Proof. unfold push. destruct (_ && _)%bool; reflexivity. Qed.

Lemma firstn_map_seq {B} (f : nat -> B) k n : firstn k (map f (seq 0 n)) = map f (seq 0 (Nat.min k n)).
Proof.
  rewrite firstn_map. f_equal. revert k. generalize 0%nat as s. induction n as [|n IH]; intros s k.
  - rewrite Nat.min_0_r. destruct k; reflexivity.
  - destruct k as [|k]; [reflexivity|]. simpl. f_equal. apply IH.
Qed.

Lemma map_seq_ext {B} (f g : nat -> B) s n :
  (forall i, (s <= i < s + n)%nat -> f i = g i) -> map f (seq s n) = map g (seq s n).
Proof. intros H. apply map_ext_in. intros i Hi. apply in_seq in Hi. apply H. exact Hi. Qed.

Lemma contents_push b x : Inv b -> contents (push x b) = q_push (size b) x (contents b).
Proof.
  intros Hinv. pose proof (len_le_size b Hinv) as Hls.
  pose proof Hinv as [H1 H2 H3 H4 H5 H6].
  pose proof (mod_succ (head b) (size b) H3) as Eh.
  pose proof (mod_succ (tail b) (size b) H4) as Et.
  unfold q_push. destruct (first_write b) eqn:Hf.
  - assert (Ec : contents b = []) by (unfold contents, len; rewrite Hf; reflexivity).
    rewrite Ec. unfold contents, push, len. rewrite Hf. simpl negb. rewrite andb_false_r.
    cbn [first_write head tail size buffer].
    destruct (H5 eq_refl) as [Eht _].
    replace (tail b <=? head b)%nat with true by (symmetry; apply Nat.leb_le; lia).
    replace (head b - tail b + 1)%nat with 1%nat by lia.
    destruct (size b) as [|s]; [lia|]. simpl. f_equal.
    + unfold item, pop_index. cbn [head size buffer]. simpl. rewrite Nat.sub_0_r.
      apply load_store_eq. lia.
    + destruct s; reflexivity.
  - set (b' := push x b).
    assert (Hh' : head b' = ((head b + 1) mod size b)%nat).
    { unfold b', push. rewrite Hf. destruct (_ && _)%bool; reflexivity. }
    assert (Hs' : size b' = size b) by apply push_size.
    assert (Hb' : buffer b' = store ((head b + 1) mod size b)%nat x (buffer b)).
    { unfold b', push. rewrite Hf. destruct (_ && _)%bool; reflexivity. }
    assert (Hf' : first_write b' = false).
    { unfold b', push. rewrite Hf. destruct (_ && _)%bool; reflexivity. }
    assert (Ht' : tail b' = if ((head b + 1) mod size b =? tail b)%nat then ((tail b + 1) mod size b)%nat else tail b).
    { unfold b', push. rewrite Hf. simpl negb. rewrite andb_true_r. destruct ((head b + 1) mod size b =? tail b)%nat; reflexivity. }
    assert (Hl' : len b' = Nat.min (size b) (S (len b))).
    { unfold len. rewrite Hf', Hf, Hs', Hh', Ht', Eh, Et.
      repeat match goal with
      | |- context [(?a =? ?c)%nat] => destruct (Nat.eqb_spec a c)
      | |- context [(?a <=? ?c)%nat] => destruct (Nat.leb_spec a c)
      end; lia. }
    unfold contents at 1. rewrite Hl'. unfold contents.
    assert (Hlen1 : (1 <= len b)%nat).
    { unfold len. rewrite Hf. destruct (Nat.leb_spec (tail b) (head b)); lia. }
    destruct (size b) as [|s] eqn:Es; [lia|].
    cbn [firstn Nat.min]. rewrite firstn_map_seq. cbn [seq map].
    assert (Hhn : (head b' < S s)%nat).
    { rewrite Hh', Eh. destruct (Nat.eqb_spec (S (head b)) (S s)); lia. }
    f_equal.
    + unfold item, pop_index. simpl. rewrite Nat.sub_0_r, Hb', <- Hh'.
      apply load_store_eq. lia.
    + rewrite <- seq_shift, map_map. apply map_seq_ext. intros i Hi.
      unfold item.
      assert (Ei : pop_index b' (S i) = pop_index b i).
      { unfold pop_index. rewrite Hs', Hh', Eh, Es.
        destruct (Nat.eqb_spec (S (head b)) (S s)) as [E1|E1].
        - simpl. destruct (Nat.leb_spec i (head b)); lia.
        - destruct (Nat.leb_spec (S i) (S (head b))), (Nat.leb_spec i (head b)); lia. }
      rewrite Ei, Hb'. apply load_store_neq; rewrite Eh.
      * destruct (Nat.eqb_spec (S (head b)) (S s)); lia.
      * unfold pop_index. rewrite Es.
        destruct (Nat.eqb_spec (S (head b)) (S s)), (Nat.leb_spec i (head b)); lia.
Qed.

(** ** pop *)

Lemma due_is_due ts s : time_ok s -> is_u64 ts -> due ts s = is_due ts s.
Proof.
  intros Hs Hts. unfold due, is_due, add64, time_ok, is_u64 in *. rewrite u64_small by lia.
  destruct (Z.leb_spec (time_us s) ts); [|reflexivity]. simpl.
  apply eq_true_iff_eq. rewrite !Z.ltb_lt. lia.
Qed.

(** what the loop does, in terms of the retained items from position [i] *)
Fixpoint find_due (ts : Z) (b : ring) (i n : nat) : option nat :=
  match n with
  | O => None
  | S m => if is_due ts (item b i) then Some i else find_due ts b (S i) m
  end.

Lemma pop_loop_find ts b : Inv b -> is_u64 ts -> first_write b = false ->
  forall n i, (i + S n = len b)%nat -> forall fuel, (fuel + i = size b)%nat ->
  pop_loop ts b fuel i =
  match find_due ts b i (S n) with
  | Some k => Some (pop_hit z b (pop_index b k))
  | None => None
  end.
Proof.
  intros Hinv Hts Hf. pose proof (len_le_size b Hinv) as Hls.
  induction n as [|n IH]; intros i Hi fuel Hfuel;
    (destruct fuel as [|fuel]; [lia|]); cbn [RingBufferModel.pop_loop find_due].
  - assert (Hlt : (pop_index b i < length (buffer b))%nat).
    { rewrite (inv_len b Hinv). apply pop_index_lt; [exact Hinv|lia]. }
    rewrite due_is_due by first [exact Hts | apply load_Forall; [apply (inv_time b Hinv)|exact Hlt]].
    fold (item b i). destruct (is_due ts (item b i)); [reflexivity|].
    rewrite (pop_index_tail b i Hinv Hf) by lia.
    replace (S i =? len b)%nat with true by (symmetry; apply Nat.eqb_eq; lia). reflexivity.
  - assert (Hlt : (pop_index b i < length (buffer b))%nat).
    { rewrite (inv_len b Hinv). apply pop_index_lt; [exact Hinv|lia]. }
    rewrite due_is_due by first [exact Hts | apply load_Forall; [apply (inv_time b Hinv)|exact Hlt]].
    fold (item b i). destruct (is_due ts (item b i)); [reflexivity|].
    rewrite (pop_index_tail b i Hinv Hf) by lia.
    replace (S i =? len b)%nat with false by (symmetry; apply Nat.eqb_neq; lia).
    apply IH; lia.
Qed.

Lemma find_due_range ts b : forall n i k, find_due ts b i n = Some k -> (i <= k < i + n)%nat.
Proof.
  induction n as [|n IH]; intros i k; simpl; [discriminate|].
  destruct (is_due ts (item b i)).
  - intros H. injection H as <-. lia.
  - intros H. apply IH in H. lia.
Qed.

Lemma find_due_q_pop ts b : forall n i,
  q_pop ts (map (item b) (seq i n)) =
  match find_due ts b i n with
  | Some k => Some (item b k, map (item b) (seq i (k - i)))
  | None => None
  end.
Proof.
  induction n as [|n IH]; intros i; simpl; [reflexivity|].
  destruct (is_due ts (item b i)).
  - replace (i - i)%nat with 0%nat by lia. reflexivity.
  - rewrite IH. destruct (find_due ts b (S i) n) as [k|] eqn:E; [|reflexivity].
    apply find_due_range in E. replace (k - i)%nat with (S (k - S i)) by lia. reflexivity.
Qed.

Lemma inv_pop_hit b k : Inv b -> (k < len b)%nat ->
  first_write b = false ->
  let '(x, b') := pop_hit z b (pop_index b k) in
  x = item b k /\ Inv b' /\ size b' = size b /\ contents b' = map (item b) (seq 0 k).
Proof.
  intros Hinv Hk Hf. pose proof (len_le_size b Hinv) as Hls.
  assert (Hks : (k < size b)%nat) by lia.
  pose proof (pop_index_lt b k Hinv Hks) as Hpi.
  pose proof Hinv as [H1 H2 H3 H4 H5 H6].
  unfold pop_hit. set (p := pop_index b k) in *.
  set (x0 := {| time_us := 0; payload := payload (load p (buffer b)) |}).
  assert (Hx0 : time_ok x0) by (unfold time_ok, x0; cbn [time_us]; rewrite two64_val; lia).
  destruct (Nat.eqb_spec p (head b)) as [E|E].
  - assert (k = 0)%nat as ->.
    { apply (pop_index_inj b); try lia; try exact Hinv. fold p. rewrite E. unfold pop_index. simpl. lia. }
    split; [reflexivity|]. split; [|split].
    + constructor; simpl; auto.
      * rewrite store_length; exact H1.
      * intros _. split; [reflexivity|]. rewrite <- E, load_store_eq by lia. reflexivity.
      * apply store_Forall; auto.
    + reflexivity.
    + reflexivity.
  - assert (Hk0 : k <> 0%nat).
    { intros ->. apply E. unfold p, pop_index. simpl. lia. }
    pose proof (mod_succ p (size b) Hpi) as Ep.
    set (b' := {| buffer := store p x0 (buffer b); head := head b;
                  tail := ((p + 1) mod size b)%nat; size := size b; first_write := first_write b |}).
    assert (Hinv' : Inv b').
    { constructor; simpl; auto.
      * rewrite store_length; exact H1.
      * rewrite Ep. destruct (Nat.eqb_spec (S p) (size b)); lia.
      * rewrite Hf. discriminate.
      * apply store_Forall; auto. }
    split; [reflexivity|]. split; [exact Hinv'|]. split; [reflexivity|].
    unfold contents.
    assert (Hl' : len b' = k).
    { unfold len. simpl. rewrite Hf, Ep. unfold p, pop_index in *.
      destruct (Nat.leb_spec k (head b)).
      - destruct (Nat.eqb_spec (S (head b - k)) (size b)); [lia|].
        destruct (Nat.leb_spec (S (head b - k)) (head b)); lia.
      - destruct (Nat.eqb_spec (S (size b + head b - k)) (size b)).
        + simpl. lia.
        + destruct (Nat.leb_spec (S (size b + head b - k)) (head b)); lia. }
    rewrite Hl'. apply map_seq_ext. intros i Hi. unfold item.
    change (pop_index b' i) with (pop_index b i).
    change (buffer b') with (store p x0 (buffer b)).
    apply load_store_neq; [lia|].
    intros Ec. unfold p in Ec. apply (pop_index_inj b) in Ec; [lia|exact Hinv|lia|lia].
Qed.

Lemma pop_spec ts b : Inv b -> 100000 <= ts < two64 ->
  match pop_first_older_than ts b with
  | Some (x, b') => Inv b' /\ size b' = size b /\ q_pop ts (contents b) = Some (x, contents b')
  | None => q_pop ts (contents b) = None
  end.
Proof.
  intros Hinv Hts. pose proof (len_le_size b Hinv) as Hls.
  unfold RingBufferModel.pop_first_older_than.
  destruct (first_write b) eqn:Hf.
  - unfold contents, len. rewrite Hf. simpl.
    destruct (size b) as [|s] eqn:Es; [reflexivity|]. simpl.
    destruct (inv_first b Hinv Hf) as [Eht Et0].
    unfold pop_index. simpl. rewrite Nat.sub_0_r.
    assert (Hd : due ts (load (head b) (buffer b)) = false).
    { unfold due. rewrite Et0. apply andb_false_iff. right.
      unfold add64. rewrite u64_small by (rewrite two64_val; lia).
      apply Z.ltb_ge. lia. }
    rewrite Hd, Eht, Nat.eqb_refl. reflexivity.
  - assert (Hlen1 : (1 <= len b)%nat).
    { unfold len. rewrite Hf. destruct (Nat.leb_spec (tail b) (head b)); lia. }
    rewrite (pop_loop_find ts b Hinv) with (n := (len b - 1)%nat) by (unfold is_u64; auto; lia).
    replace (S (len b - 1)) with (len b) by lia.
    assert (Eq : q_pop ts (contents b) = match find_due ts b 0 (len b) with
      | Some k => Some (item b k, map (item b) (seq 0 (k - 0))) | None => None end)
      by (unfold contents; apply find_due_q_pop).
    rewrite Eq.
    destruct (find_due ts b 0 (len b)) as [k|] eqn:Ek; [|reflexivity].
    apply find_due_range in Ek. rewrite Nat.sub_0_r.
    pose proof (inv_pop_hit b k Hinv ltac:(lia) Hf) as Hh.
    destruct (pop_hit z b (pop_index b k)) as [x b'].
    destruct Hh as (Ex & Hi & Hs & Hc). subst x. rewrite Hc. auto.
Qed.

(** on the empty buffer, early after boot: exact behaviour *)
Lemma pop_empty_early ts b : Inv b -> first_write b = true -> 0 <= ts < 100000 ->
  exists b', pop_first_older_than ts b = Some (get_newest z b, b') /\ time_us (get_newest z b) = 0.
Proof.
  intros Hinv Hf Hts. unfold RingBufferModel.pop_first_older_than.
  pose proof (inv_size b Hinv) as Hsz.
  destruct (size b) as [|s] eqn:Es; [lia|]. simpl.
  destruct (inv_first b Hinv Hf) as [Eht Et0].
  unfold pop_index. simpl. rewrite Nat.sub_0_r.
  assert (Hd : due ts (load (head b) (buffer b)) = true).
  { unfold due. rewrite Et0. apply andb_true_iff.
    unfold add64. rewrite u64_small by (rewrite two64_val; lia). lia. }
  rewrite Hd. unfold pop_hit. rewrite Nat.eqb_refl. eexists. split; [reflexivity|]. exact Et0.
Qed.

Lemma inv_map_all f b : Inv b -> Inv (map_all f b).
Proof.
  intros [H1 H2 H3 H4 H5 H6]. constructor; simpl; auto.
  - rewrite map_length. exact H1.
  - intros Hf. destruct (H5 Hf) as [E1 E2]. split; [exact E1|].
    unfold RingBufferModel.load in *.
    rewrite nth_indep with (d' := {| time_us := time_us (zero_sample z); payload := f (payload (zero_sample z)) |})
      by (rewrite map_length; lia).
    rewrite (map_nth (fun s : sample => {| time_us := time_us s; payload := f (payload s) |}) (buffer b) (zero_sample z)).
    simpl. exact E2.
  - apply Forall_map. eapply Forall_impl; [|exact H6]. intros a Ha. exact Ha.
Qed.

Lemma contents_map_all f b : Inv b ->
  contents (map_all f b) = map (fun s => {| time_us := time_us s; payload := f (payload s) |}) (contents b).
Proof.
  intros Hinv. pose proof (len_le_size b Hinv) as Hls. unfold contents.
  rewrite map_map. change (len (map_all f b)) with (len b).
  apply map_seq_ext. intros i Hi. unfold item.
  change (pop_index (map_all f b) i) with (pop_index b i). simpl.
  unfold RingBufferModel.load.
  pose proof (pop_index_lt b i Hinv ltac:(lia)) as Hp.
  rewrite nth_indep with (d' := {| time_us := time_us (zero_sample z); payload := f (payload (zero_sample z)) |})
    by (rewrite map_length, (inv_len b Hinv); lia).
  exact (map_nth (fun s : sample => {| time_us := time_us s; payload := f (payload s) |}) (buffer b) (zero_sample z) _).
Qed.

Lemma step_refines b o : Inv b -> op_ok o ->
  let '(b', x) := step z b o in
  Inv b' /\ size b' = size b /\ q_step (size b) (contents b) o = (contents b', x).
Proof.
  intros Hinv Ho. destruct o as [s|ts|f]; simpl in *.
  - split; [apply inv_push; assumption|]. split; [apply push_size|].
    rewrite contents_push by exact Hinv. reflexivity.
  - pose proof (pop_spec ts b Hinv Ho) as Hp.
    destruct (pop_first_older_than ts b) as [[x b']|].
    + destruct Hp as (Hi & Hs & Hq). rewrite Hq. auto.
    + rewrite Hp. auto.
  - split; [apply inv_map_all; exact Hinv|]. split; [reflexivity|].
    rewrite contents_map_all by exact Hinv. reflexivity.
Qed.

Lemma run_refines os : forall b, Inv b -> Forall op_ok os ->
  let '(b', xs) := run z b os in
  Inv b' /\ size b' = size b /\ q_run (size b) (contents b) os = (contents b', xs).
Proof.
  induction os as [|o os IH]; intros b Hinv Hos; simpl; [auto|].
  inversion Hos as [|? ? Ho Hr]; subst.
  pose proof (step_refines b o Hinv Ho) as Hs.
  destruct (step z b o) as [b1 x]. destruct Hs as (Hi1 & Hs1 & Hq1).
  specialize (IH b1 Hi1 Hr). destruct (run z b1 os) as [b2 xs].
  destruct IH as (Hi2 & Hs2 & Hq2). rewrite Hq1, <- Hs1, Hq2.
  split; [exact Hi2|]. split; [congruence|]. reflexivity.
Qed.

Lemma run_outputs n b os : (n < 256)%nat -> allocate z n = Some b -> Forall op_ok os ->
  snd (run z b os) = snd (q_run n [] os).
Proof.
  intros Hn Ha Hos. destruct (inv_alloc n b Hn Ha) as (Hi & Hc & Hs).
  pose proof (run_refines os b Hi Hos) as H. destruct (run z b os) as [b' xs].
  destruct H as (_ & _ & H). rewrite Hs, Hc in H. rewrite H. reflexivity.
Qed.

End Proofs.

(** facts about the specification queue itself *)
Section SpecFacts.
Context {A : Type}.
Lemma q_pop_some ts (q : list (sample A)) x q' : q_pop ts q = Some (x, q') ->
  exists older, q = q' ++ x :: older /\ is_due ts x = true /\ Forall (fun s => is_due ts s = false) q'.
Proof.
  revert x q'. induction q as [|s r IH]; simpl; intros x q' H; [discriminate|].
  destruct (is_due ts s) eqn:E.
  - injection H as <- <-. exists r. auto.
  - destruct (q_pop ts r) as [[y newer]|]; [|discriminate].
    injection H as <- <-. destruct (IH y newer eq_refl) as (older & E1 & E2 & E3).
    exists older. subst r. auto.
Qed.
Lemma q_pop_none ts (q : list (sample A)) : q_pop ts q = None <-> Forall (fun s => is_due ts s = false) q.
Proof.
  induction q as [|s r IH]; simpl; [split; auto|].
  destruct (is_due ts s) eqn:E.
  - split; [discriminate|]. intros H. inversion H; congruence.
  - destruct (q_pop ts r) as [[y newer]|].
    + split; [discriminate|]. intros H. inversion H as [|? ? ? Hr]; subst. apply IH in Hr. discriminate.
    + split; intros _; [constructor; [exact E|apply IH; reflexivity]|reflexivity].
Qed.
End SpecFacts.

(** * Proofs about resets and the output predictor *)
From Verif Require Import CBase Scalar RingBufferModel RingBufferSpec RingBufferProofs OutputModel.
From Coq Require Import PeanoNat.
Open Scope nat_scope.

Section Vert.
Context {T : Type} {S : Scalar T}.
Local Open Scope scal_scope.
Notation W := (sample (overt T)).
Notation zv := (zero_vert (T := T)).

(** specification of the vertical correction on the history, oldest first:
    every vertical velocity is shifted; every integral but the oldest is
    recomputed with the trapezoidal rule *)
Fixpoint vert_chain (corr : T) (prev : overt T) (l : list W) : list W :=
  match l with
  | [] => []
  | x :: r =>
      let nv := vv (payload x) + corr in
      let w := mkVert nv (vi prev + (vv prev + nv) * slit 1 2 * vdt (payload x)) (vdt (payload x)) in
      {| time_us := time_us x; payload := w |} :: vert_chain corr w r
  end.
Definition vert_spec (corr : T) (l : list W) : list W :=
  match l with [] => [] | x :: r => let y := smap (addVV corr) x in y :: vert_chain corr (payload y) r end.

Local Close Scope scal_scope.
Lemma vertTurn_length sz corr f i (l : list W) : length (vertTurn sz corr f i l) = length l.
Proof. unfold vertTurn. rewrite store_length. destruct f; [apply store_length|reflexivity]. Qed.
Lemma vertLoop_length sz corr n : forall f i (l : list W), length (vertLoop sz corr n f i l) = length l.
Proof. induction n; intros; cbn [vertLoop]; [reflexivity|]. rewrite IHn. apply vertTurn_length. Qed.

Lemma load_store_eq' i (x : W) l : i < length l -> load zv i (store i x l) = x.
Proof. apply load_store_eq. Qed.
Lemma load_store_neq' i j (x : W) l : i < length l -> i <> j -> load zv j (store i x l) = load zv j l.
Proof. apply load_store_neq. Qed.

(** slot k places after [i] in a ring of size sz *)
Definition slot (sz i k : nat) : nat := (i + k) mod sz.
Lemma slot_lt sz i k : 0 < sz -> slot sz i k < sz. Proof. intros. apply Nat.mod_upper_bound. lia. Qed.
Lemma slot_succ sz i k : 0 < sz -> slot sz ((i + 1) mod sz) k = slot sz i (Datatypes.S k).
Proof. intros. unfold slot. rewrite Nat.add_mod_idemp_l by lia. f_equal. lia. Qed.
Lemma slot_0 sz i : i < sz -> slot sz i 0 = i. Proof. intros. unfold slot. rewrite Nat.add_0_r. apply Nat.mod_small. exact H. Qed.
Lemma slot_inj sz i j k : i < sz -> j < sz -> k < sz -> slot sz i j = slot sz i k -> j = k.
Proof.
  intros H1 H2 H3. unfold slot. intros E.
  assert (C : forall k, k < sz -> ((i + k) mod sz = i + k /\ i + k < sz) \/ ((i + k) mod sz = i + k - sz /\ sz <= i + k)).
  { intros m Hm. destruct (Nat.lt_ge_cases (i + m) sz) as [L|L]; [left; split; [apply Nat.mod_small; exact L|exact L]|right; split; [|exact L]].
    replace (i + m) with ((i + m - sz) + 1 * sz) at 1 by lia. rewrite Nat.mod_add by lia. apply Nat.mod_small. lia. }
  destruct (C j H2) as [[A1 A2]|[A1 A2]], (C k H3) as [[B1 B2]|[B1 B2]]; lia.
Qed.
(** the m slots from i on *)
Definition window (sz i m : nat) (l : list W) : list W := map (fun k => load zv (slot sz i k) l) (seq 0 m).
Lemma window_S sz i m l : 0 < sz -> window sz i (Datatypes.S m) l = load zv (slot sz i 0) l :: window sz ((i + 1) mod sz) m l.
Proof.
  intros H. unfold window. cbn [seq map]. f_equal. rewrite <- seq_shift, map_map. apply map_ext. intros k. rewrite slot_succ by exact H. reflexivity.
Qed.

(** turns after the first: slot i holds the final [prev] *)
Lemma vertLoop_tail sz corr n : forall i (l : list W), i < sz -> length l = sz -> n < sz ->
  window sz ((i + 1) mod sz) n (vertLoop sz corr n false i l) = vert_chain corr (payload (load zv i l)) (window sz ((i + 1) mod sz) n l) /\
  (forall k, k < sz -> (forall m, 1 <= m <= n -> slot sz i m <> k) -> load zv k (vertLoop sz corr n false i l) = load zv k l).
Proof.
  induction n as [|n IH]; intros i l Hi Hl Hn; [split; [reflexivity|reflexivity]|].
  cbn [vertLoop]. set (nx := (i + 1) mod sz). assert (Hnx : nx < sz) by (apply Nat.mod_upper_bound; lia).
  set (l' := vertTurn sz corr false i l). assert (Hl' : length l' = sz) by (unfold l'; rewrite vertTurn_length; exact Hl).
  destruct (IH nx l' Hnx Hl' ltac:(lia)) as [A B].
  assert (Ei : slot sz i 1 = nx) by reflexivity.
  assert (Nx : load zv nx l' = {| time_us := time_us (load zv nx l); payload :=
     mkVert (vv (payload (load zv nx l)) + corr)%scal (vi (payload (load zv i l)) + (vv (payload (load zv i l)) + (vv (payload (load zv nx l)) + corr)) * slit 1 2 * vdt (payload (load zv nx l)))%scal (vdt (payload (load zv nx l))) |}).
  { unfold l', vertTurn. fold nx. rewrite load_store_eq' by lia. reflexivity. }
  assert (Ot : forall k, k <> nx -> load zv k l' = load zv k l).
  { intros k Hk. unfold l', vertTurn. fold nx. apply load_store_neq'; [lia|auto]. }
  assert (Keep : load zv nx (vertLoop sz corr n false nx l') = load zv nx l').
  { apply B; [exact Hnx|]. intros m Hm E. rewrite <- (slot_0 sz nx Hnx) in E at 2. apply slot_inj in E; lia. }
  split.
  - rewrite !window_S by lia. rewrite slot_0 by exact Hnx. rewrite Keep. cbn [vert_chain]. rewrite Nx at 1.
    f_equal. rewrite A. rewrite Nx. cbn [payload]. f_equal.
    unfold window. apply map_seq_ext. intros k Hk. apply Ot. rewrite slot_succ by lia.
    intros E. rewrite <- (slot_0 sz nx Hnx) in E at 2. apply slot_inj in E; lia.
  - intros k Hk Hm. rewrite B.
    + apply Ot. intros ->. apply (Hm 1); [lia|exact Ei].
    + exact Hk.
    + intros m Hmm E. apply (Hm (Datatypes.S m)); [lia|]. rewrite <- slot_succ by lia. exact E.
Qed.

Lemma vertLoop_window sz corr i (l : list W) : 2 <= sz -> i < sz -> length l = sz ->
  window sz i sz (vertLoop sz corr (sz - 1) true i l) = vert_spec corr (window sz i sz l).
Proof.
  intros Hs Hi Hl. destruct sz as [|n]; [lia|]. replace (Datatypes.S n - 1) with n by lia.
  destruct n as [|n]; [lia|]. set (sz := Datatypes.S (Datatypes.S n)) in *.
  (* do the store of the first turn, then every turn is a tail turn *)
  set (l0 := store i (smap (addVV corr) (load zv i l)) l).
  assert (E : vertLoop sz corr (Datatypes.S n) true i l = vertLoop sz corr (Datatypes.S n) false i l0) by reflexivity.
  assert (Hl0 : length l0 = sz) by (unfold l0; rewrite store_length; exact Hl).
  assert (L0 : load zv i l0 = smap (addVV corr) (load zv i l)) by (apply load_store_eq'; lia).
  destruct (vertLoop_tail sz corr (Datatypes.S n) i l0 Hi Hl0 ltac:(unfold sz; lia)) as [A B].
  assert (WS : forall l, window sz i sz l = load zv i l :: window sz ((i + 1) mod sz) (Datatypes.S n) l).
  { intros l1. rewrite <- (slot_0 sz i Hi) at 2. apply (window_S sz i (Datatypes.S n)). unfold sz; lia. }
  rewrite E, !WS.
  rewrite A. cbn [vert_spec]. rewrite L0. f_equal.
  - rewrite B; [exact L0|exact Hi|]. intros m Hm EE. rewrite <- (slot_0 sz i Hi) in EE at 2. apply slot_inj in EE; lia.
  - f_equal. unfold window. apply map_seq_ext. intros k Hk. unfold l0. apply load_store_neq'; [lia|].
    rewrite slot_succ by lia. intros EE. rewrite <- (slot_0 sz i Hi) in EE at 1. apply slot_inj in EE; lia.
Qed.
Lemma vert_chain_firstn corr l : forall p m, firstn m (vert_chain corr p l) = vert_chain corr p (firstn m l).
Proof. induction l as [|x l IH]; intros p [|m]; cbn [vert_chain firstn]; try reflexivity. cbv zeta. rewrite IH. reflexivity. Qed.
Lemma vert_spec_firstn corr l m : firstn m (vert_spec corr l) = vert_spec corr (firstn m l).
Proof. destruct l as [|x l], m as [|m]; cbn [vert_spec firstn]; try reflexivity. rewrite vert_chain_firstn. reflexivity. Qed.

(** the retained samples, oldest first, are the first len slots from the tail *)
Lemma contents_window (b : ring (overt T)) : Inv zv b -> rev (contents zv b) = window (size b) (tail b) (len b) (buffer b).
Proof.
  intros HI. destruct (first_write b) eqn:F.
  { unfold contents, window. unfold len. rewrite F. reflexivity. }
  pose proof (len_le_size zv b HI) as HL. unfold contents, window. rewrite <- map_rev.
  pose proof HI as [H1 H2 H3 H4 H5 H6].
  assert (R : rev (seq 0 (len b)) = map (fun k => len b - 1 - k) (seq 0 (len b))).
  { apply nth_ext with (d := 0) (d' := 0).
    - rewrite rev_length, map_length. reflexivity.
    - intros n Hn. rewrite rev_length, seq_length in Hn. rewrite rev_nth by (rewrite seq_length; lia). rewrite !seq_length.
      rewrite seq_nth by lia. rewrite (nth_indep _ 0 (len b - 1 - 0)) by (rewrite map_length, seq_length; lia).
      rewrite (map_nth (fun k => len b - 1 - k) (seq 0 (len b)) 0 n). rewrite seq_nth by lia. lia. }
  rewrite R, map_map. apply map_seq_ext. intros k Hk. unfold item. f_equal. unfold pop_index, slot. unfold len in *. rewrite F in *.
  destruct (Nat.leb_spec (tail b) (head b)) as [C|C].
  - destruct (Nat.leb_spec (head b - tail b + 1 - 1 - k) (head b)); [|lia]. rewrite Nat.mod_small by lia. lia.
  - destruct (Nat.lt_ge_cases (tail b + k) (size b)) as [L|L].
    + rewrite Nat.mod_small by exact L. destruct (Nat.leb_spec (size b + head b - tail b + 1 - 1 - k) (head b)); lia.
    + replace ((tail b + k) mod size b) with (tail b + k - size b).
      2: { replace (tail b + k) with ((tail b + k - size b) + 1 * size b) at 2 by lia. rewrite Nat.mod_add by lia. rewrite Nat.mod_small by lia. reflexivity. }
      destruct (Nat.leb_spec (size b + head b - tail b + 1 - 1 - k) (head b)); lia.
Qed.
Lemma window_firstn sz i m n l : m <= n -> firstn m (window sz i n l) = window sz i m l.
Proof. intros H. unfold window. rewrite firstn_map_seq. rewrite Nat.min_l by exact H. reflexivity. Qed.

(** stored times are not touched *)
Lemma vertTurn_times sz corr f i (l : list W) k : time_us (load zv k (vertTurn sz corr f i l)) = time_us (load zv k l).
Proof.
  assert (G : forall j (x : W) l, time_us x = time_us (load zv j l) -> time_us (load zv k (store j x l)) = time_us (load zv k l)).
  { intros j x l0 Hx. destruct (Nat.lt_ge_cases j (length l0)) as [L|L].
    - rewrite load_store by exact L. destruct (Nat.eqb_spec j k); [subst; exact Hx|reflexivity].
    - f_equal. f_equal. clear -L. revert j L. induction l0 as [|a l0 IH]; intros [|j] L; cbn in *; try reflexivity; [lia|]. f_equal. apply IH. lia. }
  unfold vertTurn. set (l1 := if f then _ else _).
  assert (E1 : forall k, time_us (load zv k l1) = time_us (load zv k l)).
  { intros k0. unfold l1. destruct f; [|reflexivity].
    destruct (Nat.lt_ge_cases i (length l)) as [L|L].
    - rewrite load_store by exact L. destruct (Nat.eqb_spec i k0); [subst; reflexivity|reflexivity].
    - f_equal. f_equal. clear -L. generalize (smap (addVV corr) (load zv i l)). intros x. revert i L. induction l as [|a l IH]; intros [|i] L; cbn in *; try reflexivity; [lia|]. f_equal. apply IH. lia. }
  rewrite G by reflexivity. apply E1.
Qed.
Lemma vertLoop_times sz corr n : forall f i (l : list W) k, time_us (load zv k (vertLoop sz corr n f i l)) = time_us (load zv k l).
Proof. induction n; intros; cbn [vertLoop]; [reflexivity|]. rewrite IHn. apply vertTurn_times. Qed.
Lemma inv_vertBuf corr (b : ring (overt T)) : Inv zv b -> Inv zv (vertBuf corr b).
Proof.
  intros [H1 H2 H3 H4 H5 H6]. constructor; cbn [vertBuf buffer size head tail first_write]; auto.
  - rewrite vertLoop_length. exact H1.
  - intros F. destruct (H5 F) as [A B]. split; [exact A|]. rewrite vertLoop_times. exact B.
  - apply Forall_nth. intros i d Hi. rewrite vertLoop_length in Hi.
    rewrite (nth_indep _ d (zero_sample zv)) by (rewrite vertLoop_length; exact Hi).
    change (time_ok (load zv i (vertLoop (size b) corr (size b - 1) true (tail b) (buffer b)))).
    unfold time_ok. rewrite vertLoop_times. apply (load_Forall zv time_ok i (buffer b) H6 Hi).
Qed.
Lemma contents_vertBuf corr (b : ring (overt T)) : Inv zv b -> 2 <= size b ->
  rev (contents zv (vertBuf corr b)) = vert_spec corr (rev (contents zv b)).
Proof.
  intros HI H2. rewrite contents_window by (apply inv_vertBuf; exact HI). rewrite contents_window by exact HI.
  pose proof (len_le_size zv b HI) as HL. destruct HI as [A B C D E F].
  change (len (vertBuf corr b)) with (len b). cbn [vertBuf buffer size tail].
  rewrite <- (window_firstn _ _ (len b) (size b)) by exact HL. rewrite vertLoop_window by assumption.
  rewrite vert_spec_firstn, window_firstn by exact HL. reflexivity.
Qed.
End Vert.

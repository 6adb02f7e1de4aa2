(** * Properties C01, C02, C03: sensor delay buffers *)
From Verif Require Import CBase RingBufferModel RingBufferSpec RingBufferProofs RingBufferHistory.

Section Props.
Context {A : Type} (z : A).

(** C01: for every capacity and every history, the array buffer gives exactly
    the answers of the bounded newest-first queue. *)
Theorem C01_buffer_refines_bounded_queue :
  forall n b os, (n < 256)%nat -> allocate z n = Some b -> Forall op_ok os ->
  snd (run z b os) = snd (q_run n [] os).
Proof. exact (run_outputs z). Qed.

(** C01: get_newest / get_oldest are the ends of the queue, and the queue
    never exceeds the capacity. *)
Theorem C01_newest_oldest_capacity :
  forall n b os, (n < 256)%nat -> allocate z n = Some b -> Forall op_ok os ->
  let q := fst (q_run n [] os) in
  let b' := fst (run z b os) in
  (length q <= n)%nat /\ size b' = n /\
  (q <> [] -> hd_error q = Some (get_newest z b') /\ hd_error (rev q) = Some (get_oldest z b')).
Proof. exact (ends_of_queue z). Qed.

(** C01: after any pushes the buffer holds the last [n] samples and nothing else. *)
Theorem C01_holds_last_n :
  forall n (xs : list (sample A)), fst (q_run n [] (map Push xs)) = firstn n (rev xs).
Proof. exact pushes_keep_last_n. Qed.

(** C02: a read at horizon [ts] from any reachable buffer. *)
Theorem C02_pop_newest_due_and_discard_older :
  forall n b os ts, (n < 256)%nat -> allocate z n = Some b -> Forall op_ok os ->
  100000 <= ts < two64 ->
  let b1 := fst (run z b os) in
  let q := fst (q_run n [] os) in
  match pop_first_older_than z ts b1 with
  | Some (x, b2) =>
      exists newer older, q = newer ++ x :: older /\
        (time_us x <= ts < time_us x + 100000) /\
        Forall (fun s => ~ (time_us s <= ts < time_us s + 100000)) newer /\
        fst (q_run n [] (os ++ [Pop ts])) = newer /\
        (forall os', Forall op_ok os' -> snd (run z b2 os') = snd (q_run n newer os'))
  | None => Forall (fun s => ~ (time_us s <= ts < time_us s + 100000)) q
  end.
Proof. exact (pop_from_reachable z). Qed.

(** C02: every sample ever returned was pushed, none is returned twice, they
    come out in push order, and none is newer than the horizon it was read with. *)
Theorem C02_no_duplicate_no_reorder_causal :
  forall n b (os : list (op A)), (n < 256)%nat -> allocate z n = Some b -> Forall op_ok os -> Forall no_map os ->
  let res := combine os (snd (run z b os)) in
  subseq (popped res) (pushed os) /\
  (forall ts x, In (Pop ts, OPopped x) res -> time_us x <= ts < time_us x + 100000).
Proof. exact (history_subseq z). Qed.
End Props.

(** C03: the clean-read property fails below 100 ms: a fresh buffer returns a
    sample that was never pushed, and a consumed sample is returned again. *)
Theorem C03_spurious_sample_refuted :
  (exists b, allocate 0 3 = Some b /\
     snd (run 0 b [Pop 99999]) = [OPopped {| time_us := 0; payload := 0 |}]) /\
  (exists b, allocate 0 3 = Some b /\
     snd (run 0 b [Push {| time_us := 50000; payload := 7 |}; Pop 60000; Pop 60000]) =
       [ODone; OPopped {| time_us := 50000; payload := 7 |}; OPopped {| time_us := 0; payload := 7 |}]).
Proof. exact spurious_witness. Qed.

(** C03: the failure is confined to horizons below 100 ms and is exactly the
    re-delivery of the slot at the head with a zero time stamp. *)
Theorem C03_spurious_exactly_below_100ms :
  forall (A : Type) (z : A) n b os ts, (n < 256)%nat -> allocate z n = Some b -> Forall op_ok os ->
  0 <= ts < two64 -> fst (q_run n [] os) = [] ->
  let b1 := fst (run z b os) in
  (pop_first_older_than z ts b1 <> None <-> ts < 100000) /\
  (forall x b2, pop_first_older_than z ts b1 = Some (x, b2) -> time_us x = 0).
Proof. exact @empty_read_exact. Qed.

(** non-vacuity *)
Example C01_hypotheses_met :
  exists b, allocate 0 2 = Some b /\
  Forall (@op_ok Z) [Push (mk_sample 200000 1); Push (mk_sample 250000 2); Push (mk_sample 300000 3);
                     Pop 260000; Pop 310000; Pop 310000] /\
  snd (run 0 b [Push (mk_sample 200000 1); Push (mk_sample 250000 2); Push (mk_sample 300000 3);
                Pop 260000; Pop 310000; Pop 310000])
  = [ODone; ODone; ODone; OPopped (mk_sample 250000 2); OPopped (mk_sample 300000 3); ONone].
Proof.
  eexists. split; [reflexivity|]. split.
  - repeat constructor; cbn [op_ok time_us]; try (vm_compute; congruence).
  - vm_compute. reflexivity.
Qed.

Print Assumptions C01_buffer_refines_bounded_queue.
Print Assumptions C01_newest_oldest_capacity.
Print Assumptions C01_holds_last_n.
Print Assumptions C02_pop_newest_due_and_discard_older.
Print Assumptions C02_no_duplicate_no_reorder_causal.
Print Assumptions C03_spurious_sample_refuted.
Print Assumptions C03_spurious_exactly_below_100ms.

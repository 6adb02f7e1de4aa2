(** * Model of EKF/RingBuffer.h

    [data_type] is a sample: a 64-bit time stamp plus an arbitrary payload.
    The heap array [_buffer] is a list of length [_size]; [_head], [_tail],
    [_size] are [nat] (they are uint8_t in the code; [allocate] is only called
    with a uint8_t so all of them are below 256 -- proved in the invariant).
    Allocation failure (new[] returning nullptr / throwing) is not modelled here
    but in RingAllocModel.v, which also checks every memory access. *)
From Verif Require Export CBase.

Section Ring.
Context {A : Type}.

(** any *Sample struct of EKF/common.h l.59-152: time_us and the other fields *)
Record sample := mk_sample { time_us : Z; payload : A }.

(** value-initialised element, [new data_type[size]{}]; RingBuffer.h l.77 *)
Variable zero_payload : A.
Definition zero_sample : sample := {| time_us := 0; payload := zero_payload |}.

(** private members; RingBuffer.h l.158-165 *)
Record ring := mk_ring {
  buffer : list sample;
  head : nat;
  tail : nat;
  size : nat;
  first_write : bool }.

(** RingBuffer::allocate on a fresh object, l.60-89: size is uint8_t.
    [None] = returns false and leaves the object without storage. *)
Definition allocate (n : nat) : option ring :=
  if (n =? 0)%nat then None
  else Some {| buffer := repeat zero_sample n; head := 0; tail := 0;
               size := n; first_write := true |}.

(** array store [_buffer[i] = x] *)
Fixpoint store (i : nat) (x : sample) (l : list sample) : list sample :=
  match l, i with
  | [], _ => []
  | _ :: r, O => x :: r
  | y :: r, S j => y :: store j x r
  end.

(** array load [_buffer[i]]; indices are proved in range *)
Definition load (i : nat) (l : list sample) : sample := nth i l zero_sample.

(** RingBuffer::push, l.93-112 *)
Definition push (x : sample) (b : ring) : ring :=
  let head_new := if first_write b then head b
                  else ((head b + 1) mod size b)%nat in
  let buf := store head_new x (buffer b) in
  if ((head_new =? tail b)%nat && negb (first_write b))%bool
  then {| buffer := buf; head := head_new;
          tail := ((tail b + 1) mod size b)%nat; size := size b;
          first_write := first_write b |}
  else {| buffer := buf; head := head_new; tail := tail b; size := size b;
          first_write := false |}.

(** get_newest / get_oldest, l.118-119 *)
Definition get_newest (b : ring) : sample := load (head b) (buffer b).
Definition get_oldest (b : ring) : sample := load (tail b) (buffer b).

(** the time test of l.130: [timestamp >= t && timestamp < t + (uint64_t)1e5],
    the addition in uint64_t *)
Definition due (ts : Z) (s : sample) : bool :=
  (time_us s <=? ts) && (ts <? add64 (time_us s) 100000).

(** index computed at l.127-128 *)
Definition pop_index (b : ring) (i : nat) : nat :=
  if (i <=? head b)%nat then (head b - i)%nat else (size b + head b - i)%nat.

(** successful branch, l.131-148: returned sample and new buffer *)
Definition pop_hit (b : ring) (index : nat) : sample * ring :=
  let x := load index (buffer b) in
  let buf := store index {| time_us := 0; payload := payload x |} (buffer b) in
  if (index =? head b)%nat
  then (x, {| buffer := buf; head := head b; tail := head b; size := size b;
              first_write := true |})
  else (x, {| buffer := buf; head := head b;
              tail := ((index + 1) mod size b)%nat; size := size b;
              first_write := first_write b |}).

(** the loop of pop_first_older_than, l.126-157; [fuel] = _size - i *)
Fixpoint pop_loop (ts : Z) (b : ring) (fuel i : nat) : option (sample * ring) :=
  match fuel with
  | O => None
  | S f =>
      let index := pop_index b i in
      if due ts (load index (buffer b)) then Some (pop_hit b index)
      else if (index =? tail b)%nat then None
      else pop_loop ts b f (S i)
  end.

(** RingBuffer::pop_first_older_than, l.123-158 *)
Definition pop_first_older_than (ts : Z) (b : ring) : option (sample * ring) :=
  pop_loop ts b (size b) 0.

(** the in-place loops [for i < get_length() : buffer[i] = f(buffer[i])] of
    ekf_helper.cpp (resets) and ekf.cpp (output corrections) that go through
    [operator[]], l.116 *)
Definition map_all (f : A -> A) (b : ring) : ring :=
  {| buffer := map (fun s => {| time_us := time_us s; payload := f (payload s) |})
                   (buffer b);
     head := head b; tail := tail b; size := size b;
     first_write := first_write b |}.

(** Operations a client performs on an allocated buffer, with the visible
    result of each. *)
Inductive op := Push (s : sample) | Pop (ts : Z) | MapAll (f : A -> A).
Inductive out := ODone | OPopped (s : sample) | ONone.

Definition step (b : ring) (o : op) : ring * out :=
  match o with
  | Push s => (push s b, ODone)
  | MapAll f => (map_all f b, ODone)
  | Pop ts => match pop_first_older_than ts b with
              | Some (x, b') => (b', OPopped x)
              | None => (b, ONone)
              end
  end.

Fixpoint run (b : ring) (os : list op) : ring * list out :=
  match os with
  | [] => (b, [])
  | o :: r => let '(b1, x) := step b o in
              let '(b2, xs) := run b1 r in (b2, x :: xs)
  end.

End Ring.
Arguments sample A : clear implicits.
Arguments ring A : clear implicits.
Arguments op A : clear implicits.
Arguments out A : clear implicits.

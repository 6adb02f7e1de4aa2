(** * What a sensor delay buffer is supposed to do.

    The specification knows nothing about heads, tails and arrays: a buffer is
    the list of retained samples, newest first. *)
From Verif Require Import CBase RingBufferModel.

Section Spec.
Context {A : Type}.

(** A sample with time stamp [t] is due at horizon [ts] when it is not newer
    than the horizon and less than 100 ms older. *)
Definition is_due (ts : Z) (s : sample A) : bool :=
  (time_us s <=? ts) && (ts - time_us s <? 100000).

Definition queue := list (sample A).

(** newest first; at most [cap] samples are kept *)
Definition q_push (cap : nat) (s : sample A) (q : queue) : queue := firstn cap (s :: q).

(** the newest due sample and the samples newer than it *)
Fixpoint q_pop (ts : Z) (q : queue) : option (sample A * queue) :=
  match q with
  | [] => None
  | s :: r => if is_due ts s then Some (s, [])
              else match q_pop ts r with
                   | Some (x, newer) => Some (x, s :: newer)
                   | None => None
                   end
  end.

Definition q_step (cap : nat) (q : queue) (o : op A) : queue * out A :=
  match o with
  | Push s => (q_push cap s q, ODone)
  | MapAll f => (map (fun s => {| time_us := time_us s; payload := f (payload s) |}) q, ODone)
  | Pop ts => match q_pop ts q with
              | Some (x, q') => (q', OPopped x)
              | None => (q, ONone)
              end
  end.

Fixpoint q_run (cap : nat) (q : queue) (os : list (op A)) : queue * list (out A) :=
  match os with
  | [] => (q, [])
  | o :: r => let '(q1, x) := q_step cap q o in
              let '(q2, xs) := q_run cap q1 r in (q2, x :: xs)
  end.

(** time stamps are 64-bit and far (100 ms) from wrap-around *)
Definition op_ok (o : op A) : Prop :=
  match o with
  | Push s => 0 <= time_us s < two64 - 100000
  | Pop ts => 100000 <= ts < two64
  | MapAll _ => True
  end.
End Spec.

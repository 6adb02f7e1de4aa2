(** * EKF/RingBuffer.h with allocation failure and checked memory accesses

    The storage is [None] for a null pointer.  Reading or writing through a null
    pointer, an index outside the array and a modulus by zero are [UB].
    Allocation: [new data_type[size]{}] followed by a null test (l.77-81); its
    success is an input of the model (on the flight targets, built without
    exceptions, a failing new returns a null pointer). *)
From Verif Require Import CBase RingBufferModel.
Open Scope nat_scope.

Section M.
Context {A : Type}.
Variable zero_payload : A.
Notation smp := (sample A).
Notation zs := (zero_sample zero_payload).

(** private members l.158-165 *)
Record obj := mk_obj { mem : option (list smp); o_head : nat; o_tail : nat; o_size : nat; o_first : bool }.
(** member initialisers l.158-165 *)
Definition raw_obj : obj := mk_obj None 0 0 0 true.

(** [_buffer[i]] read and write *)
Definition get (i : nat) (o : obj) : outcome smp :=
  match mem o with None => UB | Some l => match nth_error l i with Some x => Ok x | None => UB end end.
Definition put (i : nat) (x : smp) (o : obj) : outcome obj :=
  match mem o with
  | None => UB
  | Some l => if i <? length l then Ok (mk_obj (Some (store i x l)) (o_head o) (o_tail o) (o_size o) (o_first o)) else UB
  end.
(** [a % b] on unsigned *)
Definition modulo_ (a b : nat) : outcome nat := if b =? 0 then UB else Ok (a mod b).

(** valid, l.91 *)
Definition valid (o : obj) : bool := match mem o with None => false | Some _ => 0 <? o_size o end.
(** allocate l.58-89; [ok]: the allocation succeeds *)
Definition alloc (ok : bool) (n : nat) (o : obj) : obj * bool :=
  if valid o && (n =? o_size o) then (o, true)
  else if n =? 0 then (o, false)
  else if ok then (mk_obj (Some (repeat zs n)) 0 0 n true, true)
  else (mk_obj None (o_head o) (o_tail o) (o_size o) (o_first o), false).
(** constructor l.48-49: RingBuffer() is allocate(1) *)
Definition construct (ok : bool) : obj := fst (alloc ok 1 raw_obj).

(** push l.93-112 *)
Definition cpush (x : smp) (o : obj) : outcome obj :=
  match (if o_first o then Ok (o_head o) else modulo_ (o_head o + 1) (o_size o)) with
  | UB => UB
  | Ok h =>
      match put h x o with
      | UB => UB
      | Ok o1 =>
          if (h =? o_tail o1) && negb (o_first o1) then
            match modulo_ (o_tail o1 + 1) (o_size o1) with
            | UB => UB
            | Ok t => Ok (mk_obj (mem o1) h t (o_size o1) (o_first o1))
            end
          else Ok (mk_obj (mem o1) h (o_tail o1) (o_size o1) false)
      end
  end.
(** l.127-128 *)
Definition cindex (o : obj) (i : nat) : nat := if i <=? o_head o then o_head o - i else o_size o + o_head o - i.
(** l.131-148 *)
Definition chit (o : obj) (index : nat) : outcome (smp * obj) :=
  match get index o with
  | UB => UB
  | Ok x =>
      match (if index =? o_head o then Ok (o_head o, true) else match modulo_ (index + 1) (o_size o) with UB => UB | Ok t => Ok (t, o_first o) end) with
      | UB => UB
      | Ok (t, fw) =>
          match put index {| time_us := 0; payload := payload x |} o with
          | UB => UB
          | Ok o1 => Ok (x, mk_obj (mem o1) (o_head o1) t (o_size o1) fw)
          end
      end
  end.
(** l.123-158 *)
Fixpoint cloop (ts : Z) (o : obj) (fuel i : nat) : outcome (option (smp * obj)) :=
  match fuel with
  | O => Ok None
  | S f =>
      let index := cindex o i in
      match get index o with
      | UB => UB
      | Ok x =>
          if due ts x then match chit o index with UB => UB | Ok r => Ok (Some r) end
          else if index =? o_tail o then Ok None else cloop ts o f (S i)
      end
  end.
Definition cpop (ts : Z) (o : obj) : outcome (option (smp * obj)) := cloop ts o (o_size o) 0.

(** what clients do *)
Inductive aop := AAlloc (n : nat) (ok : bool) | APush (s : smp) | APop (ts : Z) | ANewest | AOldest.
Inductive aout := OBool (b : bool) | OUnit | OSample (s : smp) | ONothing.
Definition astep (a : aop) (o : obj) : outcome (obj * aout) :=
  match a with
  | AAlloc n ok => let '(o', b) := alloc ok n o in Ok (o', OBool b)
  | APush s => match cpush s o with UB => UB | Ok o' => Ok (o', OUnit) end
  | APop ts => match cpop ts o with UB => UB | Ok None => Ok (o, ONothing) | Ok (Some (x, o')) => Ok (o', OSample x) end
  | ANewest => match get (o_head o) o with UB => UB | Ok x => Ok (o, OSample x) end
  | AOldest => match get (o_tail o) o with UB => UB | Ok x => Ok (o, OSample x) end
  end.
Fixpoint arun (l : list aop) (o : obj) : outcome (obj * list aout) :=
  match l with
  | [] => Ok (o, [])
  | a :: r => match astep a o with
              | UB => UB
              | Ok (o1, x) => match arun r o1 with UB => UB | Ok (o2, xs) => Ok (o2, x :: xs) end
              end
  end.

(** ** A sensor channel: the allocation guard of every set*Data
    (estimator_interface.cpp l.127-140, 171-184, 235-248, 280-293, 310-323, 339-352, 370-383, 400-413):
    [fail] is the _*_buffer_fail latch; [want]: the rate limit lets the sample through *)
Record fchan := mk_fchan { fc_fail : bool; fc_obj : obj }.
Definition fdeliver (initialised : bool) (need : nat) (ok want : bool) (s : smp) (c : fchan) : outcome fchan :=
  if negb initialised || fc_fail c then Ok c
  else
    let '(o, b) := if o_size (fc_obj c) <? need then alloc ok need (fc_obj c) else (fc_obj c, true) in
    if negb b then Ok (mk_fchan true o)
    else if want then match cpush s o with UB => UB | Ok o' => Ok (mk_fchan false o') end
    else Ok (mk_fchan false o).
End M.
Arguments obj A : clear implicits.
Arguments aop A : clear implicits.
Arguments aout A : clear implicits.
Arguments fchan A : clear implicits.

(** * What the sensor interface is supposed to do (independent of the model) *)
From Verif Require Import CBase F32 RingBufferModel.

(** deliveries: the rate limit in force, and the sample *)
Definition deliveries (A : Type) := list (Z * sample A).

(** a delivery is accepted iff its time stamp is more than the rate limit after
    the previously accepted one (64-bit unsigned difference) *)
Fixpoint accepted {A} (last : Z) (l : deliveries A) : list (sample A) :=
  match l with
  | [] => []
  | (m, s) :: r =>
      if (time_us s - last) mod 2 ^ 64 >? m then s :: accepted (time_us s) r
      else accepted last r
  end.

(** consecutive elements differ by more than [m] *)
Fixpoint gaps_exceed (m : Z) (l : list Z) : Prop :=
  match l with
  | a :: ((b :: _) as r) => b - a > m /\ gaps_exceed m r
  | _ => True
  end.

(** nondecreasing sequence starting at or after [t0] *)
Fixpoint nondecreasing (t0 : Z) (l : list Z) : Prop :=
  match l with
  | [] => True
  | a :: r => t0 <= a /\ nondecreasing a r
  end.

(** sources of horizontal aiding: GPS, optical flow, EV position, EV velocity,
    and airspeed+sideslip together count as one *)
Inductive hsource := HGps | HFlow | HEvPos | HEvVel | HWind.

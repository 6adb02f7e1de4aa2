(** Specification vocabulary for the control state machine (independent of the functions of the model). *)
Require Import ZArith Bool List.
Require Import Verif.CBase Verif.ControlModel.
Import ListNotations.
Local Open Scope Z_scope.

(** Number of true booleans. *)
Definition count (l : list bool) : Z := fold_right (fun b n => Z.b2z b + n) 0 l.
(** The four height sources, the four yaw sources and the horizontal aiding sources as reported in the status word. *)
Definition height_sources (s : st) : list bool := [gb s F_baro_hgt; gb s F_gps_hgt; gb s F_rng_hgt; gb s F_ev_hgt].
Definition mag_on (s : st) : bool := gb s F_mag_hdg || gb s F_mag_3D.
Definition other_yaw_on (s : st) : bool := gb s F_gps_yaw || gb s F_ev_yaw.
(** horizontal aiding: a position/velocity source, optical flow, or airspeed together with sideslip *)
Definition horizontal_aiding (s : st) : bool :=
  gb s F_gps || gb s F_opt_flow || gb s F_ev_pos || gb s F_ev_vel || (gb s F_fuse_aspd && gb s F_fuse_beta).

(** Every filter update of the execution satisfies [Q params inputs]. *)
Definition updates (Q : params -> inp -> Prop) (l : list step) : Prop :=
  Forall (fun e => match e with Update p i | Init p i => Q p i | _ => True end) l.
(** The estimator is not re-initialised during the execution. *)
Definition no_reinit (l : list step) : Prop := Forall (fun e => match e with Reinit => False | _ => True end) l.
(** Time stamps: updates happen at non-decreasing times, starting at [t] (and all below [hi]). *)
Fixpoint timed (t hi : Z) (l : list step) : Prop :=
  match l with
  | [] => True
  | Update _ i :: l => t <= iz i J_now < hi /\ timed (iz i J_now) hi l
  | _ :: l => timed t hi l
  end.
(** far from the wrap-around of the 64-bit microsecond counter (584 000 years) *)
Definition horizon : Z := 2 ^ 63.
(** [Q] holds of the state after every filter update of the execution [l] started in [s]. *)
Fixpoint always (Q : st -> Prop) (l : list step) (s : st) : Prop :=
  match l with
  | [] => True
  | e :: l => (match e with Update _ _ => Q (do_step e s) | _ => True end) /\ always Q l (do_step e s)
  end.
(** Consecutive entries (newest first) are more than five seconds apart. *)
Fixpoint spaced (l : list (Z * bool)) : Prop :=
  match l with
  | e1 :: r => (match r with e2 :: _ => fst e1 > fst e2 + 5000000 | [] => True end) /\ spaced r
  | [] => True
  end.
Definition resets_in_gps_mode (s : st) : Z := Z.of_nat (length (filter (fun e => snd e) (gsf s))).

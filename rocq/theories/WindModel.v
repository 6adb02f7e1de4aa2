(** * Stand-alone wind estimator, airdata/WindEstimator.{hpp,cpp}

    Generic over the scalar type: binary32 floats for what must hold bit by
    bit, reals for the estimation-theoretic claims.  cosf, sinf, atan2f and
    ISFINITE are parameters (record libm): the float theorems hold whatever
    the C library returns.  Times are uint64 in microseconds. *)
From Coq Require Import ZArith Bool Reals.
From Verif Require Import CBase F32 Scalar.
Open Scope Z_scope.

Record libm (T : Type) := mkLibm { l_cos : T -> T; l_sin : T -> T; l_atan2 : T -> T -> T; l_finite : T -> bool }.
Arguments l_cos {T}. Arguments l_sin {T}. Arguments l_atan2 {T}. Arguments l_finite {T}.

Section Wind.
Context {T : Type} {S : Scalar T} (lm : libm T).
Local Open Scope scal_scope.

(** WindEstimator members, WindEstimator.hpp l.104-130.  [w_x] is _state
    (0: north wind, 1: east wind, 2: airspeed scale), [w_P] is _P. *)
Record wind := mkWind {
  w_x : nat -> T; w_P : Mat T;
  w_tas_innov : T; w_tas_innov_var : T; w_beta_innov : T; w_beta_innov_var : T;
  w_initialised : bool;
  w_wind_p_var : T; w_tas_scale_p_var : T; w_tas_var : T; w_beta_var : T;
  w_tas_gate : Z; w_beta_gate : Z;
  w_t_tas : Z; w_t_beta : Z; w_t_update : Z; w_rej_beta : Z; w_rej_tas : Z;
  w_reset : bool; w_enforced : T }.

Definition set_est x P (w : wind) := mkWind x P (w_tas_innov w) (w_tas_innov_var w) (w_beta_innov w) (w_beta_innov_var w)
  (w_initialised w) (w_wind_p_var w) (w_tas_scale_p_var w) (w_tas_var w) (w_beta_var w) (w_tas_gate w) (w_beta_gate w)
  (w_t_tas w) (w_t_beta w) (w_t_update w) (w_rej_beta w) (w_rej_tas w) (w_reset w) (w_enforced w).
Definition set_init b (w : wind) := mkWind (w_x w) (w_P w) (w_tas_innov w) (w_tas_innov_var w) (w_beta_innov w) (w_beta_innov_var w)
  b (w_wind_p_var w) (w_tas_scale_p_var w) (w_tas_var w) (w_beta_var w) (w_tas_gate w) (w_beta_gate w)
  (w_t_tas w) (w_t_beta w) (w_t_update w) (w_rej_beta w) (w_rej_tas w) (w_reset w) (w_enforced w).
Definition set_rej rt rb (w : wind) := mkWind (w_x w) (w_P w) (w_tas_innov w) (w_tas_innov_var w) (w_beta_innov w) (w_beta_innov_var w)
  (w_initialised w) (w_wind_p_var w) (w_tas_scale_p_var w) (w_tas_var w) (w_beta_var w) (w_tas_gate w) (w_beta_gate w)
  (w_t_tas w) (w_t_beta w) (w_t_update w) rb rt (w_reset w) (w_enforced w).
Definition set_reset b (w : wind) := mkWind (w_x w) (w_P w) (w_tas_innov w) (w_tas_innov_var w) (w_beta_innov w) (w_beta_innov_var w)
  (w_initialised w) (w_wind_p_var w) (w_tas_scale_p_var w) (w_tas_var w) (w_beta_var w) (w_tas_gate w) (w_beta_gate w)
  (w_t_tas w) (w_t_beta w) (w_t_update w) (w_rej_beta w) (w_rej_tas w) b (w_enforced w).
Definition set_times tt tb tu (w : wind) := mkWind (w_x w) (w_P w) (w_tas_innov w) (w_tas_innov_var w) (w_beta_innov w) (w_beta_innov_var w)
  (w_initialised w) (w_wind_p_var w) (w_tas_scale_p_var w) (w_tas_var w) (w_beta_var w) (w_tas_gate w) (w_beta_gate w)
  tt tb tu (w_rej_beta w) (w_rej_tas w) (w_reset w) (w_enforced w).
Definition set_innov ti tv bi bv (w : wind) := mkWind (w_x w) (w_P w) ti tv bi bv
  (w_initialised w) (w_wind_p_var w) (w_tas_scale_p_var w) (w_tas_var w) (w_beta_var w) (w_tas_gate w) (w_beta_gate w)
  (w_t_tas w) (w_t_beta w) (w_t_update w) (w_rej_beta w) (w_rej_tas w) (w_reset w) (w_enforced w).

(** PX4-Matrix products: each entry is accumulated from 0 in index order (the library is not in /repo) *)
Definition mm3 (A B : Mat T) : Mat T := fun i j => szero + A i 0%nat * B 0%nat j + A i 1%nat * B 1%nat j + A i 2%nat * B 2%nat j.
Definition mv3 (A : Mat T) (v : nat -> T) : nat -> T := fun i => szero + A i 0%nat * v 0%nat + A i 1%nat * v 1%nat + A i 2%nat * v 2%nat.
Definition vm3 (v : nat -> T) (A : Mat T) : nat -> T := fun j => szero + v 0%nat * A 0%nat j + v 1%nat * A 1%nat j + v 2%nat * A 2%nat j.
Definition dot3 (u v : nat -> T) : T := szero + u 0%nat * v 0%nat + u 1%nat * v 1%nat + u 2%nat * v 2%nat.
Definition v3 (a b c : T) : nat -> T := fun i => match i with O => a | 1%nat => b | _ => c end.
Definition m33 (a00 a01 a02 a10 a11 a12 a20 a21 a22 : T) : Mat T := fun i j => v3 (v3 a00 a01 a02 j) (v3 a10 a11 a12 j) (v3 a20 a21 a22 j) i.
(** math::max, mathlib.h l.60-64: (a > b) ? a : b *)
Definition smax (a b : T) : T := if slt b a then a else b.

(** the matrix L of WindEstimator::initialise, WindEstimator.cpp l.61-76 *)
Definition init_L (v_n v_e tas : T) : Mat T :=
  let L0 := v_e * v_e in let L1 := v_n * v_n in let L2 := L0 + L1 in
  let L3 := tas / (L2 * ssqrt L2) in
  let L4 := L3 * v_e * v_n + sone in
  let L5 := sone / ssqrt L2 in let L6 := - L5 * tas in
  m33 L4 (L0 * L3 + L6) szero (L1 * L3 + L6) L4 szero szero szero sone.
(** WindEstimator::initialise, WindEstimator.cpp l.41-94: new object and return value *)
Definition initialise (vn ve var_n var_e tas : T) (w : wind) : wind * bool :=
  if slt (ssqrt (vn * vn + ve * ve)) (slit 3 1) then (w, false) else
  let heading := l_atan2 lm ve vn in
  let x := v3 (vn - tas * l_cos lm heading) (ve - tas * l_sin lm heading) sone in
  let L := init_L vn ve tas in
  let P0 := m33 var_n szero szero szero var_e szero szero szero (slit 1 10000) in
  let P := mm3 (mm3 L P0) (fun i j => L j i) in
  (set_reset true (set_rej 0 0 (set_est x P w)), true).

(** WindEstimator::update, l.96-137 *)
Definition update (time_now : Z) (w : wind) : wind :=
  if negb (w_initialised w) then w else
  let w := set_reset false w in
  if (sub64 time_now (w_t_update w) <? 1000000) || (w_t_update w =? 0) then
    (if w_t_update w =? 0 then set_times (w_t_tas w) (w_t_beta w) time_now w else w)
  else
  let dt := slit (sub64 time_now (w_t_update w)) 1 * slit 1 1000000 in
  let w := set_times (w_t_tas w) (w_t_beta w) time_now w in
  let P := w_P w in
  let SPP0 := dt * dt in let SPP1 := SPP0 * w_wind_p_var w in let SPP2 := SPP1 + P 0%nat 1%nat in
  set_est (w_x w) (m33 (SPP1 + P 0%nat 0%nat) SPP2 (P 0%nat 2%nat) SPP2 (SPP1 + P 1%nat 1%nat) (P 1%nat 2%nat)
                       (P 0%nat 2%nat) (P 1%nat 2%nat) (SPP0 * w_tas_scale_p_var w + P 2%nat 2%nat)) w.

(** WindEstimator::check_if_meas_is_rejected, l.352-366: new rejection time, reinit flag, return value *)
Definition check_rejected (time_now : Z) (innov innov_var : T) (gate time_rej : Z) : Z * bool * bool :=
  let time_rej := if slt (slit (gate * gate) 1 * innov_var) (innov * innov) then (if time_rej =? 0 then time_now else time_rej) else 0 in
  (time_rej, (5000000 <? sub64 time_now time_rej) && negb (time_rej =? 0), negb (time_rej =? 0)).

(** limiting one diagonal element, run_sanity_checks l.318-325 *)
Definition clipd (i : nat) (P : Mat T) : Mat T :=
  let lim := if (i <? 2)%nat then slit 25 1 else slit 1 10 in mset i i (if slt lim (P i i) then lim else P i i) P.
(** averaging one off-diagonal pair, run_sanity_checks l.343-349 *)
Definition symm (r c : nat) (P : Mat T) : Mat T := let tmp := (P r c + P c r) / slit 2 1 in mset c r tmp (mset r c tmp P).
(** WindEstimator::run_sanity_checks, l.309-350 *)
Definition sanity (w : wind) : wind :=
  let P0 := w_P w in
  if slt (P0 0%nat 0%nat) szero then set_init false w else
  let P1 := clipd 0%nat P0 in
  if slt (P1 1%nat 1%nat) szero then set_init false (set_est (w_x w) P1 w) else
  let P2 := clipd 1%nat P1 in
  if slt (P2 2%nat 2%nat) szero then set_init false (set_est (w_x w) P2 w) else
  let P3 := clipd 2%nat P2 in
  let x := w_x w in
  if negb (l_finite lm (x 0%nat)) || negb (l_finite lm (x 1%nat)) || negb (l_finite lm (x 2%nat))
  then set_init false (set_est x P3 w) else
  let x' := v3 (x 0%nat) (x 1%nat) (if slt (w_enforced w) szero then smax szero (x 2%nat) else w_enforced w) in
  set_est x' (symm 2%nat 1%nat (symm 2%nat 0%nat (symm 1%nat 0%nat P3))) w.

(** the observation vector H_tas and the prediction of fuse_airspeed, l.158-181 *)
Definition tas_H (vn ve vd wn we k : T) : nat -> T :=
  let HH0 := ssqrt (vd * vd + (ve - we) * (ve - we) + (vn - wn) * (vn - wn)) in let HH1 := k / HH0 in
  v3 (HH1 * (- vn + wn)) (HH1 * (- ve + we)) HH0.
Definition tas_pred (vn ve vd wn we k : T) : T := k * ssqrt ((vn - wn) * (vn - wn) + (ve - we) * (ve - we) + vd * vd).
(** the observation vector H_beta of fuse_beta, l.229-257 *)
Definition beta_H (vn ve vd wn we : T) (q : nat -> T) : nat -> T :=
  let two := slit 2 1 in
  let HB0 := two * q 0%nat in let HB1 := HB0 * q 3%nat in let HB2 := two * q 1%nat in let HB3 := HB2 * q 2%nat in
  let HB4 := ve - we in let HB5 := HB1 + HB3 in let HB6 := vn - wn in
  let HB7 := q 0%nat * q 0%nat in let HB8 := q 3%nat * q 3%nat in let HB9 := HB7 - HB8 in
  let HB10 := q 1%nat * q 1%nat in let HB11 := q 2%nat * q 2%nat in let HB12 := HB10 - HB11 in let HB13 := HB12 + HB9 in
  let HB14 := HB13 * HB6 + HB4 * HB5 + vd * (- HB0 * q 2%nat + HB2 * q 3%nat) in
  let HB15 := sone / HB14 in
  let HB16 := (HB4 * (- HB10 + HB11 + HB9) + HB6 * (- HB1 + HB3) + vd * (HB0 * q 1%nat + two * q 2%nat * q 3%nat)) / (HB14 * HB14) in
  v3 (HB13 * HB16 + HB15 * (HB1 - HB3)) (HB15 * (HB12 - HB7 + HB8) + HB16 * HB5) szero.
(** matrix::Dcmf(quaternion), PX4-Matrix *)
Definition dcm3 (q : nat -> T) : Mat T :=
  let a := q 0%nat in let b := q 1%nat in let c := q 2%nat in let d := q 3%nat in
  let aa := a * a in let ab := a * b in let ac := a * c in let ad := a * d in let bb := b * b in let bc := b * c in let bd := b * d in
  let cc := c * c in let cd := c * d in let dd := d * d in let two := slit 2 1 in
  m33 (aa + bb - cc - dd) (two * (bc - ad)) (two * (ac + bd)) (two * (bc + ad)) (aa - bb + cc - dd) (two * (cd - ab))
      (two * (bd - ac)) (two * (ab + cd)) (aa - bb - cc + dd).
(** relative wind in body axes, fuse_beta l.266-269 *)
Definition rel_wind_body (vn ve vd wn we : T) (q : nat -> T) : nat -> T := mv3 (fun i j => dcm3 q j i) (v3 (vn - wn) (ve - we) vd).

(** the common correction, l.173-178, l.204-212 and l.259-264, l.298-306; "K /= S" multiplies by 1/S in PX4-Matrix *)
Definition correct (H : nat -> T) (innov Sv : T) (w : wind) : wind :=
  let P := w_P w in
  let K := fun i => mv3 P H i * (sone / Sv) in
  let KH : Mat T := fun i j => szero + K i * H j in
  let KHP := mm3 KH P in
  let x := w_x w in
  sanity (set_est (v3 (x 0%nat + innov * K 0%nat) (x 1%nat + innov * K 1%nat) (x 2%nat + innov * K 2%nat)) (fun i j => P i j - KHP i j) w).

(** WindEstimator::fuse_airspeed, l.139-213 *)
Definition fuse_airspeed (time_now : Z) (tas vn ve vd var_n var_e : T) (w : wind) : wind :=
  let vcn := smax (slit 1 100) var_n in let vce := smax (slit 1 100) var_e in
  if negb (w_initialised w) then (let '(w', ok) := initialise vn ve vcn vce tas w in set_init ok w') else
  if sub64 time_now (w_t_tas w) <? 100000 then w else
  let w := set_times time_now (w_t_beta w) (w_t_update w) w in
  let x := w_x w in
  let H := tas_H vn ve vd (x 0%nat) (x 1%nat) (x 2%nat) in
  let Sv := dot3 (vm3 H (w_P w)) H + w_tas_var w in
  let innov := tas - tas_pred vn ve vd (x 0%nat) (x 1%nat) (x 2%nat) in
  let w := set_innov innov Sv (w_beta_innov w) (w_beta_innov_var w) w in
  let '(tr, reinit, rejected) := check_rejected time_now innov Sv (w_tas_gate w) (w_rej_tas w) in
  let w := set_rej tr (w_rej_beta w) w in
  let reinit := reinit || slt Sv szero in
  if rejected || reinit then
    (if reinit then (let '(w', ok) := initialise vn ve (slit 1 10) (slit 1 10) tas w in set_init ok w') else w)
  else correct H innov Sv w.

(** WindEstimator::fuse_beta, l.215-307 *)
Definition fuse_beta (time_now : Z) (vn ve vd : T) (q : nat -> T) (w : wind) : wind :=
  let speed := ssqrt (szero + vn * vn + ve * ve + vd * vd) in
  if negb (w_initialised w) then (let '(w', ok) := initialise vn ve (slit 1 10) (slit 1 10) speed w in set_init ok w') else
  if sub64 time_now (w_t_beta w) <? 100000 then w else
  let w := set_times (w_t_tas w) time_now (w_t_update w) w in
  let x := w_x w in
  let H := beta_H vn ve vd (x 0%nat) (x 1%nat) q in
  let Sv := dot3 (vm3 H (w_P w)) H + w_beta_var w in
  let rel := rel_wind_body vn ve vd (x 0%nat) (x 1%nat) q in
  if slt (sabs (rel 0%nat)) (slit 1 10) then w else
  let innov := szero - rel 1%nat / rel 0%nat in
  let w := set_innov (w_tas_innov w) (w_tas_innov_var w) innov Sv w in
  let '(tb, reinit, rejected) := check_rejected time_now innov Sv (w_beta_gate w) (w_rej_beta w) in
  let w := set_rej (w_rej_tas w) tb w in
  let reinit := reinit || slt Sv szero in
  if rejected || reinit then
    (if reinit then (let '(w', ok) := initialise vn ve (slit 1 10) (slit 1 10) speed w in set_init ok w') else w)
  else correct H innov Sv w.

(** the public operations, WindEstimator.hpp l.57-95; [Wset] covers the parameter
    setters and enforce_airspeed_scale (set_* square their argument) *)
Inductive wop :=
| Wupdate (t : Z)
| Wtas (t : Z) (tas vn ve vd var_n var_e : T)
| Wbeta (t : Z) (vn ve vd : T) (q : nat -> T)
| Wset (wind_sigma scale_sigma tas_sigma beta_sigma : T) (tas_gate beta_gate : Z) (scale : T).
Definition wstep (o : wop) (w : wind) : wind :=
  match o with
  | Wupdate t => update t w
  | Wtas t tas vn ve vd a b => fuse_airspeed t tas vn ve vd a b w
  | Wbeta t vn ve vd q => fuse_beta t vn ve vd q w
  | Wset a b c d g1 g2 s => mkWind (w_x w) (w_P w) (w_tas_innov w) (w_tas_innov_var w) (w_beta_innov w) (w_beta_innov_var w)
      (w_initialised w) (a * a) (b * b) (c * c) (d * d) (u8 g1) (u8 g2)
      (w_t_tas w) (w_t_beta w) (w_t_update w) (w_rej_beta w) (w_rej_tas w) (w_reset w) s
  end.
(** a freshly constructed object, WindEstimator.hpp l.104-130 *)
Definition wind0 : wind := mkWind (fun _ => szero) (fun _ _ => szero) szero szero szero szero false
  (slit 1 10) (slit 1 10000) (slit 14 10) (slit 5 10) 3 1 0 0 0 0 0 false (- sone).
Definition wrun (l : list wop) (w : wind) : wind := fold_left (fun w o => wstep o w) l w.
End Wind.

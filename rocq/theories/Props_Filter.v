(** * Properties C08, C09: IMU down-sampler and alpha filter *)
From Coq Require Import Lra.
From Verif Require Import CBase F32 F32More RealGeom FilterModel FilterProofs FilterProofs2.
Open Scope Z_scope.

(** C08: the emitted samples partition the raw stream; each summarises its
    segment (time, periods, clipping, rotation, velocity in the start frame) and
    a segment ends exactly when the accumulated period reaches the adapted target. *)
Theorem C08_emitted_samples_cover_the_stream :
  forall (qlog : Q4 -> V3) (target : f32) (l : list imu_sample),
  let '(outs, s') := ds_run qlog target l ds_init in
  exists segs rest, l = concat segs ++ rest /\ covers qlog target f0 outs segs (ds_adj s') /\
    not_reached target (ds_adj s') rest.
Proof. exact downsampler_covers. Qed.

(** C08: for every raw stream (NaN and infinities included) the adaptation stays
    within half the target, hence no finite emitted period is below 48 % of it. *)
Theorem C08_adaptation_bounded :
  forall (qlog : Q4 -> V3) (target : f32), is_finite target = true ->
  (/ 1000000 <= R32 target <= 1000000)%R -> forall l,
  (is_finite (ds_adj (snd (ds_run qlog target l ds_init))) = true /\
   (Rabs (R32 (ds_adj (snd (ds_run qlog target l ds_init)))) <= R32 (fmul (flit 1 2) target))%R) /\
  Forall (fun o => is_finite (i_dang_dt o) = true -> (0.48 * R32 target <= R32 (i_dang_dt o))%R)
         (fst (ds_run qlog target l ds_init)).
Proof. exact downsampler_bounds. Qed.

(** C08 is false for NaN periods: one of them stops the down-sampler for ever. *)
Theorem C08_nan_period_refuted :
  forall qlog target x l s, i_dang_dt x = fnan -> fst (ds_run qlog target (x :: l) s) = [].
Proof. exact nan_period_blocks. Qed.

(** C09: hull, fixed point, exponential convergence (exact arithmetic). *)
Theorem C09_state_in_hull :
  forall alpha l x lo hi, (0 <= alpha <= 1)%R -> (lo <= x <= hi)%R ->
  Forall (fun y => (lo <= y <= hi)%R) l -> (lo <= af_run alpha l x <= hi)%R.
Proof. exact af_hull. Qed.
Theorem C09_constant_is_fixed_point : forall alpha c n, af_run alpha (repeat c n) c = c.
Proof. exact af_constant. Qed.
Theorem C09_exponential_response :
  forall alpha c n x, (af_run alpha (repeat c n) x - c = (1 - alpha) ^ n * (x - c))%R.
Proof. exact af_step_response. Qed.

(** C09: in binary32 the state never becomes NaN and leaves the symmetric hull by
    at most a relative 2^-12 (plus 1e-15), for coefficients from 2^-10 to 1. *)
Theorem C09_binary32_bounded :
  forall (a : f32) (M : R) (l : list f32) (x : f32),
  is_finite a = true -> (/ 1024 <= R32 a <= 1)%R -> (0 <= M <= 1000000000000000000)%R ->
  is_finite x = true -> (Rabs (R32 x) <= M)%R ->
  Forall (fun y => is_finite y = true /\ (Rabs (R32 y) <= M)%R) l ->
  is_finite (af_run_f a l x) = true /\
  (Rabs (R32 (af_run_f a l x)) <= M * (1 + / 4096) + / 1000000000000000)%R.
Proof. exact af_run_f_bound. Qed.

(** C09: in binary32 a constant input is not always a fixed point. *)
Theorem C09_binary32_fixed_point_refuted :
  exists a c : f32, a = flit 1 10 /\ c = f_of_Z 3 /\ af_step_f a c c <> c.
Proof.
  exists (flit 1 10), (f_of_Z 3). split; [reflexivity|]. split; [reflexivity|]. intros H.
  apply (f_equal (fun x => Bcompare x (f_of_Z 3))) in H. vm_compute in H. discriminate.
Qed.

(** C09: setParameters yields a coefficient in [0,1] (binary32). *)
Theorem C09_set_parameters_in_unit_interval :
  forall i tc a : f32, is_finite i = true -> is_finite tc = true ->
  (0 <= R32 i <= 1000000000)%R -> (0 <= R32 tc <= 1000000000)%R ->
  fgt (fadd tc i) flt_epsilon = true ->
  is_finite (af_set_parameters i tc a) = true /\ (0 <= R32 (af_set_parameters i tc a) <= 1)%R.
Proof. exact set_parameters_unit. Qed.
Theorem C09_set_parameters_keeps_alpha :
  forall i tc a : f32, fgt (fadd tc i) flt_epsilon = false -> af_set_parameters i tc a = a.
Proof. intros i tc a H. unfold af_set_parameters. rewrite H. reflexivity. Qed.

(** ** Non-vacuity *)
Definition raw (t : Z) (c : bool) : imu_sample :=
  {| i_time := t; i_dang := mkV 0 0 1; i_dvel := mkV 1 0 0; i_dang_dt := flit 4 1000; i_dvel_dt := flit 4 1000;
     i_clip0 := c; i_clip1 := false; i_clip2 := false |}.
Definition demo_run := ds_run (fun _ => vzero) (flit 1 100) [raw 4000 false; raw 8000 true; raw 12000 false; raw 16000 false] ds_init.
(** 4 ms samples, 10 ms target: the first emission covers three raw samples. *)
Example C08_case : map (fun o => (i_time o, i_clip0 o)) (fst demo_run) = [(12000, true)].
Proof. vm_compute. reflexivity. Qed.
Example C08_bound_case : is_finite (flit 1 100) = true /\ (/ 1000000 <= R32 (flit 1 100) <= 1000000)%R.
Proof.
  destruct (flit_R 1 100) as [E F]; [lia|lia|]. split; [exact F|]. rewrite E.
  pose proof (rnd32_bounds (1 / 100)). lra.
Qed.
Example C09_case : (af_run (1 / 2) [2; 4] 0 = 5 / 2)%R.
Proof. cbn. unfold af_step. lra. Qed.
Example C09_params_case : fgt (fadd (f_of_Z 1) (flit 1 100)) flt_epsilon = true.
Proof. vm_compute. reflexivity. Qed.

Print Assumptions C08_emitted_samples_cover_the_stream.
Print Assumptions C08_adaptation_bounded.
Print Assumptions C09_state_in_hull.
Print Assumptions C09_binary32_bounded.
Print Assumptions C09_set_parameters_in_unit_interval.

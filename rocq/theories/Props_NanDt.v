(** * C90: a NaN sample interval *)
From Coq Require Import Reals Lra Lia.
From Verif Require Import CBase F32 Scalar CovModel FusionModel RingBufferModel RingBufferProofs OutputModel OutputHist NanModel NanProofs Props_Sense Props_Sense2 Props_Nan.
Open Scope nat_scope.
Section Trig.
Variables (tsin tcos tasin : f32 -> f32) (tatan2 : f32 -> f32 -> f32) (pi2 rad20 : f32).
Hypothesis (Hsin : nan_fun tsin) (Hcos : nan_fun tcos).
Notation step := (sstep tsin tcos tasin tatan2 pi2 rad20).
Notation run := (srun tsin tcos tasin tatan2 pi2 rad20).

(** a NaN velocity or angle interval makes the average filter interval NaN, and nothing the filter does
    afterwards (predictions with good samples, fusion, resets) makes it a number again *)
Theorem C90_interval_lost : forall (l : list sop) lim earth i (s : predG f32), is_nan (gi_dvdt i) = true \/ is_nan (gi_dadt i) = true -> is_nan (g_dt (run l (step (SPredict lim earth i) s))) = true.
Proof.
  assert (K : forall o s, is_nan (g_dt s) = true -> is_nan (g_dt (step o s)) = true).
  { intros o s H. destruct o; try exact H. cbn [sstep predictG g_dt]. fsc. apply nan_add_l, nan_mul_r, H. }
  intros l lim earth i s H. set (s1 := step _ s). assert (N : is_nan (g_dt s1) = true).
  { unfold s1. cbn [sstep predictG g_dt]. fsc. apply nan_add_r, nan_mul_r. set (v := fmul (slit 1 2) (fadd (gi_dvdt i) (gi_dadt i))).
    assert (V : is_nan v = true) by (unfold v; apply nan_mul_r; destruct H; [apply nan_add_l|apply nan_add_r]; assumption).
    unfold sconstrain. fsc. rewrite nan_lt_l, nan_lt_r by exact V. exact V. }
  clearbody s1. clear H s. revert s1 N. induction l as [|o l IH]; intros s1 N; [exact N|]. cbn [srun]. apply IH, K, N.
Qed.
(** the filter's attitude does not depend on the velocity interval: it can stay good *)
Theorem C90_interval_attitude : forall lim earth da dv dadt d1 d2 (s : predG f32) k, k < 4 ->
  g_x (step (SPredict lim earth (Gimu da dv dadt d1)) s) k = g_x (step (SPredict lim earth (Gimu da dv dadt d2)) s) k.
Proof.
  intros lim earth da dv dadt d1 d2 s k Hk. cbn [sstep predictG g_x]. unfold constrainG, predRaw. rewrite (proj2 (Nat.ltb_lt k 4) Hk). reflexivity.
Qed.
(** but every attitude published from then on is NaN *)
Theorem C90_interval_published : forall (i : imuin f32) (s : ost f32), Inv (zero_out (T := f32)) (o_buf s) -> (0 <= i_time i < two64 - 100000)%Z ->
  is_nan (i_dt_ekf_avg i) = true -> forall k, k < 4 -> is_nan (oq (payload (o_new (calculateOutputStates (expqG tsin tcos) i s))) k) = true.
Proof.
  intros i s HI HT N k Hk. rewrite (calc_new tsin tcos i s HI HT). cbn [propagate o_new payload oq]. unfold new_quat. apply qnormv_nan; [|exact Hk]. apply nan4_some, qmulv_nan_r, nan4_some, expqG_nan; [assumption|].
  exists 0. split; [lia|]. unfold dangle, dscale. fsc. apply nan_add_l, nan_sub_r, nan_mul_r, nan_div_r, N.
Qed.
(** and the limits on the gyro and accelerometer bias states no longer act *)
Theorem C90_interval_bias_unlimited : forall lim earth i (s : predG f32) k, is_nan (g_dt s) = true -> 10 <= k < 16 -> g_x (step (SPredict lim earth i) s) k = g_x s k.
Proof.
  intros lim earth i s k N Hk. cbn [sstep predictG g_x]. unfold constrainG, limitG. set (v := predRaw _ _ _ _ _ k).
  assert (E : v = g_x s k) by (unfold v, predRaw; destruct (Nat.ltb_spec k 4); [lia|]; destruct (Nat.ltb_spec k 7); [lia|]; destruct (Nat.ltb_spec k 10); [lia|]; reflexivity). rewrite E. clear E v.
  destruct (Nat.ltb_spec k 4); [lia|]; destruct (Nat.ltb_spec k 7); [lia|]; destruct (Nat.ltb_spec k 10); [lia|].
  assert (L : forall a (x : f32), let m := fmul a (g_dt s) in sconstrain x (fneg m) m = x).
  { intros a x m. assert (M : is_nan m = true) by (apply nan_mul_r, N). unfold sconstrain. fsc. rewrite nan_lt_r by (apply nan_neg, M). rewrite nan_lt_l by exact M. reflexivity. }
  fsc. destruct (k <? 13); [apply L|]. destruct (Nat.ltb_spec k 16); [apply L|lia].
Qed.
End Trig.
Example C90_interval_functions : nan_fun (fun a => a) /\ is_nan fnan = true.
Proof. split; [intros a H; exact H|reflexivity]. Qed.
Print Assumptions C90_interval_lost. Print Assumptions C90_interval_attitude. Print Assumptions C90_interval_published. Print Assumptions C90_interval_bias_unlimited.

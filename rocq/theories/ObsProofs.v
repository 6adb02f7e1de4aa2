(** * Lower bounds of binary32 observation noise, gates and variances *)
From Coq Require Import Reals Lra Lia Psatz.
From Flocq Require Import Core BinarySingleNaN.
From Verif Require Import CBase Scalar F32 F32More F32Sign F32Err CovProofsR FusionModel ObsModel.
Open Scope R_scope.

(** a number of at least c, or +infinity: what the code needs of a divisor *)
Definition atleast (c : R) (x : f32) : Prop := x = finf \/ (is_finite x = true /\ c <= R32 x).

Lemma atleast_weaken c d x : atleast c x -> d <= c -> atleast d x.
Proof. intros [->|[F H]] D; [left; reflexivity|right; split; [exact F|lra]]. Qed.
Lemma atleast_pos c x : 0 < c -> atleast c x -> flt f0 x = true.
Proof.
  intros Hc [->|[F H]]; [reflexivity|]. rewrite flt_R by (reflexivity || exact F). apply Rlt_bool_true. change (R32 f0) with 0. lra.
Qed.
Lemma atleast_nan c x : atleast c x -> is_nan x = false.
Proof. intros [->|[F _]]; [reflexivity|]. destruct x; (reflexivity || discriminate). Qed.
Lemma fmax_atleast c (a b : f32) : 0 < c -> atleast c b -> atleast c (c_fmaxf a b).
Proof.
  intros Hc Hb. unfold c_fmaxf. rewrite (atleast_nan c b Hb). destruct (is_nan a) eqn:Na; [exact Hb|].
  destruct (flt a b) eqn:L; [exact Hb|]. destruct Hb as [->|[Fb H]].
  - destruct a as [s|s| |s m e E]; try discriminate. destruct s; [discriminate|left; reflexivity].
  - destruct (is_finite a) eqn:Fa.
    + rewrite flt_R in L by assumption. destruct (Rlt_bool_spec (R32 a) (R32 b)) as [L2|L2]; [discriminate|]. right. split; [exact Fa|lra].
    + destruct a as [s|s| |s m e E]; try discriminate. destruct s; [|left; reflexivity].
      destruct b as [s|s| |s m e E]; discriminate.
Qed.
Lemma constrain_atleast c (v lo hi : f32) : 0 < c -> is_nan v = false -> atleast c lo -> atleast c hi -> atleast c (sconstrain v lo hi).
Proof.
  intros Hc Nv Hl Hh. unfold sconstrain. change (@slt f32 FScalar) with flt. destruct (flt v lo) eqn:L; [exact Hl|].
  destruct (flt hi v); [exact Hh|]. assert (E : c_fmaxf v lo = v).
  { unfold c_fmaxf. rewrite Nv, (atleast_nan c lo Hl), L. reflexivity. }
  rewrite <- E. apply fmax_atleast; assumption.
Qed.
Lemma Rabs_ge_pos x c : 0 <= c <= x -> Rabs x = x. Proof. intro. apply Rabs_pos_eq. lra. Qed.
Lemma overflow_pos (r : f32) : B2SF r = binary_overflow 24 128 mode_NE false -> r = finf.
Proof. unfold binary_overflow. cbn. destruct r; cbn; try discriminate. intro H. injection H as ->. reflexivity. Qed.
Lemma fmul_inf_pos (y : f32) : flt f0 y = true -> fmul finf y = finf /\ fmul y finf = finf.
Proof. destruct y as [s|s| |s m e E]; try discriminate; destruct s; try discriminate; split; reflexivity. Qed.
Lemma pos_sign (x : f32) : flt f0 x = true -> Bsign x = false.
Proof. destruct x as [s|s| |s m e E]; try discriminate; destruct s; try discriminate; reflexivity. Qed.
Lemma mul_atleast a b (x y : f32) : 0 < a -> 0 < b -> atleast a x -> atleast b y -> atleast (rnd32 (a * b)) (fmul x y).
Proof.
  intros Ha Hb Hx Hy. pose proof (atleast_pos a x Ha Hx) as Px. pose proof (atleast_pos b y Hb Hy) as Py.
  destruct Hx as [->|[Fx Lx]]; [left; apply fmul_inf_pos, Py|]. destruct Hy as [->|[Fy Ly]]; [left; apply fmul_inf_pos, Px|].
  pose proof (Bmult_correct 24 128 _ _ mode_NE x y) as H. fold (fmul x y) in H.
  match type of H with context [Rlt_bool ?u ?w] => destruct (Rlt_bool_spec u w) as [L|L] end.
  - destruct H as (H1 & H2 & _). right. rewrite Fx, Fy in H2. split; [exact H2|]. rewrite H1. apply rnd32_le. apply Rmult_le_compat; lra.
  - left. rewrite (pos_sign x Px), (pos_sign y Py) in H. apply overflow_pos. exact H.
Qed.
Lemma sq_atleast a (x : f32) : 0 < a -> atleast a x -> atleast (rnd32 (a * a)) (sq x).
Proof. intros Ha Hx. apply mul_atleast; assumption. Qed.
(** a non-negative variance plus the observation noise *)
Lemma add_atleast b (p o : f32) : 0 < b -> fnn p -> is_nan p = false -> atleast b o -> atleast b (fadd p o).
Proof.
  intros Hb Hp Np Ho. rewrite fnn_iff in Hp. pose proof (ok_R p Hp) as Rp. pose proof (atleast_pos b o Hb Ho) as Po.
  destruct (is_finite p) eqn:Fp.
  - destruct Ho as [->|[Fo Lo]]; [left; destruct p; (discriminate || reflexivity)|].
    pose proof (Bplus_correct 24 128 _ _ mode_NE p o Fp Fo) as H. fold (fadd p o) in H.
    match type of H with context [Rlt_bool ?u ?w] => destruct (Rlt_bool_spec u w) as [L|L] end.
    + destruct H as (H1 & H2 & _). right. split; [exact H2|]. rewrite H1. apply Rle_trans with (R32 o); [exact Lo|].
      apply round_ge_generic; [exact valid32|exact vrnd|apply generic_format_B2R|]. lra.
    + destruct H as (H1 & H2). left. apply overflow_pos. rewrite H2, (pos_sign o Po) in H1. exact H1.
  - destruct p as [s|s| |s m e E]; try discriminate. cbn in Hp. subst s. destruct Ho as [->|[Fo _]]; [left; reflexivity|].
    left. destruct o; (discriminate || reflexivity).
Qed.

(** literals *)
Lemma lit_bounds n d : (1 <= n <= 2 ^ 24)%Z -> (1 <= d <= 2 ^ 24)%Z ->
  is_finite (flit n d) = true /\ IZR n / IZR d * (1 - / 16777216) - / 1000000000000000000000 <= R32 (flit n d).
Proof.
  intros Hn Hd. destruct (flit_R n d) as [E F]; [lia|lia|]. split; [exact F|]. rewrite E.
  assert (0 < IZR n) by (apply (IZR_lt 0); lia). assert (0 < IZR d) by (apply (IZR_lt 0); lia).
  assert (0 < IZR n / IZR d) by (apply Rdiv_lt_0_compat; assumption).
  pose proof (rnd32_bounds (IZR n / IZR d) ltac:(lra)) as B. lra.
Qed.
Lemma lit_atleast n d c : (1 <= n <= 2 ^ 24)%Z -> (1 <= d <= 2 ^ 24)%Z -> c <= IZR n / IZR d * (1 - / 16777216) - / 1000000000000000000000 -> atleast c (flit n d).
Proof. intros Hn Hd H. destruct (lit_bounds n d Hn Hd) as [F B]. right. split; [exact F|lra]. Qed.
Lemma centi : atleast (99 / 10000) (flit 1 100). Proof. apply lit_atleast; [lia|lia|lra]. Qed.
Lemma rnd_lower x c : 0 <= x -> c <= x * (1 - / 16777216) - / 1000000000000000000000 -> c <= rnd32 x.
Proof. intros H1 H2. pose proof (rnd32_bounds x H1) as B. lra. Qed.
Lemma sq_centi (x : f32) : atleast (99 / 10000) x -> atleast (98 / 1000000) (sq x).
Proof. intro H. apply (atleast_weaken (rnd32 (99 / 10000 * (99 / 10000)))); [apply sq_atleast; [lra|exact H]|]. apply rnd_lower; lra. Qed.
Lemma one_atleast : atleast 1 (flit 1 1).
Proof. right. destruct (flit_R 1 1) as [E F]; [lia|lia|]. split; [exact F|]. rewrite E. replace (1 / 1) with (IZR 1) by lra. rewrite rnd32_Z by lia. lra. Qed.
Lemma gate_atleast (g : f32) : atleast 1 (c_fmaxf g (flit 1 1)). Proof. apply fmax_atleast; [lra|apply one_atleast]. Qed.

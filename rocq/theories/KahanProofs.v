(** * Error of the compensated summation (kahanSummation, utils.cpp l.27-33), binary32 *)
From Coq Require Import Reals Lra Lia ZArith List.
From Flocq Require Import Core BinarySingleNaN Plus_error Pff2Flocq Relative.
From Verif Require Import F32 F32More Scalar CovModel.
Import ListNotations.
Open Scope R_scope.

Definition eps : R := / 16777216.
Notation fmt := (generic_format radix2 (FLT_exp (-149) 24)).

Lemma R32_fmt (a : f32) : fmt (R32 a).
Proof. exact (generic_format_B2R 24 128 a). Qed.
Lemma add_rel (a b : R) : fmt a -> fmt b -> Rabs (rnd32 (a + b) - (a + b)) <= eps * Rabs (a + b).
Proof.
  intros Fa Fb. destruct (FLT_plus_error_N_ex radix2 (-149) 24 (fun x => negb (Z.even x)) a b Fa Fb) as (d & Hd & E).
  change (rnd32 (a + b)) with (round radix2 (FLT_exp (-149) 24) (Znearest (fun x => negb (Z.even x))) (a + b)). rewrite E.
  replace ((a + b) * (1 + d) - (a + b)) with (d * (a + b)) by ring. rewrite Rabs_mult. apply Rmult_le_compat_r; [apply Rabs_pos|].
  apply (Rle_trans _ _ _ Hd). assert (U : u_ro radix2 24 = eps). { unfold u_ro, eps. cbn. lra. } rewrite U. unfold eps. lra.
Qed.
Lemma add_fmt (x : R) : fmt (rnd32 x).
Proof. exact (generic_format_round radix2 (FLT_exp (-149) 24) _ x). Qed.

(** one summation: the sum minus the correction grows by the input up to a second-order error *)
Lemma kahan_step (s u a : f32) : is_finite s = true -> is_finite u = true -> is_finite a = true ->
  let V := R32 s - R32 a in 0 < V -> V <= 10 ^ 21 -> Rabs (R32 a) <= eps * V -> 0 <= R32 u <= V / 3 ->
  let r := kahan s u a in let t := fst r in let a' := snd r in
  is_finite t = true /\ is_finite a' = true /\
  let V' := R32 t - R32 a' in
  Rabs (V' - (V + R32 u)) <= eps * (R32 u + eps * V) /\ Rabs (R32 a') <= eps * V' /\ 0 < V'.
Proof.
  intros Fs Fu Fa V HV HB HA HU. cbv zeta. unfold kahan. cbn [sadd ssub FScalar fst snd].
  set (S := R32 s) in *. set (U := R32 u) in *. set (A := R32 a) in *.
  pose proof big127 as B127. apply Rabs_le_inv in HA as HA'. unfold eps in HA'.
  assert (SV : S = V + A) by (unfold V; ring).
  assert (B21 : (10 ^ 21 <= 1000000000000000000000)%R) by (cbn; lra).
  destruct (fsub_R u a Fu Fa) as (Ey & Fy). { fold U A. apply Rabs_le. lra. }
  fold U A in Ey. set (y := R32 (fsub u a)) in *.
  assert (Y1 : Rabs (y - (U - A)) <= eps * Rabs (U - A)).
  { rewrite Ey. unfold Rminus at 2 4. apply add_rel; [apply R32_fmt|]. apply generic_format_opp. apply R32_fmt. }
  assert (UA : Rabs (U - A) <= U + eps * V). { unfold Rminus. eapply Rle_trans; [apply Rabs_triang|]. rewrite Rabs_Ropp, (Rabs_pos_eq U) by lra. lra. }
  assert (Y2 : Rabs (y - (U - A)) <= eps * (U + eps * V)). { eapply Rle_trans; [exact Y1|]. apply Rmult_le_compat_l; [unfold eps; lra|exact UA]. }
  apply Rabs_le_inv in Y2 as Y3. unfold eps in Y3.
  assert (YS : Rabs y <= Rabs S).
  { rewrite (Rabs_pos_eq S) by lra. apply Rabs_le. lra. }
  destruct (fadd_R s (fsub u a) Fs Fy) as (Et & Ft). { fold S y. apply Rabs_le. lra. }
  fold S y in Et. set (t := R32 (fadd s (fsub u a))) in *.
  assert (FS : fmt S) by apply R32_fmt. assert (FY : fmt y) by apply R32_fmt.
  assert (T1 : Rabs (t - (S + y)) <= eps * Rabs (S + y)) by (rewrite Et; apply add_rel; assumption).
  assert (P : 0 < S + y) by lra. rewrite (Rabs_pos_eq (S + y)) in T1 by lra.
  apply Rabs_le_inv in T1 as T2. unfold eps in T2.
  (* the two subtractions are exact *)
  assert (CH : forall x : Z, negb (Z.even x) = negb (negb (Z.even (- (x + 1))))).
  { intros x. rewrite Z.even_opp, Z.even_add. cbn [Z.even]. destruct (Z.even x); reflexivity. }
  pose proof (Fast2Sum_correct (-149) 24 (fun x => negb (Z.even x)) ltac:(lia) ltac:(lia) CH S y FS FY YS) as FT.
  change (round radix2 (FLT_exp (-149) 24) (Znearest (fun x : Z => negb (Z.even x)))) with (round radix2 (SpecFloat.fexp 24 128) (round_mode mode_NE)) in FT.
  rewrite <- Et in FT.
  destruct (fsub_R (fadd s (fsub u a)) s Ft Fs) as (E1 & F1). { fold t S. apply Rabs_le. lra. }
  fold t S in E1. set (w := R32 (fsub (fadd s (fsub u a)) s)) in *.
  assert (W : rnd32 (S - t) = - w). { rewrite E1. replace (S - t) with (- (t - S)) by ring. apply (round_N_opp_sym (-149) 24 (fun x => negb (Z.even x)) CH). }
  rewrite W in FT.
  assert (WB : Rabs w <= 10 ^ 22). { rewrite E1. pose proof (add_rel t (- S) (R32_fmt _) (generic_format_opp _ _ _ FS)) as Q. fold (t - S) in Q. apply Rabs_le_inv in Q. unfold eps in Q.
    assert (Rabs (t - S) <= 2 * V) by (apply Rabs_le; lra). apply Rabs_le. replace (10 ^ 22) with 10000000000000000000000 by (cbn; lra). lra. }
  apply Rabs_le_inv in WB. assert (B22 : 10 ^ 22 = 10000000000000000000000) by (cbn; lra). rewrite B22 in WB.
  destruct (fsub_R (fsub (fadd s (fsub u a)) s) (fsub u a) F1 Fy) as (E2 & F2). { fold w y. apply Rabs_le. lra. }
  fold w y in E2. split; [exact Ft|]. split; [exact F2|].
  assert (A' : R32 (fsub (fsub (fadd s (fsub u a)) s) (fsub u a)) = t - (S + y)).
  { rewrite E2. replace (w - y) with (- (y + - w)) by ring.
    rewrite (round_N_opp_sym (-149) 24 (fun x => negb (Z.even x)) CH (y + - w) : rnd32 (- (y + - w)) = - rnd32 (y + - w)). lra. }
  rewrite A'. replace (t - (t - (S + y))) with (S + y) by ring.
  split; [|split; [exact T1|exact P]].
  replace (S + y - (V + U)) with (y - (U - A)) by lra. exact Y2.
Qed.

(** repeated summation *)
Fixpoint kahanRun (l : list f32) (p : f32 * f32) : f32 * f32 :=
  match l with [] => p | u :: r => kahanRun r (kahan (fst p) u (snd p)) end.
Lemma kahanRun_app a : forall b p, kahanRun (a ++ b) p = kahanRun b (kahanRun a p).
Proof. induction a as [|u a IH]; intros b p; [reflexivity|]. cbn [app kahanRun]. apply IH. Qed.
Definition total (l : list f32) : R := fold_right (fun u t => R32 u + t) 0 l.
Lemma total_app a b : total (a ++ b) = total a + total b.
Proof. induction a as [|u a IH]; cbn [app total fold_right]; [unfold total; cbn; ring|]. fold (total (a ++ b)). fold (total a). rewrite IH. ring. Qed.
Lemma total_pos l : Forall (fun u => 0 <= R32 u) l -> 0 <= total l.
Proof. induction 1; cbn [total fold_right]; [lra|]. fold (total l). lra. Qed.

Lemma kahan_run_virtual (s a : f32) (l : list f32) : is_finite s = true -> is_finite a = true ->
  let V := R32 s - R32 a in 0 < V -> Rabs (R32 a) <= eps * V ->
  Forall (fun u => is_finite u = true /\ 0 <= R32 u <= V / 4) l -> V + total l <= 10 ^ 20 -> INR (length l) <= 2 ^ 44 ->
  let p := kahanRun l (s, a) in
  is_finite (fst p) = true /\ is_finite (snd p) = true /\
  let V' := R32 (fst p) - R32 (snd p) in
  Rabs (V' - (V + total l)) <= eps * total l + INR (length l) * (2 * eps ^ 2) * (V + total l) /\ Rabs (R32 (snd p)) <= eps * V' /\ 0 < V'.
Proof.
  intros Fs Fa V HV HA. cbv zeta. induction l as [|u l IH] using rev_ind; intros HL HT HN.
  - cbn [kahanRun fst snd length INR total fold_right]. unfold total. cbn [fold_right]. split; [exact Fs|]. split; [exact Fa|]. fold V.
    replace (V - (V + 0)) with 0 by ring. rewrite Rabs_R0. split; [lra|]. split; [exact HA|exact HV].
  - apply Forall_app in HL as (HL1 & HL2). inversion HL2 as [|? ? (Fu & Hu) _]; subst.
    rewrite total_app in HT |- *. rewrite app_length, plus_INR in HN |- *. cbn [length INR] in HN |- *.
    replace (total [u]) with (R32 u) in * by (unfold total; cbn; ring).
    assert (PT : 0 <= total l) by (apply total_pos; revert HL1; apply Forall_impl; intros; lra).
    destruct (IH HL1 ltac:(lra) ltac:(lra)) as (F1 & F2 & B & C & D). rewrite kahanRun_app. cbn [kahanRun].
    set (p := kahanRun l (s, a)) in *. set (W := R32 (fst p) - R32 (snd p)) in *. set (n := INR (length l)) in *. set (S := V + total l) in *.
    assert (N0 : 0 <= n) by apply pos_INR.
    assert (E44 : n * (2 * eps ^ 2) <= 1 / 8). { unfold eps. replace (2 ^ 44) with 17592186044416 in HN by ring. replace (2 * (/ 16777216) ^ 2) with (/ 140737488355328) by field. lra. }
    assert (S0 : 0 < S) by (unfold S; lra).
    assert (Q : n * (2 * eps ^ 2) * S <= 1 / 8 * S) by (apply Rmult_le_compat_r; lra).
    apply Rabs_le_inv in B as B'. unfold eps in B' at 1 2 3.
    assert (TS : total l <= S) by (unfold S; lra).
    assert (WS : 3 / 4 * S <= W <= 2 * S).
    { assert (X : eps * total l + n * (2 * eps ^ 2) * S <= / 16777216 * S + 1 / 8 * S). { unfold eps at 1. lra. } apply Rabs_le_inv in B. lra. }
    assert (E20 : 10 ^ 20 <= 100000000000000000000) by (cbn; lra). assert (E21 : 10 ^ 21 = 1000000000000000000000) by (cbn; lra).
    destruct (kahan_step (fst p) u (snd p) F1 Fu F2) as (G1 & G2 & G3 & G4 & G5).
    { fold W. lra. } { fold W. rewrite E21. unfold S in *. lra. } { fold W. exact C. } { fold W. unfold S in *. lra. }
    fold W in G3. split; [exact G1|]. split; [exact G2|]. split; [|split; [exact G4|exact G5]].
    set (V' := R32 (fst (kahan (fst p) u (snd p))) - R32 (snd (kahan (fst p) u (snd p)))) in *.
    replace (V' - (V + (total l + R32 u))) with ((V' - (W + R32 u)) + (W - S)) by (unfold S; ring).
    eapply Rle_trans; [apply Rabs_triang|]. fold n.
    assert (EW : eps * (eps * W) <= 2 * eps ^ 2 * S). { assert (0 <= eps * eps) by (unfold eps; lra). replace (eps * (eps * W)) with (eps * eps * W) by ring. replace (2 * eps ^ 2 * S) with (eps * eps * (2 * S)) by ring. apply Rmult_le_compat_l; lra. }
    assert (K : 0 <= (n + 1) * (2 * eps ^ 2) * R32 u). { apply Rmult_le_pos; [|lra]. apply Rmult_le_pos; [lra|]. unfold eps. lra. }
    replace (V + (total l + R32 u)) with (S + R32 u) by (unfold S; ring).
    replace (eps * (total l + R32 u) + (n + 1) * (2 * eps ^ 2) * (S + R32 u))
      with (eps * R32 u + 2 * eps ^ 2 * S + (eps * total l + n * (2 * eps ^ 2) * S) + (n + 1) * (2 * eps ^ 2) * R32 u) by ring.
    lra.
Qed.

(** proofs about the yaw estimator: invariants of the bank *)
From Coq Require Import Reals Lra Lia Bool List Arith ZArith Psatz.
From Verif Require Import Scalar RealGeom RotModel GeoModel GeoProofs RotProofs GsfModel GsfProofs1.
Import ListNotations.
Open Scope R_scope.

Lemma updateP_psd r P u : 0 < r -> psd P -> sym3 P -> updateP r P = Some u -> psd (u_P u).
Proof.
  intros Hr HP HS HU. destruct (updateP_inv r P u HU) as (D0 & _ & _ & HK & _ & P1 & EP & S1 & H1). specialize (H1 HS). rewrite EP. apply floorVar_psd. intros x y z.
  destruct HS as (E1 & E2 & E3). destruct S1 as (F1 & F2 & F3).
  destruct (HK 0%nat ltac:(lia) (conj E1 (conj E2 E3))) as [K00 K01]. destruct (HK 1%nat ltac:(lia) (conj E1 (conj E2 E3))) as [K10 K11]. destruct (HK 2%nat ltac:(lia) (conj E1 (conj E2 E3))) as [K20 K21].
  set (k0 := u_K u 0%nat 0%nat * x + u_K u 1%nat 0%nat * y + u_K u 2%nat 0%nat * z). set (k1 := u_K u 0%nat 1%nat * x + u_K u 1%nat 1%nat * y + u_K u 2%nat 1%nat * z).
  set (p := P 0%nat 0%nat * x + P 0%nat 1%nat * y + P 0%nat 2%nat * z). set (q := P 0%nat 1%nat * x + P 1%nat 1%nat * y + P 1%nat 2%nat * z).
  assert (Q : qf P1 x y z = qf P x y z - (k0 * p + k1 * q)).
  { unfold qf. replace (2 * (P1 0%nat 1%nat * x * y + P1 0%nat 2%nat * x * z + P1 1%nat 2%nat * y * z)) with ((P1 0%nat 1%nat + P1 1%nat 0%nat) * x * y + (P1 0%nat 2%nat + P1 2%nat 0%nat) * x * z + (P1 1%nat 2%nat + P1 2%nat 1%nat) * y * z) by (rewrite F1, F2, F3; ring).
    rewrite !H1 by lia. rewrite E1, E2, E3. unfold k0, k1, p, q. ring. }
  assert (Sa : (P 0%nat 0%nat + r) * k0 + P 0%nat 1%nat * k1 = p).
  { unfold k0, k1, p. rewrite K00, K01, K10, K11, K20, K21, E1, E2, E3. unfold Sdet in *. field. exact D0. }
  assert (Sb : P 0%nat 1%nat * k0 + (P 1%nat 1%nat + r) * k1 = q).
  { unfold k0, k1, q. rewrite K00, K01, K10, K11, K20, K21, E1, E2, E3. unfold Sdet in *. field. exact D0. }
  assert (J : qf P x y z - (k0 * p + k1 * q) = qf P (x - k0) (y - k1) z + r * (k0 * k0 + k1 * k1) + (k0 * (p - ((P 0%nat 0%nat + r) * k0 + P 0%nat 1%nat * k1)) + k1 * (q - (P 0%nat 1%nat * k0 + (P 1%nat 1%nat + r) * k1)))).
  { unfold qf, p, q. ring. }
  rewrite Q, J, Sa, Sb. pose proof (HP (x - k0) (y - k1) z). assert (0 <= r * (k0 * k0 + k1 * k1)) by (apply Rmult_le_pos; nra). lra.
Qed.

(** ** Invariant of one filter *)
Definition okBank (b : bank) : Prop := sym3 (b_P b) /\ psd (b_P b) /\ 1 / 1000000 <= b_P b 2%nat 2%nat.
Lemma rsq_pos x : 0 <= rsq x. Proof. unfold rsq. nra. Qed.
Lemma init_ok vn ve acc k b : okBank (initBank vn ve acc k b).
Proof.
  unfold initBank, okBank. cbn [b_P]. split; [unfold sym3; cbn [mset Nat.eqb andb mzero]; auto|]. split.
  - intros x y z. unfold qf. cbn [mset Nat.eqb andb]. unfold mzero. pose proof (rsq_pos acc). set (w := 1 / 2 * (2 * m_pi / INR NM)). pose proof (rsq_pos w). set (A := rsq acc) in *. set (B := rsq w) in *.
    assert (0 <= A * x * x) by (rewrite Rmult_assoc; apply Rmult_le_pos; nra). assert (0 <= A * y * y) by (rewrite Rmult_assoc; apply Rmult_le_pos; nra). assert (0 <= B * z * z) by (rewrite Rmult_assoc; apply Rmult_le_pos; nra). lra.
  - cbn [mset Nat.eqb andb]. unfold rsq, m_pi, NM. cbn [INR]. lra.
Qed.
Lemma predict_ok i s a n g b : okBank b -> okBank (predictEKF i s a n g b).
Proof.
  intros (A & B & C). unfold predictEKF. destruct s; cbn [negb]; [|exact (conj A (conj B C))]. unfold okBank. cbn [b_P].
  split; [apply floorVar_sym, predictP_sym|]. split; [apply floorVar_psd, predictP_psd; [exact B|apply rsq_pos|apply rsq_pos|apply rsq_pos]|]. apply (floorVar_diag _ 2%nat). lia.
Qed.
Definition obsVar (acc : R) : R := rsq (Rmax acc (1 / 2)).
Lemma obsVar_pos acc : 1 / 4 <= obsVar acc.
Proof. unfold obsVar, rsq. pose proof (Rmax_r acc (1 / 2)). nra. Qed.
Lemma update_ok vn ve acc b : okBank b -> snd (updateEKF vn ve acc b) = true /\ okBank (fst (updateEKF vn ve acc b)).
Proof.
  intros (A & B & C). unfold updateEKF. fold (obsVar acc). pose proof (obsVar_pos acc) as V. destruct (updateP_some (obsVar acc) (b_P b)) as [u E]; [lra|nra|exact B|]. rewrite E. cbn [fst snd]. split; [reflexivity|].
  unfold okBank. cbn [b_P]. split; [apply (updateP_inv _ _ _ E)|]. split; [apply (updateP_psd (obsVar acc) (b_P b)); [lra|exact B|exact A|exact E]|].
  destruct (updateP_inv _ _ _ E) as (_ & _ & _ & _ & _ & P1 & -> & _). apply (floorVar_diag _ 2%nat). lia.
Qed.

(** ** Weights *)
Definition okW (w : nat -> R) : Prop := (forall k, (k < 5)%nat -> 0 < w k) /\ sum5 w = 1.
Lemma okW_init : okW (fun _ => 1 / INR NM).
Proof. split; [intros; unfold NM; cbn [INR]; lra|]. unfold sum5, NM. cbn [INR]. lra. Qed.
Lemma clipWeight_R (x : R) : clipWeight x = Rmax (1 / 100000) x.
Proof. unfold clipWeight. cbn [slt slit RScalar]. unfold Rmax. destruct (Rlt_dec x (1 / 100000)); destruct (Rle_dec (1 / 100000) x); lra. Qed.
Lemma totalWeight_R (x : nat -> R) : totalWeight x = sum5 (fun k => Rmax (1 / 100000) (x k)).
Proof. unfold totalWeight, sum5, szero. cbn [slit sadd RScalar]. rewrite !clipWeight_R. lra. Qed.
Lemma total_pos (x : nat -> R) : 5 / 100000 <= sum5 (fun k => Rmax (1 / 100000) (x k)).
Proof. unfold sum5. pose proof (Rmax_l (1 / 100000) (x 0%nat)). pose proof (Rmax_l (1 / 100000) (x 1%nat)). pose proof (Rmax_l (1 / 100000) (x 2%nat)). pose proof (Rmax_l (1 / 100000) (x 3%nat)). pose proof (Rmax_l (1 / 100000) (x 4%nat)). lra. Qed.
Lemma weigh_R (dens w w' : nat -> R) : weigh dens w = Some w' ->
  forall k, w' k = Rmax (1 / 100000) (dens k * w k) / sum5 (fun k => Rmax (1 / 100000) (dens k * w k)).
Proof.
  unfold weigh. cbv zeta. match goal with |- context [if ?c then None else _] => destruct c end; [discriminate|]. intros H k. apply (f_equal (fun o => match o with Some f => f k | None => 0 end)) in H. cbv beta iota in H. rewrite <- H. clear H. rewrite clipWeight_R, totalWeight_R. unfold sone, rawWeight. cbn [slit smul sdiv RScalar].
  field. pose proof (total_pos (fun k => dens k * w k)). cbv beta in *. lra.
Qed.
Lemma weigh_none (dens w : nat -> R) : weigh dens w = None <-> forall k, (k < 5)%nat -> dens k * w k < 1 / 100000.
Proof.
  unfold weigh, clipped, rawWeight. cbn [slt slit smul RScalar]. cbv zeta. split.
  - intros H. destruct (Rlt_dec (dens 0%nat * w 0%nat) (1 / 100000)); [|discriminate]. destruct (Rlt_dec (dens 1%nat * w 1%nat) (1 / 100000)); [|discriminate]. destruct (Rlt_dec (dens 2%nat * w 2%nat) (1 / 100000)); [|discriminate].
    destruct (Rlt_dec (dens 3%nat * w 3%nat) (1 / 100000)); [|discriminate]. destruct (Rlt_dec (dens 4%nat * w 4%nat) (1 / 100000)); [|discriminate]. intros k Hk. destruct k as [|[|[|[|[|]]]]]; try assumption; lia.
  - intros H. repeat match goal with |- context [Rlt_dec (dens ?k * _) _] => destruct (Rlt_dec (dens k * w k) (1 / 100000)) as [_|N]; [|exfalso; apply N, H; lia] end. reflexivity.
Qed.
Lemma sum5_scale (f : nat -> R) c : sum5 (fun k => f k / c) = sum5 f / c.
Proof. unfold sum5, Rdiv. ring. Qed.
Lemma okW_weigh dens w w' : weigh dens w = Some w' -> okW w'.
Proof.
  intros H. pose proof (weigh_R _ _ _ H) as E. pose proof (total_pos (fun k => dens k * w k)) as T. cbv beta in T. split.
  - intros k Hk. rewrite E. apply Rdiv_lt_0_compat; [pose proof (Rmax_l (1 / 100000) (dens k * w k)); lra|lra].
  - replace (sum5 w') with (sum5 (fun k => Rmax (1 / 100000) (dens k * w k) / sum5 (fun k => Rmax (1 / 100000) (dens k * w k)))) by (unfold sum5 at 1 3; rewrite !E; reflexivity).
    rewrite sum5_scale. field. lra.
Qed.

(** ** Invariant of the estimator *)
Definition inv (g : gsf) : Prop := if g_tilt g then (forall k, (k < 5)%nat -> okBank (g_bank g k)) /\ okW (g_w g) else g_started g = false.
Lemma sum5_ge (w f : nat -> R) m : okW w -> (forall k, (k < 5)%nat -> m <= f k) -> m <= sum5 (fun k => w k * f k).
Proof.
  intros [W S] F. unfold sum5 in *. assert (G : forall k, (k < 5)%nat -> w k * m <= w k * f k). { intros k Hk. apply Rmult_le_compat_l; [apply Rlt_le, W, Hk|apply F, Hk]. }
  pose proof (G 0%nat ltac:(lia)). pose proof (G 1%nat ltac:(lia)). pose proof (G 2%nat ltac:(lia)). pose proof (G 3%nat ltac:(lia)). pose proof (G 4%nat ltac:(lia)).
  replace m with ((0 + w 0%nat + w 1%nat + w 2%nat + w 3%nat + w 4%nat) * m) by (rewrite S; ring). lra.
Qed.
Lemma fuse_inv i g : g_tilt g = true -> inv g -> inv (fuse i g) /\ g_tilt (fuse i g) = true.
Proof.
  intros T I. unfold inv in I. rewrite T in I. destruct I as [B W]. unfold fuse. destruct (i_run i && g_velup g).
  - destruct (g_started g); cbn [negb].
    + assert (BAD : forallb (fun b => snd (updateEKF (g_vn g) (g_ve g) (g_acc g) b)) (allBanks (g_bank g)) = true).
      { apply forallb_forall. intros b Hb. unfold allBanks in Hb. destruct Hb as [<-|[<-|[<-|[<-|[<-|[]]]]]]; apply update_ok, B; lia. }
      rewrite BAD. cbn [negb]. cbn [g_bank setBank].
      destruct (weigh _ _) as [w'|] eqn:EW.
      * split; [|exact T]. unfold inv, setW. cbn [g_tilt setBank]. rewrite T. cbn [g_bank g_w]. split; [intros k Hk; apply update_ok, B, Hk|]. apply (okW_weigh _ _ _ EW).
      * split; [|exact T]. unfold inv, initialiseEKFGSF. cbn [g_tilt setBank g_bank g_w]. rewrite T. split; [intros; apply init_ok|apply okW_init].
    + split; [|exact T]. unfold inv, setStarted, setBank, ahrsAlignYaw, initialiseEKFGSF. cbn [g_tilt g_bank g_w setBank]. rewrite T. split; [|apply okW_init].
      intros k Hk. pose proof (init_ok (g_vn g) (g_ve g) (g_acc g) k (g_bank g k)) as O. exact O.
  - destruct (g_started g && negb (i_run i)); (split; [|exact T]); unfold inv, setStarted; cbn [g_tilt g_bank g_w]; rewrite T; split; assumption.
Qed.
Lemma predictAll_inv i g : g_tilt g = true -> inv g -> inv (predictAll i g).
Proof. intros T I. unfold inv, predictAll, setBank in *. cbn [g_tilt g_bank g_w]. rewrite T in *. destruct I as [B W]. split; [|exact W]. intros k Hk. apply predict_ok, B, Hk. Qed.
Lemma gstep_inv o g : inv g -> inv (gstep o g).
Proof.
  intros I. destruct o as [i|vn ve acc]; cbn [gstep]; [|exact I]. unfold update. cbv zeta. change (g_tilt (filterAccel i g)) with (g_tilt g).
  destruct (g_tilt g) eqn:T; cbn [negb].
  - assert (IX : inv (predictAll i (filterAccel i g))) by (apply predictAll_inv; [exact T|exact I]). assert (TX : g_tilt (predictAll i (filterAccel i g)) = true) by exact T.
    destruct (fuse_inv i _ TX IX) as [IF TF]. unfold inv in *. cbn [clearVel composite g_tilt g_bank g_w]. rewrite TF in *. exact IF.
  - unfold inv in I. rewrite T in I. destruct (okToAlign i).
    + unfold inv, alignTilt, setTilt, ahrsAlignTilt, setBank, initialiseEKFGSF. cbn [g_tilt g_bank g_w]. split; [|apply okW_init]. intros k Hk.
      match goal with |- context [initBank ?a ?b ?c k ?d] => pose proof (init_ok a b c k d) as O end. exact O.
    + unfold inv. cbn [filterAccel g_tilt g_started]. rewrite T. exact I.
Qed.
Lemma grun_inv l : inv (grun l).
Proof.
  unfold grun. assert (H : forall g, inv g -> inv (fold_left (fun g o => gstep o g) l g)). { induction l as [|o l IH]; intros g Hg; [exact Hg|]. cbn [fold_left]. apply IH, gstep_inv, Hg. }
  apply H. reflexivity.
Qed.

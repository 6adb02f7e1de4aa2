(** * Histories of output predictor steps, resets and alignments, over the reals *)
From Coq Require Import Reals Lra PeanoNat.
From Verif Require Import CBase Scalar RingBufferModel RingBufferSpec RingBufferProofs OutputModel OutputProofs.
Open Scope nat_scope.

(** everything that can happen to the output filter after initialisation
    (which ends with alignOutputFilter).
    [Ekf]: the filter itself changes its states arbitrarily (prediction, fusion). *)
Inductive oop :=
| OStep (i : imuin R)
| OEkf (q v p ab vb : Vec R)
| OResetHVel (new : Vec R) | OResetVVel (new : R) | OResetHPos (new : Vec R) | OResetVPos (new : R)
| OResetQuat (after : Vec R) (upd : bool).

Definition setEkf (q v p ab vb : Vec R) (s : ost R) : ost R :=
  mkO q v p ab vb (o_new s) (w_new s) (o_buf s) (w_buf s) (o_rst s) (o_Rq s) (o_dacorr s) (o_vint s) (o_pint s) (o_track s) (o_yaw_delta s).

Section H.
Variable expq : Vec R -> Vec R.
Definition ostep (o : oop) (s : ost R) : ost R :=
  match o with
  | OStep i => calculateOutputStates expq i s
  | OEkf q v p ab vb => setEkf q v p ab vb s
  | OResetHVel n => resetHorizontalVelocityTo n s
  | OResetVVel n => resetVerticalVelocityTo n s
  | OResetHPos n => resetHorizontalPositionTo n s
  | OResetVPos n => resetVerticalPositionTo n s
  | OResetQuat a u => resetQuat a u s
  end.
Fixpoint orun (l : list oop) (s : ost R) : ost R := match l with [] => s | o :: r => orun r (ostep o s) end.

(** the earth-frame velocity and position increments of one IMU step *)
Definition dpos_earth (i : imuin R) (s : ost R) : Vec R :=
  let v := ov (payload (o_new s)) in fun k => ((v k + dvel_earth expq i s k + v k) * (i_dvdt i * (1 / 2)))%R.

(** ledger: total inertial velocity and position increment so far, and their
    values when each history entry was stored (newest first) *)
Record ledger := mkL { tot_v : Vec R; tot_p : Vec R; at_v : list (Vec R); at_p : list (Vec R) }.
Definition lstep (o : oop) (s : ost R) (g : ledger) : ledger :=
  match o with
  | OStep i =>
      let v := fun k => (tot_v g k + dvel_earth expq i s k)%R in
      let p := fun k => (tot_p g k + dpos_earth i s k)%R in
      if i_updated i then mkL v p (v :: at_v g) (p :: at_p g) else mkL v p (at_v g) (at_p g)
  | _ => g
  end.
Fixpoint lrun (l : list oop) (s : ost R) (g : ledger) : ledger := match l with [] => g | o :: r => lrun r (ostep o s) (lstep o s g) end.

Definition op_time_ok (o : oop) : Prop := match o with OStep i => (0 <= i_time i < two64 - 100000)%Z | _ => True end.

Notation zo := (zero_out (T := R)).
Notation zw := (zero_vert (T := R)).
Definition hist (s : ost R) : list (sample (outp R)) := contents zo (o_buf s).
Definition vhist (s : ost R) : list (sample (overt R)) := contents zw (w_buf s).

Record oinv (s : ost R) (g : ledger) : Prop := {
  oi_buf : Inv zo (o_buf s); oi_wbuf : Inv zw (w_buf s);
  oi_same : length (vhist s) = length (hist s) /\ size (w_buf s) = size (o_buf s) /\ first_write (w_buf s) = first_write (o_buf s);
  oi_wt : time_ok (w_new s); oi_size : 2 <= size (w_buf s);
  oi_len : length (hist s) <= length (at_v g) /\ length (hist s) <= length (at_p g);
  oi_v : forall n x k, nth_error (hist s) n = Some x -> k < 3 ->
     ov (payload x) k = (ov (payload (o_new s)) k - (tot_v g k - nth n (at_v g) (fun _ => 0%R) k))%R;
  oi_p : forall n x k, nth_error (hist s) n = Some x -> k < 3 ->
     op (payload x) k = (op (payload (o_new s)) k - (tot_p g k - nth n (at_p g) (fun _ => 0%R) k))%R;
  oi_w : forall n x, nth_error (vhist s) n = Some x ->
     vv (payload x) = (vv (payload (w_new s)) - (tot_v g 2%nat - nth n (at_v g) (fun _ => 0%R) 2%nat))%R }.

Lemma nth_error_firstn {A} (l : list A) : forall m n x, nth_error (firstn m l) n = Some x -> nth_error l n = Some x.
Proof. induction l as [|a l IH]; intros [|m] [|n] x H; cbn in *; try discriminate; auto. apply (IH m); exact H. Qed.
Lemma nth_error_map' {A B} (f : A -> B) l n y : nth_error (map f l) n = Some y -> exists x, nth_error l n = Some x /\ y = f x.
Proof. revert n. induction l as [|a l IH]; intros [|n] H; cbn in *; try discriminate; [inversion H; eauto|auto]. Qed.
Lemma newest_hd {A} (z : A) (b : ring A) : Inv z b -> first_write b = false -> nth_error (contents z b) 0 = Some (get_newest z b).
Proof.
  intros HI F. unfold contents. assert (0 < len b) by (unfold len; rewrite F; destruct (tail b <=? head b); lia).
  destruct (len b) eqn:E; [lia|]. cbn. unfold item, get_newest, pop_index. rewrite Nat.sub_0_r. reflexivity.
Qed.
Lemma oldest_last {A} (z : A) (b : ring A) : Inv z b -> first_write b = false -> nth_error (contents z b) (len b - 1) = Some (get_oldest z b).
Proof.
  intros HI F. pose proof (len_le_size z b HI). assert (0 < len b) by (unfold len; rewrite F; destruct (tail b <=? head b); lia).
  unfold contents. rewrite nth_error_map. rewrite (nth_error_nth' _ 0) by (rewrite seq_length; lia). rewrite seq_nth by lia. cbn.
  f_equal. unfold item, get_oldest. f_equal. apply Nat.eqb_eq. rewrite (pop_index_tail z b _ HI F) by lia. apply Nat.eqb_eq. lia.
Qed.
Lemma contents_len {A} (z : A) (b : ring A) : length (contents z b) = len b.
Proof. unfold contents. rewrite map_length, seq_length. reflexivity. Qed.
Lemma newest_map {A} (z : A) (f : A -> A) (b : ring A) : Inv z b -> get_newest z (map_all f b) = smap f (get_newest z b).
Proof.
  intros [H1 H2 H3 H4 H5 H6]. unfold get_newest, load. cbn [map_all head buffer].
  rewrite (nth_indep _ _ (smap f (zero_sample z))) by (rewrite map_length; lia).
  change (fun s : sample A => {| time_us := time_us s; payload := f (payload s) |}) with (smap f). apply map_nth.
Qed.
Lemma push_fw {A} (x : sample A) b : first_write (push x b) = false.
Proof. unfold push. destruct (first_write b) eqn:F; cbn; [rewrite andb_false_r; reflexivity|]. destruct (_ && _); reflexivity. Qed.
Lemma push_newest {A} (z : A) (x : sample A) b : Inv z b -> get_newest z (push x b) = x.
Proof.
  intros [H1 H2 H3 H4 H5 H6]. unfold push, get_newest. set (h := if first_write b then _ else _).
  assert (h < length (buffer b)) by (unfold h; rewrite H1; destruct (first_write b); [lia|apply Nat.mod_upper_bound; lia]).
  destruct (_ && _); cbn [head buffer]; apply load_store_eq; assumption.
Qed.

(** a change of all entries and of the newest output by the same shift keeps the invariant *)
Lemma smap_payload {A} (f : A -> A) (s : sample A) : payload (smap f s) = f (payload s). Proof. reflexivity. Qed.
Lemma hist_map f (s s' : ost R) : Inv zo (o_buf s) -> o_buf s' = map_all f (o_buf s) -> hist s' = map (smap f) (hist s).
Proof. intros HI E. unfold hist. rewrite E. apply (contents_map_all zo f); exact HI. Qed.
Lemma vhist_map f (s s' : ost R) : Inv zw (w_buf s) -> w_buf s' = map_all f (w_buf s) -> vhist s' = map (smap f) (vhist s).
Proof. intros HI E. unfold vhist. rewrite E. apply (contents_map_all zw f); exact HI. Qed.

(** maps of the whole history shifting velocity by dv and position by dp *)
Lemma oinv_shift s s' g (f : outp R -> outp R) (dv dp : Vec R) : oinv s g ->
  o_buf s' = map_all f (o_buf s) -> (forall o k, k < 3 -> ov (f o) k = (ov o k + dv k)%R /\ op (f o) k = (op o k + dp k)%R) ->
  (forall k, k < 3 -> ov (payload (o_new s')) k = (ov (payload (o_new s)) k + dv k)%R /\ op (payload (o_new s')) k = (op (payload (o_new s)) k + dp k)%R) ->
  w_buf s' = w_buf s -> w_new s' = w_new s -> oinv s' g.
Proof.
  intros [A B C D E F G H I] Eb Hf Hn Ew En.
  assert (Eh : hist s' = map (smap f) (hist s)) by (apply hist_map; assumption).
  assert (Ev : vhist s' = vhist s) by (unfold vhist; rewrite Ew; reflexivity).
  constructor.
  - rewrite Eb. apply inv_map_all. exact A.
  - rewrite Ew. exact B.
  - rewrite Eh, Ev, map_length, Eb, Ew. exact C.
  - rewrite En. exact D.
  - rewrite Ew. exact E.
  - rewrite Eh, map_length. exact F.
  - intros n x k Hx Hk. rewrite Eh in Hx. destruct (nth_error_map' _ _ _ _ Hx) as (y & Hy & ->). rewrite smap_payload.
    destruct (Hf (payload y) k Hk) as [-> _]. destruct (Hn k Hk) as [-> _]. rewrite (G n y k Hy Hk). lra.
  - intros n x k Hx Hk. rewrite Eh in Hx. destruct (nth_error_map' _ _ _ _ Hx) as (y & Hy & ->). rewrite smap_payload.
    destruct (Hf (payload y) k Hk) as [_ ->]. destruct (Hn k Hk) as [_ ->]. rewrite (H n y k Hy Hk). lra.
  - intros n x Hx. rewrite Ev in Hx. rewrite En. apply I. exact Hx.
Qed.
(** maps of the vertical history *)
Lemma oinv_vshift s s' g (f : overt R -> overt R) (d : R) : oinv s g ->
  w_buf s' = map_all f (w_buf s) -> (forall w, vv (f w) = (vv w + d)%R) -> vv (payload (w_new s')) = (vv (payload (w_new s)) + d)%R -> time_us (w_new s') = time_us (w_new s) ->
  o_buf s' = o_buf s -> o_new s' = o_new s -> oinv s' g.
Proof.
  intros [A B C D E F G H I] Eb Hf Hn Ht Ew En.
  assert (Ev : vhist s' = map (smap f) (vhist s)) by (apply vhist_map; assumption).
  assert (Eh : hist s' = hist s) by (unfold hist; rewrite Ew; reflexivity).
  constructor.
  - rewrite Ew. exact A.
  - rewrite Eb. apply inv_map_all. exact B.
  - rewrite Eh, Ev, map_length, Eb, Ew. exact C.
  - unfold time_ok. rewrite Ht. exact D.
  - rewrite Eb. exact E.
  - rewrite Eh. exact F.
  - intros n x k Hx Hk. rewrite Eh in Hx. rewrite En. apply G; assumption.
  - intros n x k Hx Hk. rewrite Eh in Hx. rewrite En. apply H; assumption.
  - intros n x Hx. rewrite Ev in Hx. destruct (nth_error_map' _ _ _ _ Hx) as (y & Hy & ->). rewrite smap_payload, Hf, Hn, (I n y Hy). lra.
Qed.

(** vertical correction: velocities are shifted, whatever happens to the integrals *)
Lemma vert_chain_nth corr l : forall p n x, nth_error (vert_chain corr p l) n = Some x ->
  exists y, nth_error l n = Some y /\ vv (payload x) = (vv (payload y) + corr)%R /\ time_us x = time_us y /\ vdt (payload x) = vdt (payload y).
Proof.
  induction l as [|a l IH]; intros p [|n] x Hx; cbn in Hx; try discriminate.
  - inversion Hx; subst. exists a. auto.
  - destruct (IH _ n x Hx) as (y & Hy). exists y. auto.
Qed.
Lemma vert_spec_nth corr l n x : nth_error (vert_spec corr l) n = Some x ->
  exists y, nth_error l n = Some y /\ vv (payload x) = (vv (payload y) + corr)%R /\ time_us x = time_us y /\ vdt (payload x) = vdt (payload y).
Proof.
  destruct l as [|a l], n as [|n]; cbn [vert_spec nth_error]; intros Hx; try discriminate.
  - inversion Hx; subst. exists a. auto.
  - apply vert_chain_nth in Hx. exact Hx.
Qed.
Lemma vert_chain_length {T} {S : Scalar T} (corr : T) l : forall p, length (vert_chain corr p l) = length l.
Proof. induction l; intros; cbn; auto. Qed.
Lemma vert_spec_length {T} {S : Scalar T} (corr : T) l : length (vert_spec corr l) = length l.
Proof. destruct l; cbn; [reflexivity|]. rewrite vert_chain_length. reflexivity. Qed.
Lemma nth_error_rev {A} (l : list A) n x : nth_error l n = Some x -> nth_error (rev l) (length l - 1 - n) = Some x.
Proof.
  intros H. assert (n < length l) by (apply nth_error_Some; congruence).
  rewrite (nth_error_nth' (rev l) x) by (rewrite rev_length; lia). rewrite rev_nth by lia.
  replace (length l - Datatypes.S (length l - 1 - n)) with n by lia. f_equal. apply nth_error_nth. exact H.
Qed.
Lemma vertBuf_nth corr b n x : Inv zw b -> 2 <= size b -> nth_error (contents zw (vertBuf corr b)) n = Some x ->
  exists y, nth_error (contents zw b) n = Some y /\ vv (payload x) = (vv (payload y) + corr)%R.
Proof.
  intros HI H2 Hx. assert (HL : length (contents zw (vertBuf corr b)) = length (contents zw b)) by (rewrite !contents_len; reflexivity).
  assert (Hn : n < length (contents zw b)) by (rewrite <- HL; apply nth_error_Some; congruence).
  apply nth_error_rev in Hx. rewrite contents_vertBuf in Hx by assumption. destruct (vert_spec_nth _ _ _ _ Hx) as (y & Hy & E & _).
  exists y. split; [|exact E]. apply nth_error_rev in Hy. rewrite rev_involutive, rev_length in Hy. rewrite HL in Hy.
  replace (length (contents zw b) - 1 - (length (contents zw b) - 1 - n)) with n in Hy by lia. exact Hy.
Qed.
Lemma oinv_vert corr s g : oinv s g -> first_write (w_buf s) = false -> nth_error (vhist s) 0 = Some (w_new s) -> oinv (applyVertCorrection corr s) g.
Proof.
  intros [A B C D E F G H I] Fw Hn. unfold applyVertCorrection.
  assert (BI : Inv zw (vertBuf corr (w_buf s))) by (apply inv_vertBuf; exact B).
  pose proof (newest_hd zw (vertBuf corr (w_buf s)) BI Fw) as N0.
  constructor; cbn [setVert o_buf w_buf o_new w_new hist vhist].
  - exact A.
  - exact BI.
  - unfold hist, vhist in *. cbn [setVert o_buf w_buf]. rewrite contents_len. rewrite contents_len in C. exact C.
  - unfold time_ok. cbn [time_us]. unfold get_newest. cbn [vertBuf head buffer]. rewrite vertLoop_times.
    assert (W : load zw (head (w_buf s)) (buffer (w_buf s)) = get_newest zw (w_buf s)) by reflexivity. rewrite W.
    unfold vhist in Hn. rewrite (newest_hd zw _ B Fw) in Hn. inversion Hn as [Q]. rewrite Q. exact D.
  - exact E.
  - exact F.
  - exact G.
  - exact H.
  - intros n x Hx. unfold vhist in Hx. cbn [setVert w_buf] in Hx. destruct (vertBuf_nth _ _ _ _ B E Hx) as (y & Hy & ->).
    cbn [payload vv]. destruct (vertBuf_nth _ _ _ _ B E N0) as (y0 & Hy0 & ->).
    unfold vhist in Hn. rewrite Hn in Hy0. inversion Hy0; subst. rewrite (I n y Hy). lra.
Qed.

Lemma oinv_ext s s' g : oinv s g -> o_buf s' = o_buf s -> w_buf s' = w_buf s -> o_new s' = o_new s -> w_new s' = w_new s -> oinv s' g.
Proof.
  intros [A B C D E F G H I] E1 E2 E3 E4. constructor; unfold hist, vhist in *; rewrite ?E1, ?E2, ?E3, ?E4 in *; assumption.
Qed.
Definition led_prop (i : imuin R) (s : ost R) (g : ledger) : ledger :=
  mkL (fun k => (tot_v g k + dvel_earth expq i s k)%R) (fun k => (tot_p g k + dpos_earth i s k)%R) (at_v g) (at_p g).
Lemma oinv_propagate i s g : oinv s g -> oinv (propagate expq i s) (led_prop i s g).
Proof.
  intros [A B C D E F G H I]. constructor; cbn [propagate o_buf w_buf o_new w_new led_prop tot_v tot_p at_v at_p].
  - exact A.
  - exact B.
  - exact C.
  - exact D.
  - exact E.
  - exact F.
  - intros n x k Hx Hk. cbn [payload ov]. unfold vplus. cbn [sadd RScalar]. rewrite (G n x k Hx Hk). lra.
  - intros n x k Hx Hk. cbn [payload op]. unfold vplus, dpos_earth. cbn [sadd smul slit RScalar]. rewrite (H n x k Hx Hk). cbn [payload]. lra.
  - intros n x Hx. cbn [payload vv]. cbn [sadd RScalar]. rewrite (I n x Hx). lra.
Qed.
Definition pushBoth (s : ost R) : ost R :=
  setVert (w_new s) (push (w_new s) (w_buf s)) (setOut (o_new s) (push (o_new s) (o_buf s)) s).
Lemma oinv_push s g : oinv s g -> time_ok (o_new s) -> oinv (pushBoth s) (mkL (tot_v g) (tot_p g) (tot_v g :: at_v g) (tot_p g :: at_p g)).
Proof.
  intros [A B C D E F G H I] Ht. destruct C as (C1 & C2 & C3).
  assert (Eh : hist (pushBoth s) = q_push (size (o_buf s)) (o_new s) (hist s)) by (apply (contents_push zo); exact A).
  assert (Ev : vhist (pushBoth s) = q_push (size (w_buf s)) (w_new s) (vhist s)) by (apply (contents_push zw); exact B).
  constructor.
  - apply inv_push; assumption.
  - apply inv_push; assumption.
  - rewrite Eh, Ev. unfold q_push. rewrite !firstn_length. cbn [length pushBoth setVert setOut o_buf w_buf]. rewrite !push_size, !push_fw. rewrite C1, C2. auto.
  - exact D.
  - cbn [pushBoth setVert setOut w_buf]. rewrite push_size. exact E.
  - rewrite Eh. unfold q_push. rewrite firstn_length. cbn [length at_v at_p]. lia.
  - intros n x k Hx Hk. rewrite Eh in Hx. apply nth_error_firstn in Hx. destruct n as [|n]; cbn [nth_error] in Hx; cbn [nth at_v tot_v pushBoth setVert setOut o_new].
    + inversion Hx; subst. lra.
    + apply G; assumption.
  - intros n x k Hx Hk. rewrite Eh in Hx. apply nth_error_firstn in Hx. destruct n as [|n]; cbn [nth_error] in Hx; cbn [nth at_p tot_p pushBoth setVert setOut o_new].
    + inversion Hx; subst. lra.
    + apply H; assumption.
  - intros n x Hx. rewrite Ev in Hx. apply nth_error_firstn in Hx. destruct n as [|n]; cbn [nth_error] in Hx; cbn [nth at_v tot_v pushBoth setVert setOut w_new].
    + inversion Hx; subst. lra.
    + apply I; assumption.
Qed.
Lemma oinv_correct cv cp s g : oinv s g -> nth_error (hist s) 0 = Some (o_new s) -> oinv (applyCorrection cv cp s) g.
Proof.
  intros HI Hn. assert (FW : first_write (o_buf s) = false).
  { destruct (first_write (o_buf s)) eqn:Q; [|reflexivity]. unfold hist, contents, len in Hn. rewrite Q in Hn. discriminate. }
  apply (oinv_shift s _ g (fun o => mkOut (oq o) (vplus (ov o) cv) (vplus (op o) cp)) cv cp HI).
  - reflexivity.
  - intros o k Hk. split; reflexivity.
  - intros k Hk. cbn [applyCorrection setOut o_new]. rewrite (newest_map zo) by (destruct HI; assumption). rewrite smap_payload. cbn [ov op].
    unfold hist in Hn. rewrite (newest_hd zo _ (oi_buf _ _ HI) FW) in Hn. inversion Hn as [Q]. rewrite Q. split; reflexivity.
  - reflexivity.
  - reflexivity.
Qed.
Lemma hd_pushBoth s g : oinv s g -> nth_error (hist (pushBoth s)) 0 = Some (o_new (pushBoth s)) /\ nth_error (vhist (pushBoth s)) 0 = Some (w_new (pushBoth s)).
Proof.
  intros [A B C D E F G H I]. unfold hist, vhist, pushBoth. cbn [setVert setOut o_buf w_buf o_new w_new].
  rewrite (contents_push zo), (contents_push zw) by assumption. unfold q_push. destruct A as [_ A _ _ _ _], B as [_ B _ _ _ _].
  destruct (size (o_buf s)); [lia|]. destruct (size (w_buf s)); [lia|]. split; reflexivity.
Qed.
Lemma observe_inv i s g : oinv s g -> time_ok (o_new s) ->
  oinv (observe i s) (mkL (tot_v g) (tot_p g) (tot_v g :: at_v g) (tot_p g :: at_p g)).
Proof.
  intros HI Ht. pose proof (oinv_push s g HI Ht) as HP. destruct (hd_pushBoth s g HI) as [H1 H2].
  unfold observe. fold (pushBoth s).
  match goal with |- oinv (mkO _ _ _ _ _ (o_new ?s2) _ _ _ _ _ _ _ _ _ _) _ => set (s2' := s2) end.
  apply (oinv_ext s2'); try reflexivity. subst s2'.
  apply oinv_correct.
  - apply oinv_vert; [exact HP| |exact H2]. cbn [pushBoth setVert w_buf]. apply push_fw.
  - exact H1.
Qed.
Lemma oinv_ostep o s g : oinv s g -> op_time_ok o -> oinv (ostep o s) (lstep o s g).
Proof.
  intros HI HT. destruct o; cbn [ostep lstep].
  - unfold calculateOutputStates. pose proof (oinv_propagate i s g HI) as HP. destruct (i_updated i).
    + apply (observe_inv i _ _ HP). exact HT.
    + exact HP.
  - apply (oinv_ext s); [exact HI| | | |]; reflexivity.
  - apply (oinv_shift s _ g (withV (addXY (vminus new (e_v s)))) (fun k => if k <? 2 then (new k - e_v s k)%R else 0%R) (fun _ => 0%R) HI); try reflexivity.
    + intros o k Hk. cbn [withV ov op]. unfold addXY, vminus. cbn [sadd ssub RScalar]. destruct (k <? 2); split; lra.
    + intros k Hk. cbn [resetHorizontalVelocityTo setRst setOut setEV o_new smap payload withV ov op]. unfold addXY, vminus. cbn [sadd ssub RScalar]. destruct (k <? 2); split; lra.
  - unfold resetVerticalVelocityTo. set (d := ssub new (e_v s 2)).
    pose (s1 := setOut (smap (withV (addZ d)) (o_new s)) (map_all (withV (addZ d)) (o_buf s)) s).
    assert (H1 : oinv s1 g).
    { apply (oinv_shift s _ g (withV (addZ d)) (fun k => if k =? 2 then d else 0%R) (fun _ => 0%R) HI); try reflexivity.
      + intros o k Hk. cbn [withV ov op]. unfold addZ. cbn [sadd RScalar]. destruct (k =? 2); split; lra.
      + intros k Hk. cbn [s1 setOut o_new smap payload withV ov op]. unfold addZ. cbn [sadd RScalar]. destruct (k =? 2); split; lra. }
    apply (oinv_vshift s1 _ g (addVV d) d H1); try reflexivity.
  - apply (oinv_shift s _ g (withP (addXY (vminus new (e_p s)))) (fun _ => 0%R) (fun k => if k <? 2 then (new k - e_p s k)%R else 0%R) HI); try reflexivity.
    + intros o k Hk. cbn [withP ov op]. unfold addXY, vminus. cbn [sadd ssub RScalar]. destruct (k <? 2); split; lra.
    + intros k Hk. cbn [resetHorizontalPositionTo setRst setOut setEP o_new smap payload withP ov op]. unfold addXY, vminus. cbn [sadd ssub RScalar]. destruct (k <? 2); split; lra.
  - unfold resetVerticalPositionTo. set (d := ssub new (e_p s 2)).
    pose (s1 := setOut (smap (withP (addZ d)) (o_new s)) (map_all (withP (addZ d)) (o_buf s)) s).
    assert (H1 : oinv s1 g).
    { apply (oinv_shift s _ g (withP (addZ d)) (fun _ => 0%R) (fun k => if k =? 2 then d else 0%R) HI); try reflexivity.
      + intros o k Hk. cbn [withP ov op]. unfold addZ. cbn [sadd RScalar]. destruct (k =? 2); split; lra.
      + intros k Hk. cbn [s1 setOut o_new smap payload withP ov op]. unfold addZ. cbn [sadd RScalar]. destruct (k =? 2); split; lra. }
    apply (oinv_vshift s1 _ g (addVI d) 0%R H1); try reflexivity.
    + intros w. cbn. lra.
    + cbn. lra.
  - unfold resetQuat. destruct upd.
    + match goal with |- context [withQ ?f] => apply (oinv_shift s _ g (withQ f) (fun _ => 0%R) (fun _ => 0%R) HI) end; try reflexivity.
      * intros o k Hk. cbn [withQ ov op]. split; lra.
      * intros k Hk. cbn [setOut o_new smap payload withQ ov op]. split; lra.
    + apply (oinv_ext s); [exact HI| | | |]; reflexivity.
Qed.

Lemma oinv_run l : forall s g, oinv s g -> Forall op_time_ok l -> oinv (orun l s) (lrun l s g).
Proof.
  induction l as [|o l IH]; intros s g HI HF; cbn [orun lrun]; [exact HI|]. inversion HF; subst. apply IH; [apply oinv_ostep; assumption|assumption].
Qed.
(** ready for take-off: buffers allocated with the same size and still empty *)
Definition fresh (s : ost R) (n : nat) : Prop :=
  2 <= n < 256 /\ allocate zo n = Some (o_buf s) /\ allocate zw n = Some (w_buf s) /\ time_us (w_new s) = 0%Z.
Definition led0 : ledger := mkL (fun _ => 0%R) (fun _ => 0%R) [] [].
Lemma oinv_fresh s n : fresh s n -> oinv s led0.
Proof.
  intros (Hn & H1 & H2 & H3). destruct (inv_alloc zo n _ ltac:(lia) H1) as (A1 & A2 & A3). destruct (inv_alloc zw n _ ltac:(lia) H2) as (B1 & B2 & B3).
  assert (E1 : hist s = []) by exact A2. assert (E2 : vhist s = []) by exact B2.
  constructor; rewrite ?E1, ?E2; auto.
  - split; [reflexivity|]. split; [congruence|]. unfold allocate in H1, H2. replace (n =? 0) with false in H1, H2 by (symmetry; apply Nat.eqb_neq; lia). inversion H1. inversion H2. reflexivity.
  - unfold time_ok. rewrite H3. unfold two64. lia.
  - lia.
  - intros m x k Hx. destruct m; discriminate.
  - intros m x k Hx. destruct m; discriminate.
  - intros m x Hx. destruct m; discriminate.
Qed.

(** ** vertical channel after an update *)
Definition trapezoid (l : list (sample (overt R))) : Prop :=
  forall n a b, nth_error l n = Some a -> nth_error l (Datatypes.S n) = Some b ->
  vi (payload b) = (vi (payload a) + (vv (payload a) + vv (payload b)) / 2 * vdt (payload b))%R.
Lemma vert_chain_trap corr l : forall x, trapezoid (x :: vert_chain corr (payload x) l).
Proof.
  induction l as [|y l IH]; intros x n a b Ha Hb; cbn [vert_chain] in *.
  - destruct n as [|n]; cbn in *; [discriminate|destruct n; discriminate].
  - destruct n as [|n].
    + cbn [nth_error] in *. inversion Ha; inversion Hb; subst. cbn [payload vi vv vdt]. cbn [sadd smul slit RScalar]. lra.
    + exact (IH {| time_us := time_us y; payload := mkVert _ _ _ |} n a b Ha Hb).
Qed.
Lemma vert_spec_trap corr l : trapezoid (vert_spec corr l).
Proof. destruct l as [|x l]; cbn [vert_spec]; [intros [|n] a b; discriminate|]. apply vert_chain_trap. Qed.
Lemma step_trapezoid i s g : oinv s g -> op_time_ok (OStep i) -> i_updated i = true -> trapezoid (rev (vhist (calculateOutputStates expq i s))).
Proof.
  intros HI HT HU. unfold calculateOutputStates. rewrite HU. pose proof (oinv_push _ _ (oinv_propagate i s g HI) HT) as HP.
  unfold observe, vhist. cbn [w_buf applyCorrection setOut applyVertCorrection setVert].
  rewrite contents_vertBuf; [apply vert_spec_trap| |].
  - destruct HP as [_ B _ _ _ _ _ _ _]. exact B.
  - destruct HP as [_ _ _ _ E _ _ _ _]. exact E.
Qed.
End H.

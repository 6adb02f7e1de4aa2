(** * Property C06, the GPS channel: which GPS samples are buffered *)
From Verif Require Import CBase F32 RingBufferModel RingBufferSpec RingBufferProofs RingBufferHistory.
From Verif Require Import InterfaceModel InterfaceSpec InterfaceProofs InterfaceProofs2 InterfaceProofs3.
Open Scope Z_scope.

Section GpsHist.
Context {A : Type} (z : A).

(** a history of GPS deliveries: the rate limit in force, the fix type and the sample *)
Definition gps_deliveries := list (Z * Z * sample A).

(** setGpsData called for each of them, l.172-232 *)
Fixpoint gps_all (p : if_params) (n : Z) (d : f32) (l : gps_deliveries) (c : chan A) : outcome (chan A) :=
  match l with
  | [] => Ok c
  | (m, fix_type, s) :: r => match set_gps z true p fix_type n m d s c with
                             | Ok c1 => gps_all p n d r c1
                             | UB => UB
                             end
  end.

(** GPS is wanted: aiding mask or height source *)
Definition gps_wanted (p : if_params) : Prop :=
  mask (fusion_mode p) MASK_USE_GPS = true \/ vdist_sensor_type p = VDIST_SENSOR_GPS.

(** the deliveries with a three-dimensional fix *)
Definition with_3d_fix (l : gps_deliveries) : deliveries A :=
  map (fun x => (fst (fst x), snd x)) (filter (fun x => 3 <=? snd (fst x)) l).

Lemma ensure_idem n (r : ring A) : 1 <= n -> ensure z n (ensure z n r) = ensure z n r.
Proof.
  intros H. unfold ensure at 2 3. destruct (Z.ltb_spec (Z.of_nat (size r)) n) as [L|L].
  - unfold ensure. cbn [size fresh_ring]. replace (Z.of_nat (Z.to_nat n) <? n) with false by lia. reflexivity.
  - unfold ensure. replace (Z.of_nat (size r) <? n) with false by lia. reflexivity.
Qed.
Definition sized (n : Z) (c : chan A) : Prop := ensure z n (ch_ring c) = ch_ring c.
Definition size_up (n : Z) (c : chan A) : chan A := {| ch_ring := ensure z n (ch_ring c); ch_last := ch_last c |}.
Lemma size_up_id n c : sized n c -> size_up n c = c.
Proof. unfold sized, size_up. intros ->. destruct c; reflexivity. Qed.
Lemma push_sized n s r : 1 <= n -> ensure z n r = r -> ensure z n (push s r) = push s r.
Proof.
  intros H E. unfold ensure in *. rewrite push_size. destruct (Z.ltb_spec (Z.of_nat (size r)) n) as [L|L]; [|reflexivity].
  exfalso. assert (size r = size (fresh_ring z (Z.to_nat n))) by (rewrite E; reflexivity). cbn [size fresh_ring] in H0. lia.
Qed.
Lemma set_data_sized n m d s c c1 : 1 <= n -> set_data z true n m d s c = Ok c1 -> sized n c1.
Proof.
  intros H. unfold set_data. cbn [negb]. destruct (_ >? _).
  - destruct (stamp d (time_us s)); [|discriminate]. intros E. injection E as <-. unfold sized. cbn [ch_ring]. apply push_sized; [exact H|apply ensure_idem; exact H].
  - intros E. injection E as <-. unfold sized. cbn [ch_ring]. apply ensure_idem. exact H.
Qed.
Lemma wanted_b p : gps_wanted p <-> (mask (fusion_mode p) MASK_USE_GPS || (vdist_sensor_type p =? VDIST_SENSOR_GPS)) = true.
Proof. unfold gps_wanted. rewrite Bool.orb_true_iff, Z.eqb_eq. reflexivity. Qed.

Lemma set_gps_cases p ft n m d s c : 1 <= n ->
  set_gps z true p ft n m d s c =
  if (mask (fusion_mode p) MASK_USE_GPS || (vdist_sensor_type p =? VDIST_SENSOR_GPS)) && (3 <=? ft)
  then set_data z true n m d s c else Ok (size_up n c).
Proof.
  intros H. unfold set_gps. cbn [negb]. set (w := _ || _). replace (2 <? ft) with (3 <=? ft) by lia.
  unfold set_data. cbn [negb]. destruct (_ >? m) eqn:E.
  - destruct w, (3 <=? ft); reflexivity.
  - cbn [andb]. destruct (w && (3 <=? ft)); reflexivity.
Qed.

Lemma gps_sized p n d l : 1 <= n -> gps_wanted p -> forall c, sized n c ->
  gps_all p n d l c = deliver_all z n d (with_3d_fix l) c.
Proof.
  intros H W. apply wanted_b in W. induction l as [|[[m ft] s] l IH]; intros c S; [reflexivity|].
  cbn [gps_all]. rewrite set_gps_cases, W by exact H. cbn [andb]. unfold with_3d_fix. cbn [filter fst snd].
  destruct (3 <=? ft).
  - cbn [map fst snd deliver_all]. destruct (set_data z true n m d s c) eqn:E; [|reflexivity]. apply IH. eapply set_data_sized; eassumption.
  - rewrite size_up_id by exact S. apply IH, S.
Qed.
Lemma deliver_size_up n d l c : 1 <= n -> l <> [] -> deliver_all z n d l (size_up n c) = deliver_all z n d l c.
Proof.
  intros H N. destruct l as [|[m s] l]; [congruence|]. cbn [deliver_all]. unfold set_data, size_up. cbn [negb ch_ring ch_last].
  rewrite ensure_idem by exact H. reflexivity.
Qed.
Lemma gps_history p n d l : 1 <= n -> gps_wanted p -> with_3d_fix l <> [] ->
  gps_all p n d l (chan_init z) = deliver_all z n d (with_3d_fix l) (chan_init z).
Proof.
  intros H W N. rewrite <- deliver_size_up by assumption.
  destruct l as [|[[m ft] s] l]; [exfalso; apply N; reflexivity|].
  assert (SU : forall c, sized n (size_up n c)) by (intros c; unfold sized, size_up; cbn [ch_ring]; apply ensure_idem; exact H).
  rewrite <- (gps_sized p n d ((m, ft, s) :: l) H W) by apply SU.
  cbn [gps_all]. rewrite !set_gps_cases by exact H. rewrite (proj1 (wanted_b p) W). cbn [andb]. destruct (3 <=? ft).
  - assert (E : set_data z true n m d s (chan_init z) = set_data z true n m d s (size_up n (chan_init z))); [|rewrite E; reflexivity].
    unfold set_data, size_up. cbn [negb ch_ring ch_last]. rewrite ensure_idem by exact H. reflexivity.
  - rewrite (size_up_id n (size_up n (chan_init z))) by apply SU. reflexivity.
Qed.
Lemma gps_not_wanted p n d l : 1 <= n -> ~ gps_wanted p -> forall c, exists c', gps_all p n d l c = Ok c' /\ ch_last c' = ch_last c /\
  (ch_ring c' = ch_ring c \/ ch_ring c' = ensure z n (ch_ring c)).
Proof.
  intros H W. induction l as [|[[m ft] s] l IH]; intros c; [exists c; auto|].
  cbn [gps_all]. rewrite set_gps_cases by exact H. destruct (_ || _) eqn:E; [exfalso; apply W, wanted_b, E|]. cbn [andb].
  destruct (IH (size_up n c)) as (c' & E1 & E2 & E3). exists c'. split; [exact E1|]. split; [exact E2|]. cbn [size_up ch_ring] in E3.
  rewrite ensure_idem in E3 by exact H. destruct E3; auto.
Qed.
End GpsHist.

(** C06: while GPS is wanted (aiding or height) the GPS channel is the generic
    channel fed with the deliveries that carry a 3D fix only: it holds the last [n]
    of the accepted ones, delay compensated. *)
Theorem C06_gps_channel_holds_3d_fixes :
  forall (A : Type) (z : A) p n d (l : @gps_deliveries A) l', 1 <= n <= 255 -> gps_wanted p -> with_3d_fix l <> [] ->
  Forall2 (compensated d) (accepted 0 (with_3d_fix l)) l' ->
  exists c', gps_all z p n d l (chan_init z) = Ok c' /\
    forall os, Forall op_ok os ->
      snd (run z (ch_ring c') os) = snd (q_run (Z.to_nat n) (firstn (Z.to_nat n) (rev l')) os).
Proof.
  intros A z p n d l l' Hn W N HF. rewrite gps_history by (assumption || lia). exact (channel_history z n d _ l' Hn N HF).
Qed.

(** C06: without GPS aiding or GPS height nothing is buffered, whatever arrives. *)
Theorem C06_gps_not_wanted_not_buffered :
  forall (A : Type) (z : A) p n d (l : @gps_deliveries A), 1 <= n -> ~ gps_wanted p ->
  forall c, exists c', gps_all z p n d l c = Ok c' /\ ch_last c' = ch_last c /\
  (ch_ring c' = ch_ring c \/ ch_ring c' = ensure z n (ch_ring c)).
Proof. exact @gps_not_wanted. Qed.

(** C06: before initialisation every channel ignores what arrives. *)
Theorem C06_nothing_before_initialisation :
  forall (A : Type) (z : A) p ft n m d s c, set_data z false n m d s c = Ok c /\ set_gps z false p ft n m d s c = Ok c.
Proof. split; reflexivity. Qed.

Definition gps_height_params : if_params := {| mag_delay_ms := mag_delay_ms default_params; baro_delay_ms := baro_delay_ms default_params;
  gps_delay_ms := gps_delay_ms default_params; airspeed_delay_ms := airspeed_delay_ms default_params; flow_delay_ms := flow_delay_ms default_params;
  range_delay_ms := range_delay_ms default_params; ev_delay_ms := ev_delay_ms default_params; auxvel_delay_ms := auxvel_delay_ms default_params;
  sensor_interval_min_ms := 20; fusion_mode := 0; mag_fusion_type := mag_fusion_type default_params; vdist_sensor_type := VDIST_SENSOR_GPS; range_aid := 0 |}.
Example C06_gps_case :
  match gps_all 0 gps_height_params 9 (f_of_Z 110) [(15000, 2, mk_sample 980000 9); (15000, 3, mk_sample 1000000 1); (15000, 2, mk_sample 1020000 2); (15000, 4, mk_sample 1040000 3)] (chan_init 0) with
  | Ok c => snd (run 0 (ch_ring c) [Pop 890000; Pop 930000])
            = [OPopped (mk_sample 885000 1); OPopped (mk_sample 925000 3)]
  | UB => False
  end /\ gps_wanted gps_height_params /\ gps_wanted default_params.
Proof. split; [vm_compute; reflexivity|]. split; [right; reflexivity|left; vm_compute; reflexivity]. Qed.
Print Assumptions C06_gps_channel_holds_3d_fixes.
Print Assumptions C06_gps_not_wanted_not_buffered.

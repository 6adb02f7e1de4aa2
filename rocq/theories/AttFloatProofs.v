(** * Attitude initialisation and yaw reset in single precision: proofs *)
From Coq Require Import Reals Lra Psatz.
From Verif Require Import CBase Scalar RealGeom RotModel RotProofs F32 F32More F32Err OutputModel NanModel NanProofs.
Open Scope R_scope.

(** ** Real functions *)
Lemma sin_le_abs x : Rabs (sin x) <= Rabs x.
Proof.
  assert (P : forall y, 0 <= y -> Rabs (sin y) <= y).
  { intros y Hy. destruct (Req_dec y 0) as [->|N]; [rewrite sin_0, Rabs_R0; lra|].
    destruct (Rle_dec y 1) as [L|L].
    - rewrite Rabs_right. { left. apply sin_lt_x. lra. } apply Rle_ge, sin_ge_0; [lra|]. pose proof PI2_1. lra.
    - pose proof (SIN_bound y). apply Rabs_le. lra. }
  destruct (Rle_dec 0 x); [rewrite (Rabs_right x) by lra; apply P; assumption|].
  rewrite (Rabs_left x) by lra. replace (sin x) with (- sin (- x)) by (rewrite sin_neg; ring). rewrite Rabs_Ropp. apply P. lra.
Qed.
Lemma sin_lip a b : Rabs (sin a - sin b) <= Rabs (a - b).
Proof.
  rewrite form4. rewrite !Rabs_mult. rewrite (Rabs_right 2) by lra.
  pose proof (sin_le_abs ((a - b) / 2)) as H. replace (Rabs ((a - b) / 2)) with (Rabs (a - b) / 2) in H by (unfold Rdiv; rewrite Rabs_mult, (Rabs_right (/ 2)) by lra; reflexivity).
  assert (C : Rabs (cos ((a + b) / 2)) <= 1) by (apply Rabs_le; pose proof (COS_bound ((a + b) / 2)); lra).
  pose proof (Rabs_pos (sin ((a - b) / 2))). pose proof (Rabs_pos (cos ((a + b) / 2))). nra.
Qed.
Lemma cos_lip a b : Rabs (cos a - cos b) <= Rabs (a - b).
Proof.
  pose proof (sin_lip (PI / 2 - a) (PI / 2 - b)) as H. rewrite !sin_shift in H. eapply Rle_trans; [exact H|].
  replace (PI / 2 - a - (PI / 2 - b)) with (- (a - b)) by ring. rewrite Rabs_Ropp. lra.
Qed.
Lemma sin_1 x : Rabs (sin x) <= 1. Proof. apply Rabs_le. pose proof (SIN_bound x). lra. Qed.
Lemma cos_1 x : Rabs (cos x) <= 1. Proof. apply Rabs_le. pose proof (COS_bound x). lra. Qed.

(** ** Float operations on numbers of ordinary size *)
Lemma near_m a b ra rb ea eb : near a ra ea -> near b rb eb -> Rabs ra <= 101 / 100 -> Rabs rb <= 101 / 100 -> ea <= / 100 -> eb <= / 100 ->
  near (fmul a b) (ra * rb) (102 / 100 * (ea + eb) + / 10000000).
Proof.
  intros A B Ha Hb Ea Eb. pose proof (near_eps _ _ _ A). pose proof (near_eps _ _ _ B). pose proof (Rabs_pos ra). pose proof (Rabs_pos rb).
  assert (M : Rabs (ra * rb) <= 10201 / 10000) by (rewrite Rabs_mult; nra).
  apply (near_mul a b ra rb ea eb (102 / 100 * (ea + eb)) (11 / 10)); try assumption; [nra|lra|unfold huge; lra|unfold ulp1, tiny; lra].
Qed.
Lemma near_a a b ra rb ea eb : near a ra ea -> near b rb eb -> Rabs (ra + rb) <= 4 -> ea <= / 100 -> eb <= / 100 ->
  near (fadd a b) (ra + rb) (ea + eb + 3 / 10000000).
Proof. intros A B M Ea Eb. apply (near_add a b ra rb ea eb (402 / 100)); try assumption; [lra|unfold huge; lra|unfold ulp1, tiny; lra]. Qed.
Lemma near_s a b ra rb ea eb : near a ra ea -> near b rb eb -> Rabs (ra - rb) <= 4 -> ea <= / 100 -> eb <= / 100 ->
  near (fsub a b) (ra - rb) (ea + eb + 3 / 10000000).
Proof. intros A B M Ea Eb. apply (near_sub a b ra rb ea eb (402 / 100)); try assumption; [lra|unfold huge; lra|unfold ulp1, tiny; lra]. Qed.
Lemma near_neg a ra ea : near a ra ea -> near (fneg a) (- ra) ea.
Proof.
  intros [F H]. destruct (fneg_R a) as [E G]. split; [rewrite G; exact F|]. rewrite E. replace (- R32 a - - ra) with (- (R32 a - ra)) by ring. rewrite Rabs_Ropp. exact H.
Qed.
Lemma near_sqrt a r e : near a r e -> 9 / 10 <= r <= 5 -> e <= / 100 -> near (fsqrt a) (sqrt r) (6 / 10 * e + 2 / 10000000).
Proof.
  intros [F H] B E. apply Rabs_le_inv in H. assert (P : 0 < 89 / 100 <= R32 a) by lra.
  destruct (fsqrt_R a F ltac:(lra)) as [V G].
  assert (S1 : 94 / 100 <= sqrt r). { replace (94 / 100) with (sqrt ((94 / 100) * (94 / 100))) by (apply sqrt_square; lra). apply sqrt_le_1_alt. lra. }
  assert (S2 : 94 / 100 <= sqrt (R32 a)). { replace (94 / 100) with (sqrt ((94 / 100) * (94 / 100))) by (apply sqrt_square; lra). apply sqrt_le_1_alt. lra. }
  assert (S3 : sqrt (R32 a) <= 3). { replace 3 with (sqrt (3 * 3)) by (apply sqrt_square; lra). apply sqrt_le_1_alt. lra. }
  assert (D : Rabs (sqrt (R32 a) - sqrt r) <= 6 / 10 * e).
  { assert (Q : (sqrt (R32 a) - sqrt r) * (sqrt (R32 a) + sqrt r) = R32 a - r).
    { replace ((sqrt (R32 a) - sqrt r) * (sqrt (R32 a) + sqrt r)) with (sqrt (R32 a) * sqrt (R32 a) - sqrt r * sqrt r) by ring. rewrite !sqrt_sqrt by lra. reflexivity. }
    apply Rabs_le. split; nra. }
  apply (near_rnd _ _ _ (6 / 10 * e) 3 _ G V); [apply Rabs_le; lra|unfold huge; lra|exact D|unfold ulp1, tiny; lra].
Qed.
Lemma near_lt a b ra rb ea eb : near a ra ea -> near b rb eb -> flt a b = true -> ra <= rb + (ea + eb).
Proof. intros A B H. pose proof (near_val _ _ _ A). pose proof (near_val _ _ _ B). destruct A as [Fa _], B as [Fb _]. rewrite flt_R in H by assumption. destruct (Rlt_bool_spec (R32 a) (R32 b)); [lra|discriminate]. Qed.
Lemma near_ge a b ra rb ea eb : near a ra ea -> near b rb eb -> flt a b = false -> rb <= ra + (ea + eb).
Proof. intros A B H. pose proof (near_val _ _ _ A). pose proof (near_val _ _ _ B). destruct A as [Fa _], B as [Fb _]. rewrite flt_R in H by assumption. destruct (Rlt_bool_spec (R32 a) (R32 b)); [discriminate|lra]. Qed.
Lemma near_int n : (- 2 ^ 24 <= n <= 2 ^ 24)%Z -> near (flit n 1) (IZR n) 0.
Proof.
  intros H. destruct (flit_R n 1 H ltac:(lia)) as [E F]. split; [exact F|]. rewrite E. replace (IZR n / IZR 1) with (IZR n) by (unfold Rdiv; rewrite Rinv_1; ring).
  rewrite rnd32_Z by exact H. rewrite Rminus_eq_0, Rabs_R0. lra.
Qed.
Lemma near_half : near (flit 1 2) (1 / 2) 0.
Proof.
  destruct (flit_R 1 2 ltac:(lia) ltac:(lia)) as [E F]. split; [exact F|]. rewrite E. replace (rnd32 (IZR 1 / IZR 2)) with (1 / 2); [rewrite Rminus_eq_0, Rabs_R0; lra|].
  symmetry. apply round_generic; [apply valid_rnd_N|]. apply generic_format_FLT. exists (Float radix2 1 (-1)); [unfold F2R; cbn; lra|cbn; lia|cbn; lia].
Qed.

(** ** The quaternion of a matrix that is nearly a rotation *)
Definition nearV (v : Vec f32) (w : Q4) (e : R) : Prop := near (v 0%nat) (q0 w) e /\ near (v 1%nat) (q1 w) e /\ near (v 2%nat) (q2 w) e /\ near (v 3%nat) (q3 w) e.
Definition nearM (r : Mat f32) (m : M3) (e : R) : Prop :=
  (near (r 0%nat 0%nat) (m00 m) e /\ near (r 0%nat 1%nat) (m01 m) e /\ near (r 0%nat 2%nat) (m02 m) e) /\
  (near (r 1%nat 0%nat) (m10 m) e /\ near (r 1%nat 1%nat) (m11 m) e /\ near (r 1%nat 2%nat) (m12 m) e) /\
  (near (r 2%nat 0%nat) (m20 m) e /\ near (r 2%nat 1%nat) (m21 m) e /\ near (r 2%nat 2%nat) (m22 m) e).
(** one branch of Quatf(Dcm): [t] near 4 P^2, [d] near 4 P Q *)
Lemma branch t P : near t (4 * (P * P)) (2 / 100000) -> 98 / 100 <= 4 * (P * P) <= 4 + / 10000 ->
  near (fmul (flit 1 2) (fsqrt t)) (Rabs P) (2 / 100000) /\
  forall d Q, near d (4 * (P * Q)) (1 / 100000) -> P * P + Q * Q <= 1 -> near (fmul d (fdiv (flit 1 2) (fsqrt t))) ((if Rlt_dec P 0 then -1 else 1) * Q) (4 / 100000).
Proof.
  intros T B.
  assert (S0 : sqrt (4 * (P * P)) = 2 * Rabs P) by apply sqrt4.
  pose proof (near_sqrt _ _ _ T ltac:(lra) ltac:(lra)) as S. rewrite S0 in S. set (h := fsqrt t) in *. clearbody h.
  assert (AP : Rabs P * Rabs P = P * P) by (rewrite <- Rabs_mult; apply Rabs_right; nra).
  pose proof (Rabs_pos P) as P0. assert (PL : 49 / 100 <= Rabs P <= 101 / 100) by (split; nra).
  split.
  - replace (Rabs P) with (1 / 2 * (2 * Rabs P)) by field.
    apply (near_mul (flit 1 2) h (1 / 2) (2 * Rabs P) 0 (6 / 10 * (2 / 100000) + 2 / 10000000) (7 / 1000000) (102 / 100)); [exact near_half|exact S| | | |].
    + rewrite (Rabs_right (1 / 2)), (Rabs_right (2 * Rabs P)) by lra. lra.
    + rewrite Rabs_right by lra. lra.
    + unfold huge; lra.
    + unfold ulp1, tiny; lra.
  - intros d Q D HQ.
    assert (U : near (fdiv (flit 1 2) h) (1 / 2 / (2 * Rabs P)) (7 / 1000000 + 7 / 1000000)).
    { assert (V : Rabs (1 / 2 / (2 * Rabs P)) <= 52 / 100).
      { rewrite Rabs_right. - unfold Rdiv at 1. apply (Rmult_le_reg_r (2 * Rabs P)); [lra|]. rewrite Rmult_assoc, Rinv_l by lra. lra.
        - apply Rle_ge. apply Rmult_le_pos; [lra|]. left. apply Rinv_0_lt_compat. lra. }
      apply (near_div (flit 1 2) h (1 / 2) (2 * Rabs P) 0 (6 / 10 * (2 / 100000) + 2 / 10000000) (12 / 1000000 * (6/10)) (55 / 100)); [exact near_half|exact S| | | | |].
      - rewrite (Rabs_right (2 * Rabs P)) by lra. lra.
      - rewrite (Rabs_right (2 * Rabs P)) by lra. pose proof (Rabs_pos (1 / 2 / (2 * Rabs P))). nra.
      - lra.
      - unfold huge; lra.
      - unfold ulp1, tiny; lra. }
    assert (W : 4 * (P * Q) * (1 / 2 / (2 * Rabs P)) = (if Rlt_dec P 0 then -1 else 1) * Q).
    { destruct (Rlt_dec P 0); [rewrite (Rabs_left P) in * by lra|rewrite (Rabs_right P) in * by lra]; field; lra. }
    rewrite <- W.
    assert (A1 : Rabs (4 * (P * Q)) <= 2). { apply Rabs_le. pose proof (Rle_0_sqr (P - Q)). pose proof (Rle_0_sqr (P + Q)). unfold Rsqr in *. split; lra. }
    assert (V : Rabs (1 / 2 / (2 * Rabs P)) <= 52 / 100).
    { rewrite Rabs_right. - unfold Rdiv at 1. apply (Rmult_le_reg_r (2 * Rabs P)); [lra|]. rewrite Rmult_assoc, Rinv_l by lra. lra.
      - apply Rle_ge. apply Rmult_le_pos; [lra|]. left. apply Rinv_0_lt_compat. lra. }
    pose proof (Rabs_pos (4 * (P * Q))). pose proof (Rabs_pos (1 / 2 / (2 * Rabs P))).
    apply (near_mul d _ _ _ (1 / 100000) (7 / 1000000 + 7 / 1000000) (36 / 1000000) (11 / 10)); [exact D|exact U|nra| | |unfold ulp1, tiny; lra].
    + rewrite W. assert (Rabs Q <= 1) by (apply Rabs_le; nra). destruct (Rlt_dec P 0); rewrite Rabs_mult; [rewrite (Rabs_left (-1)) by lra|rewrite (Rabs_right 1) by lra]; lra.
    + unfold huge; lra.
Qed.
Lemma q_bounds (q : Q4) : qnorm2 q = 1 -> Rabs (q0 q) <= 1 /\ Rabs (q1 q) <= 1 /\ Rabs (q2 q) <= 1 /\ Rabs (q3 q) <= 1.
Proof. intros H. unfold qnorm2 in H. repeat split; apply Rabs_le; nra. Qed.
Definition sgn (x : R) : R := if Rlt_dec x 0 then -1 else 1.
Lemma sgn_abs x : sgn x * x = Rabs x.
Proof. unfold sgn. destruct (Rlt_dec x 0); [rewrite Rabs_left by lra|rewrite Rabs_right by lra]; ring. Qed.
Lemma quatOf_near (r : Mat f32) (w : Q4) : qnorm2 w = 1 -> nearM r (dcm w) (4 / 1000000) ->
  exists c, (c = 1 \/ c = -1) /\ nearV (quatOfG r) (qscale c w) (4 / 100000).
Proof.
  intros N ((R00 & R01 & R02) & (R10 & R11 & R12) & (R20 & R21 & R22)). destruct w as [a b c d].
  unfold dcm in *. cbn [q0 q1 q2 q3 m00 m01 m02 m10 m11 m12 m20 m21 m22] in *. unfold qnorm2 in N. cbn [q0 q1 q2 q3] in N.
  assert (SQ : 0 <= a * a /\ 0 <= b * b /\ 0 <= c * c /\ 0 <= d * d) by (repeat split; apply Rle_0_sqr). destruct SQ as (SA & SB & SC & SD).
  assert (N' : a * a + b * b + c * c + d * d = 1) by lra. clear N.
  pose proof (near_int 1 ltac:(lia)) as I1. assert (Z0 : near (flit 0 1) 0 0) by (apply near_int; lia).
  assert (NE : forall (x : f32) (r r' e e' : R), near x r e -> r = r' -> e <= e' -> near x r' e') by (intros x r1 r2 e e' H -> L; exact (near_weaken _ _ _ _ H L)).
  assert (AB : forall x, -1 <= x <= 1 -> Rabs x <= 1) by (intros; apply Rabs_le; assumption).
  assert (B00 : Rabs (a ^ 2 + b ^ 2 - c ^ 2 - d ^ 2) <= 1) by (apply AB; lra). assert (B11 : Rabs (a ^ 2 - b ^ 2 + c ^ 2 - d ^ 2) <= 1) by (apply AB; lra).
  assert (B22 : Rabs (a ^ 2 - b ^ 2 - c ^ 2 + d ^ 2) <= 1) by (apply AB; lra).
  assert (OFF : forall x y z w, x * x + y * y + z * z + w * w = 1 -> Rabs (2 * (x * y - z * w)) <= 1 /\ Rabs (2 * (x * y + z * w)) <= 1).
  { intros x y z w H. pose proof (Rle_0_sqr (x - y)) as Z1. pose proof (Rle_0_sqr (x + y)) as Z2. pose proof (Rle_0_sqr (z - w)) as Z3. pose proof (Rle_0_sqr (z + w)) as Z4. unfold Rsqr in *.
    split; apply AB; lra. }
  destruct (OFF b c a d ltac:(lra)) as [B01 B10]. destruct (OFF b d a c ltac:(lra)) as [B20 B02]. destruct (OFF c d a b ltac:(lra)) as [B12 B21].
  assert (TA : forall x y z, Rabs x <= 1 -> Rabs y <= 1 -> Rabs (x + y) <= 2 /\ Rabs (x - y) <= 2 /\ (Rabs z <= 2 -> Rabs (z + y) <= 3 /\ Rabs (z - y) <= 3) /\ (Rabs z <= 3 -> Rabs (z + y) <= 4 /\ Rabs (z - y) <= 4)).
  { intros x y z Hx Hy. apply Rabs_le_inv in Hx, Hy. repeat split; try (apply Rabs_le; lra); (match goal with H : Rabs z <= _ |- _ => apply Rabs_le_inv in H; apply Rabs_le; lra end). }
  assert (SUB : forall x y rx ry, near x rx (4 / 1000000) -> near y ry (4 / 1000000) -> Rabs rx <= 1 -> Rabs ry <= 1 -> near (fsub x y) (rx - ry) (1 / 100000)).
  { intros x y rx ry Hx Hy Bx By. eapply near_weaken; [apply (near_s _ _ _ _ _ _ Hx Hy); [apply Rabs_le_inv in Bx, By; apply Rabs_le; lra|lra|lra]|lra]. }
  assert (ADD : forall x y rx ry, near x rx (4 / 1000000) -> near y ry (4 / 1000000) -> Rabs rx <= 1 -> Rabs ry <= 1 -> near (fadd x y) (rx + ry) (1 / 100000)).
  { intros x y rx ry Hx Hy Bx By. eapply near_weaken; [apply (near_a _ _ _ _ _ _ Hx Hy); [apply Rabs_le_inv in Bx, By; apply Rabs_le; lra|lra|lra]|lra]. }
  apply Rabs_le_inv in B00 as C00. apply Rabs_le_inv in B11 as C11. apply Rabs_le_inv in B22 as C22.
  assert (TR : near (fadd (fadd (r 0%nat 0%nat) (r 1%nat 1%nat)) (r 2%nat 2%nat)) (4 * (a * a) - 1) (15 / 1000000)).
  { eapply NE; [apply near_a; [apply near_a; [exact R00|exact R11|apply Rabs_le; lra|lra|lra]|exact R22|apply Rabs_le; lra|lra|lra]|lra|lra]. }
  set (tr := fadd (fadd _ _) _) in TR.
  assert (PAIR : forall x y, x * x + y * y + 0 <= 1 -> x * x + y * y <= 1) by (intros; lra).
  unfold quatOfG. fsc. cbv zeta. fold tr. change (@szero f32 FScalar) with (flit 0 1). destruct (flt (flit 0 1) tr) eqn:E0.
  - pose proof (near_lt _ _ _ _ _ _ Z0 TR E0) as L.
    assert (T : near (fadd (flit 1 1) tr) (4 * (a * a)) (2 / 100000)) by (eapply NE; [apply near_a; [exact I1|exact TR|apply Rabs_le; lra|lra|lra]|ring|lra]).
    destruct (branch _ a T ltac:(lra)) as [H0 H]. exists (sgn a). split; [unfold sgn; destruct (Rlt_dec a 0); lra|]. unfold nearV, qscale. cbn [q0 q1 q2 q3].
    split; [|split; [|split]].
    + rewrite sgn_abs. eapply near_weaken; [exact H0|lra].
    + apply H; [|lra]. eapply NE; [exact (SUB _ _ _ _ R21 R12 B21 B12)|ring|lra].
    + apply H; [|lra]. eapply NE; [exact (SUB _ _ _ _ R02 R20 B02 B20)|ring|lra].
    + apply H; [|lra]. eapply NE; [exact (SUB _ _ _ _ R10 R01 B10 B01)|ring|lra].
  - pose proof (near_ge _ _ _ _ _ _ Z0 TR E0) as L. destruct (flt (r 1%nat 1%nat) (r 0%nat 0%nat) && flt (r 2%nat 2%nat) (r 0%nat 0%nat))%bool eqn:E1.
    + apply andb_prop in E1. destruct E1 as [E1 E2]. pose proof (near_lt _ _ _ _ _ _ R11 R00 E1) as L1. pose proof (near_lt _ _ _ _ _ _ R22 R00 E2) as L2.
      assert (T : near (fsub (fsub (fadd (flit 1 1) (r 0%nat 0%nat)) (r 1%nat 1%nat)) (r 2%nat 2%nat)) (4 * (b * b)) (2 / 100000)).
      { eapply NE; [apply near_s; [apply near_s; [apply near_a; [exact I1|exact R00|apply Rabs_le; lra|lra|lra]|exact R11|apply Rabs_le; lra|lra|lra]|exact R22|apply Rabs_le; lra|lra|lra]|lra|lra]. }
      destruct (branch _ b T ltac:(lra)) as [H0 H]. exists (sgn b). split; [unfold sgn; destruct (Rlt_dec b 0); lra|]. unfold nearV, qscale. cbn [q0 q1 q2 q3].
      split; [|split; [|split]].
      * apply H; [|lra]. eapply NE; [exact (SUB _ _ _ _ R21 R12 B21 B12)|ring|lra].
      * rewrite sgn_abs. eapply near_weaken; [exact H0|lra].
      * apply H; [|lra]. eapply NE; [exact (ADD _ _ _ _ R10 R01 B10 B01)|ring|lra].
      * apply H; [|lra]. eapply NE; [exact (ADD _ _ _ _ R02 R20 B02 B20)|ring|lra].
    + assert (M : (a ^ 2 + b ^ 2 - c ^ 2 - d ^ 2 <= a ^ 2 - b ^ 2 + c ^ 2 - d ^ 2 + 8 / 1000000) \/ (a ^ 2 + b ^ 2 - c ^ 2 - d ^ 2 <= a ^ 2 - b ^ 2 - c ^ 2 + d ^ 2 + 8 / 1000000)).
      { apply Bool.andb_false_iff in E1. destruct E1 as [E1|E1]; [left; pose proof (near_ge _ _ _ _ _ _ R11 R00 E1)|right; pose proof (near_ge _ _ _ _ _ _ R22 R00 E1)]; lra. }
      destruct (flt (r 2%nat 2%nat) (r 1%nat 1%nat)) eqn:E2.
      * pose proof (near_lt _ _ _ _ _ _ R22 R11 E2) as L2.
        assert (T : near (fsub (fadd (fsub (flit 1 1) (r 0%nat 0%nat)) (r 1%nat 1%nat)) (r 2%nat 2%nat)) (4 * (c * c)) (2 / 100000)).
        { eapply NE; [apply near_s; [apply near_a; [apply near_s; [exact I1|exact R00|apply Rabs_le; lra|lra|lra]|exact R11|apply Rabs_le; lra|lra|lra]|exact R22|apply Rabs_le; lra|lra|lra]|lra|lra]. }
        destruct (branch _ c T ltac:(destruct M; lra)) as [H0 H]. exists (sgn c). split; [unfold sgn; destruct (Rlt_dec c 0); lra|]. unfold nearV, qscale. cbn [q0 q1 q2 q3].
        split; [|split; [|split]].
        -- apply H; [|lra]. eapply NE; [exact (SUB _ _ _ _ R02 R20 B02 B20)|ring|lra].
        -- apply H; [|lra]. eapply NE; [exact (ADD _ _ _ _ R10 R01 B10 B01)|ring|lra].
        -- rewrite sgn_abs. eapply near_weaken; [exact H0|lra].
        -- apply H; [|lra]. eapply NE; [exact (ADD _ _ _ _ R21 R12 B21 B12)|ring|lra].
      * pose proof (near_ge _ _ _ _ _ _ R22 R11 E2) as L2.
        assert (T : near (fadd (fsub (fsub (flit 1 1) (r 0%nat 0%nat)) (r 1%nat 1%nat)) (r 2%nat 2%nat)) (4 * (d * d)) (2 / 100000)).
        { eapply NE; [apply near_a; [apply near_s; [apply near_s; [exact I1|exact R00|apply Rabs_le; lra|lra|lra]|exact R11|apply Rabs_le; lra|lra|lra]|exact R22|apply Rabs_le; lra|lra|lra]|lra|lra]. }
        destruct (branch _ d T ltac:(destruct M; lra)) as [H0 H]. exists (sgn d). split; [unfold sgn; destruct (Rlt_dec d 0); lra|]. unfold nearV, qscale. cbn [q0 q1 q2 q3].
        split; [|split; [|split]].
        -- apply H; [|lra]. eapply NE; [exact (SUB _ _ _ _ R10 R01 B10 B01)|ring|lra].
        -- apply H; [|lra]. eapply NE; [exact (ADD _ _ _ _ R02 R20 B02 B20)|ring|lra].
        -- apply H; [|lra]. eapply NE; [exact (ADD _ _ _ _ R21 R12 B21 B12)|ring|lra].
        -- rewrite sgn_abs. eapply near_weaken; [exact H0|lra].
Qed.

(** ** The C library functions *)
Definition accurate (tsin tcos tasin : f32 -> f32) (tatan2 : f32 -> f32 -> f32) (pi2 : f32) : Prop :=
  (forall a, is_finite a = true -> Rabs (R32 a) <= 10 -> near (tsin a) (sin (R32 a)) (3 / 10000000) /\ near (tcos a) (cos (R32 a)) (3 / 10000000)) /\
  (forall a, is_finite a = true -> Rabs (R32 a) <= 1 -> near (tasin a) (asin (R32 a)) (3 / 10000000)) /\
  (forall a b, is_finite a = true -> is_finite b = true -> is_finite (tatan2 a b) = true /\ Rabs (R32 (tatan2 a b)) <= 4 /\
    (R32 a <> 0 \/ R32 b <> 0 -> near (tatan2 a b) (atan2 (R32 a) (R32 b)) (3 / 10000000))) /\
  near pi2 (PI / 2) (3 / 10000000).
Section Trig.
Variables (tsin tcos tasin : f32 -> f32) (tatan2 : f32 -> f32 -> f32) (pi2 : f32).
Hypothesis HA : accurate tsin tcos tasin tatan2 pi2.
Definition E6 : R := 6 / 10000000.
Lemma trig_near (p : f32) (x : R) : near p x (3 / 10000000) -> Rabs x <= 9 -> near (tsin p) (sin x) E6 /\ near (tcos p) (cos x) E6.
Proof.
  intros [F H] B. destruct HA as (H1 & _). assert (B10 : Rabs (R32 p) <= 10). { apply Rabs_le_inv in B, H. apply Rabs_le. lra. }
  destruct (H1 p F B10) as [[Fs Hs] [Fc Hc]]. pose proof (sin_lip (R32 p) x). pose proof (cos_lip (R32 p) x). unfold E6.
  split; (split; [assumption|]).
  - replace (R32 (tsin p) - sin x) with ((R32 (tsin p) - sin (R32 p)) + (sin (R32 p) - sin x)) by ring. eapply Rle_trans; [apply Rabs_triang|lra].
  - replace (R32 (tcos p) - cos x) with ((R32 (tcos p) - cos (R32 p)) + (cos (R32 p) - cos x)) by ring. eapply Rle_trans; [apply Rabs_triang|lra].
Qed.
Lemma m2 a b ra rb : near a ra E6 -> near b rb E6 -> Rabs ra <= 1 -> Rabs rb <= 1 -> near (fmul a b) (ra * rb) (14 / 10000000) /\ Rabs (ra * rb) <= 1.
Proof.
  intros A B Ha Hb. split; [eapply near_weaken; [apply (near_m _ _ _ _ _ _ A B); unfold E6; lra|unfold E6; lra]|]. rewrite Rabs_mult. pose proof (Rabs_pos ra). pose proof (Rabs_pos rb). nra.
Qed.
Lemma m3 a b c ra rb rc : near a ra E6 -> near b rb E6 -> near c rc E6 -> Rabs ra <= 1 -> Rabs rb <= 1 -> Rabs rc <= 1 -> near (fmul (fmul a b) c) (ra * rb * rc) (22 / 10000000) /\ Rabs (ra * rb * rc) <= 1.
Proof.
  intros A B C Ha Hb Hc. destruct (m2 a b ra rb A B Ha Hb) as [D Hd]. split; [eapply near_weaken; [apply (near_m _ _ _ _ _ _ D C); unfold E6; lra|unfold E6; lra]|]. rewrite Rabs_mult. pose proof (Rabs_pos (ra * rb)). pose proof (Rabs_pos rc). nra.
Qed.
Lemma s23 x y rx ry e1 e2 : near x rx e1 -> near y ry e2 -> Rabs rx <= 1 -> Rabs ry <= 1 -> e1 + e2 <= 36 / 10000000 -> near (fadd x y) (rx + ry) (4 / 1000000) /\ near (fsub x y) (rx - ry) (4 / 1000000).
Proof.
  intros X Y Hx Hy E. pose proof (near_eps _ _ _ X). pose proof (near_eps _ _ _ Y). apply Rabs_le_inv in Hx, Hy.
  split; (eapply near_weaken; [first [apply near_a|apply near_s]; [exact X|exact Y|apply Rabs_le; lra|lra|lra]|lra]).
Qed.
Lemma n1 a ra e : near a ra e -> e <= 4 / 1000000 -> near a ra (4 / 1000000). Proof. intros A B. exact (near_weaken _ _ _ _ A B). Qed.
Lemma abs_neg x : Rabs x <= 1 -> Rabs (- x) <= 1. Proof. rewrite Rabs_Ropp. auto. Qed.
Ltac entry := first
  [ (refine (proj2 (s23 _ _ _ _ _ _ (proj1 (m2 _ _ _ _ _ _ _ _)) (proj1 (m3 _ _ _ _ _ _ _ _ _ _ _ _)) (proj2 (m2 _ _ _ _ _ _ _ _)) (proj2 (m3 _ _ _ _ _ _ _ _ _ _ _ _)) _)); first [eassumption|apply near_neg; eassumption|apply abs_neg; eassumption|lra])
  | (refine (proj1 (s23 _ _ _ _ _ _ (proj1 (m2 _ _ _ _ _ _ _ _)) (proj1 (m3 _ _ _ _ _ _ _ _ _ _ _ _)) (proj2 (m2 _ _ _ _ _ _ _ _)) (proj2 (m3 _ _ _ _ _ _ _ _ _ _ _ _)) _)); first [eassumption|apply near_neg; eassumption|apply abs_neg; eassumption|lra])
  | (eapply n1; [eassumption|unfold E6; lra])
  | (eapply n1; [apply near_neg; eassumption|unfold E6; lra])
  | (eapply n1; [refine (proj1 (m2 _ _ _ _ _ _ _ _)); first [eassumption|apply near_neg; eassumption|apply abs_neg; eassumption]|lra]) ].
Lemma rot312_near (yaw roll pitch : f32) (y r p : R) : near yaw y (3 / 10000000) -> near roll r (3 / 10000000) -> near pitch p (3 / 10000000) ->
  Rabs y <= 9 -> Rabs r <= 9 -> Rabs p <= 9 -> nearM (rot312G tsin tcos yaw roll pitch) (taitBryan312ToRotMat y r p) (4 / 1000000).
Proof.
  intros A B C Ha Hb Hc. destruct (trig_near _ _ A Ha) as [S0 C0]. destruct (trig_near _ _ B Hb) as [S1 C1]. destruct (trig_near _ _ C Hc) as [S2 C2].
  pose proof (sin_1 y). pose proof (cos_1 y). pose proof (sin_1 r). pose proof (cos_1 r). pose proof (sin_1 p). pose proof (cos_1 p).
  set (s0 := sin y) in *. set (c0 := cos y) in *. set (s1 := sin r) in *. set (c1 := cos r) in *. set (s2 := sin p) in *. set (c2 := cos p) in *.
  unfold nearM, rot312G, taitBryan312ToRotMat. fsc. cbn [m00 m01 m02 m10 m11 m12 m20 m21 m22]. fold s0 c0 s1 c1 s2 c2. clearbody s0 c0 s1 c1 s2 c2.
  refine (conj (conj _ (conj _ _)) (conj (conj _ (conj _ _)) (conj _ (conj _ _)))); entry.
Qed.
Lemma rot321_near (roll pitch yaw : f32) (r p y : R) : near roll r (3 / 10000000) -> near pitch p (3 / 10000000) -> near yaw y (3 / 10000000) ->
  Rabs r <= 9 -> Rabs p <= 9 -> Rabs y <= 9 -> nearM (rot321G tsin tcos roll pitch yaw) (dcm321 r p y) (4 / 1000000).
Proof.
  intros A B C Ha Hb Hc. destruct (trig_near _ _ A Ha) as [S0 C0]. destruct (trig_near _ _ B Hb) as [S1 C1]. destruct (trig_near _ _ C Hc) as [S2 C2].
  pose proof (sin_1 r). pose proof (cos_1 r). pose proof (sin_1 p). pose proof (cos_1 p). pose proof (sin_1 y). pose proof (cos_1 y).
  set (s0 := sin r) in *. set (c0 := cos r) in *. set (s1 := sin p) in *. set (c1 := cos p) in *. set (s2 := sin y) in *. set (c2 := cos y) in *.
  unfold nearM, rot321G, dcm321. fsc. cbn [m00 m01 m02 m10 m11 m12 m20 m21 m22]. fold s0 c0 s1 c1 s2 c2. clearbody s0 c0 s1 c1 s2 c2.
  refine (conj (conj _ (conj _ _)) (conj (conj _ (conj _ _)) (conj _ (conj _ _)))); entry.
Qed.

(** ** The angles of the old attitude *)
(** third row of the matrix given, as reals *)
Lemma asin_small x : Rabs x <= 71 / 100 -> -9 / 10 <= asin x <= 9 / 10.
Proof.
  intros H. apply Rabs_le_inv in H.
  assert (S : 71 / 100 <= sin (9 / 10)). { pose proof (sin_lb_ge_0 (9/10)). assert (L : sin_lb (9 / 10) <= sin (9 / 10)) by (apply SIN; pose proof PI2_1; lra). eapply Rle_trans; [|exact L]. unfold sin_lb, sin_approx, sin_term. cbn. lra. }
  pose proof (asin_bound x). pose proof PI2_1. split.
  - destruct (Rle_dec (-9 / 10) (asin x)) as [|N]; [assumption|exfalso]. assert (sin (asin x) < sin (-9 / 10)) by (apply sin_increasing_1; lra).
    rewrite sin_asin in H2 by lra. replace (-9 / 10) with (- (9 / 10)) in H2 by field. rewrite sin_neg in H2. lra.
  - destruct (Rle_dec (asin x) (9 / 10)) as [|N]; [assumption|exfalso]. assert (sin (9 / 10) < sin (asin x)) by (apply sin_increasing_1; lra).
    rewrite sin_asin in H2 by lra. lra.
Qed.
(** the tilt of the rebuilt matrix: [A B C] nearly of unit length, |B| at most |A| *)
Lemma tilt_rebuilt A B C s : Rabs (A * A + B * B + C * C - 1) <= s -> s <= / 1000 -> B * B <= A * A ->
  let c := cos (asin B) in let t := atan2 (- A) C in
  sin (asin B) = B /\ 7 / 10 <= c <= 1 /\ Rabs (- sin t * c - A) <= 3 / 4 * s /\ Rabs (cos t * c - C) <= 3 / 4 * s /\ (A <> 0 \/ C <> 0) /\ Rabs B <= 71 / 100.
Proof.
  intros HS S1 AB. cbv zeta. pose proof (Rle_0_sqr C) as C2. pose proof (Rle_0_sqr A) as A2. pose proof (Rle_0_sqr B) as B2. unfold Rsqr in *. apply Rabs_le_inv in HS.
  assert (BB : B * B <= 5041 / 10000) by (pose proof (Rle_0_sqr C); unfold Rsqr in *; lra).
  assert (BL : -1 <= B <= 1) by (split; nra).
  assert (B71 : Rabs B <= 71 / 100). { apply Rabs_le. split; nra. }
  assert (AC : 98 / 100 - 5041 / 10000 <= A * A + C * C) by lra.
  assert (NZ : A <> 0 \/ C <> 0). { destruct (Req_dec A 0) as [->|]; [right|left; assumption]. intros ->. lra. }
  destruct (atan2_polar (- A) C) as (P & Pc & Ps); [destruct NZ; [right; lra|left; assumption]|].
  replace (C * C + - A * - A) with (A * A + C * C) in P, Pc, Ps by ring. set (h := sqrt (A * A + C * C)) in *.
  assert (HH : h * h = A * A + C * C) by (apply sqrt_sqrt; lra).
  assert (HL : 68 / 100 <= h) by nra.
  set (t := atan2 (- A) C) in *. set (st := sin t) in *. set (ct := cos t) in *.
  assert (CC : cos (asin B) = sqrt (1 - B²)) by (apply cos_asin; exact BL).
  rewrite CC. unfold Rsqr. set (c := sqrt (1 - B * B)). assert (cc : c * c = 1 - B * B) by (apply sqrt_sqrt; lra). assert (c0 : 0 <= c) by apply sqrt_pos.
  assert (cb : 7 / 10 <= c <= 1) by (split; nra).
  assert (D : Rabs (c - h) <= 3 / 4 * s).
  { assert (Q : (c - h) * (c + h) = - (A * A + B * B + C * C - 1)) by (replace ((c - h) * (c + h)) with (c * c - h * h) by ring; rewrite cc, HH; ring).
    apply Rabs_le. split; nra. }
  assert (S1' : Rabs st <= 1) by apply sin_1. assert (C1' : Rabs ct <= 1) by apply cos_1.
  split; [apply sin_asin; exact BL|]. split; [exact cb|]. split; [|split; [|split; [exact NZ|exact B71]]].
  - replace (- st * c - A) with (- st * (c - h)) by (replace A with (- (h * st)) by lra; ring). rewrite Rabs_mult, Rabs_Ropp. pose proof (Rabs_pos (c - h)). pose proof (Rabs_pos st). nra.
  - replace (ct * c - C) with (ct * (c - h)) by (rewrite <- Pc; ring). rewrite Rabs_mult. pose proof (Rabs_pos (c - h)). pose proof (Rabs_pos ct). nra.
Qed.

(** ** The matrix of a float quaternion *)
Definition qr (x : Vec f32) : Q4 := mkQ (R32 (x 0%nat)) (R32 (x 1%nat)) (R32 (x 2%nat)) (R32 (x 3%nat)).
Lemma norm_bounds (q : Q4) s : Rabs (qnorm2 q - 1) <= s -> s <= / 1000 -> Rabs (q0 q) <= 101 / 100 /\ Rabs (q1 q) <= 101 / 100 /\ Rabs (q2 q) <= 101 / 100 /\ Rabs (q3 q) <= 101 / 100.
Proof. intros H L. unfold qnorm2 in H. apply Rabs_le_inv in H. repeat split; apply Rabs_le; split; nra. Qed.
Lemma dcmv_near (x : Vec f32) : (forall k, (k < 4)%nat -> is_finite (x k) = true) -> Rabs (qnorm2 (qr x) - 1) <= / 1000 -> nearM (dcmv x) (dcm (qr x)) (2 / 1000000).
Proof.
  intros F N. destruct (norm_bounds _ _ N ltac:(lra)) as (B0 & B1 & B2 & B3). unfold qr in *. cbn [q0 q1 q2 q3] in *.
  pose proof (near_exact _ (F 0%nat ltac:(lia))) as X0. pose proof (near_exact _ (F 1%nat ltac:(lia))) as X1. pose proof (near_exact _ (F 2%nat ltac:(lia))) as X2. pose proof (near_exact _ (F 3%nat ltac:(lia))) as X3.
  unfold qnorm2 in N. cbn [q0 q1 q2 q3] in N. unfold nearM, dcmv, dcm. fsc. cbn [q0 q1 q2 q3 m00 m01 m02 m10 m11 m12 m20 m21 m22].
  set (a := R32 (x 0%nat)) in *. set (b := R32 (x 1%nat)) in *. set (c := R32 (x 2%nat)) in *. set (d := R32 (x 3%nat)) in *. clearbody a b c d. clear F.
  apply Rabs_le_inv in N.
  assert (SQ : 0 <= a * a /\ 0 <= b * b /\ 0 <= c * c /\ 0 <= d * d) by (repeat split; apply Rle_0_sqr). destruct SQ as (SA & SB & SC & SD).
  assert (N' : a * a + b * b + c * c + d * d <= 1001 / 1000) by lra. clear N.
  assert (MM : forall u v ru rv, near u ru 0 -> near v rv 0 -> Rabs ru <= 101 / 100 -> Rabs rv <= 101 / 100 -> near (fmul u v) (ru * rv) (/ 10000000)).
  { intros u v ru rv U V Bu Bv. eapply near_weaken; [apply (near_m _ _ _ _ _ _ U V Bu Bv); lra|lra]. }
  assert (PR : forall u v, u * u + v * v <= 1001 / 1000 -> -52 / 100 <= u * v <= 52 / 100).
  { intros u v H. pose proof (Rle_0_sqr (u - v)). pose proof (Rle_0_sqr (u + v)). unfold Rsqr in *. split; lra. }
  assert (NE : forall (y : f32) (r r' e e' : R), near y r e -> r = r' -> e <= e' -> near y r' e') by (intros y r1 r2 e e' H -> L; exact (near_weaken _ _ _ _ H L)).
  assert (ON : forall u v w z ru rv rw rz, near u ru 0 -> near v rv 0 -> near w rw 0 -> near z rz 0 ->
     Rabs ru <= 101 / 100 -> Rabs rv <= 101 / 100 -> Rabs rw <= 101 / 100 -> Rabs rz <= 101 / 100 -> ru * ru + rv * rv + rw * rw + rz * rz <= 1001 / 1000 ->
     near (fmul (flit 2 1) (fsub (fmul u v) (fmul w z))) (2 * (ru * rv - rw * rz)) (2 / 1000000) /\ near (fmul (flit 2 1) (fadd (fmul u v) (fmul w z))) (2 * (ru * rv + rw * rz)) (2 / 1000000)).
  { intros u v w z ru rv rw rz U V W Z Bu Bv Bw Bz S.
    assert (Q : 0 <= ru * ru /\ 0 <= rv * rv /\ 0 <= rw * rw /\ 0 <= rz * rz) by (repeat split; apply Rle_0_sqr). destruct Q as (Q1 & Q2 & Q3 & Q4').
    pose proof (Rle_0_sqr (ru - rv)) as Y1. pose proof (Rle_0_sqr (ru + rv)) as Y2. pose proof (Rle_0_sqr (rw - rz)) as Y3. pose proof (Rle_0_sqr (rw + rz)) as Y4. unfold Rsqr in *.
    pose proof (near_int 2 ltac:(lia)) as I2.
    split.
    - assert (D : near (fsub (fmul u v) (fmul w z)) (ru * rv - rw * rz) (5 / 10000000)).
      { eapply near_weaken; [apply near_s; [apply MM; eassumption|apply MM; eassumption|apply Rabs_le; lra|lra|lra]|lra]. }
      apply (near_mul (flit 2 1) _ 2 _ 0 (5 / 10000000) (1 / 1000000) 2 _ I2 D); [rewrite (Rabs_right 2) by lra; lra| |unfold huge; lra|unfold ulp1, tiny; lra].
      rewrite Rabs_mult, (Rabs_right 2) by lra. assert (Rabs (ru * rv - rw * rz) <= 51 / 100) by (apply Rabs_le; lra). lra.
    - assert (D : near (fadd (fmul u v) (fmul w z)) (ru * rv + rw * rz) (5 / 10000000)).
      { eapply near_weaken; [apply near_a; [apply MM; eassumption|apply MM; eassumption|apply Rabs_le; lra|lra|lra]|lra]. }
      apply (near_mul (flit 2 1) _ 2 _ 0 (5 / 10000000) (1 / 1000000) 2 _ I2 D); [rewrite (Rabs_right 2) by lra; lra| |unfold huge; lra|unfold ulp1, tiny; lra].
      rewrite Rabs_mult, (Rabs_right 2) by lra. assert (Rabs (ru * rv + rw * rz) <= 51 / 100) by (apply Rabs_le; lra). lra. }
  pose proof (MM _ _ _ _ X0 X0 B0 B0) as P0. pose proof (MM _ _ _ _ X1 X1 B1 B1) as P1. pose proof (MM _ _ _ _ X2 X2 B2 B2) as P2. pose proof (MM _ _ _ _ X3 X3 B3 B3) as P3.
  destruct (ON _ _ _ _ _ _ _ _ X1 X2 X0 X3 B1 B2 B0 B3 ltac:(lra)) as [R01 R10]. destruct (ON _ _ _ _ _ _ _ _ X1 X3 X0 X2 B1 B3 B0 B2 ltac:(lra)) as [R20 R02].
  destruct (ON _ _ _ _ _ _ _ _ X2 X3 X0 X1 B2 B3 B0 B1 ltac:(lra)) as [R12 R21].
  refine (conj (conj _ (conj _ _)) (conj (conj _ (conj _ _)) (conj _ (conj _ _)))); try assumption.
  - eapply NE; [apply near_s; [apply near_s; [apply near_a; [exact P0|exact P1|apply Rabs_le; lra|lra|lra]|exact P2|apply Rabs_le; lra|lra|lra]|exact P3|apply Rabs_le; lra|lra|lra]|ring|lra].
  - eapply NE; [apply near_s; [apply near_a; [apply near_s; [exact P0|exact P1|apply Rabs_le; lra|lra|lra]|exact P2|apply Rabs_le; lra|lra|lra]|exact P3|apply Rabs_le; lra|lra|lra]|ring|lra].
  - eapply NE; [apply near_a; [apply near_s; [apply near_s; [exact P0|exact P1|apply Rabs_le; lra|lra|lra]|exact P2|apply Rabs_le; lra|lra|lra]|exact P3|apply Rabs_le; lra|lra|lra]|ring|lra].
Qed.

(** ** A rotation matrix is the matrix of a unit quaternion *)
Definition qx (a : R) : Q4 := mkQ (cos (a / 2)) (sin (a / 2)) 0 0.
Definition qy (a : R) : Q4 := mkQ (cos (a / 2)) 0 (sin (a / 2)) 0.
Lemma dcm_qx a : dcm (qx a) = Rx a.
Proof.
  unfold dcm, qx, Rx. cbn [q0 q1 q2 q3]. pose proof (sc (a / 2)) as Z.
  assert (C : cos a = cos (a / 2) * cos (a / 2) - sin (a / 2) * sin (a / 2)) by (replace a with (2 * (a / 2)) at 1 by field; apply cos_2a).
  assert (S : sin a = 2 * sin (a / 2) * cos (a / 2)) by (replace a with (2 * (a / 2)) at 1 by field; apply sin_2a).
  rewrite C, S. f_equal; nra.
Qed.
Lemma dcm_qy a : dcm (qy a) = Ry a.
Proof.
  unfold dcm, qy, Ry. cbn [q0 q1 q2 q3]. pose proof (sc (a / 2)) as Z.
  assert (C : cos a = cos (a / 2) * cos (a / 2) - sin (a / 2) * sin (a / 2)) by (replace a with (2 * (a / 2)) at 1 by field; apply cos_2a).
  assert (S : sin a = 2 * sin (a / 2) * cos (a / 2)) by (replace a with (2 * (a / 2)) at 1 by field; apply sin_2a).
  rewrite C, S. f_equal; nra.
Qed.
Lemma qx_unit a : qnorm2 (qx a) = 1. Proof. unfold qnorm2, qx. cbn [q0 q1 q2 q3]. pose proof (sc (a / 2)). nra. Qed.
Lemma qy_unit a : qnorm2 (qy a) = 1. Proof. unfold qnorm2, qy. cbn [q0 q1 q2 q3]. pose proof (sc (a / 2)). nra. Qed.
Lemma qmul_norm a b : qnorm2 (qmul a b) = qnorm2 a * qnorm2 b. Proof. georing. Qed.
Lemma quat312 y r p : exists w, qnorm2 w = 1 /\ dcm w = taitBryan312ToRotMat y r p.
Proof.
  exists (qmul (qz y) (qmul (qx r) (qy p))). split; [rewrite !qmul_norm, qz_unit, qx_unit, qy_unit; ring|]. rewrite !dcm_mul, dcm_qz, dcm_qx, dcm_qy, tb312_product. reflexivity.
Qed.
Lemma quat321 r p y : exists w, qnorm2 w = 1 /\ dcm w = dcm321 r p y.
Proof.
  exists (qmul (qz y) (qmul (qy p) (qx r))). split; [rewrite !qmul_norm, qz_unit, qx_unit, qy_unit; ring|]. rewrite !dcm_mul, dcm_qz, dcm_qx, dcm_qy, dcm321_product. reflexivity.
Qed.
(** ** The matrix of a quaternion near a unit quaternion *)
Definition closeM (a b : M3) (e : R) : Prop :=
  (Rabs (m00 a - m00 b) <= e /\ Rabs (m01 a - m01 b) <= e /\ Rabs (m02 a - m02 b) <= e) /\
  (Rabs (m10 a - m10 b) <= e /\ Rabs (m11 a - m11 b) <= e /\ Rabs (m12 a - m12 b) <= e) /\
  (Rabs (m20 a - m20 b) <= e /\ Rabs (m21 a - m21 b) <= e /\ Rabs (m22 a - m22 b) <= e).
Lemma near_unit (v : Vec f32) (w : Q4) c : qnorm2 w = 1 -> (c = 1 \/ c = -1) -> nearV v (qscale c w) (4 / 100000) ->
  (forall k, (k < 4)%nat -> is_finite (v k) = true) /\ Rabs (qnorm2 (qr v) - 1) <= 2 / 10000 /\ closeM (dcm (qr v)) (dcm w) (2 / 10000).
Proof.
  intros N C ((F0 & H0) & (F1 & H1) & (F2 & H2) & (F3 & H3)).
  split; [intros k Hk; destruct k as [|[|[|[|k]]]]; try assumption; lia|].
  assert (W : dcm w = dcm (qscale c w) /\ qnorm2 (qscale c w) = 1).
  { destruct C as [-> | ->]; (split; [georing|transitivity (qnorm2 w); [georing|exact N]]). }
  destruct W as [-> N']. clear N. set (u := qscale c w) in *. clearbody u. clear w c C. destruct u as [a b d e]. unfold qr, qnorm2, closeM, dcm in *. cbn [q0 q1 q2 q3 m00 m01 m02 m10 m11 m12 m20 m21 m22] in *.
  set (a' := R32 (v 0%nat)) in *. set (b' := R32 (v 1%nat)) in *. set (d' := R32 (v 2%nat)) in *. set (e' := R32 (v 3%nat)) in *. clearbody a' b' d' e'.
  assert (N2 : a * a + b * b + d * d + e * e = 1) by lra. clear N'.
  (* sum of absolute values at most 2 *)
  assert (S2 : Rabs a + Rabs b + Rabs d + Rabs e <= 2).
  { assert (Qa : forall x, Rabs x * Rabs x = x * x) by (intros x; rewrite <- Rabs_mult; apply Rabs_right, Rle_ge, Rle_0_sqr).
    pose proof (Qa a). pose proof (Qa b). pose proof (Qa d). pose proof (Qa e).
    pose proof (Rle_0_sqr (Rabs a - 1 / 2)). pose proof (Rle_0_sqr (Rabs b - 1 / 2)). pose proof (Rle_0_sqr (Rabs d - 1 / 2)). pose proof (Rle_0_sqr (Rabs e - 1 / 2)). unfold Rsqr in *. lra. }
  replace a' with (a + (a' - a)) by ring. replace b' with (b + (b' - b)) by ring. replace d' with (d + (d' - d)) by ring. replace e' with (e + (e' - e)) by ring.
  set (x := a' - a) in *. set (y := b' - b) in *. set (z := d' - d) in *. set (t := e' - e) in *. clearbody x y z t. clear a' b' d' e'.
  assert (PB : forall p q, Rabs q <= 4 / 100000 -> Rabs (p * q) <= 4 / 100000 * Rabs p) by (intros p q H; rewrite Rabs_mult; pose proof (Rabs_pos p); nra).
  assert (QB : forall p q, Rabs p <= 4 / 100000 -> Rabs q <= 4 / 100000 -> Rabs (p * q) <= 16 / 10000000000) by (intros p q H I; rewrite Rabs_mult; pose proof (Rabs_pos p); pose proof (Rabs_pos q); nra).
  pose proof (Rabs_pos a). pose proof (Rabs_pos b). pose proof (Rabs_pos d). pose proof (Rabs_pos e).
  assert (PI' : forall p q, Rabs q <= 4 / 100000 -> - (4 / 100000 * Rabs p) <= p * q <= 4 / 100000 * Rabs p) by (intros p q H'; apply Rabs_le_inv, PB, H').
  assert (QI : forall p q, Rabs p <= 4 / 100000 -> Rabs q <= 4 / 100000 -> - (16 / 10000000000) <= p * q <= 16 / 10000000000) by (intros p q H' I'; apply Rabs_le_inv, QB; assumption).
  pose proof (PI' a x H0). pose proof (PI' a y H1). pose proof (PI' a z H2). pose proof (PI' a t H3).
  pose proof (PI' b x H0). pose proof (PI' b y H1). pose proof (PI' b z H2). pose proof (PI' b t H3).
  pose proof (PI' d x H0). pose proof (PI' d y H1). pose proof (PI' d z H2). pose proof (PI' d t H3).
  pose proof (PI' e x H0). pose proof (PI' e y H1). pose proof (PI' e z H2). pose proof (PI' e t H3).
  pose proof (QI x x H0 H0). pose proof (QI x y H0 H1). pose proof (QI x z H0 H2). pose proof (QI x t H0 H3). pose proof (QI y y H1 H1).
  pose proof (QI y z H1 H2). pose proof (QI y t H1 H3). pose proof (QI z z H2 H2). pose proof (QI z t H2 H3). pose proof (QI t t H3 H3).
  clear PB QB PI' QI F0 F1 F2 F3 H0 H1 H2 H3.
  split; [apply Rabs_le; lra|].
  refine (conj (conj _ (conj _ _)) (conj (conj _ (conj _ _)) (conj _ (conj _ _)))); apply Rabs_le; split; lra.
Qed.

Lemma row2_norm q : m20 (dcm q) * m20 (dcm q) + m21 (dcm q) * m21 (dcm q) + m22 (dcm q) * m22 (dcm q) = qnorm2 q * qnorm2 q.
Proof. destruct q as [a b c d]. unfold dcm, qnorm2. cbn [q0 q1 q2 q3 m20 m21 m22]. ring. Qed.
Lemma sq_near a b e M : Rabs (a - b) <= e -> Rabs b <= M -> e <= 1 -> Rabs (a * a - b * b) <= e * (2 * M + 1).
Proof.
  intros H B E. replace (a * a - b * b) with ((a - b) * ((a - b) + 2 * b)) by ring. rewrite Rabs_mult.
  assert (Rabs ((a - b) + 2 * b) <= 1 + 2 * M). { eapply Rle_trans; [apply Rabs_triang|]. rewrite Rabs_mult, (Rabs_right 2) by lra. lra. }
  pose proof (Rabs_pos (a - b)). pose proof (Rabs_pos ((a - b) + 2 * b)). nra.
Qed.
Lemma atan_arg y x : Rabs (atan2 y x) <= 9.
Proof. pose proof (atan2_range y x). pose proof PI_4. apply Rabs_le. lra. Qed.
Lemma near_flt_abs (a b : f32) : is_finite a = true -> is_finite b = true -> (flt (fabs a) (fabs b) = true -> R32 a * R32 a <= R32 b * R32 b) /\ (flt (fabs a) (fabs b) = false -> R32 b * R32 b <= R32 a * R32 a).
Proof.
  intros Fa Fb. destruct (fabs_R a) as [Ea Ga]. destruct (fabs_R b) as [Eb Gb]. rewrite flt_R by (rewrite ?Ga, ?Gb; assumption). rewrite Ea, Eb.
  assert (Q : forall x y, Rabs x <= Rabs y -> x * x <= y * y) by (intros x y H; apply Rsqr_le_abs_1 in H; exact H).
  destruct (Rlt_bool_spec (Rabs (R32 a)) (Rabs (R32 b))); split; intros X; try discriminate; apply Q; lra.
Qed.
Lemma near_milli : near (flit 1 1000) (1 / 1000) (1 / 10000000).
Proof.
  destruct (flit_R 1 1000 ltac:(lia) ltac:(lia)) as [E F]. split; [exact F|]. rewrite E.
  destruct (rnd_near (IZR 1 / IZR 1000) 1) as [H _]; [rewrite Rabs_right; lra|unfold huge; lra|]. unfold ulp1, tiny in H. lra.
Qed.
Lemma fabs_small (a : f32) r e : near a r e -> e <= / 100 -> 9 / 100 <= Rabs r -> flt (fabs a) (slit 1 1000) = false.
Proof.
  intros [F H] E L. change (@slit f32 FScalar 1 1000) with (flit 1 1000). destruct (fabs_R a) as [EA GA]. pose proof near_milli as [FM HM]. rewrite flt_R by (rewrite ?GA; assumption). rewrite EA.
  apply Rabs_le_inv in HM. destruct (Rlt_bool_spec (Rabs (R32 a)) (R32 (flit 1 1000))) as [X|]; [|reflexivity]. exfalso.
  pose proof (Rabs_triang_inv r (r - R32 a)) as T. replace (r - (r - R32 a)) with (R32 a) in T by ring. rewrite (Rabs_minus_sym r (R32 a)) in T. lra.
Qed.
Lemma not_vertical (p : f32) x : near p x (3 / 10000000) -> -9 / 10 <= x <= 9 / 10 -> near pi2 (PI / 2) (3 / 10000000) -> flt (fabs (fsub p pi2)) (slit 1 1000) = false.
Proof.
  intros P X Q. pose proof PI2_1. pose proof PI_4. apply (fabs_small _ (x - PI / 2) (1 / 1000)); [|lra|rewrite Rabs_left; lra].
  eapply near_weaken; [apply (near_s _ _ _ _ _ _ P Q); [apply Rabs_le; lra|lra|lra]|lra].
Qed.
Lemma not_vertical' (p : f32) x : near p x (3 / 10000000) -> -9 / 10 <= x <= 9 / 10 -> near pi2 (PI / 2) (3 / 10000000) -> flt (fabs (fadd p pi2)) (slit 1 1000) = false.
Proof.
  intros P X Q. pose proof PI2_1. pose proof PI_4. apply (fabs_small _ (x + PI / 2) (1 / 1000)); [|lra|rewrite Rabs_right; lra].
  eapply near_weaken; [apply (near_a _ _ _ _ _ _ P Q); [apply Rabs_le; lra|lra|lra]|lra].
Qed.
Theorem yawReset_float (yaw : f32) (x : Vec f32) s : is_finite yaw = true -> Rabs (R32 yaw) <= 9 -> (forall k, (k < 4)%nat -> is_finite (x k) = true) ->
  Rabs (qnorm2 (qr x) - 1) <= s -> s <= / 4000 ->
  let x' := yawResetG tsin tcos tasin tatan2 pi2 yaw x in let m := dcm (qr x) in let m' := dcm (qr x') in
  (forall k, (k < 4)%nat -> is_finite (x' k) = true) /\ Rabs (qnorm2 (qr x') - 1) <= 1 / 4000 /\
  (Rabs (m20 m' - m20 m) <= 2 * s + 1 / 4000 /\ Rabs (m21 m' - m21 m) <= 2 * s + 1 / 4000 /\ Rabs (m22 m' - m22 m) <= 2 * s + 1 / 4000) /\
  exists c, 7 / 10 <= c <= 1 /\
    ((m20 m * m20 m <= m21 m * m21 m + 2 / 100000 /\ Rabs (m00 m' - c * cos (R32 yaw)) <= 1 / 4000 /\ Rabs (m10 m' - c * sin (R32 yaw)) <= 1 / 4000) \/
     (m21 m * m21 m <= m20 m * m20 m + 2 / 100000 /\ Rabs (m11 m' - c * cos (R32 yaw)) <= 1 / 4000 /\ Rabs (- m01 m' - c * sin (R32 yaw)) <= 1 / 4000)).
Proof.
  intros FY BY FX HN HS. cbv zeta. set (m := dcm (qr x)).
  pose proof (dcmv_near x FX ltac:(lra)) as (_ & _ & ((G0 & H0) & (G1 & H1) & (G2 & H2))). fold m in H0, H1, H2.
  set (A := R32 (dcmv x 2%nat 0%nat)) in *. set (B := R32 (dcmv x 2%nat 1%nat)) in *. set (C := R32 (dcmv x 2%nat 2%nat)) in *.
  assert (S0 : 0 <= s) by (pose proof (Rabs_pos (qnorm2 (qr x) - 1)); lra).
  assert (RN : Rabs (m20 m * m20 m + m21 m * m21 m + m22 m * m22 m - 1) <= 201 / 100 * s).
  { unfold m. rewrite row2_norm. set (n := qnorm2 (qr x)) in *. replace (n * n - 1) with ((n - 1) * ((n - 1) + 2)) by ring. rewrite Rabs_mult. apply Rabs_le_inv in HN as HN'. assert (Rabs (n - 1 + 2) <= 201 / 100) by (apply Rabs_le; lra). pose proof (Rabs_pos (n - 1)). pose proof (Rabs_pos (n - 1 + 2)). nra. }
  assert (MB : Rabs (m20 m) <= 101 / 100 /\ Rabs (m21 m) <= 101 / 100 /\ Rabs (m22 m) <= 101 / 100) by (apply Rabs_le_inv in RN; repeat split; apply Rabs_le; split; nra).
  destruct MB as (M0 & M1 & M2).
  pose proof (sq_near _ _ _ _ H0 M0 ltac:(lra)) as Q0. pose proof (sq_near _ _ _ _ H1 M1 ltac:(lra)) as Q1. pose proof (sq_near _ _ _ _ H2 M2 ltac:(lra)) as Q2.
  apply Rabs_le_inv in RN. apply Rabs_le_inv in Q0. apply Rabs_le_inv in Q1. apply Rabs_le_inv in Q2.
  assert (T : Rabs (A * A + B * B + C * C - 1) <= 201 / 100 * s + 2 / 100000) by (apply Rabs_le; split; lra).
  assert (T' : Rabs (A * A + C * C + B * B - 1) <= 201 / 100 * s + 2 / 100000) by (replace (A * A + C * C + B * B - 1) with (A * A + B * B + C * C - 1) by ring; exact T).
  destruct HA as (_ & Has & Hat0 & Hpi).
  assert (Hat : forall a b, is_finite a = true -> is_finite b = true -> R32 a <> 0 \/ R32 b <> 0 -> near (tatan2 a b) (atan2 (R32 a) (R32 b)) (3 / 10000000)) by (intros a b Fa Fb; apply (Hat0 a b Fa Fb)). clear Hat0.
  pose proof (near_flt_abs _ _ G0 G1) as [LT GE]. fold A B in LT, GE.
  assert (NY : near yaw (R32 yaw) (3 / 10000000)) by (eapply near_weaken; [apply near_exact; exact FY|lra]).
  assert (AB : forall u v w e1 e2 e3, Rabs (u - v) <= e1 -> Rabs (v - w) <= e2 -> e1 + e2 <= e3 -> Rabs (u - w) <= e3).
  { intros u v w e1 e2 e3 U V L. replace (u - w) with ((u - v) + (v - w)) by ring. eapply Rle_trans; [apply Rabs_triang|lra]. }
  assert (QK : forall k, (k < 4)%nat -> yawResetG tsin tcos tasin tatan2 pi2 yaw x k = quatOfG (updateYawG tsin tcos tasin tatan2 pi2 yaw (dcmv x)) k).
  { intros k Hk. unfold yawResetG. cbv zeta. apply Nat.ltb_lt in Hk. rewrite Hk. reflexivity. }
  assert (QR : qr (yawResetG tsin tcos tasin tatan2 pi2 yaw x) = qr (quatOfG (updateYawG tsin tcos tasin tatan2 pi2 yaw (dcmv x)))) by (unfold qr; rewrite !QK by lia; reflexivity).
  rewrite QR.
  (* the rotation that is represented *)
  assert (MAIN : exists w c, qnorm2 w = 1 /\ nearM (updateYawG tsin tcos tasin tatan2 pi2 yaw (dcmv x)) (dcm w) (4 / 1000000) /\
     (Rabs (m20 (dcm w) - A) <= 3 / 4 * (201 / 100 * s + 2 / 100000) /\ Rabs (m21 (dcm w) - B) <= 3 / 4 * (201 / 100 * s + 2 / 100000) /\ Rabs (m22 (dcm w) - C) <= 3 / 4 * (201 / 100 * s + 2 / 100000)) /\
     7 / 10 <= c <= 1 /\ ((A * A <= B * B /\ m00 (dcm w) = c * cos (R32 yaw) /\ m10 (dcm w) = c * sin (R32 yaw)) \/
       (B * B <= A * A /\ m11 (dcm w) = c * cos (R32 yaw) /\ - m01 (dcm w) = c * sin (R32 yaw)))).
  { unfold updateYawG. fsc. destruct (flt (fabs (dcmv x 2%nat 0%nat)) (fabs (dcmv x 2%nat 1%nat))) eqn:EB.
    - specialize (LT eq_refl). clear GE.
      destruct (tilt_rebuilt (- B) (- A) C (201 / 100 * s + 2 / 100000)) as (Y1 & Y2 & Y3 & Y4 & Y5 & Y6).
      { replace (- B * - B + - A * - A + C * C - 1) with (A * A + B * B + C * C - 1) by ring. exact T. } { lra. } { lra. }
      rewrite Ropp_involutive in Y3, Y4.
      assert (PN : near (tasin (fneg (dcmv x 2%nat 0%nat))) (asin (- A)) (3 / 10000000)).
      { destruct (fneg_R (dcmv x 2%nat 0%nat)) as [E F]. fold A in E. rewrite <- E. apply Has; [rewrite F; exact G0|rewrite E; lra]. }
      assert (RNr : near (rollG tasin tatan2 pi2 (dcmv x)) (atan2 B C) (3 / 10000000)).
      { unfold rollG. fsc. rewrite (not_vertical _ _ PN (asin_small (- A) Y6) Hpi), (not_vertical' _ _ PN (asin_small (- A) Y6) Hpi).
        apply Hat; [exact G1|exact G2|]. fold B C. destruct Y5; [left|right]; lra. }
      destruct (quat321 (atan2 B C) (asin (- A)) (R32 yaw)) as (w & W1 & W2). exists w, (cos (asin (- A))). rewrite W2. split; [exact W1|].
      split; [apply rot321_near; try assumption; [apply atan_arg|pose proof (asin_small (- A) Y6); apply Rabs_le; lra]|].
      split; [|split; [exact Y2|left; unfold dcm321; cbn [m00 m10]; split; [exact LT|split; reflexivity]]].
      unfold dcm321. cbn [m20 m21 m22]. rewrite Y1. split; [|split].
      + replace (- - A - A) with 0 by ring. rewrite Rabs_R0. lra.
      + replace (sin (atan2 B C) * cos (asin (- A)) - B) with (- (- sin (atan2 B C) * cos (asin (- A)) - - B)) by ring. rewrite Rabs_Ropp. exact Y3.
      + exact Y4.
    - specialize (GE eq_refl). clear LT.
      destruct (tilt_rebuilt A B C (201 / 100 * s + 2 / 100000) T ltac:(lra) GE) as (Y1 & Y2 & Y3 & Y4 & Y5 & Y6).
      assert (PN : near (tasin (dcmv x 2%nat 1%nat)) (asin B) (3 / 10000000)) by (apply Has; [exact G1|fold B; lra]).
      assert (RNr : near (tatan2 (fneg (dcmv x 2%nat 0%nat)) (dcmv x 2%nat 2%nat)) (atan2 (- A) C) (3 / 10000000)).
      { destruct (fneg_R (dcmv x 2%nat 0%nat)) as [E F]. fold A in E. rewrite <- E. apply Hat; [rewrite F; exact G0|exact G2|]. rewrite E. fold C. destruct Y5; [left|right]; lra. }
      destruct (quat312 (R32 yaw) (asin B) (atan2 (- A) C)) as (w & W1 & W2). exists w, (cos (asin B)). rewrite W2. split; [exact W1|].
      split; [apply rot312_near; try assumption; [pose proof (asin_small B Y6); apply Rabs_le; lra|apply atan_arg]|].
      split; [|split; [exact Y2|right; unfold taitBryan312ToRotMat; cbn [m01 m11]; split; [exact GE|split; ring]]].
      unfold taitBryan312ToRotMat. cbn [m20 m21 m22]. split; [|split].
      + exact Y3.
      + rewrite Y1. replace (B - B) with 0 by ring. rewrite Rabs_R0. lra.
      + exact Y4. }
  destruct MAIN as (w & c & W1 & W2 & (D0 & D1 & D2) & CB & HD).
  destruct (quatOf_near _ w W1 W2) as (sg & SG & NV). destruct (near_unit _ w sg W1 SG NV) as (FN & NN & ((K00 & K01 & _) & (K10 & K11 & _) & (K20 & K21 & K22))).
  set (y := quatOfG _) in *. set (m' := dcm (qr y)) in *. set (dw := dcm w) in *. clearbody dw m'.
  split; [intros k Hk; rewrite QK by exact Hk; apply FN, Hk|]. split; [lra|]. split; [split; [|split]|].
  - apply (AB _ _ _ _ _ _ K20 (AB _ _ _ _ _ (3 / 4 * (201 / 100 * s + 2 / 100000) + 2 / 1000000) D0 H0 ltac:(lra))). lra.
  - apply (AB _ _ _ _ _ _ K21 (AB _ _ _ _ _ (3 / 4 * (201 / 100 * s + 2 / 100000) + 2 / 1000000) D1 H1 ltac:(lra))). lra.
  - apply (AB _ _ _ _ _ _ K22 (AB _ _ _ _ _ (3 / 4 * (201 / 100 * s + 2 / 100000) + 2 / 1000000) D2 H2 ltac:(lra))). lra.
  - exists c. split; [exact CB|]. destruct HD as [(L & E1 & E2)|(L & E1 & E2)]; [left|right]; rewrite <- E1, <- E2; (split; [lra|]).
    + split; lra.
    + split; [lra|]. replace (- m01 m' - - m01 dw) with (- (m01 m' - m01 dw)) by ring. rewrite Rabs_Ropp. lra.
Qed.
End Trig.

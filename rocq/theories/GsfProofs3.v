(** proofs about the yaw estimator: attitude reference *)
From Coq Require Import Reals Lra Lia Bool List Arith ZArith Psatz.
From Verif Require Import Scalar RealGeom RotModel GeoModel GeoProofs RotProofs GsfModel GsfProofs1 GsfProofs2.
Import ListNotations.
Open Scope R_scope.

Ltac v3 v := let a := fresh "ka" in let b := fresh "kb" in let c := fresh "kc" in destruct v as [a b c].
Ltac m3 m := let a := fresh "ka" in let b := fresh "kb" in let c := fresh "kc" in let d := fresh "kd" in let e := fresh "ke" in let f := fresh "kf" in let g := fresh "kg" in let h := fresh "kh" in let i := fresh "ki" in destruct m as [a b c d e f g h i].
Ltac vdestr := repeat match goal with v : V3 |- _ => v3 v end.
Ltac vring := vdestr; unfold turned, vnorm2, vdot, cross, vscale, vadd, vsub, vneg; cbn [vx vy vz]; ring.
Lemma vn2_nn v : 0 <= vnorm2 v. Proof. vdestr. unfold vnorm2, vdot. cbn [vx vy vz]. nra. Qed.
Lemma turned_norm r g : vnorm2 (turned r g) = vnorm2 r + vnorm2 (cross r g). Proof. vring. Qed.
Lemma lagrange r g : vnorm2 (cross r g) = vnorm2 r * vnorm2 g - vdot r g * vdot r g. Proof. vring. Qed.
Lemma cross_le r g : vnorm2 (cross r g) <= vnorm2 r * vnorm2 g. Proof. rewrite lagrange. nra. Qed.
Lemma vscale_norm k v : vnorm2 (vscale k v) = k * k * vnorm2 v. Proof. vring. Qed.
Lemma renorm_norm r : vnorm2 (renorm r) = if Rlt_dec flt_eps (vnorm2 r) then (3 / 2 - 1 / 2 * vnorm2 r) * (3 / 2 - 1 / 2 * vnorm2 r) * vnorm2 r else vnorm2 r.
Proof. unfold renorm. destruct (Rlt_dec _ _); [apply vscale_norm|reflexivity]. Qed.
Lemma renorm_le1 r : vnorm2 r <= 4 -> vnorm2 (renorm r) <= 1.
Proof.
  intros H. rewrite renorm_norm. pose proof (vn2_nn r). set (x := vnorm2 r) in *. clearbody x. unfold flt_eps. destruct (Rlt_dec _ _); [|lra].
  assert (E : 1 - (3 / 2 - 1 / 2 * x) * (3 / 2 - 1 / 2 * x) * x = 1 / 4 * ((x - 1) * (x - 1)) * (4 - x)) by field. assert (0 <= 1 / 4 * ((x - 1) * (x - 1)) * (4 - x)) by (pose proof (Rle_0_sqr (x - 1)) as SQ; unfold Rsqr in SQ; apply Rmult_le_pos; lra). lra.
Qed.
Lemma renorm_ge r : 95 / 100 <= vnorm2 r <= 125 / 100 -> 95 / 100 <= vnorm2 (renorm r).
Proof.
  intros H. rewrite renorm_norm. set (x := vnorm2 r) in *. clearbody x. unfold flt_eps. destruct (Rlt_dec _ _); [|lra].
  destruct (Rle_dec x 1).
  - assert ((3 / 2 - 1 / 2 * x) * (3 / 2 - 1 / 2 * x) >= 1) by nra. nra.
  - assert (A : (3 / 2 - 1 / 2 * x) * (3 / 2 - 1 / 2 * x) * x >= 95/100); [|lra].
    set (e := x - 1) in *. replace x with (1 + e) by (unfold e; ring). assert (0 <= e <= 1 / 4) by (unfold e; lra). clearbody e. replace ((3 / 2 - 1 / 2 * (1 + e)) * (3 / 2 - 1 / 2 * (1 + e)) * (1 + e)) with (1 - 3 / 4 * (e * e) + 1 / 4 * (e * e * e)) by field. assert (e * e <= 1 / 16) by nra. assert (0 <= e * e * e) by nra. lra.
Qed.

(** histories of the rotation matrix: gyro steps and yaw corrections *)
Inductive dop := DTurn (g : V3) | DYaw (d : R).
Definition dstep (m : M3) (o : dop) : M3 := match o with DTurn g => predictRotMat m g | DYaw d => rotYaw d m end.
Definition drun (l : list dop) (m : M3) : M3 := fold_left dstep l m.
Definition turn_le (b : R) (o : dop) : Prop := match o with DTurn g => vnorm2 g <= b | DYaw _ => True end.
Lemma ofRows_rows a b c : row0 (ofRows a b c) = a /\ row1 (ofRows a b c) = b /\ row2 (ofRows a b c) = c.
Proof. vdestr. auto. Qed.
Lemma rotYaw_sum d m : vnorm2 (row0 (rotYaw d m)) + vnorm2 (row1 (rotYaw d m)) = vnorm2 (row0 m) + vnorm2 (row1 m).
Proof.
  pose proof (sc d) as C. m3 m. unfold rotYaw, row0, row1, vnorm2, vdot. cbn [vx vy vz m00 m01 m02 m10 m11 m12 m20 m21 m22]. set (c := cos d) in *. set (s := sin d) in *.
  match goal with |- ?x = ?y => replace x with ((s * s + c * c) * y) by ring end. rewrite C. ring.
Qed.
Definition bounded_rows (m : M3) : Prop := vnorm2 (row0 m) + vnorm2 (row1 m) <= 2 /\ vnorm2 (row2 m) <= 1.
Lemma turned_le r g c : vnorm2 r <= c -> vnorm2 g <= 1 -> vnorm2 (turned r g) <= 2 * c.
Proof. intros H G. rewrite turned_norm. pose proof (cross_le r g). pose proof (vn2_nn r). pose proof (vn2_nn g). nra. Qed.
Lemma dstep_bounded m o : turn_le 1 o -> bounded_rows m -> bounded_rows (dstep m o).
Proof.
  intros T [A B]. destruct o as [g|d]; cbn [dstep turn_le] in *.
  - unfold predictRotMat, bounded_rows. destruct (ofRows_rows (renorm (turned (row0 m) g)) (renorm (turned (row1 m) g)) (renorm (turned (row2 m) g))) as (-> & -> & ->).
    pose proof (vn2_nn (row0 m)). pose proof (vn2_nn (row1 m)).
    assert (vnorm2 (renorm (turned (row0 m) g)) <= 1) by (apply renorm_le1; pose proof (turned_le (row0 m) g 2); lra). assert (vnorm2 (renorm (turned (row1 m) g)) <= 1) by (apply renorm_le1; pose proof (turned_le (row1 m) g 2); lra).
    split; [lra|]. apply renorm_le1. pose proof (turned_le (row2 m) g 1). lra.
  - unfold bounded_rows. rewrite rotYaw_sum. split; [exact A|]. m3 m; exact B.
Qed.
Lemma drun_bounded l : forall m, Forall (turn_le 1) l -> bounded_rows m -> bounded_rows (drun l m).
Proof. induction l as [|o l IH]; intros m F B; [exact B|]. inversion F; subst. cbn [drun fold_left]. apply IH; [assumption|]. apply dstep_bounded; assumption. Qed.
Lemma drun_down l : forall m, Forall (turn_le (1 / 4)) l -> 95 / 100 <= vnorm2 (row2 m) <= 1 -> 95 / 100 <= vnorm2 (row2 (drun l m)) <= 1.
Proof.
  induction l as [|o l IH]; intros m F B; [exact B|]. inversion F; subst. cbn [drun fold_left]. apply IH; [assumption|]. destruct o as [g|d]; cbn [dstep turn_le] in *; [|m3 m; exact B].
  unfold predictRotMat. destruct (ofRows_rows (renorm (turned (row0 m) g)) (renorm (turned (row1 m) g)) (renorm (turned (row2 m) g))) as (_ & _ & ->).
  assert (T : vnorm2 (row2 m) <= vnorm2 (turned (row2 m) g) <= 125 / 100). { rewrite turned_norm. pose proof (vn2_nn (cross (row2 m) g)). pose proof (cross_le (row2 m) g). pose proof (vn2_nn g). split; nra. }
  split; [apply renorm_ge; lra|apply renorm_le1; lra].
Qed.
Lemma rot_rows_unit m : is_rotation m -> vnorm2 (row0 m) = 1 /\ vnorm2 (row1 m) = 1 /\ vnorm2 (row2 m) = 1.
Proof.
  intros (H & _ & _). m3 m. unfold row0, row1, row2, vnorm2, vdot, mmul, mtr, mident in *. cbn [vx vy vz m00 m01 m02 m10 m11 m12 m20 m21 m22] in *. injection H as A1 A2 A3 A4 A5 A6 A7 A8 A9. lra.
Qed.

(** ** steady rotation *)
Definition spin (n : nat) (g : V3) (m : M3) : M3 := drun (repeat (DTurn g) n) m.
Definition rowk (k : nat) (m : M3) : V3 := match k with 0%nat => row0 m | 1%nat => row1 m | _ => row2 m end.
Lemma step_ratio r g : (vdot (renorm (turned r g)) g * vdot (renorm (turned r g)) g) * (vnorm2 (cross r g) * (1 + vnorm2 g)) = (vdot r g * vdot r g) * vnorm2 (cross (renorm (turned r g)) g).
Proof.
  assert (E : exists s, renorm (turned r g) = vscale s (turned r g)).
  { unfold renorm. destruct (Rlt_dec _ _); [eexists; reflexivity|]. exists 1. vdestr. unfold turned, vscale. cbn [vx vy vz]. f_equal; ring. }
  destruct E as [s ->]. vring.
Qed.
Lemma predict_rowk k m g : rowk k (predictRotMat m g) = renorm (turned (rowk k m) g).
Proof. unfold predictRotMat. destruct (ofRows_rows (renorm (turned (row0 m) g)) (renorm (turned (row1 m) g)) (renorm (turned (row2 m) g))) as (A & B & C). destruct k as [|[|k]]; cbn [rowk]; assumption. Qed.
Lemma spin_S n g m : spin (Datatypes.S n) g m = predictRotMat (spin n g m) g.
Proof.
  unfold spin, drun. revert m. induction n as [|n IH]; intros m; [reflexivity|]. change (repeat (DTurn g) (Datatypes.S (Datatypes.S n))) with (DTurn g :: repeat (DTurn g) (Datatypes.S n)). cbn [fold_left]. rewrite IH. reflexivity.
Qed.
Lemma spin_ratio n g m k : (vdot (rowk k (spin n g m)) g * vdot (rowk k (spin n g m)) g) * (vnorm2 (cross (rowk k m) g) * (1 + vnorm2 g) ^ n) = (vdot (rowk k m) g * vdot (rowk k m) g) * vnorm2 (cross (rowk k (spin n g m)) g).
Proof.
  induction n as [|n IH]; [cbn [pow]; unfold spin, drun; cbn [repeat fold_left]; ring|]. rewrite spin_S, predict_rowk. pose proof (step_ratio (rowk k (spin n g m)) g) as S.
  set (a := vdot (rowk k (spin n g m)) g) in *. set (c := vnorm2 (cross (rowk k (spin n g m)) g)) in *. set (a' := vdot (renorm (turned (rowk k (spin n g m)) g)) g) in *. set (c' := vnorm2 (cross (renorm (turned (rowk k (spin n g m)) g)) g)) in *.
  set (a0 := vdot (rowk k m) g) in *. set (c0 := vnorm2 (cross (rowk k m) g)) in *. set (q := 1 + vnorm2 g) in *. cbn [pow]. set (Q := q ^ n) in *.
  assert (C0 : 0 <= c) by apply vn2_nn. destruct (Req_dec c 0) as [Z|Z].
  - (* the row is parallel to g: then it always was *)
    rewrite Z in *. assert (c' = 0). { unfold c'. assert (CR : cross (rowk k (spin n g m)) g = vzero). { unfold c in Z. destruct (cross (rowk k (spin n g m)) g) as [x y z]. unfold vnorm2, vdot in Z. cbn [vx vy vz] in Z. unfold vzero. assert (x = 0) by nra. assert (y = 0) by nra. assert (z = 0) by nra. subst. reflexivity. }
      assert (TT : turned (rowk k (spin n g m)) g = rowk k (spin n g m)). { v3 (rowk k (spin n g m)); v3 g. unfold cross, vzero in CR. cbn in CR. injection CR as E1 E2 E3. unfold turned. cbn [GsfModel.turned vx vy vz] in *. f_equal; lra. }
      rewrite TT. unfold renorm. destruct (Rlt_dec _ _); [|exact Z]. replace (cross (vscale (3 / 2 - 1 / 2 * vnorm2 (rowk k (spin n g m))) (rowk k (spin n g m))) g) with (vscale (3 / 2 - 1 / 2 * vnorm2 (rowk k (spin n g m))) (cross (rowk k (spin n g m)) g)) by (v3 (rowk k (spin n g m)); v3 g; unfold cross, vscale; cbn [vx vy vz]; f_equal; ring).
      rewrite CR. unfold vscale, vzero, vnorm2, vdot. cbn [vx vy vz]. ring. }
    rewrite H. assert (Qp : 0 < Q) by (unfold Q, q; apply pow_lt; pose proof (vn2_nn g); lra).
    assert (AC : a * a * c0 = 0). { assert (a * a * (c0 * Q) = 0) by lra. apply Rmult_eq_reg_r with Q; lra. }
    destruct (Req_dec c0 0) as [W|W]; [rewrite W; ring|]. assert (a * a = 0). { apply Rmult_eq_reg_r with c0; [lra|exact W]. }
    (* row parallel to g and orthogonal to it *)
    assert (A0 : a = 0) by nra. assert (a' = 0). { unfold a'. assert (E : exists s, renorm (turned (rowk k (spin n g m)) g) = vscale s (turned (rowk k (spin n g m)) g)).
      { unfold renorm. destruct (Rlt_dec _ _); [eexists; reflexivity|]. exists 1. v3 (turned (rowk k (spin n g m)) g). unfold vscale. cbn [vx vy vz]. f_equal; ring. }
      destruct E as [s ->]. replace (vdot (vscale s (turned (rowk k (spin n g m)) g)) g) with (s * vdot (rowk k (spin n g m)) g) by (v3 (rowk k (spin n g m)); v3 g; unfold turned, vscale, vdot; cbn [vx vy vz]; ring). fold a. rewrite A0. ring. }
    rewrite H1. ring.
  - apply Rmult_eq_reg_r with c; [|exact Z]. replace (a' * a' * (c0 * (q * Q)) * c) with ((a' * a' * (c * q)) * (c0 * Q)) by ring. rewrite S. replace (a * a * c' * (c0 * Q)) with ((a * a * (c0 * Q)) * c') by ring. rewrite IH. ring.
Qed.
(** ** tilt alignment *)
Lemma rotYaw_Rz d m : rotYaw d m = mmul (Rz d) m.
Proof. m3 m. unfold rotYaw, mmul, Rz. cbn [m00 m01 m02 m10 m11 m12 m20 m21 m22]. f_equal; ring. Qed.
Lemma sqrt_inv_sq x : 0 < x -> / sqrt x * / sqrt x = / x.
Proof. intros H. pose proof (sqrt_lt_R0 x H). rewrite <- Rinv_mult. rewrite sqrt_sqrt by lra. reflexivity. Qed.
Lemma tilt_rotation dv : vy dv <> 0 \/ vz dv <> 0 -> is_rotation (tiltMatrix dv) /\ mapp (tiltMatrix dv) dv = mkV 0 0 (- sqrt (vnorm2 dv)) /\ m10 (tiltMatrix dv) = 0 /\ 0 < m00 (tiltMatrix dv).
Proof.
  intros H. destruct dv as [x y z]. cbn [vx vy vz] in H.
  assert (YZ : 0 < y * y + z * z). { destruct H as [H|H]; apply Rsqr_pos_lt in H; unfold Rsqr in H; nra. }
  assert (N : 0 < vnorm2 (mkV x y z)) by (unfold vnorm2, vdot; cbn [vx vy vz]; nra).
  pose proof (sqrt_lt_R0 _ N) as SN. pose proof (sqrt_inv_sq _ N) as IN. set (i := / sqrt (vnorm2 (mkV x y z))) in *.
  assert (IS : i * sqrt (vnorm2 (mkV x y z)) = 1) by (unfold i; apply Rinv_l; lra).
  assert (EN : i * i * (x * x + y * y + z * z) = 1). { rewrite IN. unfold vnorm2, vdot. cbn [vx vy vz]. unfold vnorm2, vdot in N. cbn [vx vy vz] in N. field. lra. }
  assert (ip : 0 < i) by (unfold i; apply Rinv_0_lt_compat; exact SN).
  (* unit down vector *)
  set (dx := - (i * x)). set (dy := - (i * y)). set (dz := - (i * z)).
  assert (D1 : dx * dx + dy * dy + dz * dz = 1) by (unfold dx, dy, dz; rewrite <- EN; ring).
  assert (D2 : 0 < dy * dy + dz * dz) by (unfold dy, dz; replace (- (i * y) * - (i * y) + - (i * z) * - (i * z)) with (i * i * (y * y + z * z)) by ring; apply Rmult_lt_0_compat; nra).
  set (nv := vsub (mkV 1 0 0) (vscale (vdot (mkV 1 0 0) (mkV dx dy dz)) (mkV dx dy dz))).
  assert (NN : vnorm2 nv = dy * dy + dz * dz). { unfold nv, vnorm2, vdot, vsub, vscale. cbn [vx vy vz]. replace (dy * dy + dz * dz) with (1 - dx * dx) by lra. 
    replace ((1 - (1 * dx + 0 * dy + 0 * dz) * dx) * (1 - (1 * dx + 0 * dy + 0 * dz) * dx) + (0 - (1 * dx + 0 * dy + 0 * dz) * dy) * (0 - (1 * dx + 0 * dy + 0 * dz) * dy) + (0 - (1 * dx + 0 * dy + 0 * dz) * dz) * (0 - (1 * dx + 0 * dy + 0 * dz) * dz)) with (1 - 2 * (dx * dx) + (dx * dx) * (dx * dx + dy * dy + dz * dz)) by ring. rewrite D1. ring. }
  assert (N2 : 0 < vnorm2 nv) by lra. pose proof (sqrt_inv_sq _ N2) as JN. pose proof (sqrt_lt_R0 _ N2) as SJ. set (j := / sqrt (vnorm2 nv)) in *. assert (jp : 0 < j) by (unfold j; apply Rinv_0_lt_compat; exact SJ).
  rewrite NN in JN. assert (EJ : j * j * (dy * dy + dz * dz) = 1) by (rewrite JN; field; lra).
  set (nx := j * (1 - dx * dx)). set (ny := - (j * (dx * dy))). set (nz := - (j * (dx * dz))).
  assert (TM : tiltMatrix (mkV x y z) = mkM nx ny nz (dy * nz - dz * ny) (dz * nx - dx * nz) (dx * ny - dy * nx) dx dy dz).
  { unfold tiltMatrix, vunit. fold i. replace (vneg (vscale i (mkV x y z))) with (mkV dx dy dz) by reflexivity. fold nv. fold j.
    assert (VN : vscale j nv = mkV nx ny nz) by (unfold nv, vsub, vscale, vdot, nx, ny, nz; cbn [vx vy vz]; f_equal; ring). rewrite VN. unfold cross. cbn [vx vy vz]. reflexivity. }
  rewrite TM. clear TM. assert (D3 : dy * dy + dz * dz = 1 - dx * dx) by lra. rewrite D3 in EJ.
  assert (N11 : nx * nx + ny * ny + nz * nz = 1). { unfold nx, ny, nz. transitivity (j * j * ((1 - dx * dx) * (1 - dx * dx) + dx * dx * (dy * dy + dz * dz))); [ring|]. rewrite D3. transitivity (j * j * (1 - dx * dx)); [ring|exact EJ]. }
  assert (ND : nx * dx + ny * dy + nz * dz = 0). { unfold nx, ny, nz. transitivity (j * dx * (1 - (dx * dx + dy * dy + dz * dz))); [ring|]. rewrite D1. ring. }
  assert (M10 : dy * nz - dz * ny = 0) by (unfold ny, nz; ring). assert (M00 : 0 < nx) by (unfold nx; apply Rmult_lt_0_compat; lra).
  clearbody nx ny nz. split; [|split; [|split]].
  - assert (COL : forall p q, (p = nx /\ q = dx) \/ (p = ny /\ q = dy) \/ (p = nz /\ q = dz) -> True) by auto. clear COL.
    unfold is_rotation, mmul, mtr, mident, mdet. cbn [m00 m01 m02 m10 m11 m12 m20 m21 m22].
    (* identities for an orthonormal pair and its cross product *)
    assert (U : dx * dx + dy * dy + dz * dz = 1) by exact D1.
    set (ex := dy * nz - dz * ny). set (ey := dz * nx - dx * nz). set (ez := dx * ny - dy * nx).
    assert (EE : ex * ex + ey * ey + ez * ez = 1). { transitivity ((dx * dx + dy * dy + dz * dz) * (nx * nx + ny * ny + nz * nz) - (nx * dx + ny * dy + nz * dz) * (nx * dx + ny * dy + nz * dz)); [unfold ex, ey, ez; ring|]. rewrite U, N11, ND. ring. }
    assert (EX : nx * ex + ny * ey + nz * ez = 0) by (unfold ex, ey, ez; ring). assert (ED : ex * dx + ey * dy + ez * dz = 0) by (unfold ex, ey, ez; ring).
    (* completeness: columns *)
    assert (X1 : ny * ez - nz * ey = dx). { transitivity (dx * (nx * nx + ny * ny + nz * nz) - nx * (nx * dx + ny * dy + nz * dz)); [unfold ey, ez; ring|rewrite N11, ND; ring]. }
    assert (X2 : nz * ex - nx * ez = dy). { transitivity (dy * (nx * nx + ny * ny + nz * nz) - ny * (nx * dx + ny * dy + nz * dz)); [unfold ex, ez; ring|rewrite N11, ND; ring]. }
    assert (X3 : nx * ey - ny * ex = dz). { transitivity (dz * (nx * nx + ny * ny + nz * nz) - nz * (nx * dx + ny * dy + nz * dz)); [unfold ex, ey; ring|rewrite N11, ND; ring]. }
    assert (Y1 : ey * dz - ez * dy = nx). { transitivity (nx * (dx * dx + dy * dy + dz * dz) - dx * (nx * dx + ny * dy + nz * dz)); [unfold ey, ez; ring|rewrite U, ND; ring]. }
    assert (Y2 : ez * dx - ex * dz = ny). { transitivity (ny * (dx * dx + dy * dy + dz * dz) - dy * (nx * dx + ny * dy + nz * dz)); [unfold ex, ez; ring|rewrite U, ND; ring]. }
    assert (Y3 : ex * dy - ey * dx = nz). { transitivity (nz * (dx * dx + dy * dy + dz * dz) - dz * (nx * dx + ny * dy + nz * dz)); [unfold ex, ey; ring|rewrite U, ND; ring]. }
    assert (DT : nx * (ey * dz - ez * dy) - ny * (ex * dz - ez * dx) + nz * (ex * dy - ey * dx) = 1). { transitivity (nx * (ey * dz - ez * dy) + ny * (ez * dx - ex * dz) + nz * (ex * dy - ey * dx)); [ring|]. rewrite Y1, Y2, Y3. exact N11. }
    assert (Z1 : dy * nz - dz * ny = ex) by reflexivity. assert (Z2 : dz * nx - dx * nz = ey) by reflexivity. assert (Z3 : dx * ny - dy * nx = ez) by reflexivity.
    clearbody ex ey ez. split; [f_equal; lra|]. split; [|exact DT].
    f_equal.
    + transitivity (nx * (ey * dz - ez * dy) + ex * (dy * nz - dz * ny) + dx * (ny * ez - nz * ey)); [rewrite Y1, Z1, X1; ring|]. transitivity (nx * (ey * dz - ez * dy) - ny * (ex * dz - ez * dx) + nz * (ex * dy - ey * dx)); [ring|exact DT].
    + transitivity (nx * (ez * dx - ex * dz) + ex * (dz * nx - dx * nz) + dx * (nz * ex - nx * ez)); [rewrite Y2, Z2, X2; ring|ring].
    + transitivity (nx * (ex * dy - ey * dx) + ex * (dx * ny - dy * nx) + dx * (nx * ey - ny * ex)); [rewrite Y3, Z3, X3; ring|ring].
    + transitivity (ny * (ey * dz - ez * dy) + ey * (dy * nz - dz * ny) + dy * (ny * ez - nz * ey)); [rewrite Y1, Z1, X1; ring|ring].
    + transitivity (ny * (ez * dx - ex * dz) + ey * (dz * nx - dx * nz) + dy * (nz * ex - nx * ez)); [rewrite Y2, Z2, X2; ring|]. transitivity (nx * (ey * dz - ez * dy) - ny * (ex * dz - ez * dx) + nz * (ex * dy - ey * dx)); [ring|exact DT].
    + transitivity (ny * (ex * dy - ey * dx) + ey * (dx * ny - dy * nx) + dy * (nx * ey - ny * ex)); [rewrite Y3, Z3, X3; ring|ring].
    + transitivity (nz * (ey * dz - ez * dy) + ez * (dy * nz - dz * ny) + dz * (ny * ez - nz * ey)); [rewrite Y1, Z1, X1; ring|ring].
    + transitivity (nz * (ez * dx - ex * dz) + ez * (dz * nx - dx * nz) + dz * (nz * ex - nx * ez)); [rewrite Y2, Z2, X2; ring|ring].
    + transitivity (nz * (ex * dy - ey * dx) + ez * (dx * ny - dy * nx) + dz * (nx * ey - ny * ex)); [rewrite Y3, Z3, X3; ring|]. transitivity (nx * (ey * dz - ez * dy) - ny * (ex * dz - ez * dx) + nz * (ex * dy - ey * dx)); [ring|exact DT].
  - set (SQ := sqrt (vnorm2 (mkV x y z))) in *. assert (XX : x = - (SQ * dx)) by (unfold dx; replace (- (SQ * - (i * x))) with (i * SQ * x) by ring; rewrite IS; ring).
    assert (YY : y = - (SQ * dy)) by (unfold dy; replace (- (SQ * - (i * y))) with (i * SQ * y) by ring; rewrite IS; ring). assert (ZZ : z = - (SQ * dz)) by (unfold dz; replace (- (SQ * - (i * z))) with (i * SQ * z) by ring; rewrite IS; ring).
    unfold mapp. cbn [m00 m01 m02 m10 m11 m12 m20 m21 m22 vx vy vz]. clearbody SQ dx dy dz. f_equal.
    + rewrite XX, YY, ZZ. transitivity (- SQ * (nx * dx + ny * dy + nz * dz)); [ring|rewrite ND; ring].
    + rewrite XX, YY, ZZ. ring.
    + rewrite XX, YY, ZZ. transitivity (- SQ * (dx * dx + dy * dy + dz * dz)); [ring|rewrite D1; ring].
  - exact M10.
  - exact M00.
Qed.

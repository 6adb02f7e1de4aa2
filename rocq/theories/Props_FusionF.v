(** * C37, single precision: inputs the fusions do not exclude *)
From Coq Require Import Reals ZArith Bool.
From Verif Require Import CBase F32 Scalar CovPredGen CovModel FusionGen FusionModel.
Open Scope nat_scope.

(** defect: nothing excludes a relative wind with no forward component.  In
    single precision, moving sideways at 10 m/s in still air turns the states into NaN *)
Definition fctx (x : Vec f32) (wind : bool) : covctx f32 :=
  mkCtx x (fun _ => szero) (fun _ => szero) (fun _ => false) (fun k => if (k =? 2)%nat then sone else szero)
    szero szero sone (slit 1000 1) (slit 1000 1) szero szero szero szero sone szero szero sone false false true false wind false false false true false false
    szero szero szero szero szero szero (slit 1 100) 0%Z.
Definition fcst (M : Mat f32) : covst f32 :=
  mkCov M (fun _ => false) (fun _ => szero) szero szero (fun _ => szero) szero (fun _ => szero) (fun _ => szero) false false 0%Z false.
Definition mkf (x : Vec f32) (wind : bool) (M : Mat f32) : fus f32 :=
  mkFus (fctx x wind) (fcst M) (fun _ => szero) (fun _ => szero) (fun _ => szero) (fun _ => false) (fun _ => false) (fun _ => 0%Z) false.
Definition sideways : fus f32 :=
  mkf (fun i => if (i =? 0)%nat then sone else if (i =? 5)%nat then slit 10 1 else szero) true (fun i j => if (i =? j)%nat then slit 1 10 else szero).
Theorem C37_sideslip_sideways_refuted :
  let f' := fuseSideslip (fun f => f) (fun _ M => M) false (slit 3 10) (slit 5 1) sideways in
  is_nan (fx f' 22%nat) = true /\ frej f' 5%nat = false /\ fbad f' 5%nat = false.
Proof. vm_compute. auto. Qed.

(** * Scalar types

    The numerical models are parametric in the scalar, so that one definition
    can be read both with exact real arithmetic ([RScalar]) and with IEEE-754
    binary32 ([FScalar], F32.v).  Theorems about structure (symmetry, zeroed
    blocks, limits) are proved for both or for every scalar; theorems about
    formulas are proved for the reals. *)
From Coq Require Export List Arith Lia Bool ZArith.
From Coq Require Import Reals Lra.
From Verif Require Import F32.
Export ListNotations.
Open Scope nat_scope.

Class Scalar (T : Type) := {
  sadd : T -> T -> T; ssub : T -> T -> T; smul : T -> T -> T; sdiv : T -> T -> T;
  sopp : T -> T; sabs : T -> T; ssqrt : T -> T;
  (** C's [<] *)
  slt : T -> T -> bool;
  (** C's [<=] *)
  sle : T -> T -> bool;
  (** decimal literal n/d *)
  slit : Z -> Z -> T;
  (** fmaxf *)
  sfmax : T -> T -> T }.

Declare Scope scal_scope.
Delimit Scope scal_scope with scal.
Notation "a + b" := (sadd a b) : scal_scope.
Notation "a - b" := (ssub a b) : scal_scope.
Notation "a * b" := (smul a b) : scal_scope.
Notation "a / b" := (sdiv a b) : scal_scope.
Notation "- a" := (sopp a) : scal_scope.

Definition szero {T} {S : Scalar T} : T := slit 0 1.
Definition sone {T} {S : Scalar T} : T := slit 1 1.
(** ecl::powf(x, 2), utils.hpp l.44-57: ret = x; ret *= x *)
Definition pow2 {T} {S : Scalar T} (x : T) : T := smul x x.
(** sq, utils.hpp l.6 *)
Definition sq {T} {S : Scalar T} (x : T) : T := smul x x.
(** math::constrain, mathlib.h l.72-77 *)
Definition sconstrain {T} {S : Scalar T} (v lo hi : T) : T :=
  if slt v lo then lo else if slt hi v then hi else v.

#[global] Instance RScalar : Scalar R := {|
  sadd := Rplus; ssub := Rminus; smul := Rmult; sdiv := Rdiv; sopp := Ropp; sabs := Rabs; ssqrt := sqrt;
  slt := fun a b => if Rlt_dec a b then true else false;
  sle := fun a b => if Rle_dec a b then true else false;
  slit := fun n d => (IZR n / IZR d)%R;
  sfmax := Rmax |}.

#[global] Instance FScalar : Scalar f32 := {|
  sadd := fadd; ssub := fsub; smul := fmul; sdiv := fdiv; sopp := fneg; sabs := fabs; ssqrt := fsqrt;
  slt := flt; sle := fle; slit := flit; sfmax := c_fmaxf |}.

(** ** 24x24 matrices as functions (indices below 24 are meaningful) *)
Definition Mat (T : Type) := nat -> nat -> T.
Definition Vec (T : Type) := nat -> T.

Section Mat.
Context {T : Type} {S : Scalar T}.
Open Scope scal_scope.

(** M(r,c) = v *)
Definition mset (r c : nat) (v : T) (M : Mat T) : Mat T :=
  fun i j => if (i =? r) && (j =? c) then v else M i j.
Definition inb (first w i : nat) : bool := (first <=? i) && (i <? first + w).

(** PX4-Matrix SquareMatrix::uncorrelateCovarianceSetVariance<w>(first, vec):
    zeroes w rows and columns, then sets the w diagonal elements (the library
    is not in /repo; this is its documented effect) *)
Definition uncorrelateSet (w first : nat) (v : nat -> T) (M : Mat T) : Mat T :=
  fun i j => if inb first w i || inb first w j
             then (if i =? j then v (i - first)%nat else szero) else M i j.
(** PX4-Matrix SquareMatrix::uncorrelateCovariance<w>(first): keeps the diagonal *)
Definition uncorrelate (w first : nat) (M : Mat T) : Mat T :=
  uncorrelateSet w first (fun k => M (first + k)%nat (first + k)%nat) M.
(** PX4-Matrix SquareMatrix::makeRowColSymmetric<w>(first): each off-diagonal
    pair touching the block is replaced by the average; every pair is visited
    once, with [row] the in-block (larger, when both are) index *)
Definition makeRowColSymmetric (w first : nat) (M : Mat T) : Mat T :=
  fun i j => if (i =? j) then M i j else
    match inb first w i, inb first w j with
    | true, true => if j <? i then (M i j + M j i) / slit 2 1 else (M j i + M i j) / slit 2 1
    | true, false => (M i j + M j i) / slit 2 1
    | false, true => (M j i + M i j) / slit 2 1
    | false, false => M i j
    end.
End Mat.

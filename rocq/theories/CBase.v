(** * C++ arithmetic used by the models.

    Unsigned integers are [Z] kept in range by an explicit reduction; every
    place where the C++ code performs unsigned arithmetic that may wrap uses
    one of the functions below.  Nothing here models a particular function of
    /repo: it is the meaning given to C++ operators. *)
From Coq Require Export ZArith List Bool Lia.
From Coq Require Export ZifyBool ZifyNat.
Export ListNotations.
Ltac Zify.zify_post_hook ::= Z.div_mod_to_equations.
Open Scope Z_scope.

Definition two8 : Z := 2 ^ 8.
Definition two16 : Z := 2 ^ 16.
Definition two32 : Z := 2 ^ 32.
Definition two64 : Z := 2 ^ 64.

(** conversion to / arithmetic in uint8_t, uint16_t, uint32_t, uint64_t *)
Definition u8 (x : Z) : Z := x mod two8.
Definition u16 (x : Z) : Z := x mod two16.
Definition u32 (x : Z) : Z := x mod two32.
Definition u64 (x : Z) : Z := x mod two64.

Definition is_u64 (x : Z) : Prop := 0 <= x < two64.
Definition is_u8 (x : Z) : Prop := 0 <= x < two8.

Definition add64 (x y : Z) : Z := u64 (x + y).
Definition sub64 (x y : Z) : Z := u64 (x - y).

Lemma two64_val : two64 = 18446744073709551616. Proof. reflexivity. Qed.
Lemma two8_val : two8 = 256. Proof. reflexivity. Qed.
Lemma two32_val : two32 = 4294967296. Proof. reflexivity. Qed.
Lemma two16_val : two16 = 65536. Proof. reflexivity. Qed.

Lemma u64_range x : 0 <= u64 x < two64.
Proof. unfold u64. rewrite two64_val. apply Z.mod_pos_bound. lia. Qed.
Lemma u8_range x : 0 <= u8 x < two8.
Proof. unfold u8. rewrite two8_val. apply Z.mod_pos_bound. lia. Qed.
Lemma u64_small x : 0 <= x < two64 -> u64 x = x.
Proof. intros H. unfold u64. apply Z.mod_small. exact H. Qed.
Lemma u8_small x : 0 <= x < two8 -> u8 x = x.
Proof. intros H. unfold u8. apply Z.mod_small. exact H. Qed.

(** outcome of an expression whose evaluation may be undefined behaviour *)
Inductive outcome (A : Type) : Type :=
| Ok (a : A)
| UB.
Arguments Ok {A} a.
Arguments UB {A}.

(** The only arithmetic fact needed by the "any arithmetic" theorems that have a premise:
    0 == 0. True of IEEE-754 and of the real numbers. *)
From Coq Require Import Reals.
From Flocq Require Import Core.Raux.
From Verif.Model Require Import Base Num NumR NumF64.

Definition zero_eq_zero {T} (N : Num T) : Prop := feq f0 f0 = true.

Lemma zero_eq_zero_R : zero_eq_zero RNum.
Proof. unfold zero_eq_zero. cbn. apply Req_bool_true. reflexivity. Qed.

Lemma zero_eq_zero_F64 m : zero_eq_zero (F64Num m).
Proof. reflexivity. Qed.

(** * Vocabulary for shift amounts

    A shift amount may be of any integer type; [amt_ok] says it is a value of its
    type (the primitive types other than u32 all lie within -2^127 .. 2^128-1)
    and [amt_val] is its numeric value. *)

From Coq Require Import ZArith.
From Verif Require Import M_Prim M_Words M_Ops Spec.
Open Scope Z_scope.

Definition amt_ok (a : amount) : Prop :=
  match a with
  | Amt_u32 v => 0 <= v < 2 ^ 32
  | Amt_prim v => - 2 ^ 127 <= v < 2 ^ 128
  | Amt_i256 v => wf_i v
  | Amt_u256 v => wf_u v
  end.
Definition amt_val (c : cfg) (a : amount) : Z :=
  match a with
  | Amt_u32 v => v
  | Amt_prim v => v
  | Amt_i256 v => ival c v
  | Amt_u256 v => uval c v
  end.

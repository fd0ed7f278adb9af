(** * Vocabulary for computing with primitive integers in a wider type *)

From Coq Require Import ZArith List Bool.
From Verif Require Import M_Prim M_Convert Spec Spec_Convert.
Open Scope Z_scope.

(** the result [v] of a checked operation of the primitive type [t] *)
Definition checked (c : cfg) (t : ity) (v : Z) : option Z := if t_in c t v then Some v else None.

(** number of bits of a value of type [t] *)
Definition bits (c : cfg) (t : ity) : Z :=
  match t with TU n | TI n => n | Tusize | Tisize => usize_bits c end.

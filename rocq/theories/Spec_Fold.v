(** * Sum and product of a list of integers *)

From Coq Require Import ZArith List.
Open Scope Z_scope.

Definition sumz (l : list Z) : Z := fold_right Z.add 0 l.
Definition prodz (l : list Z) : Z := fold_right Z.mul 1 l.

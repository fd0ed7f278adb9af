(** * Vocabulary for round trips through floating point numbers *)

From Coq Require Import ZArith Bool.
From Verif Require Import M_Prim M_Float Spec Spec_Float Spec_Serde.
Open Scope Z_scope.

(** [b] is a bit pattern of the format [f] for the float [r]; zero may have either sign. *)
Definition encodes (f : ffmt) (b : Z) (r : fl) : Prop :=
  0 <= b < 2 ^ f_width f /\
  match r with
  | Fin v => f_is (f_of_bits f b) v
  | Inf s => f_of_bits f b = FInf s
  end.

(** [r] is [z] or one of its two neighbours in the format: no finite float lies strictly between them. *)
Definition faithful (f : ffmt) (z : Z) (r : fl) : Prop :=
  forall w, representable (f_digits f) w -> Z.abs w < 2 ^ f_emax f ->
    (w <= z -> fl_le (Fin w) r) /\ (z <= w -> fl_le r (Fin w)).

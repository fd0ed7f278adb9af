(** * Vocabulary for floating point numbers *)

From Coq Require Import ZArith Bool.
From Verif Require Import M_Prim M_Float Spec.
Open Scope Z_scope.

(** A float truncated toward zero and saturated to [lo, hi]; NaN gives 0. *)
Definition f_int (x : float) (lo hi : Z) : Z :=
  match x with
  | FNan => 0
  | FInf true => lo
  | FInf false => hi
  | FNum neg m e =>
      let a := if 0 <=? e then m * 2 ^ e else m / 2 ^ (- e) in
      Z.max lo (Z.min hi (if neg then - a else a))
  end.

(** The whole number [y] has [p] significant bits. *)
Definition representable (p y : Z) : Prop := exists m e, 0 <= e /\ Z.abs m < 2 ^ p /\ y = m * 2 ^ e.

(** [y] is the nearest number with [p] significant bits to [z]; of two equally near
    ones it is the one whose [p]-bit significand is even, that is, the one with
    [p - 1] significant bits. *)
Definition nearest_even (p z y : Z) : Prop :=
  representable p y /\
  (forall y', representable p y' -> Z.abs (z - y) <= Z.abs (z - y')) /\
  (forall y', representable p y' -> y' <> y -> Z.abs (z - y') = Z.abs (z - y) -> representable (p - 1) y).

(** [r] is [z] rounded to the format [f], overflowing to infinity. *)
Definition correctly_rounded (f : ffmt) (z : Z) (r : fl) : Prop :=
  exists y, nearest_even (f_digits f) z y /\
    r = if 2 ^ f_emax f <=? Z.abs y then Inf (z <? 0) else Fin y.

(** the order of floats *)
Definition fl_le (a b : fl) : Prop :=
  match a, b with
  | Fin x, Fin y => x <= y
  | Inf true, _ => True
  | _, Inf false => True
  | _, _ => False
  end.

(** * Vocabulary for linking and for replacing texts *)

From Coq Require Import ZArith String Ascii List Bool.
Import ListNotations.
From Verif Require Import M_Link.
Open Scope Z_scope.

(** bytes behind a pointer, and their alignment on a target that aligns u128 to [a] and u64 to [b]; the template's
    are those of the 256-bit integer its text is turned into *)
Definition size (t : pointee) : Z := match t with P_u128 | P_i128 => 16 | P_U256 | P_I256 | Opaque => 32 end.
Definition align (a b : Z) (t : pointee) : Z := match t with Opaque => b | _ => a end.

(** An argument made for the parameter [x] may be handed to the parameter [y] of the template: the same way of
    passing, the template's integer twice as wide and of the sign of the caller's, and memory aligned as it expects. *)
Definition signedness (t : pointee) : option bool :=
  match t with P_u128 | P_U256 => Some false | P_i128 | P_I256 => Some true | Opaque => None end.
Definition fits (a b : Z) (x y : pointee) : Prop :=
  size x = 2 * size y /\ align a b x = align a b y /\ signedness x = signedness y.
Definition hands (a b : Z) (x y : passed) : Prop :=
  match x, y with
  | By_value, By_value => True
  | To_read s, To_read t | To_update s, To_update t | To_fill s, To_fill t => fits a b s t
  | _, _ => False
  end.
(** the declaration passes arguments on as they are *)
Definition passes (x d : passed) : Prop :=
  match x, d with
  | By_value, By_value => True
  | To_read s, To_read t | To_update s, To_update t | To_fill s, To_fill t => size s = size t
  | _, _ => False
  end.

(** the text [pat] is found in [s] at the position [q] *)
Definition occurs (pat s : list ascii) (q : nat) : Prop :=
  forall j, (j < length pat)%nat -> nth_error s (q + j) = nth_error pat j.
(** the position [p] lies in an occurrence of [pat] *)
Definition covered (pat s : list ascii) (p : nat) : Prop :=
  exists q, occurs pat s q /\ (q <= p < q + length pat)%nat.
(** what the template's text should be replaced by, all of the same length *)
Definition widenings : list (list ascii * list ascii) :=
  map (fun '(x, y) => (list_ascii_of_string x, list_ascii_of_string y))
    [("i128", "i256"); (" 127", " 255"); ("dereferenceable(16)", "dereferenceable(32)")]%string.

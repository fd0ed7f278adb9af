(** * Vocabulary for primitive integer types *)

From Coq Require Import ZArith List Bool.
From Verif Require Import M_Prim M_Convert Spec.
Import ListNotations.
Open Scope Z_scope.

(** rustc supports these pointer widths *)
Definition usize_ok (c : cfg) : Prop := In (usize_bits c) [16; 32; 64].

(** [v] is a value of type [t] *)
Definition t_in (c : cfg) (t : ity) (v : Z) : bool :=
  match t with
  | TU n => in_u n v
  | TI n => in_i n v
  | Tusize => in_u (usize_bits c) v
  | Tisize => in_i (usize_bits c) v
  end.

(** [v] reduced modulo 2^width into the range of [t] *)
Definition t_wrap (c : cfg) (t : ity) (v : Z) : Z :=
  match t with
  | TU n => wrap_u n v
  | TI n => wrap_i n v
  | Tusize => wrap_u (usize_bits c) v
  | Tisize => wrap_i (usize_bits c) v
  end.

(** * Vocabulary of the property statements

    Which number a 256-bit value stands for, and which value represents a
    number.  Only the two record types and the configuration are taken from the
    model; none of its functions is used here. *)

From Coq Require Import ZArith List Bool.
From Verif Require Import M_Prim M_Words.
Open Scope Z_scope.

(** ** Valid values: every word is in the range of its Rust type. *)
Definition wf_u (x : u256) : Prop := 0 <= uw0 x < 2 ^ 128 /\ 0 <= uw1 x < 2 ^ 128.
Definition wf_i (x : i256) : Prop :=
  - 2 ^ 127 <= iw0 x < 2 ^ 127 /\ - 2 ^ 127 <= iw1 x < 2 ^ 127.

(** ** The number a value stands for.  On a big-endian target the first word in
    memory is the most significant one.  The most significant word of an I256
    carries the sign; the other word counts as an unsigned 128-bit pattern. *)
Definition uval (c : cfg) (x : u256) : Z :=
  if big_endian c then uw0 x * 2 ^ 128 + uw1 x else uw1 x * 2 ^ 128 + uw0 x.
Definition ival (c : cfg) (x : i256) : Z :=
  if big_endian c then iw0 x * 2 ^ 128 + iw1 x mod 2 ^ 128
  else iw1 x * 2 ^ 128 + iw0 x mod 2 ^ 128.

(** ** Ranges *)
Definition in_u (n v : Z) : bool := (0 <=? v) && (v <? 2 ^ n).
Definition in_i (n v : Z) : bool := (- 2 ^ (n - 1) <=? v) && (v <? 2 ^ (n - 1)).

(** Reduction modulo 2^n into the range of the unsigned / signed n-bit type. *)
Definition wrap_u (n v : Z) : Z := v mod 2 ^ n.
Definition wrap_i (n v : Z) : Z := (v + 2 ^ (n - 1)) mod 2 ^ n - 2 ^ (n - 1).

Definition MAXU : Z := 2 ^ 256 - 1.
Definition MINI : Z := - 2 ^ 255.
Definition MAXI : Z := 2 ^ 255 - 1.

(** Nearest representable number. *)
Definition clamp_u (v : Z) : Z := Z.max 0 (Z.min MAXU v).
Definition clamp_i (v : Z) : Z := Z.max MINI (Z.min MAXI v).

(** ** The value representing a number (after reduction modulo 2^256). *)
Definition uof (c : cfg) (v : Z) : u256 :=
  let hi := (v mod 2 ^ 256) / 2 ^ 128 in
  let lo := (v mod 2 ^ 256) mod 2 ^ 128 in
  if big_endian c then mkU hi lo else mkU lo hi.
Definition iof (c : cfg) (v : Z) : i256 :=
  let hi := wrap_i 128 ((v mod 2 ^ 256) / 2 ^ 128) in
  let lo := wrap_i 128 ((v mod 2 ^ 256) mod 2 ^ 128) in
  if big_endian c then mkI hi lo else mkI lo hi.

(** Outcomes *)
Definition panics {A} (r : res A) : Prop := exists msg, r = Panic msg.
Definition no_ub {A} (r : res A) : Prop := forall why, r <> UB why /\ r <> NoFuel.

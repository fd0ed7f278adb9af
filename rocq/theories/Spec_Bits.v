(** * Vocabulary for bits and bytes of a number *)

From Coq Require Import ZArith List Bool.
Import ListNotations.
Open Scope Z_scope.

(** how many of the bits 0 .. n-1 of [v] are set *)
Fixpoint ones (n : nat) (v : Z) : Z :=
  match n with
  | O => 0
  | S n' => ones n' v + Z.b2z (Z.testbit v (Z.of_nat n'))
  end.

(** [k] is the length of the run of bits equal to [b] at the top / bottom of the
    256 low bits of [v] *)
Definition run_top (b : bool) (v k : Z) : Prop :=
  0 <= k <= 256 /\ (forall i, 256 - k <= i < 256 -> Z.testbit v i = b) /\
  (k < 256 -> Z.testbit v (255 - k) = negb b).
Definition run_bottom (b : bool) (v k : Z) : Prop :=
  0 <= k <= 256 /\ (forall i, 0 <= i < k -> Z.testbit v i = b) /\
  (k < 256 -> Z.testbit v k = negb b).

(** base-256 digit [i] of [v]; for negative numbers, of the infinite two's complement *)
Definition byte (v i : Z) : Z := (v / 2 ^ (8 * i)) mod 256.

(** the 32 low base-256 digits, least significant first *)
Definition digits_le (v : Z) : list Z := map (fun i => byte v (Z.of_nat i)) (seq 0 32).

(** the number with the given base-256 digits, least significant first *)
Definition value_le (l : list Z) : Z := fold_right (fun b v => b + 256 * v) 0 l.

Definition is_bytes (n : nat) (l : list Z) : Prop := length l = n /\ Forall (fun b => 0 <= b < 256) l.

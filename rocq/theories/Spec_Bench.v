(** * Vocabulary: what the name of a benchmark promises *)

From Coq Require Import ZArith List String Bool.
From Verif Require Import M_Prim M_Words M_Bench Spec Spec_Bits.
Import ListNotations.
Open Scope string_scope.
Open Scope Z_scope.

(** A number is drawn as one [#] for each 64-bit word that it needs, and at least one. *)
Inductive drawn : Z -> string -> Prop :=
| Drawn_one n : 0 <= n < 2 ^ 64 -> drawn n "#"
| Drawn_two n : 2 ^ 64 <= n < 2 ^ 128 -> drawn n "##"
| Drawn_three n : 2 ^ 128 <= n < 2 ^ 192 -> drawn n "###"
| Drawn_four n : 2 ^ 192 <= n < 2 ^ 256 -> drawn n "####".
(** The words counted from the other end: one [#] for each 64-bit word, the low words that are zero left out. *)
Inductive drawn_from_top : Z -> string -> Prop :=
| Top_one n : n mod 2 ^ 192 = 0 -> drawn_from_top n "#"
| Top_two n : n mod 2 ^ 128 = 0 -> n mod 2 ^ 192 <> 0 -> drawn_from_top n "##"
| Top_three n : n mod 2 ^ 64 = 0 -> n mod 2 ^ 128 <> 0 -> drawn_from_top n "###"
| Top_four n : n mod 2 ^ 64 <> 0 -> drawn_from_top n "####".
(** A negative number is drawn as a minus sign and its absolute value. *)
Inductive drawn_signed : Z -> string -> Prop :=
| Drawn_positive n s : 0 <= n -> drawn n s -> drawn_signed n s
| Drawn_negative n s : n < 0 -> drawn (- n) s -> drawn_signed n ("-" ++ s).

(** The tag of a product: whether it leaves the range of the type. *)
Definition tagged (lo hi p : Z) (tag : string) : Prop :=
  (tag = "overflow" /\ ~ lo <= p < hi) \/ (tag = "no overflow" /\ lo <= p < hi).

(** A distance that does not reach the next 128-bit word is short. *)
Definition distance (s : Z) (name : string) : Prop :=
  (name = "short" /\ 0 < s < 128) \/ (name = "long" /\ 128 < s < 256).

(** The id of a benchmark says which operation it runs, how large the operands are and whether the product overflows. *)
Definition honest (c : cfg) (b : benchmark) : Prop :=
  match b_job b with
  | Job_add x y => b_group b = "U256::add" /\ b_param b = None /\ uval c x + uval c y < 2 ^ 256
  | Job_sub x y => b_group b = "U256::sub" /\ b_param b = None /\ uval c y <= uval c x
  | Job_mul x y => b_group b = "U256::mul" /\ b_param b = None /\ uval c x * uval c y < 2 ^ 256
  | Job_div x y => b_group b = "U256::div" /\ uval c y <> 0 /\
      exists s t, drawn (uval c x) s /\ drawn (uval c y) t /\ b_param b = Some (s ++ "/" ++ t)
  | Job_wrapping_mul x y => b_group b = "U256::wrapping_mul" /\
      exists s t tag, drawn (uval c x) s /\ drawn (uval c y) t /\ tagged 0 (2 ^ 256) (uval c x * uval c y) tag /\
      b_param b = Some (s ++ "*" ++ t ++ " (" ++ tag ++ ")")
  | Job_overflowing_mul x y => b_group b = "U256::overflowing_mul" /\
      exists s t tag, drawn (uval c x) s /\ drawn (uval c y) t /\ tagged 0 (2 ^ 256) (uval c x * uval c y) tag /\
      b_param b = Some (s ++ "*" ++ t ++ " (" ++ tag ++ ")")
  | Job_i_wrapping_mul x y => b_group b = "I256::wrapping_mul" /\
      exists s t tag, drawn_signed (ival c x) s /\ drawn_signed (ival c y) t /\
      tagged (- 2 ^ 255) (2 ^ 255) (ival c x * ival c y) tag /\ b_param b = Some (s ++ "*" ++ t ++ " (" ++ tag ++ ")")
  | Job_i_overflowing_mul x y => b_group b = "I256::overflowing_mul" /\
      exists s t tag, drawn_signed (ival c x) s /\ drawn_signed (ival c y) t /\
      tagged (- 2 ^ 255) (2 ^ 255) (ival c x * ival c y) tag /\ b_param b = Some (s ++ "*" ++ t ++ " (" ++ tag ++ ")")
  | Job_shl _ s => b_group b = "U256::shl" /\ exists d, distance s d /\ b_param b = Some d
  | Job_shr _ s => b_group b = "U256::shr" /\ exists d, distance s d /\ b_param b = Some d
  | Job_rotate_left _ s => b_group b = "U256::rotate_left" /\ exists d, distance s d /\ b_param b = Some d
  | Job_rotate_right _ s => b_group b = "U256::rotate_right" /\ exists d, distance s d /\ b_param b = Some d
  | Job_ctlz x => b_group b = "U256::ctlz" /\ exists s, drawn (uval c x) s /\ b_param b = Some s
  | Job_cttz x => b_group b = "U256::cttz" /\ exists s, drawn_from_top (uval c x) s /\ b_param b = Some s
  end.

(** The operands are values of the types. *)
Definition wf_job (j : job) : Prop :=
  match j with
  | Job_add x y | Job_div x y | Job_mul x y | Job_sub x y | Job_wrapping_mul x y | Job_overflowing_mul x y => wf_u x /\ wf_u y
  | Job_i_wrapping_mul x y | Job_i_overflowing_mul x y => wf_i x /\ wf_i y
  | Job_shl x _ | Job_shr x _ | Job_rotate_left x _ | Job_rotate_right x _ | Job_ctlz x | Job_cttz x => wf_u x
  end.

(** [r] is [p] up to a multiple of [2^256]. *)
Definition same_bits (r p : Z) : Prop := exists k, r = p + k * 2 ^ 256.

(** What the operation in the name of a benchmark yields. *)
Definition measures (c : cfg) (j : job) (r : measured) : Prop :=
  match j, r with
  | Job_add x y, Got_u r => uval c r = uval c x + uval c y
  | Job_sub x y, Got_u r => uval c r = uval c x - uval c y
  | Job_mul x y, Got_u r => uval c r = uval c x * uval c y
  | Job_div x y, Got_u r => uval c r = uval c x / uval c y
  | Job_wrapping_mul x y, Got_u r => wf_u r /\ same_bits (uval c r) (uval c x * uval c y)
  | Job_overflowing_mul x y, Got_u_flag (r, o) => wf_u r /\ same_bits (uval c r) (uval c x * uval c y) /\
      (o = true <-> 2 ^ 256 <= uval c x * uval c y)
  | Job_i_wrapping_mul x y, Got_i r => wf_i r /\ same_bits (ival c r) (ival c x * ival c y)
  | Job_i_overflowing_mul x y, Got_i_flag (r, o) => wf_i r /\ same_bits (ival c r) (ival c x * ival c y) /\
      (o = true <-> ~ - 2 ^ 255 <= ival c x * ival c y < 2 ^ 255)
  | Job_shl x s, Got_u r => wf_u r /\ same_bits (uval c r) (uval c x * 2 ^ s)
  | Job_shr x s, Got_u r => uval c r = uval c x / 2 ^ s
  | Job_rotate_left x s, Got_u r => forall i, 0 <= i < 256 -> Z.testbit (uval c r) i = Z.testbit (uval c x) ((i - s) mod 256)
  | Job_rotate_right x s, Got_u r => forall i, 0 <= i < 256 -> Z.testbit (uval c r) i = Z.testbit (uval c x) ((i + s) mod 256)
  | Job_ctlz x, Got_count n => run_top false (uval c x) n
  | Job_cttz x, Got_count n => run_bottom false (uval c x) n
  | _, _ => False
  end.

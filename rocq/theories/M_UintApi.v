(** * Methods of U256
    src/uint.rs (div_rem family), src/uint/api.rs *)

From Coq Require Import ZArith List String Bool.
From Verif Require Import M_Prim M_Words M_Intr M_Div M_Mul M_Ops.
Import ListNotations.
Open Scope Z_scope.

(** ** Bits *)

(** src/uint/api.rs:88-91 *)
Definition u_count_ones (c : cfg) (x : u256) : res Z :=
  u_add c 32 (count_ones (uw0 x)) (count_ones (uw1 x)).
(** src/uint/api.rs:105-108; u128::count_zeros is 128 - count_ones *)
Definition u_count_zeros (c : cfg) (x : u256) : res Z :=
  u_add c 32 (128 - count_ones (uw0 x)) (128 - count_ones (uw1 x)).
(** src/uint/api.rs:123-125 *)
Definition u_leading_zeros (c : cfg) (x : u256) : res Z := ctlz c x.
(** src/uint/api.rs:140-142 *)
Definition u_trailing_zeros (c : cfg) (x : u256) : res Z := cttz c x.
(** src/uint/api.rs:157-159 *)
Definition u_leading_ones (c : cfg) (x : u256) : res Z := u_leading_zeros c (u_op_not x).
(** src/uint/api.rs:174-176 *)
Definition u_trailing_ones (c : cfg) (x : u256) : res Z := u_trailing_zeros c (u_op_not x).
(** src/uint/api.rs:200-204 *)
Definition u_rotate_left (c : cfg) (x : u256) (n : Z) : res u256 := rol3 c x n.
(** src/uint/api.rs:228-232 *)
Definition u_rotate_right (c : cfg) (x : u256) (n : Z) : res u256 := ror3 c x n.
(** src/uint/api.rs:255-258 *)
Definition u_swap_bytes (x : u256) : u256 := mkU (swap_bytes_128 (uw1 x)) (swap_bytes_128 (uw0 x)).
(** src/uint/api.rs:281-284 *)
Definition u_reverse_bits (x : u256) : u256 :=
  mkU (reverse_bits_128 (uw1 x)) (reverse_bits_128 (uw0 x)).
(** src/uint/api.rs:305-314 *)
Definition u_from_be (c : cfg) (x : u256) : u256 := if big_endian c then x else u_swap_bytes x.
(** src/uint/api.rs:335-344 *)
Definition u_from_le (c : cfg) (x : u256) : u256 := if negb (big_endian c) then x else u_swap_bytes x.
(** src/uint/api.rs:364-373 *)
Definition u_to_be (c : cfg) (x : u256) : u256 := if big_endian c then x else u_swap_bytes x.
(** src/uint/api.rs:393-402 *)
Definition u_to_le (c : cfg) (x : u256) : u256 := if negb (big_endian c) then x else u_swap_bytes x.

(** ** Overflowing *)

(** src/uint/api.rs:1155-1159 *)
Definition u_overflowing_add (c : cfg) (a b : u256) : u256 * bool := uaddc c a b.
(** src/uint/api.rs:1180-1183 *)
Definition u_overflowing_add_signed (c : cfg) (a : u256) (rhs : i256) : u256 * bool :=
  let '(r, overflowed) := u_overflowing_add c a (i_as_u256 rhs) in
  (r, xorb overflowed (is_lt (i_cmp_prim c rhs 0))).
(** src/uint/api.rs:1203-1207 *)
Definition u_overflowing_sub (c : cfg) (a b : u256) : u256 * bool := usubc c a b.
(** src/uint/api.rs:1255-1259 *)
Definition u_overflowing_mul (c : cfg) (a b : u256) : res (u256 * bool) := umulc c a b.
(** src/uint/api.rs:1282-1284 *)
Definition u_overflowing_div (c : cfg) (a b : u256) : res (u256 * bool) :=
  let! q := u_op_div c a b in Ret (q, false).
(** src/uint/api.rs:1309-1311 *)
Definition u_overflowing_div_euclid (c : cfg) (a b : u256) : res (u256 * bool) :=
  let! q := u_op_div c a b in Ret (q, false).
(** src/uint/api.rs:1335-1337 *)
Definition u_overflowing_rem (c : cfg) (a b : u256) : res (u256 * bool) :=
  let! r := u_op_rem c a b in Ret (r, false).
(** src/uint/api.rs:1364-1366 *)
Definition u_overflowing_rem_euclid (c : cfg) (a b : u256) : res (u256 * bool) :=
  let! r := u_op_rem c a b in Ret (r, false).

(** ** Wrapping *)

(** src/uint/api.rs:849-853 *)
Definition u_wrapping_add (c : cfg) (a b : u256) : u256 := add3 c a b.
(** src/uint/api.rs:871-873 *)
Definition u_wrapping_add_signed (c : cfg) (a : u256) (rhs : i256) : u256 :=
  u_wrapping_add c a (i_as_u256 rhs).
(** src/uint/api.rs:890-894 *)
Definition u_wrapping_sub (c : cfg) (a b : u256) : u256 := sub3 c a b.
(** src/uint/api.rs:914-918 *)
Definition u_wrapping_mul (c : cfg) (a b : u256) : res u256 := mul3 c a b.
(** src/uint/api.rs:936-938 *)
Definition u_wrapping_div (c : cfg) (a b : u256) : res u256 := u_op_div c a b.
(** src/uint/api.rs:958-960 *)
Definition u_wrapping_div_euclid (c : cfg) (a b : u256) : res u256 := u_op_div c a b.
(** src/uint/api.rs:978-980 *)
Definition u_wrapping_rem (c : cfg) (a b : u256) : res u256 := u_op_rem c a b.
(** src/uint/api.rs:1000-1002 *)
Definition u_wrapping_rem_euclid (c : cfg) (a b : u256) : res u256 := u_op_rem c a b.
(** src/uint/api.rs:1385-1387 *)
Definition u_overflowing_neg (c : cfg) (a : u256) : u256 * bool :=
  (u_wrapping_add c (u_op_not a) (U256_ONE c), negb (u_eq c a U256_ZERO)).
(** src/uint/api.rs:1032-1034 *)
Definition u_wrapping_neg (c : cfg) (a : u256) : u256 := fst (u_overflowing_neg c a).
(** src/uint/api.rs:1059-1063 *)
Definition u_wrapping_shl (c : cfg) (a : u256) (rhs : Z) : res u256 := shl3 c a (Z.land rhs 255).
(** src/uint/api.rs:1088-1092 *)
Definition u_wrapping_shr (c : cfg) (a : u256) (rhs : Z) : res u256 := shr3 c a (Z.land rhs 255).
(** src/uint/api.rs:1409-1411 *)
Definition u_overflowing_shl (c : cfg) (a : u256) (rhs : Z) : res (u256 * bool) :=
  let! r := u_wrapping_shl c a rhs in Ret (r, 255 <? rhs).
(** src/uint/api.rs:1433-1435 *)
Definition u_overflowing_shr (c : cfg) (a : u256) (rhs : Z) : res (u256 * bool) :=
  let! r := u_wrapping_shr c a rhs in Ret (r, 255 <? rhs).

(** ** Division methods *)

(** src/uint/api.rs:1549-1551 *)
Definition u_div_euclid (c : cfg) (a b : u256) : res u256 := u_op_div c a b.
(** src/uint/api.rs:1573-1575 *)
Definition u_rem_euclid (c : cfg) (a b : u256) : res u256 := u_op_rem c a b.

(** ** Checked *)

(** The pattern [let (a, b) = e; if b { None } else { Some(a) }] of src/uint/api.rs:420-425 and the other checked_ methods *)
Definition none_if_flag {A} (p : A * bool) : option A := let '(a, b) := p in if b : bool then None else Some a.

(** src/uint/api.rs:419-426 *)
Definition u_checked_add (c : cfg) (a b : u256) : option u256 := none_if_flag (u_overflowing_add c a b).
(** src/uint/api.rs:444-451 *)
Definition u_checked_add_signed (c : cfg) (a : u256) (rhs : i256) : option u256 :=
  none_if_flag (u_overflowing_add_signed c a rhs).
(** src/uint/api.rs:468-475 *)
Definition u_checked_sub (c : cfg) (a b : u256) : option u256 := none_if_flag (u_overflowing_sub c a b).
(** src/uint/api.rs:492-499 *)
Definition u_checked_mul (c : cfg) (a b : u256) : res (option u256) :=
  let! p := u_overflowing_mul c a b in Ret (none_if_flag p).
(** src/uint/api.rs:516-522 *)
Definition u_checked_div (c : cfg) (a b : u256) : res (option u256) :=
  if u_eq c b U256_ZERO then Ret None else let! q := u_op_div c a b in Ret (Some q).
(** src/uint/api.rs:539-545 *)
Definition u_checked_div_euclid (c : cfg) (a b : u256) : res (option u256) :=
  if u_eq c b U256_ZERO then Ret None else let! q := u_div_euclid c a b in Ret (Some q).
(** src/uint/api.rs:562-568 *)
Definition u_checked_rem (c : cfg) (a b : u256) : res (option u256) :=
  if u_eq c b U256_ZERO then Ret None else let! q := u_op_rem c a b in Ret (Some q).
(** src/uint/api.rs:585-591 *)
Definition u_checked_rem_euclid (c : cfg) (a b : u256) : res (option u256) :=
  if u_eq c b U256_ZERO then Ret None else let! q := u_rem_euclid c a b in Ret (Some q).
(** src/uint/api.rs:607-614 *)
Definition u_checked_neg (c : cfg) (a : u256) : option u256 := none_if_flag (u_overflowing_neg c a).
(** src/uint/api.rs:631-638 *)
Definition u_checked_shl (c : cfg) (a : u256) (rhs : Z) : res (option u256) :=
  let! p := u_overflowing_shl c a rhs in Ret (none_if_flag p).
(** src/uint/api.rs:655-662 *)
Definition u_checked_shr (c : cfg) (a : u256) (rhs : Z) : res (option u256) :=
  let! p := u_overflowing_shr c a rhs in Ret (none_if_flag p).

(** The [?] operator inside a function returning Option: leave the loop with None. src/uint/api.rs:685 *)
Definition try_opt {A B R} (o : option A) (k : A -> res (B + option R)) : res (B + option R) :=
  match o with Some a => k a | None => Ret (inr None) end.

(** One turn of the while loop at src/uint/api.rs:683-689 (state: exp, base, acc);
    leaving the loop yields [Some (exp, base, acc)], a failed [?] yields [None] *)
Definition u_checked_pow_step (c : cfg) (st : Z * u256 * u256)
  : res ((Z * u256 * u256) + option (Z * u256 * u256)) :=
  let '(exp, base, acc) := st in
  if 1 <? exp then
    let! oacc := (if Z.land exp 1 =? 1 then u_checked_mul c acc base else Ret (Some acc)) in
    try_opt oacc (fun acc =>
    let exp := exp / 2 in
    let! obase := u_checked_mul c base base in
    try_opt obase (fun base => Ret (inl (exp, base, acc))))
  else Ret (inr (Some (exp, base, acc))).

(** src/uint/api.rs:679-699; exp is a u32, so at most 31 halvings; fuel 32 *)
Definition u_checked_pow (c : cfg) (a : u256) (exp : Z) : res (option u256) :=
  let! o := loop 32 (u_checked_pow_step c) (exp, a, U256_ONE c) in
  match o with
  | None => Ret None
  | Some (exp, base, acc) =>
      if exp =? 1 then
        let! o := u_checked_mul c acc base in
        match o with None => Ret None | Some acc => Ret (Some acc) end
      else Ret (Some acc)
  end.

(** ** Saturating *)

(** src/uint/api.rs:716-718 *)
Definition u_saturating_add (c : cfg) (a b : u256) : u256 :=
  match u_checked_add c a b with Some x => x | None => U256_MAX end.
(** src/uint/api.rs:736-745 *)
Definition u_saturating_add_signed (c : cfg) (a : u256) (rhs : i256) : u256 :=
  let '(r, overflow) := u_overflowing_add c a (i_as_u256 rhs) in
  if Bool.eqb overflow (is_lt (i_cmp_prim c rhs 0)) then r
  else if overflow then U256_MAX else U256_ZERO.
(** src/uint/api.rs:762-764 *)
Definition u_saturating_sub (c : cfg) (a b : u256) : u256 :=
  match u_checked_sub c a b with Some x => x | None => U256_MIN end.
(** src/uint/api.rs:781-786 *)
Definition u_saturating_mul (c : cfg) (a b : u256) : res u256 :=
  let! o := u_checked_mul c a b in
  match o with Some x => Ret x | None => Ret U256_MAX end.
(** src/uint/api.rs:807-810 *)
Definition u_saturating_div (c : cfg) (a b : u256) : res u256 := u_wrapping_div c a b.
(** src/uint/api.rs:827-832 *)
Definition u_saturating_pow (c : cfg) (a : u256) (exp : Z) : res u256 :=
  let! o := u_checked_pow c a exp in
  match o with Some x => Ret x | None => Ret U256_MAX end.

(** ** Power *)

(** One turn of the loop at src/uint/api.rs:1119-1125 *)
Definition u_wrapping_pow_step (c : cfg) (st : Z * u256 * u256)
  : res ((Z * u256 * u256) + (Z * u256 * u256)) :=
  let '(exp, base, acc) := st in
  if 1 <? exp then
    let! acc := (if Z.land exp 1 =? 1 then u_wrapping_mul c acc base else Ret acc) in
    let exp := exp / 2 in
    let! base := u_wrapping_mul c base base in
    Ret (inl (exp, base, acc))
  else Ret (inr (exp, base, acc)).

(** src/uint/api.rs:1115-1135 *)
Definition u_wrapping_pow (c : cfg) (a : u256) (exp : Z) : res u256 :=
  let! '(exp, base, acc) := loop 32 (u_wrapping_pow_step c) (exp, a, U256_ONE c) in
  if exp =? 1 then u_wrapping_mul c acc base else Ret acc.

(** One turn of the loop at src/uint/api.rs:1470-1480 *)
Definition u_overflowing_pow_step (c : cfg) (st : Z * u256 * u256 * bool)
  : res ((Z * u256 * u256 * bool) + (Z * u256 * u256 * bool)) :=
  let '(exp, base, acc, overflown) := st in
  if 1 <? exp then
    let! '(acc, overflown) :=
      (if Z.land exp 1 =? 1 then
         let! '(r0, r1) := u_overflowing_mul c acc base in Ret (r0, overflown || r1)
       else Ret (acc, overflown)) in
    let exp := exp / 2 in
    let! '(r0, r1) := u_overflowing_mul c base base in
    Ret (inl (exp, r0, acc, overflown || r1))
  else Ret (inr (exp, base, acc, overflown)).

(** src/uint/api.rs:1463-1492 *)
Definition u_overflowing_pow (c : cfg) (a : u256) (exp : Z) : res (u256 * bool) :=
  let! '(exp, base, acc, overflown) :=
    loop 32 (u_overflowing_pow_step c) (exp, a, U256_ONE c, false) in
  if exp =? 1 then
    let! '(r0, r1) := u_overflowing_mul c acc base in Ret (r0, overflown || r1)
  else Ret (acc, overflown).

(** One turn of the loop at src/uint/api.rs:1511-1517 *)
Definition u_pow_step (c : cfg) (st : Z * u256 * u256)
  : res ((Z * u256 * u256) + (Z * u256 * u256)) :=
  let '(exp, base, acc) := st in
  if 1 <? exp then
    let! acc := (if Z.land exp 1 =? 1 then u_op_mul_assign c acc base else Ret acc) in
    let exp := exp / 2 in
    let! base := u_op_mul c base base in
    Ret (inl (exp, base, acc))
  else Ret (inr (exp, base, acc)).

(** src/uint/api.rs:1507-1527 *)
Definition u_pow (c : cfg) (a : u256) (exp : Z) : res u256 :=
  let! '(exp, base, acc) := loop 32 (u_pow_step c) (exp, a, U256_ONE c) in
  if exp =? 1 then u_op_mul_assign c acc base else Ret acc.

(** ** Miscellaneous *)

(** src/uint/api.rs:1223-1229 *)
Definition u_abs_diff (c : cfg) (a b : u256) : res u256 :=
  if u_lt c a b then u_op_sub c b a else u_op_sub c a b.
(** src/uint/api.rs:1589-1591 *)
Definition u_is_power_of_two (c : cfg) (x : u256) : res bool :=
  let! n := u_count_ones c x in Ret (n =? 1).
(** src/uint/api.rs:1603-1611 *)
Definition u_one_less_than_next_power_of_two (c : cfg) (x : u256) : res u256 :=
  if is_le (u_cmp_prim c x 1) then Ret U256_ZERO
  else
    let! p := u_rhs_prim u_op_sub c x 1 in
    let! z := u_leading_zeros c p in
    u_op_shr c U256_MAX z.
(** src/uint/api.rs:1629-1631 *)
Definition u_next_power_of_two (c : cfg) (x : u256) : res u256 :=
  let! p := u_one_less_than_next_power_of_two c x in
  u_rhs_prim u_op_add c p 1.
(** src/uint/api.rs:1648-1651 *)
Definition u_checked_next_power_of_two (c : cfg) (x : u256) : res (option u256) :=
  let! p := u_one_less_than_next_power_of_two c x in
  Ret (u_checked_add c p (U256_ONE c)).

(** ** Bytes.  [transmute] between [u128; 2] and [u8; 32] copies each word's
    bytes in target order. *)

(** native-endian bytes of a u128, part of src/uint/api.rs:1734-1736 *)
Definition ne_bytes_128 (c : cfg) (v : Z) : list Z :=
  if big_endian c then rev (le_bytes 16 v) else le_bytes 16 v.
(** inverse, part of src/uint/api.rs:1862-1864 *)
Definition of_ne_bytes_128 (c : cfg) (l : list Z) : Z :=
  if big_endian c then of_le_bytes (rev l) else of_le_bytes l.
(** src/uint/api.rs:1734-1736 *)
Definition u_to_ne_bytes (c : cfg) (x : u256) : list Z :=
  ne_bytes_128 c (uw0 x) ++ ne_bytes_128 c (uw1 x).
(** src/uint/api.rs:1862-1864 *)
Definition u_from_ne_bytes (c : cfg) (l : list Z) : u256 :=
  mkU (of_ne_bytes_128 c (firstn 16 l)) (of_ne_bytes_128 c (skipn 16 l)).
(** src/uint/api.rs:1673-1675 *)
Definition u_to_be_bytes (c : cfg) (x : u256) : list Z := u_to_ne_bytes c (u_to_be c x).
(** src/uint/api.rs:1697-1699 *)
Definition u_to_le_bytes (c : cfg) (x : u256) : list Z := u_to_ne_bytes c (u_to_le c x).
(** src/uint/api.rs:1772-1774 *)
Definition u_from_be_bytes (c : cfg) (l : list Z) : u256 := u_from_be c (u_from_ne_bytes c l).
(** src/uint/api.rs:1810-1812 *)
Definition u_from_le_bytes (c : cfg) (l : list Z) : u256 := u_from_le c (u_from_ne_bytes c l).

(** ** div_rem family: src/uint.rs *)

(** src/uint.rs:297-329 *)
Definition u_div_rem (c : cfg) (a b : u256) : res (u256 * u256) :=
  if u_eq_prim c b 0 then
    if is_gt (u_cmp_prim c b 0) then UB "unreachable_unchecked"
    else Panic "attempt to divide by zero"
  else if is_le (u_cmp_prim c b 0) then UB "unreachable_unchecked"
  else
    let! '(q, orem) := udivmod4 c a b true in
    let! r := assume_init orem in
    if u_ge c r b then UB "unreachable_unchecked"
    else if u_gt c r a then UB "unreachable_unchecked"
    else if u_gt c q a then UB "unreachable_unchecked"
    else Ret (q, r).
(** src/uint.rs:352-354 *)
Definition u_div_rem_euclid := u_div_rem.
(** src/uint.rs:371-387 *)
Definition u_checked_div_rem (c : cfg) (a b : u256) : res (option (u256 * u256)) :=
  if u_eq c b U256_ZERO then
    if is_gt (u_cmp_prim c b 0) then UB "unreachable_unchecked" else Ret None
  else if is_le (u_cmp_prim c b 0) then UB "unreachable_unchecked"
  else let! p := u_div_rem c a b in Ret (Some p).
(** src/uint.rs:404-406 *)
Definition u_checked_div_rem_euclid := u_checked_div_rem.
(** src/uint.rs:428-430 *)
Definition u_saturating_div_rem := u_div_rem.
(** src/uint.rs:452-454 *)
Definition u_saturating_div_rem_euclid := u_div_rem.
(** src/uint.rs:477-479 *)
Definition u_wrapping_div_rem := u_div_rem.
(** src/uint.rs:503-505 *)
Definition u_wrapping_div_rem_euclid := u_div_rem.
(** src/uint.rs:529-532 *)
Definition u_overflowing_div_rem (c : cfg) (a b : u256) : res (u256 * u256 * bool) :=
  let! '(q, r) := u_div_rem c a b in Ret (q, r, false).
(** src/uint.rs:558-561 *)
Definition u_overflowing_div_rem_euclid (c : cfg) (a b : u256) : res (u256 * u256 * bool) :=
  let! '(q, r) := u_div_rem c a b in Ret (q, r, false).

(** * Methods of I256
    src/int.rs (div_rem family), src/int/api.rs *)

From Coq Require Import ZArith List String Bool.
From Verif Require Import M_Prim M_Words M_Intr M_Div M_Mul M_Ops M_UintApi.
Import ListNotations.
Open Scope Z_scope.

(** ** Bits *)

(** src/int/api.rs:95-98; i128::count_ones counts the two's complement pattern *)
Definition i_count_ones (c : cfg) (x : i256) : res Z :=
  u_add c 32 (count_ones (as_u 128 (iw0 x))) (count_ones (as_u 128 (iw1 x))).
(** src/int/api.rs:111-114 *)
Definition i_count_zeros (c : cfg) (x : i256) : res Z :=
  u_add c 32 (128 - count_ones (as_u 128 (iw0 x))) (128 - count_ones (as_u 128 (iw1 x))).
(** src/int/api.rs:130-132 *)
Definition i_leading_zeros (c : cfg) (x : i256) : res Z := ictlz c x.
(** src/int/api.rs:148-150 *)
Definition i_trailing_zeros (c : cfg) (x : i256) : res Z := icttz c x.
(** src/int/api.rs:166-168 *)
Definition i_leading_ones (c : cfg) (x : i256) : res Z := i_leading_zeros c (i_op_not x).
(** src/int/api.rs:184-186 *)
Definition i_trailing_ones (c : cfg) (x : i256) : res Z := i_trailing_zeros c (i_op_not x).
(** src/int/api.rs:210-214 *)
Definition i_rotate_left (c : cfg) (x : i256) (n : Z) : res i256 := irol3 c x n.
(** src/int/api.rs:239-243 *)
Definition i_rotate_right (c : cfg) (x : i256) (n : Z) : res i256 := iror3 c x n.
(** src/int/api.rs:267-270; i128::swap_bytes permutes the two's complement pattern *)
Definition i_swap_bytes (x : i256) : i256 :=
  mkI (as_i 128 (swap_bytes_128 (as_u 128 (iw1 x)))) (as_i 128 (swap_bytes_128 (as_u 128 (iw0 x)))).
(** src/int/api.rs:297-300 *)
Definition i_reverse_bits (x : i256) : i256 :=
  mkI (as_i 128 (reverse_bits_128 (as_u 128 (iw1 x)))) (as_i 128 (reverse_bits_128 (as_u 128 (iw0 x)))).
(** src/int/api.rs:321-330 *)
Definition i_from_be (c : cfg) (x : i256) : i256 := if big_endian c then x else i_swap_bytes x.
(** src/int/api.rs:351-360 *)
Definition i_from_le (c : cfg) (x : i256) : i256 := if negb (big_endian c) then x else i_swap_bytes x.
(** src/int/api.rs:381-391 *)
Definition i_to_be (c : cfg) (x : i256) : i256 := if big_endian c then x else i_swap_bytes x.
(** src/int/api.rs:412-421 *)
Definition i_to_le (c : cfg) (x : i256) : i256 := if negb (big_endian c) then x else i_swap_bytes x.

(** ** Sign *)

(** i128::signum, used at src/int/api.rs:2013 *)
Definition signum_128 (x : Z) : Z := Z.sgn x.
(** src/int/api.rs:2011-2014 *)
Definition i_signum128 (c : cfg) (x : i256) : Z :=
  let '(hi, lo) := i_into_words c x in
  Z.lor (signum_128 hi) (Z.b2z (negb (lo =? 0))).
(** src/int/api.rs:1990-1992 *)
Definition i_signum (c : cfg) (x : i256) : i256 := i_new c (i_signum128 c x).
(** src/int/api.rs:2029-2031 *)
Definition i_is_positive (c : cfg) (x : i256) : bool := 0 <? i_signum128 c x.
(** src/int/api.rs:2046-2049 *)
Definition i_is_negative (c : cfg) (x : i256) : bool :=
  let '(a, _) := i_into_words c x in a <? 0.

(** ** Wrapping and overflowing *)

(** src/int/api.rs:1011-1015 *)
Definition i_wrapping_add (c : cfg) (a b : i256) : i256 := iadd3 c a b.
(** src/int/api.rs:1032-1034 *)
Definition i_wrapping_add_unsigned (c : cfg) (a : i256) (rhs : u256) : i256 :=
  i_wrapping_add c a (u_as_i256 rhs).
(** src/int/api.rs:1072-1074 (wrapping_sub itself, lines 1051-1055, is in M_Intr) *)
Definition i_wrapping_sub_unsigned (c : cfg) (a : i256) (rhs : u256) : i256 :=
  i_wrapping_sub c a (u_as_i256 rhs).
(** src/int/api.rs:1091-1095 *)
Definition i_wrapping_mul (c : cfg) (a b : i256) : res i256 := imul3 c a b.
(** src/int/api.rs:1227-1229 *)
Definition i_wrapping_neg (c : cfg) (a : i256) : i256 := i_wrapping_sub c I256_ZERO a.
(** src/int/api.rs:1254-1258 *)
Definition i_wrapping_shl (c : cfg) (a : i256) (rhs : Z) : res i256 := ishl3 c a (Z.land rhs 255).
(** src/int/api.rs:1283-1287 *)
Definition i_wrapping_shr (c : cfg) (a : i256) (rhs : Z) : res i256 := sar3 c a (Z.land rhs 255).
(** src/int/api.rs:1316-1322 *)
Definition i_wrapping_abs (c : cfg) (a : i256) : i256 :=
  if i_is_negative c a then i_wrapping_neg c a else a.
(** src/int/api.rs:1345-1347 *)
Definition i_unsigned_abs (c : cfg) (a : i256) : u256 := i_as_u256 (i_wrapping_abs c a).
(** src/int/api.rs:1405-1409 *)
Definition i_overflowing_add (c : cfg) (a b : i256) : i256 * bool := iaddc c a b.
(** src/int/api.rs:1430-1434 *)
Definition i_overflowing_add_unsigned (c : cfg) (a : i256) (rhs : u256) : i256 * bool :=
  let rhs := u_as_i256 rhs in
  let '(r, overflowed) := i_overflowing_add c a rhs in
  (r, xorb overflowed (is_lt (i_cmp_prim c rhs 0))).
(** src/int/api.rs:1454-1458 *)
Definition i_overflowing_sub (c : cfg) (a b : i256) : i256 * bool := isubc c a b.
(** src/int/api.rs:1479-1483 *)
Definition i_overflowing_sub_unsigned (c : cfg) (a : i256) (rhs : u256) : i256 * bool :=
  let rhs := u_as_i256 rhs in
  let '(r, overflowed) := i_overflowing_sub c a rhs in
  (r, xorb overflowed (is_lt (i_cmp_prim c rhs 0))).
(** src/int/api.rs:1506-1525 *)
Definition i_abs_diff (c : cfg) (a b : i256) : u256 :=
  if i_lt c a b then u_wrapping_sub c (i_as_u256 b) (i_as_u256 a)
  else u_wrapping_sub c (i_as_u256 a) (i_as_u256 b).
(** src/int/api.rs:1545-1549 *)
Definition i_overflowing_mul (c : cfg) (a b : i256) : res (i256 * bool) := imulc c a b.

(** the test [self == Self::MIN && rhs == -1] of src/int.rs and src/int/api.rs; src/int.rs:298,
    src/int/api.rs:560 *)
Definition i_div_overflows (c : cfg) (a b : i256) : bool :=
  i_eq c a (I256_MIN c) && i_eq_prim c b (-1).

(** src/int/api.rs:1573-1579 *)
Definition i_overflowing_div (c : cfg) (a b : i256) : res (i256 * bool) :=
  if i_div_overflows c a b then Ret (a, true)
  else let! q := i_op_div c a b in Ret (q, false).
(** src/int/api.rs:1891-1897 *)
Definition i_div_euclid (c : cfg) (a b : i256) : res i256 :=
  let! q := i_op_div c a b in
  let! r := i_op_rem c a b in
  if is_lt (i_cmp_prim c r 0) then
    if is_gt (i_cmp_prim c b 0) then i_rhs_prim i_op_sub c q 1 else i_rhs_prim i_op_add c q 1
  else Ret q.
(** src/int/api.rs:1927-1938 *)
Definition i_rem_euclid (c : cfg) (a b : i256) : res i256 :=
  let! r := i_op_rem c a b in
  if is_lt (i_cmp_prim c r 0) then
    if is_lt (i_cmp_prim c b 0) then i_op_sub c r b else i_op_add c r b
  else Ret r.
(** src/int/api.rs:1603-1609 *)
Definition i_overflowing_div_euclid (c : cfg) (a b : i256) : res (i256 * bool) :=
  if i_div_overflows c a b then Ret (a, true)
  else let! q := i_div_euclid c a b in Ret (q, false).
(** src/int/api.rs:1633-1639 *)
Definition i_overflowing_rem (c : cfg) (a b : i256) : res (i256 * bool) :=
  if i_div_overflows c a b then Ret (I256_ZERO, true)
  else let! r := i_op_rem c a b in Ret (r, false).
(** src/int/api.rs:1663-1669 *)
Definition i_overflowing_rem_euclid (c : cfg) (a b : i256) : res (i256 * bool) :=
  if i_div_overflows c a b then Ret (I256_ZERO, true)
  else let! r := i_rem_euclid c a b in Ret (r, false).
(** src/int/api.rs:1122-1124 *)
Definition i_wrapping_div (c : cfg) (a b : i256) : res i256 := res_map fst (i_overflowing_div c a b).
(** src/int/api.rs:1150-1152 *)
Definition i_wrapping_div_euclid (c : cfg) (a b : i256) : res i256 :=
  res_map fst (i_overflowing_div_euclid c a b).
(** src/int/api.rs:1178-1180 *)
Definition i_wrapping_rem (c : cfg) (a b : i256) : res i256 := res_map fst (i_overflowing_rem c a b).
(** src/int/api.rs:1205-1207 *)
Definition i_wrapping_rem_euclid (c : cfg) (a b : i256) : res i256 :=
  res_map fst (i_overflowing_rem_euclid c a b).
(** src/int/api.rs:1688-1694 *)
Definition i_overflowing_neg (c : cfg) (a : i256) : res (i256 * bool) :=
  if i_eq c a (I256_MIN c) then Ret (I256_MIN c, true)
  else let! n := i_op_neg c a in Ret (n, false).
(** src/int/api.rs:1716-1718 *)
Definition i_overflowing_shl (c : cfg) (a : i256) (rhs : Z) : res (i256 * bool) :=
  let! r := i_wrapping_shl c a rhs in Ret (r, 255 <? rhs).
(** src/int/api.rs:1740-1742 *)
Definition i_overflowing_shr (c : cfg) (a : i256) (rhs : Z) : res (i256 * bool) :=
  let! r := i_wrapping_shr c a rhs in Ret (r, 255 <? rhs).
(** src/int/api.rs:1762-1764 *)
Definition i_overflowing_abs (c : cfg) (a : i256) : i256 * bool :=
  (i_wrapping_abs c a, i_eq c a (I256_MIN c)).
(** src/int/api.rs:1965-1971 *)
Definition i_abs (c : cfg) (a : i256) : res i256 :=
  if i_is_negative c a then i_op_neg c a else Ret a.

(** ** Checked *)

(** src/int/api.rs:438-445 *)
Definition i_checked_add (c : cfg) (a b : i256) : option i256 := none_if_flag (i_overflowing_add c a b).
(** src/int/api.rs:462-469 *)
Definition i_checked_add_unsigned (c : cfg) (a : i256) (b : u256) : option i256 :=
  none_if_flag (i_overflowing_add_unsigned c a b).
(** src/int/api.rs:486-493 *)
Definition i_checked_sub (c : cfg) (a b : i256) : option i256 := none_if_flag (i_overflowing_sub c a b).
(** src/int/api.rs:510-517 *)
Definition i_checked_sub_unsigned (c : cfg) (a : i256) (b : u256) : option i256 :=
  none_if_flag (i_overflowing_sub_unsigned c a b).
(** src/int/api.rs:534-541 *)
Definition i_checked_mul (c : cfg) (a b : i256) : res (option i256) :=
  let! p := i_overflowing_mul c a b in Ret (none_if_flag p).
(** src/int/api.rs:559-567 *)
Definition i_checked_div (c : cfg) (a b : i256) : res (option i256) :=
  if i_eq_prim c b 0 || i_div_overflows c a b then Ret None
  else let! q := idiv3 c a b in Ret (Some q).
(** src/int/api.rs:585-591 *)
Definition i_checked_div_euclid (c : cfg) (a b : i256) : res (option i256) :=
  if i_eq_prim c b 0 || i_div_overflows c a b then Ret None
  else let! q := i_div_euclid c a b in Ret (Some q).
(** src/int/api.rs:609-617 *)
Definition i_checked_rem (c : cfg) (a b : i256) : res (option i256) :=
  if i_eq_prim c b 0 || i_div_overflows c a b then Ret None
  else let! q := irem3 c a b in Ret (Some q).
(** src/int/api.rs:635-641 *)
Definition i_checked_rem_euclid (c : cfg) (a b : i256) : res (option i256) :=
  if i_eq_prim c b 0 || i_div_overflows c a b then Ret None
  else let! q := i_rem_euclid c a b in Ret (Some q).
(** src/int/api.rs:655-662 *)
Definition i_checked_neg (c : cfg) (a : i256) : res (option i256) :=
  let! p := i_overflowing_neg c a in Ret (none_if_flag p).
(** src/int/api.rs:679-686 *)
Definition i_checked_shl (c : cfg) (a : i256) (rhs : Z) : res (option i256) :=
  let! p := i_overflowing_shl c a rhs in Ret (none_if_flag p).
(** src/int/api.rs:703-710 *)
Definition i_checked_shr (c : cfg) (a : i256) (rhs : Z) : res (option i256) :=
  let! p := i_overflowing_shr c a rhs in Ret (none_if_flag p).
(** src/int/api.rs:725-731 *)
Definition i_checked_abs (c : cfg) (a : i256) : res (option i256) :=
  if i_is_negative c a then i_checked_neg c a else Ret (Some a).

(** One turn of the loop at src/int/api.rs:755-761 *)
Definition i_checked_pow_step (c : cfg) (st : Z * i256 * i256)
  : res ((Z * i256 * i256) + option (Z * i256 * i256)) :=
  let '(exp, base, acc) := st in
  if 1 <? exp then
    let! oacc := (if Z.land exp 1 =? 1 then i_checked_mul c acc base else Ret (Some acc)) in
    try_opt oacc (fun acc =>
    let exp := exp / 2 in
    let! obase := i_checked_mul c base base in
    try_opt obase (fun base => Ret (inl (exp, base, acc))))
  else Ret (inr (Some (exp, base, acc))).
(** src/int/api.rs:748-767 *)
Definition i_checked_pow (c : cfg) (a : i256) (exp : Z) : res (option i256) :=
  if exp =? 0 then Ret (Some (I256_ONE c)) else
  let! o := loop 32 (i_checked_pow_step c) (exp, a, I256_ONE c) in
  match o with
  | None => Ret None
  | Some (exp, base, acc) => i_checked_mul c acc base
  end.

(** ** Saturating *)

(** src/int/api.rs:785-796 *)
Definition i_saturating_add (c : cfg) (a b : i256) : i256 :=
  match i_checked_add c a b with
  | Some x => x
  | None => if is_gt (i_cmp_prim c b 0) then I256_MAX c else I256_MIN c
  end.
(** src/int/api.rs:813-819 *)
Definition i_saturating_add_unsigned (c : cfg) (a : i256) (b : u256) : i256 :=
  match i_checked_add_unsigned c a b with Some x => x | None => I256_MAX c end.
(** src/int/api.rs:837-848 *)
Definition i_saturating_sub (c : cfg) (a b : i256) : i256 :=
  match i_checked_sub c a b with
  | Some x => x
  | None => if is_gt (i_cmp_prim c b 0) then I256_MIN c else I256_MAX c
  end.
(** src/int/api.rs:865-871 *)
Definition i_saturating_sub_unsigned (c : cfg) (a : i256) (b : u256) : i256 :=
  match i_checked_sub_unsigned c a b with Some x => x | None => I256_MIN c end.
(** src/int/api.rs:888-890 *)
Definition i_saturating_neg (c : cfg) (a : i256) : i256 := i_saturating_sub c I256_ZERO a.
(** src/int/api.rs:907-913 *)
Definition i_saturating_abs (c : cfg) (a : i256) : i256 :=
  if i_is_negative c a then i_saturating_neg c a else a.
(** src/int/api.rs:931-942 *)
Definition i_saturating_mul (c : cfg) (a b : i256) : res i256 :=
  let! o := i_checked_mul c a b in
  match o with
  | Some x => Ret x
  | None =>
      if Bool.eqb (is_lt (i_cmp_prim c a 0)) (is_lt (i_cmp_prim c b 0))
      then Ret (I256_MAX c) else Ret (I256_MIN c)
  end.
(** src/int/api.rs:965-970 *)
Definition i_saturating_div (c : cfg) (a b : i256) : res i256 :=
  let! '(r, o) := i_overflowing_div c a b in
  if o : bool then Ret (I256_MAX c) else Ret r.
(** src/int/api.rs:988-994 *)
Definition i_saturating_pow (c : cfg) (a : i256) (exp : Z) : res i256 :=
  let! o := i_checked_pow c a exp in
  match o with
  | Some x => Ret x
  | None =>
      if is_lt (i_cmp_prim c a 0) && (exp mod 2 =? 1) then Ret (I256_MIN c) else Ret (I256_MAX c)
  end.

(** ** Power *)

(** One turn of the loop at src/int/api.rs:1372-1378 *)
Definition i_wrapping_pow_step (c : cfg) (st : Z * i256 * i256)
  : res ((Z * i256 * i256) + (Z * i256 * i256)) :=
  let '(exp, base, acc) := st in
  if 1 <? exp then
    let! acc := (if Z.land exp 1 =? 1 then i_wrapping_mul c acc base else Ret acc) in
    let exp := exp / 2 in
    let! base := i_wrapping_mul c base base in
    Ret (inl (exp, base, acc))
  else Ret (inr (exp, base, acc)).
(** src/int/api.rs:1365-1385 *)
Definition i_wrapping_pow (c : cfg) (a : i256) (exp : Z) : res i256 :=
  if exp =? 0 then Ret (I256_ONE c) else
  let! '(exp, base, acc) := loop 32 (i_wrapping_pow_step c) (exp, a, I256_ONE c) in
  i_wrapping_mul c acc base.

(** One turn of the loop at src/int/api.rs:1802-1812 *)
Definition i_overflowing_pow_step (c : cfg) (st : Z * i256 * i256 * bool)
  : res ((Z * i256 * i256 * bool) + (Z * i256 * i256 * bool)) :=
  let '(exp, base, acc, overflown) := st in
  if 1 <? exp then
    let! '(acc, overflown) :=
      (if Z.land exp 1 =? 1 then
         let! '(r0, r1) := i_overflowing_mul c acc base in Ret (r0, overflown || r1)
       else Ret (acc, overflown)) in
    let exp := exp / 2 in
    let! '(r0, r1) := i_overflowing_mul c base base in
    Ret (inl (exp, r0, acc, overflown || r1))
  else Ret (inr (exp, base, acc, overflown)).
(** src/int/api.rs:1792-1821 *)
Definition i_overflowing_pow (c : cfg) (a : i256) (exp : Z) : res (i256 * bool) :=
  if exp =? 0 then Ret (I256_ONE c, false) else
  let! '(exp, base, acc, overflown) :=
    loop 32 (i_overflowing_pow_step c) (exp, a, I256_ONE c, false) in
  let! '(r0, r1) := i_overflowing_mul c acc base in
  Ret (r0, r1 || overflown).

(** One turn of the loop at src/int/api.rs:1844-1850 *)
Definition i_pow_step (c : cfg) (st : Z * i256 * i256)
  : res ((Z * i256 * i256) + (Z * i256 * i256)) :=
  let '(exp, base, acc) := st in
  if 1 <? exp then
    let! acc := (if Z.land exp 1 =? 1 then i_op_mul_assign c acc base else Ret acc) in
    let exp := exp / 2 in
    let! base := i_op_mul c base base in
    Ret (inl (exp, base, acc))
  else Ret (inr (exp, base, acc)).
(** src/int/api.rs:1837-1857 *)
Definition i_pow (c : cfg) (a : i256) (exp : Z) : res i256 :=
  if exp =? 0 then Ret (I256_ONE c) else
  let! '(exp, base, acc) := loop 32 (i_pow_step c) (exp, a, I256_ONE c) in
  i_op_mul c acc base.

(** ** Bytes *)

(** src/int/api.rs:2133-2137 *)
Definition i_to_ne_bytes (c : cfg) (x : i256) : list Z :=
  ne_bytes_128 c (as_u 128 (iw0 x)) ++ ne_bytes_128 c (as_u 128 (iw1 x)).
(** src/int/api.rs:2257-2260 *)
Definition i_from_ne_bytes (c : cfg) (l : list Z) : i256 :=
  mkI (as_i 128 (of_ne_bytes_128 c (firstn 16 l))) (as_i 128 (of_ne_bytes_128 c (skipn 16 l))).
(** src/int/api.rs:2071-2073 *)
Definition i_to_be_bytes (c : cfg) (x : i256) : list Z := i_to_ne_bytes c (i_to_be c x).
(** src/int/api.rs:2095-2097 *)
Definition i_to_le_bytes (c : cfg) (x : i256) : list Z := i_to_ne_bytes c (i_to_le c x).
(** src/int/api.rs:2171-2173 *)
Definition i_from_be_bytes (c : cfg) (l : list Z) : i256 := i_from_be c (i_from_ne_bytes c l).
(** src/int/api.rs:2207-2209 *)
Definition i_from_le_bytes (c : cfg) (l : list Z) : i256 := i_from_le c (i_from_ne_bytes c l).

(** ** div_rem family: src/int.rs *)

(** the test [rhs.cmp(&I256::ZERO) == Equal] of src/int.rs:360,393,483,489 *)
Definition i_cmp_zero_is_eq (c : cfg) (b : i256) : bool :=
  match i_cmp c b I256_ZERO with Eq => true | _ => false end.

(** src/int.rs:481-498 *)
Definition i_wrapping_div_rem (c : cfg) (a b : i256) : res (i256 * i256) :=
  if i_eq_prim c b 0 then
    if negb (i_cmp_zero_is_eq c b) then UB "unreachable_unchecked"
    else Panic "attempt to divide by zero"
  else if i_cmp_zero_is_eq c b then UB "unreachable_unchecked"
  else
    let! '(q, orem) := idivmod4 c a b true in
    let! r := assume_init orem in
    Ret (q, r).
(** src/int.rs:297-302 *)
Definition i_div_rem (c : cfg) (a b : i256) : res (i256 * i256) :=
  if i_div_overflows c a b then Panic "attempt to divide with overflow"
  else i_wrapping_div_rem c a b.
(** src/int.rs:529-562 *)
Definition i_wrapping_div_rem_euclid (c : cfg) (a b : i256) : res (i256 * i256) :=
  let dividend_sign := i_is_negative c a in
  let quotient_sign := xorb dividend_sign (i_is_negative c b) in
  let abs_dividend := i_unsigned_abs c a in
  let abs_divisor := i_unsigned_abs c b in
  let! '(q, r) := u_div_rem c abs_dividend abs_divisor in
  let quotient := u_as_i256 q in
  let remainder := u_as_i256 r in
  let adjust_remainder := dividend_sign && negb (i_eq_prim c remainder 0) in
  let! remainder :=
    (if adjust_remainder then i_op_sub c (u_as_i256 abs_divisor) remainder else Ret remainder) in
  let! _ :=
    (if i_is_negative c remainder || u_ge c (i_as_u256 remainder) abs_divisor then
       let! _ := debug_assert c false "assertion failed: false" in
       UB "unreachable_unchecked"
     else Ret tt) in
  let! quotient :=
    (if adjust_remainder then
       if quotient_sign then Ret (i_op_not quotient)
       else i_rhs_prim i_op_add_assign c quotient 1
     else if quotient_sign then Ret (i_wrapping_neg c quotient)
     else Ret quotient) in
  Ret (quotient, remainder).
(** src/int.rs:332-337 *)
Definition i_div_rem_euclid (c : cfg) (a b : i256) : res (i256 * i256) :=
  if i_div_overflows c a b then Panic "attempt to divide with overflow"
  else i_wrapping_div_rem_euclid c a b.
(** src/int.rs:356-370 *)
Definition i_checked_div_rem (c : cfg) (a b : i256) : res (option (i256 * i256)) :=
  if i_eq_prim c b 0 || i_div_overflows c a b then Ret None
  else if i_cmp_zero_is_eq c b then UB "unreachable_unchecked"
  else
    let! '(q, orem) := idivmod4 c a b true in
    let! r := assume_init orem in
    Ret (Some (q, r)).
(** src/int.rs:389-400 *)
Definition i_checked_div_rem_euclid (c : cfg) (a b : i256) : res (option (i256 * i256)) :=
  if i_eq_prim c b 0 || i_div_overflows c a b then Ret None
  else if i_cmp_zero_is_eq c b then UB "unreachable_unchecked"
  else let! p := i_wrapping_div_rem_euclid c a b in Ret (Some p).
(** src/int.rs:587-594 *)
Definition i_overflowing_div_rem (c : cfg) (a b : i256) : res (i256 * i256 * bool) :=
  if i_div_overflows c a b then Ret (a, I256_ZERO, true)
  else let! '(q, r) := i_wrapping_div_rem c a b in Ret (q, r, false).
(** src/int.rs:619-626 *)
Definition i_overflowing_div_rem_euclid (c : cfg) (a b : i256) : res (i256 * i256 * bool) :=
  if i_div_overflows c a b then Ret (a, I256_ZERO, true)
  else let! '(q, r) := i_wrapping_div_rem_euclid c a b in Ret (q, r, false).
(** src/int.rs:423-428 *)
Definition i_saturating_div_rem (c : cfg) (a b : i256) : res (i256 * i256) :=
  let! '(q, r, o) := i_overflowing_div_rem c a b in
  if o : bool then Ret (I256_MAX c, r) else Ret (q, r).
(** src/int.rs:451-456 *)
Definition i_saturating_div_rem_euclid (c : cfg) (a b : i256) : res (i256 * i256) :=
  let! '(q, r, o) := i_overflowing_div_rem_euclid c a b in
  if o : bool then Ret (I256_MAX c, r) else Ret (q, r).

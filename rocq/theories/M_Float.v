(** * Conversions with f32 and f64
    src/uint.rs:262-276, src/int.rs:265-274, src/uint/convert.rs:121-160, src/int/convert.rs:115-161 *)

From Coq Require Import ZArith List String Bool.
From Verif Require Import M_Prim M_Words M_Intr M_Ops M_IntApi M_Convert.
Import ListNotations.
Open Scope Z_scope.

(** A binary floating point format: total width, MANTISSA_DIGITS, and the integer
    type of the same width used for shift amounts in the conversions (Shl<u32> for
    f32, Shl<u64> for f64). src/uint/convert.rs:121-122, 158-160 *)
Record ffmt := { f_width : Z; f_digits : Z; f_amount : Z -> amount }.
(** f32[u32], src/uint/convert.rs:159 *)
Definition F32 : ffmt := {| f_width := 32; f_digits := 24; f_amount := Amt_u32 |}.
(** f64[u64], src/uint/convert.rs:159 *)
Definition F64 : ffmt := {| f_width := 64; f_digits := 53; f_amount := Amt_prim |}.

(** ** Reading a bit pattern (IEEE 754 interchange format) *)

(** A float is NaN, an infinity or [(-1)^neg * m * 2^e]. For src/uint/convert.rs:139-140. *)
Inductive float := FNan | FInf (neg : bool) | FNum (neg : bool) (m e : Z).
(** exponent bias; for src/uint/convert.rs:139 *)
Definition f_bias (f : ffmt) : Z := 2 ^ (f_width f - f_digits f - 1) - 1.
(** f32::from_bits / f64::from_bits; src/uint/convert.rs:139-140 compares a float and takes its bits; src/uint.rs:276 *)
Definition f_of_bits (f : ffmt) (b : Z) : float :=
  let mb := f_digits f - 1 in
  let neg := 0 <? b / 2 ^ (f_width f - 1) in
  let ex := (b / 2 ^ mb) mod 2 ^ (f_width f - f_digits f) in
  let man := b mod 2 ^ mb in
  if ex =? 2 ^ (f_width f - f_digits f) - 1 then (if man =? 0 then FInf neg else FNan)
  else if ex =? 0 then FNum neg man (1 - f_bias f - mb)
  else FNum neg (2 ^ mb + man) (ex - f_bias f - mb).
(** [x >= 1.0]; src/uint/convert.rs:139, src/int/convert.rs:138 *)
Definition f_ge_one (x : float) : bool :=
  match x with
  | FNan => false
  | FInf neg => negb neg
  | FNum neg m e => negb neg && (if 0 <=? e then 1 <=? m * 2 ^ e else 2 ^ (- e) <=? m)
  end.

(** ** Float to integer.  The argument is the bit pattern of the float
    ([to_bits]); [n] is the width of the bits type. *)

(** src/uint/convert.rs:133 *)
Definition c_M (f : ffmt) : Z := f_digits f - 1.
(** src/uint/convert.rs:134, !(!0 << M) *)
Definition c_MAN_MASK (f : ffmt) : Z :=
  u_not (f_width f) (Z.shiftl (u_not (f_width f) 0) (c_M f) mod 2 ^ f_width f).
(** src/uint/convert.rs:135 *)
Definition c_MAN_ONE (f : ffmt) : Z := Z.shiftl 1 (c_M f) mod 2 ^ f_width f.
(** src/uint/convert.rs:136 *)
Definition c_EXP_MASK (f : ffmt) : Z := Z.shiftr (u_not (f_width f) 0) (f_digits f).
(** src/uint/convert.rs:137 *)
Definition c_EXP_OFFSET (f : ffmt) : Z := c_EXP_MASK f / 2.
(** src/int/convert.rs:132 *)
Definition c_ABS_MASK (f : ffmt) : Z := Z.shiftr (u_not (f_width f) 0) 1.
(** src/int/convert.rs:133 *)
Definition c_SIG_MASK (f : ffmt) : Z := u_not (f_width f) (c_ABS_MASK f).

(** src/uint/convert.rs:125-153 *)
Definition float_as_u256 (f : ffmt) (c : cfg) (bits : Z) : res u256 :=
  let n := f_width f in
  if f_ge_one (f_of_bits f bits) then
    let! e0 := p_shr c n bits (c_M f) in
    let! exponent := u_sub c n (Z.land e0 (c_EXP_MASK f)) (c_EXP_OFFSET f) in
    let mantissa := Z.lor (Z.land bits (c_MAN_MASK f)) (c_MAN_ONE f) in
    if exponent <=? c_M f then
      let! s := u_sub c n (c_M f) exponent in
      let! m := p_shr c n mantissa s in
      Ret (u_from_prim c m)
    else if exponent <? 256 then
      let! s := u_sub c n exponent (c_M f) in
      u_shl_amt c (u_from_prim c mantissa) (f_amount f s)
    else Ret U256_MAX
  else Ret U256_ZERO.

(** src/int/convert.rs:119-154.  [sign] is an i128; the subtraction is wrapping
    and the negation of 1 or -1 cannot overflow. *)
Definition float_as_i256 (f : ffmt) (c : cfg) (bits0 : Z) : res i256 :=
  let n := f_width f in
  let abs := Z.land bits0 (c_ABS_MASK f) in
  let! s0 := p_shr c n (Z.land bits0 (c_SIG_MASK f)) (n - 2) in
  let sign := - as_i 128 (as_i 128 s0 - 1) in
  if f_ge_one (f_of_bits f abs) then
    let bits := abs in
    let! e0 := p_shr c n bits (c_M f) in
    let! exponent := u_sub c n (Z.land e0 (c_EXP_MASK f)) (c_EXP_OFFSET f) in
    let mantissa := Z.lor (Z.land bits (c_MAN_MASK f)) (c_MAN_ONE f) in
    if exponent <=? c_M f then
      let! s := u_sub c n (c_M f) exponent in
      let! m := p_shr c n mantissa s in
      i_rhs_prim i_op_mul c (i_from_prim c m) sign
    else if exponent <? 255 then
      let! s := u_sub c n exponent (c_M f) in
      let! x := i_shl_amt c (i_from_prim c mantissa) (f_amount f s) in
      i_rhs_prim i_op_mul c x sign
    else if 0 <? sign then Ret (I256_MAX c)
    else Ret (I256_MIN c)
  else Ret I256_ZERO.

(** ** Integer to float

    Every float met here is a whole number or an infinity, and zeros are
    positive, so a float is represented by its value.  The operations are those
    of IEEE 754 with rounding to nearest, ties to even (what Rust's [as] casts
    and arithmetic do): round as if the exponent were unbounded, then overflow to
    infinity. *)
(** For src/uint.rs:262-277 and src/int.rs:265-274. *)
Inductive fl := Fin (v : Z) | Inf (neg : bool).

(** nearest multiple of 2^s to z >= 0, ties to an even quotient; for the casts and operations of
    src/uint.rs:262-277 *)
Definition rne_at (s z : Z) : Z :=
  let q := z / 2 ^ s in
  let r := z mod 2 ^ s in
  if 2 * r <? 2 ^ s then q * 2 ^ s
  else if 2 ^ s <? 2 * r then (q + 1) * 2 ^ s
  else if Z.even q then q * 2 ^ s else (q + 1) * 2 ^ s.
(** z >= 0 rounded to p significant bits; for the casts and operations of src/uint.rs:262-277 *)
Definition rne (p z : Z) : Z := if z <? 2 ^ p then z else rne_at (Z.log2 z + 1 - p) z.
(** largest exponent plus one: 128 for f32, 1024 for f64; for src/uint.rs:262-267 *)
Definition f_emax (f : ffmt) : Z := 2 ^ (f_width f - f_digits f - 1).
(** [z as f32], [z as f64], e.g. src/uint.rs:264 and 276 *)
Definition rnd (f : ffmt) (z : Z) : fl :=
  let y := Z.sgn z * rne (f_digits f) (Z.abs z) in
  if 2 ^ f_emax f <=? Z.abs y then Inf (y <? 0) else Fin y.
(** [a * b]; an infinity times a non-zero number (the only product with an
    infinity that could arise here); src/uint.rs:276, src/int.rs:273 *)
Definition fl_mul (f : ffmt) (a b : fl) : fl :=
  match a, b with
  | Fin x, Fin y => rnd f (x * y)
  | Inf s, Fin y => Inf (xorb s (y <? 0))
  | Fin x, Inf s => Inf (xorb s (x <? 0))
  | Inf s, Inf s' => Inf (xorb s s')
  end.
(** [a + b]; never applied to infinities of opposite signs; src/uint.rs:276 *)
Definition fl_add (f : ffmt) (a b : fl) : fl :=
  match a, b with
  | Fin x, Fin y => rnd f (x + y)
  | Inf s, _ => Inf s
  | _, Inf s => Inf s
  end.
(** [x as f32] for an f64 [x]; src/int.rs:266 *)
Definition fl_cast (f : ffmt) (a : fl) : fl := match a with Fin x => rnd f x | Inf s => Inf s end.

(** src/uint.rs:262-267 *)
Definition u_as_f32 (c : cfg) (x : u256) : fl :=
  let '(hi, lo) := u_into_words c x in
  if hi =? 0 then rnd F32 lo else Inf false.
(** src/uint.rs:271-277; 0x47f0000000000000 is the bit pattern of 2^128 *)
Definition u_as_f64 (c : cfg) (x : u256) : fl :=
  let HI := match f_of_bits F64 0x47f0000000000000 with
            | FNum false m e => Fin (m * 2 ^ e) | _ => Inf false end in
  let '(hi, lo) := u_into_words c x in
  fl_add F64 (fl_mul F64 (rnd F64 hi) HI) (rnd F64 lo).
(** src/int.rs:271-274 *)
Definition i_as_f64 (c : cfg) (x : i256) : fl :=
  let sign := rnd F64 (i_signum128 c x) in
  fl_mul F64 (u_as_f64 c (i_unsigned_abs c x)) sign.
(** src/int.rs:265-267 *)
Definition i_as_f32 (c : cfg) (x : i256) : fl := fl_cast F32 (i_as_f64 c x).

(** From<U256> and From<I256> for f32 and f64: src/uint/convert.rs:185-198, src/int/convert.rs:186-199 *)
Definition f32_from_u256 := u_as_f32.
(** src/uint/convert.rs:185-198 *)
Definition f64_from_u256 := u_as_f64.
(** src/int/convert.rs:186-199 *)
Definition f32_from_i256 := i_as_f32.
(** src/int/convert.rs:186-199 *)
Definition f64_from_i256 := i_as_f64.

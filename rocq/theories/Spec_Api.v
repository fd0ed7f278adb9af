(** * The public operations, with their signatures

    The catalogue the properties about builds (C43, C44, C45, C48) range over. *)

From Coq Require Import ZArith List String Bool.
Import ListNotations.
From Verif Require Import M_Prim M_Words M_Intr M_Div M_Mul M_Ops M_UintApi M_IntApi M_Convert M_Float M_Parse M_Fmt M_Serde M_Misc
  Spec Spec_Shift Spec_Bits Spec_Serde Spec_Builds.
Open Scope Z_scope.

Notation "k --> s" := (Takes k s) (at level 55, right associativity).

(** ** Arguments and results without 256-bit integers *)
Definition any {A : Type} (_ : A) : Prop := True.
Definition range (lo hi v : Z) : Prop := lo <= v < hi.
Definition U32 := Same Z (range 0 (2 ^ 32)).
Definition U64 := Same Z (range 0 (2 ^ 64)).
Definition U128 := Same Z (range 0 (2 ^ 128)).
Definition I128 := Same Z (range (- 2 ^ 127) (2 ^ 127)).
(** a value of some primitive integer type *)
Definition Prim := Same Z (range (- 2 ^ 127) (2 ^ 128)).
Definition UpTo256 := Same Z (range 0 257).
Definition Int := Same Z any.
Definition Flag := Same bool any.
Definition Ordering := Same comparison any.
Definition Float := Same fl any.
Definition IntType := Same ity (fun t => In t int_types).
Definition Text := Same (list Z) any.
Definition Bytes := Same (list Z) bytes_ok.
Definition Bytes32 := Same (list Z) (is_bytes 32).
Definition Options := Same fmt_opts any.
Definition Kind := Same radix_kind any.
(** the pieces of text a formatter receives *)
Definition Writes := Same (list (list Z)) any.
(** a decoded binary floating-point number *)
Definition Number := Same float any.
Definition Order := Same order any.
(** a sequence whose elements, where there is no error, are bytes *)
Definition Seq := Same seq_access (fun s => Forall (fun e => forall b, e = DOk b -> 0 <= b < 256) (elements s)).

(** Every operation with every argument its type allows, except that shifts take amounts
    in 0..=255 and rotations at most 256; see [api_amounts] for the other amounts. *)
Definition api : list operation :=
  [Op (U --> U --> Gives U) u_wrapping_add;
   Op (U --> U --> Gives U) u_saturating_add;
   Op (U --> U --> Gives U) u_wrapping_sub;
   Op (U --> U --> Gives U) u_saturating_sub;
   Op (U --> U --> Gives U) u_max;
   Op (U --> U --> Gives U) u_min;
   Op (U --> U --> Gives (Pair U Flag)) u_overflowing_add;
   Op (U --> U --> Gives (Pair U Flag)) u_overflowing_sub;
   Op (U --> U --> Gives (Opt U)) u_checked_add;
   Op (U --> U --> Gives (Opt U)) u_checked_sub;
   Op (U --> U --> Runs U) u_abs_diff;
   Op (U --> U --> Runs U) u_wrapping_mul;
   Op (U --> U --> Runs U) u_saturating_mul;
   Op (U --> U --> Runs U) u_op_add;
   Op (U --> U --> Runs U) u_op_add_assign;
   Op (U --> U --> Runs U) u_op_sub;
   Op (U --> U --> Runs U) u_op_sub_assign;
   Op (U --> U --> Runs U) u_op_mul;
   Op (U --> U --> Runs U) u_op_mul_assign;
   Op (U --> U --> Runs U) u_op_div;
   Op (U --> U --> Runs U) u_op_div_assign;
   Op (U --> U --> Runs U) u_op_rem;
   Op (U --> U --> Runs U) u_op_rem_assign;
   Op (U --> U --> Runs U) u_div_euclid;
   Op (U --> U --> Runs U) u_rem_euclid;
   Op (U --> U --> Runs U) u_wrapping_div;
   Op (U --> U --> Runs U) u_wrapping_div_euclid;
   Op (U --> U --> Runs U) u_wrapping_rem;
   Op (U --> U --> Runs U) u_wrapping_rem_euclid;
   Op (U --> U --> Runs U) u_saturating_div;
   Op (U --> U --> Runs (Pair U Flag)) u_overflowing_mul;
   Op (U --> U --> Runs (Pair U Flag)) u_overflowing_div;
   Op (U --> U --> Runs (Pair U Flag)) u_overflowing_div_euclid;
   Op (U --> U --> Runs (Pair U Flag)) u_overflowing_rem;
   Op (U --> U --> Runs (Pair U Flag)) u_overflowing_rem_euclid;
   Op (U --> U --> Runs (Opt U)) u_checked_mul;
   Op (U --> U --> Runs (Opt U)) u_checked_div;
   Op (U --> U --> Runs (Opt U)) u_checked_div_euclid;
   Op (U --> U --> Runs (Opt U)) u_checked_rem;
   Op (U --> U --> Runs (Opt U)) u_checked_rem_euclid;
   Op (U --> U --> Runs (Pair U U)) u_div_rem;
   Op (U --> U --> Runs (Pair U U)) u_div_rem_euclid;
   Op (U --> U --> Runs (Pair U U)) u_wrapping_div_rem;
   Op (U --> U --> Runs (Pair U U)) u_wrapping_div_rem_euclid;
   Op (U --> U --> Runs (Pair U U)) u_saturating_div_rem;
   Op (U --> U --> Runs (Pair U U)) u_saturating_div_rem_euclid;
   Op (U --> U --> Runs (Pair (Pair U U) Flag)) u_overflowing_div_rem;
   Op (U --> U --> Runs (Pair (Pair U U) Flag)) u_overflowing_div_rem_euclid;
   Op (U --> U --> Runs (Opt (Pair U U))) u_checked_div_rem;
   Op (U --> U --> Runs (Opt (Pair U U))) u_checked_div_rem_euclid;
   Op (U --> Gives U) u_wrapping_neg;
   Op (U --> Gives (Pair U Flag)) u_overflowing_neg;
   Op (U --> Gives (Opt U)) u_checked_neg;
   Op (U --> I --> Gives U) u_wrapping_add_signed;
   Op (U --> I --> Gives U) u_saturating_add_signed;
   Op (U --> I --> Gives (Pair U Flag)) u_overflowing_add_signed;
   Op (U --> I --> Gives (Opt U)) u_checked_add_signed;
   Op (U --> U32 --> Runs U) u_wrapping_pow;
   Op (U --> U32 --> Runs U) u_saturating_pow;
   Op (U --> U32 --> Runs U) u_pow;
   Op (U --> U32 --> Runs (Pair U Flag)) u_overflowing_pow;
   Op (U --> U32 --> Runs (Opt U)) u_checked_pow;
   Op (U --> Runs Flag) u_is_power_of_two;
   Op (U --> Runs U) u_next_power_of_two;
   Op (U --> Runs (Opt U)) u_checked_next_power_of_two;
   Op (List U --> Runs U) u_sum;
   Op (List U --> Runs U) u_product;
   Op (I --> I --> Gives I) i_wrapping_add;
   Op (I --> I --> Gives I) i_saturating_add;
   Op (I --> I --> Gives I) i_wrapping_sub;
   Op (I --> I --> Gives I) i_saturating_sub;
   Op (I --> I --> Gives I) i_max;
   Op (I --> I --> Gives I) i_min;
   Op (I --> I --> Gives U) i_abs_diff;
   Op (I --> I --> Gives (Pair I Flag)) i_overflowing_add;
   Op (I --> I --> Gives (Pair I Flag)) i_overflowing_sub;
   Op (I --> I --> Gives (Opt I)) i_checked_add;
   Op (I --> I --> Gives (Opt I)) i_checked_sub;
   Op (I --> I --> Runs I) i_wrapping_mul;
   Op (I --> I --> Runs I) i_saturating_mul;
   Op (I --> I --> Runs I) i_op_add;
   Op (I --> I --> Runs I) i_op_add_assign;
   Op (I --> I --> Runs I) i_op_sub;
   Op (I --> I --> Runs I) i_op_sub_assign;
   Op (I --> I --> Runs I) i_op_mul;
   Op (I --> I --> Runs I) i_op_mul_assign;
   Op (I --> I --> Runs I) i_op_div;
   Op (I --> I --> Runs I) i_op_div_assign;
   Op (I --> I --> Runs I) i_op_rem;
   Op (I --> I --> Runs I) i_op_rem_assign;
   Op (I --> I --> Runs I) i_div_euclid;
   Op (I --> I --> Runs I) i_rem_euclid;
   Op (I --> I --> Runs I) i_wrapping_div;
   Op (I --> I --> Runs I) i_wrapping_div_euclid;
   Op (I --> I --> Runs I) i_wrapping_rem;
   Op (I --> I --> Runs I) i_wrapping_rem_euclid;
   Op (I --> I --> Runs I) i_saturating_div;
   Op (I --> I --> Runs (Pair I Flag)) i_overflowing_mul;
   Op (I --> I --> Runs (Pair I Flag)) i_overflowing_div;
   Op (I --> I --> Runs (Pair I Flag)) i_overflowing_div_euclid;
   Op (I --> I --> Runs (Pair I Flag)) i_overflowing_rem;
   Op (I --> I --> Runs (Pair I Flag)) i_overflowing_rem_euclid;
   Op (I --> I --> Runs (Opt I)) i_checked_mul;
   Op (I --> I --> Runs (Opt I)) i_checked_div;
   Op (I --> I --> Runs (Opt I)) i_checked_div_euclid;
   Op (I --> I --> Runs (Opt I)) i_checked_rem;
   Op (I --> I --> Runs (Opt I)) i_checked_rem_euclid;
   Op (I --> I --> Runs (Pair I I)) i_div_rem;
   Op (I --> I --> Runs (Pair I I)) i_div_rem_euclid;
   Op (I --> I --> Runs (Pair I I)) i_wrapping_div_rem;
   Op (I --> I --> Runs (Pair I I)) i_wrapping_div_rem_euclid;
   Op (I --> I --> Runs (Pair I I)) i_saturating_div_rem;
   Op (I --> I --> Runs (Pair I I)) i_saturating_div_rem_euclid;
   Op (I --> I --> Runs (Pair (Pair I I) Flag)) i_overflowing_div_rem;
   Op (I --> I --> Runs (Pair (Pair I I) Flag)) i_overflowing_div_rem_euclid;
   Op (I --> I --> Runs (Opt (Pair I I))) i_checked_div_rem;
   Op (I --> I --> Runs (Opt (Pair I I))) i_checked_div_rem_euclid;
   Op (I --> Gives I) i_wrapping_neg;
   Op (I --> Gives I) i_saturating_neg;
   Op (I --> Gives I) i_wrapping_abs;
   Op (I --> Gives I) i_saturating_abs;
   Op (I --> Gives I) i_signum;
   Op (I --> Gives U) i_unsigned_abs;
   Op (I --> Gives (Pair I Flag)) i_overflowing_abs;
   Op (I --> Gives Int) i_signum128;
   Op (I --> Gives Flag) i_is_positive;
   Op (I --> Gives Flag) i_is_negative;
   Op (I --> Runs (Pair I Flag)) i_overflowing_neg;
   Op (I --> Runs (Opt I)) i_checked_neg;
   Op (I --> Runs (Opt I)) i_checked_abs;
   Op (I --> Runs I) i_op_neg;
   Op (I --> Runs I) i_abs;
   Op (I --> U --> Gives I) i_wrapping_add_unsigned;
   Op (I --> U --> Gives I) i_saturating_add_unsigned;
   Op (I --> U --> Gives I) i_wrapping_sub_unsigned;
   Op (I --> U --> Gives I) i_saturating_sub_unsigned;
   Op (I --> U --> Gives (Pair I Flag)) i_overflowing_add_unsigned;
   Op (I --> U --> Gives (Pair I Flag)) i_overflowing_sub_unsigned;
   Op (I --> U --> Gives (Opt I)) i_checked_add_unsigned;
   Op (I --> U --> Gives (Opt I)) i_checked_sub_unsigned;
   Op (I --> U32 --> Runs I) i_wrapping_pow;
   Op (I --> U32 --> Runs I) i_saturating_pow;
   Op (I --> U32 --> Runs I) i_pow;
   Op (I --> U32 --> Runs (Pair I Flag)) i_overflowing_pow;
   Op (I --> U32 --> Runs (Opt I)) i_checked_pow;
   Op (List I --> Runs I) i_sum;
   Op (List I --> Runs I) i_product;
   Op (U --> U128 --> Runs U) (u_rhs_prim u_op_add);
   Op (U --> U128 --> Runs U) (u_rhs_prim u_op_add_assign);
   Op (U128 --> U --> Runs U) (u_lhs_prim u_op_add);
   Op (I --> I128 --> Runs I) (i_rhs_prim i_op_add);
   Op (I --> I128 --> Runs I) (i_rhs_prim i_op_add_assign);
   Op (I128 --> I --> Runs I) (i_lhs_prim i_op_add);
   Op (U --> U128 --> Runs U) (u_rhs_prim u_op_sub);
   Op (U --> U128 --> Runs U) (u_rhs_prim u_op_sub_assign);
   Op (U128 --> U --> Runs U) (u_lhs_prim u_op_sub);
   Op (I --> I128 --> Runs I) (i_rhs_prim i_op_sub);
   Op (I --> I128 --> Runs I) (i_rhs_prim i_op_sub_assign);
   Op (I128 --> I --> Runs I) (i_lhs_prim i_op_sub);
   Op (U --> U128 --> Runs U) (u_rhs_prim u_op_mul);
   Op (U --> U128 --> Runs U) (u_rhs_prim u_op_mul_assign);
   Op (U128 --> U --> Runs U) (u_lhs_prim u_op_mul);
   Op (I --> I128 --> Runs I) (i_rhs_prim i_op_mul);
   Op (I --> I128 --> Runs I) (i_rhs_prim i_op_mul_assign);
   Op (I128 --> I --> Runs I) (i_lhs_prim i_op_mul);
   Op (U --> U128 --> Runs U) (u_rhs_prim u_op_div);
   Op (U --> U128 --> Runs U) (u_rhs_prim u_op_div_assign);
   Op (U128 --> U --> Runs U) (u_lhs_prim u_op_div);
   Op (I --> I128 --> Runs I) (i_rhs_prim i_op_div);
   Op (I --> I128 --> Runs I) (i_rhs_prim i_op_div_assign);
   Op (I128 --> I --> Runs I) (i_lhs_prim i_op_div);
   Op (U --> U128 --> Runs U) (u_rhs_prim u_op_rem);
   Op (U --> U128 --> Runs U) (u_rhs_prim u_op_rem_assign);
   Op (U128 --> U --> Runs U) (u_lhs_prim u_op_rem);
   Op (I --> I128 --> Runs I) (i_rhs_prim i_op_rem);
   Op (I --> I128 --> Runs I) (i_rhs_prim i_op_rem_assign);
   Op (I128 --> I --> Runs I) (i_lhs_prim i_op_rem);
   Op (U --> U --> Gives Flag) u_eq;
   Op (U --> U --> Gives Flag) u_lt;
   Op (U --> U --> Gives Flag) u_le;
   Op (U --> U --> Gives Flag) u_gt;
   Op (U --> U --> Gives Flag) u_ge;
   Op (U --> U --> Gives Ordering) u_cmp;
   Op (I --> I --> Gives Flag) i_eq;
   Op (I --> I --> Gives Flag) i_lt;
   Op (I --> I --> Gives Flag) i_le;
   Op (I --> I --> Gives Flag) i_gt;
   Op (I --> I --> Gives Flag) i_ge;
   Op (I --> I --> Gives Ordering) i_cmp;
   Op (U --> U128 --> Gives Flag) u_eq_prim;
   Op (U128 --> U --> Gives Flag) prim_eq_u;
   Op (U --> U128 --> Gives Ordering) u_cmp_prim;
   Op (U128 --> U --> Gives Ordering) prim_cmp_u;
   Op (I --> I128 --> Gives Flag) i_eq_prim;
   Op (I128 --> I --> Gives Flag) prim_eq_i;
   Op (I --> I128 --> Gives Ordering) i_cmp_prim;
   Op (I128 --> I --> Gives Ordering) prim_cmp_i;
   Op (U128 --> U128 --> Gives U) u_from_words;
   Op (U --> Gives (Pair Int Int)) u_into_words;
   Op (U --> Gives Int) u_low;
   Op (U --> Gives Int) u_high;
   Op (I128 --> I128 --> Gives I) i_from_words;
   Op (I --> Gives (Pair Int Int)) i_into_words;
   Op (I --> Gives Int) i_low;
   Op (I --> Gives Int) i_high;
   Op (U128 --> Gives U) u_new;
   Op (I128 --> Gives I) i_new;
   Op (U --> U --> Gives U) (fun _ => u_op_and);
   Op (U --> U --> Gives U) (fun _ => u_op_and_assign);
   Op (I --> I --> Gives I) (fun _ => i_op_and);
   Op (I --> I --> Gives I) (fun _ => i_op_and_assign);
   Op (U --> U --> Gives U) (fun _ => u_op_or);
   Op (U --> U --> Gives U) (fun _ => u_op_or_assign);
   Op (I --> I --> Gives I) (fun _ => i_op_or);
   Op (I --> I --> Gives I) (fun _ => i_op_or_assign);
   Op (U --> U --> Gives U) (fun _ => u_op_xor);
   Op (U --> U --> Gives U) (fun _ => u_op_xor_assign);
   Op (I --> I --> Gives I) (fun _ => i_op_xor);
   Op (I --> I --> Gives I) (fun _ => i_op_xor_assign);
   Op (U --> Gives U) (fun _ => u_op_not);
   Op (U --> Gives U) (fun _ => u_swap_bytes);
   Op (U --> Gives U) (fun _ => u_reverse_bits);
   Op (I --> Gives I) (fun _ => i_op_not);
   Op (I --> Gives I) (fun _ => i_swap_bytes);
   Op (I --> Gives I) (fun _ => i_reverse_bits);
   Op (U --> Runs Int) u_count_ones;
   Op (I --> Runs Int) i_count_ones;
   Op (U --> Runs Int) u_count_zeros;
   Op (I --> Runs Int) i_count_zeros;
   Op (U --> Runs Int) u_leading_zeros;
   Op (I --> Runs Int) i_leading_zeros;
   Op (U --> Runs Int) u_leading_ones;
   Op (I --> Runs Int) i_leading_ones;
   Op (U --> Runs Int) u_trailing_zeros;
   Op (I --> Runs Int) i_trailing_zeros;
   Op (U --> Runs Int) u_trailing_ones;
   Op (I --> Runs Int) i_trailing_ones;
   Op (U --> Amt256 --> Runs U) u_shl_amt;
   Op (U --> Amt256 --> Runs U) u_shl_assign;
   Op (I --> Amt256 --> Runs I) i_shl_amt;
   Op (I --> Amt256 --> Runs I) i_shl_assign;
   Op (U --> U32 --> Runs U) u_wrapping_shl;
   Op (U --> U32 --> Runs (Pair U Flag)) u_overflowing_shl;
   Op (U --> U32 --> Runs (Opt U)) u_checked_shl;
   Op (I --> U32 --> Runs I) i_wrapping_shl;
   Op (I --> U32 --> Runs (Pair I Flag)) i_overflowing_shl;
   Op (I --> U32 --> Runs (Opt I)) i_checked_shl;
   Op (U --> Amt256 --> Runs U) u_shr_amt;
   Op (U --> Amt256 --> Runs U) u_shr_assign;
   Op (I --> Amt256 --> Runs I) i_shr_amt;
   Op (I --> Amt256 --> Runs I) i_shr_assign;
   Op (U --> U32 --> Runs U) u_wrapping_shr;
   Op (U --> U32 --> Runs (Pair U Flag)) u_overflowing_shr;
   Op (U --> U32 --> Runs (Opt U)) u_checked_shr;
   Op (I --> U32 --> Runs I) i_wrapping_shr;
   Op (I --> U32 --> Runs (Pair I Flag)) i_overflowing_shr;
   Op (I --> U32 --> Runs (Opt I)) i_checked_shr;
   Op (U --> UpTo256 --> Runs U) u_rotate_left;
   Op (I --> UpTo256 --> Runs I) i_rotate_left;
   Op (U --> UpTo256 --> Runs U) u_rotate_right;
   Op (I --> UpTo256 --> Runs I) i_rotate_right;
   Op (U --> Gives Bytes) u_to_be_bytes;
   Op (U --> Gives Bytes) u_to_le_bytes;
   Op (I --> Gives Bytes) i_to_be_bytes;
   Op (I --> Gives Bytes) i_to_le_bytes;
   Op (Bytes32 --> Gives U) u_from_be_bytes;
   Op (Bytes32 --> Gives U) u_from_le_bytes;
   Op (Bytes32 --> Gives I) i_from_be_bytes;
   Op (Bytes32 --> Gives I) i_from_le_bytes;
   Op (IntType --> U --> Gives Int) u_as;
   Op (IntType --> I --> Gives Int) i_as;
   Op (IntType --> U --> Gives (Opt Int)) u_try_into;
   Op (IntType --> I --> Gives (Opt Int)) i_try_into;
   Op (Prim --> Gives U) prim_as_u256;
   Op (Prim --> Gives I) prim_as_i256;
   Op (Prim --> Gives I) i_from_prim;
   Op (U128 --> Gives U) u_from_prim;
   Op (Prim --> Gives (Opt U)) u_try_from_prim;
   Op (Flag --> Gives U) bool_as_u256;
   Op (Flag --> Gives U) u_from_bool;
   Op (Flag --> Gives I) bool_as_i256;
   Op (Flag --> Gives I) i_from_bool;
   Op (U --> Gives I) (fun _ => u_as_i256);
   Op (U --> Gives I) (fun _ => u256_as_i256);
   Op (I --> Gives U) (fun _ => i_as_u256);
   Op (I --> Gives U) (fun _ => i256_as_u256);
   Op (U --> Gives U) (fun _ => u256_as_u256);
   Op (I --> Gives I) (fun _ => i256_as_i256);
   Op (U --> Gives (Opt I)) i_try_from_u256;
   Op (I --> Gives (Opt U)) u_try_from_i256;
   Op (U32 --> Runs U) (float_as_u256 F32);
   Op (U32 --> Runs I) (float_as_i256 F32);
   Op (U64 --> Runs U) (float_as_u256 F64);
   Op (U64 --> Runs I) (float_as_i256 F64);
   Op (U --> Gives Float) u_as_f32;
   Op (U --> Gives Float) u_as_f64;
   Op (I --> Gives Float) i_as_f32;
   Op (I --> Gives Float) i_as_f64;
   Op (Text --> U32 --> Runs (Result U)) u_from_str_radix;
   Op (Text --> Runs (Result U)) u_from_str;
   Op (Text --> Runs (Result U)) u_from_str_hex;
   Op (Text --> Runs (Result U)) u_from_str_prefixed;
   Op (Text --> Runs U) u_const_from_str_prefixed;
   Op (Options --> U --> Runs Writes) u_fmt_display;
   Op (Options --> U --> Runs Writes) u_fmt_debug;
   Op (Kind --> Options --> U --> Runs Writes) u_fmt_radix;
   Op (U --> Runs Text) u_serialize;
   Op (U --> Runs Text) u_serialize_decimal;
   Op (U --> Runs Text) u_serialize_prefixed;
   Op (U --> Runs Text) u_serialize_permissive;
   Op (Text --> Runs (De U)) (fun c => format_visit_str (u_de_hex c));
   Op (Text --> Runs (De U)) (fun c => format_visit_bytes (u_de_hex c));
   Op (Text --> Runs (De U)) (fun c => format_visit_str (u_de_decimal c));
   Op (Text --> Runs (De U)) (fun c => format_visit_bytes (u_de_decimal c));
   Op (Text --> Runs (De U)) (fun c => format_visit_str (u_de_prefixed c));
   Op (Text --> Runs (De U)) (fun c => format_visit_bytes (u_de_prefixed c));
   Op (Text --> Runs (De U)) u_permissive_visit_str;
   Op (Prim --> Runs (De U)) (visit_int u_cast);
   Op (Number --> Runs (De U)) (visit_f64 u_cast);
   Op (Number --> Runs (De U)) (visit_f32 u_cast);
   Op (Order --> U --> Gives Bytes) u_ser_bytes;
   Op (Order --> U --> Runs Bytes) u_ser_compressed;
   Op (Order --> Bytes --> Runs (De U)) u_visit_bytes;
   Op (Order --> Bytes --> Runs (De U)) u_compressed_visit_bytes;
   Op (Order --> Seq --> Runs (De U)) u_visit_seq;
   Op (Order --> Seq --> Runs (De U)) u_compressed_visit_seq;
   Op (Text --> U32 --> Runs (Result I)) i_from_str_radix;
   Op (Text --> Runs (Result I)) i_from_str;
   Op (Text --> Runs (Result I)) i_from_str_hex;
   Op (Text --> Runs (Result I)) i_from_str_prefixed;
   Op (Text --> Runs I) i_const_from_str_prefixed;
   Op (Options --> I --> Runs Writes) i_fmt_display;
   Op (Options --> I --> Runs Writes) i_fmt_debug;
   Op (Kind --> Options --> I --> Runs Writes) i_fmt_radix;
   Op (I --> Runs Text) i_serialize;
   Op (I --> Runs Text) i_serialize_decimal;
   Op (I --> Runs Text) i_serialize_prefixed;
   Op (I --> Runs Text) i_serialize_permissive;
   Op (Text --> Runs (De I)) (fun c => format_visit_str (i_de_hex c));
   Op (Text --> Runs (De I)) (fun c => format_visit_bytes (i_de_hex c));
   Op (Text --> Runs (De I)) (fun c => format_visit_str (i_de_decimal c));
   Op (Text --> Runs (De I)) (fun c => format_visit_bytes (i_de_decimal c));
   Op (Text --> Runs (De I)) (fun c => format_visit_str (i_de_prefixed c));
   Op (Text --> Runs (De I)) (fun c => format_visit_bytes (i_de_prefixed c));
   Op (Text --> Runs (De I)) i_permissive_visit_str;
   Op (Prim --> Runs (De I)) (visit_int i_cast);
   Op (Number --> Runs (De I)) (visit_f64 i_cast);
   Op (Number --> Runs (De I)) (visit_f32 i_cast);
   Op (Order --> I --> Gives Bytes) i_ser_bytes;
   Op (Order --> I --> Runs Bytes) i_ser_compressed;
   Op (Order --> Bytes --> Runs (De I)) i_visit_bytes;
   Op (Order --> Bytes --> Runs (De I)) i_compressed_visit_bytes;
   Op (Order --> Seq --> Runs (De I)) i_visit_seq;
   Op (Order --> Seq --> Runs (De I)) i_compressed_visit_seq;
   Op (U --> U --> U --> Runs U) u_clamp;
   Op (I --> I --> I --> Runs I) i_clamp;
   Op (U --> U --> Gives Flag) u_ne;
   Op (I --> I --> Gives Flag) i_ne].

(** Shifts and rotations with every amount. *)
Definition api_amounts : list operation :=
  [Op (U --> Amt --> Runs U) u_shl_amt;
   Op (U --> Amt --> Runs U) u_shl_assign;
   Op (I --> Amt --> Runs I) i_shl_amt;
   Op (I --> Amt --> Runs I) i_shl_assign;
   Op (U --> Amt --> Runs U) u_shr_amt;
   Op (U --> Amt --> Runs U) u_shr_assign;
   Op (I --> Amt --> Runs I) i_shr_amt;
   Op (I --> Amt --> Runs I) i_shr_assign;
   Op (U --> U32 --> Runs U) u_rotate_left;
   Op (I --> U32 --> Runs I) i_rotate_left;
   Op (U --> U32 --> Runs U) u_rotate_right;
   Op (I --> U32 --> Runs I) i_rotate_right].

(** Operations that are defined by the byte order of the target. *)
Definition api_memory : list operation :=
  [Op (U --> Gives Bytes) u_to_ne_bytes;
   Op (U --> Gives Bytes) u_mem_bytes;
   Op (I --> Gives Bytes) i_to_ne_bytes;
   Op (I --> Gives Bytes) i_mem_bytes;
   Op (Bytes32 --> Gives U) u_from_ne_bytes;
   Op (Bytes32 --> Gives I) i_from_ne_bytes;
   Op (U --> Gives U) u_from_be;
   Op (U --> Gives U) u_from_le;
   Op (U --> Gives U) u_to_be;
   Op (U --> Gives U) u_to_le;
   Op (I --> Gives I) i_from_be;
   Op (I --> Gives I) i_from_le;
   Op (I --> Gives I) i_to_be;
   Op (I --> Gives I) i_to_le;
   Op (U --> Gives Bytes) (fun c => u_ser_bytes c (native c));
   Op (Bytes --> Runs (De U)) (fun c => u_visit_bytes c (native c));
   Op (I --> Gives Bytes) (fun c => i_ser_bytes c (native c));
   Op (Bytes --> Runs (De I)) (fun c => i_visit_bytes c (native c))].


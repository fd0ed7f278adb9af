(** * Vocabulary: when an operation panics

    The catalogue of public operations again, each with the exact condition under
    which it panics. *)

From Coq Require Import ZArith List String Bool.
Import ListNotations.
From Verif Require Import M_Prim M_Words M_Intr M_Div M_Mul M_Ops M_UintApi M_IntApi M_Convert M_Float M_Parse M_Fmt M_Serde M_Misc
  Spec Spec_Fold Spec_Shift Spec_Bits Spec_Serde Spec_Parse Spec_Builds Spec_Api.
Open Scope Z_scope.

(** A condition on the arguments of a function that may panic. *)
Fixpoint cond (s : sig) : Type :=
  match s with
  | Gives _ => unit
  | Runs _ => Prop
  | Takes k s => den k -> cond s
  end.
Fixpoint never (s : sig) : cond s :=
  match s with
  | Gives _ => tt
  | Runs _ => False
  | Takes _ s => fun _ => never s
  end.

(** [panics_when c s f P]: on every legal list of arguments, [f] panics if they
    meet [P] and returns a value if they do not. *)
Fixpoint panics_when (c : cfg) (s : sig) : fn s -> cond s -> Prop :=
  match s with
  | Gives k => fun _ _ => True
  | Runs k => fun r P => P /\ panics r \/ ~ P /\ exists v, r = Ret v
  | Takes k s => fun f P => forall x, legal c k x -> panics_when c s (f x) (P x)
  end.

(** An operation and its condition. *)
Record entry := Entry { e_sig : sig; e_fn : forall c : cfg, fn e_sig; e_cond : cfg -> cond e_sig }.
Definition e_op (e : entry) : operation := Op (e_sig e) (e_fn e).

(** ** Conditions *)

(** the checks for overflow are on and the result is out of range *)
Definition over_u (c : cfg) (v : Z) : Prop := debug_assertions c = true /\ ~ 0 <= v <= MAXU.
Definition over_i (c : cfg) (v : Z) : Prop := debug_assertions c = true /\ ~ MINI <= v <= MAXI.

(** The combined Euclidean division takes the remainder from the absolute value of the divisor;
    that of the least number is the least number again, and the difference overflows. *)
Definition euclid_slip (c : cfg) (a b : i256) : Prop :=
  debug_assertions c = true /\ ival c b = MINI /\ MINI < ival c a < 0.

(** a literal in range none of whose digits causes a carry, see [low_sum] *)
Definition accepted (signed : bool) (lo hi : Z) (s : list Z) : Prop :=
  exists pre r text ds, In (pre, r) radix_prefixes /\ snd (sign signed s) = pre ++ text /\ text <> [] /\
    numeral r (filter (fun ch => negb (blank ch)) text) ds /\
    lo <= signed_by (fst (sign signed s)) (value r ds) <= hi /\
    forall p d q, ds = p ++ d :: q -> low_sum r (value r p) < 2 ^ 128.

(** ** The table *)

(** the operations of [api] *)
Definition panics_api : list entry :=
  [Entry (U --> U --> Gives U) u_wrapping_add (fun _ => never _);
   Entry (U --> U --> Gives U) u_saturating_add (fun _ => never _);
   Entry (U --> U --> Gives U) u_wrapping_sub (fun _ => never _);
   Entry (U --> U --> Gives U) u_saturating_sub (fun _ => never _);
   Entry (U --> U --> Gives U) u_max (fun _ => never _);
   Entry (U --> U --> Gives U) u_min (fun _ => never _);
   Entry (U --> U --> Gives (Pair U Flag)) u_overflowing_add (fun _ => never _);
   Entry (U --> U --> Gives (Pair U Flag)) u_overflowing_sub (fun _ => never _);
   Entry (U --> U --> Gives (Opt U)) u_checked_add (fun _ => never _);
   Entry (U --> U --> Gives (Opt U)) u_checked_sub (fun _ => never _);
   Entry (U --> U --> Runs U) u_abs_diff (fun _ => never _);
   Entry (U --> U --> Runs U) u_wrapping_mul (fun _ => never _);
   Entry (U --> U --> Runs U) u_saturating_mul (fun _ => never _);
   Entry (U --> U --> Runs U) u_op_add (fun c a b => over_u c (uval c a + uval c b));
   Entry (U --> U --> Runs U) u_op_add_assign (fun c a b => over_u c (uval c a + uval c b));
   Entry (U --> U --> Runs U) u_op_sub (fun c a b => over_u c (uval c a - uval c b));
   Entry (U --> U --> Runs U) u_op_sub_assign (fun c a b => over_u c (uval c a - uval c b));
   Entry (U --> U --> Runs U) u_op_mul (fun c a b => over_u c (uval c a * uval c b));
   Entry (U --> U --> Runs U) u_op_mul_assign (fun c a b => over_u c (uval c a * uval c b));
   Entry (U --> U --> Runs U) u_op_div (fun c a b => uval c b = 0);
   Entry (U --> U --> Runs U) u_op_div_assign (fun c a b => uval c b = 0);
   Entry (U --> U --> Runs U) u_op_rem (fun c a b => uval c b = 0);
   Entry (U --> U --> Runs U) u_op_rem_assign (fun c a b => uval c b = 0);
   Entry (U --> U --> Runs U) u_div_euclid (fun c a b => uval c b = 0);
   Entry (U --> U --> Runs U) u_rem_euclid (fun c a b => uval c b = 0);
   Entry (U --> U --> Runs U) u_wrapping_div (fun c a b => uval c b = 0);
   Entry (U --> U --> Runs U) u_wrapping_div_euclid (fun c a b => uval c b = 0);
   Entry (U --> U --> Runs U) u_wrapping_rem (fun c a b => uval c b = 0);
   Entry (U --> U --> Runs U) u_wrapping_rem_euclid (fun c a b => uval c b = 0);
   Entry (U --> U --> Runs U) u_saturating_div (fun c a b => uval c b = 0);
   Entry (U --> U --> Runs (Pair U Flag)) u_overflowing_mul (fun _ => never _);
   Entry (U --> U --> Runs (Pair U Flag)) u_overflowing_div (fun c a b => uval c b = 0);
   Entry (U --> U --> Runs (Pair U Flag)) u_overflowing_div_euclid (fun c a b => uval c b = 0);
   Entry (U --> U --> Runs (Pair U Flag)) u_overflowing_rem (fun c a b => uval c b = 0);
   Entry (U --> U --> Runs (Pair U Flag)) u_overflowing_rem_euclid (fun c a b => uval c b = 0);
   Entry (U --> U --> Runs (Opt U)) u_checked_mul (fun _ => never _);
   Entry (U --> U --> Runs (Opt U)) u_checked_div (fun _ => never _);
   Entry (U --> U --> Runs (Opt U)) u_checked_div_euclid (fun _ => never _);
   Entry (U --> U --> Runs (Opt U)) u_checked_rem (fun _ => never _);
   Entry (U --> U --> Runs (Opt U)) u_checked_rem_euclid (fun _ => never _);
   Entry (U --> U --> Runs (Pair U U)) u_div_rem (fun c a b => uval c b = 0);
   Entry (U --> U --> Runs (Pair U U)) u_div_rem_euclid (fun c a b => uval c b = 0);
   Entry (U --> U --> Runs (Pair U U)) u_wrapping_div_rem (fun c a b => uval c b = 0);
   Entry (U --> U --> Runs (Pair U U)) u_wrapping_div_rem_euclid (fun c a b => uval c b = 0);
   Entry (U --> U --> Runs (Pair U U)) u_saturating_div_rem (fun c a b => uval c b = 0);
   Entry (U --> U --> Runs (Pair U U)) u_saturating_div_rem_euclid (fun c a b => uval c b = 0);
   Entry (U --> U --> Runs (Pair (Pair U U) Flag)) u_overflowing_div_rem (fun c a b => uval c b = 0);
   Entry (U --> U --> Runs (Pair (Pair U U) Flag)) u_overflowing_div_rem_euclid (fun c a b => uval c b = 0);
   Entry (U --> U --> Runs (Opt (Pair U U))) u_checked_div_rem (fun _ => never _);
   Entry (U --> U --> Runs (Opt (Pair U U))) u_checked_div_rem_euclid (fun _ => never _);
   Entry (U --> Gives U) u_wrapping_neg (fun _ => never _);
   Entry (U --> Gives (Pair U Flag)) u_overflowing_neg (fun _ => never _);
   Entry (U --> Gives (Opt U)) u_checked_neg (fun _ => never _);
   Entry (U --> I --> Gives U) u_wrapping_add_signed (fun _ => never _);
   Entry (U --> I --> Gives U) u_saturating_add_signed (fun _ => never _);
   Entry (U --> I --> Gives (Pair U Flag)) u_overflowing_add_signed (fun _ => never _);
   Entry (U --> I --> Gives (Opt U)) u_checked_add_signed (fun _ => never _);
   Entry (U --> U32 --> Runs U) u_wrapping_pow (fun _ => never _);
   Entry (U --> U32 --> Runs U) u_saturating_pow (fun _ => never _);
   Entry (U --> U32 --> Runs U) u_pow (fun c a b => over_u c (uval c a ^ b));
   Entry (U --> U32 --> Runs (Pair U Flag)) u_overflowing_pow (fun _ => never _);
   Entry (U --> U32 --> Runs (Opt U)) u_checked_pow (fun _ => never _);
   Entry (U --> Runs Flag) u_is_power_of_two (fun _ => never _);
   Entry (U --> Runs U) u_next_power_of_two (fun c a => debug_assertions c = true /\ 2 ^ 255 < uval c a);
   Entry (U --> Runs (Opt U)) u_checked_next_power_of_two (fun _ => never _);
   Entry (List U --> Runs U) u_sum (fun c l => exists n, over_u c (sumz (firstn n (map (uval c) l))));
   Entry (List U --> Runs U) u_product (fun c l => exists n, over_u c (prodz (firstn n (map (uval c) l))));
   Entry (I --> I --> Gives I) i_wrapping_add (fun _ => never _);
   Entry (I --> I --> Gives I) i_saturating_add (fun _ => never _);
   Entry (I --> I --> Gives I) i_wrapping_sub (fun _ => never _);
   Entry (I --> I --> Gives I) i_saturating_sub (fun _ => never _);
   Entry (I --> I --> Gives I) i_max (fun _ => never _);
   Entry (I --> I --> Gives I) i_min (fun _ => never _);
   Entry (I --> I --> Gives U) i_abs_diff (fun _ => never _);
   Entry (I --> I --> Gives (Pair I Flag)) i_overflowing_add (fun _ => never _);
   Entry (I --> I --> Gives (Pair I Flag)) i_overflowing_sub (fun _ => never _);
   Entry (I --> I --> Gives (Opt I)) i_checked_add (fun _ => never _);
   Entry (I --> I --> Gives (Opt I)) i_checked_sub (fun _ => never _);
   Entry (I --> I --> Runs I) i_wrapping_mul (fun _ => never _);
   Entry (I --> I --> Runs I) i_saturating_mul (fun _ => never _);
   Entry (I --> I --> Runs I) i_op_add (fun c a b => over_i c (ival c a + ival c b));
   Entry (I --> I --> Runs I) i_op_add_assign (fun c a b => over_i c (ival c a + ival c b));
   Entry (I --> I --> Runs I) i_op_sub (fun c a b => over_i c (ival c a - ival c b));
   Entry (I --> I --> Runs I) i_op_sub_assign (fun c a b => over_i c (ival c a - ival c b));
   Entry (I --> I --> Runs I) i_op_mul (fun c a b => over_i c (ival c a * ival c b));
   Entry (I --> I --> Runs I) i_op_mul_assign (fun c a b => over_i c (ival c a * ival c b));
   Entry (I --> I --> Runs I) i_op_div (fun c a b => ival c b = 0);
   Entry (I --> I --> Runs I) i_op_div_assign (fun c a b => ival c b = 0);
   Entry (I --> I --> Runs I) i_op_rem (fun c a b => ival c b = 0);
   Entry (I --> I --> Runs I) i_op_rem_assign (fun c a b => ival c b = 0);
   Entry (I --> I --> Runs I) i_div_euclid (fun c a b => ival c b = 0);
   Entry (I --> I --> Runs I) i_rem_euclid (fun c a b => ival c b = 0);
   Entry (I --> I --> Runs I) i_wrapping_div (fun c a b => ival c b = 0);
   Entry (I --> I --> Runs I) i_wrapping_div_euclid (fun c a b => ival c b = 0);
   Entry (I --> I --> Runs I) i_wrapping_rem (fun c a b => ival c b = 0);
   Entry (I --> I --> Runs I) i_wrapping_rem_euclid (fun c a b => ival c b = 0);
   Entry (I --> I --> Runs I) i_saturating_div (fun c a b => ival c b = 0);
   Entry (I --> I --> Runs (Pair I Flag)) i_overflowing_mul (fun _ => never _);
   Entry (I --> I --> Runs (Pair I Flag)) i_overflowing_div (fun c a b => ival c b = 0);
   Entry (I --> I --> Runs (Pair I Flag)) i_overflowing_div_euclid (fun c a b => ival c b = 0);
   Entry (I --> I --> Runs (Pair I Flag)) i_overflowing_rem (fun c a b => ival c b = 0);
   Entry (I --> I --> Runs (Pair I Flag)) i_overflowing_rem_euclid (fun c a b => ival c b = 0);
   Entry (I --> I --> Runs (Opt I)) i_checked_mul (fun _ => never _);
   Entry (I --> I --> Runs (Opt I)) i_checked_div (fun _ => never _);
   Entry (I --> I --> Runs (Opt I)) i_checked_div_euclid (fun _ => never _);
   Entry (I --> I --> Runs (Opt I)) i_checked_rem (fun _ => never _);
   Entry (I --> I --> Runs (Opt I)) i_checked_rem_euclid (fun _ => never _);
   Entry (I --> I --> Runs (Pair I I)) i_div_rem (fun c a b => ival c b = 0 \/ ival c a = MINI /\ ival c b = -1);
   Entry (I --> I --> Runs (Pair I I)) i_div_rem_euclid (fun c a b => ival c b = 0 \/ ival c a = MINI /\ ival c b = -1 \/ euclid_slip c a b);
   Entry (I --> I --> Runs (Pair I I)) i_wrapping_div_rem (fun c a b => ival c b = 0);
   Entry (I --> I --> Runs (Pair I I)) i_wrapping_div_rem_euclid (fun c a b => ival c b = 0 \/ euclid_slip c a b);
   Entry (I --> I --> Runs (Pair I I)) i_saturating_div_rem (fun c a b => ival c b = 0);
   Entry (I --> I --> Runs (Pair I I)) i_saturating_div_rem_euclid (fun c a b => ival c b = 0 \/ euclid_slip c a b);
   Entry (I --> I --> Runs (Pair (Pair I I) Flag)) i_overflowing_div_rem (fun c a b => ival c b = 0);
   Entry (I --> I --> Runs (Pair (Pair I I) Flag)) i_overflowing_div_rem_euclid (fun c a b => ival c b = 0 \/ euclid_slip c a b);
   Entry (I --> I --> Runs (Opt (Pair I I))) i_checked_div_rem (fun _ => never _);
   Entry (I --> I --> Runs (Opt (Pair I I))) i_checked_div_rem_euclid (fun c a b => euclid_slip c a b);
   Entry (I --> Gives I) i_wrapping_neg (fun _ => never _);
   Entry (I --> Gives I) i_saturating_neg (fun _ => never _);
   Entry (I --> Gives I) i_wrapping_abs (fun _ => never _);
   Entry (I --> Gives I) i_saturating_abs (fun _ => never _);
   Entry (I --> Gives I) i_signum (fun _ => never _);
   Entry (I --> Gives U) i_unsigned_abs (fun _ => never _);
   Entry (I --> Gives (Pair I Flag)) i_overflowing_abs (fun _ => never _);
   Entry (I --> Gives Int) i_signum128 (fun _ => never _);
   Entry (I --> Gives Flag) i_is_positive (fun _ => never _);
   Entry (I --> Gives Flag) i_is_negative (fun _ => never _);
   Entry (I --> Runs (Pair I Flag)) i_overflowing_neg (fun _ => never _);
   Entry (I --> Runs (Opt I)) i_checked_neg (fun _ => never _);
   Entry (I --> Runs (Opt I)) i_checked_abs (fun _ => never _);
   Entry (I --> Runs I) i_op_neg (fun c a => debug_assertions c = true /\ ival c a = MINI);
   Entry (I --> Runs I) i_abs (fun c a => debug_assertions c = true /\ ival c a = MINI);
   Entry (I --> U --> Gives I) i_wrapping_add_unsigned (fun _ => never _);
   Entry (I --> U --> Gives I) i_saturating_add_unsigned (fun _ => never _);
   Entry (I --> U --> Gives I) i_wrapping_sub_unsigned (fun _ => never _);
   Entry (I --> U --> Gives I) i_saturating_sub_unsigned (fun _ => never _);
   Entry (I --> U --> Gives (Pair I Flag)) i_overflowing_add_unsigned (fun _ => never _);
   Entry (I --> U --> Gives (Pair I Flag)) i_overflowing_sub_unsigned (fun _ => never _);
   Entry (I --> U --> Gives (Opt I)) i_checked_add_unsigned (fun _ => never _);
   Entry (I --> U --> Gives (Opt I)) i_checked_sub_unsigned (fun _ => never _);
   Entry (I --> U32 --> Runs I) i_wrapping_pow (fun _ => never _);
   Entry (I --> U32 --> Runs I) i_saturating_pow (fun _ => never _);
   Entry (I --> U32 --> Runs I) i_pow (fun c a b => over_i c (ival c a ^ b));
   Entry (I --> U32 --> Runs (Pair I Flag)) i_overflowing_pow (fun _ => never _);
   Entry (I --> U32 --> Runs (Opt I)) i_checked_pow (fun _ => never _);
   Entry (List I --> Runs I) i_sum (fun c l => exists n, over_i c (sumz (firstn n (map (ival c) l))));
   Entry (List I --> Runs I) i_product (fun c l => exists n, over_i c (prodz (firstn n (map (ival c) l))));
   Entry (U --> U128 --> Runs U) (u_rhs_prim u_op_add) (fun c a b => over_u c (uval c a + b));
   Entry (U --> U128 --> Runs U) (u_rhs_prim u_op_add_assign) (fun c a b => over_u c (uval c a + b));
   Entry (U128 --> U --> Runs U) (u_lhs_prim u_op_add) (fun c a b => over_u c (a + uval c b));
   Entry (I --> I128 --> Runs I) (i_rhs_prim i_op_add) (fun c a b => over_i c (ival c a + b));
   Entry (I --> I128 --> Runs I) (i_rhs_prim i_op_add_assign) (fun c a b => over_i c (ival c a + b));
   Entry (I128 --> I --> Runs I) (i_lhs_prim i_op_add) (fun c a b => over_i c (a + ival c b));
   Entry (U --> U128 --> Runs U) (u_rhs_prim u_op_sub) (fun c a b => over_u c (uval c a - b));
   Entry (U --> U128 --> Runs U) (u_rhs_prim u_op_sub_assign) (fun c a b => over_u c (uval c a - b));
   Entry (U128 --> U --> Runs U) (u_lhs_prim u_op_sub) (fun c a b => over_u c (a - uval c b));
   Entry (I --> I128 --> Runs I) (i_rhs_prim i_op_sub) (fun c a b => over_i c (ival c a - b));
   Entry (I --> I128 --> Runs I) (i_rhs_prim i_op_sub_assign) (fun c a b => over_i c (ival c a - b));
   Entry (I128 --> I --> Runs I) (i_lhs_prim i_op_sub) (fun c a b => over_i c (a - ival c b));
   Entry (U --> U128 --> Runs U) (u_rhs_prim u_op_mul) (fun c a b => over_u c (uval c a * b));
   Entry (U --> U128 --> Runs U) (u_rhs_prim u_op_mul_assign) (fun c a b => over_u c (uval c a * b));
   Entry (U128 --> U --> Runs U) (u_lhs_prim u_op_mul) (fun c a b => over_u c (a * uval c b));
   Entry (I --> I128 --> Runs I) (i_rhs_prim i_op_mul) (fun c a b => over_i c (ival c a * b));
   Entry (I --> I128 --> Runs I) (i_rhs_prim i_op_mul_assign) (fun c a b => over_i c (ival c a * b));
   Entry (I128 --> I --> Runs I) (i_lhs_prim i_op_mul) (fun c a b => over_i c (a * ival c b));
   Entry (U --> U128 --> Runs U) (u_rhs_prim u_op_div) (fun c a b => b = 0);
   Entry (U --> U128 --> Runs U) (u_rhs_prim u_op_div_assign) (fun c a b => b = 0);
   Entry (U128 --> U --> Runs U) (u_lhs_prim u_op_div) (fun c a b => uval c b = 0);
   Entry (I --> I128 --> Runs I) (i_rhs_prim i_op_div) (fun c a b => b = 0);
   Entry (I --> I128 --> Runs I) (i_rhs_prim i_op_div_assign) (fun c a b => b = 0);
   Entry (I128 --> I --> Runs I) (i_lhs_prim i_op_div) (fun c a b => ival c b = 0);
   Entry (U --> U128 --> Runs U) (u_rhs_prim u_op_rem) (fun c a b => b = 0);
   Entry (U --> U128 --> Runs U) (u_rhs_prim u_op_rem_assign) (fun c a b => b = 0);
   Entry (U128 --> U --> Runs U) (u_lhs_prim u_op_rem) (fun c a b => uval c b = 0);
   Entry (I --> I128 --> Runs I) (i_rhs_prim i_op_rem) (fun c a b => b = 0);
   Entry (I --> I128 --> Runs I) (i_rhs_prim i_op_rem_assign) (fun c a b => b = 0);
   Entry (I128 --> I --> Runs I) (i_lhs_prim i_op_rem) (fun c a b => ival c b = 0);
   Entry (U --> U --> Gives Flag) u_eq (fun _ => never _);
   Entry (U --> U --> Gives Flag) u_lt (fun _ => never _);
   Entry (U --> U --> Gives Flag) u_le (fun _ => never _);
   Entry (U --> U --> Gives Flag) u_gt (fun _ => never _);
   Entry (U --> U --> Gives Flag) u_ge (fun _ => never _);
   Entry (U --> U --> Gives Ordering) u_cmp (fun _ => never _);
   Entry (I --> I --> Gives Flag) i_eq (fun _ => never _);
   Entry (I --> I --> Gives Flag) i_lt (fun _ => never _);
   Entry (I --> I --> Gives Flag) i_le (fun _ => never _);
   Entry (I --> I --> Gives Flag) i_gt (fun _ => never _);
   Entry (I --> I --> Gives Flag) i_ge (fun _ => never _);
   Entry (I --> I --> Gives Ordering) i_cmp (fun _ => never _);
   Entry (U --> U128 --> Gives Flag) u_eq_prim (fun _ => never _);
   Entry (U128 --> U --> Gives Flag) prim_eq_u (fun _ => never _);
   Entry (U --> U128 --> Gives Ordering) u_cmp_prim (fun _ => never _);
   Entry (U128 --> U --> Gives Ordering) prim_cmp_u (fun _ => never _);
   Entry (I --> I128 --> Gives Flag) i_eq_prim (fun _ => never _);
   Entry (I128 --> I --> Gives Flag) prim_eq_i (fun _ => never _);
   Entry (I --> I128 --> Gives Ordering) i_cmp_prim (fun _ => never _);
   Entry (I128 --> I --> Gives Ordering) prim_cmp_i (fun _ => never _);
   Entry (U128 --> U128 --> Gives U) u_from_words (fun _ => never _);
   Entry (U --> Gives (Pair Int Int)) u_into_words (fun _ => never _);
   Entry (U --> Gives Int) u_low (fun _ => never _);
   Entry (U --> Gives Int) u_high (fun _ => never _);
   Entry (I128 --> I128 --> Gives I) i_from_words (fun _ => never _);
   Entry (I --> Gives (Pair Int Int)) i_into_words (fun _ => never _);
   Entry (I --> Gives Int) i_low (fun _ => never _);
   Entry (I --> Gives Int) i_high (fun _ => never _);
   Entry (U128 --> Gives U) u_new (fun _ => never _);
   Entry (I128 --> Gives I) i_new (fun _ => never _);
   Entry (U --> U --> Gives U) (fun _ => u_op_and) (fun _ => never _);
   Entry (U --> U --> Gives U) (fun _ => u_op_and_assign) (fun _ => never _);
   Entry (I --> I --> Gives I) (fun _ => i_op_and) (fun _ => never _);
   Entry (I --> I --> Gives I) (fun _ => i_op_and_assign) (fun _ => never _);
   Entry (U --> U --> Gives U) (fun _ => u_op_or) (fun _ => never _);
   Entry (U --> U --> Gives U) (fun _ => u_op_or_assign) (fun _ => never _);
   Entry (I --> I --> Gives I) (fun _ => i_op_or) (fun _ => never _);
   Entry (I --> I --> Gives I) (fun _ => i_op_or_assign) (fun _ => never _);
   Entry (U --> U --> Gives U) (fun _ => u_op_xor) (fun _ => never _);
   Entry (U --> U --> Gives U) (fun _ => u_op_xor_assign) (fun _ => never _);
   Entry (I --> I --> Gives I) (fun _ => i_op_xor) (fun _ => never _);
   Entry (I --> I --> Gives I) (fun _ => i_op_xor_assign) (fun _ => never _);
   Entry (U --> Gives U) (fun _ => u_op_not) (fun _ => never _);
   Entry (U --> Gives U) (fun _ => u_swap_bytes) (fun _ => never _);
   Entry (U --> Gives U) (fun _ => u_reverse_bits) (fun _ => never _);
   Entry (I --> Gives I) (fun _ => i_op_not) (fun _ => never _);
   Entry (I --> Gives I) (fun _ => i_swap_bytes) (fun _ => never _);
   Entry (I --> Gives I) (fun _ => i_reverse_bits) (fun _ => never _);
   Entry (U --> Runs Int) u_count_ones (fun _ => never _);
   Entry (I --> Runs Int) i_count_ones (fun _ => never _);
   Entry (U --> Runs Int) u_count_zeros (fun _ => never _);
   Entry (I --> Runs Int) i_count_zeros (fun _ => never _);
   Entry (U --> Runs Int) u_leading_zeros (fun _ => never _);
   Entry (I --> Runs Int) i_leading_zeros (fun _ => never _);
   Entry (U --> Runs Int) u_leading_ones (fun _ => never _);
   Entry (I --> Runs Int) i_leading_ones (fun _ => never _);
   Entry (U --> Runs Int) u_trailing_zeros (fun _ => never _);
   Entry (I --> Runs Int) i_trailing_zeros (fun _ => never _);
   Entry (U --> Runs Int) u_trailing_ones (fun _ => never _);
   Entry (I --> Runs Int) i_trailing_ones (fun _ => never _);
   Entry (U --> Amt256 --> Runs U) u_shl_amt (fun _ => never _);
   Entry (U --> Amt256 --> Runs U) u_shl_assign (fun _ => never _);
   Entry (I --> Amt256 --> Runs I) i_shl_amt (fun _ => never _);
   Entry (I --> Amt256 --> Runs I) i_shl_assign (fun _ => never _);
   Entry (U --> U32 --> Runs U) u_wrapping_shl (fun _ => never _);
   Entry (U --> U32 --> Runs (Pair U Flag)) u_overflowing_shl (fun _ => never _);
   Entry (U --> U32 --> Runs (Opt U)) u_checked_shl (fun _ => never _);
   Entry (I --> U32 --> Runs I) i_wrapping_shl (fun _ => never _);
   Entry (I --> U32 --> Runs (Pair I Flag)) i_overflowing_shl (fun _ => never _);
   Entry (I --> U32 --> Runs (Opt I)) i_checked_shl (fun _ => never _);
   Entry (U --> Amt256 --> Runs U) u_shr_amt (fun _ => never _);
   Entry (U --> Amt256 --> Runs U) u_shr_assign (fun _ => never _);
   Entry (I --> Amt256 --> Runs I) i_shr_amt (fun _ => never _);
   Entry (I --> Amt256 --> Runs I) i_shr_assign (fun _ => never _);
   Entry (U --> U32 --> Runs U) u_wrapping_shr (fun _ => never _);
   Entry (U --> U32 --> Runs (Pair U Flag)) u_overflowing_shr (fun _ => never _);
   Entry (U --> U32 --> Runs (Opt U)) u_checked_shr (fun _ => never _);
   Entry (I --> U32 --> Runs I) i_wrapping_shr (fun _ => never _);
   Entry (I --> U32 --> Runs (Pair I Flag)) i_overflowing_shr (fun _ => never _);
   Entry (I --> U32 --> Runs (Opt I)) i_checked_shr (fun _ => never _);
   Entry (U --> UpTo256 --> Runs U) u_rotate_left (fun _ => never _);
   Entry (I --> UpTo256 --> Runs I) i_rotate_left (fun _ => never _);
   Entry (U --> UpTo256 --> Runs U) u_rotate_right (fun _ => never _);
   Entry (I --> UpTo256 --> Runs I) i_rotate_right (fun _ => never _);
   Entry (U --> Gives Bytes) u_to_be_bytes (fun _ => never _);
   Entry (U --> Gives Bytes) u_to_le_bytes (fun _ => never _);
   Entry (I --> Gives Bytes) i_to_be_bytes (fun _ => never _);
   Entry (I --> Gives Bytes) i_to_le_bytes (fun _ => never _);
   Entry (Bytes32 --> Gives U) u_from_be_bytes (fun _ => never _);
   Entry (Bytes32 --> Gives U) u_from_le_bytes (fun _ => never _);
   Entry (Bytes32 --> Gives I) i_from_be_bytes (fun _ => never _);
   Entry (Bytes32 --> Gives I) i_from_le_bytes (fun _ => never _);
   Entry (IntType --> U --> Gives Int) u_as (fun _ => never _);
   Entry (IntType --> I --> Gives Int) i_as (fun _ => never _);
   Entry (IntType --> U --> Gives (Opt Int)) u_try_into (fun _ => never _);
   Entry (IntType --> I --> Gives (Opt Int)) i_try_into (fun _ => never _);
   Entry (Prim --> Gives U) prim_as_u256 (fun _ => never _);
   Entry (Prim --> Gives I) prim_as_i256 (fun _ => never _);
   Entry (Prim --> Gives I) i_from_prim (fun _ => never _);
   Entry (U128 --> Gives U) u_from_prim (fun _ => never _);
   Entry (Prim --> Gives (Opt U)) u_try_from_prim (fun _ => never _);
   Entry (Flag --> Gives U) bool_as_u256 (fun _ => never _);
   Entry (Flag --> Gives U) u_from_bool (fun _ => never _);
   Entry (Flag --> Gives I) bool_as_i256 (fun _ => never _);
   Entry (Flag --> Gives I) i_from_bool (fun _ => never _);
   Entry (U --> Gives I) (fun _ => u_as_i256) (fun _ => never _);
   Entry (U --> Gives I) (fun _ => u256_as_i256) (fun _ => never _);
   Entry (I --> Gives U) (fun _ => i_as_u256) (fun _ => never _);
   Entry (I --> Gives U) (fun _ => i256_as_u256) (fun _ => never _);
   Entry (U --> Gives U) (fun _ => u256_as_u256) (fun _ => never _);
   Entry (I --> Gives I) (fun _ => i256_as_i256) (fun _ => never _);
   Entry (U --> Gives (Opt I)) i_try_from_u256 (fun _ => never _);
   Entry (I --> Gives (Opt U)) u_try_from_i256 (fun _ => never _);
   Entry (U32 --> Runs U) (float_as_u256 F32) (fun _ => never _);
   Entry (U32 --> Runs I) (float_as_i256 F32) (fun _ => never _);
   Entry (U64 --> Runs U) (float_as_u256 F64) (fun _ => never _);
   Entry (U64 --> Runs I) (float_as_i256 F64) (fun _ => never _);
   Entry (U --> Gives Float) u_as_f32 (fun _ => never _);
   Entry (U --> Gives Float) u_as_f64 (fun _ => never _);
   Entry (I --> Gives Float) i_as_f32 (fun _ => never _);
   Entry (I --> Gives Float) i_as_f64 (fun _ => never _);
   Entry (Text --> U32 --> Runs (Result U)) u_from_str_radix (fun c s r => ~ 2 <= r <= 36);
   Entry (Text --> Runs (Result U)) u_from_str (fun _ => never _);
   Entry (Text --> Runs (Result U)) u_from_str_hex (fun _ => never _);
   Entry (Text --> Runs (Result U)) u_from_str_prefixed (fun _ => never _);
   Entry (Text --> Runs U) u_const_from_str_prefixed (fun c s => ~ accepted false 0 MAXU s);
   Entry (Options --> U --> Runs Writes) u_fmt_display (fun _ => never _);
   Entry (Options --> U --> Runs Writes) u_fmt_debug (fun _ => never _);
   Entry (Kind --> Options --> U --> Runs Writes) u_fmt_radix (fun _ => never _);
   Entry (U --> Runs Text) u_serialize (fun _ => never _);
   Entry (U --> Runs Text) u_serialize_decimal (fun _ => never _);
   Entry (U --> Runs Text) u_serialize_prefixed (fun _ => never _);
   Entry (U --> Runs Text) u_serialize_permissive (fun _ => never _);
   Entry (Text --> Runs (De U)) (fun c => format_visit_str (u_de_hex c)) (fun _ => never _);
   Entry (Text --> Runs (De U)) (fun c => format_visit_bytes (u_de_hex c)) (fun _ => never _);
   Entry (Text --> Runs (De U)) (fun c => format_visit_str (u_de_decimal c)) (fun _ => never _);
   Entry (Text --> Runs (De U)) (fun c => format_visit_bytes (u_de_decimal c)) (fun _ => never _);
   Entry (Text --> Runs (De U)) (fun c => format_visit_str (u_de_prefixed c)) (fun _ => never _);
   Entry (Text --> Runs (De U)) (fun c => format_visit_bytes (u_de_prefixed c)) (fun _ => never _);
   Entry (Text --> Runs (De U)) u_permissive_visit_str (fun _ => never _);
   Entry (Prim --> Runs (De U)) (visit_int u_cast) (fun _ => never _);
   Entry (Number --> Runs (De U)) (visit_f64 u_cast) (fun _ => never _);
   Entry (Number --> Runs (De U)) (visit_f32 u_cast) (fun _ => never _);
   Entry (Order --> U --> Gives Bytes) u_ser_bytes (fun _ => never _);
   Entry (Order --> U --> Runs Bytes) u_ser_compressed (fun _ => never _);
   Entry (Order --> Bytes --> Runs (De U)) u_visit_bytes (fun _ => never _);
   Entry (Order --> Bytes --> Runs (De U)) u_compressed_visit_bytes (fun _ => never _);
   Entry (Order --> Seq --> Runs (De U)) u_visit_seq (fun _ => never _);
   Entry (Order --> Seq --> Runs (De U)) u_compressed_visit_seq (fun _ => never _);
   Entry (Text --> U32 --> Runs (Result I)) i_from_str_radix (fun c s r => ~ 2 <= r <= 36);
   Entry (Text --> Runs (Result I)) i_from_str (fun _ => never _);
   Entry (Text --> Runs (Result I)) i_from_str_hex (fun _ => never _);
   Entry (Text --> Runs (Result I)) i_from_str_prefixed (fun _ => never _);
   Entry (Text --> Runs I) i_const_from_str_prefixed (fun c s => ~ accepted true MINI MAXI s);
   Entry (Options --> I --> Runs Writes) i_fmt_display (fun _ => never _);
   Entry (Options --> I --> Runs Writes) i_fmt_debug (fun _ => never _);
   Entry (Kind --> Options --> I --> Runs Writes) i_fmt_radix (fun _ => never _);
   Entry (I --> Runs Text) i_serialize (fun _ => never _);
   Entry (I --> Runs Text) i_serialize_decimal (fun _ => never _);
   Entry (I --> Runs Text) i_serialize_prefixed (fun _ => never _);
   Entry (I --> Runs Text) i_serialize_permissive (fun _ => never _);
   Entry (Text --> Runs (De I)) (fun c => format_visit_str (i_de_hex c)) (fun _ => never _);
   Entry (Text --> Runs (De I)) (fun c => format_visit_bytes (i_de_hex c)) (fun _ => never _);
   Entry (Text --> Runs (De I)) (fun c => format_visit_str (i_de_decimal c)) (fun _ => never _);
   Entry (Text --> Runs (De I)) (fun c => format_visit_bytes (i_de_decimal c)) (fun _ => never _);
   Entry (Text --> Runs (De I)) (fun c => format_visit_str (i_de_prefixed c)) (fun _ => never _);
   Entry (Text --> Runs (De I)) (fun c => format_visit_bytes (i_de_prefixed c)) (fun _ => never _);
   Entry (Text --> Runs (De I)) i_permissive_visit_str (fun _ => never _);
   Entry (Prim --> Runs (De I)) (visit_int i_cast) (fun _ => never _);
   Entry (Number --> Runs (De I)) (visit_f64 i_cast) (fun _ => never _);
   Entry (Number --> Runs (De I)) (visit_f32 i_cast) (fun _ => never _);
   Entry (Order --> I --> Gives Bytes) i_ser_bytes (fun _ => never _);
   Entry (Order --> I --> Runs Bytes) i_ser_compressed (fun _ => never _);
   Entry (Order --> Bytes --> Runs (De I)) i_visit_bytes (fun _ => never _);
   Entry (Order --> Bytes --> Runs (De I)) i_compressed_visit_bytes (fun _ => never _);
   Entry (Order --> Seq --> Runs (De I)) i_visit_seq (fun _ => never _);
   Entry (Order --> Seq --> Runs (De I)) i_compressed_visit_seq (fun _ => never _);
   Entry (U --> U --> U --> Runs U) u_clamp (fun c _ lo hi => uval c hi < uval c lo);
   Entry (I --> I --> I --> Runs I) i_clamp (fun c _ lo hi => ival c hi < ival c lo);
   Entry (U --> U --> Gives Flag) u_ne (fun _ => never _);
   Entry (I --> I --> Gives Flag) i_ne (fun _ => never _)].

(** the operations of [api_amounts] *)
Definition panics_amounts : list entry :=
  [Entry (U --> Amt --> Runs U) u_shl_amt (fun c a s => debug_assertions c = true /\ ~ 0 <= amt_val c s < 256);
   Entry (U --> Amt --> Runs U) u_shl_assign (fun c a s => debug_assertions c = true /\ ~ 0 <= amt_val c s < 256);
   Entry (I --> Amt --> Runs I) i_shl_amt (fun c a s => debug_assertions c = true /\ ~ 0 <= amt_val c s < 256);
   Entry (I --> Amt --> Runs I) i_shl_assign (fun c a s => debug_assertions c = true /\ ~ 0 <= amt_val c s < 256);
   Entry (U --> Amt --> Runs U) u_shr_amt (fun c a s => debug_assertions c = true /\ ~ 0 <= amt_val c s < 256);
   Entry (U --> Amt --> Runs U) u_shr_assign (fun c a s => debug_assertions c = true /\ ~ 0 <= amt_val c s < 256);
   Entry (I --> Amt --> Runs I) i_shr_amt (fun c a s => debug_assertions c = true /\ ~ 0 <= amt_val c s < 256);
   Entry (I --> Amt --> Runs I) i_shr_assign (fun c a s => debug_assertions c = true /\ ~ 0 <= amt_val c s < 256);
   Entry (U --> U32 --> Runs U) u_rotate_left (fun c a n => llvm c = false /\ overflow_checks c = true /\ 256 < n);
   Entry (I --> U32 --> Runs I) i_rotate_left (fun c a n => llvm c = false /\ overflow_checks c = true /\ 256 < n);
   Entry (U --> U32 --> Runs U) u_rotate_right (fun c a n => llvm c = false /\ overflow_checks c = true /\ 256 < n);
   Entry (I --> U32 --> Runs I) i_rotate_right (fun c a n => llvm c = false /\ overflow_checks c = true /\ 256 < n)].

(** the operations of [api_memory] *)
Definition panics_memory : list entry :=
  [Entry (U --> Gives Bytes) u_to_ne_bytes (fun _ => never _);
   Entry (U --> Gives Bytes) u_mem_bytes (fun _ => never _);
   Entry (I --> Gives Bytes) i_to_ne_bytes (fun _ => never _);
   Entry (I --> Gives Bytes) i_mem_bytes (fun _ => never _);
   Entry (Bytes32 --> Gives U) u_from_ne_bytes (fun _ => never _);
   Entry (Bytes32 --> Gives I) i_from_ne_bytes (fun _ => never _);
   Entry (U --> Gives U) u_from_be (fun _ => never _);
   Entry (U --> Gives U) u_from_le (fun _ => never _);
   Entry (U --> Gives U) u_to_be (fun _ => never _);
   Entry (U --> Gives U) u_to_le (fun _ => never _);
   Entry (I --> Gives I) i_from_be (fun _ => never _);
   Entry (I --> Gives I) i_from_le (fun _ => never _);
   Entry (I --> Gives I) i_to_be (fun _ => never _);
   Entry (I --> Gives I) i_to_le (fun _ => never _);
   Entry (U --> Gives Bytes) (fun c => u_ser_bytes c (native c)) (fun _ => never _);
   Entry (Bytes --> Runs (De U)) (fun c => u_visit_bytes c (native c)) (fun _ => never _);
   Entry (I --> Gives Bytes) (fun c => i_ser_bytes c (native c)) (fun _ => never _);
   Entry (Bytes --> Runs (De I)) (fun c => i_visit_bytes c (native c)) (fun _ => never _)].

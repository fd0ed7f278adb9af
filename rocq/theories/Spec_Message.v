(** * Vocabulary: what a panic says

    The operations of [Spec_Panic] that can panic, each with the message its panics
    carry. *)

From Coq Require Import ZArith List String Bool.
Import ListNotations.
From Verif Require Import M_Prim M_Words M_Intr M_Div M_Mul M_Ops M_UintApi M_IntApi M_Convert M_Float M_Parse M_Fmt M_Serde M_Misc
  Spec Spec_Fold Spec_Shift Spec_Bits Spec_Serde Spec_Parse Spec_Fmt Spec_Builds Spec_Api Spec_Panic.
Open Scope string_scope.
Open Scope Z_scope.

(** A relation between the arguments of a function that may panic and messages. *)
Fixpoint utter (s : sig) : Type :=
  match s with
  | Gives _ => unit
  | Runs _ => string -> Prop
  | Takes k s => den k -> utter s
  end.

(** [speaks c s f M]: on every legal list of arguments, a panic of [f] carries a message related
    to the arguments by [M]. *)
Fixpoint speaks (c : cfg) (s : sig) : fn s -> utter s -> Prop :=
  match s with
  | Gives k => fun _ _ => True
  | Runs k => fun r M => forall m, r = Panic m -> M m
  | Takes k s => fun f M => forall x, legal c k x -> speaks c s (f x) (M x)
  end.

(** An operation and its messages. *)
Record voice := Voice { v_sig : sig; v_fn : forall c : cfg, fn v_sig; v_msg : cfg -> utter v_sig }.
Definition v_op (v : voice) : operation := Op (v_sig v) (v_fn v).

(** [%=] leaves the check for zero to the division unless debug assertions are on. *)
Definition rem_assign_message (c : cfg) : string :=
  if debug_assertions c then "attempt to calculate the remainder with a divisor of zero" else "attempt to divide by zero".

(** [text] is what follows the longest prefix [pre] that leaves something to read. *)
Definition announces (s pre : list Z) (r : Z) (text : list Z) : Prop :=
  In (pre, r) radix_prefixes /\ (s = pre ++ text)%list /\ text <> [] /\
  forall pre' r' text', In (pre', r') radix_prefixes -> (s = pre' ++ text')%list -> text' <> [] -> (List.length pre' <= List.length pre)%nat.

(** [text] is read without complaint up to a character that is not a digit of the radix. *)
Definition stumbles (r : Z) (text : list Z) : Prop :=
  exists before ch after ds, (text = before ++ ch :: after)%list /\ blank ch = false /\ (forall d, ~ digit r ch d) /\
    numeral r (filter (fun ch => negb (blank ch)) before) ds /\ value r ds <= MAXU /\
    forall p d q, (ds = p ++ d :: q)%list -> low_sum r (value r p) < 2 ^ 128.

(** The messages of [uint!] ([signed] = false) and [int!]. *)
Definition literal_message (signed : bool) (s : list Z) (m : string) : Prop :=
  (s = [] /\ m = "empty string") \/
  (s <> [] /\ snd (sign signed s) = [] /\ m = "missing number") \/
  exists pre r text, announces (snd (sign signed s)) pre r text /\
    (stumbles r text /\ m = "invalid digit" \/ ~ stumbles r text /\ m = "overflows integer type").

(** [m] complains about the radix [r] and names it. *)
Definition radix_message (r : Z) (m : string) : Prop :=
  exists t, m = ("from_str_radix_int: must lie in the range `[2, 36]` - found " ++ t)%string /\
    canonical false 10 r (map (fun a => Z.of_N (Ascii.N_of_ascii a)) (list_ascii_of_string t)).

(** If both results are panics, their messages are the same. *)
Definition same_words {A B} (r : res A) (r' : res B) : Prop := forall m m', r = Panic m -> r' = Panic m' -> m = m'.

(** the operations that can panic *)
Definition voices : list voice :=
  [Voice (U --> U --> Runs U) u_op_add (fun _ _ _ => eq "attempt to add with overflow");
   Voice (U --> U --> Runs U) u_op_add_assign (fun _ _ _ => eq "attempt to add with overflow");
   Voice (U --> U --> Runs U) u_op_sub (fun _ _ _ => eq "attempt to subtract with overflow");
   Voice (U --> U --> Runs U) u_op_sub_assign (fun _ _ _ => eq "attempt to subtract with overflow");
   Voice (U --> U --> Runs U) u_op_mul (fun _ _ _ => eq "attempt to multiply with overflow");
   Voice (U --> U --> Runs U) u_op_mul_assign (fun _ _ _ => eq "attempt to multiply with overflow");
   Voice (U --> U --> Runs U) u_op_div (fun _ _ _ => eq "attempt to divide by zero");
   Voice (U --> U --> Runs U) u_op_div_assign (fun _ _ _ => eq "attempt to divide by zero");
   Voice (U --> U --> Runs U) u_op_rem (fun _ _ _ => eq "attempt to calculate the remainder with a divisor of zero");
   Voice (U --> U --> Runs U) u_op_rem_assign (fun c _ _ => eq (rem_assign_message c));
   Voice (U --> U --> Runs U) u_div_euclid (fun _ _ _ => eq "attempt to divide by zero");
   Voice (U --> U --> Runs U) u_rem_euclid (fun _ _ _ => eq "attempt to calculate the remainder with a divisor of zero");
   Voice (U --> U --> Runs U) u_wrapping_div (fun _ _ _ => eq "attempt to divide by zero");
   Voice (U --> U --> Runs U) u_wrapping_div_euclid (fun _ _ _ => eq "attempt to divide by zero");
   Voice (U --> U --> Runs U) u_wrapping_rem (fun _ _ _ => eq "attempt to calculate the remainder with a divisor of zero");
   Voice (U --> U --> Runs U) u_wrapping_rem_euclid (fun _ _ _ => eq "attempt to calculate the remainder with a divisor of zero");
   Voice (U --> U --> Runs U) u_saturating_div (fun _ _ _ => eq "attempt to divide by zero");
   Voice (U --> U --> Runs (Pair U Flag)) u_overflowing_div (fun _ _ _ => eq "attempt to divide by zero");
   Voice (U --> U --> Runs (Pair U Flag)) u_overflowing_div_euclid (fun _ _ _ => eq "attempt to divide by zero");
   Voice (U --> U --> Runs (Pair U Flag)) u_overflowing_rem (fun _ _ _ => eq "attempt to calculate the remainder with a divisor of zero");
   Voice (U --> U --> Runs (Pair U Flag)) u_overflowing_rem_euclid (fun _ _ _ => eq "attempt to calculate the remainder with a divisor of zero");
   Voice (U --> U --> Runs (Pair U U)) u_div_rem (fun _ _ _ => eq "attempt to divide by zero");
   Voice (U --> U --> Runs (Pair U U)) u_div_rem_euclid (fun _ _ _ => eq "attempt to divide by zero");
   Voice (U --> U --> Runs (Pair U U)) u_wrapping_div_rem (fun _ _ _ => eq "attempt to divide by zero");
   Voice (U --> U --> Runs (Pair U U)) u_wrapping_div_rem_euclid (fun _ _ _ => eq "attempt to divide by zero");
   Voice (U --> U --> Runs (Pair U U)) u_saturating_div_rem (fun _ _ _ => eq "attempt to divide by zero");
   Voice (U --> U --> Runs (Pair U U)) u_saturating_div_rem_euclid (fun _ _ _ => eq "attempt to divide by zero");
   Voice (U --> U --> Runs (Pair (Pair U U) Flag)) u_overflowing_div_rem (fun _ _ _ => eq "attempt to divide by zero");
   Voice (U --> U --> Runs (Pair (Pair U U) Flag)) u_overflowing_div_rem_euclid (fun _ _ _ => eq "attempt to divide by zero");
   Voice (U --> U32 --> Runs U) u_pow (fun _ _ _ => eq "attempt to multiply with overflow");
   Voice (U --> Runs U) u_next_power_of_two (fun _ _ => eq "attempt to add with overflow");
   Voice (List U --> Runs U) u_sum (fun _ _ => eq "attempt to add with overflow");
   Voice (List U --> Runs U) u_product (fun _ _ => eq "attempt to multiply with overflow");
   Voice (I --> I --> Runs I) i_op_add (fun _ _ _ => eq "attempt to add with overflow");
   Voice (I --> I --> Runs I) i_op_add_assign (fun _ _ _ => eq "attempt to add with overflow");
   Voice (I --> I --> Runs I) i_op_sub (fun _ _ _ => eq "attempt to subtract with overflow");
   Voice (I --> I --> Runs I) i_op_sub_assign (fun _ _ _ => eq "attempt to subtract with overflow");
   Voice (I --> I --> Runs I) i_op_mul (fun _ _ _ => eq "attempt to multiply with overflow");
   Voice (I --> I --> Runs I) i_op_mul_assign (fun _ _ _ => eq "attempt to multiply with overflow");
   Voice (I --> I --> Runs I) i_op_div (fun _ _ _ => eq "attempt to divide by zero");
   Voice (I --> I --> Runs I) i_op_div_assign (fun _ _ _ => eq "attempt to divide by zero");
   Voice (I --> I --> Runs I) i_op_rem (fun _ _ _ => eq "attempt to calculate the remainder with a divisor of zero");
   Voice (I --> I --> Runs I) i_op_rem_assign (fun c _ _ => eq (rem_assign_message c));
   Voice (I --> I --> Runs I) i_div_euclid (fun _ _ _ => eq "attempt to divide by zero");
   Voice (I --> I --> Runs I) i_rem_euclid (fun _ _ _ => eq "attempt to calculate the remainder with a divisor of zero");
   Voice (I --> I --> Runs I) i_wrapping_div (fun _ _ _ => eq "attempt to divide by zero");
   Voice (I --> I --> Runs I) i_wrapping_div_euclid (fun _ _ _ => eq "attempt to divide by zero");
   Voice (I --> I --> Runs I) i_wrapping_rem (fun _ _ _ => eq "attempt to calculate the remainder with a divisor of zero");
   Voice (I --> I --> Runs I) i_wrapping_rem_euclid (fun _ _ _ => eq "attempt to calculate the remainder with a divisor of zero");
   Voice (I --> I --> Runs I) i_saturating_div (fun _ _ _ => eq "attempt to divide by zero");
   Voice (I --> I --> Runs (Pair I Flag)) i_overflowing_div (fun _ _ _ => eq "attempt to divide by zero");
   Voice (I --> I --> Runs (Pair I Flag)) i_overflowing_div_euclid (fun _ _ _ => eq "attempt to divide by zero");
   Voice (I --> I --> Runs (Pair I Flag)) i_overflowing_rem (fun _ _ _ => eq "attempt to calculate the remainder with a divisor of zero");
   Voice (I --> I --> Runs (Pair I Flag)) i_overflowing_rem_euclid (fun _ _ _ => eq "attempt to calculate the remainder with a divisor of zero");
   Voice (I --> I --> Runs (Pair I I)) i_div_rem (fun c a b => eq (if ival c b =? 0 then "attempt to divide by zero" else "attempt to divide with overflow"));
   Voice (I --> I --> Runs (Pair I I)) i_div_rem_euclid (fun c a b => eq (if ival c b =? 0 then "attempt to divide by zero" else if (ival c a =? MINI) && (ival c b =? -1) then "attempt to divide with overflow" else "attempt to subtract with overflow"));
   Voice (I --> I --> Runs (Pair I I)) i_wrapping_div_rem (fun _ _ _ => eq "attempt to divide by zero");
   Voice (I --> I --> Runs (Pair I I)) i_wrapping_div_rem_euclid (fun c a b => eq (if ival c b =? 0 then "attempt to divide by zero" else "attempt to subtract with overflow"));
   Voice (I --> I --> Runs (Pair I I)) i_saturating_div_rem (fun _ _ _ => eq "attempt to divide by zero");
   Voice (I --> I --> Runs (Pair I I)) i_saturating_div_rem_euclid (fun c a b => eq (if ival c b =? 0 then "attempt to divide by zero" else "attempt to subtract with overflow"));
   Voice (I --> I --> Runs (Pair (Pair I I) Flag)) i_overflowing_div_rem (fun _ _ _ => eq "attempt to divide by zero");
   Voice (I --> I --> Runs (Pair (Pair I I) Flag)) i_overflowing_div_rem_euclid (fun c a b => eq (if ival c b =? 0 then "attempt to divide by zero" else "attempt to subtract with overflow"));
   Voice (I --> I --> Runs (Opt (Pair I I))) i_checked_div_rem_euclid (fun _ _ _ => eq "attempt to subtract with overflow");
   Voice (I --> Runs I) i_op_neg (fun _ _ => eq "attempt to negate with overflow");
   Voice (I --> Runs I) i_abs (fun _ _ => eq "attempt to negate with overflow");
   Voice (I --> U32 --> Runs I) i_pow (fun _ _ _ => eq "attempt to multiply with overflow");
   Voice (List I --> Runs I) i_sum (fun _ _ => eq "attempt to add with overflow");
   Voice (List I --> Runs I) i_product (fun _ _ => eq "attempt to multiply with overflow");
   Voice (U --> U128 --> Runs U) (u_rhs_prim u_op_add) (fun _ _ _ => eq "attempt to add with overflow");
   Voice (U --> U128 --> Runs U) (u_rhs_prim u_op_add_assign) (fun _ _ _ => eq "attempt to add with overflow");
   Voice (U128 --> U --> Runs U) (u_lhs_prim u_op_add) (fun _ _ _ => eq "attempt to add with overflow");
   Voice (I --> I128 --> Runs I) (i_rhs_prim i_op_add) (fun _ _ _ => eq "attempt to add with overflow");
   Voice (I --> I128 --> Runs I) (i_rhs_prim i_op_add_assign) (fun _ _ _ => eq "attempt to add with overflow");
   Voice (I128 --> I --> Runs I) (i_lhs_prim i_op_add) (fun _ _ _ => eq "attempt to add with overflow");
   Voice (U --> U128 --> Runs U) (u_rhs_prim u_op_sub) (fun _ _ _ => eq "attempt to subtract with overflow");
   Voice (U --> U128 --> Runs U) (u_rhs_prim u_op_sub_assign) (fun _ _ _ => eq "attempt to subtract with overflow");
   Voice (U128 --> U --> Runs U) (u_lhs_prim u_op_sub) (fun _ _ _ => eq "attempt to subtract with overflow");
   Voice (I --> I128 --> Runs I) (i_rhs_prim i_op_sub) (fun _ _ _ => eq "attempt to subtract with overflow");
   Voice (I --> I128 --> Runs I) (i_rhs_prim i_op_sub_assign) (fun _ _ _ => eq "attempt to subtract with overflow");
   Voice (I128 --> I --> Runs I) (i_lhs_prim i_op_sub) (fun _ _ _ => eq "attempt to subtract with overflow");
   Voice (U --> U128 --> Runs U) (u_rhs_prim u_op_mul) (fun _ _ _ => eq "attempt to multiply with overflow");
   Voice (U --> U128 --> Runs U) (u_rhs_prim u_op_mul_assign) (fun _ _ _ => eq "attempt to multiply with overflow");
   Voice (U128 --> U --> Runs U) (u_lhs_prim u_op_mul) (fun _ _ _ => eq "attempt to multiply with overflow");
   Voice (I --> I128 --> Runs I) (i_rhs_prim i_op_mul) (fun _ _ _ => eq "attempt to multiply with overflow");
   Voice (I --> I128 --> Runs I) (i_rhs_prim i_op_mul_assign) (fun _ _ _ => eq "attempt to multiply with overflow");
   Voice (I128 --> I --> Runs I) (i_lhs_prim i_op_mul) (fun _ _ _ => eq "attempt to multiply with overflow");
   Voice (U --> U128 --> Runs U) (u_rhs_prim u_op_div) (fun _ _ _ => eq "attempt to divide by zero");
   Voice (U --> U128 --> Runs U) (u_rhs_prim u_op_div_assign) (fun _ _ _ => eq "attempt to divide by zero");
   Voice (U128 --> U --> Runs U) (u_lhs_prim u_op_div) (fun _ _ _ => eq "attempt to divide by zero");
   Voice (I --> I128 --> Runs I) (i_rhs_prim i_op_div) (fun _ _ _ => eq "attempt to divide by zero");
   Voice (I --> I128 --> Runs I) (i_rhs_prim i_op_div_assign) (fun _ _ _ => eq "attempt to divide by zero");
   Voice (I128 --> I --> Runs I) (i_lhs_prim i_op_div) (fun _ _ _ => eq "attempt to divide by zero");
   Voice (U --> U128 --> Runs U) (u_rhs_prim u_op_rem) (fun _ _ _ => eq "attempt to calculate the remainder with a divisor of zero");
   Voice (U --> U128 --> Runs U) (u_rhs_prim u_op_rem_assign) (fun c _ _ => eq (rem_assign_message c));
   Voice (U128 --> U --> Runs U) (u_lhs_prim u_op_rem) (fun _ _ _ => eq "attempt to calculate the remainder with a divisor of zero");
   Voice (I --> I128 --> Runs I) (i_rhs_prim i_op_rem) (fun _ _ _ => eq "attempt to calculate the remainder with a divisor of zero");
   Voice (I --> I128 --> Runs I) (i_rhs_prim i_op_rem_assign) (fun c _ _ => eq (rem_assign_message c));
   Voice (I128 --> I --> Runs I) (i_lhs_prim i_op_rem) (fun _ _ _ => eq "attempt to calculate the remainder with a divisor of zero");
   Voice (Text --> U32 --> Runs (Result U)) u_from_str_radix (fun _ _ r => radix_message r);
   Voice (Text --> Runs U) u_const_from_str_prefixed (fun _ s m => literal_message false s m);
   Voice (Text --> U32 --> Runs (Result I)) i_from_str_radix (fun _ _ r => radix_message r);
   Voice (Text --> Runs I) i_const_from_str_prefixed (fun _ s m => literal_message true s m);
   Voice (U --> U --> U --> Runs U) u_clamp (fun _ _ _ _ => eq "assertion failed: min <= max");
   Voice (I --> I --> I --> Runs I) i_clamp (fun _ _ _ _ => eq "assertion failed: min <= max");
   Voice (U --> Amt --> Runs U) u_shl_amt (fun _ _ _ => eq "attempt to shift left with overflow");
   Voice (U --> Amt --> Runs U) u_shl_assign (fun _ _ _ => eq "attempt to shift left with overflow");
   Voice (I --> Amt --> Runs I) i_shl_amt (fun _ _ _ => eq "attempt to shift left with overflow");
   Voice (I --> Amt --> Runs I) i_shl_assign (fun _ _ _ => eq "attempt to shift left with overflow");
   Voice (U --> Amt --> Runs U) u_shr_amt (fun _ _ _ => eq "attempt to shift right with overflow");
   Voice (U --> Amt --> Runs U) u_shr_assign (fun _ _ _ => eq "attempt to shift right with overflow");
   Voice (I --> Amt --> Runs I) i_shr_amt (fun _ _ _ => eq "attempt to shift right with overflow");
   Voice (I --> Amt --> Runs I) i_shr_assign (fun _ _ _ => eq "attempt to shift right with overflow");
   Voice (U --> U32 --> Runs U) u_rotate_left (fun _ _ _ => eq "attempt to subtract with overflow");
   Voice (I --> U32 --> Runs I) i_rotate_left (fun _ _ _ => eq "attempt to subtract with overflow");
   Voice (U --> U32 --> Runs U) u_rotate_right (fun _ _ _ => eq "attempt to subtract with overflow");
   Voice (I --> U32 --> Runs I) i_rotate_right (fun _ _ _ => eq "attempt to subtract with overflow")].

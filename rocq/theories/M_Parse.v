(** * Parsing
    src/parse.rs, src/macros/parse.rs, src/uint/parse.rs, src/int/parse.rs,
    src/uint.rs:129-167, src/int.rs:132-170, src/uint/api.rs:72-74, src/int/api.rs:75-77

    A string is the list of its UTF-8 bytes; the code looks at bytes only, so the
    model is defined on all byte lists. *)

From Coq Require Import ZArith String List Bool.
From Verif Require Import M_Prim M_Words M_Mul M_Ops M_UintApi M_IntApi M_Convert.
Import ListNotations.
Open Scope Z_scope.

(** core::num::IntErrorKind, the variants in use; src/error.rs:10-12 [pie] wraps one *)
Inductive int_error := Empty | InvalidDigit | PosOverflow | NegOverflow.
(** Result<A, ParseIntError>; src/parse.rs:30-34 *)
Inductive result (A : Type) := Ok (a : A) | Err (e : int_error).
Arguments Ok {A} a.
Arguments Err {A} e.

(** [(c as char).to_digit(radix)] of core for a byte [c] and 2 <= radix <= 36; src/parse.rs:90 and 115 *)
Definition to_digit (ch radix : Z) : option Z :=
  let d :=
    if (48 <=? ch) && (ch <=? 57) then ch - 48
    else if (97 <=? ch) && (ch <=? 122) then ch - 97 + 10
    else if (65 <=? ch) && (ch <=? 90) then ch - 65 + 10
    else 36 in
  if d <? radix then Some d else None.

(** src/parse.rs:15-23 trait FromStrRadixHelper with its supertraits PartialOrd, Add,
    Sub and Mul, and mem::size_of *)
Record helper (T : Type) := {
  h_min : T;
  h_gt : T -> T -> bool;
  h_from_u32 : Z -> T;
  h_add : T -> T -> res T;
  h_sub : T -> T -> res T;
  h_mul : T -> T -> res T;
  h_checked_mul : T -> Z -> res (option T);
  h_checked_sub : T -> Z -> res (option T);
  h_checked_add : T -> Z -> res (option T);
  h_size_of : Z
}.
Arguments h_min {T} h. Arguments h_gt {T} h. Arguments h_from_u32 {T} h.
Arguments h_add {T} h. Arguments h_sub {T} h. Arguments h_mul {T} h.
Arguments h_checked_mul {T} h. Arguments h_checked_sub {T} h. Arguments h_checked_add {T} h.
Arguments h_size_of {T} h.

(** src/macros/parse.rs:5-23 for U256; [Self::from(u32)] is src/uint/convert.rs:7-20 *)
Definition u_helper (c : cfg) : helper u256 := {|
  h_min := U256_MIN;
  h_gt := u_gt c;
  h_from_u32 := u_from_prim c;
  h_add := u_op_add c;
  h_sub := u_op_sub c;
  h_mul := u_op_mul c;
  h_checked_mul := fun x o => u_checked_mul c x (u_from_prim c o);
  h_checked_sub := fun x o => Ret (u_checked_sub c x (u_from_prim c o));
  h_checked_add := fun x o => Ret (u_checked_add c x (u_from_prim c o));
  h_size_of := 32
|}.
(** src/macros/parse.rs:5-23 for I256; [Self::from(u32)] is src/int/convert.rs:7-22 *)
Definition i_helper (c : cfg) : helper i256 := {|
  h_min := I256_MIN c;
  h_gt := i_gt c;
  h_from_u32 := i_from_prim c;
  h_add := i_op_add c;
  h_sub := i_op_sub c;
  h_mul := i_op_mul c;
  h_checked_mul := fun x o => i_checked_mul c x (i_from_prim c o);
  h_checked_sub := fun x o => Ret (i_checked_sub c x (i_from_prim c o));
  h_checked_add := fun x o => Ret (i_checked_add c x (i_from_prim c o));
  h_size_of := 32
|}.

(** src/parse.rs:25-28; the products and differences are in usize and in range *)
Definition can_not_overflow (size radix : Z) (is_signed_ty : bool) (digits : list Z) : bool :=
  (radix <=? 16) && (Z.of_nat (length digits) <=? size * 2 - Z.b2z is_signed_ty).

Section Loops.
Context {T : Type} (h : helper T) (radix : Z).

(** src/parse.rs:86-94 run_unchecked_loop *)
Fixpoint unchecked_loop (op : T -> T -> res T) (digits : list Z) (r : T) : res (result T) :=
  match digits with
  | [] => Ret (Ok r)
  | ch :: rest =>
      let! r1 := h_mul h r (h_from_u32 h radix) in
      match to_digit ch radix with
      | None => Ret (Err InvalidDigit)
      | Some x =>
          let! r2 := op r1 (h_from_u32 h x) in
          unchecked_loop op rest r2
      end
  end.

(** src/parse.rs:101-120 run_checked_loop *)
Fixpoint checked_loop (op : T -> Z -> res (option T)) (overflow_err : int_error) (digits : list Z) (r : T)
    : res (result T) :=
  match digits with
  | [] => Ret (Ok r)
  | ch :: rest =>
      let! m := h_checked_mul h r radix in
      match to_digit ch radix with
      | None => Ret (Err InvalidDigit)
      | Some x =>
          match m with
          | None => Ret (Err overflow_err)
          | Some r1 =>
              let! a := op r1 x in
              match a with
              | None => Ret (Err overflow_err)
              | Some r2 => checked_loop op overflow_err rest r2
              end
          end
      end
  end.
End Loops.

(** core's [<[u8]>::strip_prefix]; src/parse.rs:67 *)
Fixpoint strip_prefix (s prefix : list Z) : option (list Z) :=
  match prefix, s with
  | [], _ => Some s
  | p :: prefix', x :: s' => if x =? p then strip_prefix s' prefix' else None
  | _ :: _, [] => None
  end.

(** src/parse.rs:56-63: the sign; [None] is the early return of Err(InvalidDigit).
    43 is '+' and 45 is '-'. *)
Definition split_sign (is_signed_ty : bool) (src : list Z) : option (bool * list Z) :=
  match src with
  | [] => Some (true, [])
  | b :: rest =>
      if ((b =? 43) || (b =? 45)) && match rest with [] => true | _ => false end then None
      else if b =? 43 then Some (true, rest)
      else if (b =? 45) && is_signed_ty then Some (false, rest)
      else Some (true, src)
  end.

(** core's Display of a u32, for the message of src/parse.rs:38-42: ten digits are enough *)
Fixpoint u32_digits (n : nat) (v : Z) (after : string) : string :=
  match n with
  | O => after
  | S n =>
      let after := String (Ascii.ascii_of_N (Z.to_N (48 + v mod 10))) after in
      if v <? 10 then after else u32_digits n (v / 10) after
  end.
(** the ten digits; src/parse.rs:38-42 *)
Definition u32_display (v : Z) : string := u32_digits 10 v EmptyString.

(** src/parse.rs:30-128 *)
Definition from_str_radix {T} (h : helper T) (src : list Z) (radix : Z) (prefix : option (list Z))
    : res (result T) :=
  if negb ((2 <=? radix) && (radix <=? 36)) then
    Panic ("from_str_radix_int: must lie in the range `[2, 36]` - found " ++ u32_display radix)%string
  else
  match src with
  | [] => Ret (Err Empty)
  | _ =>
      let is_signed_ty := h_gt h (h_from_u32 h 0) (h_min h) in
      match split_sign is_signed_ty src with
      | None => Ret (Err InvalidDigit)
      | Some (is_positive, prefixed_digits) =>
          match (match prefix with
                 | Some p => strip_prefix prefixed_digits p
                 | None => Some prefixed_digits
                 end) with
          | None => Ret (Err InvalidDigit)
          | Some [] => Ret (Err InvalidDigit)
          | Some digits =>
              let result := h_from_u32 h 0 in
              if can_not_overflow (h_size_of h) radix is_signed_ty digits then
                unchecked_loop h radix (if is_positive then h_add h else h_sub h) digits result
              else if is_positive then
                checked_loop h radix (h_checked_add h) PosOverflow digits result
              else
                checked_loop h radix (h_checked_sub h) NegOverflow digits result
          end
      end
  end.

(** [Result::or_else] ignoring the error; src/parse.rs:132-134 *)
Definition or_else {T} (r : res (result T)) (k : res (result T)) : res (result T) :=
  let! x := r in match x with Ok v => Ret (Ok v) | Err _ => k end.

(** "0b", src/parse.rs:131 *)
Definition px_b : list Z := [48; 98].
(** "0o", src/parse.rs:132 *)
Definition px_o : list Z := [48; 111].
(** "0x", src/parse.rs:133 *)
Definition px_x : list Z := [48; 120].

(** src/parse.rs:130-135 *)
Definition from_str_prefixed {T} (h : helper T) (src : list Z) : res (result T) :=
  or_else (or_else (or_else (from_str_radix h src 2 (Some px_b))
                            (from_str_radix h src 8 (Some px_o)))
                   (from_str_radix h src 16 (Some px_x)))
          (from_str_radix h src 10 None).

(** src/uint/api.rs:72-74 *)
Definition u_from_str_radix (c : cfg) (src : list Z) (radix : Z) := from_str_radix (u_helper c) src radix None.
(** src/int/api.rs:75-77 *)
Definition i_from_str_radix (c : cfg) (src : list Z) (radix : Z) := from_str_radix (i_helper c) src radix None.
(** src/macros/parse.rs:25-32 *)
Definition u_from_str (c : cfg) (src : list Z) := from_str_radix (u_helper c) src 10 None.
(** src/macros/parse.rs:25-32 for I256 *)
Definition i_from_str (c : cfg) (src : list Z) := from_str_radix (i_helper c) src 10 None.
(** src/uint.rs:129-131 *)
Definition u_from_str_hex (c : cfg) (src : list Z) := from_str_radix (u_helper c) src 16 (Some px_x).
(** src/int.rs:132-134 *)
Definition i_from_str_hex (c : cfg) (src : list Z) := from_str_radix (i_helper c) src 16 (Some px_x).
(** src/uint.rs:157-159 *)
Definition u_from_str_prefixed (c : cfg) (src : list Z) := from_str_prefixed (u_helper c) src.
(** src/int.rs:160-162 *)
Definition i_from_str_prefixed (c : cfg) (src : list Z) := from_str_prefixed (i_helper c) src.

(** ** The const parser behind uint! and int! *)

(** src/parse.rs:138-140 *)
Definition cp_check (overflow : bool) : res unit :=
  if overflow then Panic "overflows integer type" else Ret tt.

(** src/parse.rs:142-150 *)
Definition cp_add (c : cfg) (a : u256) (b : Z) : res u256 :=
  let '(hi, lo) := u_into_words c a in
  let '(lo, carry) := overflowing_add 128 lo b in
  let '(hi, overflow) := overflowing_add 128 hi (Z.b2z carry) in
  let! _ := cp_check overflow in
  Ret (u_from_words c hi lo).

(** src/parse.rs:152-167; the shift amounts are the literal 64 *)
Definition cp_mul (c : cfg) (a : u256) (r : Z) : res u256 :=
  let '(hi, lo) := u_into_words c a in
  let lh := Z.shiftr lo 64 in
  let ll := Z.land lo (2 ^ 64 - 1) in
  let! ll := u_mul c 128 ll r in
  let! lh := u_mul c 128 lh r in
  let '(hi, overflow) := overflowing_mul 128 hi r in
  let! _ := cp_check overflow in
  let '(lo, overflow) := overflowing_add 128 ll (Z.shiftl lh 64 mod 2 ^ 128) in
  let! _ := cp_check overflow in
  let '(hi, overflow) := overflowing_add 128 hi (Z.shiftr lh 64) in
  let! _ := cp_check overflow in
  Ret (u_from_words c hi lo).

(** u8::is_ascii_whitespace of core: space, \t, \n, form feed, \r; src/parse.rs:188 *)
Definition is_ascii_whitespace (b : Z) : bool :=
  (b =? 32) || (b =? 9) || (b =? 10) || (b =? 12) || (b =? 13).

(** src/parse.rs:192-200, the match on (byte, radix); [None] is the panic, and
    [Some None] the [continue] for '_' (95) *)
Definition cp_digit (byte radix : Z) : option (option Z) :=
  if (48 <=? byte) && (byte <=? 49) && ((radix =? 2) || (radix =? 8) || (radix =? 10) || (radix =? 16)) then Some (Some (byte - 48))
  else if (50 <=? byte) && (byte <=? 55) && ((radix =? 8) || (radix =? 10) || (radix =? 16)) then Some (Some (byte - 48))
  else if (56 <=? byte) && (byte <=? 57) && ((radix =? 10) || (radix =? 16)) then Some (Some (byte - 48))
  else if (97 <=? byte) && (byte <=? 102) && (radix =? 16) then Some (Some (byte - 97 + 10))
  else if (65 <=? byte) && (byte <=? 70) && (radix =? 16) then Some (Some (byte - 65 + 10))
  else if byte =? 95 then Some None
  else None.

(** src/parse.rs:184-202, the loop over the bytes from index [i] on *)
Fixpoint cp_loop (c : cfg) (radix : Z) (bytes : list Z) (value : u256) : res u256 :=
  match bytes with
  | [] => Ret value
  | byte :: rest =>
      if (byte =? 95) || is_ascii_whitespace byte then cp_loop c radix rest value
      else
        match cp_digit byte radix with
        | None => Panic "invalid digit"
        | Some None => cp_loop c radix rest value
        | Some (Some next) =>
            let! m := cp_mul c value radix in
            let! value' := cp_add c m next in
            cp_loop c radix rest value'
        end
  end.

(** src/parse.rs:137-205 applied to the bytes after the first [start] ones *)
Definition const_from_str_prefixed (c : cfg) (bytes : list Z) (start : nat) : res u256 :=
  let b := skipn start bytes in
  if negb (Z.of_nat start <? Z.of_nat (length bytes)) then Panic "missing number"
  else
    let '(radix, digits) :=
      if 2 <? Z.of_nat (length bytes) - Z.of_nat start then
        match b with
        | b0 :: b1 :: rest =>
            if (b0 =? 48) && (b1 =? 98) then (2, rest)
            else if (b0 =? 48) && (b1 =? 111) then (8, rest)
            else if (b0 =? 48) && (b1 =? 120) then (16, rest)
            else (10, b)
        | _ => (10, b)
        end
      else (10, b) in
    cp_loop c radix digits U256_ZERO.

(** src/uint/parse.rs:9-15, src/uint.rs:165-167; uint! evaluates this at compile
    time (src/lib.rs:109-115), where a panic is a compilation error *)
Definition u_const_from_str_prefixed (c : cfg) (src : list Z) : res u256 :=
  match src with
  | [] => Panic "empty string"
  | b0 :: _ => const_from_str_prefixed c src (if b0 =? 43 then 1%nat else 0%nat)
  end.

(** src/int/parse.rs:9-38, src/int.rs:168-170; int! (src/lib.rs:67-73) *)
Definition i_const_from_str_prefixed (c : cfg) (src : list Z) : res i256 :=
  match src with
  | [] => Panic "empty string"
  | b0 :: _ =>
      let '(negate, start) :=
        if b0 =? 43 then (false, 1%nat) else if b0 =? 45 then (true, 1%nat) else (false, 0%nat) in
      let! uint := const_from_str_prefixed c src start in
      let '(hi, lo) :=
        if negate then
          let '(hi, lo) := u_into_words c uint in
          let '(lo, carry) := overflowing_add 128 (u_not 128 lo) 1 in
          let hi := wrapping_add 128 (u_not 128 hi) (Z.b2z carry) in
          (hi, lo)
        else u_into_words c uint in
      let int := i_from_words c (as_i 128 hi) (as_i 128 lo) in
      let s := i_signum128 c int in
      if (negb negate && (s =? -1)) || (negate && (s =? 1)) then Panic "overflows integer type"
      else Ret int
  end.

(** * Formatting: src/fmt.rs, src/macros/fmt.rs

    A formatting call is modelled as a function from the options of the
    [Formatter] to the list of the texts it hands to the underlying writer, one
    for each call of [write_str] or [write_char]; texts are lists of code points.
    The writer is assumed not to fail here (see M_Serde for one that can).

    [core::fmt::Formatter] itself is not part of the repository: [pad_integral]
    below transcribes core's implementation.

    LowerExp and UpperExp hand [as_f64] (M_Float) to core's implementation for f64,
    which is not modelled. *)

From Coq Require Import ZArith String Ascii List Bool.
Import ListNotations.
From Verif Require Import M_Prim M_Words M_Intr M_Div M_Ops M_UintApi M_IntApi M_Convert.
Open Scope Z_scope.

(** ** core::fmt::Formatter *)

(** core::fmt::Alignment; for [f.pad_integral] of src/fmt.rs:43 and 152 *)
Inductive alignment := ALeft | ACenter | ARight.

(** The options.  [debug_lower] and [debug_upper] are bits 4 and 5 of [Formatter::flags]
    (src/macros/fmt.rs:16-18), set by {:x?} and {:X?}.  The precision is not used for integers. *)
Record fmt_opts := mkOpts {
  o_plus : bool; o_minus : bool; o_alternate : bool; o_zero : bool;
  o_debug_lower : bool; o_debug_upper : bool;
  o_fill : Z; o_align : option alignment; o_width : option Z }.

(** Formatter::padding of core; the texts before and after; called by [pad_integral], src/fmt.rs:43 and 152 *)
Definition padding (fill padding : Z) (align : option alignment) (default : alignment) : list (list Z) * list (list Z) :=
  let a := match align with Some a => a | None => default end in
  let '(pre, post) :=
    match a with
    | ALeft => (0, padding)
    | ARight => (padding, 0)
    | ACenter => (padding / 2, (padding + 1) / 2)
    end in
  (repeat [fill] (Z.to_nat pre), repeat [fill] (Z.to_nat post)).

(** Formatter::pad_integral of core; src/fmt.rs:43 and 152 *)
Definition pad_integral (o : fmt_opts) (is_nonnegative : bool) (prefix buf : list Z) : list (list Z) :=
  let width := Z.of_nat (length buf) in
  let '(sign, width) :=
    if negb is_nonnegative then ([[45]], width + 1)
    else if o_plus o then ([[43]], width + 1)
    else ([], width) in
  let '(prefix, width) :=
    if o_alternate o then ([prefix], width + Z.of_nat (length prefix)) else ([], width) in
  let write_prefix := sign ++ prefix in
  match o_width o with
  | None => write_prefix ++ [buf]
  | Some min =>
      if min <=? width then write_prefix ++ [buf]
      else if o_zero o then
        let '(pre, post) := padding 48 (min - width) (Some ARight) ARight in
        write_prefix ++ pre ++ [buf] ++ post
      else
        let '(pre, post) := padding (o_fill o) (min - width) (o_align o) ARight in
        pre ++ write_prefix ++ [buf] ++ post
  end.

(** ** Stack buffers of MaybeUninit<u8> *)

(** src/fmt.rs:19 and 92, src/serde.rs:661 *)
Definition buffer := list (option Z).
(** [MaybeUninit::<u8>::uninit(); n], src/fmt.rs:19 and 92 *)
Definition uninit (n : nat) : buffer := repeat None n.

(** copying [bytes] to position [i]; outside of the buffer this is undefined behaviour; src/fmt.rs:27,
    118-119, 130, src/serde.rs:716 *)
Definition buf_write (b : buffer) (i : Z) (bytes : list Z) : res buffer :=
  if (0 <=? i) && (i + Z.of_nat (length bytes) <=? Z.of_nat (length b)) then
    Ret (firstn (Z.to_nat i) b ++ map Some bytes ++ skipn (Z.to_nat i + length bytes) b)
  else UB "write outside of the buffer".

(** the contents of a buffer that is written everywhere; src/fmt.rs:38-41 *)
Fixpoint all_init (b : buffer) : option (list Z) :=
  match b with
  | [] => Some []
  | None :: _ => None
  | Some x :: t => match all_init t with Some l => Some (x :: l) | None => None end
  end.
(** a slice of [n] bytes from position [i] on, read as u8; src/fmt.rs:38-41, 147-150, src/serde.rs:678 *)
Definition buf_read (b : buffer) (i n : Z) : res (list Z) :=
  if (0 <=? i) && (0 <=? n) && (i + n <=? Z.of_nat (length b)) then
    match all_init (firstn (Z.to_nat n) (skipn (Z.to_nat i) b)) with
    | Some l => Ret l
    | None => UB "read of uninitialised memory"
    end
  else UB "read outside of the buffer".

(** ** Binary, octal and hexadecimal *)

(** src/fmt.rs:47-61 *)
Inductive radix_kind := Binary | Octal | LowerHex | UpperHex.

(** src/fmt.rs:78-81, BASE *)
Definition r_base (k : radix_kind) : Z := match k with Binary => 2 | Octal => 8 | _ => 16 end.
(** src/fmt.rs:78-81, PREFIX *)
Definition r_prefix (k : radix_kind) : list Z :=
  match k with Binary => [48; 98] | Octal => [48; 111] | _ => [48; 120] end.

(** src/fmt.rs:63-81, digit; u8 arithmetic *)
Definition r_digit (c : cfg) (k : radix_kind) (x : Z) : res Z :=
  let small := u_add c 8 48 x in
  let letter (a : Z) := let! y := u_sub c 8 x 10 in u_add c 8 a y in
  let bad := Panic "number not in the range" in
  match k with
  | Binary => if (0 <=? x) && (x <=? 1) then small else bad
  | Octal => if (0 <=? x) && (x <=? 7) then small else bad
  | LowerHex => if (0 <=? x) && (x <=? 9) then small else if (10 <=? x) && (x <=? 15) then letter 97 else bad
  | UpperHex => if (0 <=? x) && (x <=? 9) then small else if (10 <=? x) && (x <=? 15) then letter 65 else bad
  end.

(** src/fmt.rs:24-33; [n] counts the positions of the buffer not yet visited by the
    reverse iterator *)
Fixpoint radix_loop (c : cfg) (k : radix_kind) (n : nat) (x : u256) (buf : buffer) (curr : Z) : res (buffer * Z) :=
  match n with
  | O => Ret (buf, curr)
  | S n' =>
      let base := u_from_prim c (r_base k) in
      let! r := u_op_rem c x base in
      let! x := u_op_div_assign c x base in
      let! d := r_digit c k (u_as c (TU 8) r) in
      let! buf := buf_write buf (Z.of_nat n') [d] in
      let! curr := u_sub c (usize_bits c) curr 1 in
      if u_eq c x U256_ZERO then Ret (buf, curr) else radix_loop c k n' x buf curr
  end.

(** src/fmt.rs:15-44 *)
Definition radix_fmt_u256 (c : cfg) (k : radix_kind) (o : fmt_opts) (x : u256) (is_nonnegative : bool) : res (list (list Z)) :=
  let! '(buf, curr) := radix_loop c k 256 x (uninit 256) 256 in
  if 256 <? curr then Panic "range start index out of range for slice"
  else
    let buf := skipn (Z.to_nat curr) buf in
    if Z.of_nat (length buf) =? 0 then Panic "index out of bounds"
    else
      let! buf := buf_read buf 0 (Z.of_nat (length buf)) in
      Ret (pad_integral o is_nonnegative (r_prefix k) buf).

(** ** Decimal *)

(** src/fmt.rs:83-88 *)
Definition DEC_DIGITS_LUT : list Z :=
  map (fun a => Z.of_N (N_of_ascii a)) (list_ascii_of_string
    ("0001020304050607080910111213141516171819" ++
     "2021222324252627282930313233343536373839" ++
     "4041424344454647484950515253545556575859" ++
     "6061626364656667686970717273747576777879" ++
     "8081828384858687888990919293949596979899")%string).
(** two bytes at [lut_ptr.offset(d)], src/fmt.rs:118-119 *)
Definition lut_read (d : Z) : res (list Z) :=
  if (0 <=? d) && (d + 2 <=? 200) then Ret (firstn 2 (skipn (Z.to_nat d) DEC_DIGITS_LUT))
  else UB "read outside of the table".

(** isize arithmetic; [curr -= 4], src/fmt.rs:113 *)
Definition isize_sub (c : cfg) (a b : Z) : res Z :=
  let v := a - b in
  if (- 2 ^ (usize_bits c - 1) <=? v) && (v <? 2 ^ (usize_bits c - 1)) then Ret v
  else if overflow_checks c then Panic "attempt to subtract with overflow"
  else Ret (as_i (usize_bits c) v).
(** [curr + 2], src/fmt.rs:119 *)
Definition isize_add (c : cfg) (a b : Z) : res Z :=
  let v := a + b in
  if (- 2 ^ (usize_bits c - 1) <=? v) && (v <? 2 ^ (usize_bits c - 1)) then Ret v
  else if overflow_checks c then Panic "attempt to add with overflow"
  else Ret (as_i (usize_bits c) v).
(** [a << 1], src/fmt.rs:111 *)
Definition isize_shl1 (c : cfg) (a : Z) : Z := as_i (usize_bits c) (Z.shiftl a 1).

(** src/fmt.rs:106-120, one round of the loop on (n, buf, curr); division and remainder
    are by the literal 100 *)
Definition dec_step (c : cfg) (st : u256 * buffer * Z) : res ((u256 * buffer * Z) + (u256 * buffer * Z)) :=
  let '(n, buf, curr) := st in
  if is_ge (u_cmp_prim c n 10000) then
    let! '(q, r) := u_div_rem c n (u_new c 10000) in
    let rem := u_as c Tisize r in
    let d1 := isize_shl1 c (Z.quot rem 100) in
    let d2 := isize_shl1 c (Z.rem rem 100) in
    let! curr := isize_sub c curr 4 in
    let! b1 := lut_read d1 in
    let! buf := buf_write buf curr b1 in
    let! b2 := lut_read d2 in
    let! curr2 := isize_add c curr 2 in
    let! buf := buf_write buf curr2 b2 in
    Ret (inl (q, buf, curr))
  else Ret (inr (n, buf, curr)).

(** src/fmt.rs:125-131 *)
Definition dec_two (c : cfg) (n : Z) (buf : buffer) (curr : Z) : res (Z * buffer * Z) :=
  if 100 <=? n then
    let d1 := isize_shl1 c (Z.rem n 100) in
    let n := Z.quot n 100 in
    let! curr := isize_sub c curr 2 in
    let! b := lut_read d1 in
    let! buf := buf_write buf curr b in
    Ret (n, buf, curr)
  else Ret (n, buf, curr).

(** src/fmt.rs:133-141 *)
Definition dec_last (c : cfg) (n : Z) (buf : buffer) (curr : Z) : res (buffer * Z) :=
  if n <? 10 then
    let! curr := isize_sub c curr 1 in
    let! d := u_add c 8 (as_u 8 n) 48 in
    let! buf := buf_write buf curr [d] in
    Ret (buf, curr)
  else
    let d1 := isize_shl1 c n in
    let! curr := isize_sub c curr 2 in
    let! b := lut_read d1 in
    let! buf := buf_write buf curr b in
    Ret (buf, curr).

(** src/fmt.rs:90-153; the loop divides by 10000 and ends after at most 19 rounds *)
Definition fmt_u256 (c : cfg) (o : fmt_opts) (n : u256) (is_nonnegative : bool) : res (list (list Z)) :=
  let! '(n, buf, curr) := loop 20 (dec_step c) (n, uninit 79, 79) in
  let! '(n, buf, curr) := dec_two c (u_as c Tisize n) buf curr in
  let! '(buf, curr) := dec_last c n buf curr in
  let! len := u_sub c (usize_bits c) 79 (as_u (usize_bits c) curr) in
  let! digits := buf_read buf curr len in
  Ret (pad_integral o is_nonnegative [] digits).

(** ** The trait implementations, src/macros/fmt.rs *)

(** src/macros/fmt.rs:30-44 for U256, where [*self >= 0] compares with a u128 *)
Definition u_fmt_display (c : cfg) (o : fmt_opts) (x : u256) : res (list (list Z)) :=
  let is_nonnegative := is_ge (u_cmp_prim c x 0) in
  let n := if is_nonnegative then u256_as_u256 x
           else u_wrapping_add c (u_op_not (u256_as_u256 x)) (U256_ONE c) in
  fmt_u256 c o n is_nonnegative.
(** src/macros/fmt.rs:30-44 for I256 *)
Definition i_fmt_display (c : cfg) (o : fmt_opts) (x : i256) : res (list (list Z)) :=
  let is_nonnegative := is_ge (i_cmp_prim c x 0) in
  let n := if is_nonnegative then i256_as_u256 x
           else u_wrapping_add c (u_op_not (i256_as_u256 x)) (U256_ONE c) in
  fmt_u256 c o n is_nonnegative.

(** src/macros/fmt.rs:66-85 for U256 and the four radices *)
Definition u_fmt_radix (c : cfg) (k : radix_kind) (o : fmt_opts) (x : u256) : res (list (list Z)) :=
  let '(abs, is_nonnegative) :=
    if is_lt (u_cmp_prim c x 0) && o_minus o then (u_wrapping_neg c x, false) else (x, true) in
  radix_fmt_u256 c k o (u256_as_u256 abs) is_nonnegative.
(** src/macros/fmt.rs:66-85 for I256 *)
Definition i_fmt_radix (c : cfg) (k : radix_kind) (o : fmt_opts) (x : i256) : res (list (list Z)) :=
  let '(abs, is_nonnegative) :=
    if is_lt (i_cmp_prim c x 0) && o_minus o then (i_wrapping_neg c x, false) else (x, true) in
  radix_fmt_u256 c k o (i256_as_u256 abs) is_nonnegative.

(** src/macros/fmt.rs:10-28 for U256 *)
Definition u_fmt_debug (c : cfg) (o : fmt_opts) (x : u256) : res (list (list Z)) :=
  if o_debug_lower o then u_fmt_radix c LowerHex o x
  else if o_debug_upper o then u_fmt_radix c UpperHex o x
  else u_fmt_display c o x.
(** src/macros/fmt.rs:10-28 for I256 *)
Definition i_fmt_debug (c : cfg) (o : fmt_opts) (x : i256) : res (list (list Z)) :=
  if o_debug_lower o then i_fmt_radix c LowerHex o x
  else if o_debug_upper o then i_fmt_radix c UpperHex o x
  else i_fmt_display c o x.

(** what a String collects; the texts written by [f.pad_integral], src/fmt.rs:43 and 152 *)
Definition to_string (r : res (list (list Z))) : res (list Z) := res_map (@concat Z) r.

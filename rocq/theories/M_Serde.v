(** * Serialization: src/serde.rs

    Serializing is modelled by the value handed to the serializer (the argument
    of [serialize_str] or [serialize_bytes]), deserializing by the method of the
    visitor that the deserializer calls, applied to the value it found.  Which
    method a data format calls is its own decision (the hints [deserialize_str],
    [deserialize_bytes], [deserialize_any] are not binding); M_Visit.v puts the
    methods together into visitors and modules.  Texts are lists of bytes. *)

From Coq Require Import ZArith String List Bool.
Import ListNotations.
From Verif Require Import M_Prim M_Words M_Intr M_Ops M_UintApi M_IntApi M_Convert M_Float M_Parse M_Fmt.
Open Scope Z_scope.

(** Errors: serde's [Error::invalid_length] and [invalid_value], [Error::custom] of a message or of a
    ParseIntError, and errors raised by the deserializer itself while reading an element; src/serde.rs:270,
    392, 403, 642, 650, 562 *)
Inductive de_error :=
  | InvalidLength (n : Z) | InvalidValue (bytes : list Z) | Custom (msg : string) | ParseFailed (e : int_error)
  | ElementError (what : Z).
(** Result<A, E>; src/serde.rs:236 *)
Inductive de (A : Type) := DOk (a : A) | DErr (e : de_error).
Arguments DOk {A} a.
Arguments DErr {A} e.

(** ** The formatting buffer *)

(** src/serde.rs:659-662, FormatBuffer<N>; N is the length of the buffer *)
Record format_buffer := mkFB { fb_offset : Z; fb_buffer : buffer }.
(** src/serde.rs:664-671, [new] *)
Definition fb_new (n : nat) : format_buffer := mkFB 0 (uninit n).
(** src/serde.rs:684-690 *)
Definition fb_decimal : format_buffer := fb_new 78.
(** src/serde.rs:692-698 *)
Definition fb_hex : format_buffer := fb_new 67.
(** src/serde.rs:674-681, as_str *)
Definition fb_as_str (f : format_buffer) : res (list Z) := buf_read (fb_buffer f) 0 (fb_offset f).
(** src/serde.rs:700-722, write_str; [None] is Err(fmt::Error) *)
Definition fb_write_str (c : cfg) (f : format_buffer) (s : list Z) : res (option format_buffer) :=
  let end_ := fb_offset f + Z.of_nat (length s) in
  if 2 ^ usize_bits c <=? end_ then Ret None
  else if Z.of_nat (length (fb_buffer f)) <? end_ then Ret None
  else
    let! b := buf_write (fb_buffer f) (fb_offset f) s in
    Ret (Some (mkFB end_ b)).
(** The texts a formatting call writes, one by one; an error ends the call.  (For the formats in use every
    text written is ASCII, so that writing a code point is writing a byte.); src/serde.rs:53, 64, 104 and 113 *)
Fixpoint fb_write_all (c : cfg) (f : format_buffer) (texts : list (list Z)) : res (option format_buffer) :=
  match texts with
  | [] => Ret (Some f)
  | s :: t =>
      let! f' := fb_write_str c f s in
      match f' with
      | Some f => fb_write_all c f t
      | None => Ret None
      end
  end.
(** [write!(f, ..).expect(msg)] into a new buffer, then [as_str]; src/serde.rs:52-54, 63-65, 123-125 *)
Definition write_expect (c : cfg) (f : format_buffer) (msg : string) (texts : res (list (list Z))) : res (list Z) :=
  let! texts := texts in
  let! f := fb_write_all c f texts in
  match f with
  | Some f => fb_as_str f
  | None => Panic msg
  end.

(** {:#x}: src/serde.rs:64 *)
Definition opts_hex : fmt_opts := mkOpts false false true false false false 32 None None.
(** {:-#x}: src/serde.rs:53 *)
Definition opts_neg_hex : fmt_opts := mkOpts false true true false false false 32 None None.
(** {}: src/serde.rs:104 and 113 *)
Definition opts_plain : fmt_opts := mkOpts false false false false false false 32 None None.

(** ** Texts *)

(** src/serde.rs:58-67 *)
Definition u_serialize (c : cfg) (x : u256) : res (list Z) :=
  write_expect c fb_hex "unexpected formatting failure" (u_fmt_radix c LowerHex opts_hex x).
(** src/serde.rs:47-56 *)
Definition i_serialize (c : cfg) (x : i256) : res (list Z) :=
  write_expect c fb_hex "unexpected formatting failure" (i_fmt_radix c LowerHex opts_neg_hex x).
(** src/serde.rs:112-114, 118-126 *)
Definition u_serialize_decimal (c : cfg) (x : u256) : res (list Z) :=
  write_expect c fb_decimal "unexpected formatting error" (u_fmt_display c opts_plain x).
(** src/serde.rs:103-105, 118-126 *)
Definition i_serialize_decimal (c : cfg) (x : i256) : res (list Z) :=
  write_expect c fb_decimal "unexpected formatting error" (i_fmt_display c opts_plain x).
(** src/serde.rs:165-171: prefixed and permissive call [Serialize::serialize] *)
Definition u_serialize_prefixed := u_serialize.
(** src/serde.rs:165-171 for I256 *)
Definition i_serialize_prefixed := i_serialize.
(** src/serde.rs:216-222 *)
Definition u_serialize_permissive := u_serialize.
(** src/serde.rs:216-222 for I256 *)
Definition i_serialize_permissive := i_serialize.

(** core::str::from_utf8 succeeds: the well-formed sequences of the Unicode standard, table 3-7;
    src/serde.rs:649 *)
Definition cont (b : Z) : bool := (128 <=? b) && (b <=? 191).
(** str::from_utf8(v).is_ok(), src/serde.rs:649 *)
Fixpoint utf8_valid (l : list Z) : bool :=
  match l with
  | [] => true
  | b0 :: t0 =>
      if b0 <? 128 then utf8_valid t0
      else
        match t0 with
        | [] => false
        | b1 :: t1 =>
            if (194 <=? b0) && (b0 <=? 223) then cont b1 && utf8_valid t1
            else
              match t1 with
              | [] => false
              | b2 :: t2 =>
                  if (224 <=? b0) && (b0 <=? 239) then
                    (if b0 =? 224 then (160 <=? b1) && (b1 <=? 191)
                     else if b0 =? 237 then (128 <=? b1) && (b1 <=? 159) else cont b1) &&
                    cont b2 && utf8_valid t2
                  else
                    match t2 with
                    | [] => false
                    | b3 :: t3 =>
                        (240 <=? b0) && (b0 <=? 244) &&
                        (if b0 =? 240 then (144 <=? b1) && (b1 <=? 191)
                         else if b0 =? 244 then (128 <=? b1) && (b1 <=? 143) else cont b1) &&
                        cont b2 && cont b3 && utf8_valid t3
                    end
              end
        end
  end.

(** src/serde.rs:638-643, FormatVisitor::visit_str *)
Definition format_visit_str {A} (parse : list Z -> res (result A)) (v : list Z) : res (de A) :=
  let! r := parse v in
  Ret match r with Ok x => DOk x | Err e => DErr (ParseFailed e) end.
(** src/serde.rs:645-652, FormatVisitor::visit_bytes *)
Definition format_visit_bytes {A} (parse : list Z -> res (result A)) (v : list Z) : res (de A) :=
  if utf8_valid v then format_visit_str parse v else Ret (DErr (InvalidValue v)).

(** what the visitors of the textual modules parse with; src/serde.rs:83 *)
Definition u_de_hex (c : cfg) := u_from_str_hex c.
(** src/serde.rs:74 *)
Definition i_de_hex (c : cfg) := i_from_str_hex c.
(** src/serde.rs:109-111, 134 *)
Definition u_de_decimal (c : cfg) (s : list Z) := u_from_str_radix c s 10.
(** src/serde.rs:100-102, 134 *)
Definition i_de_decimal (c : cfg) (s : list Z) := i_from_str_radix c s 10.
(** src/serde.rs:159-161, 179 *)
Definition u_de_prefixed (c : cfg) := u_from_str_prefixed c.
(** src/serde.rs:153-155, 179 *)
Definition i_de_prefixed (c : cfg) := i_from_str_prefixed c.

(** ** The permissive visitor, src/serde.rs:188-321 *)

(** comparison of a float with an integer that is itself a float; [None]: unordered; for src/serde.rs:269,
    284 and 295 *)
Definition f_cmp (x : float) (n : Z) : option comparison :=
  match x with
  | FNan => None
  | FInf neg => Some (if neg then Lt else Gt)
  | FNum neg m e =>
      let m := if neg then - m else m in
      Some (if 0 <=? e then m * 2 ^ e ?= n else m ?= n * 2 ^ (- e))
  end.
(** [-N <= v], src/serde.rs:269 and 284 *)
Definition f_ge (x : float) (n : Z) : bool := match f_cmp x n with Some Lt | None => false | _ => true end.
(** [v < N], src/serde.rs:269 and 284 *)
Definition f_lt (x : float) (n : Z) : bool := match f_cmp x n with Some Lt => true | _ => false end.
(** [i as f64 == v], src/serde.rs:295 *)
Definition f_eq (x : float) (n : Z) : bool := match f_cmp x n with Some Eq => true | _ => false end.
(** [v as i64] for an f64: toward zero, saturating, NaN to 0; src/serde.rs:294 *)
Definition f_as_i64 (x : float) : Z :=
  match x with
  | FNan => 0
  | FInf neg => if neg then - 2 ^ 63 else 2 ^ 63 - 1
  | FNum neg m e =>
      let a := if 0 <=? e then m * 2 ^ e else m / 2 ^ (- e) in
      let a := if neg then - a else a in
      if a <? - 2 ^ 63 then - 2 ^ 63 else if 2 ^ 63 - 1 <? a then 2 ^ 63 - 1 else a
  end.

(** src/serde.rs:209-213, cast *)
Definition u_cast (x : i256) : u256 := i_as_u256 x.
(** src/serde.rs:203-207 *)
Definition i_cast (x : i256) : i256 := x.
(** src/serde.rs:236-262, visit_i64, visit_u64, visit_i128 and visit_u128; the widening of the value
    depends only on its number *)
Definition visit_int {A} (cast : i256 -> A) (c : cfg) (v : Z) : res (de A) :=
  Ret (DOk (cast (prim_as_i256 c v))).
(** src/serde.rs:279-303, visit_f64 *)
Definition visit_f64 {A} (cast : i256 -> A) (c : cfg) (v : float) : res (de A) :=
  let N := 2 ^ 53 in
  if negb (f_ge v (- N) && f_lt v N) then
    Ret (DErr (Custom "invalid conversion from double precision floating point number outside of valid integer range (-2^53, 2^53)"))
  else
    let i := f_as_i64 v in
    let same := match rnd F64 i with Fin y => f_eq v y | Inf _ => false end in
    if negb same then
      Ret (DErr (Custom "invalid conversion from floating point number with fractional part to 256-bit integer"))
    else visit_int cast c i.
(** src/serde.rs:264-277, visit_f32; [v as f64] is exact, the float denotes the same number *)
Definition visit_f32 {A} (cast : i256 -> A) (c : cfg) (v : float) : res (de A) :=
  let N := 2 ^ 24 in
  if negb (f_ge v (- N) && f_lt v N) then
    Ret (DErr (Custom "invalid conversion from single precision floating point number outside of valid integer range (-2^24, 2^24)"))
  else visit_f64 cast c v.
(** src/serde.rs:305-310, visit_str *)
Definition u_permissive_visit_str (c : cfg) (v : list Z) := format_visit_str (u_de_prefixed c) v.
(** src/serde.rs:305-310 for I256 *)
Definition i_permissive_visit_str (c : cfg) (v : list Z) := format_visit_str (i_de_prefixed c) v.

(** ** Bytes *)

(** The modules [le] and [be], src/serde.rs:439-447, 596-606 *)
Inductive order := LE | BE.
(** src/serde.rs:451-459 and 612-620, the order of the [ne] modules *)
Definition native (c : cfg) : order := if big_endian c then BE else LE.
(** src/serde.rs:355-357 *)
Definition u_to_bytes (c : cfg) (o : order) (x : u256) : list Z :=
  match o with LE => u_to_le_bytes c x | BE => u_to_be_bytes c x end.
(** src/serde.rs:359-361 *)
Definition u_from_bytes (c : cfg) (o : order) (l : list Z) : u256 :=
  match o with LE => u_from_le_bytes c l | BE => u_from_be_bytes c l end.
(** src/serde.rs:345-347 *)
Definition i_to_bytes (c : cfg) (o : order) (x : i256) : list Z :=
  match o with LE => i_to_le_bytes c x | BE => i_to_be_bytes c x end.
(** src/serde.rs:349-351 *)
Definition i_from_bytes (c : cfg) (o : order) (l : list Z) : i256 :=
  match o with LE => i_from_le_bytes c l | BE => i_from_be_bytes c l end.

(** src/serde.rs:365-372, serialize *)
Definition u_ser_bytes (c : cfg) (o : order) (x : u256) : list Z := u_to_bytes c o x.
(** src/serde.rs:365-372 for I256 *)
Definition i_ser_bytes (c : cfg) (o : order) (x : i256) : list Z := i_to_bytes c o x.

(** src/serde.rs:386-395, visit_bytes; a slice converts to an array of its length only *)
Definition bytes_visit_bytes {A} (from_bytes : list Z -> A) (v : list Z) : res (de A) :=
  if Z.of_nat (length v) =? 32 then Ret (DOk (from_bytes v))
  else Ret (DErr (InvalidLength (Z.of_nat (length v)))).

(** A SeqAccess: its size hint and what its elements read as u8 give. src/serde.rs:397-401 *)
Record seq_access := mkSeq { size_hint : option Z; elements : list (de Z) }.
(** next_element; src/serde.rs:411, 415 and 562 *)
Definition next (l : list (de Z)) : de (option (Z * list (de Z))) :=
  match l with
  | [] => DOk None
  | DErr e :: _ => DErr e
  | DOk b :: t => DOk (Some (b, t))
  end.

(** src/serde.rs:407-413, the loop from [i] on; [n] rounds are left *)
Fixpoint seq_fill (n : nat) (i : Z) (bytes : buffer) (l : list (de Z)) : res (de (buffer * list (de Z))) :=
  match n with
  | O => Ret (DOk (bytes, l))
  | S n' =>
      match next l with
      | DErr e => Ret (DErr e)
      | DOk None => Ret (DErr (InvalidLength i))
      | DOk (Some (b, l)) =>
          let! bytes := buf_write bytes i [b] in
          seq_fill n' (i + 1) bytes l
      end
  end.
(** src/serde.rs:414-416 and 569-571: there must not be a 33rd element *)
Definition seq_end (l : list (de Z)) : de unit :=
  match next l with
  | DErr e => DErr e
  | DOk (Some _) => DErr (InvalidLength 33)
  | DOk None => DOk tt
  end.
(** src/serde.rs:397-423, visit_seq *)
Definition bytes_visit_seq {A} (from_bytes : list Z -> A) (s : seq_access) : res (de A) :=
  let go :=
    let! r := seq_fill 32 0 (uninit 32) (elements s) in
    match r with
    | DErr e => Ret (DErr e)
    | DOk (bytes, l) =>
        match seq_end l with
        | DErr e => Ret (DErr e)
        | DOk _ =>
            let! bytes := buf_read bytes 0 32 in
            Ret (DOk (from_bytes bytes))
        end
    end in
  match size_hint s with
  | Some len => if negb (len =? 32) then Ret (DErr (InvalidLength len)) else go
  | None => go
  end.

(** ** Compressed bytes *)

(** src/serde.rs:485-493, U256 *)
Definition u_leading_bits (c : cfg) (x : u256) : res Z := u_leading_zeros c x.
(** src/serde.rs:490-492 *)
Definition u_extend (msb : Z) : Z := 0.
(** src/serde.rs:472-483, I256 *)
Definition i_leading_bits (c : cfg) (x : i256) : res Z :=
  if i_is_negative c x then
    let! n := i_leading_ones c x in u_sub c 32 n 1
  else i_leading_zeros c x.
(** src/serde.rs:480-482 *)
Definition i_extend (msb : Z) : Z := as_u 8 (Z.shiftr (as_i 8 msb) 7).

(** src/serde.rs:510-519, serialize, with the ranges of 597 and 605 *)
Definition ser_compressed (c : cfg) (o : order) (bytes : list Z) (leading_bits : res Z) : res (list Z) :=
  let! bits := leading_bits in
  let l := as_u (usize_bits c) bits / 8 in
  match o with
  | LE =>
      let! e := u_sub c (usize_bits c) 32 l in
      if Z.of_nat (length bytes) <? e then Panic "range end index out of range for slice"
      else Ret (firstn (Z.to_nat e) bytes)
  | BE =>
      if Z.of_nat (length bytes) <? l then Panic "range start index out of range for slice"
      else Ret (skipn (Z.to_nat l) bytes)
  end.
(** src/serde.rs:510-519 for U256 *)
Definition u_ser_compressed (c : cfg) (o : order) (x : u256) : res (list Z) :=
  ser_compressed c o (u_to_bytes c o x) (u_leading_bits c x).
(** src/serde.rs:510-519 for I256 *)
Definition i_ser_compressed (c : cfg) (o : order) (x : i256) : res (list Z) :=
  ser_compressed c o (i_to_bytes c o x) (i_leading_bits c x).

(** [bytes[index].copy_from_slice(v)], for the range from [a] to [b]; src/serde.rs:545 *)
Definition copy_range (bytes : list Z) (a b : Z) (v : list Z) : res (list Z) :=
  if b <? a then Panic "slice index starts past its end"
  else if Z.of_nat (length bytes) <? b then Panic "range end index out of range for slice"
  else if negb (Z.of_nat (length v) =? b - a) then Panic "copy_from_slice: source slice length does not match destination slice length"
  else Ret (firstn (Z.to_nat a) bytes ++ v ++ skipn (Z.to_nat b) bytes).
(** src/serde.rs:533-548, visit_bytes, with the ranges of 597 and 605 *)
Definition compressed_visit_bytes {A} (c : cfg) (o : order) (extend : Z -> Z) (from_bytes : list Z -> A)
    (v : list Z) : res (de A) :=
  if 32 <? Z.of_nat (length v) then Ret (DErr (InvalidLength (Z.of_nat (length v))))
  else
    let ext := extend (last v 0) in
    let bytes := repeat ext 32 in
    let l := Z.of_nat (length v) in
    let! bytes :=
      match o with
      | LE => copy_range bytes 0 l v
      | BE => let! a := u_sub c (usize_bits c) 32 l in copy_range bytes a 32 v
      end in
    Ret (DOk (from_bytes bytes)).

(** src/serde.rs:560-568, the loop from [i] on; [n] = 32 - i *)
Fixpoint seq_take (n : nat) (i : Z) (bytes : buffer) (l : list (de Z)) : res (de (buffer * Z * list (de Z))) :=
  match n with
  | O => Ret (DOk (bytes, i, l))
  | S n' =>
      match next l with
      | DErr e => Ret (DErr e)
      | DOk None => Ret (DOk (bytes, i, l))
      | DOk (Some (b, l)) =>
          let! bytes := buf_write bytes i [b] in
          seq_take n' (i + 1) bytes l
      end
  end.
(** src/serde.rs:550-578, visit_seq *)
Definition compressed_visit_seq {A} (c : cfg) (o : order) (extend : Z -> Z) (from_bytes : list Z -> A)
    (s : seq_access) : res (de A) :=
  let go :=
    let! r := seq_take 32 0 (uninit 32) (elements s) in
    match r with
    | DErr e => Ret (DErr e)
    | DOk (bytes, i, l) =>
        match (if i =? 32 then seq_end l else DOk tt) with
        | DErr e => Ret (DErr e)
        | DOk _ =>
            let! bytes := buf_read bytes 0 i in
            compressed_visit_bytes c o extend from_bytes bytes
        end
    end in
  match size_hint s with
  | Some len => if 32 <? len then Ret (DErr (InvalidLength len)) else go
  | None => go
  end.

(** ** The visitors for both types: BytesVisitor and CompressedBytesVisitor, src/serde.rs:374-424, 521-579 *)

(** src/serde.rs:386-395 for U256 *)
Definition u_visit_bytes (c : cfg) (o : order) := bytes_visit_bytes (u_from_bytes c o).
(** src/serde.rs:386-395 for I256 *)
Definition i_visit_bytes (c : cfg) (o : order) := bytes_visit_bytes (i_from_bytes c o).
(** src/serde.rs:397-423 for U256 *)
Definition u_visit_seq (c : cfg) (o : order) := bytes_visit_seq (u_from_bytes c o).
(** src/serde.rs:397-423 for I256 *)
Definition i_visit_seq (c : cfg) (o : order) := bytes_visit_seq (i_from_bytes c o).
(** src/serde.rs:533-548 for U256 *)
Definition u_compressed_visit_bytes (c : cfg) (o : order) := compressed_visit_bytes c o u_extend (u_from_bytes c o).
(** src/serde.rs:533-548 for I256 *)
Definition i_compressed_visit_bytes (c : cfg) (o : order) := compressed_visit_bytes c o i_extend (i_from_bytes c o).
(** src/serde.rs:550-578 for U256 *)
Definition u_compressed_visit_seq (c : cfg) (o : order) := compressed_visit_seq c o u_extend (u_from_bytes c o).
(** src/serde.rs:550-578 for I256 *)
Definition i_compressed_visit_seq (c : cfg) (o : order) := compressed_visit_seq c o i_extend (i_from_bytes c o).

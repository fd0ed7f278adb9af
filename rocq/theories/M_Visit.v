(** * Visitors and modules of src/serde.rs

    A data format is anything: its deserializer calls one method of the visitor,
    with whatever it found.  The provided methods of serde's [Visitor] trait (crate
    serde 1, documented there) are modelled here, since they decide what happens to
    the values the visitors of src/serde.rs do not mention. *)

From Coq Require Import ZArith String List Bool.
Import ListNotations.
From Verif Require Import M_Prim M_Words M_UintApi M_IntApi M_Float M_Parse M_Serde.
Open Scope Z_scope.

(** ** serde *)

(** the integer types of serde's data model; the visitors of src/serde.rs:236-262 take those of 64 and 128 bits *)
Inductive width := W8 | W16 | W32 | W64 | W128.
(** their widths; src/serde.rs:236-262 *)
Definition wbits (w : width) : Z := match w with W8 => 8 | W16 => 16 | W32 => 32 | W64 => 64 | W128 => 128 end.
(** [visit_str], [visit_borrowed_str] and [visit_string]; likewise for bytes; src/serde.rs:638-652 defines
    the first of each *)
Inductive own := Transient | Borrowed | Owned.
(** A call of a method of a visitor.  Floats are given by their bits, a char by its code
    point; the contents of options, newtypes, maps and enums are left out, as no visitor
    of src/serde.rs looks at them. What src/serde.rs:226-311, 376-424, 523-579 and 627-653 can be called with. *)
Inductive input :=
  | In_bool (b : bool)
  | In_signed (w : width) (v : Z)
  | In_unsigned (w : width) (v : Z)
  | In_f32 (bits : Z)
  | In_f64 (bits : Z)
  | In_char (ch : Z)
  | In_str (o : own) (s : list Z)
  | In_bytes (o : own) (l : list Z)
  | In_none
  | In_some
  | In_unit
  | In_newtype
  | In_seq (s : seq_access)
  | In_map
  | In_enum.

(** serde::de::Unexpected; src/serde.rs:650 and the defaults of serde *)
Inductive unexpected :=
  | Ux_bool (b : bool) | Ux_signed (v : Z) | Ux_unsigned (v : Z) | Ux_float (x : float) | Ux_str (s : list Z) | Ux_bytes (l : list Z)
  | Ux_option | Ux_unit | Ux_newtype | Ux_seq | Ux_map | Ux_enum | Ux_i128 (v : Z) | Ux_u128 (v : Z).
(** The errors a deserializer reports: [invalid_type], [invalid_length] and [invalid_value] with what
    the visitor expects, custom messages, and errors of the format itself; src/serde.rs:270-299, 392-416,
    538-570, 642-651 *)
Inductive failure :=
  | Wrong_type (found : unexpected) (expected : string)
  | Wrong_length (n : Z) (expected : string)
  | Wrong_value (bytes : list Z) (expected : string)
  | Message (msg : string)
  | Not_a_number (e : int_error)
  | Foreign (what : Z).
(** Result<T, E> with these errors, e.g. src/serde.rs:236 *)
Inductive outcome (A : Type) := Accepted (a : A) | Rejected (e : failure).
Arguments Accepted {A} a.
Arguments Rejected {A} e.

(** A visitor: what it expects and the methods it defines itself. src/serde.rs:226-311, 376-424, 523-579,
    627-653 *)
Record visitor (A : Type) := mkVisitor {
  expecting : string;
  on_i64 : option (Z -> res (de A));
  on_u64 : option (Z -> res (de A));
  on_i128 : option (Z -> res (de A));
  on_u128 : option (Z -> res (de A));
  on_f32 : option (float -> res (de A));
  on_f64 : option (float -> res (de A));
  on_str : option (list Z -> res (de A));
  on_bytes : option (list Z -> res (de A));
  on_seq : option (seq_access -> res (de A))
}.
Arguments expecting {A}.
Arguments on_i64 {A}.
Arguments on_u64 {A}.
Arguments on_i128 {A}.
Arguments on_u128 {A}.
Arguments on_f32 {A}.
Arguments on_f64 {A}.
Arguments on_str {A}.
Arguments on_bytes {A}.
Arguments on_seq {A}.

(** [&self] in an error stands for the text of [expecting]; src/serde.rs:392, 403, 412, 416, 538, 555, 570, 650 *)
Definition report (exp : string) (e : de_error) : failure :=
  match e with
  | InvalidLength n => Wrong_length n exp
  | InvalidValue b => Wrong_value b exp
  | Custom m => Message m
  | ParseFailed e => Not_a_number e
  | ElementError w => Foreign w
  end.
(** a method, or its default: an error of type [invalid_type]; src/serde.rs:226-311 leaves out visit_bytes,
    for instance *)
Definition call {A B} (exp : string) (method : option (B -> res (de A))) (found : unexpected) (v : B) : res (outcome A) :=
  match method with
  | Some f =>
      let! r := f v in
      Ret match r with DOk a => Accepted a | DErr e => Rejected (report exp e) end
  | None => Ret (Rejected (Wrong_type found exp))
  end.

(** [char::encode_utf8]; for the default of visit_char, which calls src/serde.rs:638-643 *)
Definition encode_utf8 (ch : Z) : list Z :=
  if ch <? 0x80 then [ch]
  else if ch <? 0x800 then [192 + ch / 64; 128 + ch mod 64]
  else if ch <? 0x10000 then [224 + ch / 4096; 128 + ch / 64 mod 64; 128 + ch mod 64]
  else [240 + ch / 262144; 128 + ch / 4096 mod 64; 128 + ch / 64 mod 64; 128 + ch mod 64].

(** The methods of [Visitor]: integers of up to 64 bits go to [visit_i64] and [visit_u64], a float of 32 bits
    goes to [visit_f64] (exactly), a char and the other kinds of strings go to [visit_str], the other
    kinds of byte strings to [visit_bytes]. They end in the methods of src/serde.rs:236-310, 386-423,
    533-578, 638-652. *)
Definition visit {A} (V : visitor A) (i : input) : res (outcome A) :=
  let exp := expecting V in
  let reject u := Ret (Rejected (Wrong_type u exp)) in
  match i with
  | In_bool b => reject (Ux_bool b)
  | In_signed W128 v => call exp (on_i128 V) (Ux_i128 v) v
  | In_signed _ v => call exp (on_i64 V) (Ux_signed v) v
  | In_unsigned W128 v => call exp (on_u128 V) (Ux_u128 v) v
  | In_unsigned _ v => call exp (on_u64 V) (Ux_unsigned v) v
  | In_f32 b =>
      let x := f_of_bits F32 b in
      match on_f32 V with
      | Some f => call exp (Some f) (Ux_float x) x
      | None => call exp (on_f64 V) (Ux_float x) x
      end
  | In_f64 b => call exp (on_f64 V) (Ux_float (f_of_bits F64 b)) (f_of_bits F64 b)
  | In_char ch => call exp (on_str V) (Ux_str (encode_utf8 ch)) (encode_utf8 ch)
  | In_str _ s => call exp (on_str V) (Ux_str s) s
  | In_bytes _ l => call exp (on_bytes V) (Ux_bytes l) l
  | In_none | In_some => reject Ux_option
  | In_unit => reject Ux_unit
  | In_newtype => reject Ux_newtype
  | In_seq s => call exp (on_seq V) Ux_seq s
  | In_map => reject Ux_map
  | In_enum => reject Ux_enum
  end.

(** ** The visitors *)

(** src/serde.rs:622-653, FormatVisitor *)
Definition format_visitor {A} (parse : list Z -> res (result A)) : visitor A :=
  mkVisitor A "a formatted 256-bit integer" None None None None None None
    (Some (format_visit_str parse)) (Some (format_visit_bytes parse)) None.
(** src/serde.rs:224-311, PermissiveVisitor; [cast] and [from_str_prefixed] are those of the type *)
Definition permissive_visitor {A} (c : cfg) (cast : i256 -> A) (parse : list Z -> res (result A)) : visitor A :=
  mkVisitor A "number, decimal string or '0x-' prefixed hexadecimal string"
    (Some (visit_int cast c)) (Some (visit_int cast c)) (Some (visit_int cast c)) (Some (visit_int cast c))
    (Some (visit_f32 cast c)) (Some (visit_f64 cast c)) (Some (format_visit_str parse)) None None.
(** src/serde.rs:440 and 446, 597 and 605: the names of the orders *)
Definition order_name (o : order) : string := match o with LE => "little" | BE => "big" end.
(** src/serde.rs:374-424, BytesVisitor *)
Definition bytes_visitor {A} (o : order) (from_bytes : list Z -> A) : visitor A :=
  mkVisitor A ("32 bytes in " ++ order_name o ++ " endian") None None None None None None None
    (Some (bytes_visit_bytes from_bytes)) (Some (bytes_visit_seq from_bytes)).
(** src/serde.rs:521-579, CompressedBytesVisitor *)
Definition compressed_visitor {A} (c : cfg) (o : order) (extend : Z -> Z) (from_bytes : list Z -> A) : visitor A :=
  mkVisitor A ("bytes in " ++ order_name o ++ " endian") None None None None None None None
    (Some (compressed_visit_bytes c o extend from_bytes)) (Some (compressed_visit_seq c o extend from_bytes)).

(** ** The modules *)

(** The implementations of Serialize and Deserialize and the modules for #[serde(with = ..)];
    the order [None] stands for the [ne] modules. src/serde.rs:47-85, 89, 143, 188, 324, 463 *)
Inductive codec := Plain | Decimal | Prefixed | Permissive | Bytes (o : option order) | Compressed (o : option order).
(** src/serde.rs:451-459 and 612-620 *)
Definition resolve (c : cfg) (o : option order) : order := match o with Some o => o | None => native c end.

(** what the serializer is asked to write: [serialize_str] or [serialize_bytes]; src/serde.rs:54, 65, 125,
    371, 518 *)
Inductive emitted := Em_str (s : list Z) | Em_bytes (l : list Z).
(** src/serde.rs:47-67, 118-126, 165-171, 216-222, 365-372, 510-519 *)
Definition u_emit (c : cfg) (k : codec) (x : u256) : res emitted :=
  match k with
  | Plain => let! s := u_serialize c x in Ret (Em_str s)
  | Decimal => let! s := u_serialize_decimal c x in Ret (Em_str s)
  | Prefixed => let! s := u_serialize_prefixed c x in Ret (Em_str s)
  | Permissive => let! s := u_serialize_permissive c x in Ret (Em_str s)
  | Bytes o => Ret (Em_bytes (u_ser_bytes c (resolve c o) x))
  | Compressed o => let! l := u_ser_compressed c (resolve c o) x in Ret (Em_bytes l)
  end.
(** src/serde.rs:47-56, 118-126, 165-171, 216-222, 365-372, 510-519 *)
Definition i_emit (c : cfg) (k : codec) (x : i256) : res emitted :=
  match k with
  | Plain => let! s := i_serialize c x in Ret (Em_str s)
  | Decimal => let! s := i_serialize_decimal c x in Ret (Em_str s)
  | Prefixed => let! s := i_serialize_prefixed c x in Ret (Em_str s)
  | Permissive => let! s := i_serialize_permissive c x in Ret (Em_str s)
  | Bytes o => Ret (Em_bytes (i_ser_bytes c (resolve c o) x))
  | Compressed o => let! l := i_ser_compressed c (resolve c o) x in Ret (Em_bytes l)
  end.

(** what the deserializer is asked for: [deserialize_str], [deserialize_bytes] or [deserialize_any];
    src/serde.rs:74, 83, 134, 179, 319, 432, 587 *)
Inductive hint := Want_str | Want_bytes | Want_any.
(** src/serde.rs:69-85, 129-135, 174-180, 314-320, 427-433, 582-588 *)
Definition hint_of (k : codec) : hint :=
  match k with
  | Plain | Decimal | Prefixed => Want_str
  | Permissive => Want_any
  | Bytes _ | Compressed _ => Want_bytes
  end.
(** the same lines: the visitor handed to it; src/serde.rs:83, 134, 179, 319, 432, 587 *)
Definition u_visitor (c : cfg) (k : codec) : visitor u256 :=
  match k with
  | Plain => format_visitor (u_de_hex c)
  | Decimal => format_visitor (u_de_decimal c)
  | Prefixed => format_visitor (u_de_prefixed c)
  | Permissive => permissive_visitor c u_cast (u_de_prefixed c)
  | Bytes o => bytes_visitor (resolve c o) (u_from_bytes c (resolve c o))
  | Compressed o => compressed_visitor c (resolve c o) u_extend (u_from_bytes c (resolve c o))
  end.
(** src/serde.rs:74, 134, 179, 319, 432, 587 *)
Definition i_visitor (c : cfg) (k : codec) : visitor i256 :=
  match k with
  | Plain => format_visitor (i_de_hex c)
  | Decimal => format_visitor (i_de_decimal c)
  | Prefixed => format_visitor (i_de_prefixed c)
  | Permissive => permissive_visitor c i_cast (i_de_prefixed c)
  | Bytes o => bytes_visitor (resolve c o) (i_from_bytes c (resolve c o))
  | Compressed o => compressed_visitor c (resolve c o) i_extend (i_from_bytes c (resolve c o))
  end.

(** A data format: its documents, how it writes one, and what it finds in one when asked with a hint
    ([None]: it fails by itself). The parameters [S: Serializer] and [D: Deserializer] of
    src/serde.rs:48-50, 70-72. *)
Record format := mkFormat {
  document : Type;
  put : emitted -> document;
  get : hint -> document -> option input
}.
(** deserializing a document with a module; src/serde.rs:78-85, 129-135, 174-180, 314-320, 427-433, 582-588 *)
Definition u_read (F : format) (c : cfg) (k : codec) (d : document F) : res (option (outcome u256)) :=
  match get F (hint_of k) d with
  | Some i => let! r := visit (u_visitor c k) i in Ret (Some r)
  | None => Ret None
  end.
(** src/serde.rs:69-76, 129-135, 174-180, 314-320, 427-433, 582-588 *)
Definition i_read (F : format) (c : cfg) (k : codec) (d : document F) : res (option (outcome i256)) :=
  match get F (hint_of k) d with
  | Some i => let! r := visit (i_visitor c k) i in Ret (Some r)
  | None => Ret None
  end.
(** serializing with a module; src/serde.rs:58-67, 118-126, 165-171, 216-222, 365-372, 510-519 *)
Definition u_write (F : format) (c : cfg) (k : codec) (x : u256) : res (document F) :=
  let! e := u_emit c k x in Ret (put F e).
(** src/serde.rs:47-56, 118-126, 165-171, 216-222, 365-372, 510-519 *)
Definition i_write (F : format) (c : cfg) (k : codec) (x : i256) : res (document F) :=
  let! e := i_emit c k x in Ret (put F e).

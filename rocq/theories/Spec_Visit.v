(** * Vocabulary for modules and data formats *)

From Coq Require Import ZArith String List Bool.
Import ListNotations.
From Verif Require Import M_Prim M_Words M_Float M_Parse M_Serde M_Visit Spec Spec_Bits Spec_Parse Spec_Serde.
Open Scope Z_scope.

(** the input is one that Rust's types allow *)
Definition input_ok (i : input) : Prop :=
  match i with
  | In_signed w v => - 2 ^ (wbits w - 1) <= v < 2 ^ (wbits w - 1)
  | In_unsigned w v => 0 <= v < 2 ^ wbits w
  | In_char ch => 0 <= ch < 0xd800 \/ 0xe000 <= ch <= 0x10ffff
  | In_bytes _ l => bytes_ok l
  | In_seq s => Forall (fun e => match e with DOk b => 0 <= b < 256 | DErr _ => True end) (elements s)
  | _ => True
  end.

(** the order of the bytes a module asks for; without one, that of the machine *)
Definition side (c : cfg) (o : option order) : order :=
  match o with Some o => o | None => if big_endian c then BE else LE end.

(** the texts a module reads: the prefixes and radices *)
Definition texts_of (k : codec) : list (list Z * Z) :=
  match k with
  | Plain => [([48; 120], 16)]
  | Decimal => [([], 10)]
  | Prefixed | Permissive => radix_prefixes
  | Bytes _ | Compressed _ => []
  end.
(** the text [s] is a numeral of one of these kinds, for the number [z] *)
Definition text_means (signed : bool) (k : codec) (s : list Z) (z : Z) : Prop :=
  let lo := if signed then MINI else 0 in let hi := if signed then MAXI else MAXU in
  exists pre r, In (pre, r) (texts_of k) /\ reads signed lo hi r pre s (Ok z).
(** the bytes [l] stand for the number [z]; compressed bytes of a signed number take the sign of their last one *)
Definition bytes_mean (c : cfg) (signed : bool) (k : codec) (l : list Z) (z : Z) : Prop :=
  match k with
  | Bytes o => length l = 32%nat /\ z = value_le (in_order (side c o) l)
  | Compressed o =>
      (length l <= 32)%nat /\
      z = value_le (in_order (side c o) l) - (if signed && (128 <=? last l 0) then 2 ^ (8 * Z.of_nat (length l)) else 0)
  | Permissive => False
  | _ => text_means signed k l z
  end.
(** a size hint that does not exclude the module's lengths *)
Definition hint_ok (k : codec) (s : seq_access) : Prop :=
  match size_hint s with
  | None => True
  | Some n => match k with Bytes _ => n = 32 | Compressed _ => n <= 32 | _ => False end
  end.

(** What the module [k] should make of the input [i]: the number [z] (modulo 2^256). *)
Definition means (c : cfg) (signed : bool) (k : codec) (i : input) (z : Z) : Prop :=
  match i with
  | In_str _ s => text_means signed k s z
  | In_char ch => text_means signed k [ch] z
  | In_bytes _ l => bytes_mean c signed k l z
  | In_seq s =>
      match k with
      | Bytes _ | Compressed _ => exists l, yields s l /\ hint_ok k s /\ bytes_mean c signed k l z
      | _ => False
      end
  | In_signed _ v | In_unsigned _ v => k = Permissive /\ z = v
  | In_f32 b => k = Permissive /\ f_is (f_of_bits F32 b) z /\ - 2 ^ 24 <= z < 2 ^ 24
  | In_f64 b => k = Permissive /\ f_is (f_of_bits F64 b) z /\ - 2 ^ 53 <= z < 2 ^ 53
  | _ => False
  end.

(** the module [k] has a use for values of this kind *)
Definition kind_ok (k : codec) (i : input) : bool :=
  match i with
  | In_signed _ _ | In_unsigned _ _ | In_f32 _ | In_f64 _ => match k with Permissive => true | _ => false end
  | In_char _ | In_str _ _ => match k with Bytes _ | Compressed _ => false | _ => true end
  | In_bytes _ _ => match k with Permissive => false | _ => true end
  | In_seq _ => match k with Bytes _ | Compressed _ => true | _ => false end
  | _ => false
  end.
(** what the module [k] says it expects *)
Definition wanted (c : cfg) (k : codec) : string :=
  let name o := match side c o with LE => "little"%string | BE => "big"%string end in
  match k with
  | Plain | Decimal | Prefixed => "a formatted 256-bit integer"
  | Permissive => "number, decimal string or '0x-' prefixed hexadecimal string"
  | Bytes o => "32 bytes in " ++ name o ++ " endian"
  | Compressed o => "bytes in " ++ name o ++ " endian"
  end.

(** The input [i] holds what was written: a string as itself or, if [raw], as its bytes; bytes as themselves or
    as a sequence, whose size hint may be missing but is not wrong. *)
Definition holds (raw : bool) (e : emitted) (i : input) : Prop :=
  match e, i with
  | Em_str s, In_str _ t => t = s
  | Em_str s, In_bytes _ t => raw = true /\ t = s
  | Em_bytes l, In_bytes _ m => m = l
  | Em_bytes l, In_seq q => yields q l /\ honest q
  | _, _ => False
  end.
(** what a module asks the deserializer for *)
Definition asks (k : codec) : hint :=
  match k with Plain | Decimal | Prefixed => Want_str | Permissive => Want_any | Bytes _ | Compressed _ => Want_bytes end.
(** a format that finds, when asked with [h], what was written *)
Definition faithful (F : format) (h : hint) : Prop :=
  forall e, exists i, get F h (put F e) = Some i /\ holds (match h with Want_any => false | _ => true end) e i.

(** the modules that write texts, and those that read texts with any prefix *)
Definition texty (k : codec) : Prop := match k with Plain | Decimal | Prefixed | Permissive => True | _ => False end.
Definition lenient (k : codec) : Prop := match k with Prefixed | Permissive => True | _ => False end.

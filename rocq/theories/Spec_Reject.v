(** * Vocabulary for the reasons of a rejection *)

From Coq Require Import ZArith String List Bool.
Import ListNotations.
From Verif Require Import M_Prim M_Words M_Float M_Parse M_Serde M_Visit Spec Spec_Bits Spec_Parse Spec_Serde Spec_Visit.
Local Notation length := List.length.
Open Scope Z_scope.

(** UTF-8: the bytes of a character are its digits to the base 64, with marks; the shortest form only, and no
    halves of surrogate pairs *)
Inductive utf8_char : Z -> list Z -> Prop :=
  | utf8_1 a : 0 <= a < 0x80 -> utf8_char a [a]
  | utf8_2 a b : 0 <= a < 32 -> 0 <= b < 64 ->
      0x80 <= a * 64 + b -> utf8_char (a * 64 + b) [0xc0 + a; 0x80 + b]
  | utf8_3 a b d : 0 <= a < 16 -> 0 <= b < 64 -> 0 <= d < 64 ->
      0x800 <= (a * 64 + b) * 64 + d -> ~ 0xd800 <= (a * 64 + b) * 64 + d <= 0xdfff ->
      utf8_char ((a * 64 + b) * 64 + d) [0xe0 + a; 0x80 + b; 0x80 + d]
  | utf8_4 a b d e : 0 <= a < 8 -> 0 <= b < 64 -> 0 <= d < 64 -> 0 <= e < 64 ->
      0x10000 <= ((a * 64 + b) * 64 + d) * 64 + e <= 0x10ffff ->
      utf8_char (((a * 64 + b) * 64 + d) * 64 + e) [0xf0 + a; 0x80 + b; 0x80 + d; 0x80 + e].
(** a list of bytes that is the UTF-8 of some characters *)
Inductive utf8 : list Z -> Prop :=
  | utf8_nil : utf8 []
  | utf8_cons ch l r : utf8_char ch l -> utf8 r -> utf8 (l ++ r).

(** what the input is, in the words of serde *)
Definition found (i : input) (u : unexpected) : Prop :=
  match i with
  | In_bool b => u = Ux_bool b
  | In_signed W128 v => u = Ux_i128 v
  | In_signed _ v => u = Ux_signed v
  | In_unsigned W128 v => u = Ux_u128 v
  | In_unsigned _ v => u = Ux_unsigned v
  | In_f32 b => u = Ux_float (f_of_bits F32 b)
  | In_f64 b => u = Ux_float (f_of_bits F64 b)
  | In_char ch => exists l, utf8_char ch l /\ u = Ux_str l
  | In_str _ s => u = Ux_str s
  | In_bytes _ l => u = Ux_bytes l
  | In_none | In_some => u = Ux_option
  | In_unit => u = Ux_unit
  | In_newtype => u = Ux_newtype
  | In_seq _ => u = Ux_seq
  | In_map => u = Ux_map
  | In_enum => u = Ux_enum
  end.

(** the float is a real number [x] with -n <= x < n *)
Definition within (x : float) (n : Z) : Prop :=
  match x with
  | FNum neg m e =>
      let m := if neg then - m else m in
      if 0 <=? e then - n <= m * 2 ^ e < n else - n * 2 ^ (- e) <= m < n * 2 ^ (- e)
  | _ => False
  end.
(** a float out of the range is blamed for that, one within it for its fraction *)
Definition float_blames (x : float) (n : Z) (range : string) (e : failure) : Prop :=
  (~ within x n /\ e = Message range) \/
  (within x n /\ (forall z, ~ f_is x z) /\
   e = Message "invalid conversion from floating point number with fractional part to 256-bit integer").
(** a text that is no numeral of any kind the module reads is blamed for what is wrong with it as a numeral of the
    last kind: hexadecimal for the implementation of Deserialize, decimal for the modules *)
Definition text_blames (signed : bool) (k : codec) (s : list Z) (err : int_error) : Prop :=
  let lo := if signed then MINI else 0 in let hi := if signed then MAXI else MAXU in
  (forall z, ~ text_means signed k s z) /\
  match k with
  | Plain => reads signed lo hi 16 [48; 120] s (Err err)
  | _ => reads signed lo hi 10 [] s (Err err)
  end.
(** A sequence is blamed for a size hint the module excludes; then for its first error among the first 33 elements;
    then for a 33rd element; then, if there must be 32, for its length. *)
Definition seq_blames (c : cfg) (k : codec) (s : seq_access) (e : failure) : Prop :=
  (exists n, size_hint s = Some n /\ ~ hint_ok k s /\ e = Wrong_length n (wanted c k)) \/
  (hint_ok k s /\
   ((exists a w r, elements s = map DOk a ++ DErr (ElementError w) :: r /\ (length a <= 32)%nat /\ e = Foreign w) \/
    (exists a r, elements s = map DOk a ++ r /\ length a = 33%nat /\ e = Wrong_length 33 (wanted c k)) \/
    (exists o a, k = Bytes o /\ elements s = map DOk a /\ (length a < 32)%nat /\
                 e = Wrong_length (Z.of_nat (length a)) (wanted c k)))).

(** What the module [k] should blame the input [i] for. *)
Definition blames (c : cfg) (signed : bool) (k : codec) (i : input) (e : failure) : Prop :=
  if kind_ok k i then
    match i with
    | In_f32 b =>
        float_blames (f_of_bits F32 b) (2 ^ 24)
          "invalid conversion from single precision floating point number outside of valid integer range (-2^24, 2^24)" e
    | In_f64 b =>
        float_blames (f_of_bits F64 b) (2 ^ 53)
          "invalid conversion from double precision floating point number outside of valid integer range (-2^53, 2^53)" e
    | In_str _ s => exists err, text_blames signed k s err /\ e = Not_a_number err
    | In_char ch => exists s err, utf8_char ch s /\ text_blames signed k s err /\ e = Not_a_number err
    | In_bytes _ l =>
        match k with
        | Bytes _ => length l <> 32%nat /\ e = Wrong_length (Z.of_nat (length l)) (wanted c k)
        | Compressed _ => (32 < length l)%nat /\ e = Wrong_length (Z.of_nat (length l)) (wanted c k)
        | _ => (~ utf8 l /\ e = Wrong_value l (wanted c k)) \/
               (utf8 l /\ exists err, text_blames signed k l err /\ e = Not_a_number err)
        end
    | In_seq s => seq_blames c k s e
    | _ => False
    end
  else exists u, found i u /\ e = Wrong_type u (wanted c k).

(** the errors of the elements of a sequence are errors of the format *)
Definition errors_foreign (i : input) : Prop :=
  match i with
  | In_seq s => Forall (fun e => match e with DOk _ | DErr (ElementError _) => True | _ => False end) (elements s)
  | _ => True
  end.

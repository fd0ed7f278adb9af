(** * The examples of the documentation and the assertions of the unit tests
    Every [assert!] and [assert_eq!] of the documentation and of the test modules of src, as the
    boolean it computes in a given build.  The lists are transcribed statement by statement: [let] is a bind, an
    operator or method is the model's function, and equality is that of the type compared.  A statement under
    [if cfg!(..)] counts as true in the other builds.  What needs no run to hold (the tests that only name
    trait implementations and memory layouts, the functions only shown to compile), the examples that run
    methods of primitive integers, the tests of exponent formatting and of src/error.rs, and the statements
    that take the prover longer than a couple of seconds (numerals of 64 digits and more) are left out. *)

From Coq Require Import ZArith List String Ascii Bool.
From Verif Require Import M_Prim M_Words M_Intr M_Ops M_Mul M_Div M_Llvm M_UintApi M_IntApi M_Convert M_Parse M_Fmt M_Float M_Misc
  M_Serde M_Visit.
Import ListNotations.
Open Scope Z_scope.

(** An example: what it computes in a build; src/lib.rs:40-48 is one *)
Definition example := cfg -> res bool.

(** ** What the examples themselves use *)

(** a text as bytes, as in src/uint/api.rs:31-35 *)
Definition text (s : string) : list Z := map (fun a => Z.of_N (N_of_ascii a)) (list_ascii_of_string s).
(** Option::unwrap and Result::unwrap, with any message; src/int/convert.rs:208-223 *)
Definition unwrapped {A} (o : option A) : res A := match o with Some x => Ret x | None => Panic "unwrap" end.
(** Result::unwrap; src/uint/parse.rs:25-31 *)
Definition unwrap_ok {A} (o : result A) : res A := match o with Ok x => Ret x | Err _ => Panic "unwrap" end.
(** Result::unwrap_err; src/uint/parse.rs:34-62 *)
Definition unwrap_err {A} (o : result A) : res int_error := match o with Ok _ => Panic "unwrap_err" | Err e => Ret e end.
(** [None] is expected, or a failed conversion; src/uint/api.rs:455-464 *)
Definition is_none {A} (o : option A) : bool := match o with None => true | Some _ => false end.
(** equality of options, results, byte strings, orderings and errors; src/uint/api.rs:455-464, src/uint/parse.rs:34-62 *)
Definition opt_eqb {A B} (f : A -> B -> bool) (x : option A) (y : option B) : bool :=
  match x, y with Some a, Some b => f a b | None, None => true | _, _ => false end.
(** src/uint/parse.rs:34-62 *)
Definition err_eqb (x y : int_error) : bool :=
  match x, y with
  | Empty, Empty | InvalidDigit, InvalidDigit | PosOverflow, PosOverflow | NegOverflow, NegOverflow => true
  | _, _ => false
  end.
(** src/uint/parse.rs:34-62 *)
Definition res_eqb {A B} (f : A -> B -> bool) (x : result A) (y : result B) : bool :=
  match x, y with Ok a, Ok b => f a b | Err a, Err b => err_eqb a b | _, _ => false end.
(** src/uint/api.rs:1664-1680 *)
Fixpoint bytes_eqb (x y : list Z) : bool :=
  match x, y with [], [] => true | a :: x', b :: y' => (a =? b) && bytes_eqb x' y' | _, _ => false end.
(** src/uint/cmp.rs:33-52 *)
Definition cmp_eqb (x y : comparison) : bool :=
  match x, y with Lt, Lt | Eq, Eq | Gt, Gt => true | _, _ => false end.
(** what the serializers of the tests were asked to write; src/serde.rs:741-754 *)
Definition emitted_eqb (x y : emitted) : bool :=
  match x, y with Em_str a, Em_str b | Em_bytes a, Em_bytes b => bytes_eqb a b | _, _ => false end.
(** the result of [unwrap] equals; src/serde.rs:898-901 *)
Definition accepts {A} (eq : A -> A -> bool) (r : outcome A) (x : A) : bool :=
  match r with Accepted y => eq y x | Rejected _ => false end.
(** [is_err]; src/serde.rs:902-905 *)
Definition rejects {A} (r : outcome A) : bool := match r with Accepted _ => false | Rejected _ => true end.
(** a sequence of bytes, SeqDeserializer; src/serde.rs:915-917 *)
Definition byte_seq (l : list Z) : seq_access :=
  {| size_hint := Some (Z.of_nat (List.length l)); elements := map DOk l |}.
(** the default options of [format!]; src/int/fmt.rs:52-54 *)
Definition plain_opts : fmt_opts := mkOpts false false false false false false 32 None None.

(** ** The examples of the documentation *)

(** src/int.rs:128-613 *)
Definition docs_int : list example := [
  (* 128-130 *)
  fun c => let! v2 := i_from_str_hex c (text "-0xa") in Ret (res_eqb (fun p q => (i_eq c p q)) v2 (Ok (i_new c (- 10))));
  (* 154-158 *)
  fun c => let! v2 := i_from_str_prefixed c (text "0o17") in Ret (res_eqb (fun p q => (i_eq c p q)) v2 (Ok (i_new c 15)));
  (* 154-158 *)
  fun c => let! v3 := i_from_str_prefixed c (text "-0xa") in Ret (res_eqb (fun p q => (i_eq c p q)) v3 (Ok (i_new c (- 10))));
  (* 287-291 *)
  fun c => let! v1 := i_div_rem c (i_new c 22) (i_new c 5) in Ret (let '(p0, p1) := v1 in let '(q0, q1) := ((i_new c 4), (i_new c 2)) in (i_eq c p0 q0) && (i_eq c p1 q1));
  (* 287-291 *)
  fun c => let! v3 := i_div_rem c (i_new c 22) (i_new c (- 5)) in Ret (let '(p0, p1) := v3 in let '(q0, q1) := ((i_new c (- 4)), (i_new c 2)) in (i_eq c p0 q0) && (i_eq c p1 q1));
  (* 317-326 *)
  fun c => let! v1 := i_div_rem_euclid c (i_new c 22) (i_new c 5) in Ret (let '(p0, p1) := v1 in let '(q0, q1) := ((i_new c 4), (i_new c 2)) in (i_eq c p0 q0) && (i_eq c p1 q1));
  (* 317-326 *)
  fun c => let! v2 := i_div_rem_euclid c (i_new c (- 22)) (i_new c 5) in Ret (let '(p0, p1) := v2 in let '(q0, q1) := ((i_new c (- 5)), (i_new c 3)) in (i_eq c p0 q0) && (i_eq c p1 q1));
  (* 317-326 *)
  fun c => let! v4 := i_div_rem_euclid c (i_new c (- 22)) (i_new c (- 5)) in Ret (let '(p0, p1) := v4 in let '(q0, q1) := ((i_new c 5), (i_new c 3)) in (i_eq c p0 q0) && (i_eq c p1 q1));
  (* 317-326 *)
  fun c => let! v5 := i_div_rem_euclid c (i_new c 20) (i_new c 5) in Ret (let '(p0, p1) := v5 in let '(q0, q1) := ((i_new c 4), (i_new c 0)) in (i_eq c p0 q0) && (i_eq c p1 q1));
  (* 317-326 *)
  fun c => let! v6 := i_div_rem_euclid c (i_new c (- 20)) (i_new c 5) in Ret (let '(p0, p1) := v6 in let '(q0, q1) := ((i_new c (- 4)), (i_new c 0)) in (i_eq c p0 q0) && (i_eq c p1 q1));
  (* 317-326 *)
  fun c => let! v7 := i_div_rem_euclid c (i_new c 20) (i_new c (- 5)) in Ret (let '(p0, p1) := v7 in let '(q0, q1) := ((i_new c (- 4)), (i_new c 0)) in (i_eq c p0 q0) && (i_eq c p1 q1));
  (* 317-326 *)
  fun c => let! v8 := i_div_rem_euclid c (i_new c (- 20)) (i_new c (- 5)) in Ret (let '(p0, p1) := v8 in let '(q0, q1) := ((i_new c 4), (i_new c 0)) in (i_eq c p0 q0) && (i_eq c p1 q1));
  (* 347-350 *)
  fun c => let! v3 := i_checked_div_rem c (I256_MIN c) (i_new c (- 1)) in Ret (is_none v3);
  (* 347-350 *)
  fun c => let! v4 := i_checked_div_rem c (i_new c 1) (i_new c 0) in Ret (is_none v4);
  (* 380-383 *)
  fun c => let! v3 := i_checked_div_rem_euclid c (I256_MIN c) (i_new c (- 1)) in Ret (is_none v3);
  (* 380-383 *)
  fun c => let! v4 := i_checked_div_rem_euclid c (i_new c 1) (i_new c 0) in Ret (is_none v4);
  (* 410-413 *)
  fun c => let! v1 := i_saturating_div_rem c (i_new c 5) (i_new c 2) in Ret (let '(p0, p1) := v1 in let '(q0, q1) := ((i_new c 2), (i_new c 1)) in (i_eq c p0 q0) && (i_eq c p1 q1));
  (* 410-413 *)
  fun c => let! v4 := i_saturating_div_rem c (I256_MIN c) (i_new c (- 1)) in Ret (let '(p0, p1) := v4 in let '(q0, q1) := ((I256_MAX c), (i_new c 0)) in (i_eq c p0 q0) && (i_eq c p1 q1));
  (* 438-441 *)
  fun c => let! v1 := i_saturating_div_rem_euclid c (i_new c 5) (i_new c 2) in Ret (let '(p0, p1) := v1 in let '(q0, q1) := ((i_new c 2), (i_new c 1)) in (i_eq c p0 q0) && (i_eq c p1 q1));
  (* 438-441 *)
  fun c => let! v4 := i_saturating_div_rem_euclid c (I256_MIN c) (i_new c (- 1)) in Ret (let '(p0, p1) := v4 in let '(q0, q1) := ((I256_MAX c), (i_new c 0)) in (i_eq c p0 q0) && (i_eq c p1 q1));
  (* 469-475 *)
  fun c => let! v1 := i_wrapping_div_rem c (i_new c 22) (i_new c 5) in Ret (let '(p0, p1) := v1 in let '(q0, q1) := ((i_new c 4), (i_new c 2)) in (i_eq c p0 q0) && (i_eq c p1 q1));
  (* 469-475 *)
  fun c => let! v3 := i_wrapping_div_rem c (i_new c 22) (i_new c (- 5)) in Ret (let '(p0, p1) := v3 in let '(q0, q1) := ((i_new c (- 4)), (i_new c 2)) in (i_eq c p0 q0) && (i_eq c p1 q1));
  (* 513-523 *)
  fun c => let! v1 := i_wrapping_div_rem_euclid c (i_new c 22) (i_new c 5) in Ret (let '(p0, p1) := v1 in let '(q0, q1) := ((i_new c 4), (i_new c 2)) in (i_eq c p0 q0) && (i_eq c p1 q1));
  (* 513-523 *)
  fun c => let! v2 := i_wrapping_div_rem_euclid c (i_new c (- 22)) (i_new c 5) in Ret (let '(p0, p1) := v2 in let '(q0, q1) := ((i_new c (- 5)), (i_new c 3)) in (i_eq c p0 q0) && (i_eq c p1 q1));
  (* 513-523 *)
  fun c => let! v3 := i_wrapping_div_rem_euclid c (i_new c 22) (i_new c (- 5)) in Ret (let '(p0, p1) := v3 in let '(q0, q1) := ((i_new c (- 4)), (i_new c 2)) in (i_eq c p0 q0) && (i_eq c p1 q1));
  (* 513-523 *)
  fun c => let! v4 := i_wrapping_div_rem_euclid c (i_new c (- 22)) (i_new c (- 5)) in Ret (let '(p0, p1) := v4 in let '(q0, q1) := ((i_new c 5), (i_new c 3)) in (i_eq c p0 q0) && (i_eq c p1 q1));
  (* 513-523 *)
  fun c => let! v6 := i_wrapping_div_rem_euclid c (i_new c 20) (i_new c 5) in Ret (let '(p0, p1) := v6 in let '(q0, q1) := ((i_new c 4), (i_new c 0)) in (i_eq c p0 q0) && (i_eq c p1 q1));
  (* 513-523 *)
  fun c => let! v7 := i_wrapping_div_rem_euclid c (i_new c (- 20)) (i_new c 5) in Ret (let '(p0, p1) := v7 in let '(q0, q1) := ((i_new c (- 4)), (i_new c 0)) in (i_eq c p0 q0) && (i_eq c p1 q1));
  (* 513-523 *)
  fun c => let! v8 := i_wrapping_div_rem_euclid c (i_new c 20) (i_new c (- 5)) in Ret (let '(p0, p1) := v8 in let '(q0, q1) := ((i_new c (- 4)), (i_new c 0)) in (i_eq c p0 q0) && (i_eq c p1 q1));
  (* 513-523 *)
  fun c => let! v9 := i_wrapping_div_rem_euclid c (i_new c (- 20)) (i_new c (- 5)) in Ret (let '(p0, p1) := v9 in let '(q0, q1) := ((i_new c 4), (i_new c 0)) in (i_eq c p0 q0) && (i_eq c p1 q1));
  (* 579-581 *)
  fun c => let! v1 := i_overflowing_div_rem c (i_new c 5) (i_new c 2) in Ret (let '(p0, p1, p2) := v1 in let '(q0, q1, q2) := ((i_new c 2), (i_new c 1), false) in (i_eq c p0 q0) && (i_eq c p1 q1) && (Bool.eqb p2 q2));
  (* 579-581 *)
  fun c => let! v2 := i_overflowing_div_rem c (I256_MIN c) (i_new c (- 1)) in Ret (let '(p0, p1, p2) := v2 in let '(q0, q1, q2) := ((I256_MIN c), (i_new c 0), true) in (i_eq c p0 q0) && (i_eq c p1 q1) && (Bool.eqb p2 q2));
  (* 611-613 *)
  fun c => let! v1 := i_overflowing_div_rem_euclid c (i_new c 5) (i_new c 2) in Ret (let '(p0, p1, p2) := v1 in let '(q0, q1, q2) := ((i_new c 2), (i_new c 1), false) in (i_eq c p0 q0) && (i_eq c p1 q1) && (Bool.eqb p2 q2));
  (* 611-613 *)
  fun c => let! v2 := i_overflowing_div_rem_euclid c (I256_MIN c) (i_new c (- 1)) in Ret (let '(p0, p1, p2) := v2 in let '(q0, q1, q2) := ((I256_MIN c), (i_new c 0), true) in (i_eq c p0 q0) && (i_eq c p1 q1) && (Bool.eqb p2 q2))
].

(** src/lib.rs:43-107 *)
Definition docs_lib : list example := [
  (* 56-65 *)
  fun c => let! v2 := i_const_from_str_prefixed c (text "0b101010") in Ret (i_eq_prim c v2 42);
  (* 56-65 *)
  fun c => let! v3 := i_const_from_str_prefixed c (text "-0o52") in Ret (i_eq_prim c v3 (- 42));
  (* 98-107 *)
  fun c => let! v2 := u_const_from_str_prefixed c (text "0b101010") in Ret (u_eq_prim c v2 42);
  (* 98-107 *)
  fun c => let! v3 := u_const_from_str_prefixed c (text "0o52") in Ret (u_eq_prim c v3 42)
].

(** src/uint.rs:126-552 *)
Definition docs_uint : list example := [
  (* 126-127 *)
  fun c => let! v1 := u_from_str_hex c (text "0x2A") in Ret (res_eqb (fun p q => (u_eq c p q)) v1 (Ok (u_new c 42)));
  (* 151-155 *)
  fun c => let! v1 := u_from_str_prefixed c (text "0b101") in Ret (res_eqb (fun p q => (u_eq c p q)) v1 (Ok (u_new c 5)));
  (* 151-155 *)
  fun c => let! v2 := u_from_str_prefixed c (text "0o17") in Ret (res_eqb (fun p q => (u_eq c p q)) v2 (Ok (u_new c 15)));
  (* 151-155 *)
  fun c => let! v3 := u_from_str_prefixed c (text "0xa") in Ret (res_eqb (fun p q => (u_eq c p q)) v3 (Ok (u_new c 10)));
  (* 151-155 *)
  fun c => let! v4 := u_from_str_prefixed c (text "42") in Ret (res_eqb (fun p q => (u_eq c p q)) v4 (Ok (u_new c 42)));
  (* 290-291 *)
  fun c => let! v1 := u_div_rem c (u_new c 7) (u_new c 4) in Ret (let '(p0, p1) := v1 in let '(q0, q1) := ((u_new c 1), (u_new c 3)) in (u_eq c p0 q0) && (u_eq c p1 q1));
  (* 345-346 *)
  fun c => let! v1 := u_div_rem_euclid c (u_new c 7) (u_new c 4) in Ret (let '(p0, p1) := v1 in let '(q0, q1) := ((u_new c 1), (u_new c 3)) in (u_eq c p0 q0) && (u_eq c p1 q1));
  (* 364-366 *)
  fun c => let! v1 := u_checked_div_rem c (u_new c 128) (u_new c 2) in Ret (opt_eqb (fun p q => (let '(p0, p1) := p in let '(q0, q1) := q in (u_eq c p0 q0) && (u_eq c p1 q1))) v1 (Some ((u_new c 64), (u_new c 0))));
  (* 364-366 *)
  fun c => let! v2 := u_checked_div_rem c (u_new c 1) (u_new c 0) in Ret (is_none v2);
  (* 397-399 *)
  fun c => let! v1 := u_checked_div_rem_euclid c (u_new c 128) (u_new c 2) in Ret (opt_eqb (fun p q => (let '(p0, p1) := p in let '(q0, q1) := q in (u_eq c p0 q0) && (u_eq c p1 q1))) v1 (Some ((u_new c 64), (u_new c 0))));
  (* 397-399 *)
  fun c => let! v2 := u_checked_div_rem_euclid c (u_new c 1) (u_new c 0) in Ret (is_none v2);
  (* 416-417 *)
  fun c => let! v1 := u_saturating_div_rem c (u_new c 5) (u_new c 2) in Ret (let '(p0, p1) := v1 in let '(q0, q1) := ((u_new c 2), (u_new c 1)) in (u_eq c p0 q0) && (u_eq c p1 q1));
  (* 440-441 *)
  fun c => let! v1 := u_saturating_div_rem_euclid c (u_new c 5) (u_new c 2) in Ret (let '(p0, p1) := v1 in let '(q0, q1) := ((u_new c 2), (u_new c 1)) in (u_eq c p0 q0) && (u_eq c p1 q1));
  (* 470-471 *)
  fun c => let! v1 := u_wrapping_div_rem c (u_new c 100) (u_new c 10) in Ret (let '(p0, p1) := v1 in let '(q0, q1) := ((u_new c 10), (u_new c 0)) in (u_eq c p0 q0) && (u_eq c p1 q1));
  (* 496-497 *)
  fun c => let! v1 := u_wrapping_div_rem_euclid c (u_new c 100) (u_new c 10) in Ret (let '(p0, p1) := v1 in let '(q0, q1) := ((u_new c 10), (u_new c 0)) in (u_eq c p0 q0) && (u_eq c p1 q1));
  (* 522-523 *)
  fun c => let! v1 := u_overflowing_div_rem c (u_new c 5) (u_new c 2) in Ret (let '(p0, p1, p2) := v1 in let '(q0, q1, q2) := ((u_new c 2), (u_new c 1), false) in (u_eq c p0 q0) && (u_eq c p1 q1) && (Bool.eqb p2 q2));
  (* 551-552 *)
  fun c => let! v1 := u_overflowing_div_rem_euclid c (u_new c 5) (u_new c 2) in Ret (let '(p0, p1, p2) := v1 in let '(q0, q1, q2) := ((u_new c 2), (u_new c 1), false) in (u_eq c p0 q0) && (u_eq c p1 q1) && (Bool.eqb p2 q2))
].

(** src/int/api.rs:19-2242 *)
Definition docs_int_api : list example := [
  (* 48-49 *)
  fun c => Ret (I256_BITS =? 256);
  (* 72-73 *)
  fun c => let! v1 := i_from_str_radix c (text "A") 16 in Ret (res_eqb (fun p q => (i_eq c p q)) v1 (Ok (i_new c 10)));
  (* 86-89 *)
  fun c => let! v1 := Ret (i_new c 64) in let! v2 := i_count_ones c v1 in Ret (v2 =? 1);
  (* 107-108 *)
  fun c => let! v1 := i_count_zeros c (I256_MAX c) in Ret (v1 =? 1);
  (* 124-127 *)
  fun c => let! v1 := Ret (i_new c (- 1)) in let! v2 := i_leading_zeros c v1 in Ret (v2 =? 0);
  (* 142-145 *)
  fun c => let! v1 := Ret (i_new c (- 4)) in let! v2 := i_trailing_zeros c v1 in Ret (v2 =? 2);
  (* 160-163 *)
  fun c => let! v1 := Ret (i_new c (- 1)) in let! v2 := i_leading_ones c v1 in Ret (v2 =? 256);
  (* 178-181 *)
  fun c => let! v1 := Ret (i_new c 3) in let! v2 := i_trailing_ones c v1 in Ret (v2 =? 2);
  (* 198-205 *)
  fun c => let! v1 := Ret (i_from_words c 26522252353395899526533775249656250368 20342) in let! v2 := Ret (i_new c 1333138420) in let! v3 := i_rotate_left c v1 16 in Ret (i_eq c v3 v2);
  (* 227-234 *)
  fun c => let! v1 := Ret (i_new c 1333138420) in let! v2 := Ret (i_from_words c 26522252353395899526533775249656250368 20342) in let! v3 := i_rotate_right c v1 16 in Ret (i_eq c v3 v2);
  (* 311-318 *)
  fun c => let! v1 := Ret (i_new c 26) in Ret (if (big_endian c) then (i_eq c (i_from_be c v1) v1) else true);
  (* 311-318 *)
  fun c => let! v1 := Ret (i_new c 26) in Ret (if negb (big_endian c) then (i_eq c (i_from_be c v1) (i_swap_bytes v1)) else true);
  (* 341-348 *)
  fun c => let! v1 := Ret (i_new c 26) in Ret (if (negb (big_endian c)) then (i_eq c (i_from_le c v1) v1) else true);
  (* 341-348 *)
  fun c => let! v1 := Ret (i_new c 26) in Ret (if negb (negb (big_endian c)) then (i_eq c (i_from_le c v1) (i_swap_bytes v1)) else true);
  (* 371-378 *)
  fun c => let! v1 := Ret (i_new c 26) in Ret (if (big_endian c) then (i_eq c (i_to_be c v1) v1) else true);
  (* 371-378 *)
  fun c => let! v1 := Ret (i_new c 26) in Ret (if negb (big_endian c) then (i_eq c (i_to_be c v1) (i_swap_bytes v1)) else true);
  (* 402-409 *)
  fun c => let! v1 := Ret (i_new c 26) in Ret (if (negb (big_endian c)) then (i_eq c (i_to_le c v1) v1) else true);
  (* 402-409 *)
  fun c => let! v1 := Ret (i_new c 26) in Ret (if negb (negb (big_endian c)) then (i_eq c (i_to_le c v1) (i_swap_bytes v1)) else true);
  (* 455-457 *)
  fun c => Ret (opt_eqb (fun p q => (i_eq c p q)) (i_checked_add_unsigned c (i_new c 1) (u_new c 2)) (Some (i_new c 3)));
  (* 503-505 *)
  fun c => Ret (opt_eqb (fun p q => (i_eq c p q)) (i_checked_sub_unsigned c (i_new c 1) (u_new c 2)) (Some (i_new c (- 1))));
  (* 551-554 *)
  fun c => let! v3 := i_checked_div c (I256_MIN c) (i_new c (- 1)) in Ret (is_none v3);
  (* 551-554 *)
  fun c => let! v4 := i_checked_div c (i_new c 1) (i_new c 0) in Ret (is_none v4);
  (* 577-580 *)
  fun c => let! v3 := i_checked_div_euclid c (I256_MIN c) (i_new c (- 1)) in Ret (is_none v3);
  (* 577-580 *)
  fun c => let! v4 := i_checked_div_euclid c (i_new c 1) (i_new c 0) in Ret (is_none v4);
  (* 601-604 *)
  fun c => let! v1 := i_checked_rem c (i_new c 5) (i_new c 2) in Ret (opt_eqb (fun p q => (i_eq c p q)) v1 (Some (i_new c 1)));
  (* 601-604 *)
  fun c => let! v2 := i_checked_rem c (i_new c 5) (i_new c 0) in Ret (is_none v2);
  (* 601-604 *)
  fun c => let! v3 := i_checked_rem c (I256_MIN c) (i_new c (- 1)) in Ret (is_none v3);
  (* 627-630 *)
  fun c => let! v1 := i_checked_rem_euclid c (i_new c 5) (i_new c 2) in Ret (opt_eqb (fun p q => (i_eq c p q)) v1 (Some (i_new c 1)));
  (* 627-630 *)
  fun c => let! v2 := i_checked_rem_euclid c (i_new c 5) (i_new c 0) in Ret (is_none v2);
  (* 627-630 *)
  fun c => let! v3 := i_checked_rem_euclid c (I256_MIN c) (i_new c (- 1)) in Ret (is_none v3);
  (* 650-652 *)
  fun c => let! v1 := i_checked_neg c (i_new c 5) in Ret (opt_eqb (fun p q => (i_eq c p q)) v1 (Some (i_new c (- 5))));
  (* 650-652 *)
  fun c => let! v2 := i_checked_neg c (I256_MIN c) in Ret (is_none v2);
  (* 672-674 *)
  fun c => let! v1 := i_checked_shl c (i_new c 1) 4 in Ret (opt_eqb (fun p q => (i_eq c p q)) v1 (Some (i_new c 16)));
  (* 672-674 *)
  fun c => let! v2 := i_checked_shl c (i_new c 1) 257 in Ret (is_none v2);
  (* 696-698 *)
  fun c => let! v1 := i_checked_shr c (i_new c 16) 4 in Ret (opt_eqb (fun p q => (i_eq c p q)) v1 (Some (i_new c 1)));
  (* 696-698 *)
  fun c => let! v2 := i_checked_shr c (i_new c 16) 256 in Ret (is_none v2);
  (* 720-722 *)
  fun c => let! v1 := i_checked_abs c (i_new c (- 5)) in Ret (opt_eqb (fun p q => (i_eq c p q)) v1 (Some (i_new c 5)));
  (* 720-722 *)
  fun c => let! v2 := i_checked_abs c (I256_MIN c) in Ret (is_none v2);
  (* 777-780 *)
  fun c => Ret (i_eq_prim c (i_saturating_add c (i_new c 100) (i_new c 1)) 101);
  (* 777-780 *)
  fun c => Ret (i_eq c (i_saturating_add c (I256_MAX c) (i_new c 100)) (I256_MAX c));
  (* 777-780 *)
  fun c => Ret (i_eq c (i_saturating_add c (I256_MIN c) (i_new c (- 1))) (I256_MIN c));
  (* 806-808 *)
  fun c => Ret (i_eq_prim c (i_saturating_add_unsigned c (i_new c 1) (u_new c 2)) 3);
  (* 806-808 *)
  fun c => Ret (i_eq c (i_saturating_add_unsigned c (I256_MAX c) (u_new c 100)) (I256_MAX c));
  (* 829-832 *)
  fun c => Ret (i_eq_prim c (i_saturating_sub c (i_new c 100) (i_new c 127)) (- 27));
  (* 829-832 *)
  fun c => Ret (i_eq c (i_saturating_sub c (I256_MIN c) (i_new c 100)) (I256_MIN c));
  (* 858-860 *)
  fun c => Ret (i_eq_prim c (i_saturating_sub_unsigned c (i_new c 100) (u_new c 127)) (- 27));
  (* 858-860 *)
  fun c => Ret (i_eq c (i_saturating_sub_unsigned c (I256_MIN c) (u_new c 100)) (I256_MIN c));
  (* 881-885 *)
  fun c => Ret (i_eq_prim c (i_saturating_neg c (i_new c 100)) (- 100));
  (* 881-885 *)
  fun c => Ret (i_eq_prim c (i_saturating_neg c (i_new c (- 100))) 100);
  (* 881-885 *)
  fun c => Ret (i_eq c (i_saturating_neg c (I256_MIN c)) (I256_MAX c));
  (* 900-904 *)
  fun c => Ret (i_eq_prim c (i_saturating_abs c (i_new c 100)) 100);
  (* 900-904 *)
  fun c => Ret (i_eq_prim c (i_saturating_abs c (i_new c (- 100))) 100);
  (* 900-904 *)
  fun c => Ret (i_eq c (i_saturating_abs c (I256_MIN c)) (I256_MAX c));
  (* 923-926 *)
  fun c => let! v3 := i_saturating_mul c (I256_MIN c) (i_new c 10) in Ret (i_eq c v3 (I256_MIN c));
  (* 952-955 *)
  fun c => let! v1 := i_saturating_div c (i_new c 5) (i_new c 2) in Ret (i_eq_prim c v1 2);
  (* 952-955 *)
  fun c => let! v4 := i_saturating_div c (I256_MIN c) (i_new c (- 1)) in Ret (i_eq c v4 (I256_MAX c));
  (* 980-983 *)
  fun c => let! v2 := i_saturating_pow c (I256_MIN c) 2 in Ret (i_eq c v2 (I256_MAX c));
  (* 980-983 *)
  fun c => let! v3 := i_saturating_pow c (I256_MIN c) 3 in Ret (i_eq c v3 (I256_MIN c));
  (* 1004-1006 *)
  fun c => Ret (i_eq_prim c (i_wrapping_add c (i_new c 100) (i_new c 27)) 127);
  (* 1025-1027 *)
  fun c => Ret (i_eq_prim c (i_wrapping_add_unsigned c (i_new c 100) (u_new c 27)) 127);
  (* 1044-1046 *)
  fun c => Ret (i_eq_prim c (i_wrapping_sub c (i_new c 0) (i_new c 127)) (- 127));
  (* 1065-1067 *)
  fun c => Ret (i_eq_prim c (i_wrapping_sub_unsigned c (i_new c 0) (u_new c 127)) (- 127));
  (* 1084-1086 *)
  fun c => let! v1 := i_wrapping_mul c (i_new c 10) (i_new c 12) in Ret (i_eq_prim c v1 120);
  (* 1115-1117 *)
  fun c => let! v1 := i_wrapping_div c (i_new c 100) (i_new c 10) in Ret (i_eq_prim c v1 10);
  (* 1115-1117 *)
  fun c => let! v2 := i_wrapping_div c (I256_MIN c) (i_new c (- 1)) in Ret (i_eq c v2 (I256_MIN c));
  (* 1143-1145 *)
  fun c => let! v1 := i_wrapping_div_euclid c (i_new c 100) (i_new c 10) in Ret (i_eq_prim c v1 10);
  (* 1143-1145 *)
  fun c => let! v2 := i_wrapping_div_euclid c (I256_MIN c) (i_new c (- 1)) in Ret (i_eq c v2 (I256_MIN c));
  (* 1171-1173 *)
  fun c => let! v1 := i_wrapping_rem c (i_new c 100) (i_new c 10) in Ret (i_eq_prim c v1 0);
  (* 1171-1173 *)
  fun c => let! v2 := i_wrapping_rem c (I256_MIN c) (i_new c (- 1)) in Ret (i_eq_prim c v2 0);
  (* 1198-1200 *)
  fun c => let! v1 := i_wrapping_rem_euclid c (i_new c 100) (i_new c 10) in Ret (i_eq_prim c v1 0);
  (* 1198-1200 *)
  fun c => let! v2 := i_wrapping_rem_euclid c (I256_MIN c) (i_new c (- 1)) in Ret (i_eq_prim c v2 0);
  (* 1222-1224 *)
  fun c => Ret (i_eq_prim c (i_wrapping_neg c (i_new c 100)) (- 100));
  (* 1222-1224 *)
  fun c => Ret (i_eq c (i_wrapping_neg c (I256_MIN c)) (I256_MIN c));
  (* 1246-1249 *)
  fun c => let! v1 := i_wrapping_shl c (i_new c (- 1)) 7 in Ret (i_eq_prim c v1 (- 128));
  (* 1246-1249 *)
  fun c => let! v2 := i_wrapping_shl c (i_new c (- 1)) 128 in Ret (i_eq c v2 (i_from_words c (- 1) 0));
  (* 1246-1249 *)
  fun c => let! v3 := i_wrapping_shl c (i_new c (- 1)) 256 in Ret (i_eq_prim c v3 (- 1));
  (* 1302-1312 *)
  fun c => Ret (i_eq_prim c (i_wrapping_abs c (i_new c 100)) 100);
  (* 1302-1312 *)
  fun c => Ret (i_eq_prim c (i_wrapping_abs c (i_new c (- 100))) 100);
  (* 1302-1312 *)
  fun c => Ret (i_eq c (i_wrapping_abs c (I256_MIN c)) (I256_MIN c));
  (* 1302-1312 *)
  fun c => Ret (u_eq c (i256_as_u256 (i_wrapping_abs c (I256_MIN c))) (u_from_words c 170141183460469231731687303715884105728 0));
  (* 1333-1342 *)
  fun c => Ret (u_eq_prim c (i_unsigned_abs c (i_new c 100)) 100);
  (* 1333-1342 *)
  fun c => Ret (u_eq_prim c (i_unsigned_abs c (i_new c (- 100))) 100);
  (* 1333-1342 *)
  fun c => Ret (u_eq c (i_unsigned_abs c (I256_MIN c)) (u_from_words c 170141183460469231731687303715884105728 0));
  (* 1357-1360 *)
  fun c => let! v1 := i_wrapping_pow c (i_new c 3) 4 in Ret (i_eq_prim c v1 81);
  (* 1398-1400 *)
  fun c => Ret (let '(p0, p1) := (i_overflowing_add c (i_new c 5) (i_new c 2)) in let '(q0, q1) := ((i_new c 7), false) in (i_eq c p0 q0) && (Bool.eqb p1 q1));
  (* 1398-1400 *)
  fun c => Ret (let '(p0, p1) := (i_overflowing_add c (I256_MAX c) (i_new c 1)) in let '(q0, q1) := ((I256_MIN c), true) in (i_eq c p0 q0) && (Bool.eqb p1 q1));
  (* 1422-1425 *)
  fun c => Ret (let '(p0, p1) := (i_overflowing_add_unsigned c (i_new c 1) (u_new c 2)) in let '(q0, q1) := ((i_new c 3), false) in (i_eq c p0 q0) && (Bool.eqb p1 q1));
  (* 1447-1449 *)
  fun c => Ret (let '(p0, p1) := (i_overflowing_sub c (i_new c 5) (i_new c 2)) in let '(q0, q1) := ((i_new c 3), false) in (i_eq c p0 q0) && (Bool.eqb p1 q1));
  (* 1447-1449 *)
  fun c => Ret (let '(p0, p1) := (i_overflowing_sub c (I256_MIN c) (i_new c 1)) in let '(q0, q1) := ((I256_MAX c), true) in (i_eq c p0 q0) && (Bool.eqb p1 q1));
  (* 1471-1474 *)
  fun c => Ret (let '(p0, p1) := (i_overflowing_sub_unsigned c (i_new c 1) (u_new c 2)) in let '(q0, q1) := ((i_new c (- 1)), false) in (i_eq c p0 q0) && (Bool.eqb p1 q1));
  (* 1495-1501 *)
  fun c => Ret (u_eq_prim c (i_abs_diff c (i_new c 100) (i_new c 80)) 20);
  (* 1495-1501 *)
  fun c => Ret (u_eq_prim c (i_abs_diff c (i_new c 100) (i_new c 110)) 10);
  (* 1495-1501 *)
  fun c => Ret (u_eq_prim c (i_abs_diff c (i_new c (- 100)) (i_new c 80)) 180);
  (* 1495-1501 *)
  fun c => Ret (u_eq_prim c (i_abs_diff c (i_new c (- 100)) (i_new c (- 120))) 20);
  (* 1495-1501 *)
  fun c => Ret (u_eq c (i_abs_diff c (I256_MIN c) (I256_MAX c)) U256_MAX);
  (* 1495-1501 *)
  fun c => Ret (u_eq c (i_abs_diff c (I256_MAX c) (I256_MIN c)) U256_MAX);
  (* 1566-1568 *)
  fun c => let! v1 := i_overflowing_div c (i_new c 5) (i_new c 2) in Ret (let '(p0, p1) := v1 in let '(q0, q1) := ((i_new c 2), false) in (i_eq c p0 q0) && (Bool.eqb p1 q1));
  (* 1566-1568 *)
  fun c => let! v2 := i_overflowing_div c (I256_MIN c) (i_new c (- 1)) in Ret (let '(p0, p1) := v2 in let '(q0, q1) := ((I256_MIN c), true) in (i_eq c p0 q0) && (Bool.eqb p1 q1));
  (* 1596-1598 *)
  fun c => let! v1 := i_overflowing_div_euclid c (i_new c 5) (i_new c 2) in Ret (let '(p0, p1) := v1 in let '(q0, q1) := ((i_new c 2), false) in (i_eq c p0 q0) && (Bool.eqb p1 q1));
  (* 1596-1598 *)
  fun c => let! v2 := i_overflowing_div_euclid c (I256_MIN c) (i_new c (- 1)) in Ret (let '(p0, p1) := v2 in let '(q0, q1) := ((I256_MIN c), true) in (i_eq c p0 q0) && (Bool.eqb p1 q1));
  (* 1626-1628 *)
  fun c => let! v1 := i_overflowing_rem c (i_new c 5) (i_new c 2) in Ret (let '(p0, p1) := v1 in let '(q0, q1) := ((i_new c 1), false) in (i_eq c p0 q0) && (Bool.eqb p1 q1));
  (* 1626-1628 *)
  fun c => let! v2 := i_overflowing_rem c (I256_MIN c) (i_new c (- 1)) in Ret (let '(p0, p1) := v2 in let '(q0, q1) := ((i_new c 0), true) in (i_eq c p0 q0) && (Bool.eqb p1 q1));
  (* 1656-1658 *)
  fun c => let! v1 := i_overflowing_rem_euclid c (i_new c 5) (i_new c 2) in Ret (let '(p0, p1) := v1 in let '(q0, q1) := ((i_new c 1), false) in (i_eq c p0 q0) && (Bool.eqb p1 q1));
  (* 1656-1658 *)
  fun c => let! v2 := i_overflowing_rem_euclid c (I256_MIN c) (i_new c (- 1)) in Ret (let '(p0, p1) := v2 in let '(q0, q1) := ((i_new c 0), true) in (i_eq c p0 q0) && (Bool.eqb p1 q1));
  (* 1683-1685 *)
  fun c => let! v1 := i_overflowing_neg c (i_new c 2) in Ret (let '(p0, p1) := v1 in let '(q0, q1) := ((i_new c (- 2)), false) in (i_eq c p0 q0) && (Bool.eqb p1 q1));
  (* 1683-1685 *)
  fun c => let! v2 := i_overflowing_neg c (I256_MIN c) in Ret (let '(p0, p1) := v2 in let '(q0, q1) := ((I256_MIN c), true) in (i_eq c p0 q0) && (Bool.eqb p1 q1));
  (* 1709-1711 *)
  fun c => let! v1 := i_overflowing_shl c (i_new c 1) 4 in Ret (let '(p0, p1) := v1 in let '(q0, q1) := ((i_new c 16), false) in (i_eq c p0 q0) && (Bool.eqb p1 q1));
  (* 1709-1711 *)
  fun c => let! v2 := i_overflowing_shl c (i_new c 1) 260 in Ret (let '(p0, p1) := v2 in let '(q0, q1) := ((i_new c 16), true) in (i_eq c p0 q0) && (Bool.eqb p1 q1));
  (* 1733-1735 *)
  fun c => let! v1 := i_overflowing_shr c (i_new c 16) 4 in Ret (let '(p0, p1) := v1 in let '(q0, q1) := ((i_new c 1), false) in (i_eq c p0 q0) && (Bool.eqb p1 q1));
  (* 1733-1735 *)
  fun c => let! v2 := i_overflowing_shr c (i_new c 16) 260 in Ret (let '(p0, p1) := v2 in let '(q0, q1) := ((i_new c 1), true) in (i_eq c p0 q0) && (Bool.eqb p1 q1));
  (* 1756-1759 *)
  fun c => Ret (let '(p0, p1) := (i_overflowing_abs c (i_new c 10)) in let '(q0, q1) := ((i_new c 10), false) in (i_eq c p0 q0) && (Bool.eqb p1 q1));
  (* 1756-1759 *)
  fun c => Ret (let '(p0, p1) := (i_overflowing_abs c (i_new c (- 10))) in let '(q0, q1) := ((i_new c 10), false) in (i_eq c p0 q0) && (Bool.eqb p1 q1));
  (* 1756-1759 *)
  fun c => Ret (let '(p0, p1) := (i_overflowing_abs c (I256_MIN c)) in let '(q0, q1) := ((I256_MIN c), true) in (i_eq c p0 q0) && (Bool.eqb p1 q1));
  (* 1879-1886 *)
  fun c => let! v1 := Ret (i_new c 7) in let! v2 := Ret (i_new c 4) in let! v3 := i_div_euclid c v1 v2 in Ret (i_eq_prim c v3 1);
  (* 1915-1922 *)
  fun c => let! v1 := Ret (i_new c 7) in let! v2 := Ret (i_new c 4) in let! v3 := i_rem_euclid c v1 v2 in Ret (i_eq_prim c v3 3);
  (* 1959-1961 *)
  fun c => let! v1 := i_abs c (i_new c 10) in Ret (i_eq_prim c v1 10);
  (* 1959-1961 *)
  fun c => let! v2 := i_abs c (i_new c (- 10)) in Ret (i_eq_prim c v2 10);
  (* 1984-1987 *)
  fun c => Ret (i_eq_prim c (i_signum c (i_new c 10)) 1);
  (* 1984-1987 *)
  fun c => Ret (i_eq_prim c (i_signum c (i_new c 0)) 0);
  (* 1984-1987 *)
  fun c => Ret (i_eq_prim c (i_signum c (i_new c (- 10))) (- 1));
  (* 2005-2008 *)
  fun c => Ret ((i_signum128 c (i_new c 10)) =? 1);
  (* 2005-2008 *)
  fun c => Ret ((i_signum128 c (i_new c 0)) =? 0);
  (* 2005-2008 *)
  fun c => Ret ((i_signum128 c (i_new c (- 10))) =? (- 1));
  (* 2024-2026 *)
  fun c => Ret (i_is_positive c (i_new c 10));
  (* 2024-2026 *)
  fun c => Ret (negb (i_is_positive c (i_new c (- 10))));
  (* 2041-2043 *)
  fun c => Ret (i_is_negative c (i_new c (- 10)));
  (* 2041-2043 *)
  fun c => Ret (negb (i_is_negative c (i_new c 10)));
  (* 2181-2192 *)
  fun c => let! v1 := Ret (i_from_le_bytes c [31; 30; 29; 28; 27; 26; 25; 24; 23; 22; 21; 20; 19; 18; 17; 16; 15; 14; 13; 12; 11; 10; 9; 8; 7; 6; 5; 4; 3; 2; 1; 0]) in Ret (i_eq c v1 (i_from_words c 5233100606242806050955395731361295 21356283574076891493948969979685445151));
  (* 2224-2242 *)
  fun c => let! v1 := Ret (i_from_ne_bytes c (if (big_endian c) then [0; 1; 2; 3; 4; 5; 6; 7; 8; 9; 10; 11; 12; 13; 14; 15; 16; 17; 18; 19; 20; 21; 22; 23; 24; 25; 26; 27; 28; 29; 30; 31] else [31; 30; 29; 28; 27; 26; 25; 24; 23; 22; 21; 20; 19; 18; 17; 16; 15; 14; 13; 12; 11; 10; 9; 8; 7; 6; 5; 4; 3; 2; 1; 0])) in Ret (i_eq c v1 (i_from_words c 5233100606242806050955395731361295 21356283574076891493948969979685445151))
].

(** src/int/cmp.rs:7-11 *)
Definition docs_int_cmp : list example := [
  (* 7-11 *)
  fun c => Ret (i_eq_prim c (i_new c 42) 42);
  (* 7-11 *)
  fun c => Ret (prim_eq_i c 42 (i_new c 42));
  (* 7-11 *)
  fun c => Ret ((match i_cmp_prim c (I256_ONE c) 0 with Gt => true | _ => false end) && (i_eq_prim c I256_ZERO 0));
  (* 7-11 *)
  fun c => Ret ((match prim_cmp_i c 0 (I256_ONE c) with Lt => true | _ => false end) && (prim_eq_i c 0 I256_ZERO))
].

(** src/int/convert.rs:46-65 *)
Definition docs_int_convert : list example := [
  (* 46-65 *)
  fun c => let! v1 := i_op_neg c (I256_ONE c) in Ret (i_eq c (prim_as_i256 c (- 1)) v1);
  (* 46-65 *)
  fun c => Ret (i_eq_prim c (prim_as_i256 c (t_max c (TU 32))) 4294967295);
  (* 46-65 *)
  fun c => let! v4 := float_as_i256 F64 c 4631107791820423168 in Ret (i_eq_prim c v4 42);
  (* 46-65 *)
  fun c => let! v8 := float_as_i256 F64 c 18442240474082181120 in Ret (i_eq c v8 (I256_MIN c));
  (* 46-65 *)
  fun c => let! v9 := float_as_i256 F64 c 14983475960261640192 in Ret (i_eq c v9 (I256_MIN c));
  (* 46-65 *)
  fun c => let! v10 := float_as_i256 F64 c 9218868437227405312 in Ret (i_eq c v10 (I256_MAX c));
  (* 46-65 *)
  fun c => let! v11 := float_as_i256 F64 c 5760103923406864384 in Ret (i_eq c v11 (I256_MAX c));
  (* 46-65 *)
  fun c => let! v12 := float_as_i256 F64 c 9221120237041090560 in Ret (i_eq_prim c v12 0)
].

(** src/int/ops.rs:7-11 *)
Definition docs_int_ops : list example := [
  (* 7-11 *)
  fun c => let! v1 := i_op_add c (i_new c 1) (I256_ONE c) in let! v2 := Ret v1 in let! v3 := i_op_add c (I256_ONE c) (i_new c 1) in let! v4 := Ret v3 in Ret true
].

(** src/uint/api.rs:19-1845 *)
Definition docs_uint_api : list example := [
  (* 19-20 *)
  fun c => Ret (u_eq c U256_MIN (u_new c 0));
  (* 44-45 *)
  fun c => Ret (U256_BITS =? 256);
  (* 68-69 *)
  fun c => let! v1 := u_from_str_radix c (text "A") 16 in Ret (res_eqb (fun p q => (u_eq c p q)) v1 (Ok (u_new c 10)));
  (* 83-85 *)
  fun c => let! v1 := Ret (u_new c 76) in let! v2 := u_count_ones c v1 in Ret (v2 =? 3);
  (* 100-102 *)
  fun c => let! v1 := u_count_zeros c U256_MIN in Ret (v1 =? 256);
  (* 100-102 *)
  fun c => let! v2 := u_count_zeros c U256_MAX in Ret (v2 =? 0);
  (* 118-120 *)
  fun c => let! v1 := u_shr_amt c U256_MAX (Amt_u32 2) in let! v2 := Ret v1 in let! v3 := u_leading_zeros c v2 in Ret (v3 =? 2);
  (* 135-137 *)
  fun c => let! v1 := Ret (u_new c 40) in let! v2 := u_trailing_zeros c v1 in Ret (v2 =? 3);
  (* 169-171 *)
  fun c => let! v1 := Ret (u_new c 87) in let! v2 := u_trailing_ones c v1 in Ret (v2 =? 3);
  (* 189-195 *)
  fun c => let! v1 := Ret (u_from_words c 26522252353395899526533775249656250368 20342) in let! v2 := Ret (u_new c 1333138420) in let! v3 := u_rotate_left c v1 16 in Ret (u_eq c v3 v2);
  (* 216-223 *)
  fun c => let! v1 := Ret (u_new c 1333138420) in let! v2 := Ret (u_from_words c 26522252353395899526533775249656250368 20342) in let! v3 := u_rotate_right c v1 16 in Ret (u_eq c v3 v2);
  (* 295-301 *)
  fun c => let! v1 := Ret (u_new c 26) in Ret (if (big_endian c) then (u_eq c (u_from_be c v1) v1) else true);
  (* 295-301 *)
  fun c => let! v1 := Ret (u_new c 26) in Ret (if negb (big_endian c) then (u_eq c (u_from_be c v1) (u_swap_bytes v1)) else true);
  (* 325-331 *)
  fun c => let! v1 := Ret (u_new c 26) in Ret (if (negb (big_endian c)) then (u_eq c (u_from_le c v1) v1) else true);
  (* 325-331 *)
  fun c => let! v1 := Ret (u_new c 26) in Ret (if negb (negb (big_endian c)) then (u_eq c (u_from_le c v1) (u_swap_bytes v1)) else true);
  (* 355-361 *)
  fun c => let! v1 := Ret (u_new c 26) in Ret (if (big_endian c) then (u_eq c (u_to_be c v1) v1) else true);
  (* 355-361 *)
  fun c => let! v1 := Ret (u_new c 26) in Ret (if negb (big_endian c) then (u_eq c (u_to_be c v1) (u_swap_bytes v1)) else true);
  (* 384-390 *)
  fun c => let! v1 := Ret (u_new c 26) in Ret (if (negb (big_endian c)) then (u_eq c (u_to_le c v1) v1) else true);
  (* 384-390 *)
  fun c => let! v1 := Ret (u_new c 26) in Ret (if negb (negb (big_endian c)) then (u_eq c (u_to_le c v1) (u_swap_bytes v1)) else true);
  (* 412-414 *)
  fun c => let! v3 := u_op_sub c U256_MAX (u_new c 2) in Ret (is_none (u_checked_add c v3 (u_new c 3)));
  (* 436-439 *)
  fun c => Ret (opt_eqb (fun p q => (u_eq c p q)) (u_checked_add_signed c (u_new c 1) (i_new c 2)) (Some (u_new c 3)));
  (* 436-439 *)
  fun c => Ret (is_none (u_checked_add_signed c (u_new c 1) (i_new c (- 2))));
  (* 436-439 *)
  fun c => let! v1 := u_op_sub c U256_MAX (u_new c 2) in Ret (is_none (u_checked_add_signed c v1 (i_new c 3)));
  (* 461-463 *)
  fun c => Ret (opt_eqb (fun p q => (u_eq c p q)) (u_checked_sub c (u_new c 1) (u_new c 1)) (Some U256_ZERO));
  (* 461-463 *)
  fun c => Ret (is_none (u_checked_sub c (u_new c 0) (u_new c 1)));
  (* 485-487 *)
  fun c => let! v1 := u_checked_mul c (u_new c 5) (u_new c 1) in Ret (opt_eqb (fun p q => (u_eq c p q)) v1 (Some (u_new c 5)));
  (* 485-487 *)
  fun c => let! v2 := u_checked_mul c U256_MAX (u_new c 2) in Ret (is_none v2);
  (* 509-511 *)
  fun c => let! v1 := u_checked_div c (u_new c 128) (u_new c 2) in Ret (opt_eqb (fun p q => (u_eq c p q)) v1 (Some (u_new c 64)));
  (* 509-511 *)
  fun c => let! v2 := u_checked_div c (u_new c 1) (u_new c 0) in Ret (is_none v2);
  (* 532-534 *)
  fun c => let! v1 := u_checked_div_euclid c (u_new c 128) (u_new c 2) in Ret (opt_eqb (fun p q => (u_eq c p q)) v1 (Some (u_new c 64)));
  (* 532-534 *)
  fun c => let! v2 := u_checked_div_euclid c (u_new c 1) (u_new c 0) in Ret (is_none v2);
  (* 555-557 *)
  fun c => let! v1 := u_checked_rem c (u_new c 5) (u_new c 2) in Ret (opt_eqb (fun p q => (u_eq c p q)) v1 (Some (u_new c 1)));
  (* 555-557 *)
  fun c => let! v2 := u_checked_rem c (u_new c 5) (u_new c 0) in Ret (is_none v2);
  (* 578-580 *)
  fun c => let! v1 := u_checked_rem_euclid c (u_new c 5) (u_new c 2) in Ret (opt_eqb (fun p q => (u_eq c p q)) v1 (Some (u_new c 1)));
  (* 578-580 *)
  fun c => let! v2 := u_checked_rem_euclid c (u_new c 5) (u_new c 0) in Ret (is_none v2);
  (* 602-604 *)
  fun c => Ret (opt_eqb (fun p q => (u_eq c p q)) (u_checked_neg c U256_ZERO) (Some U256_ZERO));
  (* 602-604 *)
  fun c => Ret (is_none (u_checked_neg c (u_new c 1)));
  (* 624-626 *)
  fun c => let! v1 := u_checked_shl c (u_new c 1) 4 in Ret (opt_eqb (fun p q => (u_eq c p q)) v1 (Some (u_new c 16)));
  (* 624-626 *)
  fun c => let! v2 := u_checked_shl c (u_new c 16) 257 in Ret (is_none v2);
  (* 648-650 *)
  fun c => let! v1 := u_checked_shr c (u_new c 16) 4 in Ret (opt_eqb (fun p q => (u_eq c p q)) v1 (Some (u_new c 1)));
  (* 648-650 *)
  fun c => let! v2 := u_checked_shr c (u_new c 16) 257 in Ret (is_none v2);
  (* 672-674 *)
  fun c => let! v1 := u_checked_pow c (u_new c 2) 5 in Ret (opt_eqb (fun p q => (u_eq c p q)) v1 (Some (u_new c 32)));
  (* 672-674 *)
  fun c => let! v2 := u_checked_pow c U256_MAX 2 in Ret (is_none v2);
  (* 709-711 *)
  fun c => Ret (u_eq c (u_saturating_add c (u_new c 100) (u_new c 1)) (u_new c 101));
  (* 709-711 *)
  fun c => Ret (u_eq c (u_saturating_add c U256_MAX (u_new c 127)) U256_MAX);
  (* 728-731 *)
  fun c => Ret (u_eq c (u_saturating_add_signed c (u_new c 1) (i_new c 2)) (u_new c 3));
  (* 728-731 *)
  fun c => Ret (u_eq c (u_saturating_add_signed c (u_new c 1) (i_new c (- 2))) (u_new c 0));
  (* 728-731 *)
  fun c => let! v1 := u_op_sub c U256_MAX (u_new c 2) in Ret (u_eq c (u_saturating_add_signed c v1 (i_new c 4)) U256_MAX);
  (* 755-757 *)
  fun c => Ret (u_eq c (u_saturating_sub c (u_new c 100) (u_new c 27)) (u_new c 73));
  (* 755-757 *)
  fun c => Ret (u_eq c (u_saturating_sub c (u_new c 13) (u_new c 127)) (u_new c 0));
  (* 774-776 *)
  fun c => let! v1 := u_saturating_mul c (u_new c 2) (u_new c 10) in Ret (u_eq c v1 (u_new c 20));
  (* 774-776 *)
  fun c => let! v2 := u_saturating_mul c U256_MAX (u_new c 10) in Ret (u_eq c v2 U256_MAX);
  (* 796-797 *)
  fun c => let! v1 := u_saturating_div c (u_new c 5) (u_new c 2) in Ret (u_eq c v1 (u_new c 2));
  (* 820-822 *)
  fun c => let! v1 := u_saturating_pow c (u_new c 4) 3 in Ret (u_eq c v1 (u_new c 64));
  (* 820-822 *)
  fun c => let! v2 := u_saturating_pow c U256_MAX 2 in Ret (u_eq c v2 U256_MAX);
  (* 842-844 *)
  fun c => Ret (u_eq c (u_wrapping_add c (u_new c 200) (u_new c 55)) (u_new c 255));
  (* 842-844 *)
  fun c => Ret (u_eq c (u_wrapping_add c (u_new c 200) U256_MAX) (u_new c 199));
  (* 863-866 *)
  fun c => Ret (u_eq c (u_wrapping_add_signed c (u_new c 1) (i_new c 2)) (u_new c 3));
  (* 863-866 *)
  fun c => Ret (u_eq c (u_wrapping_add_signed c (u_new c 1) (i_new c (- 2))) U256_MAX);
  (* 863-866 *)
  fun c => let! v1 := u_op_sub c U256_MAX (u_new c 2) in Ret (u_eq c (u_wrapping_add_signed c v1 (i_new c 4)) (u_new c 1));
  (* 883-885 *)
  fun c => Ret (u_eq c (u_wrapping_sub c (u_new c 100) (u_new c 100)) (u_new c 0));
  (* 883-885 *)
  fun c => Ret (u_eq c (u_wrapping_sub c (u_new c 100) U256_MAX) (u_new c 101));
  (* 907-909 *)
  fun c => let! v1 := u_wrapping_mul c (u_new c 10) (u_new c 12) in Ret (u_eq c v1 (u_new c 120));
  (* 930-931 *)
  fun c => let! v1 := u_wrapping_div c (u_new c 100) (u_new c 10) in Ret (u_eq c v1 (u_new c 10));
  (* 952-953 *)
  fun c => let! v1 := u_wrapping_div_euclid c (u_new c 100) (u_new c 10) in Ret (u_eq c v1 (u_new c 10));
  (* 972-973 *)
  fun c => let! v1 := u_wrapping_rem c (u_new c 100) (u_new c 10) in Ret (u_eq c v1 (u_new c 0));
  (* 994-995 *)
  fun c => let! v1 := u_wrapping_rem_euclid c (u_new c 100) (u_new c 10) in Ret (u_eq c v1 (u_new c 0));
  (* 1022-1027 *)
  fun c => Ret (u_eq c (u_wrapping_neg c (u_new c 100)) (prim_as_u256 c (- 100)));
  (* 1022-1027 *)
  fun c => Ret (u_eq c (u_wrapping_neg c (u_from_words c (t_cast c (TU 128) (t_min c (TI 128))) 0)) (u_from_words c (t_cast c (TU 128) (t_min c (TI 128))) 0));
  (* 1051-1054 *)
  fun c => let! v1 := u_wrapping_shl c (u_new c 1) 7 in Ret (u_eq c v1 (u_new c 128));
  (* 1051-1054 *)
  fun c => let! v2 := u_wrapping_shl c (u_new c 1) 128 in Ret (u_eq c v2 (u_from_words c 1 0));
  (* 1051-1054 *)
  fun c => let! v3 := u_wrapping_shl c (u_new c 1) 256 in Ret (u_eq c v3 (u_new c 1));
  (* 1080-1083 *)
  fun c => let! v1 := u_wrapping_shr c (u_new c 128) 7 in Ret (u_eq c v1 (u_new c 1));
  (* 1080-1083 *)
  fun c => let! v2 := u_wrapping_shr c (u_from_words c 128 0) 128 in Ret (u_eq c v2 (u_new c 128));
  (* 1080-1083 *)
  fun c => let! v3 := u_wrapping_shr c (u_new c 128) 256 in Ret (u_eq c v3 (u_new c 128));
  (* 1102-1110 *)
  fun c => let! v1 := u_wrapping_pow c (u_new c 3) 5 in Ret (u_eq c v1 (u_new c 243));
  (* 1148-1150 *)
  fun c => Ret (let '(p0, p1) := (u_overflowing_add c (u_new c 5) (u_new c 2)) in let '(q0, q1) := ((u_new c 7), false) in (u_eq c p0 q0) && (Bool.eqb p1 q1));
  (* 1148-1150 *)
  fun c => Ret (let '(p0, p1) := (u_overflowing_add c U256_MAX (u_new c 1)) in let '(q0, q1) := ((u_new c 0), true) in (u_eq c p0 q0) && (Bool.eqb p1 q1));
  (* 1172-1175 *)
  fun c => Ret (let '(p0, p1) := (u_overflowing_add_signed c (u_new c 1) (i_new c 2)) in let '(q0, q1) := ((u_new c 3), false) in (u_eq c p0 q0) && (Bool.eqb p1 q1));
  (* 1172-1175 *)
  fun c => Ret (let '(p0, p1) := (u_overflowing_add_signed c (u_new c 1) (i_new c (- 2))) in let '(q0, q1) := (U256_MAX, true) in (u_eq c p0 q0) && (Bool.eqb p1 q1));
  (* 1172-1175 *)
  fun c => let! v1 := u_op_sub c U256_MAX (u_new c 2) in Ret (let '(p0, p1) := (u_overflowing_add_signed c v1 (i_new c 4)) in let '(q0, q1) := ((u_new c 1), true) in (u_eq c p0 q0) && (Bool.eqb p1 q1));
  (* 1196-1198 *)
  fun c => Ret (let '(p0, p1) := (u_overflowing_sub c (u_new c 5) (u_new c 2)) in let '(q0, q1) := ((u_new c 3), false) in (u_eq c p0 q0) && (Bool.eqb p1 q1));
  (* 1196-1198 *)
  fun c => Ret (let '(p0, p1) := (u_overflowing_sub c (u_new c 0) (u_new c 1)) in let '(q0, q1) := (U256_MAX, true) in (u_eq c p0 q0) && (Bool.eqb p1 q1));
  (* 1216-1218 *)
  fun c => let! v1 := u_abs_diff c (u_new c 100) (u_new c 80) in Ret (u_eq_prim c v1 20);
  (* 1216-1218 *)
  fun c => let! v2 := u_abs_diff c (u_new c 100) (u_new c 110) in Ret (u_eq_prim c v2 10);
  (* 1245-1250 *)
  fun c => let! v1 := u_overflowing_mul c (u_new c 5) (u_new c 2) in Ret (let '(p0, p1) := v1 in let '(q0, q1) := ((u_new c 10), false) in (u_eq c p0 q0) && (Bool.eqb p1 q1));
  (* 1276-1277 *)
  fun c => let! v1 := u_overflowing_div c (u_new c 5) (u_new c 2) in Ret (let '(p0, p1) := v1 in let '(q0, q1) := ((u_new c 2), false) in (u_eq c p0 q0) && (Bool.eqb p1 q1));
  (* 1303-1304 *)
  fun c => let! v1 := u_overflowing_div_euclid c (u_new c 5) (u_new c 2) in Ret (let '(p0, p1) := v1 in let '(q0, q1) := ((u_new c 2), false) in (u_eq c p0 q0) && (Bool.eqb p1 q1));
  (* 1329-1330 *)
  fun c => let! v1 := u_overflowing_rem c (u_new c 5) (u_new c 2) in Ret (let '(p0, p1) := v1 in let '(q0, q1) := ((u_new c 1), false) in (u_eq c p0 q0) && (Bool.eqb p1 q1));
  (* 1358-1359 *)
  fun c => let! v1 := u_overflowing_rem_euclid c (u_new c 5) (u_new c 2) in Ret (let '(p0, p1) := v1 in let '(q0, q1) := ((u_new c 1), false) in (u_eq c p0 q0) && (Bool.eqb p1 q1));
  (* 1380-1382 *)
  fun c => Ret (let '(p0, p1) := (u_overflowing_neg c (u_new c 0)) in let '(q0, q1) := ((u_new c 0), false) in (u_eq c p0 q0) && (Bool.eqb p1 q1));
  (* 1380-1382 *)
  fun c => Ret (let '(p0, p1) := (u_overflowing_neg c (u_new c 2)) in let '(q0, q1) := ((prim_as_u256 c (- 2)), true) in (u_eq c p0 q0) && (Bool.eqb p1 q1));
  (* 1402-1404 *)
  fun c => let! v1 := u_overflowing_shl c (u_new c 1) 4 in Ret (let '(p0, p1) := v1 in let '(q0, q1) := ((u_new c 16), false) in (u_eq c p0 q0) && (Bool.eqb p1 q1));
  (* 1402-1404 *)
  fun c => let! v2 := u_overflowing_shl c (u_new c 1) 260 in Ret (let '(p0, p1) := v2 in let '(q0, q1) := ((u_new c 16), true) in (u_eq c p0 q0) && (Bool.eqb p1 q1));
  (* 1426-1428 *)
  fun c => let! v1 := u_overflowing_shr c (u_new c 16) 4 in Ret (let '(p0, p1) := v1 in let '(q0, q1) := ((u_new c 1), false) in (u_eq c p0 q0) && (Bool.eqb p1 q1));
  (* 1426-1428 *)
  fun c => let! v2 := u_overflowing_shr c (u_new c 16) 260 in Ret (let '(p0, p1) := v2 in let '(q0, q1) := ((u_new c 1), true) in (u_eq c p0 q0) && (Bool.eqb p1 q1));
  (* 1447-1458 *)
  fun c => let! v1 := u_overflowing_pow c (u_new c 3) 5 in Ret (let '(p0, p1) := v1 in let '(q0, q1) := ((u_new c 243), false) in (u_eq c p0 q0) && (Bool.eqb p1 q1));
  (* 1501-1502 *)
  fun c => let! v1 := u_pow c (u_new c 2) 5 in Ret (u_eq c v1 (u_new c 32));
  (* 1543-1544 *)
  fun c => let! v1 := u_div_euclid c (u_new c 7) (u_new c 4) in Ret (u_eq c v1 (u_new c 1));
  (* 1567-1568 *)
  fun c => let! v1 := u_rem_euclid c (u_new c 7) (u_new c 4) in Ret (u_eq c v1 (u_new c 3));
  (* 1584-1586 *)
  fun c => let! v1 := u_is_power_of_two c (u_new c 16) in Ret v1;
  (* 1584-1586 *)
  fun c => let! v2 := u_is_power_of_two c (u_new c 10) in Ret (negb v2);
  (* 1624-1626 *)
  fun c => let! v1 := u_next_power_of_two c (u_new c 2) in Ret (u_eq c v1 (u_new c 2));
  (* 1624-1626 *)
  fun c => let! v2 := u_next_power_of_two c (u_new c 3) in Ret (u_eq c v2 (u_new c 4));
  (* 1642-1645 *)
  fun c => let! v1 := u_checked_next_power_of_two c (u_new c 2) in Ret (opt_eqb (fun p q => (u_eq c p q)) v1 (Some (u_new c 2)));
  (* 1642-1645 *)
  fun c => let! v2 := u_checked_next_power_of_two c (u_new c 3) in Ret (opt_eqb (fun p q => (u_eq c p q)) v2 (Some (u_new c 4)));
  (* 1642-1645 *)
  fun c => let! v3 := u_checked_next_power_of_two c U256_MAX in Ret (is_none v3);
  (* 1683-1694 *)
  fun c => let! v1 := Ret (u_from_words c 5233100606242806050955395731361295 21356283574076891493948969979685445151) in Ret (bytes_eqb (u_to_le_bytes c v1) [31; 30; 29; 28; 27; 26; 25; 24; 23; 22; 21; 20; 19; 18; 17; 16; 15; 14; 13; 12; 11; 10; 9; 8; 7; 6; 5; 4; 3; 2; 1; 0]);
  (* 1713-1731 *)
  fun c => let! v1 := Ret (u_from_words c 5233100606242806050955395731361295 21356283574076891493948969979685445151) in Ret (bytes_eqb (u_to_ne_bytes c v1) (if (big_endian c) then [0; 1; 2; 3; 4; 5; 6; 7; 8; 9; 10; 11; 12; 13; 14; 15; 16; 17; 18; 19; 20; 21; 22; 23; 24; 25; 26; 27; 28; 29; 30; 31] else [31; 30; 29; 28; 27; 26; 25; 24; 23; 22; 21; 20; 19; 18; 17; 16; 15; 14; 13; 12; 11; 10; 9; 8; 7; 6; 5; 4; 3; 2; 1; 0]));
  (* 1782-1793 *)
  fun c => let! v1 := Ret (u_from_le_bytes c [31; 30; 29; 28; 27; 26; 25; 24; 23; 22; 21; 20; 19; 18; 17; 16; 15; 14; 13; 12; 11; 10; 9; 8; 7; 6; 5; 4; 3; 2; 1; 0]) in Ret (u_eq c v1 (u_from_words c 5233100606242806050955395731361295 21356283574076891493948969979685445151));
  (* 1827-1845 *)
  fun c => let! v1 := Ret (u_from_ne_bytes c (if (big_endian c) then [0; 1; 2; 3; 4; 5; 6; 7; 8; 9; 10; 11; 12; 13; 14; 15; 16; 17; 18; 19; 20; 21; 22; 23; 24; 25; 26; 27; 28; 29; 30; 31] else [31; 30; 29; 28; 27; 26; 25; 24; 23; 22; 21; 20; 19; 18; 17; 16; 15; 14; 13; 12; 11; 10; 9; 8; 7; 6; 5; 4; 3; 2; 1; 0])) in Ret (u_eq c v1 (u_from_words c 5233100606242806050955395731361295 21356283574076891493948969979685445151))
].

(** src/uint/cmp.rs:7-10 *)
Definition docs_uint_cmp : list example := [
  (* 7-10 *)
  fun c => Ret (u_eq_prim c (u_new c 42) 42);
  (* 7-10 *)
  fun c => Ret ((match u_cmp_prim c (U256_ONE c) 0 with Gt => true | _ => false end) && (u_eq_prim c U256_ZERO 0))
].

(** src/uint/convert.rs:63-71 *)
Definition docs_uint_convert : list example := [
  (* 63-71 *)
  fun c => Ret (u_eq c (prim_as_u256 c (- 1)) U256_MAX);
  (* 63-71 *)
  fun c => Ret (u_eq_prim c (prim_as_u256 c (t_max c (TU 32))) 4294967295);
  (* 63-71 *)
  fun c => let! v1 := float_as_u256 F64 c 18442240474082181120 in Ret (u_eq_prim c v1 0);
  (* 63-71 *)
  fun c => let! v2 := float_as_u256 F64 c 13830554455654793216 in Ret (u_eq_prim c v2 0);
  (* 63-71 *)
  fun c => let! v3 := float_as_u256 F64 c 9218868437227405312 in Ret (u_eq c v3 U256_MAX);
  (* 63-71 *)
  fun c => let! v4 := float_as_u256 F64 c 5764607523034234880 in Ret (u_eq c v4 U256_MAX);
  (* 63-71 *)
  fun c => let! v5 := float_as_u256 F64 c 9221120237041090560 in Ret (u_eq_prim c v5 0)
].

(** src/uint/ops.rs:7-11 *)
Definition docs_uint_ops : list example := [
  (* 7-11 *)
  fun c => let! v1 := u_op_add c (u_new c 1) (U256_ONE c) in let! v2 := Ret v1 in let! v3 := u_op_add c (U256_ONE c) (u_new c 1) in let! v4 := Ret v3 in Ret true
].

(** src/int/iter.rs:4-6 *)
Definition docs_int_iter : list example := [
  (* 4-5 *)
  fun c => let! v1 := i_sum c [i_new c 1; i_new c 2; i_new c 3] in Ret (i_eq_prim c v1 6)
].

(** ** The examples that are to panic *)

(** marked [should_panic]: src/uint/api.rs:801-802, src/int/api.rs:959-960 and the others *)
Definition docs_panic : list example := [
  (* src/int.rs:416-417 *)
  fun c => let! v1 := i_saturating_div_rem c (i_new c 1) I256_ZERO in let! v2 := Ret v1 in Ret true;
  (* src/int.rs:444-445 *)
  fun c => let! v1 := i_saturating_div_rem_euclid c (i_new c 1) I256_ZERO in let! v2 := Ret v1 in Ret true;
  (* src/uint.rs:421-422 *)
  fun c => let! v1 := u_saturating_div_rem c (u_new c 1) U256_ZERO in let! v2 := Ret v1 in Ret true;
  (* src/uint.rs:445-446 *)
  fun c => let! v1 := u_saturating_div_rem_euclid c (u_new c 1) U256_ZERO in let! v2 := Ret v1 in Ret true;
  (* src/int/api.rs:959-960 *)
  fun c => let! v1 := i_saturating_div c (i_new c 1) (i_new c 0) in let! v2 := Ret v1 in Ret true;
  (* src/uint/api.rs:801-802 *)
  fun c => let! v1 := u_saturating_div c (u_new c 1) U256_ZERO in let! v2 := Ret v1 in Ret true
].

(** ** The unit tests *)

(** src/int/cmp.rs:35-56 *)
Definition tests_int_cmp : list example := [
  (* cmp, 35-56 *)
  fun c => let! v1 := Ret (i_from_words c 0 100000000000000000000000000000000000000) in let! v2 := Ret (i_from_words c 2938735877 18960114910927365649471927446130393088) in Ret (i_lt c v1 v2);
  (* cmp, 35-56 *)
  fun c => let! v1 := Ret (i_from_words c 0 100000000000000000000000000000000000000) in let! v2 := Ret (i_from_words c 2938735877 18960114910927365649471927446130393088) in Ret (cmp_eqb (i_cmp c v1 v2) Lt);
  (* cmp, 35-56 *)
  fun c => let! v1 := Ret (i_from_words c 0 100000000000000000000000000000000000000) in let! v2 := Ret (i_from_words c 2938735877 18960114910927365649471927446130393088) in Ret (i_gt c v2 v1);
  (* cmp, 35-56 *)
  fun c => let! v1 := Ret (i_from_words c 0 100000000000000000000000000000000000000) in let! v2 := Ret (i_from_words c 2938735877 18960114910927365649471927446130393088) in Ret (cmp_eqb (i_cmp c v2 v1) Gt);
  (* cmp, 35-56 *)
  fun c => let! v1 := Ret (i_from_words c 0 100000000000000000000000000000000000000) in let! v2 := Ret (i_from_words c 2938735877 18960114910927365649471927446130393088) in let! v3 := Ret (i_new c 100) in let! v4 := Ret (i_new c 100) in Ret (i_le c v3 v4);
  (* cmp, 35-56 *)
  fun c => let! v1 := Ret (i_from_words c 0 100000000000000000000000000000000000000) in let! v2 := Ret (i_from_words c 2938735877 18960114910927365649471927446130393088) in let! v3 := Ret (i_new c 100) in let! v4 := Ret (i_new c 100) in Ret (cmp_eqb (i_cmp c v3 v4) Eq);
  (* cmp, 35-56 *)
  fun c => let! v1 := Ret (i_from_words c 0 100000000000000000000000000000000000000) in let! v2 := Ret (i_from_words c 2938735877 18960114910927365649471927446130393088) in let! v3 := Ret (i_new c 100) in let! v4 := Ret (i_new c 100) in Ret (i_gt c I256_ZERO (I256_MIN c));
  (* cmp, 35-56 *)
  fun c => let! v1 := Ret (i_from_words c 0 100000000000000000000000000000000000000) in let! v2 := Ret (i_from_words c 2938735877 18960114910927365649471927446130393088) in let! v3 := Ret (i_new c 100) in let! v4 := Ret (i_new c 100) in Ret (i_lt c I256_ZERO (I256_MAX c));
  (* cmp, 35-56 *)
  fun c => let! v1 := Ret (i_from_words c 0 100000000000000000000000000000000000000) in let! v2 := Ret (i_from_words c 2938735877 18960114910927365649471927446130393088) in let! v3 := Ret (i_new c 100) in let! v4 := Ret (i_new c 100) in Ret (i_gt c (I256_MAX c) (I256_MIN c));
  (* cmp, 35-56 *)
  fun c => let! v1 := Ret (i_from_words c 0 100000000000000000000000000000000000000) in let! v2 := Ret (i_from_words c 2938735877 18960114910927365649471927446130393088) in let! v3 := Ret (i_new c 100) in let! v4 := Ret (i_new c 100) in Ret (i_lt c (I256_MIN c) (I256_MAX c))
].

(** src/int/convert.rs:206-229 *)
Definition tests_int_convert : list example := [
  (* checked_conversion, 206-212 *)
  fun c => let! v1 := unwrapped (i_try_into c (TI 32) (i_new c (- 10))) in Ret (v1 =? (- 10));
  (* checked_conversion, 206-212 *)
  fun c => let! v2 := unwrapped (i_try_into c (TI 32) (i_new c 10)) in Ret (v2 =? 10);
  (* checked_conversion, 206-212 *)
  fun c => Ret (is_none (i_try_into c (TI 32) (I256_MIN c)));
  (* checked_conversion, 206-212 *)
  fun c => Ret (is_none (i_try_into c (TI 32) (I256_MAX c)))
].

(** src/int/fmt.rs:14-61, what goes through usize *)
Definition tests_int_fmt_sized : list example := [
  (* radix, 50-61 *)
  fun c => let! v1 := to_string (i_fmt_radix c Binary plain_opts (i_new c 42)) in Ret (bytes_eqb v1 (text "101010"));
  (* radix, 50-61 *)
  fun c => let! v2 := to_string (i_fmt_radix c Octal plain_opts (i_new c 42)) in Ret (bytes_eqb v2 (text "52"));
  (* radix, 50-61 *)
  fun c => let! v3 := to_string (i_fmt_radix c LowerHex plain_opts (i_new c 42)) in Ret (bytes_eqb v3 (text "2a"))
].

(** src/int/parse.rs:45-126 *)
Definition tests_int_parse : list example := [
  (* from_str_prefixed, 50-54 *)
  fun c => let! v3 := from_str_radix (i_helper c) (text "-0xf") 16 (Some (text "0x")) in let! v4 := unwrap_ok v3 in Ret (i_eq_prim c v4 (- 15));
  (* from_str_errors, 56-92 *)
  fun c => let! v1 := from_str_radix (i_helper c) (text "") 2 None in let! v2 := unwrap_err v1 in Ret (err_eqb v2 Empty);
  (* from_str_errors, 56-92 *)
  fun c => let! v3 := from_str_radix (i_helper c) (text "?") 2 None in let! v4 := unwrap_err v3 in Ret (err_eqb v4 InvalidDigit);
  (* from_str_errors, 56-92 *)
  fun c => let! v5 := from_str_radix (i_helper c) (text "1") 16 (Some (text "0x")) in let! v6 := unwrap_err v5 in Ret (err_eqb v6 InvalidDigit);
  (* const_parse, 94-126 *)
  fun c => let! v1 := i_const_from_str_prefixed c (text "-0b1101") in Ret (i_eq_prim c v1 (- 13));
  (* const_parse, 94-126 *)
  fun c => let! v2 := i_const_from_str_prefixed c (text "0o777") in Ret (i_eq_prim c v2 511);
  (* const_parse, 94-126 *)
  fun c => let! v3 := i_const_from_str_prefixed c (text "-0x1f") in Ret (i_eq_prim c v3 (- 31));
  (* const_parse, 94-126 *)
  fun c => let! v4 := i_const_from_str_prefixed c (text "+42") in Ret (i_eq_prim c v4 42)
].

(** src/intrinsics/native/divmod.rs:498-608 *)
Definition tests_intrinsics_native_divmod : list example := [
  (* division, 498-555 *)
  fun c => let! v1 := udiv3 c (prim_as_u256 c 100) (prim_as_u256 c 9) in Ret (u_eq_prim c v1 11);
  (* division, 498-555 *)
  fun c => let! v2 := u_shl_amt c (U256_ONE c) (Amt_u32 128) in let! v3 := udiv3 c (prim_as_u256 c (u_not 128 0)) v2 in Ret (u_eq_prim c v3 0);
  (* division, 498-555 *)
  fun c => let! v8 := udiv3 c (u_from_words c 42 0) (U256_ONE c) in Ret (u_eq c v8 (u_from_words c 42 0));
  (* division, 498-555 *)
  fun c => let! v14 := udiv3 c (u_from_words c 100 100) (u_from_words c 1000 1000) in Ret (u_eq_prim c v14 0);
  (* remainder, 563-608 *)
  fun c => let! v1 := urem3 c (prim_as_u256 c 100) (prim_as_u256 c 9) in Ret (u_eq_prim c v1 1);
  (* remainder, 563-608 *)
  fun c => let! v2 := u_shl_amt c (U256_ONE c) (Amt_u32 128) in let! v3 := urem3 c (prim_as_u256 c (u_not 128 0)) v2 in Ret (u_eq_prim c v3 (u_not 128 0));
  (* remainder, 563-608 *)
  fun c => let! v8 := urem3 c (u_from_words c 42 0) (U256_ONE c) in Ret (u_eq_prim c v8 0);
  (* remainder, 563-608 *)
  fun c => let! v13 := urem3 c (u_from_words c 100 100) (u_from_words c 1000 1000) in Ret (u_eq c v13 (u_from_words c 100 100))
].

(** src/intrinsics/native/mul.rs:104-118 *)
Definition tests_intrinsics_native_mul : list example := [
  (* multiplication, 104-118 *)
  fun c => let! v1 := n_umulc c (prim_as_u256 c 6) (prim_as_u256 c 7) in Ret (let '(p0, p1) := v1 in let '(q0, q1) := ((prim_as_u256 c 42), false) in (u_eq c p0 q0) && (Bool.eqb p1 q1));
  (* multiplication, 104-118 *)
  fun c => let! v2 := n_umulc c U256_MAX (prim_as_u256 c 1) in Ret (let '(p0, p1) := v2 in let '(q0, q1) := (U256_MAX, false) in (u_eq c p0 q0) && (Bool.eqb p1 q1));
  (* multiplication, 104-118 *)
  fun c => let! v3 := n_umulc c (prim_as_u256 c 1) U256_MAX in Ret (let '(p0, p1) := v3 in let '(q0, q1) := (U256_MAX, false) in (u_eq c p0 q0) && (Bool.eqb p1 q1));
  (* multiplication, 104-118 *)
  fun c => let! v4 := n_umulc c U256_MAX (prim_as_u256 c 0) in Ret (let '(p0, p1) := v4 in let '(q0, q1) := (U256_ZERO, false) in (u_eq c p0 q0) && (Bool.eqb p1 q1));
  (* multiplication, 104-118 *)
  fun c => let! v5 := n_umulc c (prim_as_u256 c 0) U256_MAX in Ret (let '(p0, p1) := v5 in let '(q0, q1) := (U256_ZERO, false) in (u_eq c p0 q0) && (Bool.eqb p1 q1))
].

(** src/uint/cmp.rs:32-47 *)
Definition tests_uint_cmp : list example := [
  (* cmp, 32-47 *)
  fun c => let! v1 := Ret (u_from_words c 0 100000000000000000000000000000000000000) in let! v2 := Ret (u_from_words c 2938735877 18960114910927365649471927446130393088) in Ret (u_lt c v1 v2);
  (* cmp, 32-47 *)
  fun c => let! v1 := Ret (u_from_words c 0 100000000000000000000000000000000000000) in let! v2 := Ret (u_from_words c 2938735877 18960114910927365649471927446130393088) in Ret (cmp_eqb (u_cmp c v1 v2) Lt);
  (* cmp, 32-47 *)
  fun c => let! v1 := Ret (u_from_words c 0 100000000000000000000000000000000000000) in let! v2 := Ret (u_from_words c 2938735877 18960114910927365649471927446130393088) in Ret (u_gt c v2 v1);
  (* cmp, 32-47 *)
  fun c => let! v1 := Ret (u_from_words c 0 100000000000000000000000000000000000000) in let! v2 := Ret (u_from_words c 2938735877 18960114910927365649471927446130393088) in Ret (cmp_eqb (u_cmp c v2 v1) Gt);
  (* cmp, 32-47 *)
  fun c => let! v1 := Ret (u_from_words c 0 100000000000000000000000000000000000000) in let! v2 := Ret (u_from_words c 2938735877 18960114910927365649471927446130393088) in let! v3 := Ret (u_new c 100) in let! v4 := Ret (u_new c 100) in Ret (u_le c v3 v4);
  (* cmp, 32-47 *)
  fun c => let! v1 := Ret (u_from_words c 0 100000000000000000000000000000000000000) in let! v2 := Ret (u_from_words c 2938735877 18960114910927365649471927446130393088) in let! v3 := Ret (u_new c 100) in let! v4 := Ret (u_new c 100) in Ret (cmp_eqb (u_cmp c v3 v4) Eq)
].

(** src/uint/fmt.rs:14-43, what goes through usize *)
Definition tests_uint_fmt_sized : list example := [
  (* radix, 38-43 *)
  fun c => let! v1 := to_string (u_fmt_radix c Binary plain_opts (u_new c 42)) in Ret (bytes_eqb v1 (text "101010"));
  (* radix, 38-43 *)
  fun c => let! v2 := to_string (u_fmt_radix c Octal plain_opts (u_new c 42)) in Ret (bytes_eqb v2 (text "52"));
  (* radix, 38-43 *)
  fun c => let! v3 := to_string (u_fmt_radix c LowerHex plain_opts (u_new c 42)) in Ret (bytes_eqb v3 (text "2a"))
].

(** src/uint/parse.rs:23-98 *)
Definition tests_uint_parse : list example := [
  (* from_str, 23-26 *)
  fun c => let! v1 := u_from_str c (text "42") in let! v2 := unwrap_ok v1 in Ret (u_eq_prim c v2 42);
  (* from_str_prefixed, 28-32 *)
  fun c => let! v1 := from_str_radix (u_helper c) (text "0b101") 2 (Some (text "0b")) in let! v2 := unwrap_ok v1 in Ret (u_eq_prim c v2 5);
  (* from_str_prefixed, 28-32 *)
  fun c => let! v3 := from_str_radix (u_helper c) (text "0xf") 16 (Some (text "0x")) in let! v4 := unwrap_ok v3 in Ret (u_eq_prim c v4 15);
  (* from_str_errors, 34-64 *)
  fun c => let! v1 := from_str_radix (u_helper c) (text "") 2 None in let! v2 := unwrap_err v1 in Ret (err_eqb v2 Empty);
  (* from_str_errors, 34-64 *)
  fun c => let! v3 := from_str_radix (u_helper c) (text "?") 2 None in let! v4 := unwrap_err v3 in Ret (err_eqb v4 InvalidDigit);
  (* from_str_errors, 34-64 *)
  fun c => let! v5 := from_str_radix (u_helper c) (text "1") 16 (Some (text "0x")) in let! v6 := unwrap_err v5 in Ret (err_eqb v6 InvalidDigit);
  (* from_str_errors, 34-64 *)
  fun c => let! v7 := from_str_radix (u_helper c) (text "-1") 10 None in let! v8 := unwrap_err v7 in Ret (err_eqb v8 InvalidDigit);
  (* const_parse, 66-98 *)
  fun c => let! v1 := u_const_from_str_prefixed c (text "+0b1101") in Ret (u_eq_prim c v1 13);
  (* const_parse, 66-98 *)
  fun c => let! v2 := u_const_from_str_prefixed c (text "0o777") in Ret (u_eq_prim c v2 511);
  (* const_parse, 66-98 *)
  fun c => let! v3 := u_const_from_str_prefixed c (text "+0x1f") in Ret (u_eq_prim c v3 31);
  (* const_parse, 66-98 *)
  fun c => let! v4 := u_const_from_str_prefixed c (text "42") in Ret (u_eq_prim c v4 42)
].

(** src/uint.rs:568-572 *)
Definition tests_uint : list example := [
  (* 568-572 *)
  fun c => Ret (match u_as_f64 c (u_from_words c 1 0) with Fin z => z =? 2 ^ 128 | Inf _ => false end)
].

(** src/intrinsics.rs:31-36 *)
Definition tests_intrinsics : list example := [
  (* 31-36 *)
  fun c => Ret (u_eq c (add3 c (mkU 1 2) (mkU 3 0)) (mkU 4 2))
].

(** src/serde.rs:756-1279 *)
Definition tests_serde : list example := [
  (* deserialize_integers, 937 *)
  fun c => let! r := visit (i_visitor c Plain) (In_str Transient (text "0x0")) in Ret (accepts (i_eq c) r (i_new c 0));
  (* deserialize_integers, 941 *)
  fun c => let! r := visit (u_visitor c Plain) (In_str Transient (text "0x0")) in Ret (accepts (u_eq c) r (u_new c 0));
  (* deserialize_integers, 942 *)
  fun c => let! r := visit (u_visitor c Plain) (In_str Transient (text "0x2a")) in Ret (accepts (u_eq c) r (u_new c 42));
  (* deserialize_integers, 943 *)
  fun c => let! r := visit (u_visitor c Plain) (In_str Transient (text "0x2A")) in Ret (accepts (u_eq c) r (u_new c 42));
  (* deserialize_integers, 959 *)
  fun c => let! r := visit (i_visitor c Decimal) (In_str Transient (text "-1")) in Ret (accepts (i_eq c) r (i_new c (- 1)));
  (* deserialize_integers, 960 *)
  fun c => let! r := visit (i_visitor c Decimal) (In_str Transient (text "0")) in Ret (accepts (i_eq c) r (i_new c 0));
  (* deserialize_integers, 963 *)
  fun c => let! r := visit (u_visitor c Decimal) (In_str Transient (text "0")) in Ret (accepts (u_eq c) r (u_new c 0));
  (* deserialize_integers, 964 *)
  fun c => let! r := visit (u_visitor c Decimal) (In_str Transient (text "42")) in Ret (accepts (u_eq c) r (u_new c 42));
  (* deserialize_integers, 973 *)
  fun c => let! r := visit (i_visitor c Prefixed) (In_str Transient (text "-1")) in Ret (accepts (i_eq c) r (i_new c (- 1)));
  (* deserialize_integers, 974 *)
  fun c => let! r := visit (i_visitor c Prefixed) (In_str Transient (text "-0x1")) in Ret (accepts (i_eq c) r (i_new c (- 1)));
  (* deserialize_integers, 979 *)
  fun c => let! r := visit (u_visitor c Prefixed) (In_str Transient (text "42")) in Ret (accepts (u_eq c) r (u_new c 42));
  (* deserialize_integers, 980 *)
  fun c => let! r := visit (u_visitor c Prefixed) (In_str Transient (text "0x2a")) in Ret (accepts (u_eq c) r (u_new c 42));
  (* deserialize_integers, 981 *)
  fun c => let! r := visit (u_visitor c Prefixed) (In_str Transient (text "0x2A")) in Ret (accepts (u_eq c) r (u_new c 42));
  (* deserialize_integers, 983 *)
  fun c => let! r := visit (i_visitor c Permissive) (In_signed W64 (-42)) in Ret (accepts (i_eq c) r (i_new c (- 42)));
  (* deserialize_integers, 987 *)
  fun c => let! r := visit (i_visitor c Permissive) (In_unsigned W64 (42)) in Ret (accepts (i_eq c) r (i_new c 42));
  (* deserialize_integers, 991 *)
  fun c => let! r := visit (i_visitor c Permissive) (In_signed W128 (-1337)) in Ret (accepts (i_eq c) r (i_new c (- 1337)));
  (* deserialize_integers, 995 *)
  fun c => let! r := visit (i_visitor c Permissive) (In_unsigned W128 (1337)) in Ret (accepts (i_eq c) r (i_new c 1337));
  (* deserialize_integers, 999 *)
  fun c => let! r := visit (i_visitor c Permissive) (In_f32 1120403456) in Ret (accepts (i_eq c) r (i_new c 100));
  (* deserialize_integers, 1003 *)
  fun c => let! r := visit (i_visitor c Permissive) (In_f64 13860109328209412096) in Ret (accepts (i_eq c) r (i_new c (- 100)));
  (* deserialize_integers, 1007 *)
  fun c => let! r := visit (i_visitor c Permissive) (In_str Transient (text "-1")) in Ret (accepts (i_eq c) r (i_new c (- 1)));
  (* deserialize_integers, 1035 *)
  fun c => let! r := visit (u_visitor c Permissive) (In_unsigned W64 (42)) in Ret (accepts (u_eq c) r (u_new c 42));
  (* deserialize_integers, 1039 *)
  fun c => let! r := visit (u_visitor c Permissive) (In_unsigned W128 (1337)) in Ret (accepts (u_eq c) r (u_new c 1337));
  (* deserialize_integers, 1043 *)
  fun c => let! r := visit (u_visitor c Permissive) (In_f32 1120403456) in Ret (accepts (u_eq c) r (u_new c 100));
  (* deserialize_integers, 1047 *)
  fun c => let! r := visit (u_visitor c Permissive) (In_f64 4636737291354636288) in Ret (accepts (u_eq c) r (u_new c 100));
  (* deserialize_integers, 1051 *)
  fun c => let! r := visit (u_visitor c Permissive) (In_str Transient (text "1000")) in Ret (accepts (u_eq c) r (u_new c 1000));
  (* deserialize_integers, 1055 *)
  fun c => let! r := visit (u_visitor c Permissive) (In_str Transient (text "0x42")) in Ret (accepts (u_eq c) r (u_new c 66));
  (* deserialize_integers, 1067 *)
  fun c => let! r := visit (i_visitor c Permissive) (In_f32 1082549862) in Ret (rejects r);
  (* deserialize_integers, 1068 *)
  fun c => let! r := visit (i_visitor c Permissive) (In_f32 1266679808) in Ret (rejects r);
  (* deserialize_integers, 1069 *)
  fun c => let! r := visit (i_visitor c Permissive) (In_f64 13847088295786777149) in Ret (rejects r);
  (* deserialize_integers, 1070 *)
  fun c => let! r := visit (i_visitor c Permissive) (In_f32 1509949440) in Ret (rejects r);
  (* deserialize_integers, 1079 *)
  fun c => let! r := visit (u_visitor c Permissive) (In_f32 1082549862) in Ret (rejects r);
  (* deserialize_integers, 1080 *)
  fun c => let! r := visit (u_visitor c Permissive) (In_f32 1266679808) in Ret (rejects r);
  (* deserialize_integers, 1081 *)
  fun c => let! r := visit (u_visitor c Permissive) (In_f64 4623716258932001341) in Ret (rejects r);
  (* deserialize_integers, 1082 *)
  fun c => let! r := visit (u_visitor c Permissive) (In_f32 1509949440) in Ret (rejects r);
  (* deserialize_integers, 1087 *)
  fun c => let! r := visit (u_visitor c (Bytes (Some LE))) (In_bytes Transient (repeat 0 32%nat)) in Ret (accepts (u_eq c) r U256_ZERO);
  (* deserialize_integers, 1087 *)
  fun c => let! r := visit (u_visitor c (Bytes (Some LE))) (In_seq (byte_seq (repeat 0 32%nat))) in Ret (accepts (u_eq c) r U256_ZERO);
  (* deserialize_integers, 1091 *)
  fun c => let! r := visit (u_visitor c (Bytes (Some LE))) (In_bytes Transient (repeat 255 32%nat)) in Ret (accepts (u_eq c) r U256_MAX);
  (* deserialize_integers, 1091 *)
  fun c => let! r := visit (u_visitor c (Bytes (Some LE))) (In_seq (byte_seq (repeat 255 32%nat))) in Ret (accepts (u_eq c) r U256_MAX);
  (* deserialize_integers, 1096 *)
  fun c => let! r := visit (i_visitor c (Bytes (Some LE))) (In_bytes Transient (repeat 0 32%nat)) in Ret (accepts (i_eq c) r I256_ZERO);
  (* deserialize_integers, 1096 *)
  fun c => let! r := visit (i_visitor c (Bytes (Some LE))) (In_seq (byte_seq (repeat 0 32%nat))) in Ret (accepts (i_eq c) r I256_ZERO);
  (* deserialize_integers, 1100 *)
  fun c => let! r := visit (i_visitor c (Bytes (Some LE))) (In_bytes Transient (repeat 255 32%nat)) in Ret (accepts (i_eq c) r (i_new c (- 1)));
  (* deserialize_integers, 1100 *)
  fun c => let! r := visit (i_visitor c (Bytes (Some LE))) (In_seq (byte_seq (repeat 255 32%nat))) in Ret (accepts (i_eq c) r (i_new c (- 1)));
  (* deserialize_integers, 1110 *)
  fun c => let! r := visit (u_visitor c (Bytes (Some LE))) (In_bytes Transient (repeat 0 0%nat ++ [42] ++ repeat 0 31%nat)) in Ret (accepts (u_eq c) r (u_new c 42));
  (* deserialize_integers, 1110 *)
  fun c => let! r := visit (u_visitor c (Bytes (Some LE))) (In_seq (byte_seq (repeat 0 0%nat ++ [42] ++ repeat 0 31%nat))) in Ret (accepts (u_eq c) r (u_new c 42));
  (* deserialize_integers, 1114 *)
  fun c => let! r := visit (i_visitor c (Bytes (Some LE))) (In_bytes Transient (repeat 0 0%nat ++ [42] ++ repeat 0 31%nat)) in Ret (accepts (i_eq c) r (i_new c 42));
  (* deserialize_integers, 1114 *)
  fun c => let! r := visit (i_visitor c (Bytes (Some LE))) (In_seq (byte_seq (repeat 0 0%nat ++ [42] ++ repeat 0 31%nat))) in Ret (accepts (i_eq c) r (i_new c 42));
  (* deserialize_integers, 1119 *)
  fun c => let! r := visit (u_visitor c (Bytes (Some LE))) (In_bytes Transient (repeat 255 31%nat)) in Ret (rejects r);
  (* deserialize_integers, 1119 *)
  fun c => let! r := visit (u_visitor c (Bytes (Some LE))) (In_seq (byte_seq (repeat 255 31%nat))) in Ret (rejects r);
  (* deserialize_integers, 1123 *)
  fun c => let! r := visit (u_visitor c (Bytes (Some LE))) (In_bytes Transient (repeat 255 33%nat)) in Ret (rejects r);
  (* deserialize_integers, 1123 *)
  fun c => let! r := visit (u_visitor c (Bytes (Some LE))) (In_seq (byte_seq (repeat 255 33%nat))) in Ret (rejects r);
  (* deserialize_integers, 1127 *)
  fun c => let! r := visit (i_visitor c (Bytes (Some LE))) (In_bytes Transient (repeat 255 31%nat)) in Ret (rejects r);
  (* deserialize_integers, 1127 *)
  fun c => let! r := visit (i_visitor c (Bytes (Some LE))) (In_seq (byte_seq (repeat 255 31%nat))) in Ret (rejects r);
  (* deserialize_integers, 1131 *)
  fun c => let! r := visit (i_visitor c (Bytes (Some LE))) (In_bytes Transient (repeat 255 33%nat)) in Ret (rejects r);
  (* deserialize_integers, 1131 *)
  fun c => let! r := visit (i_visitor c (Bytes (Some LE))) (In_seq (byte_seq (repeat 255 33%nat))) in Ret (rejects r);
  (* deserialize_integers, 1136 *)
  fun c => let! r := visit (u_visitor c (Bytes (Some BE))) (In_bytes Transient (repeat 0 32%nat)) in Ret (accepts (u_eq c) r U256_ZERO);
  (* deserialize_integers, 1136 *)
  fun c => let! r := visit (u_visitor c (Bytes (Some BE))) (In_seq (byte_seq (repeat 0 32%nat))) in Ret (accepts (u_eq c) r U256_ZERO);
  (* deserialize_integers, 1145 *)
  fun c => let! r := visit (i_visitor c (Bytes (Some BE))) (In_bytes Transient (repeat 0 32%nat)) in Ret (accepts (i_eq c) r I256_ZERO);
  (* deserialize_integers, 1145 *)
  fun c => let! r := visit (i_visitor c (Bytes (Some BE))) (In_seq (byte_seq (repeat 0 32%nat))) in Ret (accepts (i_eq c) r I256_ZERO);
  (* deserialize_integers, 1159 *)
  fun c => let! r := visit (u_visitor c (Bytes (Some BE))) (In_bytes Transient (repeat 0 31%nat ++ [42] ++ repeat 0 0%nat)) in Ret (accepts (u_eq c) r (u_new c 42));
  (* deserialize_integers, 1159 *)
  fun c => let! r := visit (u_visitor c (Bytes (Some BE))) (In_seq (byte_seq (repeat 0 31%nat ++ [42] ++ repeat 0 0%nat))) in Ret (accepts (u_eq c) r (u_new c 42));
  (* deserialize_integers, 1163 *)
  fun c => let! r := visit (i_visitor c (Bytes (Some BE))) (In_bytes Transient (repeat 0 31%nat ++ [42] ++ repeat 0 0%nat)) in Ret (accepts (i_eq c) r (i_new c 42));
  (* deserialize_integers, 1163 *)
  fun c => let! r := visit (i_visitor c (Bytes (Some BE))) (In_seq (byte_seq (repeat 0 31%nat ++ [42] ++ repeat 0 0%nat))) in Ret (accepts (i_eq c) r (i_new c 42));
  (* deserialize_integers, 1168 *)
  fun c => let! r := visit (u_visitor c (Bytes (Some BE))) (In_bytes Transient (repeat 255 31%nat)) in Ret (rejects r);
  (* deserialize_integers, 1168 *)
  fun c => let! r := visit (u_visitor c (Bytes (Some BE))) (In_seq (byte_seq (repeat 255 31%nat))) in Ret (rejects r);
  (* deserialize_integers, 1172 *)
  fun c => let! r := visit (u_visitor c (Bytes (Some BE))) (In_bytes Transient (repeat 255 33%nat)) in Ret (rejects r);
  (* deserialize_integers, 1172 *)
  fun c => let! r := visit (u_visitor c (Bytes (Some BE))) (In_seq (byte_seq (repeat 255 33%nat))) in Ret (rejects r);
  (* deserialize_integers, 1176 *)
  fun c => let! r := visit (i_visitor c (Bytes (Some BE))) (In_bytes Transient (repeat 255 31%nat)) in Ret (rejects r);
  (* deserialize_integers, 1176 *)
  fun c => let! r := visit (i_visitor c (Bytes (Some BE))) (In_seq (byte_seq (repeat 255 31%nat))) in Ret (rejects r);
  (* deserialize_integers, 1180 *)
  fun c => let! r := visit (i_visitor c (Bytes (Some BE))) (In_bytes Transient (repeat 255 33%nat)) in Ret (rejects r);
  (* deserialize_integers, 1180 *)
  fun c => let! r := visit (i_visitor c (Bytes (Some BE))) (In_seq (byte_seq (repeat 255 33%nat))) in Ret (rejects r)
].

(** src/serde.rs:756-1279, what goes through usize *)
Definition tests_serde_sized : list example := [
  (* serialize_integers, 760 *)
  fun c => let! e := i_emit c Plain (i_new c (- 1)) in Ret (emitted_eqb e (Em_str (text "-0x1")));
  (* serialize_integers, 761 *)
  fun c => let! e := i_emit c Plain (i_new c 0) in Ret (emitted_eqb e (Em_str (text "0x0")));
  (* serialize_integers, 762 *)
  fun c => let! e := i_emit c Plain (i_new c 42) in Ret (emitted_eqb e (Em_str (text "0x2a")));
  (* serialize_integers, 764 *)
  fun c => let! e := u_emit c Plain (u_new c 0) in Ret (emitted_eqb e (Em_str (text "0x0")));
  (* serialize_integers, 765 *)
  fun c => let! e := u_emit c Plain (u_new c 4919) in Ret (emitted_eqb e (Em_str (text "0x1337")));
  (* serialize_integers, 775 *)
  fun c => let! e := i_emit c Decimal (i_new c (- 1)) in Ret (emitted_eqb e (Em_str (text "-1")));
  (* serialize_integers, 776 *)
  fun c => let! e := i_emit c Decimal (i_new c 0) in Ret (emitted_eqb e (Em_str (text "0")));
  (* serialize_integers, 777 *)
  fun c => let! e := i_emit c Decimal (i_new c 42) in Ret (emitted_eqb e (Em_str (text "42")));
  (* serialize_integers, 779 *)
  fun c => let! e := u_emit c Decimal (u_new c 0) in Ret (emitted_eqb e (Em_str (text "0")));
  (* serialize_integers, 780 *)
  fun c => let! e := u_emit c Decimal (u_new c 4919) in Ret (emitted_eqb e (Em_str (text "4919")));
  (* serialize_integers, 786 *)
  fun c => let! e := i_emit c Prefixed (i_new c 42) in Ret (emitted_eqb e (Em_str (text "0x2a")));
  (* serialize_integers, 787 *)
  fun c => let! e := i_emit c Permissive (i_new c 42) in Ret (emitted_eqb e (Em_str (text "0x2a")));
  (* serialize_integers, 789 *)
  fun c => let! e := u_emit c (Bytes (Some LE)) U256_ZERO in Ret (emitted_eqb e (Em_bytes (repeat 0 32%nat)));
  (* serialize_integers, 791 *)
  fun c => let! e := u_emit c (Bytes (Some LE)) (u_new c 16917) in Ret (emitted_eqb e (Em_bytes ([21; 66] ++ repeat 0 30%nat)));
  (* serialize_integers, 807 *)
  fun c => let! e := u_emit c (Bytes (Some BE)) U256_ZERO in Ret (emitted_eqb e (Em_bytes (repeat 0 32%nat)));
  (* serialize_integers, 809 *)
  fun c => let! e := u_emit c (Bytes (Some BE)) (u_new c 16917) in Ret (emitted_eqb e (Em_bytes (repeat 0 30%nat ++ [66; 21])));
  (* serialize_integers, 825 *)
  fun c => let! e := u_emit c (Compressed (Some LE)) U256_ZERO in Ret (emitted_eqb e (Em_bytes []));
  (* serialize_integers, 833 *)
  fun c => let! e := u_emit c (Compressed (Some LE)) (u_new c 16917) in Ret (emitted_eqb e (Em_bytes [21; 66]));
  (* serialize_integers, 838 *)
  fun c => let! e := i_emit c (Compressed (Some LE)) (I256_MIN c) in Ret (emitted_eqb e (Em_bytes (repeat 0 31%nat ++ [128] ++ repeat 0 0%nat)));
  (* serialize_integers, 843 *)
  fun c => let! e := i_emit c (Compressed (Some LE)) I256_ZERO in Ret (emitted_eqb e (Em_bytes []));
  (* serialize_integers, 847 *)
  fun c => let! e := i_emit c (Compressed (Some LE)) (i_new c (- 1)) in Ret (emitted_eqb e (Em_bytes [255]));
  (* serialize_integers, 851 *)
  fun c => let! e := i_emit c (Compressed (Some LE)) (i_new c (- 32768)) in Ret (emitted_eqb e (Em_bytes [0; 128]));
  (* serialize_integers, 855 *)
  fun c => let! e := i_emit c (Compressed (Some LE)) (i_new c (- 424242)) in Ret (emitted_eqb e (Em_bytes [206; 134; 249]));
  (* serialize_integers, 860 *)
  fun c => let! e := u_emit c (Compressed (Some BE)) U256_ZERO in Ret (emitted_eqb e (Em_bytes []));
  (* serialize_integers, 868 *)
  fun c => let! e := u_emit c (Compressed (Some BE)) (u_new c 16917) in Ret (emitted_eqb e (Em_bytes [66; 21]));
  (* serialize_integers, 873 *)
  fun c => let! e := i_emit c (Compressed (Some BE)) (I256_MIN c) in Ret (emitted_eqb e (Em_bytes (repeat 0 0%nat ++ [128] ++ repeat 0 31%nat)));
  (* serialize_integers, 878 *)
  fun c => let! e := i_emit c (Compressed (Some BE)) I256_ZERO in Ret (emitted_eqb e (Em_bytes []));
  (* deserialize_integers, 1185 *)
  fun c => let! r := visit (u_visitor c (Compressed (Some LE))) (In_bytes Transient []) in Ret (accepts (u_eq c) r U256_ZERO);
  (* deserialize_integers, 1185 *)
  fun c => let! r := visit (u_visitor c (Compressed (Some LE))) (In_seq (byte_seq [])) in Ret (accepts (u_eq c) r U256_ZERO);
  (* deserialize_integers, 1189 *)
  fun c => let! r := visit (u_visitor c (Compressed (Some LE))) (In_bytes Transient (repeat 255 32%nat)) in Ret (accepts (u_eq c) r U256_MAX);
  (* deserialize_integers, 1189 *)
  fun c => let! r := visit (u_visitor c (Compressed (Some LE))) (In_seq (byte_seq (repeat 255 32%nat))) in Ret (accepts (u_eq c) r U256_MAX);
  (* deserialize_integers, 1194 *)
  fun c => let! r := visit (u_visitor c (Compressed (Some LE))) (In_bytes Transient [42]) in Ret (accepts (u_eq c) r (u_new c 42));
  (* deserialize_integers, 1194 *)
  fun c => let! r := visit (u_visitor c (Compressed (Some LE))) (In_seq (byte_seq [42])) in Ret (accepts (u_eq c) r (u_new c 42));
  (* deserialize_integers, 1198 *)
  fun c => let! r := visit (u_visitor c (Compressed (Some LE))) (In_bytes Transient [238; 255]) in Ret (accepts (u_eq c) r (u_new c 65518));
  (* deserialize_integers, 1198 *)
  fun c => let! r := visit (u_visitor c (Compressed (Some LE))) (In_seq (byte_seq [238; 255])) in Ret (accepts (u_eq c) r (u_new c 65518));
  (* deserialize_integers, 1202 *)
  fun c => let! r := visit (i_visitor c (Compressed (Some LE))) (In_bytes Transient []) in Ret (accepts (i_eq c) r I256_ZERO);
  (* deserialize_integers, 1202 *)
  fun c => let! r := visit (i_visitor c (Compressed (Some LE))) (In_seq (byte_seq [])) in Ret (accepts (i_eq c) r I256_ZERO);
  (* deserialize_integers, 1206 *)
  fun c => let! r := visit (i_visitor c (Compressed (Some LE))) (In_bytes Transient [255]) in Ret (accepts (i_eq c) r (i_new c (- 1)));
  (* deserialize_integers, 1206 *)
  fun c => let! r := visit (i_visitor c (Compressed (Some LE))) (In_seq (byte_seq [255])) in Ret (accepts (i_eq c) r (i_new c (- 1)));
  (* deserialize_integers, 1211 *)
  fun c => let! r := visit (u_visitor c (Compressed (Some LE))) (In_bytes Transient (repeat 255 33%nat)) in Ret (rejects r);
  (* deserialize_integers, 1211 *)
  fun c => let! r := visit (u_visitor c (Compressed (Some LE))) (In_seq (byte_seq (repeat 255 33%nat))) in Ret (rejects r);
  (* deserialize_integers, 1215 *)
  fun c => let! r := visit (i_visitor c (Compressed (Some LE))) (In_bytes Transient (repeat 255 33%nat)) in Ret (rejects r);
  (* deserialize_integers, 1215 *)
  fun c => let! r := visit (i_visitor c (Compressed (Some LE))) (In_seq (byte_seq (repeat 255 33%nat))) in Ret (rejects r);
  (* deserialize_integers, 1220 *)
  fun c => let! r := visit (u_visitor c (Compressed (Some BE))) (In_bytes Transient []) in Ret (accepts (u_eq c) r U256_ZERO);
  (* deserialize_integers, 1220 *)
  fun c => let! r := visit (u_visitor c (Compressed (Some BE))) (In_seq (byte_seq [])) in Ret (accepts (u_eq c) r U256_ZERO);
  (* deserialize_integers, 1229 *)
  fun c => let! r := visit (u_visitor c (Compressed (Some BE))) (In_bytes Transient [42]) in Ret (accepts (u_eq c) r (u_new c 42));
  (* deserialize_integers, 1229 *)
  fun c => let! r := visit (u_visitor c (Compressed (Some BE))) (In_seq (byte_seq [42])) in Ret (accepts (u_eq c) r (u_new c 42));
  (* deserialize_integers, 1233 *)
  fun c => let! r := visit (u_visitor c (Compressed (Some BE))) (In_bytes Transient [255; 238]) in Ret (accepts (u_eq c) r (u_new c 65518));
  (* deserialize_integers, 1233 *)
  fun c => let! r := visit (u_visitor c (Compressed (Some BE))) (In_seq (byte_seq [255; 238])) in Ret (accepts (u_eq c) r (u_new c 65518));
  (* deserialize_integers, 1237 *)
  fun c => let! r := visit (i_visitor c (Compressed (Some BE))) (In_bytes Transient []) in Ret (accepts (i_eq c) r I256_ZERO);
  (* deserialize_integers, 1237 *)
  fun c => let! r := visit (i_visitor c (Compressed (Some BE))) (In_seq (byte_seq [])) in Ret (accepts (i_eq c) r I256_ZERO);
  (* deserialize_integers, 1246 *)
  fun c => let! r := visit (u_visitor c (Compressed (Some BE))) (In_bytes Transient (repeat 255 33%nat)) in Ret (rejects r);
  (* deserialize_integers, 1246 *)
  fun c => let! r := visit (u_visitor c (Compressed (Some BE))) (In_seq (byte_seq (repeat 255 33%nat))) in Ret (rejects r);
  (* deserialize_integers, 1250 *)
  fun c => let! r := visit (i_visitor c (Compressed (Some BE))) (In_bytes Transient (repeat 255 33%nat)) in Ret (rejects r);
  (* deserialize_integers, 1250 *)
  fun c => let! r := visit (i_visitor c (Compressed (Some BE))) (In_seq (byte_seq (repeat 255 33%nat))) in Ret (rejects r);
  (* formatting_buffer, 1258-1267 *)
  fun c => let! a := write_expect c fb_decimal "" (u_fmt_display c plain_opts U256_MIN) in let! b := to_string (u_fmt_display c plain_opts U256_MIN) in Ret (bytes_eqb a b);
  (* formatting_buffer, 1269-1279 *)
  fun c => let! a := write_expect c fb_hex "" (u_fmt_radix c LowerHex opts_neg_hex U256_MIN) in let! b := to_string (u_fmt_radix c LowerHex opts_neg_hex U256_MIN) in Ret (bytes_eqb a b)
].

(** ** The unit tests that are to panic *)

(** marked [should_panic]: src/intrinsics/native/divmod.rs:556-561 and the others *)
Definition tests_panic : list example := [
  (* src/int/parse.rs:128-135, const_parse_overflow *)
  fun c => let! v1 := i_const_from_str_prefixed c (text "0x8000_0000_0000_0000_0000_0000_0000_00000000_0000_0000_0000_0000_0000_0000_0000") in Ret true;
  (* src/int/parse.rs:137-144, const_parse_negative_overflow *)
  fun c => let! v1 := i_const_from_str_prefixed c (text "-0x8000_0000_0000_0000_0000_0000_0000_00000000_0000_0000_0000_0000_0000_0000_0001") in Ret true;
  (* src/int/parse.rs:146-150, const_parse_invalid *)
  fun c => let! v1 := i_const_from_str_prefixed c (text "invalid") in Ret true;
  (* src/intrinsics/native/divmod.rs:557-561, division_by_zero *)
  fun c => let! v1 := udiv3 c (prim_as_u256 c 1) (prim_as_u256 c 0) in Ret true;
  (* src/intrinsics/native/divmod.rs:610-614, remainder_by_zero *)
  fun c => let! v1 := urem3 c (prim_as_u256 c 1) (prim_as_u256 c 0) in Ret true;
  (* src/uint/parse.rs:100-108, const_parse_overflow *)
  fun c => let! v1 := u_const_from_str_prefixed c (text "0x10000_0000_0000_0000_0000_0000_0000_00000000_0000_0000_0000_0000_0000_0000_0000") in Ret true;
  (* src/uint/parse.rs:110-114, const_parse_invalid *)
  fun c => let! v1 := u_const_from_str_prefixed c (text "invalid") in Ret true
].

(** ** The ones that take long to compute *)

(** numerals of many digits, src/lib.rs:40-48 and the others *)
Definition long_examples : list example := [
  (* src/int.rs:128-130 *)
  fun c => let! v1 := i_from_str_hex c (text "0x2A") in Ret (res_eqb (fun p q => (i_eq c p q)) v1 (Ok (i_new c 42)));
  (* src/int.rs:154-158 *)
  fun c => let! v1 := i_from_str_prefixed c (text "-0b101") in Ret (res_eqb (fun p q => (i_eq c p q)) v1 (Ok (i_new c (- 5))));
  (* src/int.rs:154-158 *)
  fun c => let! v4 := i_from_str_prefixed c (text "42") in Ret (res_eqb (fun p q => (i_eq c p q)) v4 (Ok (i_new c 42)));
  (* src/int.rs:287-291 *)
  fun c => let! v2 := i_div_rem c (i_new c (- 22)) (i_new c 5) in Ret (let '(p0, p1) := v2 in let '(q0, q1) := ((i_new c (- 4)), (i_new c (- 2))) in (i_eq c p0 q0) && (i_eq c p1 q1));
  (* src/int.rs:287-291 *)
  fun c => let! v4 := i_div_rem c (i_new c (- 22)) (i_new c (- 5)) in Ret (let '(p0, p1) := v4 in let '(q0, q1) := ((i_new c 4), (i_new c (- 2))) in (i_eq c p0 q0) && (i_eq c p1 q1));
  (* src/int.rs:317-326 *)
  fun c => let! v3 := i_div_rem_euclid c (i_new c 22) (i_new c (- 5)) in Ret (let '(p0, p1) := v3 in let '(q0, q1) := ((i_new c (- 4)), (i_new c 2)) in (i_eq c p0 q0) && (i_eq c p1 q1));
  (* src/int.rs:347-350 *)
  fun c => let! v1 := i_op_add c (I256_MIN c) (i_new c 1) in let! v2 := i_checked_div_rem c v1 (i_new c (- 1)) in Ret (opt_eqb (fun p q => (let '(p0, p1) := p in let '(q0, q1) := q in (i_eq c p0 q0) && (i_eq c p1 q1))) v2 (Some ((I256_MAX c), (i_new c 0))));
  (* src/int.rs:380-383 *)
  fun c => let! v1 := i_op_add c (I256_MIN c) (i_new c 1) in let! v2 := i_checked_div_rem_euclid c v1 (i_new c (- 1)) in Ret (opt_eqb (fun p q => (let '(p0, p1) := p in let '(q0, q1) := q in (i_eq c p0 q0) && (i_eq c p1 q1))) v2 (Some ((I256_MAX c), (i_new c 0))));
  (* src/int.rs:410-413 *)
  fun c => let! v2 := i_saturating_div_rem c (I256_MAX c) (i_new c (- 1)) in let! v3 := i_op_add c (I256_MIN c) (i_new c 1) in Ret (let '(p0, p1) := v2 in let '(q0, q1) := (v3, (i_new c 0)) in (i_eq c p0 q0) && (i_eq c p1 q1));
  (* src/int.rs:438-441 *)
  fun c => let! v2 := i_saturating_div_rem_euclid c (I256_MAX c) (i_new c (- 1)) in let! v3 := i_op_add c (I256_MIN c) (i_new c 1) in Ret (let '(p0, p1) := v2 in let '(q0, q1) := (v3, (i_new c 0)) in (i_eq c p0 q0) && (i_eq c p1 q1));
  (* src/int.rs:469-475 *)
  fun c => let! v2 := i_wrapping_div_rem c (i_new c (- 22)) (i_new c 5) in Ret (let '(p0, p1) := v2 in let '(q0, q1) := ((i_new c (- 4)), (i_new c (- 2))) in (i_eq c p0 q0) && (i_eq c p1 q1));
  (* src/int.rs:469-475 *)
  fun c => let! v4 := i_wrapping_div_rem c (i_new c (- 22)) (i_new c (- 5)) in Ret (let '(p0, p1) := v4 in let '(q0, q1) := ((i_new c 4), (i_new c (- 2))) in (i_eq c p0 q0) && (i_eq c p1 q1));
  (* src/int.rs:469-475 *)
  fun c => let! v5 := i_wrapping_div_rem c (I256_MIN c) (I256_MINUS_ONE c) in Ret (let '(p0, p1) := v5 in let '(q0, q1) := ((I256_MIN c), I256_ZERO) in (i_eq c p0 q0) && (i_eq c p1 q1));
  (* src/int.rs:513-523 *)
  fun c => let! v5 := i_wrapping_div_rem c (I256_MIN c) (I256_MINUS_ONE c) in Ret (let '(p0, p1) := v5 in let '(q0, q1) := ((I256_MIN c), I256_ZERO) in (i_eq c p0 q0) && (i_eq c p1 q1));
  (* src/int/api.rs:252-264 *)
  fun c => let! v1 := Ret (i_from_words c 5233100606242806050955395731361295 21356283574076891493948969979685445151) in Ret (i_eq c (i_swap_bytes v1) (i_from_words c 41362427191743139026751447860679676176 20011376718272490338853433276725592320));
  (* src/int/api.rs:281-293 *)
  fun c => let! v1 := Ret (i_from_words c 5233100606242806050955395731361295 21356283574076891493948969979685445151) in Ret (i_eq c (i_reverse_bits v1) (i_from_words c (t_cast c (TI 128) 330275355044783354354439418316247828488) (t_cast c (TI 128) 319599829808048030010490411024270786560)));
  (* src/int/api.rs:431-433 *)
  fun c => let! v1 := i_op_sub c (I256_MAX c) (i_new c 2) in let! v2 := i_op_sub c (I256_MAX c) (i_new c 1) in Ret (opt_eqb (fun p q => (i_eq c p q)) (i_checked_add c v1 (i_new c 1)) (Some v2));
  (* src/int/api.rs:431-433 *)
  fun c => let! v3 := i_op_sub c (I256_MAX c) (i_new c 2) in Ret (is_none (i_checked_add c v3 (i_new c 3)));
  (* src/int/api.rs:455-457 *)
  fun c => let! v1 := i_op_sub c (I256_MAX c) (i_new c 2) in Ret (is_none (i_checked_add_unsigned c v1 (u_new c 3)));
  (* src/int/api.rs:479-481 *)
  fun c => let! v1 := i_op_add c (I256_MIN c) (i_new c 2) in let! v2 := i_op_add c (I256_MIN c) (i_new c 1) in Ret (opt_eqb (fun p q => (i_eq c p q)) (i_checked_sub c v1 (i_new c 1)) (Some v2));
  (* src/int/api.rs:479-481 *)
  fun c => let! v3 := i_op_add c (I256_MIN c) (i_new c 2) in Ret (is_none (i_checked_sub c v3 (i_new c 3)));
  (* src/int/api.rs:503-505 *)
  fun c => let! v1 := i_op_add c (I256_MIN c) (i_new c 2) in Ret (is_none (i_checked_sub_unsigned c v1 (u_new c 3)));
  (* src/int/api.rs:527-529 *)
  fun c => let! v1 := i_checked_mul c (I256_MAX c) (i_new c 1) in Ret (opt_eqb (fun p q => (i_eq c p q)) v1 (Some (I256_MAX c)));
  (* src/int/api.rs:527-529 *)
  fun c => let! v2 := i_checked_mul c (I256_MAX c) (i_new c 2) in Ret (is_none v2);
  (* src/int/api.rs:551-554 *)
  fun c => let! v1 := i_op_add c (I256_MIN c) (i_new c 1) in let! v2 := i_checked_div c v1 (i_new c (- 1)) in Ret (opt_eqb (fun p q => (i_eq c p q)) v2 (Some (I256_MAX c)));
  (* src/int/api.rs:577-580 *)
  fun c => let! v1 := i_op_add c (I256_MIN c) (i_new c 1) in let! v2 := i_checked_div_euclid c v1 (i_new c (- 1)) in Ret (opt_eqb (fun p q => (i_eq c p q)) v2 (Some (I256_MAX c)));
  (* src/int/api.rs:741-743 *)
  fun c => let! v1 := i_checked_pow c (i_new c 8) 2 in Ret (opt_eqb (fun p q => (i_eq c p q)) v1 (Some (i_new c 64)));
  (* src/int/api.rs:741-743 *)
  fun c => let! v2 := i_checked_pow c (I256_MAX c) 2 in Ret (is_none v2);
  (* src/int/api.rs:829-832 *)
  fun c => Ret (i_eq c (i_saturating_sub c (I256_MAX c) (i_new c (- 1))) (I256_MAX c));
  (* src/int/api.rs:881-885 *)
  fun c => let! v1 := i_op_add c (I256_MIN c) (i_new c 1) in Ret (i_eq c (i_saturating_neg c (I256_MAX c)) v1);
  (* src/int/api.rs:900-904 *)
  fun c => let! v1 := i_op_add c (I256_MIN c) (i_new c 1) in Ret (i_eq c (i_saturating_abs c v1) (I256_MAX c));
  (* src/int/api.rs:923-926 *)
  fun c => let! v1 := i_saturating_mul c (i_new c 10) (i_new c 12) in Ret (i_eq_prim c v1 120);
  (* src/int/api.rs:923-926 *)
  fun c => let! v2 := i_saturating_mul c (I256_MAX c) (i_new c 10) in Ret (i_eq c v2 (I256_MAX c));
  (* src/int/api.rs:952-955 *)
  fun c => let! v2 := i_saturating_div c (I256_MAX c) (i_new c (- 1)) in let! v3 := i_op_add c (I256_MIN c) (i_new c 1) in Ret (i_eq c v2 v3);
  (* src/int/api.rs:980-983 *)
  fun c => let! v1 := i_saturating_pow c (i_new c (- 4)) 3 in Ret (i_eq_prim c v1 (- 64));
  (* src/int/api.rs:1004-1006 *)
  fun c => let! v1 := i_op_add c (I256_MIN c) (i_new c 1) in Ret (i_eq c (i_wrapping_add c (I256_MAX c) (i_new c 2)) v1);
  (* src/int/api.rs:1025-1027 *)
  fun c => let! v1 := i_op_add c (I256_MIN c) (i_new c 1) in Ret (i_eq c (i_wrapping_add_unsigned c (I256_MAX c) (u_new c 2)) v1);
  (* src/int/api.rs:1044-1046 *)
  fun c => Ret (i_eq c (i_wrapping_sub c (i_new c (- 2)) (I256_MAX c)) (I256_MAX c));
  (* src/int/api.rs:1065-1067 *)
  fun c => Ret (i_eq_prim c (i_wrapping_sub_unsigned c (i_new c (- 2)) U256_MAX) (- 1));
  (* src/int/api.rs:1084-1086 *)
  fun c => let! v2 := i_wrapping_mul c (I256_MAX c) (i_new c 2) in Ret (i_eq_prim c v2 (- 2));
  (* src/int/api.rs:1276-1278 *)
  fun c => let! v1 := i_wrapping_shr c (i_new c (- 128)) 7 in Ret (i_eq_prim c v1 (- 1));
  (* src/int/api.rs:1422-1425 *)
  fun c => Ret (let '(p0, p1) := (i_overflowing_add_unsigned c (I256_MIN c) U256_MAX) in let '(q0, q1) := ((I256_MAX c), false) in (i_eq c p0 q0) && (Bool.eqb p1 q1));
  (* src/int/api.rs:1422-1425 *)
  fun c => let! v1 := i_op_sub c (I256_MAX c) (i_new c 2) in Ret (let '(p0, p1) := (i_overflowing_add_unsigned c v1 (u_new c 3)) in let '(q0, q1) := ((I256_MIN c), true) in (i_eq c p0 q0) && (Bool.eqb p1 q1));
  (* src/int/api.rs:1471-1474 *)
  fun c => Ret (let '(p0, p1) := (i_overflowing_sub_unsigned c (I256_MAX c) U256_MAX) in let '(q0, q1) := ((I256_MIN c), false) in (i_eq c p0 q0) && (Bool.eqb p1 q1));
  (* src/int/api.rs:1471-1474 *)
  fun c => let! v1 := i_op_add c (I256_MIN c) (i_new c 2) in Ret (let '(p0, p1) := (i_overflowing_sub_unsigned c v1 (u_new c 3)) in let '(q0, q1) := ((I256_MAX c), true) in (i_eq c p0 q0) && (Bool.eqb p1 q1));
  (* src/int/api.rs:1538-1540 *)
  fun c => let! v1 := i_overflowing_mul c (i_new c 5) (i_new c 2) in Ret (let '(p0, p1) := v1 in let '(q0, q1) := ((i_new c 10), false) in (i_eq c p0 q0) && (Bool.eqb p1 q1));
  (* src/int/api.rs:1538-1540 *)
  fun c => let! v2 := i_overflowing_mul c (I256_MAX c) (i_new c 2) in Ret (let '(p0, p1) := v2 in let '(q0, q1) := ((i_new c (- 2)), true) in (i_eq c p0 q0) && (Bool.eqb p1 q1));
  (* src/int/api.rs:1776-1787 *)
  fun c => let! v1 := i_overflowing_pow c (i_new c 3) 4 in Ret (let '(p0, p1) := v1 in let '(q0, q1) := ((i_new c 81), false) in (i_eq c p0 q0) && (Bool.eqb p1 q1));
  (* src/int/api.rs:1830-1832 *)
  fun c => let! v1 := i_pow c (i_new c 2) 5 in Ret (i_eq_prim c v1 32);
  (* src/int/api.rs:1879-1886 *)
  fun c => let! v1 := Ret (i_new c 7) in let! v2 := Ret (i_new c 4) in let! v4 := i_op_neg c v2 in let! v5 := i_div_euclid c v1 v4 in Ret (i_eq_prim c v5 (- 1));
  (* src/int/api.rs:1879-1886 *)
  fun c => let! v1 := Ret (i_new c 7) in let! v2 := Ret (i_new c 4) in let! v6 := i_op_neg c v1 in let! v7 := i_div_euclid c v6 v2 in Ret (i_eq_prim c v7 (- 2));
  (* src/int/api.rs:1879-1886 *)
  fun c => let! v1 := Ret (i_new c 7) in let! v2 := Ret (i_new c 4) in let! v8 := i_op_neg c v1 in let! v9 := i_op_neg c v2 in let! v10 := i_div_euclid c v8 v9 in Ret (i_eq_prim c v10 2);
  (* src/int/api.rs:1915-1922 *)
  fun c => let! v1 := Ret (i_new c 7) in let! v2 := Ret (i_new c 4) in let! v4 := i_op_neg c v1 in let! v5 := i_rem_euclid c v4 v2 in Ret (i_eq_prim c v5 1);
  (* src/int/api.rs:1915-1922 *)
  fun c => let! v1 := Ret (i_new c 7) in let! v2 := Ret (i_new c 4) in let! v6 := i_op_neg c v2 in let! v7 := i_rem_euclid c v1 v6 in Ret (i_eq_prim c v7 3);
  (* src/int/api.rs:1915-1922 *)
  fun c => let! v1 := Ret (i_new c 7) in let! v2 := Ret (i_new c 4) in let! v8 := i_op_neg c v1 in let! v9 := i_op_neg c v2 in let! v10 := i_rem_euclid c v8 v9 in Ret (i_eq_prim c v10 1);
  (* src/int/api.rs:2057-2068 *)
  fun c => let! v1 := Ret (i_from_words c 5233100606242806050955395731361295 21356283574076891493948969979685445151) in Ret (bytes_eqb (i_to_be_bytes c v1) [0; 1; 2; 3; 4; 5; 6; 7; 8; 9; 10; 11; 12; 13; 14; 15; 16; 17; 18; 19; 20; 21; 22; 23; 24; 25; 26; 27; 28; 29; 30; 31]);
  (* src/int/api.rs:2081-2092 *)
  fun c => let! v1 := Ret (i_from_words c 5233100606242806050955395731361295 21356283574076891493948969979685445151) in Ret (bytes_eqb (i_to_le_bytes c v1) [31; 30; 29; 28; 27; 26; 25; 24; 23; 22; 21; 20; 19; 18; 17; 16; 15; 14; 13; 12; 11; 10; 9; 8; 7; 6; 5; 4; 3; 2; 1; 0]);
  (* src/int/api.rs:2112-2130 *)
  fun c => let! v1 := Ret (i_from_words c 5233100606242806050955395731361295 21356283574076891493948969979685445151) in Ret (bytes_eqb (i_to_ne_bytes c v1) (if (big_endian c) then [0; 1; 2; 3; 4; 5; 6; 7; 8; 9; 10; 11; 12; 13; 14; 15; 16; 17; 18; 19; 20; 21; 22; 23; 24; 25; 26; 27; 28; 29; 30; 31] else [31; 30; 29; 28; 27; 26; 25; 24; 23; 22; 21; 20; 19; 18; 17; 16; 15; 14; 13; 12; 11; 10; 9; 8; 7; 6; 5; 4; 3; 2; 1; 0]));
  (* src/int/api.rs:2145-2156 *)
  fun c => let! v1 := Ret (i_from_be_bytes c [0; 1; 2; 3; 4; 5; 6; 7; 8; 9; 10; 11; 12; 13; 14; 15; 16; 17; 18; 19; 20; 21; 22; 23; 24; 25; 26; 27; 28; 29; 30; 31]) in Ret (i_eq c v1 (i_from_words c 5233100606242806050955395731361295 21356283574076891493948969979685445151));
  (* src/int/convert.rs:46-65 *)
  fun c => let! v2 := float_as_i256 F64 c 4623716258932001341 in let! v3 := i_op_neg c v2 in Ret (i_eq_prim c v3 (- 13));
  (* src/int/convert.rs:46-65 *)
  fun c => let! v5 := float_as_i256 F32 c 2139095039 in Ret (i_eq c v5 (prim_as_i256 c 340282346638528859811704183484516925440));
  (* src/int/convert.rs:46-65 *)
  fun c => let! v6 := float_as_i256 F32 c 4286578687 in let! v7 := i_op_neg c (prim_as_i256 c 340282346638528859811704183484516925440) in Ret (i_eq c v6 v7);
  (* src/uint/api.rs:152-154 *)
  fun c => let! v1 := u_shr_amt c U256_MAX (Amt_u32 2) in let! v2 := Ret (u_op_not v1) in let! v3 := u_leading_ones c v2 in Ret (v3 =? 2);
  (* src/uint/api.rs:241-252 *)
  fun c => let! v1 := Ret (u_from_words c 5233100606242806050955395731361295 21356283574076891493948969979685445151) in Ret (u_eq c (u_swap_bytes v1) (u_from_words c 41362427191743139026751447860679676176 20011376718272490338853433276725592320));
  (* src/uint/api.rs:267-278 *)
  fun c => let! v1 := Ret (u_from_words c 5233100606242806050955395731361295 21356283574076891493948969979685445151) in Ret (u_eq c (u_reverse_bits v1) (u_from_words c 330275355044783354354439418316247828488 319599829808048030010490411024270786560));
  (* src/uint/api.rs:412-414 *)
  fun c => let! v1 := u_op_sub c U256_MAX (u_new c 2) in let! v2 := u_op_sub c U256_MAX (u_new c 1) in Ret (opt_eqb (fun p q => (u_eq c p q)) (u_checked_add c v1 (u_new c 1)) (Some v2));
  (* src/uint/api.rs:907-909 *)
  fun c => let! v2 := u_wrapping_mul c U256_MAX (u_new c 2) in let! v3 := u_op_sub c U256_MAX (u_new c 1) in Ret (u_eq c v2 v3);
  (* src/uint/api.rs:1102-1110 *)
  fun c => let! v2 := u_wrapping_pow c (u_new c 1337) 42 in Ret (u_eq c v2 (u_from_words c 45367329835866155830012179193722278514 159264946433345088039815329994094210673));
  (* src/uint/api.rs:1245-1250 *)
  fun c => let! v2 := u_overflowing_mul c U256_MAX (u_new c 2) in let! v3 := u_op_sub c U256_MAX (u_new c 1) in Ret (let '(p0, p1) := v2 in let '(q0, q1) := (v3, true) in (u_eq c p0 q0) && (Bool.eqb p1 q1));
  (* src/uint/api.rs:1447-1458 *)
  fun c => let! v2 := u_overflowing_pow c (u_new c 1337) 42 in Ret (let '(p0, p1) := v2 in let '(q0, q1) := ((u_from_words c 45367329835866155830012179193722278514 159264946433345088039815329994094210673), true) in (u_eq c p0 q0) && (Bool.eqb p1 q1));
  (* src/uint/api.rs:1659-1670 *)
  fun c => let! v1 := Ret (u_from_words c 5233100606242806050955395731361295 21356283574076891493948969979685445151) in Ret (bytes_eqb (u_to_be_bytes c v1) [0; 1; 2; 3; 4; 5; 6; 7; 8; 9; 10; 11; 12; 13; 14; 15; 16; 17; 18; 19; 20; 21; 22; 23; 24; 25; 26; 27; 28; 29; 30; 31]);
  (* src/uint/api.rs:1744-1755 *)
  fun c => let! v1 := Ret (u_from_be_bytes c [0; 1; 2; 3; 4; 5; 6; 7; 8; 9; 10; 11; 12; 13; 14; 15; 16; 17; 18; 19; 20; 21; 22; 23; 24; 25; 26; 27; 28; 29; 30; 31]) in Ret (u_eq c v1 (u_from_words c 5233100606242806050955395731361295 21356283574076891493948969979685445151));
  (* src/int/iter.rs:4-6 *)
  fun c => let! v1 := i_product c [i_new c 6; i_new c 7] in Ret (i_eq_prim c v1 42);
  (* src/int/fmt.rs:from_str, 14-17 *)
  fun c => let! v1 := i_from_str c (text "42") in let! v2 := unwrap_ok v1 in Ret (i_eq_prim c v2 42);
  (* src/int/fmt.rs:debug, 19-33 *)
  fun c => let! v2 := to_string (i_fmt_debug c (mkOpts false false false false true false 32 None None) (I256_MIN c)) in Ret (bytes_eqb v2 (text "8000000000000000000000000000000000000000000000000000000000000000"));
  (* src/int/fmt.rs:display, 35-48 *)
  fun c => let! v2 := to_string (i_fmt_display c plain_opts (i_from_words c 0 (- 1329227995784915854529085396220968961))) in Ret (bytes_eqb v2 (text "338953138925153547608845522035547242495"));
  (* src/int/parse.rs:from_str, 45-48 *)
  fun c => let! v1 := i_from_str c (text "42") in let! v2 := unwrap_ok v1 in Ret (i_eq_prim c v2 42);
  (* src/int/parse.rs:from_str_prefixed, 50-54 *)
  fun c => let! v1 := from_str_radix (i_helper c) (text "0b101") 2 (Some (text "0b")) in let! v2 := unwrap_ok v1 in Ret (i_eq_prim c v2 5);
  (* src/int/parse.rs:const_parse, 94-126 *)
  fun c => let! v6 := i_const_from_str_prefixed c (text "-0x8000_0000_0000_0000_0000_0000_0000_00000000_0000_0000_0000_0000_0000_0000_0000") in Ret (i_eq c v6 (I256_MIN c));
  (* src/intrinsics/native/divmod.rs:division, 498-555 *)
  fun c => let! v4 := udiv3 c (u_from_words c 100 0) (u_from_words c 10 0) in Ret (u_eq_prim c v4 10);
  (* src/intrinsics/native/divmod.rs:division, 498-555 *)
  fun c => let! v5 := u_shl_amt c (U256_ONE c) (Amt_u32 130) in let! v6 := udiv3 c (u_from_words c 100 1337) v5 in Ret (u_eq_prim c v6 25);
  (* src/intrinsics/native/divmod.rs:division, 498-555 *)
  fun c => let! v7 := udiv3 c (u_from_words c 1337 (u_not 128 0)) (u_from_words c 63 0) in Ret (u_eq_prim c v7 21);
  (* src/intrinsics/native/divmod.rs:division, 498-555 *)
  fun c => let! v9 := u_shl_amt c (U256_ONE c) (Amt_prim 42) in let! v10 := udiv3 c (u_from_words c 42 42) v9 in let! v11 := u_shl c 128 42 (128 - 42) in Ret (u_eq_prim c v10 v11);
  (* src/intrinsics/native/divmod.rs:division, 498-555 *)
  fun c => let! v12 := udiv3 c (u_from_words c 1337 (u_not 128 0)) (prim_as_u256 c 12648430) in Ret (u_eq_prim c v12 35996389033280467545299711090127855);
  (* src/intrinsics/native/divmod.rs:division, 498-555 *)
  fun c => let! v13 := udiv3 c (u_from_words c 42 0) (prim_as_u256 c 99) in Ret (u_eq_prim c v13 144362216269489045105674075880144089708);
  (* src/intrinsics/native/divmod.rs:division, 498-555 *)
  fun c => let! v15 := udiv3 c (u_from_words c 1337 (u_not 128 0)) (u_from_words c 43 (u_not 128 0)) in Ret (u_eq_prim c v15 30);
  (* src/intrinsics/native/divmod.rs:remainder, 563-608 *)
  fun c => let! v4 := urem3 c (u_from_words c 100 0) (u_from_words c 10 0) in Ret (u_eq_prim c v4 0);
  (* src/intrinsics/native/divmod.rs:remainder, 563-608 *)
  fun c => let! v5 := u_shl_amt c (U256_ONE c) (Amt_u32 130) in let! v6 := urem3 c (u_from_words c 100 1337) v5 in Ret (u_eq_prim c v6 1337);
  (* src/intrinsics/native/divmod.rs:remainder, 563-608 *)
  fun c => let! v7 := urem3 c (u_from_words c 1337 (u_not 128 0)) (u_from_words c 63 0) in Ret (u_eq c v7 (u_from_words c 14 (u_not 128 0)));
  (* src/intrinsics/native/divmod.rs:remainder, 563-608 *)
  fun c => let! v9 := u_shl_amt c (U256_ONE c) (Amt_prim 42) in let! v10 := urem3 c (u_from_words c 42 42) v9 in Ret (u_eq_prim c v10 42);
  (* src/intrinsics/native/divmod.rs:remainder, 563-608 *)
  fun c => let! v11 := urem3 c (u_from_words c 1337 (u_not 128 0)) (prim_as_u256 c 12648430) in Ret (u_eq_prim c v11 1910477);
  (* src/intrinsics/native/divmod.rs:remainder, 563-608 *)
  fun c => let! v12 := urem3 c (u_from_words c 42 0) (prim_as_u256 c 99) in Ret (u_eq_prim c v12 60);
  (* src/intrinsics/native/divmod.rs:remainder, 563-608 *)
  fun c => let! v14 := urem3 c (u_from_words c 1337 (u_not 128 0)) (u_from_words c 43 (u_not 128 0)) in Ret (u_eq c v14 (u_from_words c 18 29));
  (* src/intrinsics/native/mul.rs:multiplication, 104-118 *)
  fun c => let! v6 := n_umulc c U256_MAX (prim_as_u256 c 5) in Ret (let '(p0, p1) := v6 in let '(q0, q1) := ((u_op_xor U256_MAX (u_new c 4)), true) in (u_eq c p0 q0) && (Bool.eqb p1 q1));
  (* src/intrinsics/native/mul.rs:multiplication, 104-118 *)
  fun c => let! v7 := n_umulc c (prim_as_u256 c (t_max c (TU 128))) (prim_as_u256 c (t_max c (TU 128))) in let! v8 := u_shl c 128 (u_not 128 0) 1 in Ret (let '(p0, p1) := v7 in let '(q0, q1) := ((u_from_words c v8 1), false) in (u_eq c p0 q0) && (Bool.eqb p1 q1));
  (* src/uint/parse.rs:const_parse, 66-98 *)
  fun c => let! v6 := u_const_from_str_prefixed c (text "0x0000_0000_0000_0000_0000_0000_0000_00000000_0000_0000_0000_0000_0000_0000_0000") in Ret (u_eq c v6 U256_MIN);
  (* src/int.rs:633-637 *)
  fun c => let! v1 := i_op_neg c (i_from_words c 1 0) in Ret (match i_as_f64 c v1 with Fin z => z =? - 2 ^ 128 | Inf _ => false end);
  (* src/serde.rs:serialize_integers, 756 *)
  fun c => let! e := i_emit c Plain (I256_MIN c) in Ret (emitted_eqb e (Em_str (text "-0x8000000000000000000000000000000000000000000000000000000000000000")));
  (* src/serde.rs:serialize_integers, 790 *)
  fun c => let! e := u_emit c (Bytes (Some LE)) U256_MAX in Ret (emitted_eqb e (Em_bytes (repeat 255 32%nat)));
  (* src/serde.rs:serialize_integers, 797 *)
  fun c => let! e := i_emit c (Bytes (Some LE)) (i_new c (- 1)) in Ret (emitted_eqb e (Em_bytes (repeat 255 32%nat)));
  (* src/serde.rs:serialize_integers, 801 *)
  fun c => let! e := i_emit c (Bytes (Some LE)) (i_new c (- 424242)) in Ret (emitted_eqb e (Em_bytes ([206; 134; 249] ++ repeat 255 29%nat)));
  (* src/serde.rs:serialize_integers, 808 *)
  fun c => let! e := u_emit c (Bytes (Some BE)) U256_MAX in Ret (emitted_eqb e (Em_bytes (repeat 255 32%nat)));
  (* src/serde.rs:serialize_integers, 815 *)
  fun c => let! e := i_emit c (Bytes (Some BE)) (i_new c (- 1)) in Ret (emitted_eqb e (Em_bytes (repeat 255 32%nat)));
  (* src/serde.rs:serialize_integers, 819 *)
  fun c => let! e := i_emit c (Bytes (Some BE)) (i_new c (- 424242)) in Ret (emitted_eqb e (Em_bytes (repeat 255 29%nat ++ [249; 134; 206])));
  (* src/serde.rs:serialize_integers, 829 *)
  fun c => let! e := u_emit c (Compressed (Some LE)) U256_MAX in Ret (emitted_eqb e (Em_bytes (repeat 255 32%nat)));
  (* src/serde.rs:serialize_integers, 864 *)
  fun c => let! e := u_emit c (Compressed (Some BE)) U256_MAX in Ret (emitted_eqb e (Em_bytes (repeat 255 32%nat)));
  (* src/serde.rs:serialize_integers, 882 *)
  fun c => let! e := i_emit c (Compressed (Some BE)) (i_new c (- 1)) in Ret (emitted_eqb e (Em_bytes [255]));
  (* src/serde.rs:serialize_integers, 886 *)
  fun c => let! e := i_emit c (Compressed (Some BE)) (i_new c (- 32768)) in Ret (emitted_eqb e (Em_bytes [128; 0]));
  (* src/serde.rs:serialize_integers, 890 *)
  fun c => let! e := i_emit c (Compressed (Some BE)) (i_new c (- 424242)) in Ret (emitted_eqb e (Em_bytes [249; 134; 206]));
  (* src/serde.rs:deserialize_integers, 936 *)
  fun c => let! r := visit (i_visitor c Plain) (In_str Transient (text "-0x1337")) in Ret (accepts (i_eq c) r (i_new c (- 4919)));
  (* src/serde.rs:deserialize_integers, 938 *)
  fun c => let! r := visit (i_visitor c Plain) (In_str Transient (text "0x2a")) in Ret (accepts (i_eq c) r (i_new c 42));
  (* src/serde.rs:deserialize_integers, 939 *)
  fun c => let! r := visit (i_visitor c Plain) (In_str Transient (text "0x2A")) in Ret (accepts (i_eq c) r (i_new c 42));
  (* src/serde.rs:deserialize_integers, 961 *)
  fun c => let! r := visit (i_visitor c Decimal) (In_str Transient (text "42")) in Ret (accepts (i_eq c) r (i_new c 42));
  (* src/serde.rs:deserialize_integers, 975 *)
  fun c => let! r := visit (i_visitor c Prefixed) (In_str Transient (text "42")) in Ret (accepts (i_eq c) r (i_new c 42));
  (* src/serde.rs:deserialize_integers, 976 *)
  fun c => let! r := visit (i_visitor c Prefixed) (In_str Transient (text "0x2a")) in Ret (accepts (i_eq c) r (i_new c 42));
  (* src/serde.rs:deserialize_integers, 977 *)
  fun c => let! r := visit (i_visitor c Prefixed) (In_str Transient (text "0x2A")) in Ret (accepts (i_eq c) r (i_new c 42));
  (* src/serde.rs:deserialize_integers, 1008 *)
  fun c => let! r := visit (i_visitor c Permissive) (In_str Transient (text "1000")) in Ret (accepts (i_eq c) r (i_new c 1000));
  (* src/serde.rs:deserialize_integers, 1012 *)
  fun c => let! r := visit (i_visitor c Permissive) (In_str Transient (text "0x42")) in Ret (accepts (i_eq c) r (i_new c 66));
  (* src/serde.rs:deserialize_integers, 1016 *)
  fun c => let! r := visit (i_visitor c Permissive) (In_str Transient (text "-0x2a")) in Ret (accepts (i_eq c) r (i_new c (- 42)));
  (* src/serde.rs:deserialize_integers, 1083 *)
  fun c => let! r := visit (u_visitor c Permissive) (In_str Transient (text "0x10000000000000000000000000000000000000000000000000000000000000000")) in Ret (rejects r);
  (* src/serde.rs:deserialize_integers, 1140 *)
  fun c => let! r := visit (u_visitor c (Bytes (Some BE))) (In_bytes Transient (repeat 255 32%nat)) in Ret (accepts (u_eq c) r U256_MAX);
  (* src/serde.rs:deserialize_integers, 1140 *)
  fun c => let! r := visit (u_visitor c (Bytes (Some BE))) (In_seq (byte_seq (repeat 255 32%nat))) in Ret (accepts (u_eq c) r U256_MAX);
  (* src/serde.rs:deserialize_integers, 1149 *)
  fun c => let! r := visit (i_visitor c (Bytes (Some BE))) (In_bytes Transient (repeat 255 32%nat)) in Ret (accepts (i_eq c) r (i_new c (- 1)));
  (* src/serde.rs:deserialize_integers, 1149 *)
  fun c => let! r := visit (i_visitor c (Bytes (Some BE))) (In_seq (byte_seq (repeat 255 32%nat))) in Ret (accepts (i_eq c) r (i_new c (- 1)));
  (* src/serde.rs:deserialize_integers, 1224 *)
  fun c => let! r := visit (u_visitor c (Compressed (Some BE))) (In_bytes Transient (repeat 255 32%nat)) in Ret (accepts (u_eq c) r U256_MAX);
  (* src/serde.rs:deserialize_integers, 1224 *)
  fun c => let! r := visit (u_visitor c (Compressed (Some BE))) (In_seq (byte_seq (repeat 255 32%nat))) in Ret (accepts (u_eq c) r U256_MAX);
  (* src/serde.rs:deserialize_integers, 1241 *)
  fun c => let! r := visit (i_visitor c (Compressed (Some BE))) (In_bytes Transient [254]) in Ret (accepts (i_eq c) r (i_new c (- 2)));
  (* src/serde.rs:deserialize_integers, 1241 *)
  fun c => let! r := visit (i_visitor c (Compressed (Some BE))) (In_seq (byte_seq [254])) in Ret (accepts (i_eq c) r (i_new c (- 2)))
].

(** ** All of them *)

(** src/lib.rs:40-120 and the other files *)
Definition doc_examples : list example :=
  docs_int ++ docs_lib ++ docs_uint ++ docs_int_api ++ docs_int_cmp ++ docs_int_convert ++ docs_int_ops ++ docs_uint_api ++ docs_uint_cmp ++ docs_uint_convert ++ docs_uint_ops ++ docs_int_iter.
(** the test modules, src/uint/cmp.rs:33-52 and the others *)
Definition unit_tests : list example :=
  tests_int_cmp ++ tests_int_convert ++ tests_int_parse ++ tests_intrinsics_native_divmod ++ tests_intrinsics_native_mul ++ tests_uint_cmp ++ tests_uint_parse ++ tests_uint ++ tests_intrinsics ++ tests_serde.
(** the same, what goes through usize; src/uint/fmt.rs:30-43 and the others *)
Definition sized_tests : list example :=
  tests_int_fmt_sized ++ tests_uint_fmt_sized ++ tests_serde_sized.

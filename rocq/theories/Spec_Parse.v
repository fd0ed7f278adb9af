(** * Vocabulary for numerals

    Digits, positional values, signs and prefixes of number texts, given as lists
    of bytes.  Only the error type is taken from the model. *)

From Coq Require Import ZArith List Bool.
From Verif Require Import M_Parse.
Import ListNotations.
Open Scope Z_scope.

(** the byte [ch] is a digit of radix [r] with value [d]: 0..9 from '0', then letters of either case *)
Definition digit (r ch d : Z) : Prop :=
  d < r /\
  ((0 <= d < 10 /\ ch = 48 + d) \/
   (10 <= d < 36 /\ (ch = 97 + (d - 10) \/ ch = 65 + (d - 10)))).

(** the text [s] consists of digits with the values [ds] *)
Definition numeral (r : Z) (s ds : list Z) : Prop := Forall2 (digit r) s ds.

(** the number with the digits [ds], most significant first *)
Fixpoint value (r : Z) (ds : list Z) : Z :=
  match ds with
  | [] => 0
  | d :: t => d * r ^ Z.of_nat (length t) + value r t
  end.

(** whether a text starts with a minus sign, and what follows the sign.  '+' (43) is
    always a sign, '-' (45) only for signed types. *)
Definition sign (signed : bool) (s : list Z) : bool * list Z :=
  match s with
  | b :: t => if b =? 43 then (false, t) else if (b =? 45) && signed then (true, t) else (false, s)
  | [] => (false, s)
  end.
Definition signed_by (neg : bool) (v : Z) : Z := if neg then - v else v.

(** The outcome [o] of reading the text [s]: an optional sign, the prefix [pre], then
    digits of radix [r], for a type with the range [lo, hi].  The error is decided by
    the first place where reading fails. *)
Definition reads (signed : bool) (lo hi r : Z) (pre s : list Z) (o : result Z) : Prop :=
  let '(neg, body) := sign signed s in
  let v ds := signed_by neg (value r ds) in
  match o with
  | Ok x => exists digits ds, body = pre ++ digits /\ digits <> [] /\ numeral r digits ds /\
              x = v ds /\ lo <= x <= hi
  | Err Empty => s = []
  | Err InvalidDigit =>
      s <> [] /\
      ((~ exists digits, body = pre ++ digits /\ digits <> []) \/
       exists p ch q ds, body = pre ++ p ++ ch :: q /\ numeral r p ds /\ lo <= v ds <= hi /\
                         forall d, ~ digit r ch d)
  | Err PosOverflow =>
      neg = false /\ exists p ch q ds d, body = pre ++ p ++ ch :: q /\ numeral r p ds /\ lo <= v ds <= hi /\
                                         digit r ch d /\ hi < v (ds ++ [d])
  | Err NegOverflow =>
      neg = true /\ exists p ch q ds d, body = pre ++ p ++ ch :: q /\ numeral r p ds /\ lo <= v ds <= hi /\
                                         digit r ch d /\ v (ds ++ [d]) < lo
  end.

Definition result_map {A B} (f : A -> B) (o : result A) : result B :=
  match o with Ok a => Ok (f a) | Err e => Err e end.
Definition result_ok {A} (P : A -> Prop) (o : result A) : Prop :=
  match o with Ok a => P a | Err _ => True end.

(** The prefixes and their radices; the last one stands for no prefix. *)
Definition radix_prefixes : list (list Z * Z) := [([48; 98], 2); ([48; 111], 8); ([48; 120], 16); ([], 10)].

(** Literals of uint! and int!: underscores and white space may stand anywhere after
    the prefix. *)
Definition blank (ch : Z) : bool :=
  existsb (Z.eqb ch) [95; 32; 9; 10; 12; 13].
Definition literal (signed : bool) (pre : list Z) (r : Z) (s : list Z) (v : Z) : Prop :=
  exists text ds, snd (sign signed s) = pre ++ text /\ text <> [] /\
    numeral r (filter (fun ch => negb (blank ch)) text) ds /\
    v = signed_by (fst (sign signed s)) (value r ds).

(** The low 128 bits of [a * r] as the const parser adds them up, from the products of the
    two 64-bit halves of the low word of [a].  A sum of 2^128 or more should carry into the high word. *)
Definition low_sum (r a : Z) : Z := (a mod 2 ^ 64) * r + ((a / 2 ^ 64 mod 2 ^ 64) * r) mod 2 ^ 64 * 2 ^ 64.

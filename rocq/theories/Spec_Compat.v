(** * Vocabulary for the compatibility of text formats *)

From Coq Require Import ZArith List.
From Verif Require Import M_Prim M_Words M_Parse Spec.
Open Scope Z_scope.

(** The results of reading the text [s] as U256 and as I256 agree: numbers read by both are equal,
    a number that fits is read by both, except that only I256 reads a text with a minus sign (45). *)
Definition both (c : cfg) (ru : result u256) (ri : result i256) (s : list Z) : Prop :=
  (forall x y, ru = Ok x -> ri = Ok y -> uval c x = ival c y) /\
  (forall x, ru = Ok x -> uval c x <= MAXI -> exists y, ri = Ok y) /\
  (forall y, ri = Ok y -> hd 0 s <> 45 -> exists x, ru = Ok x).

(** the lexicographic order of byte strings *)
Fixpoint lex_lt (l l' : list Z) : Prop :=
  match l, l' with
  | nil, cons _ _ => True
  | cons a t, cons b t' => a < b \/ a = b /\ lex_lt t t'
  | _, nil => False
  end.
(** a byte string with the top bit of its first byte flipped *)
Definition flip_top (l : list Z) : list Z :=
  match l with nil => nil | cons b t => cons ((b + 128) mod 256) t end.

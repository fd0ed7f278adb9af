(** * Vocabulary: operations on lists of bytes *)

From Coq Require Import ZArith List.
Import ListNotations.
Open Scope Z_scope.

(** the bytes of [f] applied to corresponding bytes *)
Definition bytewise (f : Z -> Z -> Z) (l m : list Z) : list Z := map (fun p => f (fst p) (snd p)) (combine l m).
(** the first [k] elements moved behind the others *)
Definition turn {A} (k : nat) (l : list A) : list A := skipn k l ++ firstn k l.
(** [k] copies of [b] pushed in at the front, the last [k] elements dropped *)
Definition push_front {A} (k : nat) (b : A) (l : list A) : list A := repeat b k ++ firstn (length l - k) l.
(** [k] copies of [b] pushed in at the back, the first [k] elements dropped *)
Definition push_back {A} (k : nat) (b : A) (l : list A) : list A := skipn k l ++ repeat b k.

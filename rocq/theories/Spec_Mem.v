(** * Vocabulary for memory: what changed and what did not *)

From Coq Require Import ZArith String List.
From Verif Require Import M_Prim M_Words M_Mem.
Import ListNotations.

(** [m'] is [m] except that the place [p] now holds [x]. *)
Definition wrote (m : mem) (p : place) (x : u256) (m' : mem) : Prop :=
  length m' = length m /\ nth_error m' p = Some (Some x) /\
  forall q, q <> p -> nth_error m' q = nth_error m q.

(** [m'] is [m] except that [p] now holds [x] and [q] holds [y]. *)
Definition wrote2 (m : mem) (p : place) (x : u256) (q : place) (y : u256) (m' : mem) : Prop :=
  length m' = length m /\ nth_error m' p = Some (Some x) /\ nth_error m' q = Some (Some y) /\
  forall k, k <> p -> k <> q -> nth_error m' k = nth_error m k.

(** It returned [v], having changed [p] to hold [x] and nothing else. *)
Definition stores {A} (o : res A * mem) (m : mem) (p : place) (x : u256) (v : A) : Prop :=
  exists m', o = (Ret v, m') /\ wrote m p x m'.
Definition stores2 (o : res unit * mem) (m : mem) (p : place) (x : u256) (q : place) (y : u256) : Prop :=
  exists m', o = (Ret tt, m') /\ wrote2 m p x q y m'.

(** It panicked with [msg] and changed nothing. *)
Definition stopped {A} (msg : string) (m : mem) (o : res A * mem) : Prop := o = (Panic msg, m).

(** [*p op= b]: on success [p] holds the new value, on a panic the old one, and nothing else changed. *)
Definition updates (o : res unit * mem) (m : mem) (p : place) (r : res u256) : Prop :=
  match r with
  | Ret x => stores o m p x tt
  | Panic msg => stopped msg m o
  | _ => False
  end.

(** * Vocabulary: running the same function in two builds

    The properties that relate builds (C43, C44, C45, C48) speak about every
    public operation at once.  An operation is listed together with its
    signature; a signature says which arguments are legal and when two arguments
    or results, taken from two builds, stand for the same thing. *)

From Coq Require Import ZArith List String Bool.
Import ListNotations.
From Verif Require Import M_Prim M_Words M_Ops M_Parse M_Serde Spec Spec_Shift.
Open Scope Z_scope.

(** ** Kinds of arguments and results *)
Inductive kind : Type :=
| U                                    (** a U256 *)
| I                                    (** an I256 *)
| Amt                                  (** a shift amount of any type *)
| Amt256                               (** a shift amount in 0..=255, of any type *)
| Same (A : Type) (P : A -> Prop)      (** anything that does not contain a 256-bit integer *)
| Opt (k : kind)
| Pair (k l : kind)
| List (k : kind)
| Result (k : kind)                    (** Result<_, ParseIntError> *)
| De (k : kind).                       (** Result<_, D::Error> of a serde visitor *)

Fixpoint den (k : kind) : Type :=
  match k with
  | U => u256
  | I => i256
  | Amt | Amt256 => amount
  | Same A _ => A
  | Opt k => option (den k)
  | Pair k l => den k * den l
  | List k => list (den k)
  | Result k => result (den k)
  | De k => de (den k)
  end%type.

(** Two amounts from two builds are the same if they have the same type and number. *)
Definition same_amount (c1 c2 : cfg) (a b : amount) : Prop :=
  match a, b with
  | Amt_u32 _, Amt_u32 _ | Amt_prim _, Amt_prim _ | Amt_i256 _, Amt_i256 _ | Amt_u256 _, Amt_u256 _ =>
      amt_val c1 a = amt_val c2 b
  | _, _ => False
  end.

(** [same c1 c2 k x y]: [x] in build [c1] and [y] in build [c2] are legal and
    stand for the same thing. *)
Fixpoint same (c1 c2 : cfg) (k : kind) : den k -> den k -> Prop :=
  match k with
  | U => fun x y => wf_u x /\ wf_u y /\ uval c1 x = uval c2 y
  | I => fun x y => wf_i x /\ wf_i y /\ ival c1 x = ival c2 y
  | Amt => fun x y => amt_ok x /\ amt_ok y /\ same_amount c1 c2 x y
  | Amt256 => fun x y => amt_ok x /\ amt_ok y /\ same_amount c1 c2 x y /\ 0 <= amt_val c1 x < 256
  | Same A P => fun x y => x = y /\ P x
  | Opt k => fun x y =>
      match x, y with Some a, Some b => same c1 c2 k a b | None, None => True | _, _ => False end
  | Pair k l => fun x y => same c1 c2 k (fst x) (fst y) /\ same c1 c2 l (snd x) (snd y)
  | List k => Forall2 (same c1 c2 k)
  | Result k => fun x y =>
      match x, y with Ok a, Ok b => same c1 c2 k a b | Err e, Err e' => e = e' | _, _ => False end
  | De k => fun x y =>
      match x, y with DOk a, DOk b => same c1 c2 k a b | DErr e, DErr e' => e = e' | _, _ => False end
  end.

(** A legal value. *)
Definition legal (c : cfg) (k : kind) (x : den k) : Prop := same c c k x x.

(** ** Signatures *)
Inductive sig : Type :=
| Gives (k : kind)              (** a function that cannot panic *)
| Runs (k : kind)               (** a function whose outcome may be a panic *)
| Takes (k : kind) (s : sig).

Fixpoint fn (s : sig) : Type :=
  match s with
  | Gives k => den k
  | Runs k => res (den k)
  | Takes k s => den k -> fn s
  end.

(** [in_builds R c1 c2 s f g]: on every legal list of arguments, the same for
    both builds, the results are the same things; outcomes are compared by [R],
    which is given the comparison of results. *)
Fixpoint in_builds (R : forall A, (A -> A -> Prop) -> res A -> res A -> Prop) (c1 c2 : cfg) (s : sig) :
    fn s -> fn s -> Prop :=
  match s with
  | Gives k => same c1 c2 k
  | Runs k => R (den k) (same c1 c2 k)
  | Takes k s => fun f g => forall x y, same c1 c2 k x y -> in_builds R c1 c2 s (f x) (g y)
  end.

(** [on_legal R V c s f g]: the same two functions applied to identical legal
    arguments; results are compared by [V], outcomes by [R]. *)
Fixpoint on_legal (R : forall A, res A -> res A -> Prop) (V : forall A, A -> A -> Prop) (c : cfg) (s : sig) :
    fn s -> fn s -> Prop :=
  match s with
  | Gives k => V (den k)
  | Runs k => R (den k)
  | Takes k s => fun f g => forall x, legal c k x -> on_legal R V c s (f x) (g x)
  end.

(** A public operation: its signature and, for every build, its code. *)
Record operation := Op { op_sig : sig; op_fn : forall c : cfg, fn op_sig }.

(** ** Builds *)
Definition with_llvm (c : cfg) (b : bool) : cfg :=
  Build_cfg (debug_assertions c) (overflow_checks c) (big_endian c) (usize_bits c) b.
Definition with_endian (c : cfg) (b : bool) : cfg :=
  Build_cfg (debug_assertions c) (overflow_checks c) b (usize_bits c) (llvm c).
(** the debug and the release build of the same configuration *)
Definition debug_build (c : cfg) : cfg := Build_cfg true true (big_endian c) (usize_bits c) (llvm c).
Definition release_build (c : cfg) : cfg := Build_cfg false false (big_endian c) (usize_bits c) (llvm c).

(** two builds for the same target with the same intrinsics *)
Definition same_target (c1 c2 : cfg) : Prop :=
  big_endian c1 = big_endian c2 /\ usize_bits c1 = usize_bits c2 /\ llvm c1 = llvm c2.
(** every check that is on in [c2] is on in [c1] *)
Definition checks_of (c1 c2 : cfg) : Prop :=
  (debug_assertions c2 = true -> debug_assertions c1 = true) /\
  (overflow_checks c2 = true -> overflow_checks c1 = true).

(** ** Comparisons of outcomes *)

(** the same result, or a panic with the same message *)
Definition same_outcome A (R : A -> A -> Prop) (r1 r2 : res A) : Prop :=
  match r1, r2 with
  | Ret a, Ret b => R a b
  | Panic m, Panic m' => m = m'
  | _, _ => False
  end.
(** if the first returns, the second returns the same *)
Definition returns_too A (r1 r2 : res A) : Prop := forall v, r1 = Ret v -> r2 = Ret v.
(** if both return, they return the same *)
Definition agree A (r1 r2 : res A) : Prop := forall v w, r1 = Ret v -> r2 = Ret w -> v = w.
(** neither undefined behaviour nor an exhausted loop bound *)
Definition defined A (r1 r2 : res A) : Prop := no_ub r1.

(** * Vocabulary: whole programs that use the crate

    A program calls public operations ([operation] of [Spec_Builds], taken from a list such as [api] of [Spec_Api])
    and computes with their results: it may branch, loop, panic, and apply any function to values that contain no
    256-bit integer.  A 256-bit integer can only be handled by calling operations.  Nothing here is code of the
    repository except the operations that are called. *)

From Coq Require Import ZArith List String Bool.
Import ListNotations.
From Verif Require Import M_Prim M_Words M_Ops M_Parse M_Serde Spec Spec_Shift Spec_Builds Spec_Api.
Open Scope Z_scope.

(** ** Variables: a program runs in a list of values, each of a kind *)
Inductive var : list kind -> kind -> Type :=
| Here {k G} : var (k :: G) k
| There {k l G} : var G k -> var (l :: G) k.

Fixpoint env (G : list kind) : Type :=
  match G with
  | [] => unit
  | k :: G => den k * env G
  end%type.

Fixpoint get {G k} (v : var G k) : env G -> den k :=
  match v with
  | Here => fun e => fst e
  | There v => fun e => get v (snd e)
  end.

(** Two lists of values, from two builds, that stand for the same things. *)
Fixpoint same_env (c1 c2 : cfg) (G : list kind) : env G -> env G -> Prop :=
  match G with
  | [] => fun _ _ => True
  | k :: G => fun e f => same c1 c2 k (fst e) (fst f) /\ same_env c1 c2 G (snd e) (snd f)
  end.
Definition legal_env (c : cfg) (G : list kind) (e : env G) : Prop := same_env c c G e e.

(** ** Calls: one variable for each argument; [args G s r] are arguments for the signature [s], whose result is of kind [r] *)
Inductive args (G : list kind) : sig -> kind -> Type :=
| To_value {k} : args G (Gives k) k
| To_outcome {k} : args G (Runs k) k
| With {k s r} : var G k -> args G s r -> args G (Takes k s) r.
Arguments To_value {G k}.
Arguments To_outcome {G k}.
Arguments With {G k s r}.

Fixpoint call {G s r} (a : args G s r) (e : env G) : fn s -> res (den r) :=
  match a with
  | To_value => fun v => Ret v
  | To_outcome => fun o => o
  | With v a => fun f => call a e (f (get v e))
  end.

(** ** Programs: in the variables [G], with a result of kind [k]; each step but the last adds variables *)
Inductive prog : list kind -> kind -> Type :=
| Return {G k} (v : var G k) : prog G k
| Fails {G k} (message : string) : prog G k
| Call {G k r} (p : operation) (a : args G (op_sig p) r) (rest : prog (r :: G) k) : prog G k
| Let {G k l} (p : prog G l) (rest : prog (l :: G) k) : prog G k
| Const {G k} {A : Type} (P : A -> Prop) (x : A) (rest : prog (Same A P :: G) k) : prog G k
| Compute {G k} {A B : Type} {P : A -> Prop} (Q : B -> Prop) (f : A -> B) (v : var G (Same A P))
    (rest : prog (Same B Q :: G) k) : prog G k
| Join {G k} {A B : Type} {P : A -> Prop} {Q : B -> Prop} (v : var G (Same A P)) (w : var G (Same B Q))
    (rest : prog (Same (A * B) (fun x => P (fst x) /\ Q (snd x)) :: G) k) : prog G k
| If {G k} (v : var G Flag) (yes no : prog G k) : prog G k
| Match_opt {G k l} (v : var G (Opt l)) (some : prog (l :: G) k) (none : prog G k) : prog G k
| Match_result {G k l} (v : var G (Result l)) (ok : prog (l :: G) k) (err : prog (Same int_error any :: G) k) : prog G k
| Tuple {G k l m} (v : var G l) (w : var G m) (rest : prog (Pair l m :: G) k) : prog G k
| Untuple {G k l m} (v : var G (Pair l m)) (rest : prog (l :: m :: G) k) : prog G k
| Wrap {G k l} (v : option (var G l)) (rest : prog (Opt l :: G) k) : prog G k
| Nil {G k} (l : kind) (rest : prog (List l :: G) k) : prog G k
| Cons {G k l} (v : var G l) (w : var G (List l)) (rest : prog (List l :: G) k) : prog G k
| Match_list {G k l} (v : var G (List l)) (none : prog G k) (more : prog (l :: List l :: G) k) : prog G k
| Loop {G k s} (bound : nat) (start : var G s) (body : prog (s :: G) (Pair Flag s)) (rest : prog (s :: G) k) : prog G k.

(** A loop goes on as long as its body says so; one that is not done after [bound] rounds stands for one that has not
    ended yet.  As the theorems hold for every bound, they hold for loops without one. *)
Fixpoint rounds {S : Type} (step : S -> res (bool * S)) (n : nat) (s : S) : res S :=
  match n with
  | O => NoFuel
  | Datatypes.S n => let! r := step s in if fst r then rounds step n (snd r) else Ret (snd r)
  end.

(** The outcome of a program in a build. *)
Fixpoint run (c : cfg) {G k} (p : prog G k) : env G -> res (den k) :=
  match p with
  | Return v => fun e => Ret (get v e)
  | Fails m => fun _ => Panic m
  | Call p a rest => fun e => let! r := call a e (op_fn p c) in run c rest (r, e)
  | Let p rest => fun e => let! r := run c p e in run c rest (r, e)
  | Const P x rest => fun e => run c rest (x, e)
  | Compute Q f v rest => fun e => run c rest (f (get v e), e)
  | Join v w rest => fun e => run c rest ((get v e, get w e), e)
  | If v yes no => fun e => if get v e : bool then run c yes e else run c no e
  | Match_opt v some none => fun e => match get v e with Some x => run c some (x, e) | None => run c none e end
  | Match_result v ok err => fun e => match get v e with Ok x => run c ok (x, e) | Err x => run c err (x, e) end
  | Tuple v w rest => fun e => run c rest ((get v e, get w e), e)
  | Untuple v rest => fun e => run c rest (fst (get v e), (snd (get v e), e))
  | Wrap v rest => fun e => run c rest (match v with Some v => Some (get v e) | None => None end, e)
  | Nil l rest => fun e => run c rest ([], e)
  | Cons v w rest => fun e => run c rest (get v e :: get w e, e)
  | Match_list v none more => fun e => match get v e with [] => run c none e | x :: r => run c more (x, (r, e)) end
  | Loop n start body rest => fun e => let! s := rounds (fun s => run c body (s, e)) n (get start e) in run c rest (s, e)
  end.

(** Every operation the program calls is in [l], and its constants and functions keep to the kinds they are given. *)
Fixpoint lawful (l : list operation) {G k} (p : prog G k) : Prop :=
  match p with
  | Return _ | Fails _ => True
  | Call p _ rest => In p l /\ lawful l rest
  | Let p rest => lawful l p /\ lawful l rest
  | Const P x rest => P x /\ lawful l rest
  | @Compute _ _ _ _ P Q f _ rest => (forall x, P x -> Q (f x)) /\ lawful l rest
  | Join _ _ rest => lawful l rest
  | If _ yes no => lawful l yes /\ lawful l no
  | Match_opt _ some none => lawful l some /\ lawful l none
  | Match_result _ ok err => lawful l ok /\ lawful l err
  | Tuple _ _ rest => lawful l rest
  | Untuple _ rest => lawful l rest
  | Wrap _ rest => lawful l rest
  | Nil _ rest => lawful l rest
  | Cons _ _ rest => lawful l rest
  | Match_list _ none more => lawful l none /\ lawful l more
  | Loop _ _ body rest => lawful l body /\ lawful l rest
  end.

(** The program contains no loop. *)
Fixpoint straight {G k} (p : prog G k) : Prop :=
  match p with
  | Return _ | Fails _ => True
  | Call _ _ rest => straight rest
  | Let p rest => straight p /\ straight rest
  | Const _ _ rest => straight rest
  | Compute _ _ _ rest => straight rest
  | Join _ _ rest => straight rest
  | If _ yes no => straight yes /\ straight no
  | Match_opt _ some none => straight some /\ straight none
  | Match_result _ ok err => straight ok /\ straight err
  | Tuple _ _ rest => straight rest
  | Untuple _ rest => straight rest
  | Wrap _ rest => straight rest
  | Nil _ rest => straight rest
  | Cons _ _ rest => straight rest
  | Match_list _ none more => straight none /\ straight more
  | Loop _ _ _ _ => False
  end.

(** Two outcomes of a program, in builds with the same checks: the same result, the same panic, or both still looping. *)
Definition alike A (R : A -> A -> Prop) (r1 r2 : res A) : Prop :=
  match r1, r2 with
  | Ret a, Ret b => R a b
  | Panic m, Panic m' => m = m'
  | NoFuel, NoFuel => True
  | _, _ => False
  end.

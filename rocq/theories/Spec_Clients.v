(** * Three programs that use the crate

    In the language of [Spec_Program]; the Rust is given above each.  They are not code of the repository, the operations
    they call are. *)

From Coq Require Import ZArith List String Bool.
Import ListNotations.
From Verif Require Import M_Prim M_Words M_Intr M_Div M_Mul M_Ops M_UintApi Spec Spec_Builds Spec_Api Spec_Program.
Open Scope Z_scope.

(** the variables, the newest first *)
Notation v0 := Here (only parsing).
Notation v1 := (There v0) (only parsing).
Notation v2 := (There v1) (only parsing).
Notation v3 := (There v2) (only parsing).
Notation v4 := (There v3) (only parsing).
Notation v5 := (There v4) (only parsing).
Notation v6 := (There v5) (only parsing).
Notation v7 := (There v6) (only parsing).
Notation v8 := (There v7) (only parsing).
Notation v9 := (There v8) (only parsing).

Definition word := range 0 (2 ^ 128).
Definition word32 := range 0 (2 ^ 32).

(** while b != 0 { (a, b) = (b, a % b); } a

    [bound] is the number of rounds after which the program counts as still running. *)
Definition gcd_round {G} : prog (Pair U U :: G) (Pair Flag (Pair U U)) :=
  Untuple v0 (                                                                        (* a, b, (a, b) *)
  Const word 0 (
  Call (Op (U --> U128 --> Gives Flag) u_eq_prim) (With v2 (With v0 To_value)) (      (* b == 0, 0, a, b, (a, b) *)
  If v0
    (Const any false (Tuple v0 v5 (Return v0)))
    (Call (Op (U --> U --> Runs U) u_op_rem) (With v2 (With v3 To_outcome)) (         (* a % b, .., 0, a, b *)
     Tuple v4 v0 (Const any true (Tuple v0 v1 (Return v0)))))))).
Definition gcd (bound : nat) : prog [U; U] U := Tuple v0 v1 (Loop bound v0 gcd_round (Untuple v0 (Return v0))).

(** let mut r = U256::new(0);
    let mut i = 127;
    loop {
        let t = r | U256::new(1).wrapping_shl(i);
        if t * t <= n { r = t; }
        if i == 0 { break; }
        i -= 1;
    }
    r

    The state of the loop is (r, (i, n)). *)
Definition isqrt_round {G} : prog (Pair U (Pair U32 U) :: G) (Pair Flag (Pair U (Pair U32 U))) :=
  Untuple v0 (Untuple v1 (                                                            (* i, n, r *)
  Let (Const word 1 (
       Call (Op (U128 --> Gives U) u_new) (With v0 To_value) (
       Call (Op (U --> U32 --> Runs U) u_wrapping_shl) (With v0 (With v2 To_outcome)) (
       Call (Op (U --> U --> Gives U) (fun _ => u_op_or)) (With v5 (With v0 To_value)) (Return v0))))) (   (* t, i, n, r *)
  Call (Op (U --> U --> Runs U) u_op_mul) (With v0 (With v0 To_outcome)) (            (* t * t, t, i, n, r *)
  Call (Op (U --> U --> Gives Flag) u_le) (With v0 (With v3 To_value)) (              (* t * t <= n, t * t, t, i, n, r *)
  Let (If v0 (Return v2) (Return v5)) (                                               (* the new r, .., .., t, i, n *)
  Compute any (fun i => negb (i =? 0)) v4 (
  Compute word32 (fun i => Z.max (i - 1) 0) v5 (                                      (* the new i, i != 0, the new r, .., .., t, i, n *)
  Tuple v0 v7 (Tuple v3 v0 (Tuple v3 v0 (Return v0))))))))))).
Definition isqrt (bound : nat) : prog [U] U :=
  Const word 0 (
  Call (Op (U128 --> Gives U) u_new) (With v0 To_value) (
  Const word32 127 (                                                                  (* 127, r, 0, n *)
  Tuple v0 v3 (Tuple v2 v0 (
  Loop bound v0 isqrt_round (Untuple v0 (Return v0))))))).

(** x * y % m *)
Definition mulmod {G} (x y m : var G U) : prog G U :=
  Call (Op (U --> U --> Runs U) u_op_mul) (With x (With y To_outcome)) (
  Call (Op (U --> U --> Runs U) u_op_rem) (With v0 (With (There m) To_outcome)) (Return v0)).

(** let mut r = U256::new(1) % m;
    let mut b = b % m;
    loop {
        if e == 0 { break; }
        let square = b * b % m;
        let half = e.wrapping_shr(1);
        if e & U256::new(1) != 0 { r = r * b % m; }
        b = square;
        e = half;
    }
    r

    The program starts from b, e and m; the state of the loop is (r, (b, (e, m))). *)
Definition state := Pair U (Pair U (Pair U U)).
Definition powmod_round {G} : prog (state :: G) (Pair Flag state) :=
  Untuple v0 (Untuple v1 (Untuple v1 (                                                (* e, m, b, .., r, .., s *)
  Const word 0 (
  Call (Op (U --> U128 --> Gives Flag) u_eq_prim) (With v1 (With v0 To_value)) (      (* e == 0, 0, e, m, b, .., r, .., s *)
  If v0
    (Const any false (Tuple v0 v9 (Return v0)))
    (Let (Const word 1 (
          Call (Op (U128 --> Gives U) u_new) (With v0 To_value) (
          Call (Op (U --> U --> Gives U) (fun _ => u_op_and)) (With v4 (With v0 To_value)) (
          Call (Op (U --> U128 --> Gives Flag) u_eq_prim) (With v0 (With v4 To_value)) (Return v0))))) (   (* even, .., 0, e, m, b, .., r *)
     Let (mulmod v5 v5 v4) (                                                          (* square, even, .., 0, e, m, b, .., r *)
     Let (Const word32 1 (
          Call (Op (U --> U32 --> Runs U) u_wrapping_shr) (With v5 (With v0 To_outcome)) (Return v0))) (   (* half, square, even, .., 0, e, m, b, .., r *)
     Let (If v2 (Return v9) (mulmod v9 v7 v6)) (                                      (* the new r, half, square, even, .., 0, e, m *)
     Tuple v1 v7 (Tuple v3 v0 (Tuple v2 v0 (
     Const any true (Tuple v0 v1 (Return v0))))))))))))))).
Definition powmod (bound : nat) : prog [U; U; U] U :=
  Const word 1 (
  Call (Op (U128 --> Gives U) u_new) (With v0 To_value) (
  Call (Op (U --> U --> Runs U) u_op_rem) (With v0 (With v4 To_outcome)) (            (* r, 1, 1, b, e, m *)
  Call (Op (U --> U --> Runs U) u_op_rem) (With v3 (With v5 To_outcome)) (            (* b % m, r, 1, 1, b, e, m *)
  Tuple v5 v6 (Tuple v1 v0 (Tuple v3 v0 (
  Loop bound v0 powmod_round (Untuple v0 (Return v0))))))))).

(** * Vocabulary for the operator forms

    What an operator is supposed to give, on integers: the exact result, brought into
    range, or the panic.  None of the model's operations is used. *)

From Coq Require Import ZArith List String Bool.
From Verif Require Import M_Prim M_Words M_Convert M_Forms Spec Spec_Convert.
Import ListNotations.
Open Scope Z_scope.

(** The number an operand stands for and whether it is a value of its type. *)
Definition uopd (c : cfg) (a : arg (operand u256)) : Z :=
  match arg_val a with Big x => uval c x | Prim z => z end.
Definition iopd (c : cfg) (a : arg (operand i256)) : Z :=
  match arg_val a with Big x => ival c x | Prim z => z end.
Definition uopd_ok (a : arg (operand u256)) : Prop :=
  match arg_val a with Big x => wf_u x | Prim z => 0 <= z < 2 ^ 128 end.
Definition iopd_ok (a : arg (operand i256)) : Prop :=
  match arg_val a with Big x => wf_i x | Prim z => - 2 ^ 127 <= z < 2 ^ 127 end.
(** An operator of this crate has an operand of the 256-bit type. *)
Definition is_big {A} (a : arg (operand A)) : bool := match arg_val a with Big _ => true | Prim _ => false end.

(** The exact result of an operator; None where there is none. *)
Definition exact (t : trt) (x y : Z) : option Z :=
  match t with
  | Tr_add => Some (x + y) | Tr_sub => Some (x - y) | Tr_mul => Some (x * y)
  | Tr_div => if y =? 0 then None else Some (Z.quot x y)
  | Tr_rem => if y =? 0 then None else Some (Z.rem x y)
  | Tr_and => Some (Z.land x y) | Tr_or => Some (Z.lor x y) | Tr_xor => Some (Z.lxor x y)
  end.
Definition complaint (t : trt) : string :=
  match t with
  | Tr_add => "attempt to add with overflow"
  | Tr_sub => "attempt to subtract with overflow"
  | Tr_mul => "attempt to multiply with overflow"
  | Tr_div => "attempt to divide by zero"
  | Tr_rem => "attempt to calculate the remainder with a divisor of zero"
  | _ => ""
  end.
(** Addition, subtraction and multiplication are checked in debug builds.  The other operators
    are not: their results are always in range, but for I256::MIN / -1. *)
Definition checked_in_debug (t : trt) : bool := match t with Tr_add | Tr_sub | Tr_mul => true | _ => false end.
(** The outcome of an operator: [fits] is the range of the type and [mk] makes a value of it. *)
Definition outcome {A} (c : cfg) (fits : Z -> bool) (mk : Z -> A) (t : trt) (x y : Z) : res A :=
  match exact t x y with
  | Some v => if debug_assertions c && checked_in_debug t && negb (fits v) then Panic (complaint t) else Ret (mk v)
  | None => Panic (complaint t)
  end.

(** [a %= b] with a zero divisor complains about division in release builds; otherwise compound assignment
    stores what the operator gives. *)
Definition assign_outcome {A} (c : cfg) (fits : Z -> bool) (mk : Z -> A) (t : trt) (x y : Z) : res A :=
  match t, exact t x y with
  | Tr_rem, None => Panic (if debug_assertions c then complaint Tr_rem else complaint Tr_div)
  | _, _ => outcome c fits mk t x y
  end.

(** Shift amounts. *)
Definition samt_val (c : cfg) (b : samt) : Z :=
  match b with Sa_int _ v => v | Sa_u256 x => uval c x | Sa_i256 x => ival c x end.
Definition samt_ok (c : cfg) (b : samt) : Prop :=
  match b with
  | Sa_int t v => In t int_types /\ t_in c t v = true
  | Sa_u256 x => wf_u x
  | Sa_i256 x => wf_i x
  end.
Definition shifted (t : sht) (x s : Z) : Z := match t with Sh_left => x * 2 ^ s | Sh_right => x / 2 ^ s end.
Definition shift_complaint (t : sht) : string :=
  match t with
  | Sh_left => "attempt to shift left with overflow"
  | Sh_right => "attempt to shift right with overflow"
  end.
(** Debug builds reject amounts outside 0 .. 255.  Release builds keep the low 32 bits; from 256 on
    the native code shifts by 128 + (amount mod 128) and the llvm code by the amount modulo 256 (C18). *)
Definition shift_outcome {A} (c : cfg) (mk : Z -> A) (t : sht) (x s : Z) : res A :=
  if debug_assertions c then
    if in_u 8 s then Ret (mk (shifted t x s)) else Panic (shift_complaint t)
  else
    let m := s mod 2 ^ 32 in
    Ret (mk (shifted t x (if llvm c then m mod 256 else if m <? 256 then m else 128 + m mod 128))).

(** The outcome of a sum or product of the items [vs] with partial results in range. *)
Definition folded {A} (c : cfg) (fits : Z -> bool) (mk : Z -> A) (total : list Z -> Z) (msg : string)
    (vs : list Z) (r : res A) : Prop :=
  (debug_assertions c = false -> r = Ret (mk (total vs))) /\
  (debug_assertions c = true -> (forall n, fits (total (firstn n vs)) = true) -> r = Ret (mk (total vs))) /\
  (debug_assertions c = true -> (exists n, fits (total (firstn n vs)) = false) -> r = Panic msg).

(** * The operator forms: which implementation an expression reaches
    src/macros/ops.rs:180-220, 284-358, 415-444, 475-517; src/macros/iter.rs

    M_Ops gives the implementations on which the macros build everything else (both
    operands borrowed).  Here are the forms written in terms of them: every other
    combination of owned and borrowed operands and of primitive operands is a line of a
    macro table [method(a: L, b: R) { e1 $x e2 }], whose body applies the operator token [$x]
    again, to operands of other types.  The tables are kept as tables and an operator is
    evaluated the way the compiler resolves it: find the implementation for the types of
    the two operands, evaluate its body, and so on until the borrowed form is reached.
    A body that does not type-check, or operand types without an implementation, give UB;
    forms that refer to each other for ever give NoFuel. *)

From Coq Require Import ZArith List String Bool.
From Verif Require Import M_Prim M_Words M_Intr M_Div M_Mul M_Ops M_Convert.
Import ListNotations.
Open Scope Z_scope.

(** The operator traits of core::ops, src/macros/ops.rs:18-72 *)
Inductive trt := Tr_add | Tr_mul | Tr_sub | Tr_div | Tr_rem | Tr_and | Tr_or | Tr_xor.
(** The operator tokens, src/macros/ops.rs:18-72; with an equals sign at 74-117 *)
Inductive tok := Plus | Star | Minus | Slash | Percent | Amp | Bar | Caret.

(** Which trait a token stands for: [a + b] is Add::add(a, b), [a += b] is
    AddAssign::add_assign(&mut a, b), and so on.  This is the language; it is used at
    src/macros/ops.rs:186-198, 402, 421-424. *)
Definition lang_trait (x : tok) : trt :=
  match x with
  | Plus => Tr_add | Star => Tr_mul | Minus => Tr_sub | Slash => Tr_div | Percent => Tr_rem
  | Amp => Tr_and | Bar => Tr_or | Caret => Tr_xor
  end.
(** The token the macro is given for the forms of a trait, src/macros/ops.rs:19, 22, 25, 33, 36, 64, 67, 70 *)
Definition binop_tok (t : trt) : tok :=
  match t with
  | Tr_add => Plus | Tr_mul => Star | Tr_sub => Minus | Tr_div => Slash | Tr_rem => Percent
  | Tr_and => Amp | Tr_or => Bar | Tr_xor => Caret
  end.
(** The token (with an equals sign) for the forms of an assignment trait, and the token [$y]
    its debug implementation uses, src/macros/ops.rs:78, 81, 84, 87, 90, 109, 112, 115 *)
Definition assign_tok (t : trt) : tok :=
  match t with
  | Tr_add => Plus | Tr_div => Slash | Tr_mul => Star | Tr_rem => Percent | Tr_sub => Minus
  | Tr_and => Amp | Tr_or => Bar | Tr_xor => Caret
  end.
(** src/macros/ops.rs:78, 81, 84, 87, 90, the second token *)
Definition assign_y (t : trt) : tok :=
  match t with
  | Tr_add => Plus | Tr_div => Slash | Tr_mul => Star | Tr_rem => Percent | Tr_sub => Minus
  | Tr_and => Amp | Tr_or => Bar | Tr_xor => Caret
  end.

(** An operand handed over by value or borrowed; src/macros/ops.rs:186 *)
Inductive arg (A : Type) := Own (x : A) | Ref (x : A).
Arguments Own {A}. Arguments Ref {A}.
(** An operand of the 256-bit type or of the primitive type beside it (u128 for U256, i128
    for I256), src/uint/ops.rs:18, src/int/ops.rs:18 *)
Inductive operand (A : Type) := Big (a : A) | Prim (z : Z).
Arguments Big {A}. Arguments Prim {A}.

(** The type of an operand, as written in the tables; src/macros/ops.rs:186-198 *)
Inductive shape := T_big | T_ref_big | T_prim | T_ref_prim.
(** the type of a given operand; src/macros/ops.rs:186-198 *)
Definition shape_of {A} (a : arg (operand A)) : shape :=
  match a with
  | Own (Big _) => T_big | Ref (Big _) => T_ref_big
  | Own (Prim _) => T_prim | Ref (Prim _) => T_ref_prim
  end.
(** equality of types, for finding an implementation; src/macros/ops.rs:186-198 *)
Definition shape_eqb (a b : shape) : bool :=
  match a, b with
  | T_big, T_big | T_ref_big, T_ref_big | T_prim, T_prim | T_ref_prim, T_ref_prim => true
  | _, _ => false
  end.

(** An operand of the operator in a body: [a], [&a], [*a] or [$int::new(a)]; src/macros/ops.rs:186-198 *)
Inductive form := F_id | F_addr | F_deref | F_new.
(** Its value; None when it has no type in the tables (the type is Copy, so [*a] copies).
    src/macros/ops.rs:186-198 *)
Definition apply_form {A} (new : Z -> A) (f : form) (a : arg (operand A)) : option (arg (operand A)) :=
  match f, a with
  | F_id, _ => Some a
  | F_addr, Own v => Some (Ref v)
  | F_addr, Ref _ => None
  | F_deref, Ref v => Some (Own v)
  | F_deref, Own _ => None
  | F_new, Own (Prim z) => Some (Own (Big (new z)))
  | F_new, _ => None
  end.

(** One line of the table: types of the operands, operands of the operator in the body.
    src/macros/ops.rs:186 *)
Record row := Row { r_lhs : shape; r_rhs : shape; r_l : form; r_r : form }.

(** src/macros/ops.rs:186-198 *)
Definition binop_rows : list row := [
  Row T_ref_big  T_big      F_id    F_addr;   (** 186 *)
  Row T_big      T_ref_big  F_addr  F_id;     (** 187 *)
  Row T_big      T_big      F_addr  F_addr;   (** 188 *)
  Row T_ref_big  T_prim     F_id    F_new;    (** 190 *)
  Row T_ref_big  T_ref_prim F_id    F_deref;  (** 191 *)
  Row T_big      T_ref_prim F_addr  F_deref;  (** 192 *)
  Row T_big      T_prim     F_addr  F_id;     (** 193 *)
  Row T_prim     T_ref_big  F_new   F_id;     (** 195 *)
  Row T_ref_prim T_ref_big  F_deref F_id;     (** 196 *)
  Row T_ref_prim T_big      F_deref F_addr;   (** 197 *)
  Row T_prim     T_big      F_id    F_addr ]. (** 198 *)

(** the implementation for two types; src/macros/ops.rs:204-220 *)
Definition find_row (rows : list row) (l r : shape) : option row :=
  find (fun w => shape_eqb (r_lhs w) l && shape_eqb (r_rhs w) r) rows.

(** [l $x r] where [$x] stands for trait [t]: the borrowed form is [base] (src/macros/ops.rs:154-172,
    231-244, 369-378), the others are src/macros/ops.rs:204-220 with the table above *)
Fixpoint op_eval {A} (new : Z -> A) (base : trt -> A -> A -> res A) (fuel : nat)
    (t : trt) (l r : arg (operand A)) : res A :=
  match fuel with
  | O => NoFuel
  | S fuel' =>
      match l, r with
      | Ref (Big a), Ref (Big b) => base t a b
      | _, _ =>
          match find_row binop_rows (shape_of l) (shape_of r) with
          | Some w =>
              match apply_form new (r_l w) l, apply_form new (r_r w) r with
              | Some l', Some r' => op_eval new base fuel' (lang_trait (binop_tok t)) l' r'
              | _, _ => UB "form does not type-check"
              end
          | None => UB "no implementation for these types"
          end
      end
  end.
(** No form refers to itself through more than four others; src/macros/ops.rs:186-198 *)
Definition form_fuel : nat := 8.

(** The borrowed forms for U256, src/uint/ops.rs:17-29 with src/macros/ops.rs:154-172, 231-244, 369-378 *)
Definition u_base (c : cfg) (t : trt) (a b : u256) : res u256 :=
  match t with
  | Tr_add => u_op_add c a b | Tr_mul => u_op_mul c a b | Tr_sub => u_op_sub c a b
  | Tr_div => u_op_div c a b | Tr_rem => u_op_rem c a b
  | Tr_and => Ret (u_op_and a b) | Tr_or => Ret (u_op_or a b) | Tr_xor => Ret (u_op_xor a b)
  end.
(** The borrowed forms for I256, src/int/ops.rs:17-29 with src/macros/ops.rs:154-172, 231-244, 369-378 *)
Definition i_base (c : cfg) (t : trt) (a b : i256) : res i256 :=
  match t with
  | Tr_add => i_op_add c a b | Tr_mul => i_op_mul c a b | Tr_sub => i_op_sub c a b
  | Tr_div => i_op_div c a b | Tr_rem => i_op_rem c a b
  | Tr_and => Ret (i_op_and a b) | Tr_or => Ret (i_op_or a b) | Tr_xor => Ret (i_op_xor a b)
  end.
(** [l $x r] with operands of U256 and u128, src/uint/ops.rs:17-29, src/macros/ops.rs:186-198 *)
Definition u_form (c : cfg) (t : trt) (l r : arg (operand u256)) : res u256 :=
  op_eval (u_new c) (u_base c) form_fuel t l r.
(** [l $x r] with operands of I256 and i128, src/int/ops.rs:17-29, src/macros/ops.rs:186-198 *)
Definition i_form (c : cfg) (t : trt) (l r : arg (operand i256)) : res i256 :=
  op_eval (i_new c) (i_base c) form_fuel t l r.

(** ** Compound assignment: src/macros/ops.rs:395-444, 528-541.  The result is the new value
    of the left operand. *)

(** Lines of the table: the type of the right operand and what is handed on.
    src/macros/ops.rs:421-424 *)
Definition assign_rows : list (shape * form) := [
  (T_big, F_addr);       (** 421 *)
  (T_prim, F_new);       (** 423 *)
  (T_ref_prim, F_deref)  (** 424 *) ].
(** [*a $x r], src/macros/ops.rs:415-444: the borrowed form is [base] (395-407, 528-536) *)
Fixpoint assign_eval {A} (new : Z -> A) (base : trt -> A -> A -> res A) (fuel : nat)
    (t : trt) (a : A) (r : arg (operand A)) : res A :=
  match fuel with
  | O => NoFuel
  | S fuel' =>
      match r with
      | Ref (Big b) => base t a b
      | _ =>
          match find (fun w => shape_eqb (fst w) (shape_of r)) assign_rows with
          | Some w =>
              match apply_form new (snd w) r with
              | Some r' => assign_eval new base fuel' (lang_trait (assign_tok t)) a r'
              | None => UB "form does not type-check"
              end
          | None => UB "no implementation for these types"
          end
      end
  end.
(** The borrowed form for U256.  Arithmetic: src/macros/ops.rs:395-407, in debug builds through the
    operator [$y] on two references; bitwise: 528-536. *)
Definition u_assign_base (c : cfg) (t : trt) (a b : u256) : res u256 :=
  let slow := u_form c (lang_trait (assign_y t)) (Ref (Big a)) (Ref (Big b)) in
  match t with
  | Tr_add => if debug_assertions c then slow else Ret (add2 c a b)
  | Tr_mul => if debug_assertions c then slow else mul2 c a b
  | Tr_sub => if debug_assertions c then slow else Ret (sub2 c a b)
  | Tr_div => if debug_assertions c then slow else udiv2 c a b
  | Tr_rem => if debug_assertions c then slow else urem2 c a b
  | Tr_and => Ret (u_op_and_assign a b)
  | Tr_or => Ret (u_op_or_assign a b)
  | Tr_xor => Ret (u_op_xor_assign a b)
  end.
(** The borrowed form for I256, src/macros/ops.rs:395-407, 528-536 *)
Definition i_assign_base (c : cfg) (t : trt) (a b : i256) : res i256 :=
  let slow := i_form c (lang_trait (assign_y t)) (Ref (Big a)) (Ref (Big b)) in
  match t with
  | Tr_add => if debug_assertions c then slow else Ret (iadd2 c a b)
  | Tr_mul => if debug_assertions c then slow else imul2 c a b
  | Tr_sub => if debug_assertions c then slow else Ret (isub2 c a b)
  | Tr_div => if debug_assertions c then slow else idiv2 c a b
  | Tr_rem => if debug_assertions c then slow else irem2 c a b
  | Tr_and => Ret (i_op_and_assign a b)
  | Tr_or => Ret (i_op_or_assign a b)
  | Tr_xor => Ret (i_op_xor_assign a b)
  end.
(** [a $x= r] for U256, src/macros/ops.rs:395-444, 528-541 *)
Definition u_assign_form (c : cfg) (t : trt) (a : u256) (r : arg (operand u256)) : res u256 :=
  assign_eval (u_new c) (u_assign_base c) form_fuel t a r.
(** [a $x= r] for I256, src/macros/ops.rs:395-444, 528-541 *)
Definition i_assign_form (c : cfg) (t : trt) (a : i256) (r : arg (operand i256)) : res i256 :=
  assign_eval (i_new c) (i_assign_base c) form_fuel t a r.

(** ** Shifts: src/macros/ops.rs:261-330, 455-517 *)

(** The shift traits, src/macros/ops.rs:43, 46 *)
Inductive sht := Sh_left | Sh_right.
(** The tokens << and >>, src/macros/ops.rs:44, 47 *)
Inductive shtok := Lt_lt | Gt_gt.
(** the language: [a << b] is Shl::shl(a, b); used at src/macros/ops.rs:290-292, 322-326 *)
Definition lang_shift (x : shtok) : sht := match x with Lt_lt => Sh_left | Gt_gt => Sh_right end.
(** src/macros/ops.rs:44, 47 *)
Definition shift_tok (t : sht) : shtok := match t with Sh_left => Lt_lt | Sh_right => Gt_gt end.
(** src/macros/ops.rs:98, 101, the first token *)
Definition shift_assign_tok (t : sht) : shtok := match t with Sh_left => Lt_lt | Sh_right => Gt_gt end.
(** src/macros/ops.rs:98, 101, the second token *)
Definition shift_assign_y (t : sht) : shtok := match t with Sh_left => Lt_lt | Sh_right => Gt_gt end.

(** A shift amount with its type: a primitive integer or a 256-bit one; src/macros/ops.rs:297, 304 *)
Inductive samt := Sa_int (t : ity) (v : Z) | Sa_u256 (x : u256) | Sa_i256 (x : i256).
(** The primitive types other than u32, src/macros/ops.rs:304, 493 *)
Definition shift_types : list ity :=
  [TI 8; TI 16; TI 32; TI 64; TI 128; Tisize; TU 8; TU 16; TU 64; TU 128; Tusize].
(** equality of types, for finding an implementation; src/macros/ops.rs:304 *)
Definition ity_eqb (a b : ity) : bool :=
  match a, b with
  | TU m, TU n | TI m, TI n => m =? n
  | Tusize, Tusize | Tisize, Tisize => true
  | _, _ => false
  end.
(** the types for which the [__inner] variants exist; src/macros/ops.rs:297, 304 *)
Definition has_shift (b : samt) : bool :=
  match b with Sa_int t _ => existsb (ity_eqb t) shift_types | _ => true end.
(** the amount as seen by M_Ops; src/macros/ops.rs:297, 304 *)
Definition to_amount (b : samt) : amount :=
  match b with Sa_int _ v => Amt_prim v | Sa_u256 x => Amt_u256 x | Sa_i256 x => Amt_i256 x end.

(** One line of a table of shift forms: whether the operands are borrowed, and the operands of the
    operator in the body; src/macros/ops.rs:290-292, 324-326 *)
Record srow := SRow { s_lref : bool; s_rref : bool; s_l : form; s_r : form }.
(** src/macros/ops.rs:290-292, amounts of type u32 *)
Definition shift_rows_u32 : list srow := [
  SRow true  true  F_id   F_deref;   (** 290 *)
  SRow false true  F_addr F_deref;   (** 291 *)
  SRow false false F_addr F_id ].    (** 292 *)
(** src/macros/ops.rs:324-326, amounts of the other types *)
Definition shift_rows : list srow := [
  SRow true  true  F_id   F_deref;   (** 324 *)
  SRow false true  F_addr F_deref;   (** 325 *)
  SRow false false F_addr F_id ].    (** 326 *)
(** whether an operand is borrowed; src/macros/ops.rs:290-292 *)
Definition is_ref {A} (a : arg A) : bool := match a with Own _ => false | Ref _ => true end.
(** the contents of an operand; src/macros/ops.rs:290-292 *)
Definition arg_val {A} (a : arg A) : A := match a with Own x => x | Ref x => x end.
(** [a], [&a], [*a]; src/macros/ops.rs:290-292, 324-326 *)
Definition apply_ref {A} (f : form) (a : arg A) : option (arg A) :=
  match f, a with
  | F_id, _ => Some a
  | F_addr, Own v => Some (Ref v)
  | F_deref, Ref v => Some (Own v)
  | _, _ => None
  end.
(** Is the type u32 itself? src/macros/ops.rs:261 *)
Definition is_u32 (b : samt) : bool := match b with Sa_int (TU 32) _ => true | _ => false end.
(** the numeric value of a u32 amount; src/macros/ops.rs:261 *)
Definition u32_val (b : samt) : Z := match b with Sa_int _ v => v | _ => 0 end.

(** [l $x r]: the form (&int, u32) is [base] (src/macros/ops.rs:261-276); (&int, T) converts the amount
    and applies the operator again (317-323); the others are the tables above *)
Fixpoint shift_eval {A} (c : cfg) (base : sht -> A -> Z -> res A) (fuel : nat)
    (t : sht) (l : arg A) (r : arg samt) : res A :=
  match fuel with
  | O => NoFuel
  | S fuel' =>
      let rows := if is_u32 (arg_val r) then shift_rows_u32 else shift_rows in
      if negb (is_u32 (arg_val r)) && negb (has_shift (arg_val r)) then UB "no implementation for these types"
      else match l, r with
      | Ref a, Own b =>
          if is_u32 b then base t a (u32_val b)
          else shift_eval c base fuel' (lang_shift (shift_tok t)) l
                 (Own (Sa_int (TU 32) (amount_to_u32 c (to_amount b))))
      | _, _ =>
          match find (fun w => Bool.eqb (s_lref w) (is_ref l) && Bool.eqb (s_rref w) (is_ref r)) rows with
          | Some w =>
              match apply_ref (s_l w) l, apply_ref (s_r w) r with
              | Some l', Some r' => shift_eval c base fuel' (lang_shift (shift_tok t)) l' r'
              | _, _ => UB "form does not type-check"
              end
          | None => UB "no implementation for these types"
          end
      end
  end.
(** src/uint/ops.rs:26-27 with src/macros/ops.rs:261-276 *)
Definition u_shift_base (c : cfg) (t : sht) (a : u256) (s : Z) : res u256 :=
  match t with Sh_left => u_op_shl c a s | Sh_right => u_op_shr c a s end.
(** src/int/ops.rs:26-27 with src/macros/ops.rs:261-276 *)
Definition i_shift_base (c : cfg) (t : sht) (a : i256) (s : Z) : res i256 :=
  match t with Sh_left => i_op_shl c a s | Sh_right => i_op_shr c a s end.
(** [l << r], [l >> r] for U256, src/macros/ops.rs:261-330 *)
Definition u_shift_form (c : cfg) (t : sht) (l : arg u256) (r : arg samt) : res u256 :=
  shift_eval c (u_shift_base c) form_fuel t l r.
(** [l << r], [l >> r] for I256, src/macros/ops.rs:261-330 *)
Definition i_shift_form (c : cfg) (t : sht) (l : arg i256) (r : arg samt) : res i256 :=
  shift_eval c (i_shift_base c) form_fuel t l r.

(** [a <<= r]: u32 is [base] (src/macros/ops.rs:455-467), a borrowed amount is copied (481, 513), another
    type is converted (506-513) *)
Fixpoint shift_assign_eval {A} (c : cfg) (base : sht -> A -> Z -> res A) (fuel : nat)
    (t : sht) (a : A) (r : arg samt) : res A :=
  match fuel with
  | O => NoFuel
  | S fuel' =>
      if negb (is_u32 (arg_val r)) && negb (has_shift (arg_val r)) then UB "no implementation for these types"
      else match r with
      | Ref b => shift_assign_eval c base fuel' (lang_shift (shift_assign_tok t)) a (Own b)
      | Own b =>
          if is_u32 b then base t a (u32_val b)
          else shift_assign_eval c base fuel' (lang_shift (shift_assign_tok t)) a
                 (Own (Sa_int (TU 32) (amount_to_u32 c (to_amount b))))
      end
  end.
(** src/uint/ops.rs:26-27 with src/macros/ops.rs:455-467 *)
Definition u_shift_assign_base (c : cfg) (t : sht) (a : u256) (s : Z) : res u256 :=
  let slow := u_shift_form c (lang_shift (shift_assign_y t)) (Ref a) (Own (Sa_int (TU 32) s)) in
  match t with
  | Sh_left => if debug_assertions c then slow else shl2 c a s
  | Sh_right => if debug_assertions c then slow else shr2 c a s
  end.
(** src/int/ops.rs:26-27 with src/macros/ops.rs:455-467 *)
Definition i_shift_assign_base (c : cfg) (t : sht) (a : i256) (s : Z) : res i256 :=
  let slow := i_shift_form c (lang_shift (shift_assign_y t)) (Ref a) (Own (Sa_int (TU 32) s)) in
  match t with
  | Sh_left => if debug_assertions c then slow else ishl2 c a s
  | Sh_right => if debug_assertions c then slow else sar2 c a s
  end.
(** [a <<= r], [a >>= r] for U256, src/macros/ops.rs:455-517 *)
Definition u_shift_assign_form (c : cfg) (t : sht) (a : u256) (r : arg samt) : res u256 :=
  shift_assign_eval c (u_shift_assign_base c) form_fuel t a r.
(** [a <<= r], [a >>= r] for I256, src/macros/ops.rs:455-517 *)
Definition i_shift_assign_form (c : cfg) (t : sht) (a : i256) (r : arg samt) : res i256 :=
  shift_assign_eval c (i_shift_assign_base c) form_fuel t a r.

(** ** Not and Neg: the two implementations have the same body, src/macros/ops.rs:332-358.  With a
    borrowed operand the pattern at 54 binds references, [!] of which negates what they refer to. *)

(** src/macros/ops.rs:51-58, 338-357 *)
Definition u_not_form (x : arg u256) : u256 :=
  match x with Own a => u_op_not a | Ref a => u_op_not a end.
(** src/macros/ops.rs:51-58, 338-357 *)
Definition i_not_form (x : arg i256) : i256 :=
  match x with Own a => i_op_not a | Ref a => i_op_not a end.
(** src/macros/ops.rs:126-140, 338-357: [!x] is the form for the type of x *)
Definition i_neg_form (c : cfg) (x : arg i256) : res i256 :=
  if debug_assertions c && i_eq c (arg_val x) (I256_MIN c) then Panic "attempt to negate with overflow"
  else Ret (iadd2 c (i_not_form x) (I256_ONE c)).

(** ** Sums and products of owned and of borrowed items, src/macros/iter.rs *)

(** [iter.fold(init, op)] where [op] is the form (own, own) or (own, borrowed); src/macros/iter.rs:9, 15, 21, 27 *)
Fixpoint fold_form {A} (op : arg (operand A) -> arg (operand A) -> res A) (acc : A) (l : list (arg A)) : res A :=
  match l with
  | [] => Ret acc
  | x :: l' =>
      let! acc' := op (Own (Big acc)) (match x with Own v => Own (Big v) | Ref v => Ref (Big v) end) in
      fold_form op acc' l'
  end.
(** src/macros/iter.rs:7-11 (items Own), 19-23 (items Ref) *)
Definition u_sum_form (c : cfg) (l : list (arg u256)) : res u256 := fold_form (u_form c Tr_add) U256_ZERO l.
(** src/macros/iter.rs:13-17, 25-29 *)
Definition u_product_form (c : cfg) (l : list (arg u256)) : res u256 := fold_form (u_form c Tr_mul) (U256_ONE c) l.
(** src/macros/iter.rs:7-11, 19-23 *)
Definition i_sum_form (c : cfg) (l : list (arg i256)) : res i256 := fold_form (i_form c Tr_add) I256_ZERO l.
(** src/macros/iter.rs:13-17, 25-29 *)
Definition i_product_form (c : cfg) (l : list (arg i256)) : res i256 := fold_form (i_form c Tr_mul) (I256_ONE c) l.

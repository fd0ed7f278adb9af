(** * C68: every form of an operator does the same *)

From Coq Require Import ZArith String List Bool Lia.
Import ListNotations.
From Verif Require Import M_Prim M_Words M_Convert M_Forms.
From Verif Require Import Spec Spec_Fold Spec_Convert Spec_Forms P_OpForms T_Base.
Open Scope Z_scope.

(** C68: [l op r] for + - * / % & | ^ with operands of U256 and u128, each owned or borrowed, at least one of them
    U256: the outcome depends on the two numbers only. *)
Theorem C68_unsigned : forall c t l r,
  uopd_ok l -> uopd_ok r -> is_big l || is_big r = true ->
  u_form c t l r = outcome c (in_u 256) (uof c) t (uopd c l) (uopd c r).
Proof. exact u_forms. Qed.
Print Assumptions C68_unsigned.

Example C68_unsigned_case :
  uopd_ok (Ref (Prim 5)) /\ uopd_ok (Own (Big (uof dev 7))) /\ is_big (Own (Big (uof dev 7))) = true /\
  u_form dev Tr_sub (Ref (Prim 5)) (Own (Big (uof dev 7))) = Panic "attempt to subtract with overflow" /\
  u_form dev Tr_sub (Own (Big (uof dev 7))) (Ref (Prim 5)) = Ret (uof dev 2) /\
  u_form rel Tr_sub (Own (Prim 5)) (Ref (Big (uof rel 7))) = Ret (uof rel (MAXU - 1)) /\
  u_form dev Tr_rem (Ref (Big (uof dev 7))) (Own (Prim 0)) = Panic "attempt to calculate the remainder with a divisor of zero" /\
  u_form dev Tr_xor (Own (Prim 6)) (Own (Big (uof dev 5))) = Ret (uof dev 3).
Proof. vm_compute. intuition congruence. Qed.

(** C68: the same for I256 and i128. *)
Theorem C68_signed : forall c t l r,
  iopd_ok l -> iopd_ok r -> is_big l || is_big r = true ->
  i_form c t l r = outcome c (in_i 256) (iof c) t (iopd c l) (iopd c r).
Proof. exact i_forms. Qed.
Print Assumptions C68_signed.

Example C68_signed_case :
  iopd_ok (Own (Prim (-9))) /\ iopd_ok (Ref (Big (iof dev 4))) /\
  i_form dev Tr_div (Own (Prim (-9))) (Ref (Big (iof dev 4))) = Ret (iof dev (-2)) /\
  i_form dev Tr_rem (Ref (Prim (-9))) (Own (Big (iof dev 4))) = Ret (iof dev (-1)) /\
  i_form dev Tr_div (Ref (Big (iof dev MINI))) (Ref (Prim (-1))) = Ret (iof dev MINI) /\
  i_form dev Tr_add (Own (Big (iof dev MAXI))) (Own (Prim 1)) = Panic "attempt to add with overflow".
Proof. vm_compute. intuition congruence. Qed.

(** C68: [a op= r] leaves in [a] what [a op r] gives, and panics where that does. *)
Theorem C68_unsigned_assign : forall c t a r,
  wf_u a -> uopd_ok r ->
  u_assign_form c t a r = assign_outcome c (in_u 256) (uof c) t (uval c a) (uopd c r).
Proof. exact u_assign_forms. Qed.
Print Assumptions C68_unsigned_assign.

Example C68_unsigned_assign_case :
  wf_u (uof rel 3) /\ uopd_ok (Ref (Prim 5)) /\
  u_assign_form rel Tr_sub (uof rel 3) (Ref (Prim 5)) = Ret (uof rel (MAXU - 1)) /\
  u_assign_form dev Tr_sub (uof dev 3) (Ref (Prim 5)) = Panic "attempt to subtract with overflow" /\
  u_assign_form dev Tr_mul (uof dev 3) (Own (Big (uof dev 5))) = Ret (uof dev 15) /\
  u_assign_form rel Tr_div (uof rel 7) (Own (Prim 2)) = Ret (uof rel 3) /\
  u_assign_form rel Tr_or (uof rel 8) (Ref (Big (uof rel 3))) = Ret (uof rel 11).
Proof. vm_compute. intuition congruence. Qed.

(** C68: the same for I256. *)
Theorem C68_signed_assign : forall c t a r,
  wf_i a -> iopd_ok r ->
  i_assign_form c t a r = assign_outcome c (in_i 256) (iof c) t (ival c a) (iopd c r).
Proof. exact i_assign_forms. Qed.
Print Assumptions C68_signed_assign.

Example C68_signed_assign_case :
  wf_i (iof rel (-7)) /\ iopd_ok (Own (Prim 2)) /\
  i_assign_form rel Tr_rem (iof rel (-7)) (Own (Prim 2)) = Ret (iof rel (-1)) /\
  i_assign_form dev Tr_and (iof dev (-7)) (Ref (Prim 12)) = Ret (iof dev 8).
Proof. vm_compute. intuition congruence. Qed.

(** C68: [l << r] and [l >> r], both operands owned or borrowed, the amount of any of the fourteen integer types. *)
Theorem C68_unsigned_shift : forall c t l r,
  usize_ok c -> wf_u (arg_val l) -> samt_ok c (arg_val r) ->
  u_shift_form c t l r = shift_outcome c (uof c) t (uval c (arg_val l)) (samt_val c (arg_val r)).
Proof. exact u_shift_forms. Qed.
Print Assumptions C68_unsigned_shift.

Example C68_unsigned_shift_case :
  usize_ok dev /\ samt_ok dev (Sa_int Tisize (-1)) /\ samt_ok dev (Sa_u256 (uof dev 4)) /\
  u_shift_form dev Sh_left (Own (uof dev 3)) (Ref (Sa_u256 (uof dev 4))) = Ret (uof dev 48) /\
  u_shift_form dev Sh_right (Ref (uof dev 48)) (Ref (Sa_int (TI 8) 4)) = Ret (uof dev 3) /\
  u_shift_form dev Sh_left (Own (uof dev 3)) (Own (Sa_int Tisize (-1))) = Panic "attempt to shift left with overflow" /\
  u_shift_form rel Sh_left (Own (uof rel 3)) (Own (Sa_int Tisize (-1))) = Ret (uof rel (2 ^ 255)).
Proof. split; [unfold usize_ok; cbn; auto|]. split; [split; [cbn; auto 20|reflexivity]|]. vm_compute. intuition congruence. Qed.

(** C68: the same for I256. *)
Theorem C68_signed_shift : forall c t l r,
  usize_ok c -> wf_i (arg_val l) -> samt_ok c (arg_val r) ->
  i_shift_form c t l r = shift_outcome c (iof c) t (ival c (arg_val l)) (samt_val c (arg_val r)).
Proof. exact i_shift_forms. Qed.
Print Assumptions C68_signed_shift.

Example C68_signed_shift_case :
  i_shift_form dev Sh_right (Ref (iof dev (-9))) (Ref (Sa_int (TU 32) 1)) = Ret (iof dev (-5)) /\
  i_shift_form dev Sh_right (Own (iof dev (-9))) (Own (Sa_i256 (iof dev 256))) = Panic "attempt to shift right with overflow".
Proof. vm_compute. intuition congruence. Qed.

(** C68: [a <<= r] and [a >>= r] leave in [a] what [a << r] and [a >> r] give, and panic where they do. *)
Theorem C68_unsigned_shift_assign : forall c t a r,
  usize_ok c -> wf_u a -> samt_ok c (arg_val r) ->
  u_shift_assign_form c t a r = shift_outcome c (uof c) t (uval c a) (samt_val c (arg_val r)).
Proof. exact u_shift_assign_forms. Qed.
Print Assumptions C68_unsigned_shift_assign.

Example C68_unsigned_shift_assign_case :
  u_shift_assign_form rel Sh_right (uof rel 48) (Ref (Sa_int (TU 64) 4)) = Ret (uof rel 3) /\
  u_shift_assign_form dev Sh_left (uof dev 48) (Own (Sa_int (TU 64) (2 ^ 32))) = Panic "attempt to shift left with overflow" /\
  u_shift_assign_form rel Sh_left (uof rel 48) (Own (Sa_int (TU 64) (2 ^ 32))) = Ret (uof rel 48).
Proof. vm_compute. intuition congruence. Qed.

(** C68: the same for I256. *)
Theorem C68_signed_shift_assign : forall c t a r,
  usize_ok c -> wf_i a -> samt_ok c (arg_val r) ->
  i_shift_assign_form c t a r = shift_outcome c (iof c) t (ival c a) (samt_val c (arg_val r)).
Proof. exact i_shift_assign_forms. Qed.
Print Assumptions C68_signed_shift_assign.

Example C68_signed_shift_assign_case :
  i_shift_assign_form rel Sh_right (iof rel (-9)) (Ref (Sa_int (TU 32) 1)) = Ret (iof rel (-5)).
Proof. vm_compute. reflexivity. Qed.

(** C68: [!x] and [-x], owned or borrowed. *)
Theorem C68_unary : forall c x y,
  wf_u (arg_val x) -> wf_i (arg_val y) ->
  u_not_form x = uof c (MAXU - uval c (arg_val x)) /\
  i_not_form y = iof c (- ival c (arg_val y) - 1) /\
  i_neg_form c y = (if debug_assertions c && (ival c (arg_val y) =? MINI)
                    then Panic "attempt to negate with overflow" else Ret (iof c (- ival c (arg_val y)))).
Proof. exact unary_forms. Qed.
Print Assumptions C68_unary.

Example C68_unary_case :
  wf_u (uof dev 5) /\ wf_i (iof dev MINI) /\
  u_not_form (Ref (uof dev 5)) = uof dev (MAXU - 5) /\ i_not_form (Own (iof dev 5)) = iof dev (-6) /\
  i_neg_form dev (Ref (iof dev MINI)) = Panic "attempt to negate with overflow" /\
  i_neg_form rel (Own (iof rel MINI)) = Ret (iof rel MINI).
Proof. vm_compute. intuition congruence. Qed.

(** C68: sum() and product() over owned and over borrowed items. *)
Theorem C68_iterators : forall c l m,
  Forall wf_u (map arg_val l) -> Forall wf_i (map arg_val m) ->
  let us := map (fun x => uval c (arg_val x)) l in
  let is := map (fun x => ival c (arg_val x)) m in
  folded c (in_u 256) (uof c) sumz "attempt to add with overflow" us (u_sum_form c l) /\
  folded c (in_u 256) (uof c) prodz "attempt to multiply with overflow" us (u_product_form c l) /\
  folded c (in_i 256) (iof c) sumz "attempt to add with overflow" is (i_sum_form c m) /\
  folded c (in_i 256) (iof c) prodz "attempt to multiply with overflow" is (i_product_form c m).
Proof. exact iter_outcomes. Qed.
Print Assumptions C68_iterators.

Example C68_iterators_case :
  Forall wf_u (map arg_val [Own (uof dev 2); Ref (uof dev 3)]) /\ Forall wf_i (map arg_val [Own (iof dev 2); Ref (iof dev (-3))]) /\
  u_sum_form dev [Ref (uof dev 2); Ref (uof dev 3)] = Ret (uof dev 5) /\
  u_sum_form dev [Own (uof dev MAXU); Own (uof dev 1)] = Panic "attempt to add with overflow" /\
  i_product_form dev [Own (iof dev 2); Own (iof dev (-3))] = Ret (iof dev (-6)).
Proof. split; [repeat constructor; vm_compute; intuition congruence|]. split; [repeat constructor; vm_compute; intuition congruence|].
  vm_compute. intuition congruence. Qed.


(** * C71: what every panic says *)

From Coq Require Import ZArith String List Bool Lia.
Import ListNotations.
From Verif Require Import M_Prim M_Words M_Intr M_Div M_Mul M_Ops M_UintApi M_IntApi M_Parse.
From Verif Require Import Spec Spec_Shift Spec_Convert Spec_Parse Spec_Builds Spec_Api Spec_Panic Spec_Message P_Words P_Message T_Base T_Parse.
Open Scope Z_scope.

(** C71: in every build, a panic of an operation of the table carries the message the table gives for the arguments. *)
Theorem C71_messages : forall c, usize_ok c -> Forall (fun v => speaks c (v_sig v) (v_fn v c) (v_msg v c)) voices.
Proof. exact message_table. Qed.
Print Assumptions C71_messages.

Example C71_messages_case :
  In (Voice (U --> U --> Runs U) u_op_sub (fun _ _ _ => eq "attempt to subtract with overflow"%string)) voices /\
  legal devB U (uof devB 3) /\ legal devB U (uof devB 5) /\
  u_op_sub devB (uof devB 3) (uof devB 5) = Panic "attempt to subtract with overflow" /\
  i_div_rem_euclid rel (iof rel MINI) (iof rel (-1)) = Panic "attempt to divide with overflow" /\
  i_div_rem_euclid dev (iof dev (-5)) (iof dev MINI) = Panic "attempt to subtract with overflow" /\
  i_div_rem_euclid relL (iof relL (-5)) (iof relL 0) = Panic "attempt to divide by zero".
Proof.
  split; [unfold voices; do 2 right; left; reflexivity|]. split; [unfold legal; cbn [same]; auto using wf_uof|].
  split; [unfold legal; cbn [same]; auto using wf_uof|]. vm_compute. auto 6.
Qed.
Example C71_radix_case :
  u_from_str_radix dev (text "1") 37 = Panic "from_str_radix_int: must lie in the range `[2, 36]` - found 37" /\
  i_from_str_radix relL (text "") 4294967295 = Panic "from_str_radix_int: must lie in the range `[2, 36]` - found 4294967295".
Proof. split; reflexivity. Qed.
Example C71_literal_case :
  i_const_from_str_prefixed dev (text "-0x1_G") = Panic "invalid digit" /\
  announces (snd (sign true (text "-0x1_G"))) (text "0x") 16 (text "1_G") /\ stumbles 16 (text "1_G") /\
  u_const_from_str_prefixed relL (text "+") = Panic "missing number" /\ snd (sign false (text "+")) = [] /\
  u_const_from_str_prefixed relL [] = Panic "empty string".
Proof.
  split; [vm_compute; reflexivity|]. split.
  { split; [right; right; left; reflexivity|]. split; [reflexivity|]. split; [discriminate|].
    intros pre r t I E T. cbn [In radix_prefixes] in I.
    repeat (destruct I as [I|I]; [injection I as <- <-; cbn; lia|]). destruct I. }
  split.
  { exists [49; 95], 71, [], [1]. split; [reflexivity|]. split; [reflexivity|].
    split; [unfold digit; intros d H; lia|]. split; [repeat constructor; unfold digit; lia|].
    split; [vm_compute; discriminate|]. intros p d q H. destruct p as [|p0 p]; [reflexivity|]. destruct p; discriminate. }
  split; [vm_compute; reflexivity|]. split; reflexivity.
Qed.

(** C71: every operation of the table of C56 either never panics or has its messages in the table. *)
Theorem C71_covers_every_panic : Forall (fun e => (e_cond e = fun _ => never _) \/ In (e_op e) (map v_op voices)) (panics_api ++ panics_amounts ++ panics_memory).
Proof. exact message_cover. Qed.
Print Assumptions C71_covers_every_panic.

Example C71_covers_case : length voices = 116%nat.
Proof. reflexivity. Qed.

(** C71: the operators report a failure with the words of the operators on the primitive integers, except [%=]. *)
Theorem C71_like_primitives : forall c a b x y s,
  usize_ok c -> wf_u a -> wf_u b -> wf_i x -> wf_i y -> amt_ok s -> forall c' n p q,
  Forall (fun r => same_words r (u_add c' n p q)) [u_op_add c a b; u_op_add_assign c a b] /\
  Forall (fun r => same_words r (u_add c' n p q)) [i_op_add c x y; i_op_add_assign c x y] /\
  Forall (fun r => same_words r (u_sub c' n p q)) [u_op_sub c a b; u_op_sub_assign c a b] /\
  Forall (fun r => same_words r (u_sub c' n p q)) [i_op_sub c x y; i_op_sub_assign c x y] /\
  Forall (fun r => same_words r (u_mul c' n p q)) [u_op_mul c a b; u_op_mul_assign c a b] /\
  Forall (fun r => same_words r (u_mul c' n p q)) [i_op_mul c x y; i_op_mul_assign c x y] /\
  Forall (fun r => same_words r (u_div p q)) [u_op_div c a b; u_op_div_assign c a b] /\
  Forall (fun r => same_words r (u_div p q)) [i_op_div c x y; i_op_div_assign c x y] /\
  Forall (fun r => same_words r (u_rem p q)) [u_op_rem c a b] /\
  Forall (fun r => same_words r (u_rem p q)) [i_op_rem c x y] /\
  Forall (fun r => same_words r (u_shl c' n p q)) [u_shl_amt c a s; u_shl_assign c a s] /\
  Forall (fun r => same_words r (u_shl c' n p q)) [i_shl_amt c x s; i_shl_assign c x s] /\
  Forall (fun r => same_words r (p_shr c' n p q)) [u_shr_amt c a s; u_shr_assign c a s] /\
  Forall (fun r => same_words r (p_shr c' n p q)) [i_shr_amt c x s; i_shr_assign c x s].
Proof. exact message_primitives. Qed.
Print Assumptions C71_like_primitives.

Example C71_primitives_case : exists c x y, wf_u x /\ wf_u y /\
  u_op_mul c x y = Panic "attempt to multiply with overflow" /\ u_mul c 64 (2 ^ 63) 2 = Panic "attempt to multiply with overflow".
Proof. exists dev, (uof dev (2 ^ 255)), (uof dev 2). split; [apply wf_uof|]. split; [apply wf_uof|]. split; vm_compute; reflexivity. Qed.

(** C71 for [%=]: refuted. Without debug assertions a zero divisor is reported as a division, not a remainder. *)
Theorem C71_rem_assign_refuted : ~ (forall c a b, usize_ok c -> wf_u a -> wf_u b -> forall p q, same_words (u_op_rem_assign c a b) (u_rem p q)) /\
  ~ (forall c a b, usize_ok c -> wf_i a -> wf_i b -> forall p q, same_words (i_op_rem_assign c a b) (u_rem p q)).
Proof. exact message_rem_assign. Qed.
Print Assumptions C71_rem_assign_refuted.

Example C71_rem_assign_case :
  u_op_rem_assign rel (uof rel 7) (uof rel 0) = Panic "attempt to divide by zero" /\
  u_op_rem_assign dev (uof dev 7) (uof dev 0) = Panic "attempt to calculate the remainder with a divisor of zero" /\
  u_op_rem rel (uof rel 7) (uof rel 0) = Panic "attempt to calculate the remainder with a divisor of zero".
Proof. vm_compute. auto. Qed.


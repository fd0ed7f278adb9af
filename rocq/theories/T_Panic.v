(** * C56: when every public operation panics *)

From Coq Require Import ZArith String List Bool Lia.
Import ListNotations.
From Verif Require Import M_Prim M_Words M_Intr M_Div M_Mul M_Ops M_UintApi M_IntApi M_Parse.
From Verif Require Import Spec Spec_Fold Spec_Shift Spec_Convert Spec_Parse Spec_Builds Spec_Api Spec_Panic P_Words P_Panic T_Base T_Parse.
Open Scope Z_scope.

(** C56: in every build, every operation of the table panics on the legal arguments that meet its condition and
    returns a value on all others. *)
Theorem C56_panics_exactly : forall c,
  usize_ok c ->
  Forall (fun e => panics_when c (e_sig e) (e_fn e c) (e_cond e c)) (panics_api ++ panics_amounts ++ panics_memory).
Proof. exact panic_table. Qed.
Print Assumptions C56_panics_exactly.

Example C56_panics_case :
  usize_ok dev /\ usize_ok relL /\
  In (Entry (I --> I --> Runs I) i_op_div (fun c a b => ival c b = 0)) panics_api /\
  In (Entry (I --> I --> Runs (Opt (Pair I I))) i_checked_div_rem_euclid (fun c a b => euclid_slip c a b)) panics_api /\
  legal dev I (iof dev (-5)) /\ legal dev I (iof dev MINI) /\ euclid_slip dev (iof dev (-5)) (iof dev MINI) /\
  ~ euclid_slip rel (iof rel (-5)) (iof rel MINI) /\
  i_checked_div_rem_euclid dev (iof dev (-5)) (iof dev MINI) = Panic "attempt to subtract with overflow" /\
  i_checked_div_rem_euclid rel (iof rel (-5)) (iof rel MINI) = Ret (Some (iof rel 1, iof rel (2 ^ 255 - 5))) /\
  i_op_div dev (iof dev MINI) (iof dev (-1)) = Ret (iof dev MINI) /\ panics (i_op_div dev (iof dev MINI) (iof dev 0)).
Proof.
  split; [unfold usize_ok; cbn; auto|]. split; [unfold usize_ok; cbn; auto|].
  split; [unfold panics_api; do 86 right; left; reflexivity|].
  split; [unfold panics_api; do 116 right; left; reflexivity|].
  split; [unfold legal; cbn [same]; auto using wf_iof|]. split; [unfold legal; cbn [same]; auto using wf_iof|].
  split; [vm_compute; intuition discriminate|]. split; [intros [H _]; discriminate|].
  split; [vm_compute; reflexivity|]. split; [vm_compute; reflexivity|]. split; [vm_compute; reflexivity|].
  eexists. vm_compute. reflexivity.
Qed.
Example C56_sum_case :
  let l := [uof dev MAXU; uof dev 1; uof dev 0] in
  (exists n, over_u dev (sumz (firstn n (map (uval dev) l)))) /\ u_sum dev l = Panic "attempt to add with overflow" /\
  u_sum rel [uof rel MAXU; uof rel 1; uof rel 0] = Ret (uof rel 0).
Proof.
  split; [exists 2%nat; split; [reflexivity|vm_compute; intuition congruence]|]. split; vm_compute; reflexivity.
Qed.
Example C56_literal_case :
  accepted true MINI MAXI (text "-0x1_F") /\ i_const_from_str_prefixed dev (text "-0x1_F") = Ret (iof dev (-31)) /\
  panics (i_const_from_str_prefixed dev (text "-0x1_G")).
Proof.
  split; [|split; [vm_compute; reflexivity|eexists; vm_compute; reflexivity]].
  exists [48; 120], 16, (text "1_F"), [1; 15]. split; [right; right; left; reflexivity|]. split; [reflexivity|].
  split; [discriminate|]. split; [repeat constructor; unfold digit; lia|]. split; [vm_compute; intuition discriminate|].
  intros p d q H. destruct p as [|p0 [|p1 p]].
  - vm_compute. reflexivity.
  - injection H as <- <- <-. vm_compute. reflexivity.
  - destruct p; discriminate.
Qed.

(** C56: the table has exactly the operations of the catalogue of all public operations. *)
Theorem C56_covers_every_operation : map e_op (panics_api ++ panics_amounts ++ panics_memory) = api ++ api_amounts ++ api_memory.
Proof. exact panic_cover. Qed.
Print Assumptions C56_covers_every_operation.

Example C56_covers_case : length (panics_api ++ panics_amounts ++ panics_memory) = 388%nat.
Proof. reflexivity. Qed.


(** * C75: whole programs behave the same in every build *)

From Coq Require Import ZArith List String Bool Lia.
Import ListNotations.
From Verif Require Import M_Prim M_Words M_Intr M_Div M_Mul M_Ops M_UintApi M_IntApi M_Parse Spec Spec_Shift Spec_Convert Spec_Builds Spec_Api
  Spec_Program Spec_Clients P_Program T_Base.
Open Scope Z_scope.

(** C75: a program that calls any operations of [api] and returns in one build returns the same in every build for a
    target with the same pointer width that has no checks the first one lacks: with other checks, the other byte order,
    the other intrinsics. *)
Theorem C75_portable : forall c1 c2,
  usize_bits c1 = usize_bits c2 -> usize_ok c1 -> checks_of c1 c2 ->
  forall G k (p : prog G k), lawful api p -> forall e f, same_env c1 c2 G e f ->
  forall x, run c1 p e = Ret x -> exists y, run c2 p f = Ret y /\ same c1 c2 k x y.
Proof. exact program_portable. Qed.

(** A program that adds and prints: it returns in the dev build of one target and in the release build of another,
    unless the sum overflows, when only the release build returns. *)
Definition sum_compared : prog [U; U] Flag :=
  Call (Op (U --> U --> Runs U) u_op_add) (With v0 (With v1 To_outcome)) (
  Call (Op (U --> U --> Gives (Opt U)) u_checked_add) (With v1 (With v2 To_value)) (
  Match_opt v0 (Call (Op (U --> U --> Gives Flag) u_le) (With v0 (With v2 To_value)) (Return v0)) (Fails "overflow"))).
Example C75_portable_case :
  let c2 := Build_cfg false false true 64 true in
  usize_bits dev = usize_bits c2 /\ usize_ok dev /\ checks_of dev c2 /\ lawful api sum_compared /\
  same_env dev c2 [U; U] (uof dev (2 ^ 200), (uof dev 7, tt)) (uof c2 (2 ^ 200), (uof c2 7, tt)) /\
  run dev sum_compared (uof dev (2 ^ 200), (uof dev 7, tt)) = Ret true /\
  run c2 sum_compared (uof c2 (2 ^ 200), (uof c2 7, tt)) = Ret true /\
  run dev sum_compared (uof dev MAXU, (uof dev 7, tt)) = Panic "attempt to add with overflow" /\
  run c2 sum_compared (uof c2 MAXU, (uof c2 7, tt)) = Panic "overflow".
Proof.
  split; [reflexivity|]. split; [vm_compute; tauto|]. split; [split; reflexivity|].
  split. { split; [apply (nth_error_In _ 13); reflexivity|]. split; [apply (nth_error_In _ 8); reflexivity|].
    split; [split; [apply (nth_error_In _ 179); reflexivity|exact Logic.I]|exact Logic.I]. }
  split; [vm_compute; intuition congruence|]. repeat split; vm_compute; reflexivity.
Qed.

(** C75: with the same checks the outcomes are the same, also the panics with their messages and the loops without end. *)
Theorem C75_same_checks : forall c1 c2,
  usize_bits c1 = usize_bits c2 -> usize_ok c1 ->
  debug_assertions c1 = debug_assertions c2 -> overflow_checks c1 = overflow_checks c2 ->
  forall G k (p : prog G k), lawful api p -> forall e f, same_env c1 c2 G e f ->
  alike (den k) (same c1 c2 k) (run c1 p e) (run c2 p f).
Proof. exact program_alike. Qed.

(** a loop without end, which counts in a U256, and a division by zero after three rounds *)
Definition count_up (n : nat) : prog [U; U] U :=
  Loop n v0 (Call (Op (U --> U --> Runs U) u_op_add) (With v0 (With v2 To_outcome)) (
             Const any true (Tuple v0 v1 (Return v0)))) (Return v0).
Definition count_down (n : nat) : prog [U; U] U :=
  Loop n v0 (Call (Op (U --> U --> Runs U) u_op_sub) (With v0 (With v2 To_outcome)) (
             Call (Op (U --> U --> Runs U) u_op_rem) (With v3 (With v0 To_outcome)) (
             Const any true (Tuple v0 v2 (Return v0))))) (Return v0).
Example C75_same_checks_case :
  let e c := (uof c 3, (uof c 1, tt)) in
  usize_bits dev = usize_bits devB /\ usize_ok dev /\ same_env dev devB [U; U] (e dev) (e devB) /\
  lawful api (count_down 9) /\
  run dev (count_up 5) (e dev) = NoFuel /\ run devB (count_up 5) (e devB) = NoFuel /\
  run dev (count_down 9) (e dev) = Panic "attempt to calculate the remainder with a divisor of zero" /\
  run devB (count_down 9) (e devB) = Panic "attempt to calculate the remainder with a divisor of zero".
Proof.
  cbv zeta. split; [reflexivity|]. split; [vm_compute; tauto|]. split; [vm_compute; intuition congruence|].
  split. { split; [|exact Logic.I]. split; [apply (nth_error_In _ 15); reflexivity|].
    split; [apply (nth_error_In _ 21); reflexivity|]. split; exact Logic.I. }
  repeat split; vm_compute; reflexivity.
Qed.

(** C75, also with shift amounts and rotations of any size: the same, as long as both builds use the same intrinsics. *)
Theorem C75_amounts : forall c1 c2,
  usize_bits c1 = usize_bits c2 -> usize_ok c1 -> llvm c1 = llvm c2 -> checks_of c1 c2 ->
  forall G k (p : prog G k), lawful (api ++ api_amounts) p -> forall e f, same_env c1 c2 G e f ->
  forall x, run c1 p e = Ret x -> exists y, run c2 p f = Ret y /\ same c1 c2 k x y.
Proof. exact program_amounts. Qed.

Definition shift_by : prog [U; Amt] U :=
  Call (Op (U --> Amt --> Runs U) u_shl_amt) (With v0 (With v1 To_outcome)) (Return v0).
Example C75_amounts_case :
  let relB := Build_cfg false false true 64 false in
  let e c := (uof c 1, (Amt_u32 256, tt)) in
  usize_bits rel = usize_bits relB /\ usize_ok rel /\ checks_of rel relB /\ same_env rel relB [U; Amt] (e rel) (e relB) /\
  In (Op (U --> Amt --> Runs U) u_shl_amt) (api ++ api_amounts) /\
  run rel shift_by (e rel) = Ret (uof rel (2 ^ 128)) /\ run relB shift_by (e relB) = Ret (uof relB (2 ^ 128)) /\
  run (with_llvm rel true) shift_by (e rel) = Ret (uof rel 1) /\ run dev shift_by (e dev) = Panic "attempt to shift left with overflow".
Proof.
  cbv zeta. split; [reflexivity|]. split; [vm_compute; tauto|]. split; [split; intros H; exact H|].
  split; [vm_compute; intuition congruence|]. split; [apply in_or_app; right; cbn [In api_amounts]; auto 12|].
  repeat split; vm_compute; reflexivity.
Qed.

(** C75, for all operations, also those that show the byte order of memory: builds for the same target. *)
Theorem C75_same_target : forall c1 c2,
  same_target c1 c2 -> usize_ok c1 -> checks_of c1 c2 ->
  forall G k (p : prog G k), lawful (api ++ api_amounts ++ api_memory) p -> forall e, legal_env c1 G e ->
  forall x, run c1 p e = Ret x -> run c2 p e = Ret x.
Proof. exact program_target. Qed.

Example C75_same_target_case :
  same_target dev rel /\ usize_ok dev /\ checks_of dev rel /\ legal_env dev [U; U] (uof dev 84, (uof dev 30, tt)) /\
  run dev (gcd 9) (uof dev 84, (uof dev 30, tt)) = Ret (uof dev 6) /\ run rel (gcd 9) (uof dev 84, (uof dev 30, tt)) = Ret (uof dev 6).
Proof.
  split; [vm_compute; auto|]. split; [vm_compute; tauto|]. split; [split; reflexivity|].
  split; [vm_compute; intuition congruence|]. split; vm_compute; reflexivity.
Qed.

(** C75: no program reaches undefined behaviour, and it only ever gets values that are legal, such as 256-bit integers
    whose words fit.  A program without loops ends. *)
Theorem C75_defined : forall c, usize_ok c ->
  forall G k (p : prog G k), lawful (api ++ api_amounts ++ api_memory) p -> forall e, legal_env c G e ->
  (forall why, run c p e <> UB why) /\ (forall x, run c p e = Ret x -> legal c k x) /\ (straight p -> run c p e <> NoFuel).
Proof.
  intros c U G k p L e E. destruct (program_defined c U G k p L e E) as [H1 H2].
  split; [exact H1|]. split; [exact H2|]. intros S. exact (program_ends c U G k p L S e E).
Qed.

Example C75_defined_case :
  straight sum_compared /\ ~ straight (gcd 9) /\ legal mixB U (uof mixB (-1)) /\ ~ legal mixB U (mkU (2 ^ 128) 0) /\
  run mixB (gcd 2) (uof mixB 84, (uof mixB 30, tt)) = NoFuel.
Proof.
  split; [repeat split|]. split; [intros H; exact H|]. split; [vm_compute; intuition congruence|].
  split; [|vm_compute; reflexivity]. intros (H & _). unfold wf_u in H. cbn [uw0 uw1] in H. unfold in_u in H. lia.
Qed.

(** one print for the five theorems, as each takes its time *)
Definition C75_all := (C75_portable, C75_same_checks, C75_amounts, C75_same_target, C75_defined).
Print Assumptions C75_all.

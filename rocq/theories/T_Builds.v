(** * C43, C44, C45, C48: every public operation in two builds *)

From Coq Require Import ZArith List String Bool Lia.
Import ListNotations.
From Verif Require Import M_Prim M_Words M_Intr M_Div M_Mul M_Ops M_UintApi M_IntApi M_Float M_Parse M_Fmt M_Serde
  Spec Spec_Shift Spec_Convert Spec_Builds Spec_Api P_Words P_BuildsAll T_Base.
Open Scope Z_scope.

(** C43: on the same legal arguments, every operation that returns in the debug build returns
    the same in the release build. *)
Theorem C43_debug_release : forall c,
  usize_ok c ->
  Forall (fun p => on_legal returns_too (@eq) (debug_build c) (op_sig p) (op_fn p (debug_build c)) (op_fn p (release_build c)))
    (api ++ api_amounts ++ api_memory).
Proof. exact debug_release. Qed.
Print Assumptions C43_debug_release.

(** The debug build checks more: [U256::MAX + 1] and [1 << 256] panic in it and return in the release
    build, and [2 + 3] returns 5 in both. *)
Example C43_debug_release_case :
  let d := debug_build dev in let r := release_build dev in
  usize_ok dev /\ legal d U (uof d MAXU) /\ legal d Amt (Amt_u32 256) /\
  u_op_add d (uof d 2) (uof d 3) = Ret (uof d 5) /\ u_op_add r (uof d 2) (uof d 3) = Ret (uof d 5) /\
  panics (u_op_add d (uof d MAXU) (uof d 1)) /\ u_op_add r (uof d MAXU) (uof d 1) = Ret (uof d 0) /\
  panics (u_shl_amt d (uof d 1) (Amt_u32 256)) /\ u_shl_amt r (uof d 1) (Amt_u32 256) = Ret (uof d (2 ^ 128)) /\
  In (Op (U --> U --> Runs U) u_op_add) (api ++ api_amounts ++ api_memory).
Proof.
  split; [vm_compute; tauto|]. split; [vm_compute; intuition congruence|]. split; [vm_compute; intuition congruence|].
  split; [vm_compute; reflexivity|]. split; [vm_compute; reflexivity|]. split; [eexists; vm_compute; reflexivity|]. split; [vm_compute; reflexivity|].
  split; [eexists; vm_compute; reflexivity|]. split; [vm_compute; reflexivity|]. apply (nth_error_In _ 13). reflexivity.
Qed.

(** C43, for debug assertions and overflow checks switched on separately: what returns with more
    checks returns the same with fewer. *)
Theorem C43_checks : forall c1 c2,
  same_target c1 c2 -> checks_of c1 c2 -> usize_ok c1 ->
  Forall (fun p => on_legal returns_too (@eq) c1 (op_sig p) (op_fn p c1) (op_fn p c2)) (api ++ api_amounts ++ api_memory).
Proof. exact checks_return. Qed.
Print Assumptions C43_checks.

Example C43_checks_case :
  let f := Build_cfg false false true 32 false in
  same_target mixB f /\ checks_of mixB f /\ ~ checks_of f mixB /\ usize_ok mixB /\
  i_op_mul mixB (iof mixB (-3)) (iof mixB 5) = Ret (iof mixB (-15)) /\
  i_op_mul f (iof mixB (-3)) (iof mixB 5) = Ret (iof mixB (-15)) /\
  panics (i_op_mul mixB (iof mixB MINI) (iof mixB 5)) /\ i_op_mul f (iof mixB MINI) (iof mixB 5) = Ret (iof mixB MINI).
Proof.
  split; [vm_compute; auto|]. split; [vm_compute; intuition congruence|]. split; [intros [H _]; discriminate (H eq_refl)|].
  split; [vm_compute; tauto|]. split; [vm_compute; reflexivity|]. split; [vm_compute; reflexivity|].
  split; [eexists; vm_compute; reflexivity|vm_compute; reflexivity].
Qed.

(** C43, for any two builds for the same target: an operation that returns in both returns the
    same. *)
Theorem C43_agree : forall c1 c2,
  same_target c1 c2 -> usize_ok c1 ->
  Forall (fun p => on_legal agree (@eq) c1 (op_sig p) (op_fn p c1) (op_fn p c2)) (api ++ api_amounts ++ api_memory).
Proof. exact checks_agree. Qed.
Print Assumptions C43_agree.

Example C43_agree_case :
  let a := Build_cfg true false false 64 false in let b := Build_cfg false true false 64 false in
  same_target a b /\ usize_ok a /\ ~ checks_of a b /\ ~ checks_of b a /\
  u_rotate_left a (uof a 5) 255 = Ret (uof a (2 ^ 255 + 2)) /\ u_rotate_left b (uof a 5) 255 = Ret (uof a (2 ^ 255 + 2)) /\
  u_rotate_left a (uof a 5) 257 = Ret (uof a 10) /\ panics (u_rotate_left b (uof a 5) 257).
Proof.
  split; [vm_compute; auto|]. split; [vm_compute; tauto|]. split; [intros [_ H]; discriminate (H eq_refl)|].
  split; [intros [H _]; discriminate (H eq_refl)|]. split; [vm_compute; reflexivity|]. split; [vm_compute; reflexivity|].
  split; [vm_compute; reflexivity|]. eexists; vm_compute; reflexivity.
Qed.

(** C44: on legal arguments no operation reaches undefined behaviour, and every loop ends. *)
Theorem C44_no_undefined_behaviour : forall c,
  usize_ok c ->
  Forall (fun p => on_legal defined (@eq) c (op_sig p) (op_fn p c) (op_fn p c)) (api ++ api_amounts ++ api_memory).
Proof. exact no_undefined. Qed.
Print Assumptions C44_no_undefined_behaviour.

(** Undefined behaviour is an outcome of the model: reading uninitialised memory and writing past the
    end of a buffer reach it. *)
Example C44_no_undefined_behaviour_case :
  usize_ok dev /\ legal dev U (uof dev MAXU) /\ legal dev U (uof dev 0) /\
  u_op_div dev (uof dev MAXU) (uof dev 10) = Ret (uof dev (MAXU / 10)) /\ panics (u_op_div dev (uof dev MAXU) (uof dev 0)) /\
  ~ no_ub (buf_read (uninit 4) 0 4) /\ ~ no_ub (buf_write (uninit 4) 3 [1; 2]).
Proof.
  split; [vm_compute; tauto|]. split; [vm_compute; intuition congruence|]. split; [vm_compute; intuition congruence|].
  split; [vm_compute; reflexivity|]. split; [eexists; vm_compute; reflexivity|].
  split; intros H; exact (proj1 (H _) eq_refl).
Qed.

(** C45: on arguments that stand for the same things, every operation has the same outcome on a
    little- and on a big-endian target.  The list leaves out [api_memory]. *)
Theorem C45_endianness : forall c,
  usize_ok c ->
  Forall (fun p => in_builds same_outcome (with_endian c false) (with_endian c true) (op_sig p)
                     (op_fn p (with_endian c false)) (op_fn p (with_endian c true))) (api ++ api_amounts).
Proof. exact endian_same. Qed.
Print Assumptions C45_endianness.

Example C45_endianness_case :
  let l := with_endian dev false in let b := with_endian dev true in
  usize_ok dev /\ same l b U (mkU 5 1) (mkU 1 5) /\ mkU 5 1 = uof l (2 ^ 128 + 5) /\
  u_wrapping_mul l (mkU 5 1) (mkU 5 1) = Ret (mkU 25 10) /\ u_wrapping_mul b (mkU 1 5) (mkU 1 5) = Ret (mkU 10 25) /\
  u_to_be_bytes l (mkU 5 1) = u_to_be_bytes b (mkU 1 5) /\ u_to_ne_bytes l (mkU 5 1) <> u_to_ne_bytes b (mkU 1 5).
Proof.
  split; [vm_compute; tauto|]. split; [vm_compute; intuition congruence|]. vm_compute. intuition congruence.
Qed.

(** C48 at the level of the public operations, as far as it holds: with the native and with the LLVM
    intrinsics every operation has the same outcome.  Shifts take amounts below 256 and rotations at
    most 256 here; for larger ones see [C48_refuted]. *)
Theorem C48_api_partial : forall c,
  usize_ok c ->
  Forall (fun p => on_legal (fun A => @eq (res A)) (@eq) c (op_sig p) (op_fn p (with_llvm c false)) (op_fn p (with_llvm c true)))
    (api ++ api_memory).
Proof. exact backend_same. Qed.
Print Assumptions C48_api_partial.

Example C48_api_case :
  let n := with_llvm relL false in let l := with_llvm relL true in
  usize_ok relL /\ legal relL U (uof relL MAXU) /\
  u_checked_mul n (uof n (2 ^ 128)) (uof n (2 ^ 127 + 1)) = Ret (Some (uof n (2 ^ 255 + 2 ^ 128))) /\
  u_checked_mul l (uof n (2 ^ 128)) (uof n (2 ^ 127 + 1)) = Ret (Some (uof n (2 ^ 255 + 2 ^ 128))) /\
  u_op_rem n (uof n MAXU) (uof n (2 ^ 130 + 7)) = u_op_rem l (uof n MAXU) (uof n (2 ^ 130 + 7)) /\
  n_mul3 n (uof n 3) (uof n 4) = Ret (uof n 12) /\ mul3 l (uof n 3) (uof n 4) = Ret (uof n 12).
Proof.
  split; [vm_compute; tauto|]. vm_compute. intuition congruence.
Qed.


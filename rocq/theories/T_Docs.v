(** * C70: the documentation examples and the unit tests hold in every build *)

From Coq Require Import ZArith String List Bool Lia.
Import ListNotations.
From Verif Require Import M_Prim M_Words M_Visit M_Serde.
From Verif Require Import Spec Spec_Convert Spec_Docs P_Docs T_Base.
Open Scope Z_scope.

(** C70: every example of the documentation in [doc_examples] computes true, whatever the build. *)
Theorem C70_documentation : forall c, Forall (fun t => t c = Ret true) doc_examples.
Proof. exact docs_true. Qed.
Print Assumptions C70_documentation.

Example C70_documentation_case : (300 <= length doc_examples)%nat /\ (nth 100 doc_examples (fun _ => NoFuel)) relL = Ret true.
Proof. vm_compute. split; [repeat constructor | reflexivity]. Qed.

(** C70: every assertion of the unit tests in [unit_tests] and [sized_tests] computes true, whatever the build. *)
Theorem C70_unit_tests : forall c, usize_ok c -> Forall (fun t => t c = Ret true) (unit_tests ++ sized_tests).
Proof. exact tests_true. Qed.
Print Assumptions C70_unit_tests.

Example C70_unit_tests_case : (180 <= length (unit_tests ++ sized_tests))%nat /\ usize_ok mixB /\
  (nth 20 unit_tests (fun _ => NoFuel)) mixB = Ret true.
Proof. vm_compute. split; [repeat constructor | split; [auto | reflexivity]]. Qed.

(** C70: every example and unit test marked [should_panic] panics, whatever the build. *)
Theorem C70_panics : forall c, Forall (fun t => panics (t c)) (docs_panic ++ tests_panic).
Proof. exact docs_panicking. Qed.
Print Assumptions C70_panics.

Example C70_panics_case : (nth 0 docs_panic (fun _ => NoFuel)) rel = Panic "attempt to divide by zero" /\
  (nth 2 tests_panic (fun _ => NoFuel)) relL = Panic "invalid digit".
Proof. vm_compute. split; reflexivity. Qed.

(** C70 for the examples that take long to compute: only in the dev build of a 64-bit little-endian target. What is
    missing: the other builds, and the statements left out of [long_examples] (numerals of 64 digits and more);
    they are instances of C31-C37. *)
Theorem C70_long_partial : Forall (fun t => t dev = Ret true) long_examples.
Proof. exact long_true. Qed.
Print Assumptions C70_long_partial.

Example C70_long_case : (100 <= length long_examples)%nat.
Proof. vm_compute. repeat constructor. Qed.

(** C70: the texts and bytes shown in the comments of the example of the serde module, except the one of [bytes::be]. *)
Theorem C70_serde_comments : forall c, usize_ok c ->
  u_emit c Plain (u_new c 42) = Ret (Em_str (text "0x2a")) /\
  i_emit c Decimal (i_new c (-42)) = Ret (Em_str (text "-42")) /\
  visit (u_visitor c Prefixed) (In_str Transient (text "0x2a")) = Ret (Accepted (u_new c 42)) /\
  visit (u_visitor c Prefixed) (In_str Transient (text "42")) = Ret (Accepted (u_new c 42)) /\
  visit (i_visitor c Permissive) (In_str Transient (text "-0x2a")) = Ret (Accepted (i_new c (-42))) /\
  visit (i_visitor c Permissive) (In_str Transient (text "-42")) = Ret (Accepted (i_new c (-42))) /\
  visit (i_visitor c Permissive) (In_signed W64 (-42)) = Ret (Accepted (i_new c (-42))) /\
  i_emit c (Bytes (Some LE)) (i_new c (-42)) = Ret (Em_bytes (0xd6 :: repeat 0xff 31)) /\
  u_emit c (Compressed (Some BE)) (u_new c 42) = Ret (Em_bytes [0x2a]) /\
  i_emit c (Compressed (Some LE)) (i_new c (-42)) = Ret (Em_bytes [0xd6]).
Proof. exact serde_comments. Qed.
Print Assumptions C70_serde_comments.

Example C70_serde_case : usize_ok devB /\ u_emit devB Plain (u_new devB 42) = Ret (Em_str [48; 120; 50; 97]).
Proof. vm_compute. auto. Qed.

(** C70: the comment on [bytes::be] in that example, [0x2a, 0x00, ..., 0x00], is refuted: 42 is written with its
    low byte last. *)
Theorem C70_serde_be_refuted : forall c,
  u_emit c (Bytes (Some BE)) (u_new c 42) <> Ret (Em_bytes (0x2a :: repeat 0x00 31)) /\
  u_emit c (Bytes (Some BE)) (u_new c 42) = Ret (Em_bytes (repeat 0x00 31 ++ [0x2a])).
Proof. exact serde_be_comment. Qed.
Print Assumptions C70_serde_be_refuted.

Example C70_serde_be_case : u_emit dev (Bytes (Some BE)) (u_new dev 42) = Ret (Em_bytes (repeat 0 31 ++ [42])).
Proof. vm_compute. reflexivity. Qed.


(** * Proofs about the examples *)

From Coq Require Import ZArith List String Bool Lia.
From Verif Require Import M_Prim M_Words M_Convert M_Serde M_Visit Spec Spec_Convert Spec_Docs T_Base.
Import ListNotations.
Open Scope Z_scope.

(** whether an example gives true, and whether it panics *)
Definition gives_true (c : cfg) (t : example) : bool := match t c with Ret b => b | _ => false end.
Definition does_panic (c : cfg) (t : example) : bool := match t c with Panic _ => true | _ => false end.

Lemma all_true : forall c l, forallb (gives_true c) l = true -> Forall (fun t => t c = Ret true) l.
Proof.
  intros c l H. rewrite forallb_forall in H. apply Forall_forall. intros t It. specialize (H t It).
  unfold gives_true in H. destruct (t c) as [b | | |]; try discriminate H. rewrite H. reflexivity.
Qed.
Lemma all_panic : forall c l, forallb (does_panic c) l = true -> Forall (fun t => panics (t c)) l.
Proof.
  intros c l H. rewrite forallb_forall in H. apply Forall_forall. intros t It. specialize (H t It).
  unfold does_panic in H. destruct (t c) as [b | m | |]; try discriminate H. exists m. reflexivity.
Qed.

(** the builds: of these examples only [sized_tests] look at the size of usize *)
Ltac builds c :=
  destruct c as [d o b u l]; destruct d, o, b, l; vm_compute; reflexivity.
Ltac sized_builds c U :=
  destruct c as [d o b u l]; unfold usize_ok in U; cbn [usize_bits] in U;
  destruct U as [<- | [<- | [<- | []]]]; destruct d, o, b, l; vm_compute; reflexivity.

Lemma docs_true : forall c, Forall (fun t => t c = Ret true) doc_examples.
Proof. intros c. apply all_true. builds c. Qed.
Lemma tests_true : forall c, usize_ok c -> Forall (fun t => t c = Ret true) (unit_tests ++ sized_tests).
Proof.
  intros c U. apply Forall_app. split; apply all_true; [clear U; builds c | sized_builds c U].
Qed.
Lemma docs_panicking : forall c, Forall (fun t => panics (t c)) (docs_panic ++ tests_panic).
Proof. intros c. apply all_panic. builds c. Qed.
Lemma long_true : Forall (fun t => t dev = Ret true) long_examples.
Proof. apply all_true. vm_compute. reflexivity. Qed.

(** the comments in the example of src/serde.rs:16-33 *)
Lemma serde_comments : forall c, usize_ok c ->
  u_emit c Plain (u_new c 42) = Ret (Em_str (text "0x2a")) /\
  i_emit c Decimal (i_new c (-42)) = Ret (Em_str (text "-42")) /\
  visit (u_visitor c Prefixed) (In_str Transient (text "0x2a")) = Ret (Accepted (u_new c 42)) /\
  visit (u_visitor c Prefixed) (In_str Transient (text "42")) = Ret (Accepted (u_new c 42)) /\
  visit (i_visitor c Permissive) (In_str Transient (text "-0x2a")) = Ret (Accepted (i_new c (-42))) /\
  visit (i_visitor c Permissive) (In_str Transient (text "-42")) = Ret (Accepted (i_new c (-42))) /\
  visit (i_visitor c Permissive) (In_signed W64 (-42)) = Ret (Accepted (i_new c (-42))) /\
  i_emit c (Bytes (Some LE)) (i_new c (-42)) = Ret (Em_bytes (0xd6 :: repeat 0xff 31)) /\
  u_emit c (Compressed (Some BE)) (u_new c 42) = Ret (Em_bytes [0x2a]) /\
  i_emit c (Compressed (Some LE)) (i_new c (-42)) = Ret (Em_bytes [0xd6]).
Proof.
  intros c U. destruct c as [d o b u l]; unfold usize_ok in U; cbn [usize_bits] in U;
  destruct U as [<- | [<- | [<- | []]]]; destruct d, o, b, l; vm_compute; repeat split.
Qed.
Lemma serde_be_comment : forall c,
  u_emit c (Bytes (Some BE)) (u_new c 42) <> Ret (Em_bytes (0x2a :: repeat 0x00 31)) /\
  u_emit c (Bytes (Some BE)) (u_new c 42) = Ret (Em_bytes (repeat 0x00 31 ++ [0x2a])).
Proof.
  intros c. destruct c as [d o b u l]; destruct d, o, b, l; vm_compute; split; congruence.
Qed.

(** * C73: what each serde module blames a rejected input for *)

From Coq Require Import ZArith String List Bool Lia.
Import ListNotations.
From Verif Require Import M_Prim M_Words M_UintApi M_IntApi M_Float M_Parse M_Serde M_Visit.
From Verif Require Import Spec Spec_Bits Spec_Convert Spec_Parse Spec_Fmt Spec_Serde Spec_Visit Spec_Reject P_Reject T_Base T_Parse.
Open Scope Z_scope.

(** C73: a module rejects an input for a U256 exactly with the reason the specification gives: the kind of value it has
    no use for, the first fault of the text, the wrong length, the bytes that are no text, the float out of range or with a
    fraction, or the error of the format. *)
Theorem C73_unsigned_reason : forall c k i e,
  usize_ok c -> input_ok i -> errors_foreign i ->
  (visit (u_visitor c k) i = Ret (Rejected e) <-> blames c false k i e).
Proof. exact u_visit_blames. Qed.
Print Assumptions C73_unsigned_reason.

Example C73_unsigned_case :
  usize_ok dev /\ input_ok (In_char 233) /\ errors_foreign (In_seq (mkSeq None [DOk 1; DErr (ElementError 7)])) /\
  visit (u_visitor dev Plain) (In_unsigned W128 5) = Ret (Rejected (Wrong_type (Ux_u128 5) "a formatted 256-bit integer")) /\
  visit (u_visitor dev Prefixed) (In_str Owned (text "0b2")) = Ret (Rejected (Not_a_number InvalidDigit)) /\
  visit (u_visitor dev Prefixed) (In_str Owned []) = Ret (Rejected (Not_a_number Empty)) /\
  visit (u_visitor dev Decimal) (In_bytes Owned [255]) = Ret (Rejected (Wrong_value [255] "a formatted 256-bit integer")) /\
  visit (u_visitor dev (Bytes (Some BE))) (In_char 233) = Ret (Rejected (Wrong_type (Ux_str [195; 169]) "32 bytes in big endian")) /\
  visit (u_visitor dev (Bytes (Some LE))) (In_bytes Owned [1; 2; 3]) = Ret (Rejected (Wrong_length 3 "32 bytes in little endian")) /\
  visit (u_visitor dev (Compressed None)) (In_seq (mkSeq None [DOk 1; DErr (ElementError 7)])) = Ret (Rejected (Foreign 7)) /\
  visit (u_visitor dev (Compressed None)) (In_seq (mkSeq (Some 40) [])) = Ret (Rejected (Wrong_length 40 "bytes in little endian")).
Proof.
  split; [unfold usize_ok; cbn; auto|]. split; [cbn; lia|]. split; [repeat constructor|]. vm_compute. intuition congruence.
Qed.

(** C73: the same for I256. *)
Theorem C73_signed_reason : forall c k i e,
  usize_ok c -> input_ok i -> errors_foreign i ->
  (visit (i_visitor c k) i = Ret (Rejected e) <-> blames c true k i e).
Proof. exact i_visit_blames. Qed.
Print Assumptions C73_signed_reason.

Example C73_signed_case :
  visit (i_visitor dev Permissive) (In_f32 0x4b800000) = Ret (Rejected (Message
    "invalid conversion from single precision floating point number outside of valid integer range (-2^24, 2^24)")) /\
  visit (i_visitor dev Permissive) (In_f64 0x3ff8000000000000) = Ret (Rejected (Message
    "invalid conversion from floating point number with fractional part to 256-bit integer")) /\
  visit (i_visitor dev Permissive) (In_bytes Owned (text "1")) = Ret (Rejected (Wrong_type (Ux_bytes [49])
    "number, decimal string or '0x-' prefixed hexadecimal string")) /\
  visit (i_visitor dev (Bytes (Some BE))) (In_seq (mkSeq None (map DOk (repeat 1 40)))) = Ret (Rejected (Wrong_length 33 "32 bytes in big endian")) /\
  blames dev true Permissive (In_f64 0x7ff0000000000000) (Message
    "invalid conversion from double precision floating point number outside of valid integer range (-2^53, 2^53)").
Proof.
  split; [vm_compute; reflexivity|]. split; [vm_compute; reflexivity|]. split; [vm_compute; reflexivity|]. split; [vm_compute; reflexivity|].
  left. split; [intros H; exact H|reflexivity].
Qed.

(** C73: every input either means a number or has a reason to be rejected, never both, and never two reasons. *)
Theorem C73_one_reason : forall c k i,
  usize_ok c -> input_ok i -> errors_foreign i ->
  ((exists z, means c false k i z) \/ exists e, blames c false k i e) /\
  ((exists z, means c true k i z) \/ exists e, blames c true k i e) /\
  (forall signed z e, ~ (means c signed k i z /\ blames c signed k i e)) /\
  (forall signed e e', blames c signed k i e -> blames c signed k i e' -> e = e').
Proof. exact blames_or_means. Qed.
Print Assumptions C73_one_reason.

Example C73_one_case :
  means dev true Permissive (In_signed W8 (-1)) (-1) /\ blames dev true Plain (In_signed W8 (-1)) (Wrong_type (Ux_signed (-1)) "a formatted 256-bit integer").
Proof. split; [cbn; auto|exists (Ux_signed (-1)); split; reflexivity]. Qed.

(** C73: the bytes of a text are taken for one exactly when they are the UTF-8 of some characters, in the shortest form and
    without halves of surrogate pairs. *)
Theorem C73_utf8 : forall l,
  bytes_ok l -> (utf8_valid l = true <-> utf8 l).
Proof. exact utf8_iff. Qed.
Print Assumptions C73_utf8.

Example C73_utf8_case :
  utf8 [0x41; 0xc3; 0xa9; 0xe2; 0x82; 0xac; 0xf0; 0x9f; 0xa6; 0x80] /\
  utf8_valid [0xc1; 0x81] = false /\ utf8_valid [0xed; 0xa0; 0x80] = false /\ utf8_valid [0xf4; 0x90; 0x80; 0x80] = false /\ utf8_valid [0xe2; 0x82] = false.
Proof.
  split; [|repeat split; reflexivity].
  apply (utf8_cons 0x41 [0x41]); [apply utf8_1; lia|]. apply (utf8_cons 0xe9 [0xc3; 0xa9]); [apply (utf8_2 3 41); lia|].
  apply (utf8_cons 0x20ac [0xe2; 0x82; 0xac]); [apply (utf8_3 2 2 44); lia|].
  apply (utf8_cons 0x1f980 [0xf0; 0x9f; 0xa6; 0x80]); [apply (utf8_4 0 31 38 0); lia|]. constructor.
Qed.


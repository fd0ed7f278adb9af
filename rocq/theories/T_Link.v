(** * C74: the intrinsics of the llvm-intrinsics feature link, and their template is widened everywhere *)

From Coq Require Import ZArith String Ascii List Bool Lia.
Import ListNotations.
From Verif Require Import M_Link Spec_Link P_Link.
Local Notation length := List.length.

Open Scope Z_scope.

(** C74: every function the crate calls is declared, and its symbol is that of a function of the template of the same name
    and result, whose parameters are passed the same way, with integers of the same sign, half as wide, and memory aligned
    as it is for the 256-bit numbers, whatever the alignments [a] of u128 and [b] of u64 are. *)
Theorem C74_links : forall a b p,
  In p called ->
  exists d t, resolved p = Some d /\ In d declared /\ linked d = Some t /\ In t template /\
    p_name d = p_name p /\ p_name t = p_name p /\ p_answer d = p_answer p /\ p_answer t = p_answer p /\
    Forall2 passes (p_params p) (p_params d) /\ Forall2 (hands a b) (p_params p) (p_params t).
Proof. exact links. Qed.
Print Assumptions C74_links.

Example C74_links_case :
  In (mkProto "sar3" [To_fill P_I256; To_read P_I256; By_value] No_answer) called /\
  ~ hands 16 8 (To_fill P_I256) (To_fill P_u128) /\ ~ hands 16 8 (To_read P_U256) (To_update P_u128).
Proof.
  split; [cbn; auto 30|]. split; [intros (_ & _ & H); discriminate H|intros H; exact H].
Qed.

(** C74: no symbol is defined twice, no name declared twice, and nothing defined or declared is left over. *)
Theorem C74_links_once : NoDup (map symbol template) /\ NoDup (map p_name declared) /\
  (forall t, In t template -> exists d, In d declared /\ linked d = Some t) /\
  (forall d, In d declared -> exists p, In p called /\ resolved p = Some d).
Proof. exact links_once. Qed.
Print Assumptions C74_links_once.

Example C74_links_once_case : In "__ethnum_cttz"%string (map symbol template) /\ length template = 21%nat.
Proof. split; [cbn; auto 30|reflexivity]. Qed.

Close Scope Z_scope.

(** C74: in the text of the template every occurrence of i128, of 127 after a space and of dereferenceable(16), and nothing
    else, is changed, to i256, 255 and dereferenceable(32). *)
Theorem C74_widened : forall s,
  length (widened s) = length s /\
  (forall pat to q p, In (pat, to) widenings -> occurs pat s q -> q <= p < q + length pat ->
     nth_error (widened s) p = nth_error to (p - q)) /\
  (forall p, (forall pat to, In (pat, to) widenings -> ~ covered pat s p) -> nth_error (widened s) p = nth_error s p).
Proof. exact widened_exact. Qed.
Print Assumptions C74_widened.

Example C74_widened_case :
  widened (chars "%2 = and i32 %b, 127" ++ chars "%3 = zext i32 %2 to i128") = chars "%2 = and i32 %b, 255" ++ chars "%3 = zext i32 %2 to i256" /\
  occurs (chars "i128") (chars "load i128, ptr %a") 5 /\ In (chars "i128", chars "i256") widenings /\
  covered (chars " 127") (chars "and i32 %b, 127") 13.
Proof.
  split; [vm_compute; reflexivity|]. split; [|split; [cbn; auto|]].
  - intros j H. do 4 (destruct j as [|j]; [reflexivity|]). cbn in H. lia.
  - exists 11. split; [|cbn; lia]. intros j H. do 4 (destruct j as [|j]; [reflexivity|]). cbn in H. lia.
Qed.

(** C74: none of the old texts is left, so that widening again changes nothing; a text without them is left alone. *)
Theorem C74_none_left : forall s,
  (forall pat to q, In (pat, to) widenings -> ~ occurs pat (widened s) q) /\
  widened (widened s) = widened s /\
  ((forall pat to q, In (pat, to) widenings -> ~ occurs pat s q) -> widened s = s).
Proof. exact widened_left. Qed.
Print Assumptions C74_none_left.

Example C74_none_left_case : widened (chars "i1i12828") = chars "i1i25628" /\ widened (chars "store i64 12, ptr %r") = chars "store i64 12, ptr %r".
Proof. split; vm_compute; reflexivity. Qed.

(** C74: the replacement does not look at words: 1270 becomes 2550. *)
Theorem C74_inside_words : widened (chars "and i32 %b, 1270") = chars "and i32 %b, 2550" /\ widened (chars "%hi1280") = chars "%hi2560".
Proof. exact widened_digits. Qed.
Print Assumptions C74_inside_words.


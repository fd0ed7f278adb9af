(** * C66, C67: what the serde modules make of any input, and round trips through any data format *)

From Coq Require Import ZArith String List Bool Lia.
Import ListNotations.
From Verif Require Import M_Prim M_Words M_UintApi M_IntApi M_Float M_Parse M_Serde M_Visit.
From Verif Require Import Spec Spec_Bits Spec_Convert Spec_Parse Spec_Fmt Spec_Serde Spec_Visit P_Visit T_Base T_Parse.
Open Scope Z_scope.

(** C66: each module, given any input of any kind for a U256, accepts it exactly when the input means a number to the
    module, gives that number (modulo 2^256: a negative number wraps), and never panics. *)
Theorem C66_unsigned_accepts : forall c k i x,
  usize_ok c -> input_ok i ->
  (visit (u_visitor c k) i = Ret (Accepted x) <-> exists z, means c false k i z /\ x = uof c z) /\
  (exists r, visit (u_visitor c k) i = Ret r).
Proof. exact u_visit_means. Qed.
Print Assumptions C66_unsigned_accepts.

Example C66_unsigned_case :
  usize_ok dev /\ input_ok (In_signed W8 (-1)) /\ input_ok (In_char 55) /\ means dev false Permissive (In_char 55) 7 /\
  visit (u_visitor dev Plain) (In_str Owned (text "0x2a")) = Ret (Accepted (uof dev 42)) /\
  visit (u_visitor dev Prefixed) (In_bytes Borrowed (text "0b11")) = Ret (Accepted (uof dev 3)) /\
  visit (u_visitor dev Permissive) (In_char 55) = Ret (Accepted (uof dev 7)) /\
  visit (u_visitor dev Permissive) (In_signed W8 (-1)) = Ret (Accepted (uof dev MAXU)) /\
  visit (u_visitor dev (Compressed None)) (In_bytes Transient [1; 2]) = Ret (Accepted (uof dev 513)) /\
  visit (u_visitor devB (Compressed None)) (In_bytes Transient [1; 2]) = Ret (Accepted (uof devB 258)).
Proof.
  split; [unfold usize_ok; cbn; auto|]. split; [cbn; lia|]. split; [cbn; lia|].
  split; [exists [], 10; split; [cbn; auto 8|]; exists (text "7"), [7]; repeat split; try discriminate; repeat constructor; cbn; lia|].
  vm_compute. intuition congruence.
Qed.

(** C66: the same for I256, where every integer keeps its value. *)
Theorem C66_signed_accepts : forall c k i x,
  usize_ok c -> input_ok i ->
  (visit (i_visitor c k) i = Ret (Accepted x) <-> exists z, means c true k i z /\ x = iof c z) /\
  (exists r, visit (i_visitor c k) i = Ret r).
Proof. exact i_visit_means. Qed.
Print Assumptions C66_signed_accepts.

Example C66_signed_case :
  means dev true Decimal (In_str Owned (text "-7")) (-7) /\
  visit (i_visitor dev Decimal) (In_str Owned (text "-7")) = Ret (Accepted (iof dev (-7))) /\
  visit (i_visitor dev Permissive) (In_unsigned W128 (2 ^ 127)) = Ret (Accepted (iof dev (2 ^ 127))) /\
  visit (i_visitor dev Permissive) (In_f32 0xc2280000) = Ret (Accepted (iof dev (-42))) /\
  visit (i_visitor dev (Bytes (Some BE))) (In_seq (mkSeq None (map DOk (repeat 255 32)))) = Ret (Accepted (iof dev (-1))).
Proof.
  split; [exists [], 10; split; [cbn; auto|]; exists (text "7"), [7]; repeat split; try discriminate; repeat constructor; cbn; lia|].
  vm_compute. intuition congruence.
Qed.

(** C66: a value of a kind the module has no use for is rejected as such, naming what the module expects. *)
Theorem C66_wrong_kind : forall c k i,
  kind_ok k i = false ->
  exists u, visit (u_visitor c k) i = Ret (Rejected (Wrong_type u (wanted c k))) /\
            visit (i_visitor c k) i = Ret (Rejected (Wrong_type u (wanted c k))).
Proof. exact wrong_kind. Qed.
Print Assumptions C66_wrong_kind.

Example C66_wrong_case :
  kind_ok Permissive (In_bytes Owned (text "42")) = false /\
  visit (u_visitor dev Permissive) (In_bytes Owned (text "42")) =
    Ret (Rejected (Wrong_type (Ux_bytes (text "42")) "number, decimal string or '0x-' prefixed hexadecimal string")) /\
  visit (u_visitor dev Plain) (In_unsigned W64 42) = Ret (Rejected (Wrong_type (Ux_unsigned 42) "a formatted 256-bit integer")) /\
  visit (i_visitor devB (Bytes None)) (In_str Owned (text "42")) = Ret (Rejected (Wrong_type (Ux_str (text "42")) "32 bytes in big endian")).
Proof. vm_compute. intuition congruence. Qed.

(** C66: and the others are never rejected for their kind. *)
Theorem C66_right_kind : forall c k i u e,
  kind_ok k i = true ->
  visit (u_visitor c k) i <> Ret (Rejected (Wrong_type u e)) /\ visit (i_visitor c k) i <> Ret (Rejected (Wrong_type u e)).
Proof. exact right_kind. Qed.
Print Assumptions C66_right_kind.

Example C66_right_case :
  kind_ok Plain (In_str Owned (text "42")) = true /\ kind_ok (Bytes None) (In_bytes Owned [42]) = true /\
  visit (u_visitor dev Plain) (In_str Owned (text "42")) = Ret (Rejected (Not_a_number InvalidDigit)) /\
  visit (u_visitor dev (Bytes None)) (In_bytes Owned [42]) = Ret (Rejected (Wrong_length 1 "32 bytes in little endian")).
Proof. vm_compute. intuition congruence. Qed.

(** Two data formats for the examples: one that, like JSON, holds bytes as a sequence of numbers, and one that holds strings
    as bytes. *)
Definition json_like : format :=
  mkFormat emitted (fun e => e) (fun _ e => Some match e with Em_str s => In_str Borrowed s | Em_bytes l => In_seq (mkSeq None (map DOk l)) end).
Definition raw_like : format :=
  mkFormat emitted (fun e => e) (fun _ e => Some match e with Em_str s => In_bytes Borrowed s | Em_bytes l => In_bytes Owned l end).
Lemma json_faithful h : faithful json_like h.
Proof. intros [s|l]; eexists; (split; [reflexivity|]); cbn; auto. split; reflexivity. Qed.
Lemma raw_faithful h : faithful raw_like h <-> h <> Want_any.
Proof.
  split.
  - intros F ->. destruct (F (Em_str [])) as (i & G & H). injection G as <-. destruct H as [H _]. discriminate H.
  - intros N [s|l]; eexists; (split; [reflexivity|]); cbn; auto. destruct h; auto; contradiction.
Qed.

(** C67: what each module writes for a U256: "0x" and the hexadecimal numeral, the decimal numeral, the 32 base-256 digits in
    the order of the module or of the machine, or as few of them as possible. *)
Theorem C67_unsigned_documents : forall F c k x,
  usize_ok c -> wf_u x ->
  exists e, u_write F c k x = Ret (put F e) /\
    match k, e with
    | (Plain | Prefixed | Permissive), Em_str s => exists t, s = [48; 120] ++ t /\ canonical false 16 (uval c x) t
    | Decimal, Em_str s => canonical false 10 (uval c x) s
    | Bytes o, Em_bytes l => l = in_order (side c o) (digits_le (uval c x))
    | Compressed o, Em_bytes l =>
        bytes_ok l /\ value_le (in_order (side c o) l) = uval c x /\ least (fun n => uval c x < 2 ^ (8 * n)) (Z.of_nat (length l))
    | _, _ => False
    end.
Proof. exact u_documents. Qed.
Print Assumptions C67_unsigned_documents.

Example C67_unsigned_documents_case :
  u_write json_like dev Permissive (uof dev 42) = Ret (Em_str (text "0x2a")) /\ u_write json_like dev Decimal (uof dev 42) = Ret (Em_str (text "42")) /\ u_write json_like dev (Bytes None) (uof dev 42) = Ret (Em_bytes (42 :: repeat 0 31)) /\ u_write json_like devB (Bytes None) (uof devB 42) = Ret (Em_bytes (repeat 0 31 ++ [42])) /\ u_write json_like devB (Compressed None) (uof devB 258) = Ret (Em_bytes [1; 2]).
Proof. vm_compute. intuition congruence. Qed.

(** C67: and for an I256. *)
Theorem C67_signed_documents : forall F c k x,
  usize_ok c -> wf_i x ->
  let sg := if ival c x <? 0 then [45] else [] in
  exists e, i_write F c k x = Ret (put F e) /\
    match k, e with
    | (Plain | Prefixed | Permissive), Em_str s => exists t, s = sg ++ [48; 120] ++ t /\ canonical false 16 (Z.abs (ival c x)) t
    | Decimal, Em_str s => exists t, s = sg ++ t /\ canonical false 10 (Z.abs (ival c x)) t
    | Bytes o, Em_bytes l => l = in_order (side c o) (digits_le (ival c x))
    | Compressed o, Em_bytes l =>
        bytes_ok l /\ value_le (in_order (side c o) l) = ival c x mod 2 ^ (8 * Z.of_nat (length l)) /\
        least (i_fits (ival c x)) (Z.of_nat (length l))
    | _, _ => False
    end.
Proof. exact i_documents. Qed.
Print Assumptions C67_signed_documents.

Example C67_signed_documents_case :
  i_write json_like dev Prefixed (iof dev (-42)) = Ret (Em_str (text "-0x2a")) /\ i_write json_like dev Decimal (iof dev (-42)) = Ret (Em_str (text "-42")) /\ i_write json_like dev (Bytes None) (iof dev (-42)) = Ret (Em_bytes (214 :: repeat 255 31)) /\ i_write json_like devB (Compressed None) (iof devB (-42)) = Ret (Em_bytes [214]).
Proof. vm_compute. intuition congruence. Qed.

(** C67: through any data format that gives back what was written, every module reads back every U256 it wrote.  *)
Theorem C67_unsigned_round_trip : forall F c k x,
  usize_ok c -> wf_u x -> faithful F (asks k) ->
  exists d, u_write F c k x = Ret d /\ u_read F c k d = Ret (Some (Accepted x)).
Proof. exact u_round_trip. Qed.
Print Assumptions C67_unsigned_round_trip.

Example C67_unsigned_case :
  faithful json_like Want_any /\ faithful raw_like Want_str /\
  u_write json_like dev (Compressed (Some BE)) (uof dev 258) = Ret (Em_bytes [1; 2]) /\
  u_read json_like dev (Compressed (Some BE)) (Em_bytes [1; 2]) = Ret (Some (Accepted (uof dev 258))) /\
  u_read raw_like dev Plain (Em_str (text "0x2a")) = Ret (Some (Accepted (uof dev 42))).
Proof.
  split; [apply json_faithful|]. split; [apply raw_faithful; discriminate|]. vm_compute. intuition congruence.
Qed.

(** C67: the same for I256, except for the compressed modules, where it holds exactly for the numbers of [compressed_ok]. *)
Theorem C67_signed_round_trip_partial : forall F c k x,
  usize_ok c -> wf_i x -> faithful F (asks k) ->
  exists d, i_write F c k x = Ret d /\
    (i_read F c k d = Ret (Some (Accepted x)) <->
     match k with Compressed o => compressed_ok (side c o) (ival c x) | _ => True end).
Proof. exact i_round_trip. Qed.
Print Assumptions C67_signed_round_trip_partial.

Example C67_signed_case :
  i_write json_like dev Permissive (iof dev (-42)) = Ret (Em_str (text "-0x2a")) /\
  i_read json_like dev Permissive (Em_str (text "-0x2a")) = Ret (Some (Accepted (iof dev (-42)))) /\
  compressed_ok LE (-128) /\ i_read json_like dev (Compressed None) (Em_bytes [128]) = Ret (Some (Accepted (iof dev (-128)))).
Proof. vm_compute. intuition congruence. Qed.

(** C67 is refuted for I256 and the compressed modules: 128 comes back as -128. *)
Theorem C67_signed_compressed_refuted :
  faithful json_like Want_bytes /\
  (exists d, i_write json_like dev (Compressed (Some LE)) (iof dev 128) = Ret d /\
             i_read json_like dev (Compressed (Some LE)) d = Ret (Some (Accepted (iof dev (-128))))) /\
  iof dev (-128) <> iof dev 128.
Proof.
  split; [apply json_faithful|]. split; [exists (Em_bytes [128]); split; vm_compute; reflexivity|]. vm_compute. discriminate.
Qed.
Print Assumptions C67_signed_compressed_refuted.

(** C67 needs a permissive reader to be handed strings as strings: it does not read back what it wrote as bytes. *)
Theorem C67_permissive_needs_strings : forall o s,
  visit (u_visitor dev Permissive) (In_bytes o s) =
    Ret (Rejected (Wrong_type (Ux_bytes s) "number, decimal string or '0x-' prefixed hexadecimal string")) /\
  u_write raw_like dev Permissive (uof dev 42) = Ret (Em_str (text "0x2a")) /\
  u_read raw_like dev Permissive (Em_str (text "0x2a")) =
    Ret (Some (Rejected (Wrong_type (Ux_bytes (text "0x2a")) "number, decimal string or '0x-' prefixed hexadecimal string"))) /\
  u_read raw_like dev Prefixed (Em_str (text "0x2a")) = Ret (Some (Accepted (uof dev 42))).
Proof. intros o s. split; [reflexivity|]. vm_compute. intuition congruence. Qed.
Print Assumptions C67_permissive_needs_strings.

(** C67: what any text module wrote for a U256 is read by the prefixed and the permissive module, and as an I256 exactly if
    the number fits. *)
Theorem C67_unsigned_other_text : forall F c kw kr x,
  usize_ok c -> wf_u x -> texty kw -> lenient kr -> faithful F (asks kr) ->
  exists d, u_write F c kw x = Ret d /\ u_read F c kr d = Ret (Some (Accepted x)) /\
    (uval c x <= MAXI -> i_read F c kr d = Ret (Some (Accepted (iof c (uval c x))))) /\
    (MAXI < uval c x -> exists e, i_read F c kr d = Ret (Some (Rejected (Not_a_number e)))).
Proof. exact u_other_text. Qed.
Print Assumptions C67_unsigned_other_text.

Example C67_unsigned_other_case :
  u_write json_like dev Decimal (uof dev 42) = Ret (Em_str (text "42")) /\
  u_read json_like dev Permissive (Em_str (text "42")) = Ret (Some (Accepted (uof dev 42))) /\
  i_read raw_like dev Prefixed (Em_str (text "42")) = Ret (Some (Accepted (iof dev 42))) /\ uval dev (uof dev 42) <= MAXI.
Proof. vm_compute. intuition congruence. Qed.

(** C67: the same for what was written for an I256. *)
Theorem C67_signed_other_text : forall F c kw kr x,
  usize_ok c -> wf_i x -> texty kw -> lenient kr -> faithful F (asks kr) ->
  exists d, i_write F c kw x = Ret d /\ i_read F c kr d = Ret (Some (Accepted x)) /\
    (0 <= ival c x -> u_read F c kr d = Ret (Some (Accepted (uof c (ival c x))))) /\
    (ival c x < 0 -> u_read F c kr d = Ret (Some (Rejected (Not_a_number InvalidDigit)))).
Proof. exact i_other_text. Qed.
Print Assumptions C67_signed_other_text.

Example C67_signed_other_case :
  i_write json_like dev Decimal (iof dev (-42)) = Ret (Em_str (text "-42")) /\ ival dev (iof dev (-42)) < 0 /\
  i_read json_like dev Prefixed (Em_str (text "-42")) = Ret (Some (Accepted (iof dev (-42)))) /\
  u_read json_like dev Permissive (Em_str (text "-42")) = Ret (Some (Rejected (Not_a_number InvalidDigit))).
Proof. vm_compute. intuition congruence. Qed.

(** C67: the compressed modules read what the modules of the same order for 32 bytes wrote; the other way round that holds
    for the U256 numbers with a non-zero top byte. *)
Theorem C67_other_bytes : forall F c o x y,
  usize_ok c -> wf_u x -> wf_i y -> faithful F Want_bytes ->
  (exists d, u_write F c (Bytes o) x = Ret d /\ u_read F c (Compressed o) d = Ret (Some (Accepted x))) /\
  (exists d, i_write F c (Bytes o) y = Ret d /\ i_read F c (Compressed o) d = Ret (Some (Accepted y))) /\
  (exists d, u_write F c (Compressed o) x = Ret d /\ (u_read F c (Bytes o) d = Ret (Some (Accepted x)) <-> 2 ^ 248 <= uval c x)).
Proof. exact other_bytes. Qed.
Print Assumptions C67_other_bytes.

Example C67_other_bytes_case :
  u_read json_like dev (Compressed (Some LE)) (Em_bytes (7 :: repeat 0 31)) = Ret (Some (Accepted (uof dev 7))) /\
  u_write json_like dev (Compressed (Some LE)) (uof dev 7) = Ret (Em_bytes [7]) /\
  u_read json_like dev (Bytes (Some LE)) (Em_bytes [7]) = Ret (Some (Rejected (Wrong_length 1 "32 bytes in little endian"))) /\
  2 ^ 248 <= uval dev (uof dev MAXU).
Proof. vm_compute. intuition congruence. Qed.


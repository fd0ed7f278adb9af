(** * C54, C55: compatibility of text formats, order of byte strings *)

From Coq Require Import ZArith String List Bool Lia.
Import ListNotations.
From Verif Require Import M_Prim M_Words M_Parse M_Fmt M_Serde M_UintApi M_IntApi.
From Verif Require Import Spec Spec_Convert Spec_Parse Spec_Fmt Spec_Serde Spec_Compat P_Words P_Compat P_Order T_Base T_Parse.
Open Scope Z_scope.

(** C54: a text read in some radix as U256 and as I256 is the same number; one that fits both is read by both,
    except that U256 reads no minus sign. *)
Theorem C54_types_agree_radix : forall c s r,
  2 <= r <= 36 ->
  exists ru ri, u_from_str_radix c s r = Ret ru /\ i_from_str_radix c s r = Ret ri /\ both c ru ri s.
Proof. exact types_radix. Qed.
Print Assumptions C54_types_agree_radix.

Example C54_radix_case :
  u_from_str_radix dev (text "ff") 16 = Ret (Ok (uof dev 255)) /\ i_from_str_radix dev (text "ff") 16 = Ret (Ok (iof dev 255)) /\
  i_from_str_radix dev (text "-0") 16 = Ret (Ok (iof dev 0)) /\ u_from_str_radix dev (text "-0") 16 = Ret (Err InvalidDigit) /\
  hd 0 (text "-0") = 45.
Proof. vm_compute. intuition congruence. Qed.

(** C54: the same for hexadecimal texts with a prefix. *)
Theorem C54_types_agree_hex : forall c s,
  exists ru ri, u_from_str_hex c s = Ret ru /\ i_from_str_hex c s = Ret ri /\ both c ru ri s.
Proof. exact types_hex. Qed.
Print Assumptions C54_types_agree_hex.

Example C54_hex_case :
  u_from_str_hex dev (text "+0xff") = Ret (Ok (uof dev 255)) /\ i_from_str_hex dev (text "+0xff") = Ret (Ok (iof dev 255)) /\
  u_from_str_hex dev (text "0x" ++ repeat 102 64) = Ret (Ok (uof dev MAXU)) /\ i_from_str_hex dev (text "0x" ++ repeat 102 64) = Ret (Err PosOverflow).
Proof. vm_compute. intuition congruence. Qed.

(** C54: the same for texts with any prefix. *)
Theorem C54_types_agree_prefixed : forall c s,
  exists ru ri, u_from_str_prefixed c s = Ret ru /\ i_from_str_prefixed c s = Ret ri /\ both c ru ri s.
Proof. exact types_prefixed. Qed.
Print Assumptions C54_types_agree_prefixed.

Example C54_prefixed_case :
  u_from_str_prefixed dev (text "0b101") = Ret (Ok (uof dev 5)) /\ i_from_str_prefixed dev (text "0b101") = Ret (Ok (iof dev 5)) /\
  i_from_str_prefixed dev (text "-0b101") = Ret (Ok (iof dev (-5))) /\ u_from_str_prefixed dev (text "-0b101") = Ret (Err InvalidDigit).
Proof. vm_compute. intuition congruence. Qed.

(** C54: the reader of prefixed texts reads every hexadecimal and every decimal text with the same value. *)
Theorem C54_formats_agree : forall c s x y,
  (u_from_str_hex c s = Ret (Ok x) -> u_from_str_prefixed c s = Ret (Ok x)) /\
  (u_from_str_radix c s 10 = Ret (Ok x) -> u_from_str_prefixed c s = Ret (Ok x)) /\
  (i_from_str_hex c s = Ret (Ok y) -> i_from_str_prefixed c s = Ret (Ok y)) /\
  (i_from_str_radix c s 10 = Ret (Ok y) -> i_from_str_prefixed c s = Ret (Ok y)).
Proof. exact formats_agree. Qed.
Print Assumptions C54_formats_agree.

Example C54_formats_case :
  u_from_str_hex dev (text "0x10") = Ret (Ok (uof dev 16)) /\ u_from_str_prefixed dev (text "0x10") = Ret (Ok (uof dev 16)) /\
  i_from_str_radix dev (text "-10") 10 = Ret (Ok (iof dev (-10))) /\ i_from_str_prefixed dev (text "-10") = Ret (Ok (iof dev (-10))).
Proof. vm_compute. intuition congruence. Qed.

(** C54: no text is both hexadecimal and decimal. *)
Theorem C54_formats_disjoint : forall c s x x' y y',
  ~ (u_from_str_hex c s = Ret (Ok x) /\ u_from_str_radix c s 10 = Ret (Ok x')) /\
  ~ (i_from_str_hex c s = Ret (Ok y) /\ i_from_str_radix c s 10 = Ret (Ok y')).
Proof. exact formats_disjoint. Qed.
Print Assumptions C54_formats_disjoint.

Example C54_disjoint_case :
  u_from_str_radix dev (text "0x10") 10 = Ret (Err InvalidDigit) /\ u_from_str_hex dev (text "10") = Ret (Err InvalidDigit).
Proof. vm_compute. intuition congruence. Qed.

(** C54: what the hexadecimal or the decimal format writes for a U256 is read back by the prefixed and the
    permissive format, and as an I256 of the same value when there is one. *)
Theorem C54_u256_written : forall c x t,
  usize_ok c -> wf_u x -> u_serialize c x = Ret t \/ u_serialize_decimal c x = Ret t ->
  u_permissive_visit_str c t = Ret (DOk x) /\ format_visit_str (u_de_prefixed c) t = Ret (DOk x) /\
  (uval c x <= MAXI -> i_permissive_visit_str c t = Ret (DOk (iof c (uval c x))) /\
                       format_visit_str (i_de_prefixed c) t = Ret (DOk (iof c (uval c x)))) /\
  (MAXI < uval c x -> exists e, i_permissive_visit_str c t = Ret (DErr e) /\ format_visit_str (i_de_prefixed c) t = Ret (DErr e)).
Proof. exact u_written. Qed.
Print Assumptions C54_u256_written.

Example C54_u256_written_case :
  u_serialize_decimal dev (uof dev 42) = Ret (text "42") /\ u_permissive_visit_str dev (text "42") = Ret (DOk (uof dev 42)) /\
  i_permissive_visit_str dev (text "42") = Ret (DOk (iof dev 42)) /\ uval dev (uof dev 42) <= MAXI /\ MAXI < uval dev (uof dev MAXU) /\
  i_permissive_visit_str dev (text "0x" ++ repeat 102 64) = Ret (DErr (ParseFailed InvalidDigit)).
Proof. vm_compute. intuition congruence. Qed.

(** C54: what is written for an I256 is read back, and as a U256 of the same value exactly when it is not negative. *)
Theorem C54_i256_written : forall c x t,
  usize_ok c -> wf_i x -> i_serialize c x = Ret t \/ i_serialize_decimal c x = Ret t ->
  i_permissive_visit_str c t = Ret (DOk x) /\ format_visit_str (i_de_prefixed c) t = Ret (DOk x) /\
  (0 <= ival c x -> u_permissive_visit_str c t = Ret (DOk (uof c (ival c x))) /\
                    format_visit_str (u_de_prefixed c) t = Ret (DOk (uof c (ival c x)))) /\
  (ival c x < 0 -> u_permissive_visit_str c t = Ret (DErr (ParseFailed InvalidDigit)) /\
                   format_visit_str (u_de_prefixed c) t = Ret (DErr (ParseFailed InvalidDigit))).
Proof. exact i_written. Qed.
Print Assumptions C54_i256_written.

Example C54_i256_written_case :
  i_serialize_decimal dev (iof dev (-42)) = Ret (text "-42") /\ i_permissive_visit_str dev (text "-42") = Ret (DOk (iof dev (-42))) /\
  u_permissive_visit_str dev (text "-42") = Ret (DErr (ParseFailed InvalidDigit)) /\
  i_serialize dev (iof dev 42) = Ret (text "0x2a") /\ u_permissive_visit_str dev (text "0x2a") = Ret (DOk (uof dev 42)).
Proof. vm_compute. intuition congruence. Qed.

(** C55: the lexicographic order of the big-endian bytes of U256 is the order of the numbers; for I256 it is
    after flipping the sign bit. *)
Theorem C55_bytes_order : forall c x x' y y',
  wf_u x -> wf_u x' -> wf_i y -> wf_i y' ->
  (lex_lt (u_to_be_bytes c x) (u_to_be_bytes c x') <-> uval c x < uval c x') /\
  (lex_lt (flip_top (i_to_be_bytes c y)) (flip_top (i_to_be_bytes c y')) <-> ival c y < ival c y').
Proof. exact bytes_order. Qed.
Print Assumptions C55_bytes_order.

Example C55_order_case :
  u_to_be_bytes dev (uof dev 255) = repeat 0 31 ++ [255] /\ u_to_be_bytes dev (uof dev 256) = repeat 0 30 ++ [1; 0] /\
  lex_lt (u_to_be_bytes dev (uof dev 255)) (u_to_be_bytes dev (uof dev 256)) /\
  ~ lex_lt (u_to_le_bytes dev (uof dev 255)) (u_to_le_bytes dev (uof dev 256)) /\
  lex_lt (flip_top (i_to_be_bytes dev (iof dev (-1)))) (flip_top (i_to_be_bytes dev (iof dev 0))) /\
  ~ lex_lt (i_to_be_bytes dev (iof dev (-1))) (i_to_be_bytes dev (iof dev 0)).
Proof. vm_compute. intuition congruence. Qed.


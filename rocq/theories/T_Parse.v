(** * Parsing strings and literals: property theorems *)

From Coq Require Import ZArith String List Bool Lia Ascii.
From Verif Require Import M_Prim M_Words M_Parse Spec Spec_Parse P_Parse P_Literal T_Base.
Import ListNotations.
Open Scope Z_scope.

(** the bytes of a text, for the examples *)
Definition text (s : string) : list Z := map (fun a => Z.of_N (N_of_ascii a)) (list_ascii_of_string s).

(** C31: for every text and radix, [U256::from_str_radix] returns the outcome [o] exactly when reading the
    text dictates it ([reads]: the value for a valid numeral in range, otherwise the error of the first
    place where reading fails); it always returns. *)
Theorem C31_u256_from_str_radix : forall c s r o,
  2 <= r <= 36 ->
  (u_from_str_radix c s r = Ret o <-> result_ok wf_u o /\ reads false 0 MAXU r [] s (result_map (uval c) o)) /\
  (exists o', u_from_str_radix c s r = Ret o').
Proof. exact u_parse_radix. Qed.
Print Assumptions C31_u256_from_str_radix.

Example C31_u256_case :
  u_from_str_radix dev (text "+zZ9") 36 = Ret (Ok (uof dev 46629)) /\
  u_from_str_radix devB (text "-1") 10 = Ret (Err InvalidDigit) /\
  u_from_str_radix rel (text "") 10 = Ret (Err Empty) /\
  u_from_str_radix rel (text "+") 10 = Ret (Err InvalidDigit) /\
  u_from_str_radix rel (repeat 49 257) 2 = Ret (Err PosOverflow) /\
  u_from_str_radix rel (repeat 48 300) 2 = Ret (Ok (uof rel 0)).
Proof. vm_compute. intuition congruence. Qed.

(** C31: [I256::from_str_radix]. *)
Theorem C31_i256_from_str_radix : forall c s r o,
  2 <= r <= 36 ->
  (i_from_str_radix c s r = Ret o <-> result_ok wf_i o /\ reads true MINI MAXI r [] s (result_map (ival c) o)) /\
  (exists o', i_from_str_radix c s r = Ret o').
Proof. exact i_parse_radix. Qed.
Print Assumptions C31_i256_from_str_radix.

Example C31_i256_case :
  i_from_str_radix dev (text "-8" ++ repeat 48 63) 16 = Ret (Ok (iof dev (- 2 ^ 255))) /\
  i_from_str_radix dev (text "8" ++ repeat 48 63) 16 = Ret (Err PosOverflow) /\
  i_from_str_radix devB (text "-8" ++ repeat 48 62 ++ [49]) 16 = Ret (Err NegOverflow) /\
  i_from_str_radix devB (text "--1") 16 = Ret (Err InvalidDigit) /\
  i_from_str_radix rel (text "-") 16 = Ret (Err InvalidDigit).
Proof. vm_compute. intuition congruence. Qed.

(** C31: any other radix panics. *)
Theorem C31_radix_out_of_range : forall c s r,
  ~ (2 <= r <= 36) ->
  panics (u_from_str_radix c s r) /\ panics (i_from_str_radix c s r).
Proof. exact parse_bad_radix. Qed.
Print Assumptions C31_radix_out_of_range.

Example C31_radix_case : ~ (2 <= 37 <= 36) /\ ~ (2 <= 1 <= 36) /\ exists m, u_from_str_radix dev (text "1") 37 = Panic m.
Proof. split; [lia|]. split; [lia|]. eexists. vm_compute. reflexivity. Qed.

(** C31: [FromStr] reads decimal numerals. *)
Theorem C31_from_str : forall c s,
  u_from_str c s = u_from_str_radix c s 10 /\ i_from_str c s = i_from_str_radix c s 10.
Proof. exact from_str_decimal. Qed.
Print Assumptions C31_from_str.

Example C31_from_str_case :
  u_from_str dev (text "115792089237316195423570985008687907853269984665640564039457584007913129639935") = Ret (Ok (uof dev MAXU)) /\
  u_from_str dev (text "115792089237316195423570985008687907853269984665640564039457584007913129639936") = Ret (Err PosOverflow).
Proof. vm_compute. intuition congruence. Qed.

(** C31: a text has one outcome only, so the equivalences above determine the result. *)
Theorem C31_outcome_unique : forall signed r pre s o o',
  2 <= r <= 36 ->
  let lo := if signed : bool then MINI else 0 in let hi := if signed then MAXI else MAXU in
  reads signed lo hi r pre s o -> reads signed lo hi r pre s o' -> o = o'.
Proof. exact reads_unique. Qed.
Print Assumptions C31_outcome_unique.

Example C31_unique_case : exists o, reads false 0 MAXU 10 [] (text "12x") o.
Proof.
  exists (Err InvalidDigit). split; [discriminate|]. right. exists [49; 50], 120, [], [1; 2].
  split; [reflexivity|]. split; [repeat constructor; unfold digit; lia|]. split; [vm_compute; intuition congruence|].
  intros d. unfold digit. lia.
Qed.

(** C32: [U256::from_str_prefixed] accepts exactly the numerals of one of the prefixes "0b", "0o", "0x" or none
    with the corresponding radix, and returns their value. *)
Theorem C32_u256_from_str_prefixed : forall c s x,
  (u_from_str_prefixed c s = Ret (Ok x) <->
   wf_u x /\ exists pre r, In (pre, r) radix_prefixes /\ reads false 0 MAXU r pre s (Ok (uval c x))) /\
  (exists o, u_from_str_prefixed c s = Ret o).
Proof. exact u_prefixed_ok. Qed.
Print Assumptions C32_u256_from_str_prefixed.

Example C32_u256_case :
  u_from_str_prefixed dev (text "+0xFf") = Ret (Ok (uof dev 255)) /\
  u_from_str_prefixed dev (text "0o777") = Ret (Ok (uof dev 511)) /\
  u_from_str_prefixed devB (text "0b101") = Ret (Ok (uof devB 5)) /\
  u_from_str_prefixed rel (text "0101") = Ret (Ok (uof rel 101)) /\
  u_from_str_prefixed rel (text "0X1") = Ret (Err InvalidDigit) /\
  u_from_str_prefixed rel (text "0x+1") = Ret (Err InvalidDigit).
Proof. vm_compute. intuition congruence. Qed.

(** C32: [I256::from_str_prefixed]. *)
Theorem C32_i256_from_str_prefixed : forall c s x,
  (i_from_str_prefixed c s = Ret (Ok x) <->
   wf_i x /\ exists pre r, In (pre, r) radix_prefixes /\ reads true MINI MAXI r pre s (Ok (ival c x))) /\
  (exists o, i_from_str_prefixed c s = Ret o).
Proof. exact i_prefixed_ok. Qed.
Print Assumptions C32_i256_from_str_prefixed.

Example C32_i256_case :
  i_from_str_prefixed dev (text "-0xff") = Ret (Ok (iof dev (-255))) /\
  i_from_str_prefixed devB (text "-0b11") = Ret (Ok (iof devB (-3))) /\
  i_from_str_prefixed rel (text "0x-1") = Ret (Err InvalidDigit).
Proof. vm_compute. intuition congruence. Qed.

(** C32: [from_str_hex] requires the prefix "0x" after the sign. *)
Theorem C32_from_str_hex : forall c s o o',
  (u_from_str_hex c s = Ret o <-> result_ok wf_u o /\ reads false 0 MAXU 16 [48; 120] s (result_map (uval c) o)) /\
  (i_from_str_hex c s = Ret o' <-> result_ok wf_i o' /\ reads true MINI MAXI 16 [48; 120] s (result_map (ival c) o')) /\
  (exists x, u_from_str_hex c s = Ret x) /\ (exists x, i_from_str_hex c s = Ret x).
Proof. exact parse_hex. Qed.
Print Assumptions C32_from_str_hex.

Example C32_hex_case :
  u_from_str_hex dev (text "0x10") = Ret (Ok (uof dev 16)) /\ u_from_str_hex dev (text "10") = Ret (Err InvalidDigit) /\
  i_from_str_hex devB (text "-0x10") = Ret (Ok (iof devB (-16))) /\ i_from_str_hex rel (text "0x") = Ret (Err InvalidDigit).
Proof. vm_compute. intuition congruence. Qed.

(** What the error of [from_str_prefixed] is: the one of reading the whole text as a decimal numeral. *)
Theorem C33_error_is_decimal : forall c s e e',
  (u_from_str_prefixed c s = Ret (Err e) -> reads false 0 MAXU 10 [] s (Err e)) /\
  (i_from_str_prefixed c s = Ret (Err e') -> reads true MINI MAXI 10 [] s (Err e')).
Proof. exact prefixed_error. Qed.
Print Assumptions C33_error_is_decimal.

Example C33_decimal_case :
  u_from_str_prefixed dev (repeat 57 79) = Ret (Err PosOverflow) /\ i_from_str_prefixed dev (45 :: repeat 57 79) = Ret (Err NegOverflow).
Proof. vm_compute. intuition congruence. Qed.

(** So for a text with one of the prefixes it is always [InvalidDigit]. *)
Theorem C33_error_kind : forall c s e,
  (exists ch t, In ch [98; 111; 120] /\ snd (sign false s) = 48 :: ch :: t) ->
  u_from_str_prefixed c s = Ret (Err e) -> e = InvalidDigit.
Proof. exact prefixed_error_kind. Qed.
Print Assumptions C33_error_kind.

Example C33_kind_case :
  (exists ch t, In ch [98; 111; 120] /\ snd (sign false (text "0b2")) = 48 :: ch :: t) /\
  u_from_str_prefixed dev (text "0b2") = Ret (Err InvalidDigit).
Proof. split; [exists 98, [50]; split; [left; reflexivity|reflexivity]|vm_compute; reflexivity]. Qed.

(** The same for I256. *)
Theorem C33_error_kind_i256 : forall c s e,
  (exists ch t, In ch [98; 111; 120] /\ snd (sign true s) = 48 :: ch :: t) ->
  i_from_str_prefixed c s = Ret (Err e) -> e = InvalidDigit.
Proof. exact prefixed_error_kind_i. Qed.
Print Assumptions C33_error_kind_i256.

Example C33_kind_i256_case :
  (exists ch t, In ch [98; 111; 120] /\ snd (sign true (text "-0o8")) = 48 :: ch :: t) /\
  i_from_str_prefixed dev (text "-0o8") = Ret (Err InvalidDigit).
Proof. split; [exists 111, [56]; split; [right; left; reflexivity|reflexivity]|vm_compute; reflexivity]. Qed.

(** C33 is refuted: a hexadecimal numeral with 65 digits is reported as an invalid digit instead of an overflow. *)
Theorem C33_prefixed_error_refuted : forall c,
  let s := [48; 120] ++ repeat 102 65 in
  u_from_str_prefixed c s = Ret (Err InvalidDigit) /\ u_from_str_hex c s = Ret (Err PosOverflow) /\
  i_from_str_prefixed c (45 :: s) = Ret (Err InvalidDigit) /\ i_from_str_hex c (45 :: s) = Ret (Err NegOverflow) /\
  reads false 0 MAXU 16 [48; 120] s (Err PosOverflow) /\ ~ reads false 0 MAXU 16 [48; 120] s (Err InvalidDigit).
Proof. exact prefixed_error_witness. Qed.
Print Assumptions C33_prefixed_error_refuted.

(** C36: whenever uint!/int! yield a number, the text is a literal with exactly that value. *)
Theorem C36_literal_sound : forall c s x y,
  (u_const_from_str_prefixed c s = Ret x ->
   wf_u x /\ exists pre r, In (pre, r) radix_prefixes /\ literal false pre r s (uval c x)) /\
  (i_const_from_str_prefixed c s = Ret y ->
   wf_i y /\ exists pre r, In (pre, r) radix_prefixes /\ literal true pre r s (ival c y)).
Proof. exact lit_sound. Qed.
Print Assumptions C36_literal_sound.

Example C36_sound_case :
  u_const_from_str_prefixed dev (text "0xffff_ffff ff") = Ret (uof dev (2 ^ 40 - 1)) /\
  i_const_from_str_prefixed devB (text "-1_000") = Ret (iof devB (-1000)).
Proof. vm_compute. intuition congruence. Qed.

(** C36: every text that is not a literal, or whose value is out of range, is rejected. *)
Theorem C36_literal_reject : forall c s,
  ((~ exists pre r v, In (pre, r) radix_prefixes /\ literal false pre r s v /\ 0 <= v <= MAXU) ->
   panics (u_const_from_str_prefixed c s)) /\
  ((~ exists pre r v, In (pre, r) radix_prefixes /\ literal true pre r s v /\ MINI <= v <= MAXI) ->
   panics (i_const_from_str_prefixed c s)).
Proof. exact lit_reject. Qed.
Print Assumptions C36_literal_reject.

Example C36_reject_case :
  u_const_from_str_prefixed dev (text "0x1" ++ repeat 48 64) = Panic "overflows integer type" /\
  i_const_from_str_prefixed dev (text "0x8" ++ repeat 48 63) = Panic "overflows integer type" /\
  i_const_from_str_prefixed dev (text "-0x8" ++ repeat 48 63) = Ret (iof dev MINI) /\
  i_const_from_str_prefixed dev (text "-0x8" ++ repeat 48 62 ++ [49]) = Panic "overflows integer type" /\
  u_const_from_str_prefixed dev (text "-1") = Panic "invalid digit".
Proof. vm_compute. intuition congruence. Qed.

(** C36: the parser yields a number or panics, which is a compilation error; nothing else happens. *)
Theorem C36_literal_total : forall c s,
  ((exists x, u_const_from_str_prefixed c s = Ret x) \/ panics (u_const_from_str_prefixed c s)) /\
  ((exists y, i_const_from_str_prefixed c s = Ret y) \/ panics (i_const_from_str_prefixed c s)).
Proof. exact lit_total. Qed.
Print Assumptions C36_literal_total.

Example C36_total_case : u_const_from_str_prefixed dev [] = Panic "empty string" /\ u_const_from_str_prefixed dev (text "+") = Panic "missing number".
Proof. vm_compute. intuition congruence. Qed.

(** C36: a text is a literal in at most one way. *)
Theorem C36_literal_unique : forall signed s pre r v pre' r' v',
  In (pre, r) radix_prefixes -> In (pre', r') radix_prefixes ->
  literal signed pre r s v -> literal signed pre' r' s v' -> pre = pre' /\ r = r' /\ v = v'.
Proof. exact lit_unique. Qed.
Print Assumptions C36_literal_unique.

Example C36_unique_case : In ([48; 120], 16) radix_prefixes /\ literal true [48; 120] 16 (text "-0x1F") (-31).
Proof.
  split; [right; right; left; reflexivity|]. exists (text "1F"), [1; 15].
  split; [reflexivity|]. split; [discriminate|]. split; [repeat constructor; unfold digit; lia|reflexivity].
Qed.

(** C36: every literal in range with a prefix, and every decimal one below 2^128 in magnitude, is accepted with its
    value.  Larger decimal literals may be rejected, see [C36_literal_refuted]. *)
Theorem C36_literal_complete_partial : forall c s pre r v,
  In (pre, r) radix_prefixes -> r <> 10 \/ Z.abs v < 2 ^ 128 ->
  (literal false pre r s v -> 0 <= v <= MAXU -> u_const_from_str_prefixed c s = Ret (uof c v)) /\
  (literal true pre r s v -> MINI <= v <= MAXI -> i_const_from_str_prefixed c s = Ret (iof c v)).
Proof. exact lit_complete. Qed.
Print Assumptions C36_literal_complete_partial.

Example C36_complete_case :
  In ([48; 98], 2) radix_prefixes /\ (2 <> 10 \/ Z.abs 5 < 2 ^ 128) /\ literal false [48; 98] 2 (text "+0b1_01") 5 /\
  u_const_from_str_prefixed dev (text "+0b1_01") = Ret (uof dev 5).
Proof.
  split; [left; reflexivity|]. split; [left; discriminate|]. split; [|vm_compute; reflexivity].
  exists (text "1_01"), [1; 0; 1]. split; [reflexivity|]. split; [discriminate|]. split; [repeat constructor; unfold digit; lia|reflexivity].
Qed.

(** Exactly which literals in range are accepted: those for which, at every digit, the two partial products of
    the low word of the value so far do not carry ([low_sum]). *)
Theorem C36_literal_actual : forall c signed s pre r text ds,
  In (pre, r) radix_prefixes ->
  snd (sign signed s) = pre ++ text -> text <> [] -> numeral r (filter (fun ch => negb (blank ch)) text) ds ->
  let v := signed_by (fst (sign signed s)) (value r ds) in
  let ok := forall p d q, ds = p ++ d :: q -> low_sum r (value r p) < 2 ^ 128 in
  (signed = false -> 0 <= v <= MAXU ->
   (u_const_from_str_prefixed c s = Ret (uof c v) <-> ok) /\ (panics (u_const_from_str_prefixed c s) <-> ~ ok)) /\
  (signed = true -> MINI <= v <= MAXI ->
   (i_const_from_str_prefixed c s = Ret (iof c v) <-> ok) /\ (panics (i_const_from_str_prefixed c s) <-> ~ ok)).
Proof. exact lit_actual. Qed.
Print Assumptions C36_literal_actual.

Example C36_actual_case :
  2 ^ 128 <= low_sum 10 (680564733841876927074323167453212835837 / 10) /\
  u_const_from_str_prefixed dev (text "680564733841876927074323167453212835837") = Panic "overflows integer type" /\
  low_sum 10 (10 ^ 69) < 2 ^ 128 /\ u_const_from_str_prefixed dev (49 :: repeat 48 70) = Ret (uof dev (10 ^ 70)).
Proof. vm_compute. intuition congruence. Qed.

(** C36 is refuted: this 39-digit decimal number, far below the maximum, is rejected by both
    macros, although [from_str] reads it. *)
Theorem C36_literal_refuted : forall c,
  literal false [] 10 carry_literal 680564733841876927074323167453212835837 /\ literal true [] 10 carry_literal 680564733841876927074323167453212835837 /\
  680564733841876927074323167453212835837 < MAXI /\
  u_const_from_str_prefixed c carry_literal = Panic "overflows integer type" /\
  i_const_from_str_prefixed c carry_literal = Panic "overflows integer type" /\
  u_from_str c carry_literal = Ret (Ok (uof c 680564733841876927074323167453212835837)).
Proof. exact lit_witness. Qed.
Print Assumptions C36_literal_refuted.


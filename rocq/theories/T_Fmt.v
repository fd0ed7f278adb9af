(** * Properties of formatting: C34, C35 *)

From Coq Require Import String ZArith List Bool Lia.
From Verif Require Import M_Prim M_Words M_Ops M_UintApi M_IntApi Spec Spec_Convert M_Parse Spec_Parse M_Fmt Spec_Fmt P_Fmt T_Base T_Parse.
Import ListNotations.
Open Scope Z_scope.

(** example options: {}, {:#} and {:+#070x}-like *)
Definition o_none : fmt_opts := mkOpts false false false false false false 32 None None.
Definition o_alt : fmt_opts := mkOpts false false true false false false 32 None None.
Definition o_zeros : fmt_opts := mkOpts true false true true false false 32 None (Some 9).
Definition o_center : fmt_opts := mkOpts false true false false false false 42 (Some ACenter) (Some 8).

(** C34: Display of a U256 is the canonical decimal numeral, padded like a primitive integer. *)
Theorem C34_u256_display : forall c o x,
  usize_ok c -> wf_u x ->
  exists s out, canonical false 10 (uval c x) s /\ to_string (u_fmt_display c o x) = Ret out /\ padded o false [] s out.
Proof. exact u_display. Qed.
Print Assumptions C34_u256_display.

Example C34_u256_display_case :
  to_string (u_fmt_display dev o_none (uof dev (2 ^ 256 - 1))) =
    Ret (text "115792089237316195423570985008687907853269984665640564039457584007913129639935") /\
  to_string (u_fmt_display rel o_none (uof rel 0)) = Ret (text "0") /\
  to_string (u_fmt_display devB o_zeros (uof devB 1234567)) = Ret (text "+01234567") /\
  to_string (u_fmt_display mixB o_center (uof mixB 12345)) = Ret (text "*12345**").
Proof. vm_compute. intuition congruence. Qed.

(** C34: Display of an I256 is a sign and the canonical numeral of the absolute value. *)
Theorem C34_i256_display : forall c o x,
  usize_ok c -> wf_i x ->
  exists s out, canonical false 10 (Z.abs (ival c x)) s /\ to_string (i_fmt_display c o x) = Ret out /\ padded o (ival c x <? 0) [] s out.
Proof. exact i_display. Qed.
Print Assumptions C34_i256_display.

Example C34_i256_display_case :
  to_string (i_fmt_display dev o_none (iof dev MINI)) =
    Ret (text "-57896044618658097711785492504343953926634992332820282019728792003956564819968") /\
  to_string (i_fmt_display devB o_zeros (iof devB (-7))) = Ret (text "-00000007").
Proof. vm_compute. intuition congruence. Qed.

(** C34: Binary, Octal, LowerHex and UpperHex of a U256. *)
Theorem C34_u256_radix : forall c k o x,
  usize_ok c -> wf_u x ->
  exists s out, canonical (kind_upper k) (kind_radix k) (uval c x) s /\ to_string (u_fmt_radix c k o x) = Ret out /\ padded o false (kind_prefix k) s out.
Proof. exact u_radix. Qed.
Print Assumptions C34_u256_radix.

Example C34_u256_radix_case :
  to_string (u_fmt_radix dev UpperHex o_alt (uof dev 48879)) = Ret (text "0xBEEF") /\
  to_string (u_fmt_radix devB Octal o_zeros (uof devB 8)) = Ret (text "+0o000010") /\
  to_string (u_fmt_radix rel Binary o_none (uof rel 5)) = Ret (text "101").
Proof. vm_compute. intuition congruence. Qed.

(** C34: the same for I256: the two's-complement pattern, or sign and magnitude with the minus option. *)
Theorem C34_i256_radix : forall c k o x,
  usize_ok c -> wf_i x ->
  let neg := (ival c x <? 0) && o_minus o in
  exists s out, canonical (kind_upper k) (kind_radix k) (if neg then - ival c x else ival c x mod 2 ^ 256) s /\
    to_string (i_fmt_radix c k o x) = Ret out /\ padded o neg (kind_prefix k) s out.
Proof. exact i_radix. Qed.
Print Assumptions C34_i256_radix.

Example C34_i256_radix_case :
  to_string (i_fmt_radix dev LowerHex o_none (iof dev (-1))) = Ret (repeat 102 64) /\
  to_string (i_fmt_radix dev LowerHex o_center (iof dev (-255))) = Ret (text "**-ff***").
Proof. vm_compute. intuition congruence. Qed.

(** C34: Debug is Display, or hexadecimal with the [x?] and [X?] flags. *)
Theorem C34_debug : forall c o x y,
  usize_ok c -> wf_u x -> wf_i y ->
  let hex := o_debug_lower o || o_debug_upper o in
  let upper := hex && negb (o_debug_lower o) in
  let r := if hex then 16 else 10 in
  let prefix := if hex then [48; 120] else [] in
  let neg := (ival c y <? 0) && (negb hex || o_minus o) in
  (exists s out, canonical upper r (uval c x) s /\ to_string (u_fmt_debug c o x) = Ret out /\ padded o false prefix s out) /\
  (exists s out, canonical upper r (if neg then - ival c y else ival c y mod 2 ^ 256) s /\
     to_string (i_fmt_debug c o y) = Ret out /\ padded o neg prefix s out).
Proof. exact debug_fmt. Qed.
Print Assumptions C34_debug.

Example C34_debug_case :
  to_string (u_fmt_debug dev o_none (uof dev 171)) = Ret (text "171") /\
  to_string (u_fmt_debug dev (mkOpts false false true false false true 32 None None) (uof dev 171)) = Ret (text "0xAB").
Proof. vm_compute. intuition congruence. Qed.

(** C34: so the digits are determined: a number has one canonical numeral. *)
Theorem C34_canonical_unique : forall up r v s s',
  2 <= r <= 36 -> canonical up r v s -> canonical up r v s' -> s = s'.
Proof. exact canonical_unique. Qed.
Print Assumptions C34_canonical_unique.

Example C34_unique_case : canonical true 16 171 (text "AB").
Proof. exists [10; 11]. split; [reflexivity|]. split; [repeat constructor; lia|]. split; [reflexivity|]. split; [discriminate|]. cbn. lia. Qed.

(** C35: [from_str] and [from_str_prefixed] read what Display prints, whatever sign and zero padding options. *)
Theorem C35_display_from_str : forall c o x y,
  usize_ok c -> no_fill o -> wf_u x -> wf_i y ->
  (exists out, to_string (u_fmt_display c o x) = Ret out /\ u_from_str c out = Ret (Ok x) /\
               u_from_str_prefixed c out = Ret (Ok x)) /\
  (exists out, to_string (i_fmt_display c o y) = Ret out /\ i_from_str c out = Ret (Ok y) /\
               i_from_str_prefixed c out = Ret (Ok y)).
Proof. exact display_parse. Qed.
Print Assumptions C35_display_from_str.

Example C35_display_case :
  no_fill o_zeros /\ to_string (i_fmt_display dev o_zeros (iof dev (-42))) = Ret (text "-00000042") /\
  i_from_str dev (text "-00000042") = Ret (Ok (iof dev (-42))).
Proof. split; [right; reflexivity|]. vm_compute. intuition congruence. Qed.

(** C35: [from_str_radix] reads the radix formats of U256; with the prefix [from_str_prefixed] does. *)
Theorem C35_radix_from_str : forall c k o x,
  usize_ok c -> no_fill o -> wf_u x ->
  exists out, to_string (u_fmt_radix c k o x) = Ret out /\
    (o_alternate o = false -> u_from_str_radix c out (kind_radix k) = Ret (Ok x)) /\
    (o_alternate o = true -> u_from_str_prefixed c out = Ret (Ok x) /\ (kind_radix k = 16 -> u_from_str_hex c out = Ret (Ok x))).
Proof. exact radix_parse. Qed.
Print Assumptions C35_radix_from_str.

Example C35_radix_case :
  no_fill o_zeros /\ to_string (u_fmt_radix devB LowerHex o_zeros (uof devB 255)) = Ret (text "+0x0000ff") /\
  u_from_str_prefixed devB (text "+0x0000ff") = Ret (Ok (uof devB 255)) /\ u_from_str_hex devB (text "+0x0000ff") = Ret (Ok (uof devB 255)).
Proof. split; [right; reflexivity|]. vm_compute. intuition congruence. Qed.

(** C35: the same for I256, negative numbers with the minus option; without it U256's parsers read the bit pattern. *)
Theorem C35_radix_from_str_i256 : forall c k o y,
  usize_ok c -> no_fill o -> wf_i y ->
  exists out, to_string (i_fmt_radix c k o y) = Ret out /\
    (o_minus o = true \/ 0 <= ival c y ->
     (o_alternate o = false -> i_from_str_radix c out (kind_radix k) = Ret (Ok y)) /\
     (o_alternate o = true -> i_from_str_prefixed c out = Ret (Ok y) /\ (kind_radix k = 16 -> i_from_str_hex c out = Ret (Ok y)))) /\
    (o_minus o = false ->
     (o_alternate o = false -> u_from_str_radix c out (kind_radix k) = Ret (Ok (i_as_u256 y))) /\
     (o_alternate o = true -> u_from_str_prefixed c out = Ret (Ok (i_as_u256 y)))).
Proof. exact i_radix_parse. Qed.
Print Assumptions C35_radix_from_str_i256.

Example C35_radix_i256_case :
  let o := mkOpts false true true false false false 32 None None in
  no_fill o /\ to_string (i_fmt_radix dev LowerHex o (iof dev (-255))) = Ret (text "-0xff") /\
  i_from_str_prefixed dev (text "-0xff") = Ret (Ok (iof dev (-255))) /\
  i_from_str_radix dev (repeat 102 64) 16 = Ret (Err PosOverflow) /\
  u_from_str_radix dev (repeat 102 64) 16 = Ret (Ok (i_as_u256 (iof dev (-1)))).
Proof. split; [left; reflexivity|]. vm_compute. intuition congruence. Qed.


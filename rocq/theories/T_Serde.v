(** * Properties of serialization: C37-C40 *)

From Coq Require Import String ZArith List Bool Lia.
From Verif Require Import M_Prim M_Words M_UintApi M_IntApi M_Float M_Parse M_Fmt M_Serde
  Spec Spec_Bits Spec_Convert Spec_Parse Spec_Fmt Spec_Serde P_Serde P_SerdeBytes P_SerdeNum T_Base T_Parse.
Import ListNotations.
Open Scope Z_scope.

(** C37: the texts of a U256, "0x" and the hexadecimal numeral or the decimal numeral, are always produced and
    read back. *)
Theorem C37_u256_text : forall c x,
  usize_ok c -> wf_u x ->
  exists s t, canonical false 16 (uval c x) s /\ canonical false 10 (uval c x) t /\
    u_serialize c x = Ret ([48; 120] ++ s) /\ u_serialize_prefixed c x = Ret ([48; 120] ++ s) /\
    u_serialize_permissive c x = Ret ([48; 120] ++ s) /\ u_serialize_decimal c x = Ret t /\
    format_visit_str (u_de_hex c) ([48; 120] ++ s) = Ret (DOk x) /\
    format_visit_str (u_de_prefixed c) ([48; 120] ++ s) = Ret (DOk x) /\
    u_permissive_visit_str c ([48; 120] ++ s) = Ret (DOk x) /\
    format_visit_str (u_de_decimal c) t = Ret (DOk x).
Proof. exact u_text. Qed.
Print Assumptions C37_u256_text.

Example C37_u256_case :
  u_serialize dev (uof dev 42) = Ret (text "0x2a") /\ u_serialize_decimal devB (uof devB 42) = Ret (text "42") /\
  u_serialize rel (uof rel MAXU) = Ret (text "0x" ++ repeat 102 64) /\ format_visit_str (u_de_hex rel) (text "0x2a") = Ret (DOk (uof rel 42)) /\
  u_serialize_decimal rel (uof rel MAXU) = Ret (text "115792089237316195423570985008687907853269984665640564039457584007913129639935").
Proof. vm_compute. intuition congruence. Qed.

(** C37: the same for I256, with a sign. *)
Theorem C37_i256_text : forall c x,
  usize_ok c -> wf_i x ->
  exists s t, canonical false 16 (Z.abs (ival c x)) s /\ canonical false 10 (Z.abs (ival c x)) t /\
    let sg := if ival c x <? 0 then [45] else [] in
    i_serialize c x = Ret (sg ++ [48; 120] ++ s) /\ i_serialize_prefixed c x = Ret (sg ++ [48; 120] ++ s) /\
    i_serialize_permissive c x = Ret (sg ++ [48; 120] ++ s) /\ i_serialize_decimal c x = Ret (sg ++ t) /\
    format_visit_str (i_de_hex c) (sg ++ [48; 120] ++ s) = Ret (DOk x) /\
    format_visit_str (i_de_prefixed c) (sg ++ [48; 120] ++ s) = Ret (DOk x) /\
    i_permissive_visit_str c (sg ++ [48; 120] ++ s) = Ret (DOk x) /\
    format_visit_str (i_de_decimal c) (sg ++ t) = Ret (DOk x).
Proof. exact i_text. Qed.
Print Assumptions C37_i256_text.

Example C37_i256_case :
  i_serialize dev (iof dev (-42)) = Ret (text "-0x2a") /\ i_serialize_decimal devB (iof devB (-42)) = Ret (text "-42") /\
  i_serialize rel (iof rel MINI) = Ret (text "-0x8" ++ repeat 48 63) /\
  i_serialize_decimal rel (iof rel MINI) = Ret (text "-57896044618658097711785492504343953926634992332820282019728792003956564819968").
Proof. vm_compute. intuition congruence. Qed.

(** C37: a text given as bytes is accepted exactly when it is accepted as a string, with the same value. *)
Theorem C37_visitors_agree : forall c v x y,
  (format_visit_bytes (u_de_hex c) v = Ret (DOk x) <-> format_visit_str (u_de_hex c) v = Ret (DOk x)) /\
  (format_visit_bytes (i_de_hex c) v = Ret (DOk y) <-> format_visit_str (i_de_hex c) v = Ret (DOk y)) /\
  (format_visit_bytes (u_de_decimal c) v = Ret (DOk x) <-> format_visit_str (u_de_decimal c) v = Ret (DOk x)) /\
  (format_visit_bytes (i_de_decimal c) v = Ret (DOk y) <-> format_visit_str (i_de_decimal c) v = Ret (DOk y)) /\
  (format_visit_bytes (u_de_prefixed c) v = Ret (DOk x) <-> format_visit_str (u_de_prefixed c) v = Ret (DOk x)) /\
  (format_visit_bytes (i_de_prefixed c) v = Ret (DOk y) <-> format_visit_str (i_de_prefixed c) v = Ret (DOk y)).
Proof. exact visitors_agree. Qed.
Print Assumptions C37_visitors_agree.

Example C37_agree_case :
  format_visit_bytes (u_de_prefixed dev) (text "0b11") = Ret (DOk (uof dev 3)) /\
  format_visit_bytes (u_de_prefixed dev) [49; 195; 40] = Ret (DErr (InvalidValue [49; 195; 40])) /\
  format_visit_bytes (u_de_prefixed dev) [49; 195; 169] = Ret (DErr (ParseFailed InvalidDigit)).
Proof. vm_compute. intuition congruence. Qed.

(** C38: the 32-byte encodings are the base-256 digits in the order asked for, and are read back. *)
Theorem C38_bytes_encoding : forall c o x y,
  wf_u x -> wf_i y ->
  u_ser_bytes c o x = in_order o (digits_le (uval c x)) /\ i_ser_bytes c o y = in_order o (digits_le (ival c y)) /\
  u_ser_bytes c (native c) x = u_to_ne_bytes c x /\ i_ser_bytes c (native c) y = i_to_ne_bytes c y /\
  u_visit_bytes c o (u_ser_bytes c o x) = Ret (DOk x) /\ i_visit_bytes c o (i_ser_bytes c o y) = Ret (DOk y).
Proof. exact bytes_encoding. Qed.
Print Assumptions C38_bytes_encoding.

Example C38_encoding_case :
  u_ser_bytes dev BE (uof dev 258) = repeat 0 30 ++ [1; 2] /\ i_ser_bytes devB LE (iof devB (-2)) = 254 :: repeat 255 31.
Proof. vm_compute. intuition congruence. Qed.

(** C38: exactly the byte strings of length 32 are accepted. *)
Theorem C38_bytes_decoding : forall c o v,
  bytes_ok v ->
  u_visit_bytes c o v = Ret (if Z.of_nat (length v) =? 32 then DOk (uof c (value_le (in_order o v))) else DErr (InvalidLength (Z.of_nat (length v)))) /\
  i_visit_bytes c o v = Ret (if Z.of_nat (length v) =? 32 then DOk (iof c (value_le (in_order o v))) else DErr (InvalidLength (Z.of_nat (length v)))).
Proof. exact bytes_decoding. Qed.
Print Assumptions C38_bytes_decoding.

Example C38_decoding_case :
  u_visit_bytes dev BE (repeat 0 31 ++ [7]) = Ret (DOk (uof dev 7)) /\
  u_visit_bytes dev BE (repeat 0 31) = Ret (DErr (InvalidLength 31)) /\ i_visit_bytes dev LE (repeat 0 33) = Ret (DErr (InvalidLength 33)).
Proof. vm_compute. intuition congruence. Qed.

(** C38: a sequence is accepted exactly when all its elements are bytes, a size hint is right and the bytes are
    accepted; nothing uninitialised is ever read. *)
Theorem C38_bytes_seq : forall c o s x y,
  (u_visit_seq c o s = Ret (DOk x) <->
   exists l, yields s l /\ (size_hint s = None \/ size_hint s = Some 32) /\ u_visit_bytes c o l = Ret (DOk x)) /\
  (i_visit_seq c o s = Ret (DOk y) <->
   exists l, yields s l /\ (size_hint s = None \/ size_hint s = Some 32) /\ i_visit_bytes c o l = Ret (DOk y)) /\
  (exists r, u_visit_seq c o s = Ret r) /\ (exists r, i_visit_seq c o s = Ret r).
Proof. exact bytes_seq. Qed.
Print Assumptions C38_bytes_seq.

Example C38_seq_case :
  yields (mkSeq None (map DOk (7 :: repeat 0 31))) (7 :: repeat 0 31) /\
  u_visit_seq dev LE (mkSeq None (map DOk (7 :: repeat 0 31))) = Ret (DOk (uof dev 7)) /\
  u_visit_seq dev LE (mkSeq (Some 32) (map DOk (repeat 0 31))) = Ret (DErr (InvalidLength 31)) /\
  u_visit_seq dev LE (mkSeq None (map DOk (repeat 0 33))) = Ret (DErr (InvalidLength 33)) /\
  u_visit_seq dev LE (mkSeq (Some 5) (map DOk (repeat 0 32))) = Ret (DErr (InvalidLength 5)) /\
  u_visit_seq dev LE (mkSeq None [DOk 1; DErr (ElementError 300)]) = Ret (DErr (ElementError 300)).
Proof. split; [reflexivity|]. vm_compute. intuition congruence. Qed.

(** C39: for U256 the compressed encoding has the least number of bytes that can hold the number, and is read back. *)
Theorem C39_u256_compressed : forall c o x,
  usize_ok c -> wf_u x ->
  exists v, u_ser_compressed c o x = Ret v /\ bytes_ok v /\ value_le (in_order o v) = uval c x /\
    least (fun k => uval c x < 2 ^ (8 * k)) (Z.of_nat (length v)) /\
    u_compressed_visit_bytes c o v = Ret (DOk x).
Proof. exact u_compressed. Qed.
Print Assumptions C39_u256_compressed.

Example C39_u256_case :
  u_ser_compressed dev LE (uof dev 256) = Ret [0; 1] /\ u_ser_compressed devB BE (uof devB 256) = Ret [1; 0] /\
  u_ser_compressed dev LE (uof dev 0) = Ret [] /\ u_compressed_visit_bytes dev LE [] = Ret (DOk (uof dev 0)) /\
  u_compressed_visit_bytes rel BE [1; 0] = Ret (DOk (uof rel 256)).
Proof. vm_compute. intuition congruence. Qed.

(** C39: what is decoded from any bytes, and that more than 32 are rejected.  For I256 the sign is that of the last
    byte, even in big-endian order. *)
Theorem C39_compressed_decoding : forall c o v,
  usize_ok c -> bytes_ok v ->
  (Z.of_nat (length v) <= 32 ->
   u_compressed_visit_bytes c o v = Ret (DOk (uof c (value_le (in_order o v)))) /\
   i_compressed_visit_bytes c o v =
     Ret (DOk (iof c (value_le (in_order o v) - if 128 <=? last v 0 then 2 ^ (8 * Z.of_nat (length v)) else 0)))) /\
  (32 < Z.of_nat (length v) ->
   u_compressed_visit_bytes c o v = Ret (DErr (InvalidLength (Z.of_nat (length v)))) /\
   i_compressed_visit_bytes c o v = Ret (DErr (InvalidLength (Z.of_nat (length v))))).
Proof. exact compressed_decoding. Qed.
Print Assumptions C39_compressed_decoding.

Example C39_decoding_case :
  bytes_ok [254; 255] /\ i_compressed_visit_bytes dev LE [254; 255] = Ret (DOk (iof dev (-2))) /\
  u_compressed_visit_bytes dev LE (repeat 0 33) = Ret (DErr (InvalidLength 33)).
Proof. split; [repeat constructor; vm_compute; discriminate|]. vm_compute. intuition congruence. Qed.

(** C39: sequences are accepted as the bytes they yield. *)
Theorem C39_compressed_seq : forall c o s x y,
  usize_ok c ->
  (u_compressed_visit_seq c o s = Ret (DOk x) <->
   exists l, yields s l /\ (forall n, size_hint s = Some n -> n <= 32) /\ u_compressed_visit_bytes c o l = Ret (DOk x)) /\
  (i_compressed_visit_seq c o s = Ret (DOk y) <->
   exists l, yields s l /\ (forall n, size_hint s = Some n -> n <= 32) /\ i_compressed_visit_bytes c o l = Ret (DOk y)) /\
  (exists r, u_compressed_visit_seq c o s = Ret r) /\ (exists r, i_compressed_visit_seq c o s = Ret r).
Proof. exact compressed_seq. Qed.
Print Assumptions C39_compressed_seq.

Example C39_seq_case :
  u_compressed_visit_seq dev BE (mkSeq None (map DOk [1; 0])) = Ret (DOk (uof dev 256)) /\
  u_compressed_visit_seq dev BE (mkSeq (Some 1) (map DOk (repeat 0 33))) = Ret (DErr (InvalidLength 33)).
Proof. vm_compute. intuition congruence. Qed.

(** What the compressed encoding of an I256 is, and exactly which numbers are read back ([compressed_ok]). *)
Theorem C39_i256_compressed : forall c o x,
  usize_ok c -> wf_i x ->
  exists v, i_ser_compressed c o x = Ret v /\ bytes_ok v /\
    value_le (in_order o v) = ival c x mod 2 ^ (8 * Z.of_nat (length v)) /\
    least (i_fits (ival c x)) (Z.of_nat (length v)) /\
    (i_compressed_visit_bytes c o v = Ret (DOk x) <-> compressed_ok o (ival c x)).
Proof. exact i_compressed. Qed.
Print Assumptions C39_i256_compressed.

Example C39_i256_case :
  compressed_ok LE (-128) /\ i_ser_compressed dev LE (iof dev (-128)) = Ret [128] /\ i_compressed_visit_bytes dev LE [128] = Ret (DOk (iof dev (-128))) /\
  compressed_ok LE 127 /\ ~ compressed_ok LE 128 /\ ~ compressed_ok BE 384 /\ compressed_ok BE 256.
Proof. vm_compute. intuition congruence. Qed.

(** C39 is refuted for I256: 128 comes back as -128, 255 as -1 and, in big-endian order, -256 as 65280 and 384 as -65152. *)
Theorem C39_i256_refuted : forall c,
  usize_ok c ->
  i_ser_compressed c LE (iof c 128) = Ret [128] /\ i_compressed_visit_bytes c LE [128] = Ret (DOk (iof c (-128))) /\
  i_ser_compressed c BE (iof c 255) = Ret [255] /\ i_compressed_visit_bytes c BE [255] = Ret (DOk (iof c (-1))) /\
  i_ser_compressed c BE (iof c (-256)) = Ret [255; 0] /\ i_compressed_visit_bytes c BE [255; 0] = Ret (DOk (iof c 65280)) /\
  i_ser_compressed c BE (iof c 384) = Ret [1; 128] /\ i_compressed_visit_bytes c BE [1; 128] = Ret (DOk (iof c (-65152))).
Proof. exact i_compressed_witness. Qed.
Print Assumptions C39_i256_refuted.

(** C40: integer tokens keep their value; into U256 only the non-negative ones do. *)
Theorem C40_integers_partial : forall c v,
  - 2 ^ 127 <= v < 2 ^ 128 ->
  visit_int i_cast c v = Ret (DOk (iof c v)) /\ ival c (iof c v) = v /\
  visit_int u_cast c v = Ret (DOk (uof c v)) /\ uval c (uof c v) = v mod 2 ^ 256 /\ (0 <= v -> uval c (uof c v) = v).
Proof. exact permissive_int. Qed.
Print Assumptions C40_integers_partial.

Example C40_int_case : visit_int i_cast dev (-5) = Ret (DOk (iof dev (-5))) /\ visit_int u_cast devB (2 ^ 127) = Ret (DOk (uof devB (2 ^ 127))).
Proof. vm_compute. intuition congruence. Qed.

(** C40: an f64, given by its bit pattern, is accepted exactly when it is a whole number in [-2^53, 2^53), with that
    value (into U256 modulo 2^256). *)
Theorem C40_f64 : forall c b,
  let x := f_of_bits F64 b in
  (forall z, f_is x z -> - 2 ^ 53 <= z < 2 ^ 53 ->
     visit_f64 i_cast c x = Ret (DOk (iof c z)) /\ visit_f64 u_cast c x = Ret (DOk (uof c z))) /\
  ((~ exists z, f_is x z /\ - 2 ^ 53 <= z < 2 ^ 53) ->
     (exists m, visit_f64 i_cast c x = Ret (DErr (Custom m))) /\ exists m, visit_f64 u_cast c x = Ret (DErr (Custom m))).
Proof. exact permissive_f64. Qed.
Print Assumptions C40_f64.

Example C40_f64_case :
  f_is (f_of_bits F64 0x4045000000000000) 42 /\ visit_f64 i_cast dev (f_of_bits F64 0x4045000000000000) = Ret (DOk (iof dev 42)) /\
  (exists m, visit_f64 i_cast dev (f_of_bits F64 0x3fe0000000000000) = Ret (DErr (Custom m))) /\
  (exists m, visit_f64 i_cast dev (f_of_bits F64 0x7ff8000000000000) = Ret (DErr (Custom m))) /\
  (exists m, visit_f64 i_cast dev (f_of_bits F64 0x4340000000000000) = Ret (DErr (Custom m))).
Proof. split; [reflexivity|]. split; [vm_compute; reflexivity|]. repeat split; eexists; vm_compute; reflexivity. Qed.

(** C40: the same for an f32 and [-2^24, 2^24). *)
Theorem C40_f32 : forall c b,
  let x := f_of_bits F32 b in
  (forall z, f_is x z -> - 2 ^ 24 <= z < 2 ^ 24 ->
     visit_f32 i_cast c x = Ret (DOk (iof c z)) /\ visit_f32 u_cast c x = Ret (DOk (uof c z))) /\
  ((~ exists z, f_is x z /\ - 2 ^ 24 <= z < 2 ^ 24) ->
     (exists m, visit_f32 i_cast c x = Ret (DErr (Custom m))) /\ exists m, visit_f32 u_cast c x = Ret (DErr (Custom m))).
Proof. exact permissive_f32. Qed.
Print Assumptions C40_f32.

Example C40_f32_case :
  f_is (f_of_bits F32 0x42280000) 42 /\ visit_f32 u_cast dev (f_of_bits F32 0x42280000) = Ret (DOk (uof dev 42)) /\
  (exists m, visit_f32 i_cast dev (f_of_bits F32 0x4b800000) = Ret (DErr (Custom m))).
Proof. split; [reflexivity|]. split; [vm_compute; reflexivity|]. eexists; vm_compute; reflexivity. Qed.

(** C40: a float is at most one whole number. *)
Theorem C40_float_unique : forall x z z',
  f_is x z -> f_is x z' -> z = z'.
Proof. exact f_is_unique. Qed.
Print Assumptions C40_float_unique.

Example C40_unique_case : f_is (f_of_bits F64 0xc340000000000000) (- 2 ^ 53).
Proof. reflexivity. Qed.

(** C40: strings are read as prefixed numerals. *)
Theorem C40_strings : forall c v x y,
  (u_permissive_visit_str c v = Ret (DOk x) <->
   wf_u x /\ exists pre r, In (pre, r) radix_prefixes /\ reads false 0 MAXU r pre v (Ok (uval c x))) /\
  (i_permissive_visit_str c v = Ret (DOk y) <->
   wf_i y /\ exists pre r, In (pre, r) radix_prefixes /\ reads true MINI MAXI r pre v (Ok (ival c y))).
Proof. exact permissive_str. Qed.
Print Assumptions C40_strings.

Example C40_str_case : i_permissive_visit_str dev (text "-0x2a") = Ret (DOk (iof dev (-42))).
Proof. vm_compute. intuition congruence. Qed.

(** C40 is refuted: -1 becomes the largest U256, both as an integer and as a float, and -2^53 is accepted. *)
Theorem C40_permissive_refuted : forall c,
  visit_int u_cast c (-1) = Ret (DOk (uof c MAXU)) /\
  f_of_bits F64 0xc340000000000000 = FNum true (2 ^ 52) 1 /\
  visit_f64 i_cast c (FNum true (2 ^ 52) 1) = Ret (DOk (iof c (- 2 ^ 53))) /\
  f_of_bits F64 0xbff0000000000000 = FNum true (2 ^ 52) (-52) /\
  visit_f64 u_cast c (FNum true (2 ^ 52) (-52)) = Ret (DOk (uof c MAXU)).
Proof. exact permissive_witness. Qed.
Print Assumptions C40_permissive_refuted.


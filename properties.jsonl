{"id": "C01", "title": "U256 addition family is exact arithmetic modulo 2^256", "statement": "For all U256 a, b: wrapping_add gives (a+b) mod 2^256; overflowing_add gives that value and true exactly when a+b >= 2^256; checked_add is Some(a+b) exactly when a+b < 2^256 and None otherwise; saturating_add is min(a+b, 2^256-1). None of them ever panics.", "quantifier": "every pair of 256-bit operands, every build configuration (debug/release, overflow checks on/off, little/big endian target)", "why_tests_cant": "The operand space has 2^512 points; carries between the two 128-bit halves only go wrong on thin slices of it, and each build configuration is a different program.", "anchors": ["src/uint/api.rs: wrapping_add, overflowing_add, checked_add, saturating_add", "src/intrinsics/native/add.rs: add2, add3, uaddc"]}
{"id": "C02", "title": "U256 subtraction and negation family is exact", "statement": "For all U256 a, b: wrapping_sub gives (a-b) mod 2^256; overflowing_sub flags exactly a < b; checked_sub is Some(a-b) exactly when b <= a; saturating_sub is max(a-b, 0); wrapping_neg is (-a) mod 2^256; overflowing_neg flags exactly a <> 0; checked_neg is Some(0) exactly for 0; abs_diff is |a-b|.", "quantifier": "every pair of 256-bit operands, every build configuration (debug/release, overflow checks on/off, little/big endian target)", "why_tests_cant": "The operand space has 2^512 points; carries between the two 128-bit halves only go wrong on thin slices of it, and each build configuration is a different program.", "anchors": ["src/uint/api.rs: wrapping_sub, overflowing_sub, checked_sub, saturating_sub, wrapping_neg, overflowing_neg, checked_neg, abs_diff", "src/intrinsics/native/sub.rs: sub2, sub3, usubc"]}
{"id": "C03", "title": "U256 multiplication family is exact", "statement": "For all U256 a, b: wrapping_mul gives a*b mod 2^256; overflowing_mul flags exactly a*b >= 2^256; checked_mul is Some(a*b) exactly when a*b < 2^256; saturating_mul is min(a*b, 2^256-1). No intermediate computation panics in any build.", "quantifier": "every pair of 256-bit operands, every build configuration (debug/release, overflow checks on/off, little/big endian target)", "why_tests_cant": "The operand space has 2^512 points; carries between the two 128-bit halves only go wrong on thin slices of it, and each build configuration is a different program. The overflow flag combines three partial overflow conditions.", "anchors": ["src/uint/api.rs: wrapping_mul, overflowing_mul, checked_mul, saturating_mul", "src/intrinsics/native/mul.rs: umulddi3, mul2, mul3, umulc"]}
{"id": "C04", "title": "U256 division and remainder are exact and never undefined", "statement": "For all U256 a and b <> 0: a / b = floor(a/b) and a % b = a - b*floor(a/b); for b = 0 both panic with the division-by-zero / remainder message; undefined behaviour is never reached. All of div_euclid, rem_euclid, wrapping_div, checked_div, overflowing_div, saturating_div, *_rem, *_euclid agree with it (checked ones return None exactly for b = 0).", "quantifier": "every pair of 256-bit operands, every build configuration (debug/release, overflow checks on/off, little/big endian target)", "why_tests_cant": "Long division uses quotient-digit estimation with a correction step taken on about 2^-127 of random inputs, and the code contains unreachable_unchecked hints and unchecked out-parameters; sampling cannot reach the rare digits.", "anchors": ["src/intrinsics/native/divmod.rs: udiv256_by_128_to_128, div_mod_knuth, udivmod4, udiv2, udiv3, urem2, urem3", "src/uint/ops.rs: Div, Rem", "src/uint/api.rs: checked_div, wrapping_div, overflowing_div, checked_rem, div_euclid, rem_euclid"]}
{"id": "C05", "title": "U256 div_rem family returns the quotient and remainder together", "statement": "For all U256 a and b <> 0 div_rem, div_rem_euclid, wrapping_div_rem(_euclid), overflowing_div_rem(_euclid), checked_div_rem(_euclid), saturating_div_rem(_euclid) return exactly (floor(a/b), a mod b) (no overflow flag); the compiler hints inside (unreachable unless r < b and q <= a) are never violated, in any build; b = 0 panics (None for checked).", "quantifier": "every pair of 256-bit operands, every build configuration (debug/release, overflow checks on/off, little/big endian target)", "why_tests_cant": "A violated optimisation hint is undefined behaviour in release builds, which a test cannot observe reliably.", "anchors": ["src/uint.rs: div_rem, div_rem_euclid, checked_div_rem, saturating_div_rem, wrapping_div_rem, overflowing_div_rem and *_euclid"]}
{"id": "C06", "title": "Arithmetic operators panic exactly on overflow in debug and wrap in release", "statement": "For U256 and I256 and the operators + - * (and unary - on I256): with debug assertions the operator returns the mathematical result when representable and panics otherwise; without debug assertions it never panics and returns the result reduced modulo 2^256. The compound-assignment forms and the mixed forms with a primitive operand on either side give the same outcome.", "quantifier": "every pair of 256-bit operands, every build configuration (debug/release, overflow checks on/off, little/big endian target), every operator form", "why_tests_cant": "Two different source programs are compiled under the two configurations (three-operand checked vs in-place wrapping), and a test run exercises only one.", "anchors": ["src/uint/ops.rs", "src/int/ops.rs", "src/macros/ops.rs: __impl_ops, __impl_ops_divmod"]}
{"id": "C07", "title": "I256 addition and subtraction families are exact", "statement": "For all I256 a, b: wrapping_add/sub is the sum/difference reduced into [-2^255, 2^255); overflowing_* flags exactly when the true result is out of that range; checked_* is Some exactly when in range; saturating_* clamps to the nearer bound.", "quantifier": "every pair of 256-bit operands, every build configuration (debug/release, overflow checks on/off, little/big endian target)", "why_tests_cant": "The operand space has 2^512 points; carries between the two 128-bit halves only go wrong on thin slices of it, and each build configuration is a different program.", "anchors": ["src/int/api.rs: wrapping_add, overflowing_add, checked_add, saturating_add, wrapping_sub, overflowing_sub, checked_sub, saturating_sub", "src/intrinsics/native/add.rs: iaddc", "src/intrinsics/native/sub.rs: isubc"]}
{"id": "C08", "title": "I256 multiplication family is exact", "statement": "For all I256 a, b: wrapping_mul is a*b reduced into [-2^255, 2^255); overflowing_mul flags exactly when a*b is out of range; checked_mul is Some exactly when in range; saturating_mul clamps to the bound of the sign of a*b. No build panics.", "quantifier": "every pair of 256-bit operands, every build configuration (debug/release, overflow checks on/off, little/big endian target)", "why_tests_cant": "Overflow detection divides MAX by an absolute value and has special cases for MIN; the boundary is a hyperbola of about 2^255 pairs.", "anchors": ["src/intrinsics/native/mul.rs: imulc", "src/int/api.rs: wrapping_mul, overflowing_mul, checked_mul, saturating_mul"]}
{"id": "C09", "title": "I256 truncated division is exact", "statement": "For all I256 a and b <> 0 other than (MIN, -1): a / b is the quotient truncated toward zero and a % b the remainder with the sign of a, and wrapping_/overflowing_/checked_/saturating_ variants agree; for (MIN,-1) wrapping_div is MIN, wrapping_rem is 0, overflowing_* flag it, checked_* are None, saturating_div is MAX; b = 0 panics (None for checked).", "quantifier": "every pair of 256-bit operands, every build configuration (debug/release, overflow checks on/off, little/big endian target)", "why_tests_cant": "The operand space has 2^512 points; carries between the two 128-bit halves only go wrong on thin slices of it, and each build configuration is a different program.", "anchors": ["src/intrinsics/native/divmod.rs: idivmod4, idiv2, idiv3, irem2, irem3", "src/int/api.rs: checked_div, wrapping_div, overflowing_div, saturating_div, checked_rem, wrapping_rem, overflowing_rem"]}
{"id": "C10", "title": "Division overflow MIN / -1 panics like the primitive integer types", "statement": "Evaluating I256::MIN / -1, I256::MIN % -1, I256::MIN.div_euclid(-1) or I256::MIN.rem_euclid(-1) panics (the latter two are documented to panic when the division results in overflow).", "quantifier": "every build configuration", "why_tests_cant": "It is a per-configuration claim about a missing panic; the existing tests never evaluate this point with the operators.", "anchors": ["src/int/ops.rs: Div, Rem", "src/int/api.rs: div_euclid, rem_euclid"]}
{"id": "C11", "title": "I256 Euclidean division and remainder", "statement": "For all I256 a and b <> 0 with (a,b) <> (MIN,-1): div_euclid and rem_euclid return the unique q, r with a = q*b + r and 0 <= r < |b|, never panicking in any build; wrapping_/overflowing_/checked_ variants agree.", "quantifier": "every pair of 256-bit operands, every build configuration (debug/release, overflow checks on/off, little/big endian target)", "why_tests_cant": "|MIN| is not representable, so the absolute-value step is wrong only at the single divisor MIN; the debug/release programs differ there.", "anchors": ["src/int/api.rs: div_euclid, rem_euclid, checked_div_euclid, wrapping_div_euclid, overflowing_div_euclid, checked_rem_euclid, wrapping_rem_euclid, overflowing_rem_euclid"]}
{"id": "C12", "title": "I256 combined div_rem family", "statement": "For all I256 a and b <> 0: wrapping_div_rem, overflowing_div_rem, checked_div_rem, saturating_div_rem, and div_rem unless (a,b) = (MIN,-1) (see C14), return exactly the pair of the separate truncated quotient and remainder, with the overflow treatment of the separate division for (MIN,-1); undefined behaviour is never reached.", "quantifier": "every pair of 256-bit operands, every build configuration (debug/release, overflow checks on/off, little/big endian target)", "why_tests_cant": "The operand space has 2^512 points; carries between the two 128-bit halves only go wrong on thin slices of it, and each build configuration is a different program.", "anchors": ["src/int.rs: div_rem, checked_div_rem, saturating_div_rem, wrapping_div_rem, overflowing_div_rem"]}
{"id": "C13", "title": "I256 combined Euclidean div_rem family", "statement": "For all I256 a and b <> 0 with (a,b) <> (MIN,-1): div_rem_euclid, wrapping_div_rem_euclid, overflowing_div_rem_euclid, checked_div_rem_euclid and saturating_div_rem_euclid return the unique Euclidean (q, r) in every build; undefined behaviour is never reached.", "quantifier": "every pair of 256-bit operands, every build configuration (debug/release, overflow checks on/off, little/big endian target)", "why_tests_cant": "The only failing divisor is I256::MIN and only with overflow checks on; random tests never draw it.", "anchors": ["src/int.rs: div_rem_euclid, checked_div_rem_euclid, saturating_div_rem_euclid, wrapping_div_rem_euclid, overflowing_div_rem_euclid"]}
{"id": "C14", "title": "Overflow in I256::div_rem panics only with debug assertions", "statement": "As documented ('will panic on overflow iff debug assertions are enabled'), I256::MIN.div_rem(-1) and I256::MIN.div_rem_euclid(-1) panic in a debug build and do not panic in a release build.", "quantifier": "every build configuration", "why_tests_cant": "Requires comparing two builds.", "anchors": ["src/int.rs: div_rem, div_rem_euclid"]}
{"id": "C15", "title": "Shifts by less than 256 are multiplication and floor division by powers of two", "statement": "For all x and 0 <= s < 256: U256 << s is x*2^s mod 2^256, U256 >> s is floor(x/2^s), I256 << s is x*2^s reduced into range, I256 >> s is floor(x/2^s) (arithmetic shift). This holds for the operators with every shift-amount type, the assignment forms and the wrapping_/overflowing_/checked_ methods, in every build, with no panic.", "quantifier": "every value, every amount below 256, every amount type, every build configuration", "why_tests_cant": "Amounts 0, 127, 128, 129, 255 take different paths; 2^256 values each.", "anchors": ["src/intrinsics/native/shl.rs", "src/intrinsics/native/shr.rs", "src/uint/ops.rs: Shl, Shr", "src/int/ops.rs: Shl, Shr", "src/macros/ops.rs: __impl_ops_shift"]}
{"id": "C16", "title": "Named shift methods mask or reject out-of-range amounts", "statement": "For all x and all u32 s: wrapping_shl/shr shift by s mod 256; overflowing_shl/shr additionally flag exactly s >= 256; checked_shl/shr are None exactly for s >= 256. No build panics.", "quantifier": "every value and every u32 amount, every build configuration", "why_tests_cant": "The amount space and value space together are unbounded for tests.", "anchors": ["src/uint/api.rs: wrapping_shl, wrapping_shr, overflowing_shl, overflowing_shr, checked_shl, checked_shr", "src/int/api.rs: same"]}
{"id": "C17", "title": "Shift operators panic in debug exactly for out-of-range amounts", "statement": "With debug assertions, x << s and x >> s (and <<=, >>=) panic exactly when the amount, of whatever integer type (including negative amounts and 256-bit amounts), is outside 0..=255.", "quantifier": "every value, every amount of every amount type, both types", "why_tests_cant": "Amounts up to 2^256 and negative amounts go through a narrowing conversion that must not alias an in-range amount.", "anchors": ["src/uint/ops.rs", "src/int/ops.rs", "src/macros/ops.rs: __impl_ops_shift"]}
{"id": "C18", "title": "Shift operators in release mask the amount like primitive integers", "statement": "Without debug assertions, x << s and x >> s behave like wrapping_shl / wrapping_shr (the amount is reduced modulo 256), as for primitive integer types.", "quantifier": "every value and every amount", "why_tests_cant": "Only out-of-range amounts in release builds are affected.", "anchors": ["src/uint/ops.rs: Shl, Shr (release)", "src/intrinsics/native/shl.rs: shl3", "src/intrinsics/native/shr.rs: shr3, sar3"]}
{"id": "C19", "title": "Rotations are bit rotations for every amount", "statement": "For all x and u32 n: bit i of rotate_left(n) is bit (i-n) mod 256 of x and bit i of rotate_right(n) is bit (i+n) mod 256 of x; rotations never panic; rotate_right inverts rotate_left.", "quantifier": "every value, every u32 amount, every build configuration", "why_tests_cant": "Amounts above 256 underflow a subtraction in overflow-checked builds only.", "anchors": ["src/uint/api.rs: rotate_left, rotate_right", "src/int/api.rs: rotate_left, rotate_right", "src/intrinsics/native/rot.rs"]}
{"id": "C20", "title": "Bit counting functions are exact", "statement": "For all x: count_ones is the number of set bits among bits 0..255, count_zeros = 256 - count_ones; leading_zeros, trailing_zeros, leading_ones, trailing_ones are the lengths of the corresponding runs (256 when the value is all zeros/ones), and never panic.", "quantifier": "every value, every build configuration", "why_tests_cant": "2^256 values; the 128-bit split and the arithmetic-mask trick in trailing_zeros matter at the word boundary.", "anchors": ["src/uint/api.rs: count_ones, count_zeros, leading_zeros, trailing_zeros, leading_ones, trailing_ones", "src/int/api.rs: same", "src/intrinsics/native/ctz.rs"]}
{"id": "C21", "title": "swap_bytes and reverse_bits are the exact permutations and involutions", "statement": "For all x: bit i of reverse_bits(x) is bit 255-i of x; byte i of swap_bytes(x) is byte 31-i of x; both are involutions; from_be/from_le/to_be/to_le are the identity on the matching target and swap_bytes on the other.", "quantifier": "every value, both target endiannesses", "why_tests_cant": "A test host has one endianness.", "anchors": ["src/uint/api.rs: swap_bytes, reverse_bits, from_be, from_le, to_be, to_le", "src/int/api.rs: same"]}
{"id": "C22", "title": "Byte array conversions are positional base-256 and round-trip", "statement": "For all x: to_be_bytes / to_le_bytes produce the 32 base-256 digits of x (two's complement for I256) most / least significant first on every target; to_ne_bytes is the one matching the target; from_*_bytes is the two-sided inverse for every 32-byte array.", "quantifier": "every value, every 32-byte array, both target endiannesses", "why_tests_cant": "Uses transmute over a target-dependent word layout; tests see one layout.", "anchors": ["src/uint/api.rs: to_be_bytes, to_le_bytes, to_ne_bytes, from_be_bytes, from_le_bytes, from_ne_bytes", "src/int/api.rs: same"]}
{"id": "C23", "title": "Comparison is the numeric order and equality is numeric equality", "statement": "For all a, b of the same type cmp, <, <=, >, >=, ==, min, max are those of the represented integers (so a total order); comparisons against u128 / i128 in either operand position compare numeric values.", "quantifier": "every pair, both endiannesses", "why_tests_cant": "The operand space has 2^512 points; carries between the two 128-bit halves only go wrong on thin slices of it, and each build configuration is a different program.", "anchors": ["src/uint/cmp.rs", "src/int/cmp.rs", "src/macros/cmp.rs"]}
{"id": "C24", "title": "Hashing is consistent with equality", "statement": "For every Hasher, equal values feed the hasher identical data, and feed different data when the values differ.", "quantifier": "every pair of values and every hasher state", "why_tests_cant": "Universally quantified over hashers and values.", "anchors": ["src/uint.rs: Hash", "src/int.rs: Hash", "src/uint/cmp.rs", "src/int/cmp.rs"]}
{"id": "C25", "title": "Exponentiation family is exact", "statement": "For all bases b and all u32 e: wrapping_pow is b^e reduced modulo 2^256 into range; overflowing_pow flags exactly when b^e is out of range; checked_pow is Some(b^e) exactly when in range; saturating_pow clamps to the bound of the sign of b^e; pow in debug panics exactly when b^e is out of range and in release wraps.", "quantifier": "every base, every u32 exponent, every build configuration", "why_tests_cant": "Square-and-multiply squares the base once more than the result needs; a spurious overflow would appear only for particular (base, exponent) pairs.", "anchors": ["src/uint/api.rs: pow, checked_pow, saturating_pow, wrapping_pow, overflowing_pow", "src/int/api.rs: same"]}
{"id": "C26", "title": "I256 sign functions are exact", "statement": "For all I256 a: is_negative/is_positive/signum/signum128 give the sign; wrapping_abs, overflowing_abs, checked_abs, saturating_abs, unsigned_abs and abs give |a| with the documented treatment of MIN only; the neg family likewise.", "quantifier": "every value, every build configuration", "why_tests_cant": "The MIN boundary and the word boundary, in both builds.", "anchors": ["src/int/api.rs: abs, signum, signum128, is_negative, is_positive, wrapping_abs, overflowing_abs, checked_abs, saturating_abs, unsigned_abs, wrapping_neg, overflowing_neg, checked_neg, saturating_neg"]}
{"id": "C27", "title": "Integer conversions are value preserving exactly when representable", "statement": "For every primitive integer type T (bool, u8..u128, i8..i128, usize, isize) and both 256-bit types: From/TryFrom from T yields the same numeric value and fails exactly when it is not representable (negative into U256); TryFrom into T (and U256 <-> I256) succeeds exactly when the value is in T's range, with the same value.", "quantifier": "every value, every primitive type, every pointer width", "why_tests_cant": "2^256 values per type.", "anchors": ["src/uint/convert.rs", "src/int/convert.rs"]}
{"id": "C28", "title": "as_* casts truncate or sign-extend", "statement": "For every value and primitive type T: as_T is the value reduced modulo 2^bits(T) into T's range; as_u256 / as_i256 between the 256-bit types reinterprets two's complement; as_u256 / as_i256 (AsU256/AsI256) from a primitive is the value reduced modulo 2^256; casts compose (widening then narrowing is the identity).", "quantifier": "every value, every primitive type", "why_tests_cant": "2^256 values per type.", "anchors": ["src/uint.rs: as_*", "src/int.rs: as_*", "src/uint/convert.rs: AsU256", "src/int/convert.rs: AsI256"]}
{"id": "C29", "title": "Float to integer casts truncate toward zero and saturate", "statement": "For every f32/f64 bit pattern: as_u256 / as_i256 give 0 for NaN, the truncated value when in range, and the nearest bound otherwise (so +infinity gives MAX and -infinity gives MIN, 0 for U256), without panicking.", "quantifier": "every float bit pattern, every build configuration", "why_tests_cant": "2^64 patterns, and the exponent boundaries are single points.", "anchors": ["src/uint/convert.rs: impl_as_u256_float", "src/int/convert.rs: impl_as_i256_float"]}
{"id": "C30", "title": "Integer to float casts are accurate", "statement": "as_f64 is exact for |x| < 2^53, monotone, and correctly rounded to nearest even; as_f32 of a U256 is correctly rounded (infinity beyond range).", "quantifier": "every value", "why_tests_cant": "Double rounding shows up on a 2^-50 fraction of inputs.", "anchors": ["src/uint.rs: as_f32, as_f64", "src/int.rs: as_f32, as_f64"]}
{"id": "C31", "title": "String parsing accepts exactly the valid numerals and returns their value", "statement": "For every byte string and radix 2..=36: from_str_radix returns Ok(v) exactly when the string is an optional sign ('+' always, '-' only for I256) followed by one or more digits of that radix whose value v is in range; the error is Empty / InvalidDigit / PosOverflow / NegOverflow as the first failing character dictates; it panics exactly for a radix outside 2..=36. FromStr is radix 10. The result does not depend on the build.", "quantifier": "every string of any length, every radix, every build configuration", "why_tests_cant": "Strings are unbounded; a fast path skips overflow checks for short strings per radix.", "anchors": ["src/uint/parse.rs", "src/int/parse.rs", "src/parse.rs: from_str_radix, can_not_overflow", "src/macros/parse.rs"]}
{"id": "C32", "title": "Prefixed parsing dispatches on the prefix", "statement": "from_str_prefixed parses optional sign then 0x/0o/0b prefix in radix 16/8/2, otherwise decimal, and returns Ok(v) exactly when the corresponding numeral is valid and in range; from_str_hex requires the 0x prefix.", "quantifier": "every string", "why_tests_cant": "Unbounded strings.", "anchors": ["src/uint.rs: from_str_prefixed, from_str_hex", "src/int.rs: same", "src/parse.rs: from_str_prefixed"]}
{"id": "C33", "title": "Error of prefixed parsing describes the numeral the prefix announces", "statement": "When from_str_prefixed fails on a string with a 0x, 0o or 0b prefix, the error kind is the one obtained by parsing the digits after the prefix in that radix (so an over-long hexadecimal numeral reports an overflow).", "quantifier": "every string", "why_tests_cant": "Unbounded strings.", "anchors": ["src/parse.rs: from_str_prefixed"]}
{"id": "C34", "title": "Formatting produces the canonical numeral and never leaves its buffer", "statement": "For every value and format options: Display prints the canonical decimal numeral (no leading zeros, '-' for negatives), LowerHex/UpperHex/Octal/Binary the canonical numeral of the two's-complement bit pattern (or, for I256 with the sign-minus option, of the absolute value with a sign), all with the prefix/padding rules of primitive integers; no unsafe write or read outside the stack buffer, no uninitialised read, no panic.", "quantifier": "every value, every format option, every build configuration", "why_tests_cant": "The buffer arithmetic is unsafe pointer code whose worst case is reached by few values.", "anchors": ["src/fmt.rs", "src/uint/fmt.rs", "src/int/fmt.rs", "src/macros/fmt.rs"]}
{"id": "C35", "title": "Printing then parsing is the identity", "statement": "For every value: parsing the Display output gives the value back; parsing the LowerHex/UpperHex/Octal/Binary output of a U256 in that radix (with prefix: via from_str_prefixed) gives the value back; for I256 with the sign-minus option likewise.", "quantifier": "every value", "why_tests_cant": "2^256 values through two independent unsafe/loop-heavy pieces of code.", "anchors": ["src/fmt.rs", "src/parse.rs", "src/uint/parse.rs", "src/int/parse.rs"]}
{"id": "C36", "title": "Literal macros evaluate every in-range literal", "statement": "For every well-formed literal text accepted by uint!/int! (optional sign, optional 0x/0o/0b prefix, digits with underscores and whitespace allowed) whose value is in range, the macro yields exactly that value; out-of-range literals are rejected.", "quantifier": "every literal text", "why_tests_cant": "Unbounded texts; the 64-bit limb carry logic fails only for rare limb patterns.", "anchors": ["src/lib.rs: int, uint", "src/parse.rs: const_from_str_prefixed, const_from_str_radix", "src/uint/parse.rs", "src/int/parse.rs"]}
{"id": "C37", "title": "Default (hexadecimal) and decimal serde encodings round-trip and never fail", "statement": "For every value, serializing with the default, prefixed and decimal modules succeeds (the fixed-size buffer never overflows) and deserializing the produced string gives the value back.", "quantifier": "every value, every build configuration", "why_tests_cant": "The buffer is exactly as long as the longest output; only extreme values fill it.", "anchors": ["src/serde.rs: Serialize, Deserialize, decimal, prefixed, FormatBuffer, FormatVisitor"]}
{"id": "C38", "title": "Binary serde encodings (bytes::le, bytes::be, bytes::ne) round-trip", "statement": "For every value the 32-byte encodings round-trip on every target, and deserialization rejects exactly the byte strings and sequences whose length is not 32.", "quantifier": "every value, every byte string", "why_tests_cant": "2^256 values; target-endianness dependent.", "anchors": ["src/serde.rs: bytes"]}
{"id": "C39", "title": "Compressed byte serde encodings round-trip and are minimal", "statement": "For every U256 and I256 value, the compressed_bytes::{le,be,ne} encoding uses the fewest bytes that determine the value and deserializing gives the value back; inputs longer than 32 bytes are rejected.", "quantifier": "every value, every byte string", "why_tests_cant": "Depends on the top bit of the leading byte of the value.", "anchors": ["src/serde.rs: compressed_bytes"]}
{"id": "C40", "title": "Permissive deserialization accepts numbers only when they are represented exactly", "statement": "The permissive visitor maps every integer token to the same numeric value and rejects integers not representable in the target type (negative into U256); floats are accepted exactly when they are whole numbers in the documented open range (-2^53, 2^53), for f32 (-2^24, 2^24), and then give that number, so NaN, infinities and numbers with a fractional part are rejected; strings are read as by from_str_prefixed.", "quantifier": "every token value", "why_tests_cant": "2^64..2^128 token values.", "anchors": ["src/serde.rs: permissive"]}
{"id": "C41", "title": "Power-of-two functions are exact", "statement": "For all U256 x: is_power_of_two is true exactly when x = 2^k; next_power_of_two returns the least power of two >= x when representable, and otherwise panics in debug and returns 0 in release; checked_next_power_of_two is None exactly then.", "quantifier": "every value, every build configuration", "why_tests_cant": "2^256 values; the shift amount at x = 0 and x > 2^255 is special.", "anchors": ["src/uint/api.rs: is_power_of_two, next_power_of_two, checked_next_power_of_two, one_less_than_next_power_of_two"]}
{"id": "C42", "title": "Sum and Product fold exactly", "statement": "For every finite sequence (by value or by reference): sum/product equal the mathematical sum/product modulo 2^256 in release; in debug they return it exactly when every partial result is in range and panic otherwise.", "quantifier": "every finite sequence", "why_tests_cant": "Sequences are unbounded.", "anchors": ["src/uint/iter.rs", "src/int/iter.rs", "src/macros/iter.rs"]}
{"id": "C43", "title": "Debug and release builds agree", "statement": "For every operation with a build-dependent implementation: whenever the debug build returns a value, the release build returns the same value.", "quantifier": "every operand of every operation, every pair of configurations with the same target", "why_tests_cant": "Requires relating two programs on all inputs.", "anchors": ["src/uint/ops.rs", "src/int/ops.rs", "src/uint/api.rs", "src/int/api.rs"]}
{"id": "C44", "title": "No operation reaches undefined behaviour", "statement": "For every operand, no API function reaches unreachable_unchecked, an out-of-bounds unsafe write/read or an uninitialised read.", "quantifier": "every operand of every operation, every build configuration", "why_tests_cant": "UB is not observable by tests.", "anchors": ["src/uint.rs", "src/int.rs", "src/fmt.rs", "src/intrinsics/native/divmod.rs", "src/serde.rs"]}
{"id": "C45", "title": "Results do not depend on target endianness", "statement": "Running any operation on the representations of the same numbers on a big- and a little-endian target yields representations of the same number (except to/from_ne_bytes and the documented from/to_be/le swaps).", "quantifier": "every operand, both endiannesses", "why_tests_cant": "Tests run on one endianness.", "anchors": ["src/uint.rs: from_words, into_words, low, high", "src/int.rs: same"]}
{"id": "C46", "title": "Bitwise operators act on two's-complement bits", "statement": "For all a, b and 0 <= i < 256: bit i of a & b, a | b, a ^ b, !a is the corresponding boolean function of bit i of a and b, also in assignment and mixed-primitive forms; for I256 bits are those of the two's complement representation.", "quantifier": "every pair, every bit", "why_tests_cant": "The operand space has 2^512 points; carries between the two 128-bit halves only go wrong on thin slices of it, and each build configuration is a different program.", "anchors": ["src/uint/ops.rs", "src/int/ops.rs", "src/macros/ops.rs"]}
{"id": "C47", "title": "Mixed-signedness arithmetic methods are exact", "statement": "For the operations mixing U256 and I256 operands (U256 wrapping_/overflowing_/checked_/saturating_ add_signed; I256 wrapping_/overflowing_/checked_/saturating_ add_unsigned and sub_unsigned; I256::abs_diff): wrapping_ is the exact result modulo 2^256, overflowing_ flags exactly out-of-range results, checked_ is None exactly then, saturating_ clamps to the nearer bound, abs_diff is |a-b|; none panics in any build.", "quantifier": "every pair of 256-bit operands, every build configuration (debug/release, overflow checks on/off, little/big endian target)", "why_tests_cant": "The operand space has 2^512 points; carries between the two 128-bit halves only go wrong on thin slices of it, and each build configuration is a different program.", "anchors": ["src/uint/api.rs", "src/int/api.rs"]}
{"id": "C48", "title": "Alternative LLVM intrinsics compute the same functions as the native ones", "statement": "For every intrinsic of the optional llvm-intrinsics backend (as described by its 128-bit Rust template instantiated at width 256) the result equals that of the native backend on every operand for which the public API calls it.", "quantifier": "every operand, every amount the API can pass", "why_tests_cant": "Two independent implementations selected by a feature flag.", "anchors": ["src/intrinsics.rs", "src/intrinsics/llvm.rs", "intrinsics/"]}
{"id": "C49", "title": "Words, constants and defaults are the right numbers on every target", "statement": "For U256 and I256: from_words(hi, lo) is the number hi*2^128 + lo (lo read as an unsigned 128-bit pattern for I256); low, high and into_words are the low and high 128 bits of the value; assigning through low_mut or high_mut replaces exactly that half and keeps the other; new(v) is the number v, negative ones included. ZERO, ONE, MINUS_ONE, MIN, MAX and the Default value are 0, 1, -1, the smallest number, the largest number and 0; BITS is 256. All of this holds whichever way the two words are laid out in memory.", "quantifier": "every value, every pair of words, both byte orders", "why_tests_cant": "The word layout depends on the target's byte order through cfg attributes; a test run on one machine only sees one of the two programs, and a mixed-up half only shows for values where the halves differ.", "anchors": ["src/uint.rs", "src/int.rs", "src/uint/api.rs: constants", "src/int/api.rs: constants"]}
{"id": "C50", "title": "The public intrinsics compute the exact functions", "statement": "The functions of the public intrinsics module, called directly: addition, subtraction and multiplication (in place and into an out-parameter) give the result modulo 2^256, and the c-variants also report exactly whether the mathematical result left the range; umulddi3 gives the exact 256-bit product of two 128-bit numbers; udivmod4 and idivmod4 give quotient and, when asked for, remainder (truncated towards zero for signed numbers, MIN / -1 wrapping to MIN), and they and their div and rem wrappers panic on a zero divisor rather than being undefined; shifts by less than 256, rotations by at most 256 (by any amount when subtraction overflow is not checked or the LLVM intrinsics are used) and zero-bit counts give the arithmetic shift, the rotated bits and the length of the run of zeros. The signed wrappers agree with the signed reading of the same bits.", "quantifier": "every operand, every build configuration, both sets of intrinsics, both byte orders", "why_tests_cant": "The operators and methods never pass some of these arguments (a zero divisor, or a missing remainder with a particular branch of the division), so tests of the number types do not reach them; the operand space is 2^512.", "anchors": ["src/intrinsics.rs", "src/intrinsics/signed.rs", "src/intrinsics/native/*.rs", "src/intrinsics/llvm.rs"]}
{"id": "C51", "title": "Out-parameters are written before they are read, and nothing else is written", "statement": "Every function with a MaybeUninit out-parameter or an in-place reference (the add, sub, mul, div, rem, shift functions of the intrinsics module and their signed wrappers) writes its result to that place whatever it held before, including nothing at all, and writes to no other place; division writes the quotient and, when asked to, the remainder; with a zero divisor it panics having written nothing. Every operator and method that creates an uninitialised place, has it filled and calls assume_init on it reads only what was written, returns the same result as the operation on values, and leaves the caller's memory as it was even when it panics.", "quantifier": "every operand, every content of the memory, every build configuration, both sets of intrinsics", "why_tests_cant": "Reading a place before it is written usually goes unnoticed because it holds plausible bytes; a stray or missing write on one of the branches of the division is only seen for the operands taking that branch and with a caller that looks at the place afterwards.", "anchors": ["src/intrinsics/native/*.rs", "src/intrinsics/signed.rs", "src/macros/ops.rs", "src/uint/api.rs", "src/int/api.rs", "src/uint.rs: div_rem", "src/int.rs: wrapping_div_rem, checked_div_rem"]}
{"id": "C52", "title": "A compound assignment that panics leaves its target unchanged", "statement": "For the compound assignments of U256 and I256 (+=, -=, *=, /=, %=, <<=, >>= with amounts of every type, &=, |=, ^=): if the operation does not panic, the target holds the exact result (modulo 2^256 in builds without checks); if it panics (overflow in a build with debug assertions, a zero divisor, a shift amount out of range), the target still holds its old value. Nothing but the target changes in either case.", "quantifier": "every target value, every right operand, every content of the memory, every build configuration, both sets of intrinsics", "why_tests_cant": "Release builds update the target in place, half by half, and divide straight into it; debug builds take another path. Whether a value observed after catching a panic is the old one depends on the order of the writes on the branch taken.", "anchors": ["src/macros/ops.rs: __impl_ops_binop_assign, __impl_ops_shift_assign, __impl_ops_bitwise_assign", "src/intrinsics/native/*.rs"]}
{"id": "C53", "title": "Round trips between integers and floats lose nothing twice", "statement": "Converting a U256 or I256 to f64 or f32 and the result back to the integer type gives an integer that converts to the same float again, for every value including those that round up to 2^256, 2^255 or infinity. A number with at most 53 significant bits (f64), or at most 24 and magnitude below 2^128 (f32), comes back unchanged. A float that is a whole number in the range of the integer type becomes exactly that integer and converts back to the same float.", "quantifier": "every value of both types, every bit pattern of both float formats, every build configuration", "why_tests_cant": "The behaviour at the top of the range combines rounding up past the type's maximum with saturation on the way back; which values do so depends on the rounding of both 128-bit halves.", "anchors": ["src/uint.rs: as_f32, as_f64", "src/int.rs: as_f32, as_f64", "src/uint/convert.rs: impl_as_u256_float, impl_into_float", "src/int/convert.rs: impl_as_i256_float, impl_into_float"]}
{"id": "C54", "title": "Text formats are compatible with each other and between U256 and I256", "statement": "A text read as U256 and as I256 (in any radix, as prefixed hexadecimal, or with any prefix) is the same number; a text whose number fits both types is read by both, except that U256 accepts no minus sign. Every hexadecimal and every decimal text is read by the prefixed and the permissive deserializer with the same value, and no text is both hexadecimal and decimal. What the hexadecimal or decimal serializer writes for one type is read by the prefixed and permissive deserializer of the other type with the same value if there is one and rejected otherwise.", "quantifier": "every byte string, every radix 2..36, every value, every build configuration", "why_tests_cant": "The two types parse with different limits and different fast paths chosen by length, and the prefixed parser tries several radices in turn, so agreement is a statement about all texts.", "anchors": ["src/parse.rs: from_str_radix, from_str_prefixed", "src/serde.rs: Serialize, Deserialize, decimal, prefixed, permissive"]}
{"id": "C55", "title": "Big-endian bytes sort like the numbers", "statement": "For U256 the lexicographic order of to_be_bytes is the numeric order. For I256 the same holds once the top bit of the first byte of each string is flipped.", "quantifier": "every pair of values, every build configuration, both byte orders of the target", "why_tests_cant": "The order relates all pairs of 256-bit values through two 128-bit words and the byte order of the target.", "anchors": ["src/uint/api.rs: to_be_bytes", "src/int/api.rs: to_be_bytes"]}
{"id": "C56", "title": "Every public operation panics exactly under its stated condition", "statement": "For each of the 388 public operations there is one condition on the build and the arguments. The operation panics on legal arguments that meet the condition and returns a value on all other legal arguments. The conditions are: overflow with debug assertions on, a zero divisor, a signed quotient out of range in div_rem, a shift amount out of range with debug assertions on, a rotation amount above 256 with overflow checks on, an invalid radix, a rejected literal, an empty range in clamp, and the least divisor in combined Euclidean division with debug assertions on. All other operations never panic.", "quantifier": "every public operation of the catalogue, all legal arguments, every build configuration", "why_tests_cant": "Absence of panics on all other arguments is a claim about every pair of 256-bit values in every build configuration.", "anchors": ["src/uint/api.rs", "src/int/api.rs", "src/macros/ops.rs", "src/int/api.rs: div_rem_euclid"]}
{"id": "C57", "title": "Wrapping arithmetic is a commutative ring", "statement": "wrapping_add, wrapping_sub, wrapping_neg and wrapping_mul satisfy the laws of a commutative ring with ZERO and ONE, for U256 and I256. The negative is the bitwise complement plus one. wrapping_pow satisfies a^0 = 1, a^1 = a, a^(m+n) = a^m * a^n and (a*b)^n = a^n * b^n. None of these operations panics.", "quantifier": "all triples of values, all exponents whose sum fits a u32, every build configuration", "why_tests_cant": "Associativity and distributivity range over triples of 256-bit values, with carries between words.", "anchors": ["src/uint/api.rs: wrapping_add, wrapping_mul, wrapping_pow", "src/int/api.rs: wrapping_add, wrapping_mul, wrapping_pow"]}
{"id": "C58", "title": "Division undoes multiplication", "statement": "For a divisor other than zero, quotient times divisor plus remainder is the dividend. For U256 neither the product nor the sum overflows. For I256 the identity holds modulo 2^256, including MIN / -1. The unsigned remainder is less than the divisor. The signed remainder is smaller in magnitude than the divisor and is zero or has the sign of the dividend. The Euclidean remainder is at least zero and less than the magnitude of the divisor. Dividing a product that did not overflow by one factor gives the other factor and remainder zero.", "quantifier": "all pairs with a divisor other than zero, every build configuration", "why_tests_cant": "The identity must hold on every path of the long division, for all dividends and divisors.", "anchors": ["src/intrinsics/native/divmod.rs", "src/uint/api.rs: wrapping_div, wrapping_rem, div_rem, checked_mul", "src/int/api.rs: wrapping_div, wrapping_rem, wrapping_div_euclid, wrapping_rem_euclid"]}
{"id": "C59", "title": "Bitwise operators, shifts, rotations and counts agree with each other and with arithmetic", "statement": "De Morgan's laws, distributivity and cancellation of xor hold. a + b is (a | b) + (a & b) and (a ^ b) + ((a & b) << 1). A left shift is multiplication by a power of two and a right shift is (Euclidean) division by it. Shifts add up, and rotations add up modulo 256. A rotation is the union of two opposite shifts. The numbers of ones of a and b add up to those of a & b and a | b. Reversing the bits swaps leading and trailing counts.", "quantifier": "all values, all shift amounts whose sum is below 256, all rotations up to 256, every build configuration", "why_tests_cant": "The laws relate independent implementations across word boundaries for all values and amounts.", "anchors": ["src/intrinsics/native/shl.rs", "src/intrinsics/native/shr.rs", "src/intrinsics/native/rot.rs", "src/intrinsics/native/ctz.rs", "src/uint/api.rs: count_ones, reverse_bits", "src/macros/ops.rs"]}
{"id": "C60", "title": "Casting between U256 and I256 carries operations over", "statement": "Casting to I256 and back gives the value again. The cast commutes with wrapping addition, subtraction, multiplication, negation and power, with the bitwise operators, left shift, rotation, byte swap and bit reversal. The order of I256 is the order of U256 after flipping the sign bit.", "quantifier": "all pairs of values, all shift amounts and exponents of type u32, rotations up to 256, every build configuration", "why_tests_cant": "Signed and unsigned operations are separate code paths, which must agree modulo 2^256 on all pairs of values.", "anchors": ["src/uint/api.rs: as_i256", "src/int/api.rs: as_u256", "src/uint/cmp.rs", "src/int/cmp.rs"]}
{"id": "C61", "title": "Checked and saturating arithmetic agree with the order", "statement": "a.checked_add(b) is Some(d) exactly if d.checked_sub(b) is Some(a). For U256 checked_sub fails exactly if a < b and checked_add fails exactly if !a < b. saturating_sub is max(a, b) - b and saturating_add is a + min(!a, b). abs_diff is max minus min. saturating_add and saturating_sub respect the order of their arguments.", "quantifier": "all triples of values, every build configuration", "why_tests_cant": "Equivalences over all pairs and triples of values, including those at the ends of the range.", "anchors": ["src/uint/api.rs: checked_add, checked_sub, saturating_add, saturating_sub, abs_diff", "src/int/api.rs: checked_add, checked_sub, saturating_add, saturating_sub, abs_diff"]}
{"id": "C62", "title": "Exponent formatting shows the number exactly", "statement": "{:e} and {:E} print a text that determines the number, as for the primitive integers. (The code prints as_f64 instead: the text is exact for numbers with 53 significant bits, and otherwise shows one of the two nearest such numbers.)", "quantifier": "all values, every formatter of f64, every build configuration", "why_tests_cant": "The claim is about all values and any formatter of f64.", "anchors": ["src/macros/fmt.rs: LowerExp, UpperExp"]}
{"id": "C63", "title": "Primitive integers keep their behaviour when converted", "statement": "Convert two numbers of a primitive integer type with From, compute in U256 or I256, and convert the result back to any primitive type: TryFrom gives what the checked operation of that type gives, and the as_ cast gives what its wrapping operation gives. This holds for + - * / %, negation, abs, signum, Euclidean division and the bitwise operators. Sums and products do not overflow, except the product of two u128 in I256. Comparison, casts and float casts of the converted number are those of the primitive one, and so are count_ones and (plus 256 minus the width) leading_zeros of an unsigned one.", "quantifier": "all builds, all primitive integer types with From, all target types, all pairs of numbers", "why_tests_cant": "There are 2^256 pairs of u128 alone, times types and builds.", "anchors": ["src/uint/convert.rs: From, TryFrom", "src/int/convert.rs: From, TryFrom", "src/macros/ops.rs", "src/uint.rs: as_f32, as_f64", "src/int.rs: as_f32, as_f64"]}
{"id": "C64", "title": "clamp returns the nearest value of the range", "statement": "x.clamp(lo, hi) panics exactly if lo > hi, in every build. Otherwise it returns the number between lo and hi that is nearest to x; it is min(max(x, lo), hi), is idempotent and keeps the order. a != b holds exactly for different values.", "quantifier": "all builds, all triples of U256 and of I256 values", "why_tests_cant": "The cases depend on the order of three 256-bit numbers.", "anchors": ["src/uint/cmp.rs: Ord for U256", "src/int/cmp.rs: Ord for I256", "src/macros/cmp.rs: impl_cmp!"]}
{"id": "C65", "title": "Truncating casts carry wrapping arithmetic over to the primitive types", "statement": "For every primitive integer type, the cast of a wrapping sum, difference, product, negative or power, of a bitwise combination and of a left shift is the same wrapping operation of the primitive type on the casts. A cast in two steps equals the direct cast. A cast to a primitive type and back with as_u256/as_i256 gives the value again exactly if the number is in the type, where U256 values above 2^256 - 2^127 count as negative numbers. TryFrom succeeds exactly for the values the casts preserve as numbers.", "quantifier": "all builds, all primitive integer types, all values, exponents and amounts", "why_tests_cant": "Quantifies over all pairs of 256-bit values for twelve types.", "anchors": ["src/uint.rs: as_*", "src/int.rs: as_*", "src/uint/convert.rs: AsU256, TryFrom", "src/int/convert.rs: AsI256, TryFrom", "src/uint/api.rs: wrapping_*", "src/int/api.rs: wrapping_*"]}
{"id": "C66", "title": "Each serde module accepts exactly the inputs that mean a number to it", "statement": "Whatever kind of value a deserializer hands to a module (boolean, integer or float of any width, char, string, bytes, option, unit, newtype, sequence, map, enum), deserialization never panics and succeeds exactly if the value means a number to that module: a numeral of the module's radices as string, char or (not permissive) bytes; 32 bytes, or at most 32 for the compressed modules, as bytes or as a sequence without a contradicting size hint; for permissive also any integer and any whole float in range. The result is that number, modulo 2^256. A value of any other kind, and only such a value, is rejected as of the wrong type, with the module's own description of what it expects.", "quantifier": "every build, every module, U256 and I256, every input of serde's data model", "why_tests_cant": "Tests use one format (JSON), which never hands over most kinds of input.", "anchors": ["src/serde.rs: FormatVisitor, PermissiveVisitor, BytesVisitor, CompressedBytesVisitor, deserialize"]}
{"id": "C67", "title": "Every serde module reads back what it wrote, through any data format", "statement": "Let a data format give back what was written (a string as string, or as bytes when asked for a string; bytes as bytes or as a sequence). Then for every module and every value, serializing succeeds and deserializing the document with the same module gives the value. The prefixed and the permissive module read what any text module wrote, also as the other integer type whenever the number fits it, and reject it otherwise. The compressed modules read what the bytes modules of the same order wrote, while the opposite holds only for U256 values of full length.", "quantifier": "every build, every data format, every module, every U256 and I256 value", "why_tests_cant": "Quantifies over data formats and all values.", "anchors": ["src/serde.rs: serialize, deserialize of all modules"]}
{"id": "C68", "title": "Every form of an operator gives the same result", "statement": "The operators + - * / % & | ^ are implemented for owned and borrowed operands, and for a primitive operand (u128 beside U256, i128 beside I256) on either side, owned or borrowed; the compound assignments for an owned, borrowed, primitive and borrowed primitive right operand; << >> <<= >>= for owned and borrowed operands with an amount of any of the twelve primitive types, U256 or I256; ! and - for owned and borrowed operands; sum() and product() for owned and borrowed items. In every build, every one of these forms terminates in the borrowed implementation with the operands in the order written, and its outcome (value or panic message) depends only on the operator and the two numbers: the exact result reduced modulo 2^256, a panic in debug builds if + - * leave the range, a panic for a zero divisor (where %= in release builds gives the message of division), and for shifts a panic in debug builds for an amount outside 0..255.", "quantifier": "every build, every operator, every combination of operand types and borrowing, all operand values", "why_tests_cant": "There are over a thousand combinations of operator, operand types and borrowing, which the unit tests only check to exist, and each is claimed for all values.", "anchors": ["src/macros/ops.rs: __impl_ops_binop_extra_variants, __impl_ops_shift_extra_variants, __impl_ops_binop_assign_extra_variants, __impl_ops_shift_assign_extra_variants, __impl_ops_unop", "src/macros/iter.rs: impl_iter"]}
{"id": "C69", "title": "The differential fuzzing target never reports a difference", "statement": "The fuzzing target compares overflowing_add/sub/mul/div/rem of U256 and I256 with a reference computed on big integers. For every target (operation, signedness, two 256-bit patterns) in every build the comparison succeeds: value and overflow flag agree. The targets it skips are exactly the divisions and remainders by zero and the signed remainder of I256::MIN by -1, and these are exactly the ones whose comparison would fail. The conversions to and from big integers used by the reference are exact, including I256::MIN.", "quantifier": "every build, every fuzzing target", "why_tests_cant": "A fuzzer only samples its targets; this is the statement it samples, for all of them.", "anchors": ["fuzz/src/lib.rs: fuzz, is_interesting", "fuzz/src/conv.rs: from_bigint, to_bigint", "fuzz/src/reference.rs"]}
{"id": "C70", "title": "The documentation examples and the unit tests hold in every build", "statement": "Every assertion in the documentation examples and in the unit tests of the crate holds not only in the build that runs them but in every build: with or without debug assertions, overflow checks and the llvm-intrinsics feature, little- or big-endian, with 16-, 32- or 64-bit usize. The examples marked should_panic panic in every build. The texts and bytes that the comments in the example of the serde module show are what the modules write.", "quantifier": "every build, every assertion of the documentation and the unit tests", "why_tests_cant": "The tests run in one build at a time, in practice a debug build for a little-endian 64-bit target; the comments in the serde example are not run at all, and one of them is wrong.", "anchors": ["src/uint/api.rs, src/int/api.rs, src/uint.rs, src/int.rs, src/lib.rs: documentation examples", "src/uint/cmp.rs, src/int/cmp.rs, src/uint/parse.rs, src/int/parse.rs, src/uint/fmt.rs, src/int/fmt.rs, src/int/convert.rs, src/serde.rs, src/intrinsics/native/divmod.rs, src/intrinsics/native/mul.rs: tests", "src/serde.rs:16-33"]}
{"id": "C71", "title": "Every panic carries the message of the primitive integers", "statement": "Whenever an operation of the crate panics, its message is the one the corresponding operation of the primitive integers panics with: 'attempt to add with overflow', 'attempt to subtract with overflow', 'attempt to multiply with overflow', 'attempt to divide by zero', 'attempt to calculate the remainder with a divisor of zero', 'attempt to negate with overflow', 'attempt to shift left/right with overflow', in every build. The operations without a counterpart have fixed messages as well: int! and uint! say 'empty string', 'missing number', 'invalid digit' or 'overflows integer type' according to the first thing wrong with the literal, clamp says 'assertion failed: min <= max', from_str_radix names the range [2, 36] and the radix it was given, and the Euclidean div_rem reports the division or the subtraction that overflows.", "quantifier": "every build, every operation that can panic, every argument on which it does", "why_tests_cant": "Tests marked should_panic accept any message, so a panic raised at the wrong place or by the wrong check passes. There are 116 operations that can panic and the message can depend on the build.", "anchors": ["src/macros/ops.rs:25-60, 125-140, 160-170, 230-275", "src/uint.rs:290-310", "src/int.rs:295-340, 480-490", "src/uint/api.rs, src/int/api.rs: division, pow, next_power_of_two", "src/parse.rs:36-42, 105-175", "src/int/parse.rs:15-40"]}
{"id": "C72", "title": "Byte orders and bit permutations obey their laws", "statement": "Writing a number in one byte order and reading it in the other is swap_bytes; to_be_bytes of the swapped number is to_le_bytes of the number; from_be undoes to_be and from_le undoes to_le, whatever the target. Shifting by a multiple of eight moves the bytes of to_be_bytes and fills with zeros (I256 >> fills with 0 or 255 according to the sign), rotating by one turns the list. The bitwise operators act byte by byte on to_be_bytes. swap_bytes, reverse_bits and the rotations keep count_ones; swap_bytes commutes with reverse_bits and distributes over the bitwise operators as reverse_bits does; reverse_bits turns a left rotation into a right one, and so does swap_bytes for rotations by whole bytes.", "quantifier": "every build and both endiannesses, all numbers of both types, all byte counts, all rotation amounts up to 256", "why_tests_cant": "The laws relate several operations on 2^256 numbers on targets of both endiannesses; a test host has one.", "anchors": ["src/uint/api.rs, src/int/api.rs: to_be_bytes, to_le_bytes, from_be_bytes, from_le_bytes, swap_bytes, reverse_bits, rotate_left, rotate_right, count_ones", "src/uint/api.rs, src/int/api.rs: wrapping_shl, wrapping_shr", "src/macros/ops.rs: bitwise operators"]}
{"id": "C73", "title": "Every rejected serde input is rejected for its first fault", "statement": "A serde module rejects an input exactly with the reason it has: a value of a kind the module has no use for is named as it was found, together with what the module expects; a text is blamed for the first fault of the numeral (of the hexadecimal numeral by Deserialize, of the decimal numeral by the modules); bytes given to a text module that are not UTF-8 are shown as they are; a float is blamed for its range or for its fraction; a byte string or sequence for its length, its size hint first, then the error of the first element that cannot be read among the first 33, then a 33rd element. Every input means a number or has exactly one such reason.", "quantifier": "every build, both types, every module and byte order, every call of a visitor method with every value, including byte strings and sequences of any length", "why_tests_cant": "The tests feed well-formed values and check few errors; the inputs of a visitor are unboundedly many strings, byte strings and sequences, and the order in which faults are noticed shows only on inputs with several.", "anchors": ["src/serde.rs: FormatVisitor, PermissiveVisitor, BytesVisitor, CompressedBytesVisitor: expecting, visit_str, visit_bytes, visit_seq, visit_f32, visit_f64", "src/parse.rs: from_str_radix, from_str_prefixed", "src/error.rs: pie"]}
{"id": "C74", "title": "The LLVM intrinsics link to definitions of their type, and the template is widened everywhere", "statement": "Every function src/intrinsics/llvm.rs calls is declared by ethnum-intrinsics, and its symbol is that of exactly one function of the template, of the same name and result, whose parameters are passed in the same way, point to an integer of the same sign and half the width, and expect the alignment the 256-bit numbers have; nothing declared or defined is left over. The build script's replacements change, in any text, exactly the occurrences of i128, of 127 after a space and of dereferenceable(16), to i256, 255 and dereferenceable(32); nothing else changes, none of the old texts is left, and a second replacement changes nothing.", "quantifier": "every function of the tables; every text, of any length; every alignment of u128 and u64", "why_tests_cant": "The crate's test compares memory layouts only; a wrong declaration links and runs with undefined behaviour, and the template's text depends on the compiler version.", "anchors": ["src/intrinsics/llvm.rs: def!", "intrinsics/src/lib.rs: def!, link!", "intrinsics/build/intrinsics.rs: def!, export!", "intrinsics/build/main.rs: main"]}
{"id": "C75", "title": "Whole programs behave the same in every build", "statement": "Take any program that calls public operations of the crate and otherwise branches, loops, panics and computes with values that are not 256-bit integers. If it returns in one build it returns the same thing in every build with the same pointer width that has no additional checks, whatever the byte order of the target and whichever intrinsics are used. With the same checks also the panics, their messages and endless loops are the same. No such program reaches undefined behaviour or obtains a malformed integer.", "quantifier": "all programs of the language of Spec_Program, all inputs, all pairs of build configurations with the same pointer width", "why_tests_cant": "Tests run particular programs on the one target at hand; the claim ranges over all programs and over targets that are not available.", "anchors": ["src/uint/api.rs", "src/int/api.rs", "src/macros/ops.rs", "src/intrinsics.rs", "src/uint.rs", "src/int.rs"]}
{"id": "C76", "title": "Euclid's algorithm, the square root and modular powers written with U256 are right", "statement": "The usual programs for the greatest common divisor, the integer square root (bit by bit) and powers modulo m (by squaring, m at most 2^128), written with the operators of U256, return the mathematical result for all inputs in every build and never panic.", "quantifier": "all U256 inputs (for powers: a modulus in 1..=2^128), every build configuration", "why_tests_cant": "Each run uses one input; the claim needs loop invariants over all 256-bit numbers and relies on several operations at once.", "anchors": ["src/macros/ops.rs", "src/uint/api.rs: wrapping_shl, wrapping_shr", "src/uint/cmp.rs", "src/intrinsics/native/divmod.rs", "src/intrinsics/native/mul.rs"]}
{"id": "C77", "title": "The benchmarks measure what their names say", "statement": "In every build the benchmarks of this crate's own types are set up and run without a panic; their ids are distinct and the same in every build; and each id names the operation that runs, draws one # for each 64-bit word of an operand (a minus sign in front of a negative one), and its tag 'overflow' or 'no overflow' is true of the product, for U256 and for all four sign combinations of I256. What a benchmark with such an id computes is the operation in its name.", "quantifier": "every build configuration; for the naming closures all U256 and all I256 values (MIN excepted where abs panics)", "why_tests_cant": "Benchmarks have no assertions: a wrong label or an operand that does not overflow as promised goes unnoticed, and one run covers one build.", "anchors": ["bench/benches/num.rs:19-168"]}
{"id": "C78", "title": "Well-known branch-free expressions written with the operators are right in every build", "statement": "The expressions programmers write to avoid overflow or branches compute what they are known for, in every build. (a & b) + ((a ^ b) >> 1) and (a | b) - ((a ^ b) >> 1) are the average rounded down and up, for U256 and I256, and never panic. a & a.wrapping_neg() is the highest power of two that divides a, and trailing_zeros its exponent; a & (a - 1) takes it away and is zero exactly for powers of two. Masks (1 << k) - 1 take the remainder by 2^k and align downwards; aligning upwards is right when the result is in range and otherwise panics with debug assertions and gives zero without. a / b + (a % b != 0) is the quotient rounded up. The branch-free minimum, the exchange by three ^=, the branch-free absolute value (MIN panics with debug assertions and stays MIN without), the comparison of signs by ^ and the tests for overflow after wrapping_add agree with the numbers and with overflowing_add.", "quantifier": "all U256 and I256 values, all shift amounts below 256, every build configuration", "why_tests_cant": "Each expression is right only if several operators agree with each other on every bit, in particular across the boundary of the two words and at the ends of the range; the space of operands cannot be enumerated and a test runs in one build.", "anchors": ["src/macros/ops.rs:52-57", "src/macros/ops.rs:150-245", "src/macros/ops.rs:261-276", "src/macros/ops.rs:369-378", "src/macros/ops.rs:528-536", "src/uint/api.rs:849-853", "src/uint/api.rs:1032-1034", "src/int/api.rs:1011-1015"]}
{"id": "C79", "title": "Numbers of any length with U256 limbs are added, subtracted and multiplied exactly", "statement": "The usual multi-limb programs written with U256 as the limb are exact for numbers of any length and in every build. The chain of overflowing_add with the carry handed on as U256::from(bool) gives the sum, and the last carry the part beyond the limbs; the chain of overflowing_sub gives the difference and the last borrow. The 512-bit product put together from the four products of the 128-bit words never overflows in any step and is exact; its low limb is wrapping_mul and overflowing_mul reports that its high limb is not zero. Multiplying a number of any length by one limb with it never panics and is exact.", "quantifier": "all lists of U256 limbs of every length, all carries, all U256 values, every build configuration", "why_tests_cant": "The carries interact at every limb, so an error in the flag of one operation on rare operands shows only in long computations; lengths and values are unbounded and each test runs in one build.", "anchors": ["src/uint/api.rs:1155-1159", "src/uint/api.rs:1203-1207", "src/uint/api.rs:1255-1259", "src/uint/convert.rs:7-20", "src/macros/ops.rs:154-172", "src/macros/ops.rs:261-276"]}

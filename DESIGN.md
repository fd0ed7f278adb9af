# Formal model of ethnum-rs (U256 / I256) in Coq 8.16.1

## What is modelled

The crate at `/repo` is pure integer code plus a little `unsafe`.  The model
follows the Rust source function by function; every definition cites file and
lines of `/repo`.

* **Build configuration** (`cfg` in `M_Prim.v`): `debug_assertions`,
  `overflow_checks`, target endianness, pointer width, and the crate feature
  `llvm-intrinsics`.  The theorems are quantified over every configuration (those
  that need a pointer width of at least 16 say so), so "debug" and "release", both
  word layouts and both sets of intrinsics are covered.
* **Outcomes** (`res`): `Ret v`, `Panic msg`, `UB why`, `NoFuel`.
  Every raw `+ - *`, shift and division on a primitive integer panics or wraps
  as Rust specifies for the configuration; `unreachable_unchecked`,
  `new_unchecked(0)`, out-of-bounds unsafe accesses and uninitialised reads give
  `UB`.  Loops that are not structural take fuel and yield `NoFuel` when it runs
  out; the theorems (which conclude `= Ret ...` or `= Panic ...`) exclude it.
* **Values**: `U256([u128;2])` is a record of two words *in memory order*, each
  a `Z`; `I256([i128;2])` likewise with signed words.  `wf_u`, `wf_i` say that each
  word is in the range of its type.  `Spec.v` gives the number a value stands for
  (`uval`, `ival`) for both endiannesses, and the inverse `uof`, `iof`.
* **Strings** are lists of bytes; the model accepts any bytes (a superset of
  valid UTF-8).
* **Floats**: bit patterns for float-to-int; for int-to-float the result is the
  integer value of the (always integral) float, with IEEE round-to-nearest-even
  of each primitive conversion, multiplication and addition.
* **Memory**: elsewhere a function returns what it writes through a reference.
  `M_Mem.v` models the same functions with places in a memory, which may be
  unwritten: reading such a place is `UB`, and the memory left behind is part of
  the outcome also after a panic.  Shared references are values there.
* **Formatting**: a call is the list of texts handed to the writer.
* **serde**: the value handed to the serializer (a string, a byte string), and the
  visitor method the deserializer calls with the value it found (a string, bytes,
  a sequence of elements that may fail, an integer, a float).  `M_Visit.v` adds the
  whole visitors with serde's provided methods, the modules with their hints, and a
  data format as any pair of a writer and a reader.

| Source | Model |
|---|---|
| `src/uint.rs`, `src/int.rs` (words, constants, casts), `src/{uint,int}/cmp.rs`, `src/macros/cmp.rs` | `M_Words.v` |
| `src/intrinsics/native/{add,sub,shl,shr,rot,ctz}.rs`, `src/intrinsics/signed.rs`, bit operators of `src/macros/ops.rs` | `M_Intr.v` |
| `src/intrinsics/native/mul.rs` | `M_Mul.v` |
| `src/intrinsics/native/divmod.rs`, `/` and `%` of `src/macros/ops.rs` | `M_Div.v` |
| `src/intrinsics/llvm.rs`, `intrinsics/build/intrinsics.rs` | `M_Llvm.v` |
| `intrinsics/src/lib.rs`, `intrinsics/build/main.rs` (text replacement), signatures of the above | `M_Link.v` |
| `src/macros/ops.rs`, `src/macros/iter.rs`, `src/{uint,int}/{ops,iter}.rs` | `M_Ops.v` |
| `src/uint/api.rs`, div_rem family of `src/uint.rs` | `M_UintApi.v` |
| `src/int/api.rs`, div_rem family of `src/int.rs` | `M_IntApi.v` |
| `src/{uint,int}/convert.rs`, `as_*` of `src/{uint,int}.rs` | `M_Convert.v`, `M_Float.v` |
| `src/parse.rs`, `src/macros/parse.rs`, `src/{uint,int}/parse.rs`, `uint!`/`int!` of `src/lib.rs` | `M_Parse.v` |
| `src/fmt.rs`, `src/macros/fmt.rs`, `src/{uint,int}/fmt.rs` | `M_Fmt.v` |
| `src/serde.rs` | `M_Serde.v`, `M_Visit.v` |
| associated constant `BITS`, derived `Default`, `LowerExp`/`UpperExp`, the provided methods `Ord::clamp` and `PartialEq::ne` | `M_Misc.v` |
| writes through `&mut` and `MaybeUninit` in the above (`src/intrinsics/**`, operators, methods calling `assume_init`) | `M_Mem.v` |
| `src/error.rs` | error kinds are constructors (`int_error` in `M_Parse.v`; `None` for `TryFromIntError`) |

Files `M_*.v` contain the model only; `Spec*.v` the mathematical vocabulary of the
statements (independent of the model's helper functions); `P_*.v` the proofs;
`T_*.v` the property theorems with examples and `Print Assumptions`.
`Spec_Api.v` lists all public operations (388 of them) in a common shape, for the
theorems about all operations (C43, C44, C45, C48); `Spec_Panic.v` is the same list with
the panic condition of each operation (C56), `Spec_Message.v` the operations that can panic
with their messages (C71).

## Trusted base

* Coq 8.16.1 kernel (and `vm_compute`, part of it).
* No axioms: `Print Assumptions` says "Closed under the global context" for every
  theorem of the `T_*.v` files (the files print it when compiled). `coqchk` also names seven
  parameters of `Coq.ssr.ssrunder`, which the standard library loads with `ZifyBool`; no
  theorem depends on them.
* The reading of Rust semantics in `M_Prim.v`: primitive integers, casts, panics,
  masking of shift amounts without overflow checks.
* The transcription of code outside of the repository: `core`'s
  `Formatter::pad_integral`, `padding` and the flag bits of `{:x?}` (`M_Fmt.v`),
  `char::to_digit`, `<[u8]>::strip_prefix` and the decimal digits of a `u32` (`M_Parse.v`), `str::from_utf8` and
  the float comparisons and casts used by `visit_f32`/`visit_f64` (`M_Serde.v`),
  IEEE 754 bit patterns, rounding, product and sum (`M_Float.v`), array hashing
  and `Ord::max`/`min` (`M_Words.v`), `Ord::clamp` and `PartialEq::ne` (`M_Misc.v`),
  the provided methods of serde's `Visitor` and `char::encode_utf8` (`M_Visit.v`),
  the `num` crate's `iter_u64_digits` and `from_signed_bytes_le` (`M_Fuzz.v`), and which
  operator trait a token stands for (`M_Forms.v`).
* The transcription of the crate in the `M_*.v` files.

## Not modelled

* of `bench/`: criterion, `black_box` and the features primitive-types and ruint (the rest is in `M_Bench`); of the tests and documentation examples only what is in `Spec_Docs.v`; of `fuzz/` how bytes become a target (the `arbitrary`
  crate), the executables and the `num` crate, whose integers are taken to be `Z`.
* Code generation of the `llvm-intrinsics` feature: only the Rust template it is
  generated from is given a width-256 reading. The text replacement is modelled for
  any text (`M_Link.v`), but the LLVM IR it is applied to, rustc, clang and LLVM are not.
* The text `f64`'s formatter prints for `LowerExp`/`UpperExp`: an arbitrary function in
  the theorems of C62.
* Macro hygiene and token parsing of `uint!`/`int!` (the value of the string literal
  is the input).
* The `transmute`s of `src/error.rs` that build `core`'s error values.
* Pointer provenance and aliasing rules: that `&mut` places do not alias the
  operands is taken from the borrow checker, and the buffer pointers of
  `src/fmt.rs` and `src/serde.rs` are offsets checked against the buffer length.
* Compile-time trait plumbing: `Copy`, `Borrow`, and which implementations exist for
  which types beyond the operator tables of `src/macros/ops.rs` (`M_Forms.v`).

## Results per property

"False" means: the property as stated does not hold of the code; the theorem
`..._refuted` proves that with a witness, and the other theorems say exactly what
does hold.

| Property | Model | Proof idea |
|---|---|---|
| C01, C02 | `M_Intr`, `M_UintApi` | carry algebra in `Z`, `lia` |
| C03 | `M_Mul` | schoolbook 64-bit limbs, nonlinear algebra once with abstract base |
| C04, C05 | `M_Div` | Knuth D: estimate >= true digit, the loop exits exactly at the digit; the add-back branch is dead |
| C06 | `M_Ops` | from overflow flags |
| C07, C08, C09 | `M_Intr`, `M_Mul`, `M_Div` | sign cases |
| C10 | `M_Ops` | false: witness (MIN, -1), which wraps |
| C11, C12 | `M_IntApi` | uniqueness of Euclidean division |
| C13 | `M_IntApi` | false for the divisor MIN with debug assertions; proved outside of it |
| C14 | `M_IntApi` | false: div_rem(MIN, -1) panics in every build |
| C15-C18 | `M_Intr`, `M_Ops` | shifts as multiplication/division; C18 false, with the exact behaviour proved |
| C19 | `M_Intr` | bitwise extensionality; false for n > 256 with overflow checks, the rest proved |
| C20, C21, C22 | `M_UintApi`, `M_IntApi` | bit/byte-list induction |
| C23, C24 | `M_Words` | lexicographic = numeric |
| C25 | `M_UintApi`, `M_IntApi` | loop invariant acc*base^exp |
| C26 | `M_IntApi` | |
| C27, C28 | `M_Convert` | |
| C29 | `M_Float` | false for the f32 infinities, all other patterns proved |
| C30 | `M_Float` | correct rounding of as_f64 false; exactness, monotonicity, faithfulness, error bound proved |
| C31, C32, C33 | `M_Parse` | induction over the digit string; C33 false |
| C34, C35 | `M_Fmt` | loop invariant over the buffer suffix |
| C36 | `M_Parse` | decimal completeness false; soundness and power-of-two radices proved |
| C37-C40 | `M_Serde` | C39 for I256 and C40 for negative-to-U256 false |
| C41, C42 | `M_UintApi`, `M_Ops` | |
| C43, C44, C45 | all | every operation of `Spec_Api` against the functional theorems (`P_Builds*`) |
| C46, C47 | `M_Intr`, `M_UintApi`, `M_IntApi` | |
| C48 | `M_Llvm` | width-256 reading of the template equals native; false beyond 255 (shifts) and 256 (rotations) |
| C49 | `M_Words`, `M_Misc` | word algebra; constants by computation in both byte orders |
| C50 | `M_Intr`, `M_Mul`, `M_Div` | the lemmas behind C01-C09, C15-C20, stated of the functions themselves (`P_Intrinsics`) |
| C51, C52 | `M_Mem` | each function on memory equals the function on values followed by one write (`P_Mem`), then C50 and C06 |
| C53 | `M_Float` | every rounded whole number has a bit pattern (`P_FloatTrip`); exactness, monotonicity and C29 |
| C54 | `M_Parse`, `M_Serde` | the specification `reads` for both types and all prefixes (`P_Compat`) |
| C55 | `M_UintApi`, `M_IntApi` | induction over the byte strings (`P_Order`) |
| C56 | all | the table `Spec_Panic` of panic conditions, operation by operation, against the functional theorems (`P_Panic`) |
| C57-C61 | `M_UintApi`, `M_IntApi` | every operation rewritten to its number modulo 2^256, then integer arithmetic and bits (`P_Laws`) |
| C62 | `M_Misc`, `M_Float` | false: different numbers share one f64; the exact behaviour from C53 (`P_Exp`) |
| C63, C65 | `M_Convert`, `M_Ops`, `M_Float` | operations on represented numbers, then reduction modulo the width of the type (`P_Embed`); C63 false for `I256::as_f32` |
| C64 | `M_Misc` | case split on the order (`P_Clamp`) |
| C66, C67 | `M_Visit` | case analysis over modules and kinds of input, on top of C31, C32 and C37-C40 (`P_Visit`); C67 false for I256 in the compressed modules |
| C68 | `M_Forms` | the macro tables are data; every line is followed to the borrowed form, whose result is known from C06, C07, C15-C18 (`P_OpForms`) |
| C69 | `M_Fuzz` | base 2^64 digits of a magnitude and its 256-bit words; then C01-C03, C08-C12 on both sides (`P_Fuzz`) |
| C70 | all | the assertions of the documentation and the unit tests as data (`Spec_Docs`), computed in every build (`P_Docs`); the comment on `bytes::be` is false |
| C71 | all | the messages of the operations that can panic (`Spec_Message`), against the same functional theorems (`P_Message`); false for `%=` by zero without debug assertions |
| C72 | all | the same operations on lists of bytes (`Spec_ByteLaws`), from the closed forms of `P_Bytes`, `P_Bits` and `P_BitsApi` (`P_ByteLaws`) |
| C73 | `M_Visit`, `M_Serde`, `M_Parse` | errors of a sequence's elements are taken to be errors of the format; `str::from_utf8` is compared with a definition of UTF-8 by digits |
| C74 | `M_Link` | position by position: the searched texts cannot overlap themselves, each other or the replacements; the tables are compared entry by entry |
| C75 | all | one simulation over the syntax of programs (`Spec_Program`); each call is an instance of the comparison behind C43-C45 and C48 (`P_BuildsAll`) |
| C76 | `M_Ops`, `M_UintApi` | three programs of `Spec_Clients`; loop invariants on top of the closed forms of the operators (`P_Clients`) |
| C77 | `M_Bench` | `Spec_Bench`: the meaning of an id; the operands' sizes bound the products, the runs follow from the closed forms for any benchmark with such an id, the ids are computed in each of the 16 builds with `usize` left abstract (`P_Bench`) |
| C78 | `M_Ops`, `M_Intr`, `M_UintApi`, `M_IntApi` | expressions of `Spec_Idioms`; a + b = (a ^ b) + 2 (a & b) = (a \| b) + (a & b), and the split a = 2^k (2 m + 1), on top of the closed forms (`P_Idioms`) |
| C79 | `M_Ops`, `M_Mul`, `M_UintApi`, `M_Convert` | programs of `Spec_Limbs`; induction over the limbs, one lemma about 128-bit halves for the wide product (`P_Limbs`) |

## Wrong programs (`seeded/LOG.jsonl`)

Each line is one edit of a model definition, made in a copy and rebuilt with `make -k`. `theorems_failed` lists the
property theorems that rest on a lemma whose proof no longer compiles. It is found by following the lemma names
through the proof scripts. Most builds were stopped a minute or so after the first failure, so the list can be short
of some theorems. A proof that fails does not show by itself that the theorem is false of the edited program: the
edits whose `claim` is "none", or whose `note` says so, are equivalent programs on which only the script fails.
Two edits survived, both equivalent programs: one in the dead add-back branch of the division, and one that swaps
two visitor methods which agree in the model.

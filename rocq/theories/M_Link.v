(** * How the llvm-intrinsics feature is put together
    intrinsics/build/main.rs, intrinsics/build/intrinsics.rs, intrinsics/src/lib.rs, src/intrinsics/llvm.rs

    The signatures of the functions called, declared and defined, and the replacement that turns the LLVM IR of the
    template into that of the intrinsics.  The bodies are in [M_Llvm]; rustc, clang and the linker are not modelled. *)

From Coq Require Import ZArith String Ascii List Bool.
Import ListNotations.
Open Scope Z_scope.

(** ** Signatures *)

(** what a pointer points to: [ethnum_intrinsics::I256] is [Opaque]; intrinsics/src/lib.rs:11-14 *)
Inductive pointee := P_u128 | P_i128 | P_U256 | P_I256 | Opaque.
(** the types of the parameters: u32, &T, &mut T and &mut MaybeUninit<T>; src/intrinsics/llvm.rs:42-68 *)
Inductive passed := By_value | To_read (t : pointee) | To_update (t : pointee) | To_fill (t : pointee).
(** the types of the results; src/intrinsics/llvm.rs:42-68 *)
Inductive answer := No_answer | A_bool | A_u32.
(** a function: its name and type; src/intrinsics/llvm.rs:17-20 *)
Record proto := mkProto { p_name : string; p_params : list passed; p_answer : answer }.

Open Scope string_scope.
(** src/intrinsics/llvm.rs:41-69; each calls the function of the same name with its own parameters, transmuted
    (lines 22-38) *)
Definition called : list proto := [
  mkProto "add2" [To_update P_U256; To_read P_U256] No_answer;
  mkProto "add3" [To_fill P_U256; To_read P_U256; To_read P_U256] No_answer;
  mkProto "uaddc" [To_fill P_U256; To_read P_U256; To_read P_U256] A_bool;
  mkProto "iaddc" [To_fill P_I256; To_read P_I256; To_read P_I256] A_bool;
  mkProto "sub2" [To_update P_U256; To_read P_U256] No_answer;
  mkProto "sub3" [To_fill P_U256; To_read P_U256; To_read P_U256] No_answer;
  mkProto "usubc" [To_fill P_U256; To_read P_U256; To_read P_U256] A_bool;
  mkProto "isubc" [To_fill P_I256; To_read P_I256; To_read P_I256] A_bool;
  mkProto "mul2" [To_update P_U256; To_read P_U256] No_answer;
  mkProto "mul3" [To_fill P_U256; To_read P_U256; To_read P_U256] No_answer;
  mkProto "umulc" [To_fill P_U256; To_read P_U256; To_read P_U256] A_bool;
  mkProto "shl2" [To_update P_U256; By_value] No_answer;
  mkProto "shl3" [To_fill P_U256; To_read P_U256; By_value] No_answer;
  mkProto "sar2" [To_update P_I256; By_value] No_answer;
  mkProto "sar3" [To_fill P_I256; To_read P_I256; By_value] No_answer;
  mkProto "shr2" [To_update P_U256; By_value] No_answer;
  mkProto "shr3" [To_fill P_U256; To_read P_U256; By_value] No_answer;
  mkProto "rol3" [To_fill P_U256; To_read P_U256; By_value] No_answer;
  mkProto "ror3" [To_fill P_U256; To_read P_U256; By_value] No_answer;
  mkProto "ctlz" [To_read P_U256] A_u32;
  mkProto "cttz" [To_read P_U256] A_u32].
(** intrinsics/src/lib.rs:40-69 *)
Definition declared : list proto := [
  mkProto "add2" [To_update Opaque; To_read Opaque] No_answer;
  mkProto "add3" [To_fill Opaque; To_read Opaque; To_read Opaque] No_answer;
  mkProto "uaddc" [To_fill Opaque; To_read Opaque; To_read Opaque] A_bool;
  mkProto "iaddc" [To_fill Opaque; To_read Opaque; To_read Opaque] A_bool;
  mkProto "mul2" [To_update Opaque; To_read Opaque] No_answer;
  mkProto "mul3" [To_fill Opaque; To_read Opaque; To_read Opaque] No_answer;
  mkProto "umulc" [To_fill Opaque; To_read Opaque; To_read Opaque] A_bool;
  mkProto "sub2" [To_update Opaque; To_read Opaque] No_answer;
  mkProto "sub3" [To_fill Opaque; To_read Opaque; To_read Opaque] No_answer;
  mkProto "usubc" [To_fill Opaque; To_read Opaque; To_read Opaque] A_bool;
  mkProto "isubc" [To_fill Opaque; To_read Opaque; To_read Opaque] A_bool;
  mkProto "shl2" [To_update Opaque; By_value] No_answer;
  mkProto "shl3" [To_fill Opaque; To_read Opaque; By_value] No_answer;
  mkProto "sar2" [To_update Opaque; By_value] No_answer;
  mkProto "sar3" [To_fill Opaque; To_read Opaque; By_value] No_answer;
  mkProto "shr2" [To_update Opaque; By_value] No_answer;
  mkProto "shr3" [To_fill Opaque; To_read Opaque; By_value] No_answer;
  mkProto "rol3" [To_fill Opaque; To_read Opaque; By_value] No_answer;
  mkProto "ror3" [To_fill Opaque; To_read Opaque; By_value] No_answer;
  mkProto "ctlz" [To_read Opaque] A_u32;
  mkProto "cttz" [To_read Opaque] A_u32].
(** intrinsics/build/intrinsics.rs:34-120 *)
Definition template : list proto := [
  mkProto "add2" [To_update P_u128; To_read P_u128] No_answer;
  mkProto "add3" [To_fill P_u128; To_read P_u128; To_read P_u128] No_answer;
  mkProto "uaddc" [To_fill P_u128; To_read P_u128; To_read P_u128] A_bool;
  mkProto "iaddc" [To_fill P_i128; To_read P_i128; To_read P_i128] A_bool;
  mkProto "sub2" [To_update P_u128; To_read P_u128] No_answer;
  mkProto "sub3" [To_fill P_u128; To_read P_u128; To_read P_u128] No_answer;
  mkProto "usubc" [To_fill P_u128; To_read P_u128; To_read P_u128] A_bool;
  mkProto "isubc" [To_fill P_i128; To_read P_i128; To_read P_i128] A_bool;
  mkProto "mul2" [To_update P_u128; To_read P_u128] No_answer;
  mkProto "mul3" [To_fill P_u128; To_read P_u128; To_read P_u128] No_answer;
  mkProto "umulc" [To_fill P_u128; To_read P_u128; To_read P_u128] A_bool;
  mkProto "shl2" [To_update P_u128; By_value] No_answer;
  mkProto "shl3" [To_fill P_u128; To_read P_u128; By_value] No_answer;
  mkProto "sar2" [To_update P_i128; By_value] No_answer;
  mkProto "sar3" [To_fill P_i128; To_read P_i128; By_value] No_answer;
  mkProto "shr2" [To_update P_u128; By_value] No_answer;
  mkProto "shr3" [To_fill P_u128; To_read P_u128; By_value] No_answer;
  mkProto "rol3" [To_fill P_u128; To_read P_u128; By_value] No_answer;
  mkProto "ror3" [To_fill P_u128; To_read P_u128; By_value] No_answer;
  mkProto "ctlz" [To_read P_u128] A_u32;
  mkProto "cttz" [To_read P_u128] A_u32].

(** [concat!("__ethnum_", stringify!($name))]; intrinsics/build/intrinsics.rs:18 and intrinsics/src/lib.rs:26 *)
Definition symbol (p : proto) : string := "__ethnum_" ++ p_name p.
(** the linker finds the definition with the symbol of a declaration: the [export_name] of
    intrinsics/build/intrinsics.rs:28-33 is the [link_name] of intrinsics/src/lib.rs:34-39 *)
Definition linked (d : proto) : option proto := find (fun t => String.eqb (symbol t) (symbol d)) template.
(** a name resolves to the declaration of that name: [ethnum_intrinsics::$name], src/intrinsics/llvm.rs:27 *)
Definition resolved (p : proto) : option proto := find (fun d => String.eqb (p_name d) (p_name p)) declared.
Close Scope string_scope.

(** ** The replacement in the text *)

(** a text as the list of its characters; intrinsics/build/main.rs:42-44 *)
Definition chars (s : string) : list ascii := list_ascii_of_string s.
(** [s.starts_with(pat)], for the search of str::replace; intrinsics/build/main.rs:42-44 *)
Fixpoint starts_with (pat s : list ascii) : bool :=
  match pat, s with
  | [], _ => true
  | a :: pat, b :: s => Ascii.eqb a b && starts_with pat s
  | _ :: _, [] => false
  end.
(** str::replace of core: the matches from left to right, each searched for after the end of the last; [skip]
    characters are left of the last one. intrinsics/build/main.rs:42-44 *)
Fixpoint replace_from (skip : nat) (pat to s : list ascii) : list ascii :=
  match s with
  | [] => []
  | ch :: r =>
      match skip with
      | S k => replace_from k pat to r
      | O => if starts_with pat s then to ++ replace_from (length pat - 1) pat to r else ch :: replace_from 0 pat to r
      end
  end.
(** intrinsics/build/main.rs:42-44 *)
Definition replace (s : list ascii) (pat to : string) : list ascii := replace_from 0 (chars pat) (chars to) s.
(** intrinsics/build/main.rs:41-44 *)
Definition widened (s : list ascii) : list ascii :=
  let s := replace s "i128" "i256" in
  let s := replace s " 127" " 255" in
  replace s "dereferenceable(16)" "dereferenceable(32)".

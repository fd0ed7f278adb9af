(** * The benchmarks
    bench/benches/num.rs with the features of this crate only (neither primitive-types nor ruint): the list of
    benchmarks that is handed to criterion, each with its id and the operation that it repeats.  Criterion itself,
    the repetitions and [black_box], which returns its argument, are not modelled. *)

From Coq Require Import ZArith List String Bool.
From Verif Require Import M_Prim M_Words M_Intr M_Div M_Mul M_Ops M_UintApi M_IntApi M_Convert.
Import ListNotations.
Local Notation length := List.length.
Open Scope string_scope.
Open Scope Z_scope.

(** The operation of a benchmark with its operands; the bodies of [b.iter], bench/benches/num.rs:59-166 *)
Inductive job :=
| Job_add (x y : u256) | Job_div (x y : u256) | Job_mul (x y : u256) | Job_sub (x y : u256)
| Job_wrapping_mul (x y : u256) | Job_overflowing_mul (x y : u256)
| Job_i_wrapping_mul (x y : i256) | Job_i_overflowing_mul (x y : i256)
| Job_shl (x : u256) (s : Z) | Job_shr (x : u256) (s : Z)
| Job_rotate_left (x : u256) (s : Z) | Job_rotate_right (x : u256) (s : Z)
| Job_ctlz (x : u256) | Job_cttz (x : u256).

(** What the body of [b.iter] returns; bench/benches/num.rs:59-166 *)
Inductive measured :=
| Got_u (x : u256) | Got_i (x : i256) | Got_u_flag (x : u256 * bool) | Got_i_flag (x : i256 * bool) | Got_count (n : Z).

(** the bodies of [b.iter]; bench/benches/num.rs:60, 73, 79, 96, 102, 117, 123, 129, 134, 138, 145, 152, 158, 165 *)
Definition run_job (c : cfg) (j : job) : res measured :=
  match j with
  | Job_add x y => let! r := u_op_add c x y in Ret (Got_u r)
  | Job_div x y => let! r := u_op_div c x y in Ret (Got_u r)
  | Job_mul x y => let! r := u_op_mul c x y in Ret (Got_u r)
  | Job_sub x y => let! r := u_op_sub c x y in Ret (Got_u r)
  | Job_wrapping_mul x y => let! r := u_wrapping_mul c x y in Ret (Got_u r)
  | Job_overflowing_mul x y => let! r := u_overflowing_mul c x y in Ret (Got_u_flag r)
  | Job_i_wrapping_mul x y => let! r := i_wrapping_mul c x y in Ret (Got_i r)
  | Job_i_overflowing_mul x y => let! r := i_overflowing_mul c x y in Ret (Got_i_flag r)
  | Job_shl x s => let! r := u_shl_amt c x (Amt_u32 s) in Ret (Got_u r)
  | Job_shr x s => let! r := u_shr_amt c x (Amt_u32 s) in Ret (Got_u r)
  | Job_rotate_left x s => let! r := u_rotate_left c x s in Ret (Got_u r)
  | Job_rotate_right x s => let! r := u_rotate_right c x s in Ret (Got_u r)
  | Job_ctlz x => let! r := u_leading_zeros c x in Ret (Got_count r)
  | Job_cttz x => let! r := u_trailing_zeros c x in Ret (Got_count r)
  end.

(** A benchmark: the name of the function, the parameter of [BenchmarkId::new] (none with [bench_function]),
    and the operation; bench/benches/num.rs:59-61, 71-75 *)
Record benchmark := Bench { b_group : string; b_param : option string; b_job : job }.

(** A [for] loop that registers benchmarks; bench/benches/num.rs:65-76 *)
Fixpoint each {A B} (l : list A) (f : A -> res (list B)) : res (list B) :=
  match l with
  | [] => Ret []
  | x :: r => let! a := f x in let! b := each r f in Ret (a ++ b)%list
  end.

(** one of the larger numbers: a shift and a sum; bench/benches/num.rs:21-28 *)
Definition wide (c : cfg) (hi lo : Z) : res u256 :=
  let! h := u_shl_amt c (u_from_prim c hi) (Amt_u32 128) in u_op_add c h (u_from_prim c lo).

(** bench/benches/num.rs:34-42 *)
Definition bench_name (c : cfg) (x : u256) : res string :=
  let! z := u_leading_zeros c x in
  Ret match z / 64 with 0 => "####" | 1 => "###" | 2 => "##" | _ => "#" end.
(** bench/benches/num.rs:44-57 *)
Definition bench_iname (c : cfg) (x : i256) : res string :=
  let neg := i_is_negative c x in
  let! a := i_abs c x in
  let! z := i_leading_zeros c a in
  Ret match neg, z / 64 with
      | false, 0 => "####"
      | false, 1 => "###"
      | false, 2 => "##"
      | false, _ => "#"
      | true, 0 => "-####"
      | true, 1 => "-###"
      | true, 2 => "-##"
      | true, _ => "-#"
      end.

(** the products of two signed numbers; bench/benches/num.rs:106-125 *)
Definition bench_signed (c : cfg) (tag : string) (xy : i256 * i256) : res (list benchmark) :=
  let '(x, y) := xy in
  let! a := bench_iname c x in
  let! b := bench_iname c y in
  let name := a ++ "*" ++ b ++ " (" ++ tag ++ ")" in
  Ret [Bench "I256::wrapping_mul" (Some name) (Job_i_wrapping_mul x y);
       Bench "I256::overflowing_mul" (Some name) (Job_i_overflowing_mul x y)].

(** the products of two numbers; bench/benches/num.rs:82-126 *)
Definition bench_products (c : cfg) (xyt : u256 * u256 * string) : res (list benchmark) :=
  let '(x, y, tag) := xyt in
  let! a := bench_name c x in
  let! b := bench_name c y in
  let name := a ++ "*" ++ b ++ " (" ++ tag ++ ")" in
  let! s := each [(u_as_i256 x, u_as_i256 y);
                  (u_as_i256 x, i_wrapping_neg c (u_as_i256 y));
                  (i_wrapping_neg c (u_as_i256 x), u_as_i256 y);
                  (i_wrapping_neg c (u_as_i256 x), i_wrapping_neg c (u_as_i256 y))] (bench_signed c tag) in
  Ret ([Bench "U256::wrapping_mul" (Some name) (Job_wrapping_mul x y);
        Bench "U256::overflowing_mul" (Some name) (Job_overflowing_mul x y)] ++ s)%list.

(** the quotients; bench/benches/num.rs:63-76: each of [q] by those of [d] from its own index on *)
Fixpoint quotients (q d : list u256) : list (u256 * u256) :=
  match q with
  | [] => []
  | x :: q => map (pair x) d ++ quotients q (tl d)
  end%list.
(** bench/benches/num.rs:70-75 *)
Definition bench_quotient (c : cfg) (xy : u256 * u256) : res (list benchmark) :=
  let '(x, y) := xy in
  let! a := bench_name c x in
  let! b := bench_name c y in
  Ret [Bench "U256::div" (Some (a ++ "/" ++ b)) (Job_div x y)].

(** bench/benches/num.rs:156-167 *)
Definition bench_counts (c : cfg) (x : u256) : res (list benchmark) :=
  let! a := bench_name c x in
  Ret [Bench "U256::ctlz" (Some a) (Job_ctlz x); Bench "U256::cttz" (Some a) (Job_cttz (u_swap_bytes x))].

(** bench/benches/num.rs:19-168 *)
Definition benchmarks (c : cfg) : res (list benchmark) :=
  let! n0 := wide c 0x00017eb02a11f4a9443abc5058e1c2c2 0x3540ba08c848a6eb3a1e1415b0000000 in
  let! n1 := wide c 0x0000000007a5c694c4fb15944398653f 0x724f5c482676cba8ea4e698d75210fe0 in
  let! n2 := wide c 0x0000000000000000024e9ffa7e0bba23 0x451a0df036962a5b327f93054732380a in
  let! n3 := wide c 0x0000000000000000000000000647a49c 0xf1055ae531427db60296077b1863d256 in
  let n4 := u_from_prim c 0x000f4187ab979b49ad893d525a13a5aa in
  let n5 := u_from_prim c 0x000000000edac72a3447ed506fccc42c in
  let n6 := u_from_prim c 0x00000000000000000b96d82991369928 in
  let n7 := u_from_prim c 0x00000000000000000000000000000cab in
  let! quotients := each (quotients [n0; n2; n4; n6] [n1; n3; n5; n7]) (bench_quotient c) in
  let! products := each [(n0, n1, "overflow"); (n3, n5, "no overflow"); (n3, n4, "overflow");
                         (n5, n3, "no overflow"); (n4, n3, "overflow"); (n6, n7, "no overflow")] (bench_products c) in
  let! counts := each [n0; n2; n4; n6] (bench_counts c) in
  Ret ([Bench "U256::add" None (Job_add n0 n1)] ++ quotients ++ [Bench "U256::mul" None (Job_mul n3 n5)] ++ products ++
       [Bench "U256::sub" None (Job_sub n0 n1);
        Bench "U256::shl" (Some "short") (Job_shl n0 21);
        Bench "U256::shr" (Some "short") (Job_shr n0 21);
        Bench "U256::rotate_left" (Some "short") (Job_rotate_left n0 21);
        Bench "U256::rotate_right" (Some "short") (Job_rotate_right n0 21);
        Bench "U256::shl" (Some "long") (Job_shl n0 176);
        Bench "U256::shr" (Some "long") (Job_shr n0 176);
        Bench "U256::rotate_left" (Some "long") (Job_rotate_left n0 176);
        Bench "U256::rotate_right" (Some "long") (Job_rotate_right n0 176)] ++ counts)%list.

(** * C77: the benchmarks measure what their names say *)

From Coq Require Import ZArith List String Bool Lia.
Import ListNotations.
From Verif Require Import M_Prim M_Words M_Bench Spec Spec_Bench P_Words P_Bench T_Base.
Local Notation length := List.length.
Open Scope string_scope.
Open Scope Z_scope.

(** C77: the closure [name] draws one [#] for each 64-bit word a number needs. *)
Theorem C77_names : forall c x, wf_u x -> exists s, bench_name c x = Ret s /\ drawn (uval c x) s.
Proof. exact name_drawn. Qed.
Print Assumptions C77_names.

Example C77_names_case : wf_u (uof dev (2 ^ 64)) /\ bench_name dev (uof dev (2 ^ 64)) = Ret "##" /\
  bench_name relL (uof relL (2 ^ 64 - 1)) = Ret "#" /\ drawn (2 ^ 64) "##" /\ ~ drawn (2 ^ 64) "#".
Proof.
  split; [apply wf_uof|]. split; [vm_compute; reflexivity|]. split; [vm_compute; reflexivity|]. split; [constructor; lia|].
  intros H. inversion H. lia.
Qed.

(** C77: [iname] draws the absolute value behind the sign; it panics for MIN with debug assertions only. *)
Theorem C77_signed_names : forall c x, wf_i x -> debug_assertions c = false \/ ival c x <> MINI ->
  exists s, bench_iname c x = Ret s /\ drawn_signed (ival c x) s.
Proof. exact iname_drawn. Qed.
Print Assumptions C77_signed_names.

Example C77_signed_names_case : wf_i (iof devB (- 2 ^ 130)) /\ ival devB (iof devB (- 2 ^ 130)) <> MINI /\
  bench_iname devB (iof devB (- 2 ^ 130)) = Ret "-###" /\ bench_iname rel (iof rel MINI) = Ret "-####" /\
  bench_iname dev (iof dev MINI) = Panic "attempt to negate with overflow".
Proof. split; [apply wf_iof|]. vm_compute. repeat split; congruence. Qed.

(** C77: in every build the benchmarks are set up without a panic, and the id of each says which operation it runs,
    how large its operands are, and whether the product overflows. *)
Theorem C77_honest : forall c, exists l, benchmarks c = Ret l /\ Forall (fun b => wf_job (b_job b) /\ honest c b) l.
Proof. exact benchmarks_honest. Qed.
Print Assumptions C77_honest.

(** C77: a benchmark with such an id runs without a panic, in every build, and what it computes is the operation in its
    name. *)
Theorem C77_run : forall c b, wf_job (b_job b) -> honest c b ->
  exists r, run_job c (b_job b) = Ret r /\ measures c (b_job b) r.
Proof. exact job_run. Qed.
Print Assumptions C77_run.

Example C77_run_case :
  let b := Bench "U256::shl" (Some "long") (Job_shl (uof relL 3) 255) in
  wf_job (b_job b) /\ honest relL b /\ run_job relL (b_job b) = Ret (Got_u (uof relL (2 ^ 255))) /\
  ~ measures relL (b_job b) (Got_u (uof relL 3)).
Proof.
  cbv zeta. split; [apply wf_uof|]. split; [split; [reflexivity|]; exists "long"; split; [right; split; [reflexivity|lia]|reflexivity]|].
  split; [vm_compute; reflexivity|]. cbn [b_job measures]. intros [_ [k E]]. rewrite !uval_of_small in E by lia. lia.
Qed.

(** C77: the ids are the same in every build, and no two of the 89 benchmarks of a build share one. *)
Theorem C77_ids : forall c c' l l', benchmarks c = Ret l -> benchmarks c' = Ret l' ->
  map (fun b => (b_group b, b_param b)) l = map (fun b => (b_group b, b_param b)) l' /\
  NoDup (map (fun b => (b_group b, b_param b)) l) /\ length l = 89%nat.
Proof. exact benchmarks_ids. Qed.
Print Assumptions C77_ids.

Example C77_case : exists l, benchmarks mixB = Ret l /\
  map (fun g => length (filter (fun b => String.eqb (b_group b) g) l))
    ["U256::add"; "U256::sub"; "U256::mul"; "U256::div"; "U256::wrapping_mul"; "U256::overflowing_mul";
     "I256::wrapping_mul"; "I256::overflowing_mul"; "U256::shl"; "U256::shr"; "U256::rotate_left"; "U256::rotate_right";
     "U256::ctlz"; "U256::cttz"] = [1; 1; 1; 10; 6; 6; 24; 24; 2; 2; 2; 2; 4; 4]%nat /\
  nth_error (map (fun b => (b_group b, b_param b)) l) 3 = Some ("U256::div", Some "####/##").
Proof. eexists. split; [vm_compute; reflexivity|]. split; reflexivity. Qed.

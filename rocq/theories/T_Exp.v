(** * C62: exponent formatting *)

From Coq Require Import ZArith Bool Lia.
From Verif Require Import M_Prim M_Words M_Float M_Misc.
From Verif Require Import Spec Spec_Float Spec_FloatTrip P_Words P_Exp T_Base.
Open Scope Z_scope.

(** C62: whatever the formatter of f64 prints, {:e} and {:E} print the same text for different numbers, so the text
    cannot show the number. *)
Theorem C62_exp_refuted : forall c,
  forall T (show : fl -> T),
  uof c (2 ^ 53) <> uof c (2 ^ 53 + 1) /\ u_fmt_exp show c (uof c (2 ^ 53)) = u_fmt_exp show c (uof c (2 ^ 53 + 1)) /\
  iof c (- 2 ^ 53) <> iof c (- 2 ^ 53 - 1) /\ i_fmt_exp show c (iof c (- 2 ^ 53)) = i_fmt_exp show c (iof c (- 2 ^ 53 - 1)).
Proof. exact exp_merges. Qed.
Print Assumptions C62_exp_refuted.

Example C62_exp_refuted_case :
  u_fmt_exp (fun r => r) dev (uof dev (2 ^ 53 + 1)) = Fin 9007199254740992.
Proof. vm_compute. reflexivity. Qed.

(** C62: the text is the one f64 prints for the number itself if it has 53 significant bits, and otherwise for one of
    the two nearest numbers that do. *)
Theorem C62_exp_actual : forall c x y,
  wf_u x -> wf_i y -> forall T (show : fl -> T),
  (exists n, u_fmt_exp show c x = show (Fin n) /\ representable 53 n /\ faithful F64 (uval c x) (Fin n) /\
     (representable 53 (uval c x) -> n = uval c x)) /\
  (exists n, i_fmt_exp show c y = show (Fin n) /\ representable 53 n /\ faithful F64 (ival c y) (Fin n) /\
     (representable 53 (ival c y) -> n = ival c y)).
Proof. exact exp_shows. Qed.
Print Assumptions C62_exp_actual.

Example C62_exp_actual_case :
  u_fmt_exp (fun r => r) devB (uof devB (3 * 2 ^ 200)) = Fin (3 * 2 ^ 200) /\
  i_fmt_exp (fun r => r) devB (iof devB (- (2 ^ 60 + 1))) = Fin (- 2 ^ 60).
Proof. split; vm_compute; reflexivity. Qed.


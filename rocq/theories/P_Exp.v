(** * Exponent formatting: proofs of C62 *)

From Coq Require Import ZArith Bool Lia.
From Verif Require Import M_Prim M_Words M_Float M_Misc Spec Spec_Float Spec_FloatTrip P_Words P_Round P_Float P_FloatTrip.
Open Scope Z_scope.

Lemma exp_merges c :
  forall T (show : fl -> T),
  uof c (2 ^ 53) <> uof c (2 ^ 53 + 1) /\ u_fmt_exp show c (uof c (2 ^ 53)) = u_fmt_exp show c (uof c (2 ^ 53 + 1)) /\
  iof c (- 2 ^ 53) <> iof c (- 2 ^ 53 - 1) /\ i_fmt_exp show c (iof c (- 2 ^ 53)) = i_fmt_exp show c (iof c (- 2 ^ 53 - 1)).
Proof.
  intros T show. unfold u_fmt_exp, i_fmt_exp. split; [|split; [|split]].
  - intros H. apply (f_equal (uval c)) in H. rewrite !uval_of_small in H by lia. lia.
  - rewrite !u_as_f64_of by lia. reflexivity.
  - intros H. apply (f_equal (ival c)) in H. rewrite !ival_of_small in H by lia. lia.
  - rewrite !i_as_f64_of by lia. reflexivity.
Qed.
Lemma exp_shows c x y : wf_u x -> wf_i y -> forall T (show : fl -> T),
  (exists n, u_fmt_exp show c x = show (Fin n) /\ representable 53 n /\ faithful F64 (uval c x) (Fin n) /\
     (representable 53 (uval c x) -> n = uval c x)) /\
  (exists n, i_fmt_exp show c y = show (Fin n) /\ representable 53 n /\ faithful F64 (ival c y) (Fin n) /\
     (representable 53 (ival c y) -> n = ival c y)).
Proof.
  intros Hx Hy T show. unfold u_fmt_exp, i_fmt_exp. destruct (f64_faithful c x y Hx Hy) as [F1 F2].
  destruct (f64_exact c x y Hx Hy) as [X1 X2].
  pose proof (uval_range c x Hx) as B. pose proof (ival_range c y Hy) as B'. split.
  - assert (U : u_as_f64 c x = Fin (u64r (uval c x))) by (rewrite <- u_as_f64_of with (c := c), uof_uval by assumption; reflexivity).
    rewrite U in *. exists (u64r (uval c x)). split; [reflexivity|]. split; [|split; [exact F1|]].
    + apply u64r_rep. assumption.
    + intros R. specialize (X1 R). congruence.
  - assert (U : i_as_f64 c y = Fin (Z.sgn (ival c y) * u64r (Z.abs (ival c y)))).
    { rewrite <- (iof_ival c y) at 1 by assumption. apply i_as_f64_of. assumption. }
    destruct (i64_rep _ B') as [R _]. rewrite U in *. eexists. split; [reflexivity|]. split; [exact R|]. split; [exact F2|].
    intros R'. specialize (X2 R'). congruence.
Qed.

(** * One function in two builds: tools *)

From Coq Require Import ZArith List String Bool Lia ZifyBool.
Import ListNotations.
From Verif Require Import M_Prim M_Words M_Ops M_Convert M_Parse M_Serde Spec Spec_Shift Spec_Convert Spec_Builds P_Words P_Bytes.
Open Scope Z_scope.

(** [c1] has a check switched on that [c2] has not *)
Definition more_checks (c1 c2 : cfg) : Prop :=
  (debug_assertions c1 = true /\ debug_assertions c2 = false) \/
  (overflow_checks c1 = true /\ overflow_checks c2 = false).
Definition same_checks (c1 c2 : cfg) : Prop :=
  debug_assertions c1 = debug_assertions c2 /\ overflow_checks c1 = overflow_checks c2.

(** Outcomes of any two builds: the same result; or both panic, with the same
    message if the same checks are on; or one with more checks panics. *)
Definition cmp_outcome (c1 c2 : cfg) A (R : A -> A -> Prop) (r1 r2 : res A) : Prop :=
  match r1, r2 with
  | Ret a, Ret b => R a b
  | Panic m, Panic m' => same_checks c1 c2 -> m = m'
  | Panic _, Ret _ => more_checks c1 c2
  | Ret _, Panic _ => more_checks c2 c1
  | _, _ => False
  end.

Definition comparable (c1 c2 : cfg) : Prop := usize_bits c1 = usize_bits c2 /\ usize_ok c1.

(** the function [f] compares well in all builds related by [Q] *)
Definition good_if (Q : cfg -> cfg -> Prop) (s : sig) (f : forall c, fn s) : Prop :=
  forall c1 c2, comparable c1 c2 -> Q c1 c2 -> in_builds (cmp_outcome c1 c2) c1 c2 s (f c1) (f c2).
Definition all_builds (c1 c2 : cfg) : Prop := True.
Definition good := good_if all_builds.
Definition same_llvm (c1 c2 : cfg) : Prop := llvm c1 = llvm c2.
Definition same_endian (c1 c2 : cfg) : Prop := big_endian c1 = big_endian c2.

(** ** From [good] to the properties *)

Lemma same_refl_endian c1 c2 k x : big_endian c1 = big_endian c2 -> legal c1 k x -> same c1 c2 k x x.
Proof.
  intros E. unfold legal. revert x.
  assert (EU : forall x, uval c1 x = uval c2 x) by (intros; unfold uval; rewrite E; reflexivity).
  assert (EI : forall x, ival c1 x = ival c2 x) by (intros; unfold ival; rewrite E; reflexivity).
  assert (EA : forall a b, same_amount c1 c1 a b -> same_amount c1 c2 a b).
  { intros a b. unfold same_amount. destruct a, b; cbn [amt_val]; rewrite <- ?EU, <- ?EI; auto. }
  assert (G : forall x y, same c1 c1 k x y -> same c1 c2 k x y).
  { induction k; cbn [same]; intros x y.
    - rewrite <- EU. auto.
    - rewrite <- EI. auto.
    - intuition.
    - intuition.
    - auto.
    - destruct x, y; auto.
    - intuition.
    - induction 1; constructor; auto.
    - destruct x, y; auto.
    - destruct x, y; auto. }
  auto.
Qed.
Lemma same_eq c1 c2 k x y : big_endian c1 = big_endian c2 -> same c1 c2 k x y -> x = y.
Proof.
  intros E. revert x y.
  assert (EU : forall x y, wf_u x -> wf_u y -> uval c1 x = uval c2 y -> x = y).
  { intros x y Hx Hy H. apply (uval_inj c1); try assumption. rewrite H. unfold uval. rewrite E. reflexivity. }
  assert (EI : forall x y, wf_i x -> wf_i y -> ival c1 x = ival c2 y -> x = y).
  { intros x y Hx Hy H. apply (ival_inj c1); try assumption. rewrite H. unfold ival. rewrite E. reflexivity. }
  assert (EA : forall a b, amt_ok a -> amt_ok b -> same_amount c1 c2 a b -> a = b).
  { intros a b. unfold same_amount. destruct a, b; cbn [amt_val amt_ok]; try tauto; intros; f_equal; auto. }
  induction k; cbn [same]; intros x y.
  - intros (? & ? & ?). auto.
  - intros (? & ? & ?). auto.
  - intros (? & ? & ?). auto.
  - intros (? & ? & ? & ?). auto.
  - intros []. auto.
  - destruct x, y; try tauto. intros. f_equal. auto.
  - destruct x, y. cbn [fst snd]. intros []. f_equal; auto.
  - induction 1; f_equal; auto.
  - destruct x, y; try tauto; intros; f_equal; auto.
  - destruct x, y; try tauto; intros; f_equal; auto.
Qed.

Lemma good_endian Q s f : good_if Q s f -> forall c, usize_ok c -> Q (with_endian c false) (with_endian c true) ->
  in_builds same_outcome (with_endian c false) (with_endian c true) s (f (with_endian c false)) (f (with_endian c true)).
Proof.
  intros G c U HQ. specialize (G (with_endian c false) (with_endian c true) (conj eq_refl U) HQ).
  revert G. generalize (f (with_endian c false)) (f (with_endian c true)). clear f.
  induction s as [k|k|k s IH]; cbn [fn in_builds]; intros g h.
  - exact (fun H => H).
  - unfold cmp_outcome, same_outcome, same_checks, more_checks, with_endian. cbn [debug_assertions overflow_checks].
    destruct g, h; try tauto; intuition congruence.
  - intros H x y S. exact (IH _ _ (H x y S)).
Qed.
Lemma good_same_endian (R : forall A, res A -> res A -> Prop) (V : forall A, A -> A -> Prop) c1 c2 Q s f :
  (forall A r r', cmp_outcome c1 c2 A eq r r' -> R A r r') -> (forall A v, V A v v) ->
  good_if Q s f -> comparable c1 c2 -> Q c1 c2 -> big_endian c1 = big_endian c2 -> on_legal R V c1 s (f c1) (f c2).
Proof.
  intros HR HV G C HQ E. specialize (G c1 c2 C HQ). revert G. generalize (f c1) (f c2). clear f.
  induction s as [k|k|k s IH]; cbn [fn in_builds on_legal]; intros g h.
  - intros H. apply same_eq in H; [|assumption]. subst. apply HV.
  - intros H. apply HR. destruct g, h; cbn [cmp_outcome] in *; try tauto. eapply same_eq; eauto.
  - intros H x L. apply IH. apply H. apply same_refl_endian; assumption.
Qed.

Lemma good_debug Q s f : good_if Q s f -> forall c, usize_ok c -> Q (debug_build c) (release_build c) ->
  on_legal returns_too (@eq) (debug_build c) s (f (debug_build c)) (f (release_build c)).
Proof.
  intros G c U HQ. apply (good_same_endian _ _ _ _ Q); try assumption; [|reflexivity|split; [reflexivity|assumption]|reflexivity].
  intros A r r' H v ->. cbn [cmp_outcome] in H. destruct r'; try contradiction; [congruence|].
  unfold more_checks, debug_build, release_build in H. cbn in H. intuition discriminate.
Qed.
Lemma good_defined Q s f : good_if Q s f -> forall c, usize_ok c -> Q c c -> on_legal defined (@eq) c s (f c) (f c).
Proof.
  intros G c U HQ. apply (good_same_endian _ _ _ _ Q); try assumption; [|reflexivity|split; [reflexivity|assumption]|reflexivity].
  intros A r r' H w. destruct r; cbn [cmp_outcome] in H; try contradiction; split; discriminate.
Qed.
Lemma good_backend Q s f : good_if Q s f -> forall c, usize_ok c -> Q (with_llvm c false) (with_llvm c true) ->
  on_legal (fun A => @eq (res A)) (@eq) c s (f (with_llvm c false)) (f (with_llvm c true)).
Proof.
  intros G c U HQ.
  assert (L : on_legal (fun A => @eq (res A)) (@eq) (with_llvm c false) s (f (with_llvm c false)) (f (with_llvm c true))).
  { apply (good_same_endian _ _ _ _ Q); try assumption; [|reflexivity|split; [reflexivity|assumption]|reflexivity].
    intros A r r' H. unfold cmp_outcome, more_checks, same_checks, with_llvm in H. cbn [debug_assertions overflow_checks] in H.
    destruct r, r'; try contradiction; intuition congruence. }
  revert L. generalize (f (with_llvm c false)) (f (with_llvm c true)). clear.
  induction s as [k|k|k s IH]; cbn [fn on_legal]; auto. intros g h H x L. apply IH, H.
  change (same (with_llvm c false) (with_llvm c false) k x x). revert L. unfold legal.
  assert (forall k x y, same c c k x y -> same (with_llvm c false) (with_llvm c false) k x y); [|auto].
  clear. induction k; cbn [same]; intros x y.
  - auto.
  - auto.
  - auto.
  - auto.
  - auto.
  - destruct x, y; auto.
  - intuition.
  - induction 1; constructor; auto.
  - destruct x, y; auto.
  - destruct x, y; auto.
Qed.

(** ** Tactics for proving [good] *)

Lemma num_u c1 c2 x y : same c1 c2 U x y -> exists n, 0 <= n < 2 ^ 256 /\ x = uof c1 n /\ y = uof c2 n.
Proof.
  intros (Hx & Hy & E). exists (uval c1 x). split; [apply uval_range; assumption|].
  rewrite uof_uval by assumption. rewrite E, uof_uval by assumption. auto.
Qed.
Lemma num_i c1 c2 x y : same c1 c2 I x y -> exists n, - 2 ^ 255 <= n < 2 ^ 255 /\ x = iof c1 n /\ y = iof c2 n.
Proof.
  intros (Hx & Hy & E). exists (ival c1 x). split; [apply ival_range; assumption|].
  rewrite iof_ival by assumption. rewrite E, iof_ival by assumption. auto.
Qed.
Lemma same_u c1 c2 n : same c1 c2 U (uof c1 n) (uof c2 n).
Proof. cbn [same]. rewrite !uval_uof. auto using wf_uof. Qed.
Lemma same_i c1 c2 n : same c1 c2 I (iof c1 n) (iof c2 n).
Proof. cbn [same]. rewrite !ival_iof. auto using wf_iof. Qed.

Lemma run_ret c1 c2 k a b : same c1 c2 k a b -> in_builds (cmp_outcome c1 c2) c1 c2 (Runs k) (Ret a) (Ret b).
Proof. exact (fun H => H). Qed.
Lemma run_panic c1 c2 k m : in_builds (cmp_outcome c1 c2) c1 c2 (Runs k) (Panic m) (Panic m).
Proof. intros _. reflexivity. Qed.
Lemma run_panics c1 c2 k m m' : (same_checks c1 c2 -> m = m') ->
  in_builds (cmp_outcome c1 c2) c1 c2 (Runs k) (Panic m) (Panic m').
Proof. exact (fun H => H). Qed.
Lemma run_more_l c1 c2 k m b : more_checks c1 c2 -> in_builds (cmp_outcome c1 c2) c1 c2 (Runs k) (Panic m) (Ret b).
Proof. exact (fun H => H). Qed.
Lemma run_more_r c1 c2 k m a : more_checks c2 c1 -> in_builds (cmp_outcome c1 c2) c1 c2 (Runs k) (Ret a) (Panic m).
Proof. exact (fun H => H). Qed.
Lemma gives R c1 c2 k a b : same c1 c2 k a b -> in_builds R c1 c2 (Gives k) a b.
Proof. exact (fun H => H). Qed.
Lemma same_some c1 c2 k a b : same c1 c2 k a b -> same c1 c2 (Opt k) (Some a) (Some b).
Proof. exact (fun H => H). Qed.
Lemma same_none c1 c2 k : same c1 c2 (Opt k) None None.
Proof. exact Logic.I. Qed.
Lemma same_pair c1 c2 k l a b a' b' : same c1 c2 k a b -> same c1 c2 l a' b' -> same c1 c2 (Pair k l) (a, a') (b, b').
Proof. exact (fun H H' => conj H H'). Qed.
Lemma same_same c1 c2 A (P : A -> Prop) a : P a -> same c1 c2 (Same A P) a a.
Proof. exact (fun H => conj eq_refl H). Qed.

Ltac argU n := let x := fresh "x" in let y := fresh "y" in let H := fresh in let Hn := fresh "H" n in
  intros x y H; apply num_u in H; destruct H as (n & Hn & -> & ->).
Ltac argI n := let x := fresh "x" in let y := fresh "y" in let H := fresh in let Hn := fresh "H" n in
  intros x y H; apply num_i in H; destruct H as (n & Hn & -> & ->).
Ltac argZ n := let y := fresh "y" in let H := fresh in let Hn := fresh "H" n in
  intros n y H; destruct H as [H Hn]; cbn [den] in *; subst y.
Ltac begin := intros c1 c2 CM ?HQ.

Ltac flat_all := repeat match goal with
  | H : _ /\ _ |- _ => destruct H
  | H : Forall _ (_ :: _) |- _ => apply Forall_cons_iff in H
  | H : Forall _ [] |- _ => clear H
  end.
(** [H] is a family lemma about one build, on representations of numbers *)
Ltac norm H := cbv beta zeta in H; rewrite ?uval_of_small, ?ival_of_small in H by assumption.
Ltac split_if H H' := repeat match type of H with if ?b then _ else _ => destruct b eqn:? end.
Ltac fam c1 c2 F := let H := fresh "F1" in let H' := fresh "F2" in
  pose proof (F c1) as H; pose proof (F c2) as H'; norm H; norm H'; split_if H H'; flat_all.
Ltac use_eq t := match goal with
  | E : t = _ |- _ => rewrite E
  | E : _ = t |- _ => rewrite <- E
  | E : panics t |- _ => let m := fresh "m" in let Em := fresh in destruct E as [m Em]; rewrite Em
  end.
Ltac eqs := match goal with |- in_builds _ _ _ _ ?l ?r => use_eq l; use_eq r end.
Ltac finish := repeat
  match goal with
  | |- context [if debug_assertions ?c && _ then _ else _] => destruct (debug_assertions c) eqn:?; cbn [andb]
  | |- context [if debug_assertions ?c then _ else _] => destruct (debug_assertions c) eqn:?
  | |- context [if ?b then _ else _] => destruct b eqn:?
  | |- context [negb _] => progress cbn [negb]
  | |- in_builds _ _ _ (Gives _) _ _ => apply gives
  | |- in_builds _ _ _ (Runs _) (Ret _) (Ret _) => apply run_ret
  | |- in_builds _ _ _ (Runs _) (Panic ?m) (Panic ?m) => apply run_panic
  | |- in_builds _ _ _ (Runs _) (Panic _) (Panic _) => apply run_panics; intros [? ?]; congruence
  | |- in_builds _ _ _ (Runs _) (Panic _) (Ret _) => apply run_more_l; left; split; assumption
  | |- in_builds _ _ _ (Runs _) (Ret _) (Panic _) => apply run_more_r; left; split; assumption
  | |- same _ _ (Opt _) (Some _) (Some _) => apply same_some
  | |- same _ _ (Opt _) None None => apply same_none
  | |- same _ _ (Pair _ _) _ _ => apply same_pair
  | |- same _ _ U (uof _ _) (uof _ _) => apply same_u
  | |- same _ _ I (iof _ _) (iof _ _) => apply same_i
  | |- same _ _ _ ?x ?x => split; [reflexivity|exact Logic.I]
  end.
Ltac go := eqs; finish.

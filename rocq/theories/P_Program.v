(** * Whole programs in two builds: proofs *)

From Coq Require Import ZArith List String Bool Lia.
Import ListNotations.
From Verif Require Import M_Prim M_Words M_Ops M_Parse M_Serde Spec Spec_Shift Spec_Convert Spec_Builds Spec_Api Spec_Program
  P_Builds P_BuildsAll.
Open Scope Z_scope.

(** Outcomes of programs in any two builds; after a panic that only one of them has, the other may do anything. *)
Definition cmp_run (c1 c2 : cfg) A (R : A -> A -> Prop) (r1 r2 : res A) : Prop :=
  match r1, r2 with
  | Ret a, Ret b => R a b
  | NoFuel, NoFuel => True
  | Panic m, Panic m' => same_checks c1 c2 -> m = m'
  | Panic _, _ => more_checks c1 c2
  | _, Panic _ => more_checks c2 c1
  | _, _ => False
  end.

Lemma more_not_same c1 c2 : more_checks c1 c2 -> ~ same_checks c1 c2.
Proof. unfold more_checks, same_checks. intuition congruence. Qed.
Lemma more_not_same' c1 c2 : more_checks c2 c1 -> ~ same_checks c1 c2.
Proof. unfold more_checks, same_checks. intuition congruence. Qed.
Lemma cmp_of_outcome c1 c2 A R r1 r2 : cmp_outcome c1 c2 A R r1 r2 -> cmp_run c1 c2 A R r1 r2.
Proof. destruct r1, r2; cbn; tauto. Qed.
Lemma cmp_bind c1 c2 A B (R : A -> A -> Prop) (S : B -> B -> Prop) r1 r2 (f g : A -> res B) :
  cmp_run c1 c2 A R r1 r2 -> (forall a b, R a b -> cmp_run c1 c2 B S (f a) (g b)) ->
  cmp_run c1 c2 B S (bind r1 f) (bind r2 g).
Proof.
  intros H F. destruct r1 as [a|m| |], r2 as [b|m'| |]; cbn [cmp_run bind] in *; try contradiction; auto.
  - destruct (f a); cbn [cmp_run]; auto. intros C. destruct (more_not_same' _ _ H C).
  - destruct (g b); cbn [cmp_run]; auto. intros C. destruct (more_not_same _ _ H C).
Qed.

Lemma get_same c1 c2 G k (v : var G k) : forall e f, same_env c1 c2 G e f -> same c1 c2 k (get v e) (get v f).
Proof. induction v; cbn [same_env get]; intros e f []; auto. Qed.

Lemma call_same c1 c2 G s r (a : args G s r) e f (g h : fn s) :
  same_env c1 c2 G e f -> in_builds (cmp_outcome c1 c2) c1 c2 s g h ->
  cmp_run c1 c2 _ (same c1 c2 r) (call a e g) (call a f h).
Proof.
  intros E. induction a as [k|k|k s r v a IH]; cbn [in_builds call fn] in *.
  - intros H. exact H.
  - apply cmp_of_outcome.
  - intros H. apply IH, H, get_same, E.
Qed.

Lemma rounds_same c1 c2 S (R : S -> S -> Prop) (f g : S -> res (bool * S)) :
  (forall a b, R a b -> cmp_run c1 c2 _ (fun p q => fst p = fst q /\ R (snd p) (snd q)) (f a) (g b)) ->
  forall n a b, R a b -> cmp_run c1 c2 _ R (rounds f n a) (rounds g n b).
Proof.
  intros H n. induction n as [|n IH]; intros a b AB; cbn [rounds]; [exact Logic.I|].
  eapply cmp_bind; [exact (H a b AB)|]. intros [x p] [y q] [E PQ]. cbn [fst snd] in *. subst y.
  destruct x; [apply IH; exact PQ|exact PQ].
Qed.

(** A list of operations that compare well gives programs that compare well. *)
Lemma run_same c1 c2 l :
  Forall (fun p => in_builds (cmp_outcome c1 c2) c1 c2 (op_sig p) (op_fn p c1) (op_fn p c2)) l ->
  forall G k (p : prog G k), lawful l p -> forall e e', same_env c1 c2 G e e' ->
  cmp_run c1 c2 _ (same c1 c2 k) (run c1 p e) (run c2 p e').
Proof.
  intros HL G k p. induction p; cbn [lawful run]; intros L e e' E.
  - cbn [cmp_run]. apply get_same, E.
  - cbn [cmp_run]. auto.
  - destruct L as [I L]. rewrite Forall_forall in HL. eapply cmp_bind; [apply call_same; [exact E|exact (HL _ I)]|].
    intros x y XY. apply IHp; [exact L|]. cbn [same_env fst snd]. auto.
  - destruct L as [L1 L2]. eapply cmp_bind; [apply IHp1; [exact L1|exact E]|].
    intros x y XY. apply IHp2; [exact L2|]. cbn [same_env fst snd]. auto.
  - destruct L as [I L]. apply IHp; [exact L|]. cbn [same_env fst snd same]. auto.
  - destruct L as [I L]. apply IHp; [exact L|]. cbn [same_env fst snd same].
    destruct (get_same _ _ _ _ v _ _ E) as [-> K]. auto.
  - apply IHp; [exact L|]. cbn [same_env fst snd same].
    destruct (get_same _ _ _ _ v _ _ E) as [-> K]. destruct (get_same _ _ _ _ w _ _ E) as [-> K']. cbn [fst snd]. auto.
  - destruct L as [L1 L2]. destruct (get_same _ _ _ _ v _ _ E) as [-> _]. destruct (get v e'); auto.
  - destruct L as [L1 L2]. pose proof (get_same _ _ _ _ v _ _ E) as K. cbn [same] in K.
    destruct (get v e), (get v e'); try contradiction; auto. apply IHp1; [exact L1|]. cbn [same_env fst snd]. auto.
  - destruct L as [L1 L2]. pose proof (get_same _ _ _ _ v _ _ E) as K. cbn [same] in K.
    destruct (get v e), (get v e'); try contradiction.
    + apply IHp1; [exact L1|]. cbn [same_env fst snd]. auto.
    + apply IHp2; [exact L2|]. cbn [same_env fst snd same]. unfold any. auto.
  - apply IHp; [exact L|]. cbn [same_env fst snd same]. auto using get_same.
  - pose proof (get_same _ _ _ _ v _ _ E) as K. cbn [same] in K. destruct K as [K1 K2].
    apply IHp; [exact L|]. cbn [same_env fst snd]. auto.
  - apply IHp; [exact L|]. cbn [same_env fst snd same]. split; [|exact E]. destruct v as [v|]; auto using get_same.
  - apply IHp; [exact L|]. cbn [same_env fst snd same]. auto.
  - apply IHp; [exact L|]. cbn [same_env fst snd same]. split; [|exact E]. constructor; [apply get_same, E|].
    exact (get_same _ _ _ _ w _ _ E).
  - destruct L as [L1 L2]. pose proof (get_same _ _ _ _ v _ _ E) as K. cbn [same] in K.
    destruct K as [|x y r r' XY RR]; auto. apply IHp2; [exact L2|]. cbn [same_env fst snd same]. auto.
  - destruct L as [L1 L2]. eapply cmp_bind with (R := same c1 c2 s).
    + apply rounds_same; [|apply get_same, E]. intros a b AB.
      pose proof (IHp1 L1 (a, e) (b, e') (conj AB E)) as H. cbn [same] in H.
      destruct (run c1 p1 (a, e)), (run c2 p1 (b, e')); cbn [cmp_run] in *; auto. destruct H as [[? _] ?]. auto.
    + intros a b AB. apply IHp2; [exact L2|]. cbn [same_env fst snd]. auto.
Qed.

(** ** The properties *)
Lemma goods_cmp Q l c1 c2 : goods Q l -> comparable c1 c2 -> Q c1 c2 ->
  Forall (fun p => in_builds (cmp_outcome c1 c2) c1 c2 (op_sig p) (op_fn p c1) (op_fn p c2)) l.
Proof. intros G C HQ. eapply Forall_impl; [|exact G]. intros p H. apply H; assumption. Qed.

Lemma ret_of_cmp c1 c2 A R r1 r2 x : checks_of c1 c2 -> cmp_run c1 c2 A R r1 r2 -> r1 = Ret x -> exists y, r2 = Ret y /\ R x y.
Proof.
  intros C H ->. destruct r2 as [y|m| |]; cbn [cmp_run] in H; try contradiction; [eauto|].
  unfold more_checks, checks_of in *. intuition congruence.
Qed.
Lemma program_portable c1 c2 : usize_bits c1 = usize_bits c2 -> usize_ok c1 -> checks_of c1 c2 ->
  forall G k (p : prog G k), lawful api p -> forall e f, same_env c1 c2 G e f ->
  forall x, run c1 p e = Ret x -> exists y, run c2 p f = Ret y /\ same c1 c2 k x y.
Proof.
  intros S U C G k p L e f E x. refine (ret_of_cmp c1 c2 _ (same c1 c2 k) _ _ x C _).
  eapply run_same; [|exact L|exact E]. eapply goods_cmp; [exact api_good|split; assumption|exact Logic.I].
Qed.
Lemma program_alike c1 c2 : usize_bits c1 = usize_bits c2 -> usize_ok c1 ->
  debug_assertions c1 = debug_assertions c2 -> overflow_checks c1 = overflow_checks c2 ->
  forall G k (p : prog G k), lawful api p -> forall e f, same_env c1 c2 G e f ->
  alike (den k) (same c1 c2 k) (run c1 p e) (run c2 p f).
Proof.
  intros S U C1 C2 G k p L e f E.
  assert (H : cmp_run c1 c2 _ (same c1 c2 k) (run c1 p e) (run c2 p f)).
  { eapply run_same; [|exact L|exact E]. eapply goods_cmp; [exact api_good|split; assumption|exact Logic.I]. }
  assert (SC : same_checks c1 c2) by (split; assumption).
  destruct (run c1 p e), (run c2 p f); cbn [cmp_run alike] in *; auto;
    try (destruct (more_not_same _ _ H SC)); try (destruct (more_not_same' _ _ H SC)).
Qed.
Lemma program_target c1 c2 : same_target c1 c2 -> usize_ok c1 -> checks_of c1 c2 ->
  forall G k (p : prog G k), lawful (api ++ api_amounts ++ api_memory) p -> forall e, legal_env c1 G e ->
  forall x, run c1 p e = Ret x -> run c2 p e = Ret x.
Proof.
  intros (E & S & LL) U C G k p L e LE x H.
  assert (SE : same_env c1 c2 G e e).
  { clear - E LE. unfold legal_env in LE. induction G as [|k G IH]; cbn [same_env] in *; [exact Logic.I|].
    destruct LE as [L1 L2]. split; [apply same_refl_endian; assumption|apply IH; exact L2]. }
  destruct (ret_of_cmp c1 c2 _ (same c1 c2 k) (run c1 p e) (run c2 p e) x C) as (y & -> & XY); [|exact H|].
  - eapply run_same; [|exact L|exact SE]. eapply goods_cmp; [exact all_good|split; assumption|split; assumption].
  - f_equal. symmetry. eapply same_eq; eassumption.
Qed.
Lemma program_defined c : usize_ok c ->
  forall G k (p : prog G k), lawful (api ++ api_amounts ++ api_memory) p -> forall e, legal_env c G e ->
  (forall why, run c p e <> UB why) /\ (forall x, run c p e = Ret x -> legal c k x).
Proof.
  intros U G k p L e E.
  assert (H : cmp_run c c _ (same c c k) (run c p e) (run c p e)).
  { eapply run_same; [|exact L|exact E]. eapply goods_cmp; [exact all_good|split; [reflexivity|assumption]|split; reflexivity]. }
  destruct (run c p e) as [a|m|w|]; cbn [cmp_run] in H; split; try discriminate; try contradiction.
  intros x X. injection X as <-. exact H.
Qed.
Lemma call_ends c G s r (a : args G s r) e (g : fn s) :
  legal_env c G e -> in_builds (cmp_outcome c c) c c s g g -> call a e g <> NoFuel.
Proof.
  intros E. induction a as [k|k|k s r v a IH]; cbn [call fn in_builds].
  - discriminate.
  - destruct g; cbn [cmp_outcome]; try discriminate. contradiction.
  - intros H. apply IH, H, get_same, E.
Qed.
(** without a loop a program ends *)
Lemma program_ends c : usize_ok c ->
  forall G k (p : prog G k), lawful (api ++ api_amounts ++ api_memory) p -> straight p -> forall e, legal_env c G e ->
  run c p e <> NoFuel.
Proof.
  intros U.
  assert (HL : Forall (fun p => in_builds (cmp_outcome c c) c c (op_sig p) (op_fn p c) (op_fn p c)) (api ++ api_amounts ++ api_memory)).
  { eapply goods_cmp; [exact all_good|split; [reflexivity|assumption]|split; reflexivity]. }
  intros G k p. revert HL. generalize (api ++ api_amounts ++ api_memory). intros l HL. unfold legal_env.
  induction p; cbn [lawful straight run]; intros L S e E; try discriminate.
  - destruct L as [I L]. rewrite Forall_forall in HL. pose proof (HL _ I) as H. cbn beta in H.
    pose proof (call_same c c _ _ _ a e e _ _ E H) as K. pose proof (call_ends c _ _ _ a e _ E H) as N.
    destruct (call a e (op_fn p c)); cbn [bind cmp_run] in *; try discriminate; [|congruence].
    apply IHp; auto. cbn [same_env fst snd]. auto.
  - destruct L as [L1 L2], S as [S1 S2]. pose proof (IHp1 L1 S1 e E) as N.
    pose proof (run_same c c l HL _ _ p1 L1 e e E) as K.
    destruct (run c p1 e); cbn [bind cmp_run] in *; try discriminate; [|congruence].
    apply IHp2; auto. cbn [same_env fst snd]. auto.
  - destruct L as [I L]. apply IHp; auto. cbn [same_env fst snd same]. auto.
  - destruct L as [I L]. apply IHp; auto. cbn [same_env fst snd same]. destruct (get_same _ _ _ _ v _ _ E) as [_ K]. auto.
  - apply IHp; auto. cbn [same_env fst snd same].
    destruct (get_same _ _ _ _ v _ _ E) as [_ K]. destruct (get_same _ _ _ _ w _ _ E) as [_ K']. auto.
  - destruct L as [L1 L2], S as [S1 S2]. destruct (get v e); auto.
  - destruct L as [L1 L2], S as [S1 S2]. pose proof (get_same _ _ _ _ v _ _ E) as K. cbn [same] in K.
    destruct (get v e); auto. apply IHp1; auto. cbn [same_env fst snd]. auto.
  - destruct L as [L1 L2], S as [S1 S2]. pose proof (get_same _ _ _ _ v _ _ E) as K. cbn [same] in K.
    destruct (get v e); [apply IHp1|apply IHp2]; auto; cbn [same_env fst snd same]; unfold any; auto.
  - apply IHp; auto. cbn [same_env fst snd same]. auto using get_same.
  - pose proof (get_same _ _ _ _ v _ _ E) as K. cbn [same] in K. destruct K as [K1 K2].
    apply IHp; auto. cbn [same_env fst snd]. auto.
  - apply IHp; auto. cbn [same_env fst snd same]. split; [|exact E]. destruct v as [v|]; auto using get_same.
  - apply IHp; auto. cbn [same_env fst snd same]. auto.
  - apply IHp; auto. cbn [same_env fst snd same]. split; [|exact E]. constructor; [apply get_same, E|].
    exact (get_same _ _ _ _ w _ _ E).
  - destruct L as [L1 L2], S as [S1 S2]. pose proof (get_same _ _ _ _ v _ _ E) as K. cbn [same] in K.
    destruct (get v e) as [|x r]; auto. inversion K; subst. apply IHp2; auto. cbn [same_env fst snd same]. auto.
  - contradiction.
Qed.
Lemma program_amounts c1 c2 : usize_bits c1 = usize_bits c2 -> usize_ok c1 -> llvm c1 = llvm c2 -> checks_of c1 c2 ->
  forall G k (p : prog G k), lawful (api ++ api_amounts) p -> forall e f, same_env c1 c2 G e f ->
  forall x, run c1 p e = Ret x -> exists y, run c2 p f = Ret y /\ same c1 c2 k x y.
Proof.
  intros S U LL C G k p L e f E x. refine (ret_of_cmp c1 c2 _ (same c1 c2 k) _ _ x C _).
  eapply run_same; [|exact L|exact E]. rewrite Forall_app. split.
  - eapply goods_cmp; [exact api_good|split; assumption|exact Logic.I].
  - eapply goods_cmp; [exact api_amounts_good|split; assumption|exact LL].
Qed.

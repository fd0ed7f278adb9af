(** * Linking and replacing texts: proofs *)

From Coq Require Import ZArith String Ascii List Bool Lia Arith.
Import ListNotations.
From Verif Require Import M_Link Spec_Link.
Local Notation length := List.length.

(** ** Signatures *)

Open Scope Z_scope.
Lemma links a b p : In p called ->
  exists d t, resolved p = Some d /\ In d declared /\ linked d = Some t /\ In t template /\
    p_name d = p_name p /\ p_name t = p_name p /\ p_answer d = p_answer p /\ p_answer t = p_answer p /\
    Forall2 passes (p_params p) (p_params d) /\ Forall2 (hands a b) (p_params p) (p_params t).
Proof.
  unfold called. cbn [In]. intros H.
  repeat (destruct H as [<-|H]; [eexists; eexists; split; [reflexivity|]; split; [cbn; auto 30|]; split; [reflexivity|]; split; [cbn; auto 30|];
    repeat (split; [reflexivity|]); split; repeat constructor|]). contradiction.
Qed.
Lemma links_once :
  NoDup (map symbol template) /\ NoDup (map p_name declared) /\
  (forall t, In t template -> exists d, In d declared /\ linked d = Some t) /\
  (forall d, In d declared -> exists p, In p called /\ resolved p = Some d).
Proof.
  split; [|split; [|split]].
  - apply NoDup_count_occ' with (decA := string_dec). intros x H. cbn [map template] in H. cbn [In] in H.
    repeat (destruct H as [<-|H]; [vm_compute; reflexivity|]). contradiction.
  - apply NoDup_count_occ' with (decA := string_dec). intros x H. cbn [map declared] in H. cbn [In] in H.
    repeat (destruct H as [<-|H]; [vm_compute; reflexivity|]). contradiction.
  - unfold template at 1. cbn [In]. intros t H.
    repeat (destruct H as [<-|H]; [match goal with |- context [Some (mkProto ?n _ _)] =>
      let x := eval vm_compute in (find (fun d => String.eqb (p_name d) n) declared) in
      match x with Some ?d => exists d; split; [cbn; auto 30|reflexivity] end end|]). contradiction.
  - unfold declared at 1. cbn [In]. intros d H.
    repeat (destruct H as [<-|H]; [match goal with |- context [Some (mkProto ?n _ _)] =>
      let x := eval vm_compute in (find (fun d => String.eqb (p_name d) n) called) in
      match x with Some ?d => exists d; split; [cbn; auto 30|reflexivity] end end|]). contradiction.
Qed.
Close Scope Z_scope.

(** ** Texts *)

Lemma starts_iff pat s : starts_with pat s = true <-> occurs pat s 0.
Proof.
  unfold occurs. revert s. induction pat as [|a pat IH]; intros s; cbn [starts_with length]; [split; [intros; lia|reflexivity]|].
  destruct s as [|b s].
  - split; [discriminate|]. intros H. specialize (H 0 ltac:(lia)). discriminate H.
  - split.
    + intros H. apply andb_prop in H. destruct H as [E H]. apply Ascii.eqb_eq in E. subst b. intros [|j] L; [reflexivity|]. cbn. apply IH; [exact H|lia].
    + intros H. pose proof (H 0 ltac:(lia)) as H0. cbn in H0. inversion H0; subst. rewrite Ascii.eqb_refl. cbn [andb]. apply IH. intros j L. apply (H (S j)). lia.
Qed.
Lemma occurs_S pat ch s q : occurs pat (ch :: s) (S q) <-> occurs pat s q.
Proof. unfold occurs. reflexivity. Qed.
Lemma occurs_app pat a s q : occurs pat (a ++ s) (length a + q) <-> occurs pat s q.
Proof.
  unfold occurs. split; intros H j L; specialize (H j L); rewrite <- H; [rewrite <- Nat.add_assoc, nth_error_app2 by lia; f_equal; lia|].
  rewrite <- Nat.add_assoc, nth_error_app2 by lia. f_equal. lia.
Qed.
Lemma starts_split pat s : occurs pat s 0 -> s = pat ++ skipn (length pat) s.
Proof.
  unfold occurs. revert s. induction pat as [|a pat IH]; intros s H; [reflexivity|]. cbn [length] in H.
  destruct s as [|b s]; [specialize (H 0 ltac:(lia)); discriminate H|]. pose proof (H 0 ltac:(lia)) as H0. cbn in H0. inversion H0; subst b.
  cbn [app skipn length]. f_equal. apply IH. intros j L. apply (H (S j)). lia.
Qed.

(** the two texts cannot overlap *)
Definition clash (u v : list ascii) : Prop :=
  forall q q' x, q <= x < q + length u -> q' <= x < q' + length v ->
    exists y, q <= y < q + length u /\ q' <= y < q' + length v /\ nth_error u (y - q) <> nth_error v (y - q').
(** a text does not overlap with itself, but for being at the same place *)
Definition alone (u : list ascii) : Prop :=
  forall q q' x, q <> q' -> q <= x < q + length u -> q' <= x < q' + length u ->
    exists y, q <= y < q + length u /\ q' <= y < q' + length u /\ nth_error u (y - q) <> nth_error u (y - q').

Definition differ (a b : option ascii) : bool :=
  match a, b with Some x, Some y => negb (Ascii.eqb x y) | _, _ => false end.
Lemma differ_neq a b : differ a b = true -> a <> b.
Proof. destruct a as [x|], b as [y|]; try discriminate. cbn. intros H E. inversion E; subst. rewrite Ascii.eqb_refl in H. discriminate. Qed.
Definition clash_at (u v : list ascii) (d : nat) : bool :=
  existsb (fun a => differ (nth_error u (a + d)) (nth_error v a)) (seq 0 (length v)).
Lemma clash_at_spec u v d q : clash_at u v d = true ->
  exists y, q <= y < q + length u /\ q + d <= y < q + d + length v /\ nth_error u (y - q) <> nth_error v (y - (q + d)).
Proof.
  intros H. apply existsb_exists in H. destruct H as (a & I & D). apply in_seq in I. exists (q + d + a).
  assert (L : a + d < length u).
  { destruct (nth_error u (a + d)) eqn:E; [|discriminate D]. apply nth_error_Some. congruence. }
  apply differ_neq in D. replace (q + d + a - q) with (a + d) by lia. replace (q + d + a - (q + d)) with a by lia. split; [lia|]. split; [lia|exact D].
Qed.
Definition clash_check (u v : list ascii) : bool :=
  forallb (clash_at u v) (seq 0 (length u)) && forallb (clash_at v u) (seq 0 (length v)).
Lemma clash_ok u v : clash_check u v = true -> clash u v.
Proof.
  intros H. apply andb_prop in H. destruct H as [H1 H2]. rewrite forallb_forall in H1, H2. intros q q' x X X'.
  destruct (le_lt_dec q q') as [L|L].
  - destruct (clash_at_spec u v (q' - q) q (H1 (q' - q) ltac:(apply in_seq; lia))) as (y & Y & Y' & N). replace (q + (q' - q)) with q' in * by lia. exists y. auto.
  - destruct (clash_at_spec v u (q - q') q' (H2 (q - q') ltac:(apply in_seq; lia))) as (y & Y & Y' & N). replace (q' + (q - q')) with q in * by lia. exists y. auto.
Qed.
Lemma alone_ok u : forallb (clash_at u u) (seq 1 (length u - 1)) = true -> alone u.
Proof.
  intros H. rewrite forallb_forall in H. intros q q' x NE X X'. destruct (le_lt_dec q q') as [L|L].
  - destruct (clash_at_spec u u (q' - q) q (H (q' - q) ltac:(apply in_seq; lia))) as (y & Y & Y' & N). replace (q + (q' - q)) with q' in * by lia. exists y. auto.
  - destruct (clash_at_spec u u (q - q') q' (H (q - q') ltac:(apply in_seq; lia))) as (y & Y & Y' & N). replace (q' + (q - q')) with q in * by lia. exists y. auto.
Qed.
Lemma occurs_at pat s q y : occurs pat s q -> q <= y < q + length pat -> nth_error s y = nth_error pat (y - q).
Proof. intros O L. rewrite <- (O (y - q)) by lia. f_equal. lia. Qed.
Lemma alone_unique pat s q q' x : alone pat -> occurs pat s q -> occurs pat s q' -> q <= x < q + length pat -> q' <= x < q' + length pat -> q = q'.
Proof.
  intros A O O' X X'. destruct (Nat.eq_dec q q') as [|NE]; [assumption|]. destruct (A q q' x NE X X') as (y & Y & Y' & N). exfalso. apply N.
  rewrite <- (occurs_at pat s q y O Y), <- (occurs_at pat s q' y O' Y'). reflexivity.
Qed.
Lemma clash_disjoint u v s q q' x : clash u v -> occurs u s q -> occurs v s q' -> q <= x < q + length u -> q' <= x < q' + length v -> False.
Proof.
  intros A O O' X X'. destruct (A q q' x X X') as (y & Y & Y' & N). apply N.
  rewrite <- (occurs_at u s q y O Y), <- (occurs_at v s q' y O' Y'). reflexivity.
Qed.

(** what a replacement does, position by position *)
Definition replaced (pat to s out : list ascii) : Prop :=
  length out = length s /\
  (forall q p, occurs pat s q -> q <= p < q + length pat -> nth_error out p = nth_error to (p - q)) /\
  (forall p, ~ covered pat s p -> nth_error out p = nth_error s p).

Lemma skip_from pat to a s : replace_from (length a) pat to (a ++ s) = replace_from 0 pat to s.
Proof. induction a as [|x a IH]; [reflexivity|]. cbn [length app replace_from]. exact IH. Qed.
Lemma replace_spec pat to : pat <> [] -> length to = length pat -> alone pat -> forall n s, length s <= n -> replaced pat to s (replace_from 0 pat to s).
Proof.
  intros NE LT AL. induction n as [|n IH]; intros s LS.
  - destruct s; [|cbn in LS; lia]. split; [reflexivity|]. split; [|reflexivity]. intros q p O L. exfalso.
    specialize (O 0 ltac:(lia)). destruct pat; [contradiction|]. destruct q; discriminate O.
  - destruct s as [|ch s]; [apply IH; cbn; lia|]. cbn [replace_from]. destruct (starts_with pat (ch :: s)) eqn:E.
    + apply starts_iff in E. pose proof (starts_split _ _ E) as SP. destruct pat as [|p0 pat]; [contradiction|]. set (P := p0 :: pat) in *.
      set (r := skipn (length P) (ch :: s)) in *. clearbody r. assert (S1 : s = pat ++ r) by (pose proof SP as X; unfold P in X; cbn [app] in X; inversion X; reflexivity).
      replace (length P - 1) with (length pat) by (cbn; lia). replace (replace_from (length pat) P to s) with (replace_from 0 P to r) by (rewrite S1; symmetry; apply skip_from).
      assert (LR : length r <= n) by (apply (f_equal (@length ascii)) in S1; rewrite app_length in S1; cbn [length] in LS; lia).
      destruct (IH r LR) as (I1 & I2 & I3).
      assert (EDGE : forall q, occurs P (P ++ r) q -> q = 0 \/ length P <= q).
      { intros q O. destruct (Nat.eq_dec q 0) as [|N0]; [auto|]. destruct (le_lt_dec (length P) q) as [|L]; [auto|]. exfalso.
        assert (0 = q); [|congruence]. apply (alone_unique P (P ++ r) 0 q q AL); [rewrite <- SP; exact E|exact O|lia|]. cbn [P length]. lia. }
      rewrite SP. split; [|split].
      * rewrite !app_length, I1, LT. reflexivity.
      * intros q p O L. destruct (EDGE q O) as [->|G].
        -- rewrite Nat.sub_0_r. apply nth_error_app1. lia.
        -- rewrite nth_error_app2 by lia. replace q with (length P + (q - length P)) in O by lia. apply occurs_app in O.
           rewrite (I2 _ (p - length to) O) by lia. f_equal. lia.
      * intros p NC. destruct (le_lt_dec (length P) p) as [G|G].
        -- rewrite !nth_error_app2 by lia. rewrite LT. apply I3. intros (q & O & L). apply NC. exists (length P + q). split; [apply occurs_app; exact O|lia].
        -- exfalso. apply NC. exists 0. split; [rewrite <- SP; exact E|lia].
    + assert (N0 : ~ occurs pat (ch :: s) 0) by (intros O; apply starts_iff in O; congruence).
      destruct (IH s ltac:(cbn in LS; lia)) as (I1 & I2 & I3). split; [cbn [length]; lia|]. split.
      * intros [|q] p O L; [contradiction|]. destruct p as [|p]; [lia|]. cbn [nth_error]. apply (I2 q p); [apply occurs_S in O; exact O|lia].
      * intros [|p] NC; [reflexivity|]. cbn [nth_error]. apply I3. intros (q & O & L). apply NC. exists (S q). split; [apply occurs_S; exact O|lia].
Qed.

Lemma covered_dec pat s p : covered pat s p \/ ~ covered pat s p.
Proof.
  assert (D : forall q, occurs pat s q \/ ~ occurs pat s q).
  { intros q. destruct (starts_with pat (skipn q s)) eqn:E.
    - left. apply starts_iff in E. intros j L. specialize (E j L). rewrite <- E. clear. revert s. induction q as [|q IH]; intros s; [reflexivity|].
      destruct s as [|x s]; [cbn; destruct j; reflexivity|]. cbn [Nat.add nth_error skipn]. apply IH.
    - right. intros O. assert (X : occurs pat (skipn q s) 0); [|apply starts_iff in X; congruence]. intros j L. specialize (O j L). rewrite <- O. clear. revert s.
      induction q as [|q IH]; intros s; [reflexivity|]. destruct s as [|x s]; [cbn; destruct j; reflexivity|]. cbn [Nat.add nth_error skipn]. apply IH. }
  assert (B : forall n, (exists q, q < n /\ occurs pat s q /\ q <= p < q + length pat) \/ ~ exists q, q < n /\ occurs pat s q /\ q <= p < q + length pat).
  { induction n as [|n [IH|IH]]; [right; intros (q & L & _); lia|left; destruct IH as (q & L & X); exists q; split; [lia|exact X]|].
    destruct (D n) as [O|O]; [destruct (le_lt_dec n p); [destruct (le_lt_dec (n + length pat) p)|]|].
    2: left; exists n; split; [lia|]; split; [exact O|lia].
    all: right; intros (q & L & O' & X); destruct (Nat.eq_dec q n) as [->|]; [try contradiction; lia|]; apply IH; exists q; split; [lia|auto]. }
  destruct (B (S p)) as [(q & L & X)|N]; [left; exists q; exact X|right]. intros (q & O & X). apply N. exists q. split; [lia|auto].
Qed.
(** other texts stay where they are *)
Lemma occurs_kept pat to v s out : replaced pat to s out -> length to = length pat -> clash pat v -> clash to v -> forall q, occurs v out q <-> occurs v s q.
Proof.
  intros (L & R & K) LT C1 C2 q. split; intros O j J.
  - destruct (covered_dec pat s (q + j)) as [(q' & O' & X)|N]; [|rewrite <- (O j J); symmetry; apply K; exact N]. exfalso.
    destruct (C2 q' q (q + j)) as (y & Y & Y' & D); [lia|lia|]. apply D.
    rewrite <- (occurs_at v out q y O Y'). rewrite (R q' y O') by lia. reflexivity.
  - destruct (covered_dec pat s (q + j)) as [(q' & O' & X)|N]; [|rewrite <- (O j J); apply K; exact N]. exfalso.
    apply (clash_disjoint pat v s q' q (q + j) C1 O' O X). lia.
Qed.

Definition p1 := chars "i128". Definition t1 := chars "i256".
Definition p2 := chars " 127". Definition t2 := chars " 255".
Definition p3 := chars "dereferenceable(16)". Definition t3 := chars "dereferenceable(32)".
Ltac clashes := apply clash_ok; vm_compute; reflexivity.
Ltac alones := apply alone_ok; vm_compute; reflexivity.
Lemma step pat to s : pat <> [] -> length to = length pat -> alone pat -> replaced pat to s (replace_from 0 pat to s).
Proof. intros. apply (replace_spec pat to) with (n := length s); auto. Qed.

Lemma widened_steps s : exists s1 s2,
  replaced p1 t1 s s1 /\ replaced p2 t2 s1 s2 /\ replaced p3 t3 s2 (widened s).
Proof.
  exists (replace s "i128" "i256"), (replace (replace s "i128" "i256") " 127" " 255"). unfold widened. cbv zeta.
  split; [|split]; apply step; try discriminate; try reflexivity; alones.
Qed.
Lemma covered_occurs v s s' p : (forall q, occurs v s q <-> occurs v s' q) -> (covered v s p <-> covered v s' p).
Proof. intros H. unfold covered. split; intros (q & O & X); exists q; (split; [apply H; exact O|exact X]). Qed.

Lemma widened_exact s :
  length (widened s) = length s /\
  (forall pat to q p, In (pat, to) widenings -> occurs pat s q -> q <= p < q + length pat ->
     nth_error (widened s) p = nth_error to (p - q)) /\
  (forall p, (forall pat to, In (pat, to) widenings -> ~ covered pat s p) -> nth_error (widened s) p = nth_error s p).
Proof.
  destruct (widened_steps s) as (s1 & s2 & R1 & R2 & R3).
  assert (K12 : forall q, occurs p2 s1 q <-> occurs p2 s q) by (apply (occurs_kept p1 t1); [exact R1|reflexivity|clashes|clashes]).
  assert (K13 : forall q, occurs p3 s1 q <-> occurs p3 s q) by (apply (occurs_kept p1 t1); [exact R1|reflexivity|clashes|clashes]).
  assert (K23 : forall q, occurs p3 s2 q <-> occurs p3 s q) by (intros q; rewrite <- K13; revert q; apply (occurs_kept p2 t2); [exact R2|reflexivity|clashes|clashes]).
  assert (C12 : clash p1 p2) by clashes. assert (C13 : clash p1 p3) by clashes. assert (C23 : clash p2 p3) by clashes.
  destruct R1 as (L1 & R1 & U1), R2 as (L2 & R2 & U2), R3 as (L3 & R3 & U3).
  split; [congruence|]. split.
  - intros pat to q p I O X. cbn [widenings map In] in I. destruct I as [I|[I|[I|[]]]]; inversion I; subst pat to; clear I.
    + rewrite U3. 2:{ intros (q' & O' & X'). apply K23 in O'. apply (clash_disjoint p1 p3 s q q' p C13 O O' X X'). }
      rewrite U2. 2:{ intros (q' & O' & X'). apply K12 in O'. apply (clash_disjoint p1 p2 s q q' p C12 O O' X X'). }
      apply (R1 q p O X).
    + rewrite U3. 2:{ intros (q' & O' & X'). apply K23 in O'. apply (clash_disjoint p2 p3 s q q' p C23 O O' X X'). }
      apply (R2 q p); [apply K12; exact O|exact X].
    + apply (R3 q p); [apply K23; exact O|exact X].
  - intros p N. rewrite U3, U2, U1; [reflexivity| | |].
    + apply (N p1 t1). cbn. auto.
    + rewrite (covered_occurs p2 s1 s p K12). apply (N p2 t2). cbn. auto.
    + rewrite (covered_occurs p3 s2 s p K23). apply (N p3 t3). cbn. auto.
Qed.
(** nothing of the old widths is left, and nothing else is made *)
Lemma none_left s pat to q : In (pat, to) widenings -> ~ occurs pat (widened s) q.
Proof.
  intros I O. destruct (widened_exact s) as (_ & R & U).
  assert (NE : 0 < length pat) by (cbn [widenings map In] in I; destruct I as [I|[I|[I|[]]]]; inversion I; cbn; lia).
  assert (CL : forall pat' to', In (pat', to') widenings -> clash to' pat /\ length to' = length pat').
  { intros pat' to' I'. cbn [widenings map In] in I, I'. split.
    - destruct I as [I|[I|[I|[]]]]; destruct I' as [I'|[I'|[I'|[]]]]; inversion I; inversion I'; clashes.
    - destruct I' as [I'|[I'|[I'|[]]]]; inversion I'; reflexivity. }
  assert (FREE : forall x, q <= x < q + length pat -> forall pat' to', In (pat', to') widenings -> ~ covered pat' s x).
  { intros x X pat' to' I' (q' & O' & X'). destruct (CL _ _ I') as [C LT]. destruct (C q' q x) as (y & Y & Y' & D); [lia|exact X|]. apply D.
    rewrite <- (occurs_at pat (widened s) q y O Y'). symmetry. apply (R pat' to' q' y I' O'). lia. }
  assert (O0 : occurs pat s q).
  { intros j J. rewrite <- (O j J). symmetry. apply U. apply FREE. lia. }
  apply (FREE q ltac:(lia) pat to I). exists q. split; [exact O0|lia].
Qed.
Lemma same_list (a b : list ascii) : (forall p, nth_error a p = nth_error b p) -> a = b.
Proof.
  revert b. induction a as [|x a IH]; intros [|y b] H; [reflexivity|specialize (H 0); discriminate|specialize (H 0); discriminate|].
  pose proof (H 0) as H0. cbn in H0. inversion H0. f_equal. apply IH. intros p. apply (H (S p)).
Qed.
Lemma widened_again s : (forall pat to q, In (pat, to) widenings -> ~ occurs pat s q) -> widened s = s.
Proof.
  intros N. destruct (widened_exact s) as (_ & _ & U). apply same_list. intros p. apply U. intros pat to I (q & O & _). exact (N pat to q I O).
Qed.
Lemma widened_left s :
  (forall pat to q, In (pat, to) widenings -> ~ occurs pat (widened s) q) /\
  widened (widened s) = widened s /\
  ((forall pat to q, In (pat, to) widenings -> ~ occurs pat s q) -> widened s = s).
Proof.
  split; [intros pat to q I; apply (none_left s pat to q I)|]. split; [|apply widened_again].
  apply widened_again. intros pat to q I. apply (none_left s pat to q I).
Qed.
(** also inside of longer numbers and names *)
Lemma widened_digits : widened (chars "and i32 %b, 1270") = chars "and i32 %b, 2550" /\ widened (chars "%hi1280") = chars "%hi2560".
Proof. split; vm_compute; reflexivity. Qed.

(** * When operations panic: tools *)

From Coq Require Import ZArith List String Bool Lia ZifyBool.
Import ListNotations. Local Notation length := List.length.
From Verif Require Import M_Prim M_Words M_Intr M_Div M_Mul M_Ops M_UintApi M_IntApi M_Convert M_Float M_Parse M_Fmt M_Serde
  Spec Spec_Fold Spec_Shift Spec_Bits Spec_Serde Spec_Convert Spec_Parse Spec_Builds Spec_Api Spec_Panic
  P_Words P_AddSub P_Bits P_Ops P_IntDiv P_Uint P_Int P_Forms P_BitsApi P_Count P_Bytes P_Pow P_Pow2 P_Convert P_Float P_Round
  P_Parse P_Literal P_SerdeBytes P_Builds P_BuildsBase P_BuildsText.
Open Scope Z_scope.

Definition states (s : sig) (f : forall c, fn s) (P : cfg -> cond s) : Prop :=
  forall c, usize_ok c -> panics_when c s (f c) (P c).

Lemma when_panic c k m (P : Prop) : P -> panics_when c (Runs k) (Panic m) P.
Proof. intros H. left. split; [exact H|exists m; reflexivity]. Qed.
Lemma when_ret c k v (P : Prop) : ~ P -> panics_when c (Runs k) (Ret v) P.
Proof. intros H. right. split; [exact H|exists v; reflexivity]. Qed.
Lemma when_some c k (r : res (den k)) (P : Prop) : ~ P -> (exists v, r = Ret v) -> panics_when c (Runs k) r P.
Proof. intros H E. right. split; assumption. Qed.
Lemma when_panics c k (r : res (den k)) (P : Prop) : P -> panics r -> panics_when c (Runs k) r P.
Proof. intros H E. left. split; assumption. Qed.
Lemma when_iff c k r (P Q : Prop) : (P <-> Q) -> panics_when c (Runs k) r Q -> panics_when c (Runs k) r P.
Proof. intros H. cbn [panics_when]. rewrite H. exact (fun x => x). Qed.

Lemma gives_never c s : (match s with Takes k (Takes l (Gives _)) | Takes k (Gives l) => True | _ => False end) ->
  forall f P, panics_when c s f P.
Proof.
  destruct s as [|?|k [|?|l [| |]]]; try contradiction; intros _ f P; cbn [panics_when]; auto.
Qed.

Ltac pU n := let x := fresh "x" in let H := fresh in let Hn := fresh "H" n in
  intros x H; apply num_u in H; destruct H as (n & Hn & -> & _).
Ltac pI n := let x := fresh "x" in let H := fresh in let Hn := fresh "H" n in
  intros x H; apply num_i in H; destruct H as (n & Hn & -> & _).
Ltac pZ n := let H := fresh in let Hn := fresh "H" n in
  intros n H; destruct H as [_ Hn]; cbn [den] in *.
Ltac pbegin := let c := fresh "c" in intros c UO.
Ltac fam1 H := norm H; repeat match type of H with if ?b then _ else _ => destruct b eqn:? end; flat_all.
Ltac side := cbn [never]; unfold over_u, over_i, euclid_slip, MAXU, MINI, MAXI in *; rewrite ?uval_of_small, ?ival_of_small by first [assumption | split; assumption];
  unfold in_u, in_i in *; cbn [Z.sub Z.add Pos.sub Z.opp Z.pos_sub Pos.pred_double] in *; try lia.
Ltac pfin := repeat match goal with
  | |- panics_when _ (Runs _) (if ?b then _ else _) _ => destruct b eqn:?
  | |- panics_when _ (Runs _) (Ret _) _ => apply when_ret
  | |- panics_when _ (Runs _) (Panic _) _ => apply when_panic
  end; side.
Ltac pgo := match goal with |- panics_when _ _ ?l _ => use_eq l end; pfin.

(** ** Euclidean division *)

Lemma slip_iff a b q r : - 2 ^ 255 <= a < 2 ^ 255 -> a = q * b + r -> 0 <= r < Z.abs b ->
  ((b =? - 2 ^ 255) && (a <? 0) && negb (r =? 0) = true <-> b = - 2 ^ 255 /\ - 2 ^ 255 < a < 0).
Proof.
  intros Ha E R. split.
  - intros H. assert (b = - 2 ^ 255 /\ a < 0 /\ r <> 0) as (-> & L & N) by lia. split; [reflexivity|]. split; [|lia].
    destruct (Z.eq_dec a (- 2 ^ 255)) as [->|]; [|lia]. exfalso. apply N. clear N L H Ha.
    assert (q = 1) as -> by nia. lia.
  - intros [-> L]. assert (r <> 0); [|lia]. intros ->. assert (q <= 0 \/ 1 <= q) as [|] by lia; nia.
Qed.
Lemma ieuclid_when a b : - 2 ^ 255 <= a < 2 ^ 255 -> - 2 ^ 255 <= b < 2 ^ 255 ->
  (b = 0 /\ forall c, ieuclid_zero_ops c (iof c a) (iof c b)) \/
  (b <> 0 /\ exists q r, forall c, ieuclid_ops c (iof c a) (iof c b) q r).
Proof.
  intros Ha Hb. destruct (Z.eq_dec b 0) as [->|N]; [left|right]; (split; [auto|]); destruct (ieuclid_all a _ Ha Hb) as [F|F]; try assumption.
  - exfalso. destruct F as (q & r & F). destruct (F (Build_cfg false false false 64 false)) as (E & _).
    pose proof (proj1 (ieuclid_zero _ _ _ (wf_iof (Build_cfg false false false 64 false) a) (wf_iof (Build_cfg false false false 64 false) 0) ltac:(rewrite ival_of_small; lia))) as Z.
    apply Forall_cons_iff in Z. destruct Z as [[m Z] _]. congruence.
  - exfalso. specialize (F (Build_cfg false false false 64 false)). unfold ieuclid_zero_ops in F. destruct F as (E & _).
    destruct (euclid_exists a b N) as (q & r & E' & R).
    destruct (ieuclid_core (Build_cfg false false false 64 false) a b q r Ha Hb N E' R) as [X _]. congruence.
Qed.
Lemma idre_when a b : - 2 ^ 255 <= a < 2 ^ 255 -> - 2 ^ 255 <= b < 2 ^ 255 ->
  (b = 0 /\ forall c, idre_zero_ops c (iof c a) (iof c b)) \/
  (b <> 0 /\ exists q r bad, (in_i 256 q = negb ((a =? - 2 ^ 255) && (b =? -1))) /\
     (bad = true <-> b = - 2 ^ 255 /\ - 2 ^ 255 < a < 0) /\ forall c, idre_ops c (iof c a) (iof c b) q r bad).
Proof.
  intros Ha Hb. destruct (Z.eq_dec b 0) as [->|Hb0].
  - left. split; [reflexivity|]. intros c. apply (i_wdre_zero c); auto using wf_iof. rewrite ival_of_small; lia.
  - right. split; [assumption|]. destruct (euclid_exists a b Hb0) as (q & r & E & R).
    exists q, r, ((b =? - 2 ^ 255) && (a <? 0) && negb (r =? 0)).
    split; [apply (euclid_q_range a b q r); assumption|]. split; [apply (slip_iff a b q r); assumption|]. intros c.
    destruct (debug_assertions c && ((b =? - 2 ^ 255) && (a <? 0) && negb (r =? 0))) eqn:B.
    + assert (W := i_wdre_of c a b q r Ha Hb E R). rewrite B in W.
      pose proof (euclid_q_range a b q r Ha Hb Hb0 E R) as Q.
      assert (O : (a =? - 2 ^ 255) && (b =? -1) = false) by lia.
      rewrite O in Q. cbn [negb] in Q.
      unfold idre_ops, i_saturating_div_rem_euclid, i_overflowing_div_rem_euclid, i_checked_div_rem_euclid, i_div_rem_euclid.
      rewrite B, Q, W, i_div_overflows_of, i_eq_prim_of, i_cmp_zero_of, O by lia.
      replace (b =? 0) with false by lia. repeat split.
    + assert (F := idiv_rem_euclid_family c (iof c a) (iof c b) q r (wf_iof c a) (wf_iof c b)).
      rewrite !ival_of_small in F by assumption.
      unfold idre_ops. rewrite B. apply F; try assumption.
      intros D M N. change MINI with (- 2 ^ 255) in M. lia.
Qed.

(** ** Shifts and powers *)

Lemma when_shift c k s msg (v : Z -> den k) (P : Prop) :
  (P <-> debug_assertions c = true /\ ~ 0 <= s < 256) -> panics_when c (Runs k) (shift_out c s msg v) P.
Proof.
  intros H. apply (when_iff c k _ P _ H). unfold shift_out, in_u. change (2 ^ 8) with 256. pfin.
Qed.
Lemma next_pow2_range a k : least_exp a k -> 0 <= a < 2 ^ 256 -> ((k <? 256) = true <-> a <= 2 ^ 255).
Proof.
  intros (K0 & K1 & K2) Ha. split; intros H.
  - assert (2 ^ k <= 2 ^ 255) by (apply Z.pow_le_mono_r; lia). lia.
  - destruct (Z.ltb_spec k 256) as [|G]; [reflexivity|]. specialize (K2 255 ltac:(lia)). lia.
Qed.

(** ** Texts *)

Lemma accepted_u c s : panics_when c (Runs U) (u_const_from_str_prefixed c s) (~ accepted false 0 MAXU s).
Proof.
  destruct (u_literal c s) as [(pre & r & text & ds & I & E & Nt & N & R & NC & EQ)|(P & X)].
  - apply when_some; [|eexists; exact EQ]. intros H. apply H. exists pre, r, text, ds.
    rewrite sign_false_fst. cbn [signed_by]. repeat (split; [assumption|]). split.
    + pose proof (value_nonneg r ds _ ltac:(pose proof (prefix_radix _ _ I); lia) N). unfold MAXU. lia.
    + intros p d q HD. specialize (NC p d q HD). rewrite acc_zero in NC. exact NC.
  - apply when_panics; [|exact P]. intros (pre & r & text & ds & I & E & Nt & N & R & NC).
    rewrite sign_false_fst in R. cbn [signed_by] in R. unfold MAXU in R. apply (X pre r text ds I E Nt N ltac:(lia)).
    intros p d q HD. rewrite acc_zero. apply (NC p d q HD).
Qed.
Lemma accepted_i c s : panics_when c (Runs I) (i_const_from_str_prefixed c s) (~ accepted true MINI MAXI s).
Proof.
  destruct (i_literal c s) as [(pre & r & text & ds & I & E & Nt & N & R & NC & EQ)|(P & X)].
  - apply when_some; [|eexists; exact EQ]. intros H. apply H. exists pre, r, text, ds.
    repeat (split; [assumption|]). split.
    + unfold MINI, MAXI. lia.
    + intros p d q HD. specialize (NC p d q HD). rewrite acc_zero in NC. exact NC.
  - apply when_panics; [|exact P]. intros (pre & r & text & ds & I & E & Nt & N & R & NC).
    unfold MINI, MAXI in R. apply (X pre r text ds I E Nt N ltac:(lia)).
    intros p d q HD. rewrite acc_zero. apply (NC p d q HD).
Qed.
Lemma visit_str_ret {A} (p : list Z -> res (result A)) v : (exists o, p v = Ret o) -> exists o, format_visit_str p v = Ret o.
Proof. intros [o E]. unfold format_visit_str. rewrite E. cbn [bind]. destruct o; eexists; reflexivity. Qed.
Lemma visit_bytes_ret {A} (p : list Z -> res (result A)) v : (exists o, p v = Ret o) -> exists o, format_visit_bytes p v = Ret o.
Proof.
  intros H. unfold format_visit_bytes. destruct (utf8_valid v); [apply visit_str_ret; exact H|eexists; reflexivity].
Qed.
Lemma prefixed_u_ret c s : exists o, from_str_prefixed (u_helper c) s = Ret o.
Proof. eexists. apply (from_str_prefixed_fun _ _ _ _ (u_helper_ok c)). Qed.
Lemma prefixed_i_ret c s : exists o, from_str_prefixed (i_helper c) s = Ret o.
Proof. eexists. apply (from_str_prefixed_fun _ _ _ _ (i_helper_ok c)). Qed.
Lemma text_ret c f : usize_ok c -> same_text f -> exists o, f c = Ret o.
Proof. intros U H. destruct (H c c U U) as (o & E & _). exists o. exact E. Qed.
Lemma f64_u_ret c x : exists o, visit_f64 u_cast c x = Ret o.
Proof.
  unfold visit_f64. cbv zeta. pose proof (f_as_i64_range x). rewrite !visit_u by lia.
  destruct (negb _); [eexists; reflexivity|]. destruct (negb _); eexists; reflexivity.
Qed.
Lemma f64_i_ret c x : exists o, visit_f64 i_cast c x = Ret o.
Proof.
  unfold visit_f64. cbv zeta. pose proof (f_as_i64_range x). rewrite !visit_i by lia.
  destruct (negb _); [eexists; reflexivity|]. destruct (negb _); eexists; reflexivity.
Qed.
Lemma bytes_ret c o v : bytes_ok v -> (exists r, u_visit_bytes c o v = Ret r) /\ (exists r, i_visit_bytes c o v = Ret r).
Proof. intros H. destruct (bytes_decoding c o v H) as [A B]. split; eexists; [exact A|exact B]. Qed.
Lemma compressed_ret c o v : usize_ok c -> bytes_ok v ->
  (exists r, u_compressed_visit_bytes c o v = Ret r) /\ (exists r, i_compressed_visit_bytes c o v = Ret r).
Proof.
  intros U H. destruct (compressed_decoding c o v U H) as [A B].
  destruct (Z.le_gt_cases (Z.of_nat (length v)) 32) as [L|L].
  - destruct (A L) as [X Y]. split; eexists; [exact X|exact Y].
  - destruct (B L) as [X Y]. split; eexists; [exact X|exact Y].
Qed.
Lemma seq_ret {A} (f : list Z -> A) s : exists r, bytes_visit_seq f s = Ret r.
Proof.
  rewrite bytes_seq_natural. destruct (bytes_seq_pre s) as [(l & _ & _ & ->)|(e & ->)]; eexists; reflexivity.
Qed.
Lemma compressed_seq_ret {A} c o ext (f : list Z -> A) s : usize_ok c -> exists r, compressed_visit_seq c o ext f s = Ret r.
Proof.
  intros U. 
  assert (D : (exists l, yields s l /\ hint_is s (fun n => n <=? 32) = true /\ (length l <= 32)%nat) \/
              ~ (exists l, yields s l /\ hint_is s (fun n => n <=? 32) = true /\ (length l <= 32)%nat)).
  { destruct (yields_dec (elements s)) as [(a & EL)|(a & e & r & EL)].
    - destruct (hint_is s (fun n => n <=? 32)) eqn:HH; [|right; intros (l & _ & X & _); discriminate X].
      destruct (le_dec (length a) 32) as [L|L]; [left; exists a; auto|].
      right. intros (l & Y & _ & L'). unfold yields in Y. rewrite EL in Y. apply map_DOk_inj in Y. congruence.
    - right. intros (l & Y & _). unfold yields in Y. rewrite EL in Y. exact (no_yield _ _ _ _ Y). }
  destruct D as [(l & Y & HH & L)|N].
  - rewrite (proj1 (compressed_seq_gen c o ext f s) l Y HH L). destruct (expand_of c o ext f l U L) as (bs & _ & X). eexists. exact X.
  - destruct (proj2 (compressed_seq_gen c o ext f s) N) as [e1 E1]. eexists. exact E1.
Qed.

(** ** Iterators *)

Lemma legal_list_u c l : legal c (List U) l -> Forall wf_u l.
Proof.
  unfold legal. cbn [same]. intros H.
  assert (G : forall a b, Forall2 (fun x y => wf_u x /\ wf_u y /\ uval c x = uval c y) a b -> Forall wf_u a).
  { induction 1 as [|x y a b (X & _)]; constructor; assumption. }
  exact (G _ _ H).
Qed.
Lemma legal_list_i c l : legal c (List I) l -> Forall wf_i l.
Proof.
  unfold legal. cbn [same]. intros H.
  assert (G : forall a b, Forall2 (fun x y => wf_i x /\ wf_i y /\ ival c x = ival c y) a b -> Forall wf_i a).
  { induction 1 as [|x y a b (X & _)]; constructor; assumption. }
  exact (G _ _ H).
Qed.
Lemma all_or_one (p : nat -> bool) (m : nat) : (forall n, (m <= n)%nat -> p n = p m) ->
  (forall n, p n = true) \/ exists n, p n = false.
Proof.
  intros H. assert (D : (forall n, (n <= m)%nat -> p n = true) \/ exists n, p n = false).
  { clear H. induction m as [|m IH].
    - destruct (p 0%nat) eqn:E; [left|right; eauto]. intros n L. assert (n = 0%nat) by lia. congruence.
    - destruct IH as [IH|IH]; [|right; exact IH]. destruct (p (S m)) eqn:E; [left|right; eauto].
      intros n L. destruct (PeanoNat.Nat.eq_dec n (S m)) as [->|]; [exact E|]. apply IH. lia. }
  destruct D as [D|D]; [left|right; exact D]. intros n. destruct (le_gt_dec n m) as [L|L]; [apply D, L|].
  rewrite H by lia. apply D. lia.
Qed.
Lemma when_fold c k (r v : res (den k)) (rng : Z -> bool) (spec : list Z -> Z) vs msg x :
  (debug_assertions c = false -> r = Ret x) ->
  (debug_assertions c = true -> (forall n, rng (spec (firstn n vs)) = true) -> r = Ret x) ->
  (debug_assertions c = true -> (exists n, rng (spec (firstn n vs)) = false) -> r = Panic msg) ->
  panics_when c (Runs k) r (exists n : nat, debug_assertions c = true /\ rng (spec (firstn n vs)) = false).
Proof.
  intros R T F. destruct (debug_assertions c) eqn:D.
  - destruct (all_or_one (fun n => rng (spec (firstn n vs))) (length vs)) as [H|[n H]].
    + intros n L. rewrite !firstn_all2 by lia. reflexivity.
    + rewrite (T eq_refl H). apply when_ret. intros (n & _ & X). rewrite H in X. discriminate.
    + rewrite (F eq_refl) by (exists n; exact H). apply when_panic. exists n. auto.
  - rewrite (R eq_refl). apply when_ret. intros (n & X & _). discriminate.
Qed.

(** * Operator forms: proofs of C68 *)

From Coq Require Import ZArith List String Bool Lia ZifyBool.
Import ListNotations.
From Verif Require Import M_Prim M_Words M_Llvm M_Intr M_Div M_Mul M_Ops M_UintApi M_IntApi M_Convert M_Forms
  Spec Spec_Shift Spec_Fold Spec_Convert Spec_Forms
  P_Words P_Llvm P_AddSub P_Bits P_Mul P_Div P_DivKnuth P_IntDiv P_Ops P_Forms P_Pow2 P_Convert.
Open Scope Z_scope.

(** ** The forms lead to the borrowed form *)
Definition as_big {A} (new : Z -> A) (a : arg (operand A)) : A :=
  match arg_val a with Big x => x | Prim z => new z end.
Lemma lang_binop t : lang_trait (binop_tok t) = t. Proof. destruct t; reflexivity. Qed.
Lemma op_eval_is {A} (new : Z -> A) base t l r : is_big l || is_big r = true ->
  op_eval new base form_fuel t l r = base t (as_big new l) (as_big new r).
Proof.
  intros H. destruct l as [[a|a]|[a|a]], r as [[b|b]|[b|b]]; try discriminate H;
    cbn -[lang_trait binop_tok]; rewrite ?lang_binop; reflexivity.
Qed.
Lemma lang_assign t : lang_trait (assign_tok t) = t. Proof. destruct t; reflexivity. Qed.
Lemma lang_y t : lang_trait (assign_y t) = t. Proof. destruct t; reflexivity. Qed.
Lemma assign_eval_is {A} (new : Z -> A) base t a r :
  assign_eval new base form_fuel t a r = base t a (as_big new r).
Proof.
  destruct r as [[b|b]|[b|b]]; cbn -[lang_trait assign_tok]; rewrite ?lang_assign; reflexivity.
Qed.

Lemma u_as_big c a : uopd_ok a -> as_big (u_new c) a = uof c (uopd c a) /\ 0 <= uopd c a < 2 ^ 256.
Proof.
  unfold uopd_ok, as_big, uopd. destruct (arg_val a) as [x|z]; intros H.
  - split; [symmetry; apply uof_uval; assumption|apply uval_range; assumption].
  - split; [apply u_new_of; assumption|lia].
Qed.
Lemma i_as_big c a : iopd_ok a -> as_big (i_new c) a = iof c (iopd c a) /\ - 2 ^ 255 <= iopd c a < 2 ^ 255.
Proof.
  unfold iopd_ok, as_big, iopd. destruct (arg_val a) as [x|z]; intros H.
  - split; [symmetry; apply iof_ival; assumption|apply ival_range; assumption].
  - split; [apply i_new_of; assumption|lia].
Qed.

Lemma u_base_of c t x y : 0 <= x < 2 ^ 256 -> 0 <= y < 2 ^ 256 ->
  u_base c t (uof c x) (uof c y) = outcome c (in_u 256) (uof c) t x y.
Proof.
  intros X Y. unfold outcome. destruct t; cbn [u_base exact checked_in_debug complaint];
    rewrite ?andb_true_r, ?andb_false_r; cbn [andb].
  - apply u_op_add_of; assumption.
  - apply u_op_mul_of; assumption.
  - apply u_op_sub_of; assumption.
  - rewrite u_op_div_of by assumption. destruct (Z.eqb_spec y 0); [reflexivity|].
    rewrite Z.quot_div_nonneg by lia. reflexivity.
  - rewrite u_op_rem_of by assumption. destruct (Z.eqb_spec y 0); [reflexivity|].
    rewrite Z.rem_mod_nonneg by lia. reflexivity.
  - rewrite u_op_and_of. reflexivity.
  - rewrite u_op_or_of. reflexivity.
  - rewrite u_op_xor_of. reflexivity.
Qed.
Lemma i_base_of c t x y : - 2 ^ 255 <= x < 2 ^ 255 -> - 2 ^ 255 <= y < 2 ^ 255 ->
  i_base c t (iof c x) (iof c y) = outcome c (in_i 256) (iof c) t x y.
Proof.
  intros X Y. unfold outcome. destruct t; cbn [i_base exact checked_in_debug complaint];
    rewrite ?andb_true_r, ?andb_false_r; cbn [andb].
  - apply i_op_add_of; assumption.
  - apply i_op_mul_of; assumption.
  - apply i_op_sub_of; assumption.
  - rewrite i_op_div_of by assumption. destruct (Z.eqb_spec y 0); [reflexivity|].
    reflexivity.
  - rewrite i_op_rem_of by assumption. destruct (Z.eqb_spec y 0); [reflexivity|].
    reflexivity.
  - rewrite i_op_and_of. reflexivity.
  - rewrite i_op_or_of. reflexivity.
  - rewrite i_op_xor_of. reflexivity.
Qed.

Lemma u_forms c t l r : uopd_ok l -> uopd_ok r -> is_big l || is_big r = true ->
  u_form c t l r = outcome c (in_u 256) (uof c) t (uopd c l) (uopd c r).
Proof.
  intros L R B. unfold u_form. rewrite op_eval_is by assumption.
  destruct (u_as_big c l L) as [-> ?], (u_as_big c r R) as [-> ?]. apply u_base_of; assumption.
Qed.
Lemma i_forms c t l r : iopd_ok l -> iopd_ok r -> is_big l || is_big r = true ->
  i_form c t l r = outcome c (in_i 256) (iof c) t (iopd c l) (iopd c r).
Proof.
  intros L R B. unfold i_form. rewrite op_eval_is by assumption.
  destruct (i_as_big c l L) as [-> ?], (i_as_big c r R) as [-> ?]. apply i_base_of; assumption.
Qed.

Lemma u_assign_base_of c t x y : 0 <= x < 2 ^ 256 -> 0 <= y < 2 ^ 256 ->
  u_assign_base c t (uof c x) (uof c y) = assign_outcome c (in_u 256) (uof c) t x y.
Proof.
  intros X Y. unfold u_assign_base. rewrite lang_y. unfold u_form. rewrite op_eval_is by reflexivity.
  cbv zeta. unfold as_big. cbn [arg_val].
  pose proof (u_base_of c t x y X Y) as B.
  destruct t; unfold assign_outcome; cbn [exact].
  - rewrite <- B. exact (u_op_add_assign_of c x y).
  - rewrite <- B. exact (u_op_mul_assign_of c x y).
  - rewrite <- B. exact (u_op_sub_assign_of c x y).
  - transitivity (u_op_div_assign c (uof c x) (uof c y)); [reflexivity|]. rewrite u_op_div_assign_of by assumption.
    unfold outcome. cbn [exact checked_in_debug complaint]. rewrite ?andb_false_r. destruct (Z.eqb_spec y 0); [reflexivity|].
    rewrite Z.quot_div_nonneg by lia. reflexivity.
  - transitivity (u_op_rem_assign c (uof c x) (uof c y)); [reflexivity|]. rewrite u_op_rem_assign_of by assumption.
    unfold outcome. cbn [exact checked_in_debug complaint]. rewrite ?andb_false_r. destruct (Z.eqb_spec y 0); [reflexivity|].
    rewrite Z.rem_mod_nonneg by lia. reflexivity.
  - exact B.
  - exact B.
  - exact B.
Qed.
Lemma i_assign_base_of c t x y : - 2 ^ 255 <= x < 2 ^ 255 -> - 2 ^ 255 <= y < 2 ^ 255 ->
  i_assign_base c t (iof c x) (iof c y) = assign_outcome c (in_i 256) (iof c) t x y.
Proof.
  intros X Y. unfold i_assign_base. rewrite lang_y. unfold i_form. rewrite op_eval_is by reflexivity.
  cbv zeta. unfold as_big. cbn [arg_val].
  pose proof (i_base_of c t x y X Y) as B.
  destruct t; unfold assign_outcome; cbn [exact].
  - rewrite <- B. exact (i_op_add_assign_of c x y).
  - rewrite <- B. exact (i_op_mul_assign_of c x y).
  - rewrite <- B. exact (i_op_sub_assign_of c x y).
  - transitivity (i_op_div_assign c (iof c x) (iof c y)); [reflexivity|]. rewrite i_op_div_assign_of by assumption.
    unfold outcome. cbn [exact checked_in_debug complaint]. rewrite ?andb_false_r. destruct (Z.eqb_spec y 0); [reflexivity|].
    reflexivity.
  - transitivity (i_op_rem_assign c (iof c x) (iof c y)); [reflexivity|]. rewrite i_op_rem_assign_of by assumption.
    unfold outcome. cbn [exact checked_in_debug complaint]. rewrite ?andb_false_r. destruct (Z.eqb_spec y 0); [reflexivity|].
    reflexivity.
  - exact B.
  - exact B.
  - exact B.
Qed.
Lemma u_assign_forms c t a r : wf_u a -> uopd_ok r ->
  u_assign_form c t a r = assign_outcome c (in_u 256) (uof c) t (uval c a) (uopd c r).
Proof.
  intros L R. unfold u_assign_form. rewrite assign_eval_is. destruct (u_as_big c r R) as [-> ?].
  on_u c a. apply u_assign_base_of; assumption.
Qed.
Lemma i_assign_forms c t a r : wf_i a -> iopd_ok r ->
  i_assign_form c t a r = assign_outcome c (in_i 256) (iof c) t (ival c a) (iopd c r).
Proof.
  intros L R. unfold i_assign_form. rewrite assign_eval_is. destruct (i_as_big c r R) as [-> ?].
  on_i c a. apply i_assign_base_of; assumption.
Qed.

(** ** Shifts *)
Definition amt_of (b : samt) : amount := if is_u32 b then Amt_u32 (u32_val b) else to_amount b.
Lemma lang_sh t : lang_shift (shift_tok t) = t. Proof. destruct t; reflexivity. Qed.
Lemma lang_sha t : lang_shift (shift_assign_tok t) = t. Proof. destruct t; reflexivity. Qed.
Lemma lang_shy t : lang_shift (shift_assign_y t) = t. Proof. destruct t; reflexivity. Qed.
Lemma known c b : samt_ok c b -> negb (is_u32 b) && negb (has_shift b) = false.
Proof.
  destruct b as [t v|x|x]; intros H; [|reflexivity..]. destruct H as [H _].
  cbn in H. repeat (destruct H as [<-|H]; [reflexivity|]). contradiction.
Qed.
Lemma u32_to c v : 0 <= v < 2 ^ 32 -> amount_to_u32 c (Amt_u32 v) = v.
Proof. intros. unfold amount_to_u32. destruct (debug_assertions c); reflexivity. Qed.
Lemma amt_of_ok c b : usize_ok c -> samt_ok c b -> amt_ok (amt_of b) /\ amt_val c (amt_of b) = samt_val c b.
Proof.
  intros U. unfold amt_of. destruct b as [t v|x|x]; intros H; [|split; [exact H|reflexivity]..].
  destruct H as [I T]. pose proof (t_in_bounds c t v U I T) as B.
  destruct (is_u32 (Sa_int t v)) eqn:E; [|split; [exact B|reflexivity]].
  destruct t as [n|n| |]; try discriminate E. assert (n = 32) as -> by (cbn in E; destruct n as [|p|p]; try discriminate; do 6 (destruct p; try discriminate); reflexivity).
  split; [|reflexivity]. cbn in T |- *. unfold in_u in T. lia.
Qed.
Section shift.
Context {A : Type} (c : cfg) (base : sht -> A -> Z -> res A).
Definition final (b : samt) : Z := if is_u32 b then u32_val b else amount_to_u32 c (to_amount b).
Lemma s_base n t a b : is_u32 b = true ->
  shift_eval c base (S n) t (Ref a) (Own b) = base t a (u32_val b).
Proof. intros E. cbn [shift_eval arg_val]. rewrite E. reflexivity. Qed.
Lemma s_conv n t a b : samt_ok c b ->
  shift_eval c base (S (S n)) t (Ref a) (Own b) = base t a (final b).
Proof.
  intros H. unfold final. destruct (is_u32 b) eqn:E; [apply s_base; exact E|].
  pose proof (known c b H) as K. rewrite E in K. cbn [negb andb] in K.
  remember (S n) as m. cbn [shift_eval arg_val]. rewrite E. cbn [negb andb]. rewrite K, lang_sh. subst m.
  rewrite s_base by reflexivity. reflexivity.
Qed.
Lemma s_row n t (l : arg A) r : samt_ok c (arg_val r) -> is_ref l && negb (is_ref r) = false ->
  shift_eval c base (S n) t l r = shift_eval c base n t (Ref (arg_val l)) (Own (arg_val r)).
Proof.
  intros H D. pose proof (known c _ H) as K. cbn [shift_eval]. rewrite K.
  destruct l as [a|a], r as [b|b]; cbn [arg_val] in *; try discriminate D;
    destruct (is_u32 b); cbn; rewrite lang_sh; reflexivity.
Qed.
Lemma shift_eval_is t (l : arg A) r : samt_ok c (arg_val r) ->
  shift_eval c base form_fuel t l r = base t (arg_val l) (final (arg_val r)).
Proof.
  intros H. unfold form_fuel. destruct (is_ref l && negb (is_ref r)) eqn:D.
  - destruct l, r; try discriminate D. apply s_conv. exact H.
  - rewrite s_row by assumption. apply s_conv. exact H.
Qed.
Lemma sa_base n t a b : is_u32 b = true ->
  shift_assign_eval c base (S n) t a (Own b) = base t a (u32_val b).
Proof. intros E. cbn [shift_assign_eval arg_val]. rewrite E. reflexivity. Qed.
Lemma sa_conv n t a b : samt_ok c b ->
  shift_assign_eval c base (S (S n)) t a (Own b) = base t a (final b).
Proof.
  intros H. unfold final. destruct (is_u32 b) eqn:E; [apply sa_base; exact E|].
  pose proof (known c b H) as K. rewrite E in K. cbn [negb andb] in K.
  remember (S n) as m. cbn [shift_assign_eval arg_val]. rewrite E. cbn [negb andb]. rewrite K, lang_sha. subst m.
  rewrite sa_base by reflexivity. reflexivity.
Qed.
Lemma shift_assign_eval_is t a r : samt_ok c (arg_val r) ->
  shift_assign_eval c base form_fuel t a r = base t a (final (arg_val r)).
Proof.
  intros H. unfold form_fuel. destruct r as [b|b]; [apply sa_conv; exact H|].
  remember 7%nat as m. cbn [shift_assign_eval]. rewrite (known c _ H), lang_sha. subst m. apply sa_conv. exact H.
Qed.
End shift.

Lemma final_to c b : usize_ok c -> samt_ok c b -> final c b = amount_to_u32 c (amt_of b).
Proof.
  intros U H. destruct (amt_of_ok c b U H) as [O _]. revert O. unfold final, amt_of.
  destruct (is_u32 b); [|reflexivity]. intros O. symmetry. apply u32_to. exact O.
Qed.
Lemma out_eq {A} c (mk : Z -> A) t x s :
  shift_out c s (shift_complaint t) (fun s => mk (shifted t x s)) = shift_outcome c mk t x s.
Proof. reflexivity. Qed.
Lemma u_sbase_of c t x b : usize_ok c -> samt_ok c b -> 0 <= x < 2 ^ 256 ->
  u_shift_base c t (uof c x) (final c b) = shift_outcome c (uof c) t x (samt_val c b).
Proof.
  intros U B X. rewrite final_to by assumption. destruct (amt_of_ok c b U B) as [O <-]. rewrite <- out_eq.
  destruct t; [apply u_shl_amt_of|apply u_shr_amt_of]; assumption.
Qed.
Lemma i_sbase_of c t x b : usize_ok c -> samt_ok c b -> - 2 ^ 255 <= x < 2 ^ 255 ->
  i_shift_base c t (iof c x) (final c b) = shift_outcome c (iof c) t x (samt_val c b).
Proof.
  intros U B X. rewrite final_to by assumption. destruct (amt_of_ok c b U B) as [O <-]. rewrite <- out_eq.
  destruct t; [apply i_shl_amt_of|apply i_shr_amt_of]; assumption.
Qed.
Lemma u_shift_forms c t l r : usize_ok c -> wf_u (arg_val l) -> samt_ok c (arg_val r) ->
  u_shift_form c t l r = shift_outcome c (uof c) t (uval c (arg_val l)) (samt_val c (arg_val r)).
Proof.
  intros U L R. unfold u_shift_form. rewrite shift_eval_is by assumption.
  revert L. generalize (arg_val l). intros a L. on_u c a. apply u_sbase_of; assumption.
Qed.
Lemma i_shift_forms c t l r : usize_ok c -> wf_i (arg_val l) -> samt_ok c (arg_val r) ->
  i_shift_form c t l r = shift_outcome c (iof c) t (ival c (arg_val l)) (samt_val c (arg_val r)).
Proof.
  intros U L R. unfold i_shift_form. rewrite shift_eval_is by assumption.
  revert L. generalize (arg_val l). intros a L. on_i c a. apply i_sbase_of; assumption.
Qed.
Lemma u_sassign_eq c t a s : u_shift_assign_base c t a s = u_shift_base c t a s.
Proof.
  unfold u_shift_assign_base. rewrite lang_shy. unfold u_shift_form, form_fuel. rewrite s_base by reflexivity.
  cbn [u32_val]. cbv zeta. destruct t; cbn [u_shift_base]; unfold u_op_shl, u_op_shr;
    destruct (debug_assertions c); cbn [andb]; rewrite ?shl2_eq, ?shr2_eq; reflexivity.
Qed.
Lemma i_sassign_eq c t a s : i_shift_assign_base c t a s = i_shift_base c t a s.
Proof.
  unfold i_shift_assign_base. rewrite lang_shy. unfold i_shift_form, form_fuel. rewrite s_base by reflexivity.
  cbn [u32_val]. cbv zeta. destruct t; cbn [i_shift_base]; unfold i_op_shl, i_op_shr;
    destruct (debug_assertions c); cbn [andb]; rewrite ?ishl2_eq, ?sar2_eq; reflexivity.
Qed.
Lemma u_shift_assign_forms c t a r : usize_ok c -> wf_u a -> samt_ok c (arg_val r) ->
  u_shift_assign_form c t a r = shift_outcome c (uof c) t (uval c a) (samt_val c (arg_val r)).
Proof.
  intros U L R. unfold u_shift_assign_form. rewrite shift_assign_eval_is, u_sassign_eq by assumption.
  on_u c a. apply u_sbase_of; assumption.
Qed.
Lemma i_shift_assign_forms c t a r : usize_ok c -> wf_i a -> samt_ok c (arg_val r) ->
  i_shift_assign_form c t a r = shift_outcome c (iof c) t (ival c a) (samt_val c (arg_val r)).
Proof.
  intros U L R. unfold i_shift_assign_form. rewrite shift_assign_eval_is, i_sassign_eq by assumption.
  on_i c a. apply i_sbase_of; assumption.
Qed.

(** ** Not, Neg, sums and products *)
Lemma unary_forms c x y : wf_u (arg_val x) -> wf_i (arg_val y) ->
  u_not_form x = uof c (MAXU - uval c (arg_val x)) /\
  i_not_form y = iof c (- ival c (arg_val y) - 1) /\
  i_neg_form c y = (if debug_assertions c && (ival c (arg_val y) =? MINI)
                    then Panic "attempt to negate with overflow" else Ret (iof c (- ival c (arg_val y)))).
Proof.
  intros X Y. repeat split.
  - replace (u_not_form x) with (u_op_not (arg_val x)) by (destruct x; reflexivity).
    revert X. generalize (arg_val x). intros a X. on_u c a. rewrite u_op_not_of.
    apply uof_cong. unfold MAXU. replace (2 ^ 256 - 1 - na) with (- na - 1 + 1 * 2 ^ 256) by lia. symmetry. apply Z.mod_add. lia.
  - replace (i_not_form y) with (i_op_not (arg_val y)) by (destruct y; reflexivity).
    revert Y. generalize (arg_val y). intros a Y. on_i c a. apply i_op_not_of.
  - replace (i_neg_form c y) with (i_op_neg c (arg_val y)) by (destruct y; reflexivity).
    revert Y. generalize (arg_val y). intros a Y. on_i c a. rewrite i_op_neg_dbg by assumption. unfold dbg.
    replace (negb (in_i 256 (- na))) with (na =? MINI) by (rewrite in_i_256; unfold MINI; lia). reflexivity.
Qed.
Lemma fold_form_is {A} (new : Z -> A) base t acc l :
  fold_form (op_eval new base form_fuel t) acc l = fold_res (base t) acc (map arg_val l).
Proof.
  revert acc. induction l as [|x l IH]; intros acc; [reflexivity|]. cbn [fold_form fold_res map].
  rewrite op_eval_is by reflexivity. unfold as_big at 1. cbn [arg_val].
  replace (as_big new match x with Own v => Own (Big v) | Ref v => Ref (Big v) end) with (arg_val x) by (destruct x; reflexivity).
  destruct (base t acc (arg_val x)); cbn [bind]; [apply IH|reflexivity..].
Qed.
Lemma iter_forms c l m :
  u_sum_form c l = u_sum c (map arg_val l) /\ u_product_form c l = u_product c (map arg_val l) /\
  i_sum_form c m = i_sum c (map arg_val m) /\ i_product_form c m = i_product c (map arg_val m).
Proof.
  unfold u_sum_form, u_product_form, i_sum_form, i_product_form, u_form, i_form.
  repeat split; rewrite fold_form_is; reflexivity.
Qed.
Lemma iter_outcomes c l m : Forall wf_u (map arg_val l) -> Forall wf_i (map arg_val m) ->
  let us := map (fun x => uval c (arg_val x)) l in
  let is := map (fun x => ival c (arg_val x)) m in
  folded c (in_u 256) (uof c) sumz "attempt to add with overflow" us (u_sum_form c l) /\
  folded c (in_u 256) (uof c) prodz "attempt to multiply with overflow" us (u_product_form c l) /\
  folded c (in_i 256) (iof c) sumz "attempt to add with overflow" is (i_sum_form c m) /\
  folded c (in_i 256) (iof c) prodz "attempt to multiply with overflow" is (i_product_form c m).
Proof.
  intros L M. destruct (iter_forms c l m) as (-> & -> & -> & ->). cbv zeta.
  rewrite <- (map_map arg_val (uval c)), <- (map_map arg_val (ival c)).
  exact (conj (iter_u_sum c _ L) (conj (iter_u_product c _ L) (conj (iter_i_sum c _ M) (iter_i_product c _ M)))).
Qed.

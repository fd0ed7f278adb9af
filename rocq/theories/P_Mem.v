(** * Memory: what the functions of M_Mem write *)

From Coq Require Import ZArith String List Bool Lia.
From Verif Require Import M_Prim M_Words M_Llvm M_Intr M_Div M_Mul M_Ops M_UintApi M_IntApi M_Mem.
From Verif Require Import Spec Spec_Bits Spec_Shift Spec_Mem P_Words P_AddSub P_Bits P_Mul P_Div P_DivKnuth P_IntDiv P_Int P_Uint P_Intrinsics P_Forms P_Ops.
Import ListNotations.
Open Scope Z_scope.
Local Arguments firstn : simpl never.

(** ** Memory *)

Lemma put_length m p x : length (put m p x) = length m.
Proof. revert p; induction m as [|y m IH]; intros [|p]; cbn; auto. Qed.

Lemma put_get m p x : (p < length m)%nat -> nth_error (put m p x) p = Some (Some x).
Proof. revert p; induction m as [|y m IH]; intros [|p] H; cbn in *; try lia; auto. apply IH; lia. Qed.

Lemma put_other m p x q : q <> p -> nth_error (put m p x) q = nth_error m q.
Proof. revert p q; induction m as [|y m IH]; intros [|p] [|q] H; cbn in *; try congruence; auto. Qed.

Lemma put_same m p x : nth_error m p = Some (Some x) -> put m p x = m.
Proof. revert p; induction m as [|y m IH]; intros [|p] H; cbn in *; try congruence. f_equal. apply IH, H. Qed.

Lemma put_put m p x y : put (put m p x) p y = put m p y.
Proof. revert p; induction m as [|z m IH]; intros [|p]; cbn; try reflexivity. f_equal. apply IH. Qed.

Lemma put_comm m p q x y : p <> q -> put (put m p x) q y = put (put m q y) p x.
Proof. revert p q; induction m as [|z m IH]; intros [|p] [|q] H; cbn; try reflexivity; [congruence|]. f_equal. apply IH. congruence. Qed.

Lemma put_last (m : mem) (x : u256) : put (m ++ [None]) (length m) x = (m ++ [Some x] : mem).
Proof. induction m as [|z m IH]; cbn; [reflexivity|]. f_equal. exact IH. Qed.

Lemma put_app (m t : mem) p x : (p < length m)%nat -> put (m ++ t) p x = put m p x ++ t.
Proof. revert p; induction m as [|y m IH]; intros [|p] H; cbn in *; try lia; auto. f_equal. apply IH. lia. Qed.

Lemma firstn_front (m t : mem) : firstn (length m) (m ++ t) = m.
Proof. induction m as [|y m IH]; cbn; [reflexivity|]. unfold firstn; fold (@firstn (option u256)). f_equal. exact IH. Qed.

Lemma held (m : mem) p x : nth_error m p = Some (Some x) -> (p < length m)%nat.
Proof. intros H. apply nth_error_Some. congruence. Qed.

Lemma get_of m p x : nth_error m p = Some (Some x) -> get p m = (Ret x, m).
Proof. intros H. unfold get. rewrite H. reflexivity. Qed.

Lemma set_of m p x : (p < length m)%nat -> set p x m = (Ret tt, put m p x).
Proof.
  intros H. unfold set. destruct (nth_error m p) eqn:E; [reflexivity|].
  apply nth_error_None in E. lia.
Qed.

Lemma mbind_ret {A B} (f : mm A) (k : A -> mm B) m v m' : f m = (Ret v, m') -> mbind f k m = k v m'.
Proof. unfold mbind. intros ->. reflexivity. Qed.
Lemma mbind_panic {A B} (f : mm A) (k : A -> mm B) m s m' : f m = (Panic s, m') -> mbind f k m = (Panic s, m').
Proof. unfold mbind. intros ->. reflexivity. Qed.
Lemma mbind_lift {A B} (r : A) (k : A -> mm B) m : mbind (lift (Ret r)) k m = k r m.
Proof. reflexivity. Qed.

Lemma put_wrote m p x : (p < length m)%nat -> wrote m p x (put m p x).
Proof.
  intros H. split; [apply put_length|]. split; [apply put_get, H|].
  intros q Hq. apply put_other, Hq.
Qed.

Lemma put_wrote2 m p x q y : (p < length m)%nat -> (q < length m)%nat -> p <> q ->
  wrote2 m p x q y (put (put m p x) q y).
Proof.
  intros Hp Hq N. split; [rewrite !put_length; reflexivity|]. split; [|split].
  - rewrite put_other by congruence. apply put_get, Hp.
  - apply put_get. rewrite put_length. exact Hq.
  - intros k Kp Kq. rewrite !put_other by assumption. reflexivity.
Qed.

Lemma put_stores {A} m p x (v : A) o : (p < length m)%nat -> o = (Ret v, put m p x) -> stores o m p x v.
Proof. intros H ->. exists (put m p x). split; [reflexivity | apply put_wrote, H]. Qed.

(** The outcome of storing a result. *)
Definition putr (m : mem) (p : place) (r : res u256) : res unit * mem :=
  match r with
  | Ret x => (Ret tt, put m p x)
  | Panic s => (Panic s, m)
  | UB s => (UB s, m)
  | NoFuel => (NoFuel, m)
  end.

Lemma lift_set m p (r : res u256) : (p < length m)%nat -> (mbind (lift r) (set p)) m = putr m p r.
Proof. intros H. destruct r; try reflexivity. apply set_of, H. Qed.

Lemma out_of f r m : f (length m) (m ++ [None]) = putr (m ++ [None]) (length m) r -> out f m = (r, m).
Proof.
  intros H. unfold out, local, mbind. rewrite H. destruct r; cbn [putr]; rewrite ?firstn_front; try reflexivity.
  rewrite put_last. rewrite (get_of _ _ a). { rewrite firstn_front. reflexivity. }
  rewrite nth_error_app2 by lia. rewrite Nat.sub_diag. reflexivity.
Qed.

Lemma last_lt (m : mem) : (length m < length (m ++ [None]))%nat.
Proof. rewrite app_length. cbn. lia. Qed.

Lemma outi_of f r m : f (length m) (m ++ [None]) = putr (m ++ [None]) (length m) r -> outi f m = (res_map u_as_i256 r, m).
Proof.
  intros H. unfold outi, local, mbind, geti. rewrite H. destruct r; cbn [putr]; rewrite ?firstn_front; try reflexivity.
  rewrite put_last. unfold mbind. rewrite (get_of _ _ a). { cbn. rewrite firstn_front. reflexivity. }
  rewrite nth_error_app2 by lia. rewrite Nat.sub_diag. reflexivity.
Qed.

Lemma putr_stores m p r x : (p < length m)%nat -> r = Ret x -> stores (putr m p r) m p x tt.
Proof. intros H ->. apply (put_stores m p x tt); [exact H | reflexivity]. Qed.

Definition no_ub_fuel {A} (r : res A) := match r with Ret _ | Panic _ => True | _ => False end.
Lemma putr_updates m p r : (p < length m)%nat -> no_ub_fuel r -> updates (putr m p r) m p r.
Proof. intros H N. destruct r; cbn in *; try contradiction; [|reflexivity]. apply (put_stores m p a tt); auto. Qed.

(** ** Addition, subtraction, multiplication *)

Lemma m_add3_of c p a b m : (p < length m)%nat -> m_add3 c p a b m = putr m p (Ret (add3 c a b)).
Proof. intros H. apply set_of, H. Qed.
Lemma m_sub3_of c p a b m : (p < length m)%nat -> m_sub3 c p a b m = putr m p (Ret (sub3 c a b)).
Proof. intros H. apply set_of, H. Qed.
Lemma m_mul3_of c p a b m : (p < length m)%nat -> m_mul3 c p a b m = putr m p (mul3 c a b).
Proof. intros H. apply lift_set, H. Qed.

Lemma m_add2_of c p a b m : nth_error m p = Some (Some a) -> m_add2 c p b m = putr m p (Ret (add2 c a b)).
Proof.
  intros H. pose proof (held _ _ _ H) as L. unfold m_add2, add2. destruct (llvm c).
  - rewrite (mbind_ret _ _ _ _ _ (get_of _ _ _ H)). apply set_of, L.
  - rewrite (mbind_ret _ _ _ _ _ (get_of _ _ _ H)). unfold n_add2.
    destruct (overflowing_add 128 (u_low c a) (u_low c b)) as [lo carry].
    rewrite (mbind_ret _ _ _ _ _ (get_of _ _ _ H)).
    rewrite (mbind_ret _ _ _ _ _ (set_of _ _ _ L)).
    rewrite (mbind_ret _ _ _ _ _ (get_of _ _ _ (put_get _ _ _ L))).
    rewrite (mbind_ret _ _ _ _ _ (get_of _ _ _ (put_get _ _ _ L))).
    rewrite set_of by (rewrite put_length; exact L). rewrite put_put. reflexivity.
Qed.
Lemma m_sub2_of c p a b m : nth_error m p = Some (Some a) -> m_sub2 c p b m = putr m p (Ret (sub2 c a b)).
Proof.
  intros H. pose proof (held _ _ _ H) as L. unfold m_sub2, sub2. destruct (llvm c).
  - rewrite (mbind_ret _ _ _ _ _ (get_of _ _ _ H)). apply set_of, L.
  - rewrite (mbind_ret _ _ _ _ _ (get_of _ _ _ H)). unfold n_sub2.
    destruct (overflowing_sub 128 (u_low c a) (u_low c b)) as [lo carry].
    rewrite (mbind_ret _ _ _ _ _ (get_of _ _ _ H)).
    rewrite (mbind_ret _ _ _ _ _ (set_of _ _ _ L)).
    rewrite (mbind_ret _ _ _ _ _ (get_of _ _ _ (put_get _ _ _ L))).
    rewrite (mbind_ret _ _ _ _ _ (get_of _ _ _ (put_get _ _ _ L))).
    rewrite set_of by (rewrite put_length; exact L). rewrite put_put. reflexivity.
Qed.
Lemma m_mul2_of c p a b m : nth_error m p = Some (Some a) -> m_mul2 c p b m = putr m p (mul2 c a b).
Proof.
  intros H. pose proof (held _ _ _ H) as L. unfold m_mul2, mul2.
  rewrite (mbind_ret _ _ _ _ _ (get_of _ _ _ H)). destruct (llvm c).
  - apply set_of, L.
  - apply lift_set, L.
Qed.

(** outcome of storing a result and returning a flag *)
Definition putc (m : mem) (p : place) (r : res (u256 * bool)) : res bool * mem :=
  match r with
  | Ret (x, o) => (Ret o, put m p x)
  | Panic s => (Panic s, m)
  | UB s => (UB s, m)
  | NoFuel => (NoFuel, m)
  end.
Definition iu (p : i256 * bool) : u256 * bool := (i_as_u256 (fst p), snd p).

Lemma m_uaddc_of c p a b m : (p < length m)%nat -> m_uaddc c p a b m = putc m p (Ret (uaddc c a b)).
Proof.
  intros H. unfold m_uaddc. destruct (uaddc c a b) as [x o].
  rewrite (mbind_ret _ _ _ _ _ (set_of _ _ _ H)). reflexivity.
Qed.
Lemma m_usubc_of c p a b m : (p < length m)%nat -> m_usubc c p a b m = putc m p (Ret (usubc c a b)).
Proof.
  intros H. unfold m_usubc. destruct (usubc c a b) as [x o].
  rewrite (mbind_ret _ _ _ _ _ (set_of _ _ _ H)). reflexivity.
Qed.
Lemma m_umulc_of c p a b m : (p < length m)%nat -> m_umulc c p a b m = putc m p (umulc c a b).
Proof.
  intros H. unfold m_umulc. destruct (umulc c a b) as [[x o]| | |]; try reflexivity.
  rewrite mbind_lift. rewrite (mbind_ret _ _ _ _ _ (set_of _ _ _ H)). reflexivity.
Qed.

Lemma geti_of m p x : nth_error m p = Some (Some x) -> geti p m = (Ret (u_as_i256 x), m).
Proof. intros H. unfold geti. rewrite (mbind_ret _ _ _ _ _ (get_of _ _ _ H)). reflexivity. Qed.


Lemma uiu x : wf_u x -> i_as_u256 (u_as_i256 x) = x.
Proof.
  intros H. set (c := Build_cfg false false false 64 false).
  rewrite <- (uof_uval c x H), u_as_i256_of, i_as_u256_of. reflexivity.
Qed.

Lemma m_iaddc_of c p a b m : wf_i a -> wf_i b -> (p < length m)%nat ->
  m_iaddc c p a b m = putc m p (Ret (iu (iaddc c a b))).
Proof.
  intros Ha Hb H. unfold m_iaddc, iaddc. destruct (llvm c).
  - destruct (l_iaddc c a b) as [x o]. unfold seti. rewrite (mbind_ret _ _ _ _ _ (set_of _ _ _ H)). reflexivity.
  - rewrite (mbind_ret _ _ _ _ _ (set_of _ _ _ H)).
    rewrite (mbind_ret _ _ _ _ _ (geti_of _ _ _ (put_get _ _ _ H))).
    unfold n_iaddc, iu. cbn [fst snd putc]. rewrite uiu; [reflexivity|].
    rewrite <- (iof_ival c a Ha), <- (iof_ival c b Hb), !i_as_u256_of, n_add3_of. apply wf_uof.
Qed.
Lemma m_isubc_of c p a b m : wf_i a -> wf_i b -> (p < length m)%nat ->
  m_isubc c p a b m = putc m p (Ret (iu (isubc c a b))).
Proof.
  intros Ha Hb H. unfold m_isubc, isubc. destruct (llvm c).
  - destruct (l_isubc c a b) as [x o]. unfold seti. rewrite (mbind_ret _ _ _ _ _ (set_of _ _ _ H)). reflexivity.
  - rewrite (mbind_ret _ _ _ _ _ (set_of _ _ _ H)).
    rewrite (mbind_ret _ _ _ _ _ (geti_of _ _ _ (put_get _ _ _ H))).
    unfold n_isubc, iu. cbn [fst snd putc]. rewrite uiu; [reflexivity|].
    rewrite <- (iof_ival c a Ha), <- (iof_ival c b Hb), !i_as_u256_of, n_sub3_of. apply wf_uof.
Qed.

Ltac step H :=
  match type of H with
  | context [bind ?r _] => destruct r eqn:?; cbn [bind] in H; try discriminate; rewrite ?mbind_lift
  end.

Lemma m_imulc_of c p a b m : wf_i a -> wf_i b -> (p < length m)%nat ->
  m_imulc c p a b m = putc m p (res_map iu (imulc c a b)).
Proof.
  intros Ha Hb H.
  destruct (i_arith c a b Ha Hb) as (_ & _ & _ & _ & _ & _ & _ & _ & E). rewrite E.
  cbn [res_map bind putc iu fst snd]. set (x := ival c a * ival c b) in *.
  assert (N : n_mul3 c (i_as_u256 a) (i_as_u256 b) = Ret (uof c x)).
  { unfold x. rewrite <- (iof_ival c a Ha) at 1. rewrite <- (iof_ival c b Hb) at 1. rewrite !i_as_u256_of. apply n_mul3_of. }
  unfold m_imulc. unfold imulc in E. rewrite N in E |- *. cbn [res_map bind] in E.
  rewrite u_as_i256_of in E. rewrite mbind_lift, (mbind_ret _ _ _ _ _ (set_of _ _ _ H)).
  unfold res_map in *. cbn [bind putc iu fst snd]. rewrite i_as_u256_of.
  destruct (i_eq c a (I256_MIN c)). { injection E as E. rewrite E. reflexivity. }
  destruct (i_eq c b (I256_MIN c)). { injection E as E. rewrite E. reflexivity. }
  step E. step E.
  destruct (_ || _). { injection E as E. rewrite <- E. reflexivity. }
  destruct (i_eq c _ _).
  - step E. injection E as E. rewrite <- E. reflexivity.
  - step E. step E. injection E as E. rewrite <- E. reflexivity.
Qed.

(** ** Shifts and rotations *)

Lemma m_shl3_of c p a n m : (p < length m)%nat -> m_shl3 c p a n m = putr m p (shl3 c a n).
Proof. intros H. apply lift_set, H. Qed.
Lemma m_shr3_of c p a n m : (p < length m)%nat -> m_shr3 c p a n m = putr m p (shr3 c a n).
Proof. intros H. apply lift_set, H. Qed.
Lemma m_rol3_of c p a n m : (p < length m)%nat -> m_rol3 c p a n m = putr m p (rol3 c a n).
Proof. intros H. apply lift_set, H. Qed.
Lemma m_ror3_of c p a n m : (p < length m)%nat -> m_ror3 c p a n m = putr m p (ror3 c a n).
Proof. intros H. apply lift_set, H. Qed.
Lemma m_sar3_of c p a n m : (p < length m)%nat -> m_sar3 c p a n m = putr m p (res_map i_as_u256 (sar3 c a n)).
Proof. intros H. unfold m_sar3. destruct (sar3 c a n); try reflexivity. apply set_of, H. Qed.

Lemma m_shl2_of c p a n m : nth_error m p = Some (Some a) -> m_shl2 c p n m = putr m p (shl2 c a n).
Proof.
  intros H. pose proof (held _ _ _ H) as L. unfold m_shl2. rewrite (mbind_ret _ _ _ _ _ (get_of _ _ _ H)).
  destruct (negb (llvm c) && (n =? 0)) eqn:E; [|apply lift_set, L].
  apply andb_true_iff in E. destruct E as [E1 E2]. apply negb_true_iff in E1.
  unfold shl2. rewrite E1. unfold n_shl2. rewrite E2.
  destruct (debug_assert c (n <? 256) _); try reflexivity. cbn [bind putr]. rewrite (put_same _ _ _ H). reflexivity.
Qed.
Lemma m_shr2_of c p a n m : nth_error m p = Some (Some a) -> m_shr2 c p n m = putr m p (shr2 c a n).
Proof.
  intros H. pose proof (held _ _ _ H) as L. unfold m_shr2. rewrite (mbind_ret _ _ _ _ _ (get_of _ _ _ H)).
  destruct (negb (llvm c) && (n =? 0)) eqn:E; [|apply lift_set, L].
  apply andb_true_iff in E. destruct E as [E1 E2]. apply negb_true_iff in E1.
  unfold shr2. rewrite E1. unfold n_shr2. rewrite E2.
  destruct (debug_assert c (n <? 256) _); try reflexivity. cbn [bind putr]. rewrite (put_same _ _ _ H). reflexivity.
Qed.
Lemma m_sar2_of c p a n m : nth_error m p = Some (Some (i_as_u256 a)) -> wf_i a ->
  m_sar2 c p n m = putr m p (res_map i_as_u256 (sar2 c a n)).
Proof.
  intros H W. pose proof (held _ _ _ H) as L. unfold m_sar2.
  assert (I : u_as_i256 (i_as_u256 a) = a) by (rewrite <- (iof_ival c a W), i_as_u256_of, u_as_i256_of; reflexivity).
  rewrite (mbind_ret _ _ _ _ _ (geti_of _ _ _ H)), I.
  destruct (negb (llvm c) && (n =? 0)) eqn:E.
  - apply andb_true_iff in E. destruct E as [E1 E2]. apply negb_true_iff in E1.
    unfold sar2. rewrite E1. unfold n_sar2. rewrite E2.
    destruct (debug_assert c (n <? 256) _); try reflexivity. cbn [bind putr res_map]. rewrite mbind_lift.
    unfold res_map. cbn [bind putr]. rewrite (put_same _ _ _ H). reflexivity.
  - destruct (sar2 c a n); try reflexivity. apply set_of, L.
Qed.

(** ** Division *)

(** outcome of storing a quotient and a remainder *)
Definition putqr (m : mem) (p q : place) (r : res (u256 * option u256)) : res unit * mem :=
  match r with
  | Ret (x, Some y) => (Ret tt, put (put m p x) q y)
  | Ret (x, None) => (Ret tt, put m p x)
  | Panic s => (Panic s, m)
  | UB s => (UB s, m)
  | NoFuel => (NoFuel, m)
  end.

Lemma set_opt_none m p x k : (p < length m)%nat -> mbind (set_opt None k) (fun _ => set p x) m = (Ret tt, put m p x).
Proof. intros H. apply (set_of m p x H). Qed.
Lemma set_opt_some m p q x y : (p < length m)%nat -> (q < length m)%nat -> p <> q ->
  mbind (set_opt (Some q) y) (fun _ => set p x) m = (Ret tt, put (put m p x) q y).
Proof.
  intros Hp Hq N. unfold set_opt. rewrite (mbind_ret _ _ _ _ _ (set_of _ _ _ Hq)).
  rewrite set_of by (rewrite put_length; exact Hp). rewrite put_comm by congruence. reflexivity.
Qed.

Lemma m_udivmod4_none c p a b m : (p < length m)%nat ->
  m_udivmod4 c p a b None m = putr m p (res_map fst (udivmod4 c a b false)).
Proof.
  intros H. unfold m_udivmod4, udivmod4.
  destruct (Z.lor (u_high c a) (u_high c b) =? 0).
  { destruct (u_div (u_low c a) (u_low c b)); try reflexivity. rewrite mbind_lift.
    rewrite (mbind_ret _ _ _ _ _ (set_of _ _ _ H)). reflexivity. }
  destruct (u_gt c b a). { rewrite set_opt_none by exact H. reflexivity. }
  destruct (u_high c b =? 0).
  - match goal with |- mbind (lift ?r) _ _ = putr _ _ (res_map _ (bind ?s _)) => change s with r; destruct r as [[x y]| | |] end;
      try reflexivity.
    rewrite mbind_lift, set_opt_none by exact H. reflexivity.
  - destruct (div_mod_knuth c a b) as [[x y]| | |]; try reflexivity.
    rewrite mbind_lift, set_opt_none by exact H. reflexivity.
Qed.

Lemma m_udivmod4_some c p q a b m : (p < length m)%nat -> (q < length m)%nat -> p <> q ->
  m_udivmod4 c p a b (Some q) m = putqr m p q (udivmod4 c a b true).
Proof.
  intros Hp Hq N. unfold m_udivmod4, udivmod4.
  destruct (Z.lor (u_high c a) (u_high c b) =? 0).
  { unfold u_div, u_rem. destruct (u_low c b =? 0); [reflexivity|]. rewrite mbind_lift.
    rewrite (mbind_ret _ _ _ _ _ (set_of _ _ _ Hp)). rewrite mbind_lift.
    rewrite set_of by (rewrite put_length; exact Hq). reflexivity. }
  destruct (u_gt c b a). { rewrite set_opt_some by assumption. reflexivity. }
  destruct (u_high c b =? 0).
  - match goal with |- mbind (lift ?r) _ _ = putqr _ _ _ (bind ?s _) => change s with r; destruct r as [[x y]| | |] end;
      try reflexivity.
    rewrite mbind_lift, set_opt_some by assumption. reflexivity.
  - destruct (div_mod_knuth c a b) as [[x y]| | |]; try reflexivity.
    rewrite mbind_lift, set_opt_some by assumption. reflexivity.
Qed.

Lemma udivmod4_some c a b x : udivmod4 c a b true <> Ret (x, None).
Proof.
  unfold udivmod4. destruct (_ =? 0).
  { destruct (u_div _ _); try discriminate. cbn [bind]. destruct (u_rem _ _); discriminate. }
  destruct (u_gt c b a); [discriminate|]. destruct (u_high c b =? 0).
  - match goal with |- bind ?r _ <> _ => destruct r as [[? ?]| | |] end; discriminate.
  - destruct (div_mod_knuth c a b) as [[? ?]| | |]; discriminate.
Qed.

Definition iqr (p : i256 * option i256) : u256 * option u256 := (i_as_u256 (fst p), option_map i_as_u256 (snd p)).

Lemma m_idivmod4_some c p q a b m : (p < length m)%nat -> (q < length m)%nat -> p <> q ->
  m_idivmod4 c p a b (Some q) m = putqr m p q (res_map iqr (idivmod4 c a b true)).
Proof.
  intros Hp Hq N. unfold m_idivmod4, idivmod4.
  destruct (i_op_shr c a 255) as [sa| | |]; try reflexivity. cbn [bind]. rewrite mbind_lift.
  destruct (i_op_shr c b 255) as [sb| | |]; try reflexivity. cbn [bind]. rewrite mbind_lift.
  cbv zeta.
  set (A := i_as_u256 _). set (B := i_as_u256 (i_wrapping_sub c (i_op_xor b sb) sb)).
  pose proof (m_udivmod4_some c p q A B m Hp Hq N) as M.
  destruct (udivmod4 c A B true) as [[x [y|]]| | |] eqn:E; cbn [putqr] in M.
  - rewrite (mbind_ret _ _ _ _ _ M). clear M.
    assert (G : nth_error (put (put m p x) q y) p = Some (Some x)) by (rewrite put_other by exact N; apply put_get, Hp).
    rewrite (mbind_ret _ _ _ _ _ (geti_of _ _ _ G)). unfold seti at 1.
    assert (Lp : (p < length (put (put m p x) q y))%nat) by (rewrite !put_length; exact Hp).
    rewrite (mbind_ret _ _ _ _ _ (set_of _ _ _ Lp)).
    assert (G2 : forall z, nth_error (put (put (put m p x) q y) p z) q = Some (Some y))
      by (intros z; rewrite put_other by congruence; apply put_get; rewrite put_length; exact Hq).
    rewrite (mbind_ret _ _ _ _ _ (geti_of _ q y (G2 _))).
    unfold seti. rewrite set_of by (rewrite !put_length; exact Hq).
    unfold res_map. cbn [bind assume_init putqr iqr option_map fst snd]. f_equal.
    rewrite (put_comm (put m p x) q p) by congruence. rewrite put_put, put_put. reflexivity.
  - exfalso. exact (udivmod4_some c A B x E).
  - rewrite (mbind_panic _ _ _ _ _ M). reflexivity.
  - unfold mbind at 1. rewrite M. reflexivity.
  - unfold mbind at 1. rewrite M. reflexivity.
Qed.

Lemma m_idivmod4_none c p a b m : (p < length m)%nat ->
  m_idivmod4 c p a b None m = putr m p (res_map (fun r => i_as_u256 (fst r)) (idivmod4 c a b false)).
Proof.
  intros Hp. unfold m_idivmod4, idivmod4.
  destruct (i_op_shr c a 255) as [sa| | |]; try reflexivity. cbn [bind]. rewrite mbind_lift.
  destruct (i_op_shr c b 255) as [sb| | |]; try reflexivity. cbn [bind]. rewrite mbind_lift.
  cbv zeta.
  set (A := i_as_u256 _). set (B := i_as_u256 (i_wrapping_sub c (i_op_xor b sb) sb)).
  pose proof (m_udivmod4_none c p A B m Hp) as M.
  destruct (udivmod4 c A B false) as [[x y]| | |] eqn:E; unfold res_map in M; cbn [putr bind fst] in M.
  - rewrite (mbind_ret _ _ _ _ _ M). clear M.
    rewrite (mbind_ret _ _ _ _ _ (geti_of _ _ _ (put_get _ _ _ Hp))). unfold seti at 1.
    rewrite (mbind_ret _ _ _ _ _ (set_of (put m p x) p _ ltac:(rewrite put_length; exact Hp))).
    rewrite put_put. reflexivity.
  - rewrite (mbind_panic _ _ _ _ _ M). reflexivity.
  - unfold mbind at 1. rewrite M. reflexivity.
  - unfold mbind at 1. rewrite M. reflexivity.
Qed.

Lemma m_udiv3_of c p a b m : (p < length m)%nat -> m_udiv3 c p a b m = putr m p (udiv3 c a b).
Proof. apply m_udivmod4_none. Qed.
Lemma m_udiv2_of c p a b m : nth_error m p = Some (Some a) -> m_udiv2 c p b m = putr m p (udiv2 c a b).
Proof.
  intros H. unfold m_udiv2. rewrite (mbind_ret _ _ _ _ _ (get_of _ _ _ H)). apply m_udivmod4_none, (held _ _ _ H).
Qed.

Lemma in_front (m t : mem) p x : nth_error m p = Some x -> nth_error (m ++ t) p = Some x.
Proof. intros H. rewrite nth_error_app1; [exact H|]. apply nth_error_Some. congruence. Qed.

Lemma rem_local c a b m p : (p < length m)%nat ->
  (let '(r, m') := m_udivmod4 c (length m) a b (Some p) (m ++ [None]) in (r, firstn (length m) m')) =
  putr m p (urem3 c a b).
Proof.
  intros H. pose proof (last_lt m) as L.
  rewrite (m_udivmod4_some c (length m) p a b (m ++ [None])) by (rewrite ?app_length; cbn; lia).
  unfold urem3. destruct (udivmod4 c a b true) as [[x [y|]]| | |] eqn:E; cbn [putqr bind assume_init putr];
    rewrite ?firstn_front; try reflexivity.
  - rewrite put_last, put_app by exact H. rewrite <- (put_length m p y) at 1. rewrite firstn_front. reflexivity.
  - exfalso. exact (udivmod4_some c a b x E).
Qed.

Lemma irem_local c a b m p : (p < length m)%nat ->
  (let '(r, m') := m_idivmod4 c (length m) a b (Some p) (m ++ [None]) in (r, firstn (length m) m')) =
  putr m p (res_map i_as_u256 (irem3 c a b)).
Proof.
  intros H. pose proof (last_lt m) as L.
  rewrite (m_idivmod4_some c (length m) p a b (m ++ [None])) by (rewrite ?app_length; cbn; lia).
  unfold irem3. destruct (idivmod4 c a b true) as [[x [y|]]| | |] eqn:E; unfold res_map; cbn [putqr bind assume_init putr iqr fst snd option_map];
    rewrite ?firstn_front; try reflexivity.
  - rewrite put_last, put_app by exact H. rewrite <- (put_length m p (i_as_u256 y)) at 1. rewrite firstn_front. reflexivity.
  - exfalso. unfold idivmod4 in E. destruct (i_op_shr c a 255); try discriminate.
    cbn [bind] in E. destruct (i_op_shr c b 255); try discriminate. cbn [bind] in E.
    destruct (udivmod4 c _ _ true) as [[? [?|]]| | |]; cbn [bind assume_init] in E; discriminate.
Qed.

Lemma m_urem3_of c p a b m : (p < length m)%nat -> m_urem3 c p a b m = putr m p (urem3 c a b).
Proof. apply rem_local. Qed.
Lemma m_urem2_of c p a b m : nth_error m p = Some (Some a) -> m_urem2 c p b m = putr m p (urem2 c a b).
Proof.
  intros H. unfold m_urem2, local.
  rewrite (mbind_ret _ _ _ _ _ (get_of _ _ _ (in_front m [None] p _ H))). apply rem_local, (held _ _ _ H).
Qed.

Lemma iui (c : cfg) a : wf_i a -> u_as_i256 (i_as_u256 a) = a.
Proof. intros W. rewrite <- (iof_ival c a W), i_as_u256_of, u_as_i256_of. reflexivity. Qed.

Lemma res_map_map {A B C} (f : A -> B) (g : B -> C) r : res_map g (res_map f r) = res_map (fun x => g (f x)) r.
Proof. destruct r; reflexivity. Qed.

Lemma m_idiv3_of c p a b m : (p < length m)%nat -> m_idiv3 c p a b m = putr m p (res_map i_as_u256 (idiv3 c a b)).
Proof. intros H. unfold m_idiv3, idiv3. rewrite res_map_map. apply m_idivmod4_none, H. Qed.
Lemma m_idiv2_of c p a b m : wf_i a -> nth_error m p = Some (Some (i_as_u256 a)) ->
  m_idiv2 c p b m = putr m p (res_map i_as_u256 (idiv2 c a b)).
Proof.
  intros W H. unfold m_idiv2, idiv2. rewrite (mbind_ret _ _ _ _ _ (geti_of _ _ _ H)), (iui c a W), res_map_map.
  apply m_idivmod4_none, (held _ _ _ H).
Qed.
Lemma m_irem3_of c p a b m : (p < length m)%nat -> m_irem3 c p a b m = putr m p (res_map i_as_u256 (irem3 c a b)).
Proof. apply irem_local. Qed.
Lemma m_irem2_of c p a b m : wf_i a -> nth_error m p = Some (Some (i_as_u256 a)) ->
  m_irem2 c p b m = putr m p (res_map i_as_u256 (irem2 c a b)).
Proof.
  intros W H. unfold m_irem2, local.
  rewrite (mbind_ret _ _ _ _ _ (geti_of _ _ _ (in_front m [None] p _ H))), (iui c a W).
  apply irem_local, (held _ _ _ H).
Qed.

(** ** The signed wrappers *)

Lemma wf_iu a : wf_i a -> wf_u (i_as_u256 a).
Proof.
  intros W. set (c := Build_cfg false false false 64 false).
  rewrite <- (iof_ival c a W), i_as_u256_of. apply wf_uof.
Qed.
Lemma add2_wf c a b : wf_u a -> wf_u b -> wf_u (add2 c a b).
Proof. intros Ha Hb. destruct (u_arith c a b Ha Hb) as (-> & _). apply wf_uof. Qed.
Lemma sub2_wf c a b : wf_u a -> wf_u b -> wf_u (sub2 c a b).
Proof. intros Ha Hb. destruct (u_arith c a b Ha Hb) as (_ & _ & _ & -> & _). apply wf_uof. Qed.

Lemma m_iadd3_of c p a b m : wf_i a -> wf_i b -> (p < length m)%nat ->
  m_iadd3 c p a b m = putr m p (res_map i_as_u256 (Ret (iadd3 c a b))).
Proof.
  intros Ha Hb H. unfold m_iadd3. rewrite m_add3_of by exact H. unfold iadd3, res_map. cbn [bind].
  rewrite uiu; [reflexivity|]. rewrite <- (iof_ival c a Ha), <- (iof_ival c b Hb), !i_as_u256_of, add3_of. apply wf_uof.
Qed.
Lemma m_isub3_of c p a b m : wf_i a -> wf_i b -> (p < length m)%nat ->
  m_isub3 c p a b m = putr m p (res_map i_as_u256 (Ret (isub3 c a b))).
Proof.
  intros Ha Hb H. unfold m_isub3. rewrite m_sub3_of by exact H. unfold isub3, res_map. cbn [bind].
  rewrite uiu; [reflexivity|]. rewrite <- (iof_ival c a Ha), <- (iof_ival c b Hb), !i_as_u256_of, sub3_of. apply wf_uof.
Qed.
Lemma m_imul3_of c p a b m : wf_i a -> wf_i b -> (p < length m)%nat ->
  m_imul3 c p a b m = putr m p (res_map i_as_u256 (imul3 c a b)).
Proof.
  intros Ha Hb H. unfold m_imul3. rewrite m_mul3_of by exact H. unfold imul3. rewrite res_map_map.
  rewrite <- (iof_ival c a Ha), <- (iof_ival c b Hb), !i_as_u256_of, mul3_of.
  unfold res_map. cbn [bind]. rewrite u_as_i256_of, i_as_u256_of. reflexivity.
Qed.
Lemma m_iadd2_of c p a b m : wf_i a -> wf_i b -> nth_error m p = Some (Some (i_as_u256 a)) ->
  m_iadd2 c p b m = putr m p (res_map i_as_u256 (Ret (iadd2 c a b))).
Proof.
  intros Ha Hb H. unfold m_iadd2. rewrite (m_add2_of _ _ _ _ _ H). unfold iadd2, res_map. cbn [bind].
  rewrite uiu; [reflexivity|]. apply add2_wf; apply wf_iu; assumption.
Qed.
Lemma m_isub2_of c p a b m : wf_i a -> wf_i b -> nth_error m p = Some (Some (i_as_u256 a)) ->
  m_isub2 c p b m = putr m p (res_map i_as_u256 (Ret (isub2 c a b))).
Proof.
  intros Ha Hb H. unfold m_isub2. rewrite (m_sub2_of _ _ _ _ _ H). unfold isub2, res_map. cbn [bind].
  rewrite uiu; [reflexivity|]. apply sub2_wf; apply wf_iu; assumption.
Qed.
Lemma m_imul2_of c p a b m : wf_i a -> wf_i b -> nth_error m p = Some (Some (i_as_u256 a)) ->
  m_imul2 c p b m = putr m p (res_map i_as_u256 (imul2 c a b)).
Proof.
  intros Ha Hb H. unfold m_imul2. rewrite (m_mul2_of _ _ _ _ _ H). unfold imul2. rewrite res_map_map.
  destruct (u_arith c _ _ (wf_iu a Ha) (wf_iu b Hb)) as (_ & _ & _ & _ & _ & _ & -> & _).
  unfold res_map. cbn [bind]. rewrite u_as_i256_of, i_as_u256_of. reflexivity.
Qed.

(** ** Operators and methods *)

Lemma wf_ret (r : res u256) : (forall x, r = Ret x -> wf_u x) -> res_map i_as_u256 (res_map u_as_i256 r) = r.
Proof. intros H. destruct r; try reflexivity. unfold res_map. cbn [bind]. rewrite uiu; auto. Qed.

Lemma get_last (m : mem) x : nth_error (m ++ [Some x]) (length m) = Some (Some x : option u256).
Proof. rewrite nth_error_app2 by lia. rewrite Nat.sub_diag. reflexivity. Qed.

Lemma binop_of c op3 opc msg r3 rc m :
  op3 (length m) (m ++ [None]) = putr (m ++ [None]) (length m) r3 ->
  opc (length m) (m ++ [None]) = putc (m ++ [None]) (length m) rc ->
  m_binop c op3 opc msg m =
  (if debug_assertions c then (let! '(x, o) := rc in if o : bool then Panic msg else Ret x) else r3, m).
Proof.
  intros H3 Hc. unfold m_binop. destruct (debug_assertions c); [|apply (out_of op3), H3].
  unfold local, mbind. rewrite Hc. destruct rc as [[x o]| | |]; cbn [putc bind]; rewrite ?firstn_front; try reflexivity.
  destruct o; cbn [lift mret]; rewrite put_last.
  - rewrite firstn_front. reflexivity.
  - rewrite (get_of _ _ _ (get_last m x)). rewrite firstn_front. reflexivity.
Qed.

Lemma u_operators_of c a b m :
  m_u_add c a b m = (u_op_add c a b, m) /\ m_u_sub c a b m = (u_op_sub c a b, m) /\
  m_u_mul c a b m = (u_op_mul c a b, m) /\ m_u_div c a b m = (u_op_div c a b, m) /\
  m_u_rem c a b m = (u_op_rem c a b, m).
Proof.
  pose proof (last_lt m) as L. repeat split.
  - unfold m_u_add. erewrite binop_of by (apply m_add3_of, L || apply m_uaddc_of, L).
    unfold u_op_add. cbn [bind]. reflexivity.
  - unfold m_u_sub. erewrite binop_of by (apply m_sub3_of, L || apply m_usubc_of, L).
    unfold u_op_sub. cbn [bind]. reflexivity.
  - unfold m_u_mul. erewrite binop_of by (apply m_mul3_of, L || apply m_umulc_of, L).
    unfold u_op_mul. reflexivity.
  - unfold m_u_div, u_op_div. destruct (u_eq_prim c b 0); [reflexivity|]. apply out_of, m_udiv3_of, L.
  - unfold m_u_rem, u_op_rem. destruct (u_eq_prim c b 0); [reflexivity|]. apply out_of, m_urem3_of, L.
Qed.

Lemma back (c : cfg) (r : res i256) : (forall x, r = Ret x -> wf_i x) -> res_map u_as_i256 (res_map i_as_u256 r) = r.
Proof.
  intros H. destruct r as [x| | |]; try reflexivity. unfold res_map. cbn [bind].
  rewrite (iui c x) by (apply H; reflexivity). reflexivity.
Qed.
Ltac wf_by E := let x := fresh in let W := fresh in intros x W; rewrite E in W; injection W as <-; apply wf_iof.

Lemma idiv3_wf c a b x : wf_i a -> wf_i b -> idiv3 c a b = Ret x -> wf_i x.
Proof.
  intros Ha Hb E. destruct (i_division c a b Ha Hb) as [D1 D2].
  destruct (Z.eq_dec (ival c b) 0) as [Z|Z].
  - destruct (D2 Z) as [_ F]. inversion F as [|? ? ? F1]; subst. inversion F1; subst. congruence.
  - destruct (D1 Z) as (_ & _ & _ & Q & _). rewrite Q in E. injection E as <-. apply wf_iof.
Qed.
Lemma irem3_wf c a b x : wf_i a -> wf_i b -> irem3 c a b = Ret x -> wf_i x.
Proof.
  intros Ha Hb E. destruct (i_division c a b Ha Hb) as [D1 D2].
  destruct (Z.eq_dec (ival c b) 0) as [Z|Z].
  - destruct (D2 Z) as [_ F]. rewrite Forall_forall in F.
    specialize (F (irem3 c a b)). rewrite E in F. discriminate F. cbn. auto.
  - destruct (D1 Z) as (_ & _ & _ & _ & _ & Q). rewrite Q in E. injection E as <-. apply wf_iof.
Qed.

Lemma i_operators_of c a b m : wf_i a -> wf_i b ->
  m_i_add c a b m = (i_op_add c a b, m) /\ m_i_sub c a b m = (i_op_sub c a b, m) /\
  m_i_mul c a b m = (i_op_mul c a b, m) /\ m_i_div c a b m = (i_op_div c a b, m) /\
  m_i_rem c a b m = (i_op_rem c a b, m).
Proof.
  intros Ha Hb. pose proof (last_lt m) as L.
  destruct (i_arith c a b Ha Hb) as (_ & A3 & AC & _ & S3 & SC & _ & M3 & MC).
  repeat split.
  - unfold m_i_add, m_binopi. unfold mbind.
    erewrite binop_of by ((apply m_iadd3_of; assumption) || (apply m_iaddc_of; assumption)).
    unfold i_op_add. rewrite AC, A3. unfold res_map. cbn [bind iu fst snd]. rewrite i_as_u256_of.
    destruct (debug_assertions c); [match goal with |- context [in_i ?n ?z] => destruct (in_i n z) end|]; cbn [mret negb]; rewrite ?u_as_i256_of; reflexivity.
  - unfold m_i_sub, m_binopi. unfold mbind.
    erewrite binop_of by ((apply m_isub3_of; assumption) || (apply m_isubc_of; assumption)).
    unfold i_op_sub. rewrite SC, S3. unfold res_map. cbn [bind iu fst snd]. rewrite i_as_u256_of.
    destruct (debug_assertions c); [match goal with |- context [in_i ?n ?z] => destruct (in_i n z) end|]; cbn [mret negb]; rewrite ?u_as_i256_of; reflexivity.
  - unfold m_i_mul, m_binopi. unfold mbind.
    erewrite binop_of by ((apply m_imul3_of; assumption) || (apply m_imulc_of; assumption)).
    unfold i_op_mul. rewrite MC, M3. unfold res_map. cbn [bind iu fst snd]. rewrite i_as_u256_of.
    destruct (debug_assertions c); [match goal with |- context [in_i ?n ?z] => destruct (in_i n z) end|]; cbn [mret negb]; rewrite ?u_as_i256_of; reflexivity.
  - unfold m_i_div, i_op_div. destruct (i_eq_prim c b 0); [reflexivity|].
    erewrite outi_of by apply m_idiv3_of, L. rewrite (back c) by (intros x; apply idiv3_wf; assumption). reflexivity.
  - unfold m_i_rem, i_op_rem. destruct (i_eq_prim c b 0); [reflexivity|].
    erewrite outi_of by apply m_irem3_of, L. rewrite (back c) by (intros x; apply irem3_wf; assumption). reflexivity.
Qed.

Lemma sar3_wf c a s x : wf_i a -> 0 <= s -> s < 256 \/ debug_assertions c = false -> sar3 c a s = Ret x -> wf_i x.
Proof.
  intros W Hs H E. pose proof (ival_range c a W) as R. rewrite <- (iof_ival c a W) in E.
  destruct (Z_lt_ge_dec s 256) as [L|L].
  - rewrite sar3_of in E by lia. injection E as <-. apply wf_iof.
  - destruct H as [H|H]; [lia|]. rewrite sar3_big in E by (assumption || lia). injection E as <-. apply wf_iof.
Qed.

Lemma shift_operators_of c a b s m : wf_i b -> 0 <= s ->
  m_u_shl c a s m = (u_op_shl c a s, m) /\ m_u_shr c a s m = (u_op_shr c a s, m) /\
  m_i_shl c b s m = (i_op_shl c b s, m) /\ m_i_shr c b s m = (i_op_shr c b s, m).
Proof.
  intros W Hs. pose proof (last_lt m) as L.
  unfold m_u_shl, m_u_shr, m_i_shl, m_i_shr, u_op_shl, u_op_shr, i_op_shl, i_op_shr.
  destruct (debug_assertions c && (255 <? s)) eqn:D; [repeat split; reflexivity|].
  assert (B : s < 256 \/ debug_assertions c = false).
  { destruct (debug_assertions c); [left|right; reflexivity]. cbn in D. apply Z.ltb_ge in D. lia. }
  repeat split.
  - apply out_of, m_shl3_of, L.
  - apply out_of, m_shr3_of, L.
  - erewrite outi_of by apply m_shl3_of, L. reflexivity.
  - erewrite outi_of by apply m_sar3_of, L. rewrite (back c); [reflexivity|].
    intros x. apply sar3_wf; assumption.
Qed.

Lemma outc_of f r m : f (length m) (m ++ [None]) = putc (m ++ [None]) (length m) r -> outc f m = (r, m).
Proof.
  intros H. unfold outc, local, mbind. rewrite H. destruct r as [[x o]| | |]; cbn [putc]; rewrite ?firstn_front; try reflexivity.
  rewrite put_last. rewrite (get_of _ _ _ (get_last m x)). cbn [mret]. rewrite firstn_front. reflexivity.
Qed.
Lemma outci_of f r m : f (length m) (m ++ [None]) = putc (m ++ [None]) (length m) r ->
  outci f m = (res_map (fun p => (u_as_i256 (fst p), snd p)) r, m).
Proof.
  intros H. unfold outci, local, mbind. rewrite H. destruct r as [[x o]| | |]; cbn [putc]; rewrite ?firstn_front; try reflexivity.
  rewrite put_last. unfold geti, mbind. rewrite (get_of _ _ _ (get_last m x)). cbn [mret]. rewrite firstn_front. reflexivity.
Qed.

Lemma u_methods_of c a b n m :
  m_u_rotate_left c a n m = (u_rotate_left c a n, m) /\ m_u_rotate_right c a n m = (u_rotate_right c a n, m) /\
  m_u_wrapping_add c a b m = (Ret (u_wrapping_add c a b), m) /\ m_u_wrapping_sub c a b m = (Ret (u_wrapping_sub c a b), m) /\
  m_u_wrapping_mul c a b m = (u_wrapping_mul c a b, m) /\
  m_u_wrapping_shl c a n m = (u_wrapping_shl c a n, m) /\ m_u_wrapping_shr c a n m = (u_wrapping_shr c a n, m) /\
  m_u_overflowing_add c a b m = (Ret (u_overflowing_add c a b), m) /\
  m_u_overflowing_sub c a b m = (Ret (u_overflowing_sub c a b), m) /\
  m_u_overflowing_mul c a b m = (u_overflowing_mul c a b, m).
Proof.
  pose proof (last_lt m) as L. repeat split.
  - apply out_of, m_rol3_of, L.
  - apply out_of, m_ror3_of, L.
  - apply out_of, m_add3_of, L.
  - apply out_of, m_sub3_of, L.
  - apply out_of, m_mul3_of, L.
  - apply out_of, m_shl3_of, L.
  - apply out_of, m_shr3_of, L.
  - apply outc_of, m_uaddc_of, L.
  - apply outc_of, m_usubc_of, L.
  - apply outc_of, m_umulc_of, L.
Qed.

Lemma m_pair_of c a b m : wf_i a -> wf_i b ->
  m_idivmod_pair c a b m = ((let! '(q, orem) := idivmod4 c a b true in let! r := assume_init orem in Ret (q, r)), m).
Proof.
  intros Ha Hb. unfold m_idivmod_pair, local.
  assert (W : forall q r, idivmod4 c a b true = Ret (q, Some r) -> wf_i q /\ wf_i r).
  { intros q r E. destruct (i_division c a b Ha Hb) as [D1 D2]. destruct (Z.eq_dec (ival c b) 0) as [Z|Z].
    - destruct (D2 Z) as [F _]. rewrite F in E. discriminate.
    - destruct (D1 Z) as [F _]. rewrite F in E. injection E as <- <-. split; apply wf_iof. }
  unfold mbind at 1.
  rewrite (m_idivmod4_some c (length m) (length (m ++ [None]))) by (rewrite ?app_length; cbn; lia).
  destruct (idivmod4 c a b true) as [[q [r|]]| | |] eqn:E; unfold res_map; cbn [bind putqr iqr fst snd option_map assume_init].
  - destruct (W q r eq_refl) as [Wq Wr].
    rewrite (put_app (m ++ [None]) [None]) by apply last_lt. rewrite put_last.
    replace (length (m ++ [None])) with (length (m ++ [Some (i_as_u256 q)])) by (rewrite !app_length; reflexivity).
    rewrite put_last. unfold geti, mbind.
    rewrite (get_of _ _ (i_as_u256 q)) by (apply in_front, get_last). cbn [mret].
    rewrite (get_of _ _ _ (get_last _ _)). cbn [mret]. rewrite !firstn_front.
    rewrite (iui c q Wq), (iui c r Wr). reflexivity.
  - exfalso. destruct (i_division c a b Ha Hb) as [D1 D2]. destruct (Z.eq_dec (ival c b) 0) as [Z|Z].
    + destruct (D2 Z) as [F _]. rewrite F in E. discriminate.
    + destruct (D1 Z) as [F _]. rewrite F in E. discriminate.
  - rewrite !firstn_front. reflexivity.
  - rewrite !firstn_front. reflexivity.
  - rewrite !firstn_front. reflexivity.
Qed.

Lemma i_methods_of c a b n m : wf_i a -> wf_i b -> 0 <= n ->
  m_i_rotate_left c a n m = (i_rotate_left c a n, m) /\ m_i_rotate_right c a n m = (i_rotate_right c a n, m) /\
  m_i_wrapping_add c a b m = (Ret (i_wrapping_add c a b), m) /\ m_i_wrapping_sub c a b m = (Ret (i_wrapping_sub c a b), m) /\
  m_i_wrapping_mul c a b m = (i_wrapping_mul c a b, m) /\
  m_i_wrapping_shl c a n m = (i_wrapping_shl c a n, m) /\ m_i_wrapping_shr c a n m = (i_wrapping_shr c a n, m) /\
  m_i_overflowing_add c a b m = (Ret (i_overflowing_add c a b), m) /\
  m_i_overflowing_sub c a b m = (Ret (i_overflowing_sub c a b), m) /\
  m_i_overflowing_mul c a b m = (i_overflowing_mul c a b, m).
Proof.
  intros Ha Hb Hn. pose proof (last_lt m) as L.
  destruct (i_arith c a b Ha Hb) as (_ & A3 & AC & _ & S3 & SC & _ & M3 & MC).
  repeat split.
  - unfold m_i_rotate_left. erewrite outi_of by apply m_rol3_of, L. reflexivity.
  - unfold m_i_rotate_right. erewrite outi_of by apply m_ror3_of, L. reflexivity.
  - unfold m_i_wrapping_add. erewrite outi_of by (apply m_iadd3_of; assumption).
    rewrite (back c); [reflexivity|]. intros x E. injection E as <-. rewrite A3. apply wf_iof.
  - unfold m_i_wrapping_sub. erewrite outi_of by (apply m_isub3_of; assumption).
    rewrite (back c); [reflexivity|]. intros x E. injection E as <-. rewrite S3. apply wf_iof.
  - unfold m_i_wrapping_mul. erewrite outi_of by (apply m_imul3_of; assumption).
    rewrite (back c); [reflexivity|]. intros x E. rewrite M3 in E. injection E as <-. apply wf_iof.
  - unfold m_i_wrapping_shl. erewrite outi_of by apply m_shl3_of, L. reflexivity.
  - unfold m_i_wrapping_shr. erewrite outi_of by apply m_sar3_of, L.
    rewrite (back c); [reflexivity|]. intros x.
    assert (0 <= Z.land n 255 < 256).
    { change 255 with (Z.ones 8). rewrite Z.land_ones by lia. apply Z.mod_pos_bound. lia. }
    apply sar3_wf; [exact Ha | lia | left; lia].
  - unfold m_i_overflowing_add. erewrite outci_of by (apply m_iaddc_of; assumption).
    unfold i_overflowing_add. rewrite AC. unfold res_map. cbn [bind iu fst snd]. rewrite i_as_u256_of, u_as_i256_of. reflexivity.
  - unfold m_i_overflowing_sub. erewrite outci_of by (apply m_isubc_of; assumption).
    unfold i_overflowing_sub. rewrite SC. unfold res_map. cbn [bind iu fst snd]. rewrite i_as_u256_of, u_as_i256_of. reflexivity.
  - unfold m_i_overflowing_mul. erewrite outci_of by (apply m_imulc_of; assumption).
    unfold i_overflowing_mul. rewrite MC. unfold res_map. cbn [bind iu fst snd]. rewrite i_as_u256_of, u_as_i256_of. reflexivity.
Qed.

Lemma division_methods_of c a b x y m : wf_i x -> wf_i y ->
  m_u_div_rem c a b m = (u_div_rem c a b, m) /\
  m_i_checked_div c x y m = (i_checked_div c x y, m) /\ m_i_checked_rem c x y m = (i_checked_rem c x y, m) /\
  m_i_wrapping_div_rem c x y m = (i_wrapping_div_rem c x y, m) /\
  m_i_checked_div_rem c x y m = (i_checked_div_rem c x y, m).
Proof.
  intros Hx Hy. pose proof (last_lt m) as L. repeat split.
  - unfold m_u_div_rem, u_div_rem. destruct (u_eq_prim c b 0). { destruct (is_gt _); reflexivity. }
    destruct (is_le _); [reflexivity|]. unfold local. unfold mbind at 1.
    rewrite (m_udivmod4_some c (length m) (length (m ++ [None]))) by (rewrite ?app_length; cbn; lia).
    destruct (udivmod4 c a b true) as [[q [r|]]| | |] eqn:E; cbn [bind putqr assume_init];
      try (rewrite !firstn_front; reflexivity); [|exfalso; exact (udivmod4_some c a b q E)].
    rewrite (put_app (m ++ [None]) [None]) by apply last_lt. rewrite put_last.
    replace (length (m ++ [None])) with (length (m ++ [Some q])) by (rewrite !app_length; reflexivity).
    rewrite put_last. unfold mbind. rewrite (get_of _ _ q) by (apply in_front, get_last).
    rewrite (get_of _ _ _ (get_last _ _)).
    destruct (u_ge c r b); [cbn [lift]; rewrite !firstn_front; reflexivity|].
    destruct (u_gt c r a); [cbn [lift]; rewrite !firstn_front; reflexivity|].
    destruct (u_gt c q a); cbn [lift mret]; rewrite !firstn_front; reflexivity.
  - unfold m_i_checked_div, i_checked_div. destruct (_ || _); [reflexivity|]. unfold mbind.
    erewrite outi_of by apply m_idiv3_of, L. rewrite (back c) by (intros z; apply idiv3_wf; assumption).
    destruct (idiv3 c x y); reflexivity.
  - unfold m_i_checked_rem, i_checked_rem. destruct (_ || _); [reflexivity|]. unfold mbind.
    erewrite outi_of by apply m_irem3_of, L. rewrite (back c) by (intros z; apply irem3_wf; assumption).
    destruct (irem3 c x y); reflexivity.
  - unfold m_i_wrapping_div_rem, i_wrapping_div_rem. destruct (i_eq_prim c y 0). { destruct (negb _); reflexivity. }
    destruct (i_cmp_zero_is_eq c y); [reflexivity|]. apply m_pair_of; assumption.
  - unfold m_i_checked_div_rem, i_checked_div_rem. destruct (_ || _); [reflexivity|].
    destruct (i_cmp_zero_is_eq c y); [reflexivity|]. unfold mbind. rewrite m_pair_of by assumption.
    destruct (idivmod4 c x y true) as [[q [r|]]| | |]; reflexivity.
Qed.

(** ** Compound assignment *)

Lemma assign_of c p op op2 a r r2 m : nth_error m p = Some (Some a) ->
  (debug_assertions c = true -> op a m = (r, m)) -> (debug_assertions c = false -> op2 m = putr m p r2) ->
  m_assign c p op op2 m = putr m p (if debug_assertions c then r else r2).
Proof.
  intros H H1 H2. unfold m_assign. destruct (debug_assertions c); [|apply H2; reflexivity].
  rewrite (mbind_ret _ _ _ _ _ (get_of _ _ _ H)). unfold mbind. rewrite H1 by reflexivity.
  destruct r; try reflexivity. apply set_of, (held _ _ _ H).
Qed.
Lemma assigni_of c p op op2 a r r2 m : wf_i a -> nth_error m p = Some (Some (i_as_u256 a)) ->
  (debug_assertions c = true -> op a m = (r, m)) ->
  (debug_assertions c = false -> op2 m = putr m p (res_map i_as_u256 r2)) ->
  m_assigni c p op op2 m = putr m p (res_map i_as_u256 (if debug_assertions c then r else r2)).
Proof.
  intros W H H1 H2. unfold m_assigni. destruct (debug_assertions c); [|apply H2; reflexivity].
  rewrite (mbind_ret _ _ _ _ _ (geti_of _ _ _ H)), (iui c a W). unfold mbind. rewrite H1 by reflexivity.
  destruct r; try reflexivity. apply set_of, (held _ _ _ H).
Qed.

Lemma u_assign_of c p a b m : nth_error m p = Some (Some a) ->
  m_u_add_assign c p b m = putr m p (u_op_add_assign c a b) /\
  m_u_sub_assign c p b m = putr m p (u_op_sub_assign c a b) /\
  m_u_mul_assign c p b m = putr m p (u_op_mul_assign c a b) /\
  m_u_div_assign c p b m = putr m p (u_op_div_assign c a b) /\
  m_u_rem_assign c p b m = putr m p (u_op_rem_assign c a b).
Proof.
  intros H. destruct (u_operators_of c a b m) as (E1 & E2 & E3 & E4 & E5).
  repeat split; (eapply assign_of; [exact H | intros _; assumption | intros _]).
  - apply m_add2_of, H.
  - apply m_sub2_of, H.
  - apply m_mul2_of, H.
  - apply m_udiv2_of, H.
  - apply m_urem2_of, H.
Qed.
Lemma i_assign_of c p a b m : wf_i a -> wf_i b -> nth_error m p = Some (Some (i_as_u256 a)) ->
  m_i_add_assign c p b m = putr m p (res_map i_as_u256 (i_op_add_assign c a b)) /\
  m_i_sub_assign c p b m = putr m p (res_map i_as_u256 (i_op_sub_assign c a b)) /\
  m_i_mul_assign c p b m = putr m p (res_map i_as_u256 (i_op_mul_assign c a b)) /\
  m_i_div_assign c p b m = putr m p (res_map i_as_u256 (i_op_div_assign c a b)) /\
  m_i_rem_assign c p b m = putr m p (res_map i_as_u256 (i_op_rem_assign c a b)).
Proof.
  intros Ha Hb H. destruct (i_operators_of c a b m Ha Hb) as (E1 & E2 & E3 & E4 & E5).
  repeat split; (eapply assigni_of; [exact Ha | exact H | intros _; assumption | intros _]).
  - apply m_iadd2_of; assumption.
  - apply m_isub2_of; assumption.
  - apply m_imul2_of; assumption.
  - apply m_idiv2_of; assumption.
  - apply m_irem2_of; assumption.
Qed.

Lemma amount_nonneg c a : amt_ok a -> 0 <= amount_to_u32 c a.
Proof.
  intros H. rewrite amount_to_u32_ok by exact H. destruct (debug_assertions c).
  - destruct (in_u 32 (amt_val c a)) eqn:E; [|lia]. unfold in_u in E. lia.
  - apply Z.mod_pos_bound. lia.
Qed.

Lemma shift_assign_of c p q a b n m : wf_u a -> wf_i b -> amt_ok n ->
  nth_error m p = Some (Some a) -> nth_error m q = Some (Some (i_as_u256 b)) ->
  m_u_shl_assign c p n m = putr m p (u_shl_assign c a n) /\
  m_u_shr_assign c p n m = putr m p (u_shr_assign c a n) /\
  m_i_shl_assign c q n m = putr m q (res_map i_as_u256 (i_shl_assign c b n)) /\
  m_i_shr_assign c q n m = putr m q (res_map i_as_u256 (i_shr_assign c b n)).
Proof.
  intros Wa Wb Hn Hp Hq. pose proof (amount_nonneg c n Hn) as N.
  destruct (shift_operators_of c a b (amount_to_u32 c n) m Wb N) as (E1 & E2 & E3 & E4).
  repeat split.
  - eapply assign_of; [exact Hp | intros _; assumption | intros _]. apply m_shl2_of, Hp.
  - eapply assign_of; [exact Hp | intros _; assumption | intros _]. apply m_shr2_of, Hp.
  - eapply assigni_of; [exact Wb | exact Hq | intros _; assumption | intros D].
    unfold m_ishl2, ishl2. rewrite wf_ret; [apply m_shl2_of, Hq|].
    intros x E. destruct (shift_release c (i_as_u256 b) b n (wf_iu b Wb) Wb Hn D) as [F _].
    inversion F as [|? ? ? F1]; subst. inversion F1 as [|? ? F2 _]; subst.
    unfold u_shl_assign in F2. cbv zeta in F2. rewrite D, E in F2. injection F2 as <-. apply wf_uof.
  - eapply assigni_of; [exact Wb | exact Hq | intros _; assumption | intros D]. apply m_sar2_of; assumption.
Qed.

(** ** The theorems *)

Lemma u_out c m p a b : wf_u a -> wf_u b -> (p < length m)%nat ->
  let x := uval c a in let y := uval c b in
  stores (m_add3 c p a b m) m p (uof c (x + y)) tt /\
  stores (m_uaddc c p a b m) m p (uof c (x + y)) (MAXU <? x + y) /\
  stores (m_sub3 c p a b m) m p (uof c (x - y)) tt /\
  stores (m_usubc c p a b m) m p (uof c (x - y)) (x <? y) /\
  stores (m_mul3 c p a b m) m p (uof c (x * y)) tt /\
  stores (m_umulc c p a b m) m p (uof c (x * y)) (MAXU <? x * y).
Proof.
  intros Ha Hb H x y. destruct (u_arith c a b Ha Hb) as (_ & A3 & AC & _ & S3 & SC & _ & M3 & MC). fold x y in A3, AC, S3, SC, M3, MC.
  repeat split; (apply put_stores; [exact H|]).
  - rewrite m_add3_of by exact H. rewrite A3. reflexivity.
  - rewrite m_uaddc_of by exact H. rewrite AC. reflexivity.
  - rewrite m_sub3_of by exact H. rewrite S3. reflexivity.
  - rewrite m_usubc_of by exact H. rewrite SC. reflexivity.
  - rewrite m_mul3_of by exact H. rewrite M3. reflexivity.
  - rewrite m_umulc_of by exact H. rewrite MC. reflexivity.
Qed.

Lemma i_out c m p a b : wf_i a -> wf_i b -> (p < length m)%nat ->
  let x := ival c a in let y := ival c b in let at_p v := i_as_u256 (iof c v) in
  stores (m_iadd3 c p a b m) m p (at_p (x + y)) tt /\
  stores (m_iaddc c p a b m) m p (at_p (x + y)) (negb (in_i 256 (x + y))) /\
  stores (m_isub3 c p a b m) m p (at_p (x - y)) tt /\
  stores (m_isubc c p a b m) m p (at_p (x - y)) (negb (in_i 256 (x - y))) /\
  stores (m_imul3 c p a b m) m p (at_p (x * y)) tt /\
  stores (m_imulc c p a b m) m p (at_p (x * y)) (negb (in_i 256 (x * y))).
Proof.
  intros Ha Hb H x y at_p. destruct (i_arith c a b Ha Hb) as (_ & A3 & AC & _ & S3 & SC & _ & M3 & MC). fold x y in A3, AC, S3, SC, M3, MC.
  repeat split; (apply put_stores; [exact H|]).
  - rewrite m_iadd3_of by assumption. rewrite A3. reflexivity.
  - rewrite m_iaddc_of by assumption. rewrite AC. reflexivity.
  - rewrite m_isub3_of by assumption. rewrite S3. reflexivity.
  - rewrite m_isubc_of by assumption. rewrite SC. reflexivity.
  - rewrite m_imul3_of by assumption. rewrite M3. reflexivity.
  - rewrite m_imulc_of by assumption. rewrite MC. reflexivity.
Qed.

Lemma shift_out_place c m p a b n : wf_u a -> wf_i b -> 0 <= n < 256 -> (p < length m)%nat ->
  let x := uval c a in let y := ival c b in
  stores (m_shl3 c p a n m) m p (uof c (x * 2 ^ n)) tt /\
  stores (m_shr3 c p a n m) m p (uof c (x / 2 ^ n)) tt /\
  stores (m_ishl3 c p b n m) m p (i_as_u256 (iof c (y * 2 ^ n))) tt /\
  stores (m_sar3 c p b n m) m p (i_as_u256 (iof c (y / 2 ^ n))) tt.
Proof.
  intros Ha Hb Hn H x y. destruct (shift_functions c a b n Ha Hb Hn) as (_ & E1 & _ & E2 & _ & E3 & _ & E4). fold x y in E1, E2, E3, E4.
  repeat split; (apply put_stores; [exact H|]).
  - rewrite m_shl3_of by exact H. rewrite E1. reflexivity.
  - rewrite m_shr3_of by exact H. rewrite E2. reflexivity.
  - unfold m_ishl3. rewrite m_shl3_of by exact H. unfold y. rewrite <- (iof_ival c b Hb) at 1.
    rewrite !i_as_u256_of, shl3_of by exact Hn. reflexivity.
  - rewrite m_sar3_of by exact H. rewrite E4. reflexivity.
Qed.

Lemma u_div_out c m p q a b : wf_u a -> wf_u b -> (p < length m)%nat -> (q < length m)%nat -> p <> q ->
  let x := uval c a in let y := uval c b in
  (y <> 0 ->
    stores2 (m_udivmod4 c p a b (Some q) m) m p (uof c (x / y)) q (uof c (x mod y)) /\
    stores (m_udivmod4 c p a b None m) m p (uof c (x / y)) tt /\
    stores (m_udiv3 c p a b m) m p (uof c (x / y)) tt /\
    stores (m_urem3 c p a b m) m p (uof c (x mod y)) tt) /\
  (y = 0 -> Forall (stopped "attempt to divide by zero" m)
    [m_udivmod4 c p a b (Some q) m; m_udivmod4 c p a b None m; m_udiv3 c p a b m; m_urem3 c p a b m]).
Proof.
  intros Ha Hb Hp Hq N x y. destruct (u_division c a b Ha Hb) as [D1 D2]. fold x y in D1, D2. split; intros Hy.
  - destruct (D1 Hy) as (E1 & E2 & _ & E3 & _ & E4). split; [|repeat split].
    + rewrite m_udivmod4_some by assumption. rewrite E1. eexists. split; [reflexivity|]. apply put_wrote2; assumption.
    + rewrite m_udivmod4_none by assumption. rewrite E2. apply putr_stores; [assumption | reflexivity].
    + rewrite m_udiv3_of by assumption. apply putr_stores; assumption.
    + rewrite m_urem3_of by assumption. apply putr_stores; assumption.
  - destruct (D2 Hy) as (E1 & F). rewrite Forall_forall in F.
    assert (G : forall r, In r [udiv2 c a b; udiv3 c a b; urem2 c a b; urem3 c a b] -> putr m p r = (Panic "attempt to divide by zero", m))
      by (intros r I; rewrite <- (F r I); reflexivity).
    apply Forall_cons; [|apply Forall_cons; [|apply Forall_cons; [|apply Forall_cons; [|apply Forall_nil]]]]; unfold stopped.
    + rewrite m_udivmod4_some by assumption. rewrite E1. reflexivity.
    + rewrite m_udivmod4_none by assumption. rewrite E1. reflexivity.
    + rewrite m_udiv3_of by assumption. apply G. cbn. auto.
    + rewrite m_urem3_of by assumption. apply G. cbn. auto.
Qed.

Lemma i_div_out c m p q a b : wf_i a -> wf_i b -> (p < length m)%nat -> (q < length m)%nat -> p <> q ->
  let x := ival c a in let y := ival c b in let at_p v := i_as_u256 (iof c v) in
  (y <> 0 ->
    stores2 (m_idivmod4 c p a b (Some q) m) m p (at_p (Z.quot x y)) q (at_p (Z.rem x y)) /\
    stores (m_idivmod4 c p a b None m) m p (at_p (Z.quot x y)) tt /\
    stores (m_idiv3 c p a b m) m p (at_p (Z.quot x y)) tt /\
    stores (m_irem3 c p a b m) m p (at_p (Z.rem x y)) tt) /\
  (y = 0 -> Forall (stopped "attempt to divide by zero" m)
    [m_idivmod4 c p a b (Some q) m; m_idivmod4 c p a b None m; m_idiv3 c p a b m; m_irem3 c p a b m]).
Proof.
  intros Ha Hb Hp Hq N x y at_p. destruct (i_division c a b Ha Hb) as [D1 D2]. fold x y in D1, D2. split; intros Hy.
  - destruct (D1 Hy) as (E1 & E2 & _ & E3 & _ & E4). split; [|repeat split].
    + rewrite m_idivmod4_some by assumption. rewrite E1. eexists. split; [reflexivity|]. apply put_wrote2; assumption.
    + rewrite m_idivmod4_none by assumption. rewrite E2. apply putr_stores; [assumption | reflexivity].
    + rewrite m_idiv3_of by assumption. rewrite E3. apply putr_stores; [assumption | reflexivity].
    + rewrite m_irem3_of by assumption. rewrite E4. apply putr_stores; [assumption | reflexivity].
  - destruct (D2 Hy) as (E1 & F). rewrite Forall_forall in F.
    assert (G : forall r, In r [idiv2 c a b; idiv3 c a b; irem2 c a b; irem3 c a b] ->
                putr m p (res_map i_as_u256 r) = (Panic "attempt to divide by zero", m))
      by (intros r I; rewrite <- (F r I); reflexivity).
    apply Forall_cons; [|apply Forall_cons; [|apply Forall_cons; [|apply Forall_cons; [|apply Forall_nil]]]]; unfold stopped.
    + rewrite m_idivmod4_some by assumption. rewrite E1. reflexivity.
    + rewrite m_idivmod4_none by assumption. rewrite E1. reflexivity.
    + rewrite m_idiv3_of by assumption. apply G. cbn. auto.
    + rewrite m_irem3_of by assumption. apply G. cbn. auto.
Qed.

Lemma u_in_place c m p a b n : wf_u a -> wf_u b -> 0 <= n < 256 -> nth_error m p = Some (Some a) ->
  let x := uval c a in let y := uval c b in
  stores (m_add2 c p b m) m p (uof c (x + y)) tt /\
  stores (m_sub2 c p b m) m p (uof c (x - y)) tt /\
  stores (m_mul2 c p b m) m p (uof c (x * y)) tt /\
  stores (m_shl2 c p n m) m p (uof c (x * 2 ^ n)) tt /\
  stores (m_shr2 c p n m) m p (uof c (x / 2 ^ n)) tt /\
  (y <> 0 -> stores (m_udiv2 c p b m) m p (uof c (x / y)) tt /\ stores (m_urem2 c p b m) m p (uof c (x mod y)) tt) /\
  (y = 0 -> Forall (stopped "attempt to divide by zero" m) [m_udiv2 c p b m; m_urem2 c p b m]).
Proof.
  intros Ha Hb Hn H x y. pose proof (held _ _ _ H) as L.
  destruct (u_arith c a b Ha Hb) as (A & _ & _ & S & _ & _ & M & _). fold x y in A, S, M.
  assert (W : wf_i I256_ZERO) by (unfold wf_i; cbn; lia).
  destruct (shift_functions c a I256_ZERO n Ha W Hn) as (E1 & _ & E2 & _). fold x in E1, E2.
  destruct (u_division c a b Ha Hb) as [D1 D2]. fold x y in D1, D2.
  split; [|split; [|split; [|split; [|split; [|split]]]]].
  - rewrite (m_add2_of _ _ _ _ _ H), A. apply putr_stores; auto.
  - rewrite (m_sub2_of _ _ _ _ _ H), S. apply putr_stores; auto.
  - rewrite (m_mul2_of _ _ _ _ _ H), M. apply putr_stores; auto.
  - rewrite (m_shl2_of _ _ _ _ _ H), E1. apply putr_stores; auto.
  - rewrite (m_shr2_of _ _ _ _ _ H), E2. apply putr_stores; auto.
  - intros Hy. destruct (D1 Hy) as (_ & _ & Q & _ & R & _). split.
    + rewrite (m_udiv2_of _ _ _ _ _ H), Q. apply putr_stores; auto.
    + rewrite (m_urem2_of _ _ _ _ _ H), R. apply putr_stores; auto.
  - intros Hy. destruct (D2 Hy) as (_ & F). rewrite Forall_forall in F.
    apply Forall_cons; [|apply Forall_cons; [|apply Forall_nil]]; unfold stopped.
    + rewrite (m_udiv2_of _ _ _ _ _ H), <- (F (udiv2 c a b)) by (cbn; auto). reflexivity.
    + rewrite (m_urem2_of _ _ _ _ _ H), <- (F (urem2 c a b)) by (cbn; auto). reflexivity.
Qed.

Lemma i_in_place c m p a b n : wf_i a -> wf_i b -> 0 <= n < 256 -> nth_error m p = Some (Some (i_as_u256 a)) ->
  let x := ival c a in let y := ival c b in let at_p v := i_as_u256 (iof c v) in
  stores (m_iadd2 c p b m) m p (at_p (x + y)) tt /\
  stores (m_isub2 c p b m) m p (at_p (x - y)) tt /\
  stores (m_imul2 c p b m) m p (at_p (x * y)) tt /\
  stores (m_ishl2 c p n m) m p (at_p (x * 2 ^ n)) tt /\
  stores (m_sar2 c p n m) m p (at_p (x / 2 ^ n)) tt /\
  (y <> 0 -> stores (m_idiv2 c p b m) m p (at_p (Z.quot x y)) tt /\ stores (m_irem2 c p b m) m p (at_p (Z.rem x y)) tt) /\
  (y = 0 -> Forall (stopped "attempt to divide by zero" m) [m_idiv2 c p b m; m_irem2 c p b m]).
Proof.
  intros Ha Hb Hn H x y at_p. pose proof (held _ _ _ H) as L.
  destruct (i_arith c a b Ha Hb) as (A & _ & _ & S & _ & _ & M & _). fold x y in A, S, M.
  destruct (shift_functions c (i_as_u256 a) a n (wf_iu a Ha) Ha Hn) as (_ & _ & _ & _ & _ & _ & E2 & _). fold x in E2.
  destruct (i_division c a b Ha Hb) as [D1 D2]. fold x y in D1, D2.
  split; [|split; [|split; [|split; [|split; [|split]]]]].
  - rewrite (m_iadd2_of _ _ _ _ _ Ha Hb H), A. apply putr_stores; auto.
  - rewrite (m_isub2_of _ _ _ _ _ Ha Hb H), S. apply putr_stores; auto.
  - rewrite (m_imul2_of _ _ _ _ _ Ha Hb H), M. apply putr_stores; auto.
  - unfold m_ishl2. rewrite (m_shl2_of _ _ _ _ _ H). unfold at_p. rewrite i_as_u256_of.
    apply putr_stores; [exact L|]. unfold x. rewrite <- (iof_ival c a Ha) at 1. rewrite i_as_u256_of.
    assert (W : wf_i I256_ZERO) by (unfold wf_i; cbn; lia).
    destruct (shift_functions c (uof c (ival c a)) I256_ZERO n (wf_uof _ _) W Hn) as (E & _). rewrite E.
    f_equal. apply uof_cong. rewrite uval_uof. rewrite Zmult_mod_idemp_l. reflexivity.
  - rewrite (m_sar2_of _ _ _ _ _ H Ha), E2. apply putr_stores; auto.
  - intros Hy. destruct (D1 Hy) as (_ & _ & Q & _ & R & _). split.
    + rewrite (m_idiv2_of _ _ _ _ _ Ha H), Q. apply putr_stores; auto.
    + rewrite (m_irem2_of _ _ _ _ _ Ha H), R. apply putr_stores; auto.
  - intros Hy. destruct (D2 Hy) as (_ & F). rewrite Forall_forall in F.
    apply Forall_cons; [|apply Forall_cons; [|apply Forall_nil]]; unfold stopped.
    + rewrite (m_idiv2_of _ _ _ _ _ Ha H), <- (F (idiv2 c a b)) by (cbn; auto). reflexivity.
    + rewrite (m_irem2_of _ _ _ _ _ Ha H), <- (F (irem2 c a b)) by (cbn; auto). reflexivity.
Qed.

Lemma u_compound c m p a b : wf_u a -> wf_u b -> nth_error m p = Some (Some a) ->
  let x := uval c a in let y := uval c b in
  let checked s msg := if debug_assertions c && negb (in_u 256 s) then Panic msg else Ret (uof c s) in
  updates (m_u_add_assign c p b m) m p (checked (x + y) "attempt to add with overflow"%string) /\
  updates (m_u_sub_assign c p b m) m p (checked (x - y) "attempt to subtract with overflow"%string) /\
  updates (m_u_mul_assign c p b m) m p (checked (x * y) "attempt to multiply with overflow"%string) /\
  updates (m_u_div_assign c p b m) m p (if y =? 0 then Panic "attempt to divide by zero" else Ret (uof c (x / y))) /\
  (y <> 0 -> updates (m_u_rem_assign c p b m) m p (Ret (uof c (x mod y)))) /\
  (y = 0 -> exists msg, stopped msg m (m_u_rem_assign c p b m)).
Proof.
  intros Ha Hb H x y checked. pose proof (held _ _ _ H) as L.
  destruct (u_assign_of c p a b m H) as (-> & -> & -> & -> & ->).
  destruct (u_operators c a b Ha Hb) as (F1 & F2 & F3). fold x y in F1, F2, F3.
  pose proof (uval_range c a Ha) as Rx. pose proof (uval_range c b Hb) as Ry. fold x in Rx. fold y in Ry.
  pose proof (u_op_div_assign_of c x y Rx Ry) as Q. pose proof (u_op_rem_assign_of c x y Rx Ry) as R.
  unfold x at 1 in Q. unfold y at 1 in Q. unfold x at 1 in R. unfold y at 1 in R.
  rewrite !uof_uval in Q, R by assumption.
  assert (G : forall s msg r, eq (checked s msg) r -> updates (putr m p r) m p (checked s msg)).
  { intros s msg r E. rewrite <- E. apply putr_updates; [exact L|]. unfold checked. destruct (debug_assertions c && negb (in_u 256 s)); exact I. }
  assert (T : forall A (P : A -> Prop) z t, Forall P [z; t] -> P t).
  { intros A P z t F. inversion F as [|? ? _ F']; subst. inversion F'; assumption. }
  split; [exact (G _ _ _ (T _ _ _ _ F1))|]. split; [exact (G _ _ _ (T _ _ _ _ F2))|]. split; [exact (G _ _ _ (T _ _ _ _ F3))|].
  split; [|split].
  - rewrite Q. apply putr_updates; [exact L|]. destruct (y =? 0); exact I.
  - intros Hy. rewrite R. rewrite (proj2 (Z.eqb_neq y 0) Hy). apply putr_updates; [exact L | exact I].
  - intros Hy. rewrite R, Hy. eexists. reflexivity.
Qed.

Lemma i_compound c m p a b : wf_i a -> wf_i b -> nth_error m p = Some (Some (i_as_u256 a)) ->
  let x := ival c a in let y := ival c b in let at_p v := i_as_u256 (iof c v) in
  let checked s msg := if debug_assertions c && negb (in_i 256 s) then Panic msg else Ret (at_p s) in
  updates (m_i_add_assign c p b m) m p (checked (x + y) "attempt to add with overflow"%string) /\
  updates (m_i_sub_assign c p b m) m p (checked (x - y) "attempt to subtract with overflow"%string) /\
  updates (m_i_mul_assign c p b m) m p (checked (x * y) "attempt to multiply with overflow"%string) /\
  updates (m_i_div_assign c p b m) m p (if y =? 0 then Panic "attempt to divide by zero" else Ret (at_p (Z.quot x y))) /\
  (y <> 0 -> updates (m_i_rem_assign c p b m) m p (Ret (at_p (Z.rem x y)))) /\
  (y = 0 -> exists msg, stopped msg m (m_i_rem_assign c p b m)).
Proof.
  intros Ha Hb H x y at_p checked. pose proof (held _ _ _ H) as L.
  destruct (i_assign_of c p a b m Ha Hb H) as (-> & -> & -> & -> & ->).
  destruct (i_operators c a b Ha Hb) as (F1 & F2 & F3 & _). fold x y in F1, F2, F3.
  pose proof (ival_range c a Ha) as Rx. pose proof (ival_range c b Hb) as Ry. fold x in Rx. fold y in Ry.
  pose proof (i_op_div_assign_of c x y Rx Ry) as Q. pose proof (i_op_rem_assign_of c x y Rx Ry) as R.
  unfold x at 1 in Q. unfold y at 1 in Q. unfold x at 1 in R. unfold y at 1 in R.
  rewrite !iof_ival in Q, R by assumption.
  assert (G : forall s msg r, eq (if debug_assertions c && negb (in_i 256 s) then Panic msg else Ret (iof c s)) r ->
    updates (putr m p (res_map i_as_u256 r)) m p (checked s msg)).
  { intros s msg r E. rewrite <- E. unfold checked, at_p. destruct (debug_assertions c && negb (in_i 256 s)).
    - reflexivity.
    - apply putr_updates; [exact L | exact I]. }
  assert (T : forall A (P : A -> Prop) z t, Forall P [z; t] -> P t).
  { intros A P z t F. inversion F as [|? ? _ F']; subst. inversion F'; assumption. }
  split; [exact (G _ _ _ (T _ _ _ _ F1))|]. split; [exact (G _ _ _ (T _ _ _ _ F2))|]. split; [exact (G _ _ _ (T _ _ _ _ F3))|].
  split; [|split].
  - rewrite Q. destruct (y =? 0); [reflexivity|]. apply putr_updates; [exact L | exact I].
  - intros Hy. rewrite R. rewrite (proj2 (Z.eqb_neq y 0) Hy). apply putr_updates; [exact L | exact I].
  - intros Hy. rewrite R, Hy. eexists. reflexivity.
Qed.

Lemma shift_compound c m p q a b n : wf_u a -> wf_i b -> amt_ok n ->
  nth_error m p = Some (Some a) -> nth_error m q = Some (Some (i_as_u256 b)) ->
  let x := uval c a in let y := ival c b in let s := amt_val c n in let at_q v := i_as_u256 (iof c v) in
  let t := s mod 2 ^ 32 in
  let k := if debug_assertions c then s
           else if llvm c then t mod 256 else if t <? 256 then t else 128 + t mod 128 in
  let checked v msg := if debug_assertions c && negb (in_u 8 s) then Panic msg else Ret v in
  updates (m_u_shl_assign c p n m) m p (checked (uof c (x * 2 ^ k)) "attempt to shift left with overflow"%string) /\
  updates (m_u_shr_assign c p n m) m p (checked (uof c (x / 2 ^ k)) "attempt to shift right with overflow"%string) /\
  updates (m_i_shl_assign c q n m) m q (checked (at_q (y * 2 ^ k)) "attempt to shift left with overflow"%string) /\
  updates (m_i_shr_assign c q n m) m q (checked (at_q (y / 2 ^ k)) "attempt to shift right with overflow"%string).
Proof.
  intros Ha Hb Hn Hp Hq x y s at_q t k checked.
  pose proof (held _ _ _ Hp) as Lp. pose proof (held _ _ _ Hq) as Lq.
  destruct (shift_assign_of c p q a b n m Ha Hb Hn Hp Hq) as (-> & -> & -> & ->).
  assert (T : forall A (P : A -> Prop) z t r, Forall P (z :: t :: r) -> P t).
  { intros A P z t' r F. inversion F as [|? ? _ F']; subst. inversion F'; assumption. }
  assert (G : forall r o v, (p < length m)%nat -> o = Ret v -> r = Ret v -> updates (putr m p r) m p o).
  { intros r o v HL -> ->. apply putr_updates; [exact HL | exact I]. }
  unfold checked, k. destruct (debug_assertions c) eqn:D; cbn [andb].
  - destruct (in_u 8 s) eqn:U; cbn [negb].
    + assert (Hs : 0 <= s < 256) by (unfold in_u in U; lia).
      destruct (shift_family c a b n Ha Hb Hn Hs) as (F1 & F2 & F3 & F4). fold x y s in F1, F2, F3, F4.
      rewrite <- (T _ _ _ _ _ F1), <- (T _ _ _ _ _ F2), <- (T _ _ _ _ _ F3), <- (T _ _ _ _ _ F4).
      split; [|split; [|split]]; (apply putr_updates; [assumption | exact I]).
    + assert (Hs : ~ (0 <= s < 256)) by (unfold in_u in U; lia).
      destruct (shift_debug_panics c a b n Ha Hb Hn D Hs) as (F1 & F3 & F2 & F4).
      rewrite <- (T _ _ _ _ _ F1), <- (T _ _ _ _ _ F2), <- (T _ _ _ _ _ F3), <- (T _ _ _ _ _ F4).
      repeat split.
  - destruct (shift_release c a b n Ha Hb Hn D) as (F1 & F2 & F3 & F4). fold x y s t in F1, F2, F3, F4.
    rewrite <- (T _ _ _ _ _ F1), <- (T _ _ _ _ _ F2), <- (T _ _ _ _ _ F3), <- (T _ _ _ _ _ F4).
    split; [|split; [|split]]; (apply putr_updates; [assumption | exact I]).
Qed.

Lemma bit_assign_of f p a b m : nth_error m p = Some (Some a) ->
  stores (m_bit_assign f p b m) m p (mkU (f (uw0 a) (uw0 b)) (f (uw1 a) (uw1 b))) tt.
Proof.
  intros H. pose proof (held _ _ _ H) as L. apply put_stores; [exact L|]. unfold m_bit_assign.
  rewrite (mbind_ret _ _ _ _ _ (get_of _ _ _ H)), (mbind_ret _ _ _ _ _ (set_of _ _ _ L)).
  rewrite (mbind_ret _ _ _ _ _ (get_of _ _ _ (put_get _ _ _ L))).
  rewrite set_of by (rewrite put_length; exact L). rewrite put_put. reflexivity.
Qed.
Lemma bit_assigni_of (c : cfg) f p a b m : wf_i a -> wf_i b -> nth_error m p = Some (Some (i_as_u256 a)) ->
  (forall x y, - 2 ^ 127 <= x < 2 ^ 127 -> - 2 ^ 127 <= y < 2 ^ 127 -> - 2 ^ 127 <= f x y < 2 ^ 127) ->
  stores (m_bit_assigni f p b m) m p (i_as_u256 (mkI (f (iw0 a) (iw0 b)) (f (iw1 a) (iw1 b)))) tt.
Proof.
  intros Ha Hb H F. pose proof (held _ _ _ H) as L. apply put_stores; [exact L|]. unfold m_bit_assigni, seti.
  rewrite (mbind_ret _ _ _ _ _ (geti_of _ _ _ H)), (iui c a Ha), (mbind_ret _ _ _ _ _ (set_of _ _ _ L)).
  rewrite (mbind_ret _ _ _ _ _ (geti_of _ _ _ (put_get _ _ _ L))).
  rewrite (iui c) by (destruct Ha, Hb; split; cbn; auto). cbn [iw0 iw1].
  rewrite set_of by (rewrite put_length; exact L). rewrite put_put. reflexivity.
Qed.

Lemma f_range f : (forall n a b, 0 < n -> f (wrap_i n a) (wrap_i n b) = wrap_i n (f a b)) ->
  forall x y, - 2 ^ 127 <= x < 2 ^ 127 -> - 2 ^ 127 <= y < 2 ^ 127 -> - 2 ^ 127 <= f x y < 2 ^ 127.
Proof.
  intros F x y Hx Hy.
  rewrite <- (wrap_i_small 128 x), <- (wrap_i_small 128 y), F by lia. apply (wrap_i_range 128). lia.
Qed.

Lemma bitwise_compound c m p q a b x y : wf_u a -> wf_u b -> wf_i x -> wf_i y ->
  nth_error m p = Some (Some a) -> nth_error m q = Some (Some (i_as_u256 x)) ->
  stores (m_u_and_assign p b m) m p (uof c (Z.land (uval c a) (uval c b))) tt /\
  stores (m_u_or_assign p b m) m p (uof c (Z.lor (uval c a) (uval c b))) tt /\
  stores (m_u_xor_assign p b m) m p (uof c (Z.lxor (uval c a) (uval c b))) tt /\
  stores (m_i_and_assign q y m) m q (i_as_u256 (iof c (Z.land (ival c x) (ival c y)))) tt /\
  stores (m_i_or_assign q y m) m q (i_as_u256 (iof c (Z.lor (ival c x) (ival c y)))) tt /\
  stores (m_i_xor_assign q y m) m q (i_as_u256 (iof c (Z.lxor (ival c x) (ival c y)))) tt.
Proof.
  intros Ha Hb Hx Hy Hp Hq.
  rewrite <- u_op_and_of, <- u_op_or_of, <- u_op_xor_of, <- i_op_and_of, <- i_op_or_of, <- i_op_xor_of.
  rewrite !uof_uval, !iof_ival by assumption.
  split; [apply bit_assign_of, Hp|]. split; [apply bit_assign_of, Hp|]. split; [apply bit_assign_of, Hp|].
  split; [|split]; (apply (bit_assigni_of c); try assumption; apply f_range).
  - apply wrap_i_land.
  - apply wrap_i_lor.
  - apply wrap_i_lxor.
Qed.

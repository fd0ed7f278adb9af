(** * clamp and ne: proofs of C64 *)

From Coq Require Import ZArith List String Bool Lia ZifyBool.
From Verif Require Import M_Prim M_Words M_Misc Spec P_Words P_Bytes.
Open Scope Z_scope.

Lemma u_clamp_of c x lo hi : 0 <= x < 2 ^ 256 -> 0 <= lo < 2 ^ 256 -> 0 <= hi < 2 ^ 256 ->
  u_clamp c (uof c x) (uof c lo) (uof c hi) =
  if lo <=? hi then Ret (uof c (Z.max lo (Z.min hi x))) else Panic "assertion failed: min <= max".
Proof.
  intros Hx Hl Hh. unfold u_clamp.
  destruct (u_cmp_family c (uof c lo) (uof c hi) (wf_uof _ _) (wf_uof _ _)) as (_ & _ & _ & E1 & _).
  destruct (u_cmp_family c (uof c x) (uof c lo) (wf_uof _ _) (wf_uof _ _)) as (_ & _ & E2 & _).
  destruct (u_cmp_family c (uof c x) (uof c hi) (wf_uof _ _) (wf_uof _ _)) as (_ & _ & _ & _ & E3 & _).
  rewrite E1, E2, E3, !uval_of_small by assumption.
  destruct (Z.leb_spec lo hi); [|reflexivity]. f_equal.
  destruct (Z.ltb_spec x lo); [f_equal; lia|]. destruct (Z.ltb_spec hi x); f_equal; lia.
Qed.
Lemma i_clamp_of c x lo hi : - 2 ^ 255 <= x < 2 ^ 255 -> - 2 ^ 255 <= lo < 2 ^ 255 -> - 2 ^ 255 <= hi < 2 ^ 255 ->
  i_clamp c (iof c x) (iof c lo) (iof c hi) =
  if lo <=? hi then Ret (iof c (Z.max lo (Z.min hi x))) else Panic "assertion failed: min <= max".
Proof.
  intros Hx Hl Hh. unfold i_clamp.
  destruct (i_cmp_family c (iof c lo) (iof c hi) (wf_iof _ _) (wf_iof _ _)) as (_ & _ & _ & E1 & _).
  destruct (i_cmp_family c (iof c x) (iof c lo) (wf_iof _ _) (wf_iof _ _)) as (_ & _ & E2 & _).
  destruct (i_cmp_family c (iof c x) (iof c hi) (wf_iof _ _) (wf_iof _ _)) as (_ & _ & _ & _ & E3 & _).
  rewrite E1, E2, E3, !ival_of_small by assumption.
  destruct (Z.leb_spec lo hi); [|reflexivity]. f_equal.
  destruct (Z.ltb_spec x lo); [f_equal; lia|]. destruct (Z.ltb_spec hi x); f_equal; lia.
Qed.
Lemma u_ne_of c a b : 0 <= a < 2 ^ 256 -> 0 <= b < 2 ^ 256 -> u_ne c (uof c a) (uof c b) = negb (a =? b).
Proof. intros. unfold u_ne. rewrite u_eq_val, !uval_of_small by auto using wf_uof. reflexivity. Qed.
Lemma i_ne_of c a b : - 2 ^ 255 <= a < 2 ^ 255 -> - 2 ^ 255 <= b < 2 ^ 255 -> i_ne c (iof c a) (iof c b) = negb (a =? b).
Proof. intros. unfold i_ne. rewrite i_eq_val, !ival_of_small by auto using wf_iof. reflexivity. Qed.

Lemma u_clamp_family c x lo hi : wf_u x -> wf_u lo -> wf_u hi ->
  if uval c lo <=? uval c hi then
    exists r, u_clamp c x lo hi = Ret r /\ wf_u r /\ uval c lo <= uval c r <= uval c hi /\
      (forall v, uval c lo <= v <= uval c hi -> Z.abs (uval c x - uval c r) <= Z.abs (uval c x - v)) /\
      (r = x \/ r = lo \/ r = hi) /\ u_clamp c r lo hi = Ret r /\
      r = u_min c (u_max c x lo) hi /\ r = u_max c (u_min c x hi) lo
  else u_clamp c x lo hi = Panic "assertion failed: min <= max".
Proof.
  intros Hx Hl Hh. on_u c x. on_u c lo. on_u c hi. rewrite u_clamp_of by assumption.
  destruct (Z.leb_spec nlo nhi); [|reflexivity].
  exists (uof c (Z.max nlo (Z.min nhi nx))). rewrite uval_of_small by lia.
  split; [reflexivity|]. split; [apply wf_uof|]. split; [lia|]. split; [lia|]. split.
  { destruct (Z.le_gt_cases nx nlo); [right; left; f_equal; lia|].
    destruct (Z.le_gt_cases nx nhi); [left; f_equal; lia|right; right; f_equal; lia]. }
  split. { rewrite u_clamp_of by lia. replace (nlo <=? nhi) with true by lia. do 2 f_equal. lia. }
  assert (C : forall a b, 0 <= a < 2 ^ 256 -> 0 <= b < 2 ^ 256 ->
    u_max c (uof c a) (uof c b) = uof c (Z.max a b) /\ u_min c (uof c a) (uof c b) = uof c (Z.min a b)).
  { intros a b Ha Hb. unfold u_max, u_min. rewrite u_cmp_val, !uval_of_small by auto using wf_uof.
    destruct (Z.compare_spec a b); split; f_equal; lia. }
  rewrite (proj1 (C nx nlo Hnx Hnlo)), (proj2 (C nx nhi Hnx Hnhi)).
  rewrite (proj2 (C (Z.max nx nlo) nhi ltac:(lia) Hnhi)), (proj1 (C (Z.min nx nhi) nlo ltac:(lia) Hnlo)).
  split; f_equal; lia.
Qed.
Lemma i_clamp_family c x lo hi : wf_i x -> wf_i lo -> wf_i hi ->
  if ival c lo <=? ival c hi then
    exists r, i_clamp c x lo hi = Ret r /\ wf_i r /\ ival c lo <= ival c r <= ival c hi /\
      (forall v, ival c lo <= v <= ival c hi -> Z.abs (ival c x - ival c r) <= Z.abs (ival c x - v)) /\
      (r = x \/ r = lo \/ r = hi) /\ i_clamp c r lo hi = Ret r /\
      r = i_min c (i_max c x lo) hi /\ r = i_max c (i_min c x hi) lo
  else i_clamp c x lo hi = Panic "assertion failed: min <= max".
Proof.
  intros Hx Hl Hh. on_i c x. on_i c lo. on_i c hi. rewrite i_clamp_of by assumption.
  destruct (Z.leb_spec nlo nhi); [|reflexivity].
  exists (iof c (Z.max nlo (Z.min nhi nx))). rewrite ival_of_small by lia.
  split; [reflexivity|]. split; [apply wf_iof|]. split; [lia|]. split; [lia|]. split.
  { destruct (Z.le_gt_cases nx nlo); [right; left; f_equal; lia|].
    destruct (Z.le_gt_cases nx nhi); [left; f_equal; lia|right; right; f_equal; lia]. }
  split. { rewrite i_clamp_of by lia. replace (nlo <=? nhi) with true by lia. do 2 f_equal. lia. }
  assert (C : forall a b, - 2 ^ 255 <= a < 2 ^ 255 -> - 2 ^ 255 <= b < 2 ^ 255 ->
    i_max c (iof c a) (iof c b) = iof c (Z.max a b) /\ i_min c (iof c a) (iof c b) = iof c (Z.min a b)).
  { intros a b Ha Hb. unfold i_max, i_min. rewrite i_cmp_val, !ival_of_small by auto using wf_iof.
    destruct (Z.compare_spec a b); split; f_equal; lia. }
  rewrite (proj1 (C nx nlo Hnx Hnlo)), (proj2 (C nx nhi Hnx Hnhi)).
  rewrite (proj2 (C (Z.max nx nlo) nhi ltac:(lia) Hnhi)), (proj1 (C (Z.min nx nhi) nlo ltac:(lia) Hnlo)).
  split; f_equal; lia.
Qed.
Lemma u_clamp_monotone c x y lo hi : wf_u x -> wf_u y -> wf_u lo -> wf_u hi ->
  uval c lo <= uval c hi -> uval c x <= uval c y ->
  exists r s, u_clamp c x lo hi = Ret r /\ u_clamp c y lo hi = Ret s /\ uval c r <= uval c s.
Proof.
  intros Hx Hy Hl Hh. on_u c x. on_u c y. on_u c lo. on_u c hi. intros L M.
  rewrite !u_clamp_of by assumption. replace (nlo <=? nhi) with true by lia.
  eexists. eexists. split; [reflexivity|]. split; [reflexivity|]. rewrite !uval_of_small by lia. lia.
Qed.
Lemma i_clamp_monotone c x y lo hi : wf_i x -> wf_i y -> wf_i lo -> wf_i hi ->
  ival c lo <= ival c hi -> ival c x <= ival c y ->
  exists r s, i_clamp c x lo hi = Ret r /\ i_clamp c y lo hi = Ret s /\ ival c r <= ival c s.
Proof.
  intros Hx Hy Hl Hh. on_i c x. on_i c y. on_i c lo. on_i c hi. intros L M.
  rewrite !i_clamp_of by assumption. replace (nlo <=? nhi) with true by lia.
  eexists. eexists. split; [reflexivity|]. split; [reflexivity|]. rewrite !ival_of_small by lia. lia.
Qed.
Lemma ne_family c a b d e : wf_u a -> wf_u b -> wf_i d -> wf_i e ->
  (u_ne c a b = true <-> a <> b) /\ (i_ne c d e = true <-> d <> e).
Proof.
  intros Ha Hb Hd He. rewrite (uval_inj c a b), (ival_inj c d e) by assumption.
  on_u c a. on_u c b. on_i c d. on_i c e. rewrite u_ne_of, i_ne_of by assumption. split; lia.
Qed.

(** * The benchmarks: proofs *)

From Coq Require Import ZArith List String Bool Lia.
From Verif Require Import M_Prim M_Words M_Intr M_Div M_Mul M_Ops M_UintApi M_IntApi M_Convert M_Bench Spec Spec_Bits Spec_Bench
  P_Words P_AddSub P_DivKnuth P_Ops P_Forms P_Mul P_Convert P_Count P_BitsApi P_Bytes P_Int Spec_Shift.
Import ListNotations.
Local Notation length := List.length.
Open Scope string_scope.
Open Scope Z_scope.

(** ** The drawings *)

Definition sharps (z : Z) : string := match z / 64 with 0 => "####" | 1 => "###" | 2 => "##" | _ => "#" end.
Lemma sharps_drawn v : 0 <= v < 2 ^ 256 -> drawn v (sharps (if v =? 0 then 256 else 255 - Z.log2 v)).
Proof.
  intros V. unfold sharps. destruct (Z.eqb_spec v 0) as [->|N]; [constructor; lia|].
  assert (H : forall a b, 2 ^ a <= v < 2 ^ b -> 0 <= b -> a <= Z.log2 v < b).
  { intros a b R B. split; [|apply Z.log2_lt_pow2; lia]. destruct (Z.le_gt_cases 0 a); [apply Z.log2_le_pow2; lia|].
    pose proof (Z.log2_nonneg v). lia. }
  assert (Q : forall k, k * 64 <= 255 - Z.log2 v < k * 64 + 64 -> (255 - Z.log2 v) / 64 = k).
  { intros k K. symmetry. apply (Z.div_unique_pos _ 64 k (255 - Z.log2 v - k * 64)); lia. }
  destruct (Z.lt_ge_cases v (2 ^ 64)).
  { rewrite (Q 3); [constructor; lia|]. pose proof (H 0 64). lia. }
  destruct (Z.lt_ge_cases v (2 ^ 128)).
  { rewrite (Q 2); [constructor; lia|]. pose proof (H 64 128). lia. }
  destruct (Z.lt_ge_cases v (2 ^ 192)).
  { rewrite (Q 1); [constructor; lia|]. pose proof (H 128 192). lia. }
  rewrite (Q 0); [constructor; lia|]. pose proof (H 192 256). lia.
Qed.

Lemma bench_name_of c v : 0 <= v < 2 ^ 256 -> exists s, bench_name c (uof c v) = Ret s /\ drawn v s.
Proof.
  intros V. unfold bench_name, u_leading_zeros. rewrite ctlz_of by exact V. cbn [bind].
  eexists. split; [reflexivity|]. apply (sharps_drawn v V).
Qed.
Lemma name_drawn c x : wf_u x -> exists s, bench_name c x = Ret s /\ drawn (uval c x) s.
Proof. intros X. on_u c x. apply bench_name_of. lia. Qed.

Lemma iname_drawn c x : wf_i x -> debug_assertions c = false \/ ival c x <> MINI ->
  exists s, bench_iname c x = Ret s /\ drawn_signed (ival c x) s.
Proof.
  intros X M. pose proof (abs_family c x X) as F. cbv zeta in F. destruct F as (_ & _ & _ & _ & _ & A).
  unfold bench_iname. rewrite A. clear A. revert M. on_i c x. unfold MINI. intros M.
  rewrite i_is_negative_of by lia.
  replace (debug_assertions c && negb (in_i 256 (Z.abs nx))) with false.
  2:{ symmetry. rewrite in_i_256. destruct M as [->|M]; [reflexivity|].
      assert (Q : (- 2 ^ 255 <=? Z.abs nx) && (Z.abs nx <? 2 ^ 255) = true).
      { apply andb_true_intro. split; [apply Z.leb_le|apply Z.ltb_lt]; lia. }
      rewrite Q. apply andb_false_r. }
  cbn [bind]. replace (i_leading_zeros c (iof c (Z.abs nx))) with (ctlz c (uof c (Z.abs nx))).
  2:{ unfold i_leading_zeros, ictlz. rewrite i_as_u256_of. reflexivity. }
  rewrite ctlz_of by lia. cbn [bind].
  assert (V : 0 <= Z.abs nx < 2 ^ 256) by lia.
  eexists. split; [reflexivity|]. pose proof (sharps_drawn _ V) as D. unfold sharps in D.
  revert D. generalize ((if Z.abs nx =? 0 then 256 else 255 - Z.log2 (Z.abs nx)) / 64). intros z D.
  destruct (Z.ltb_spec nx 0).
  - rewrite Z.abs_neq in D by lia. destruct z as [|[[?|?|]|[?|?|]|]|?]; cbn; apply (Drawn_negative nx _ ltac:(assumption) D).
  - rewrite Z.abs_eq in D by lia. apply Drawn_positive; [assumption|exact D].
Qed.

Ltac drawn_cases := repeat match goal with H : drawn _ _ |- _ => inversion H; clear H; subst end.
Lemma drawn_unique n s t : drawn n s -> drawn n t -> s = t.
Proof. intros S T. inversion S; inversion T; subst; try reflexivity; lia. Qed.
Lemma drawn_range n s : drawn n s -> 0 <= n < 2 ^ 256.
Proof. intros S. inversion S; lia. Qed.

(** ** The ids *)

Definition good (c : cfg) (b : benchmark) : Prop := wf_job (b_job b) /\ honest c b.
Ltac good_all := repeat (apply Forall_cons; [split;
  [cbn [b_job wf_job]; rewrite ?u_swap_of; auto using wf_uof, wf_iof|unfold honest; cbn [b_job b_group b_param]]|]);
  try apply Forall_nil.

Lemma each_good {A B} (Q : B -> Prop) (f : A -> res (list B)) l :
  Forall (fun x => exists r, f x = Ret r /\ Forall Q r) l -> exists r, each l f = Ret r /\ Forall Q r.
Proof.
  induction 1 as [|x l (r & E & H) _ (r' & E' & H')]; [exists []; split; [reflexivity|constructor]|].
  cbn [each]. rewrite E. cbn [bind]. rewrite E'. cbn [bind]. eexists. split; [reflexivity|]. apply Forall_app. auto.
Qed.

Lemma uval_of c v : 0 <= v < 2 ^ 256 -> uval c (uof c v) = v.
Proof. intros V. rewrite uval_uof. apply Z.mod_small. exact V. Qed.
Lemma ival_of c v : - 2 ^ 255 <= v < 2 ^ 255 -> ival c (iof c v) = v.
Proof. intros V. rewrite ival_iof. apply wrap_i_small; [lia|exact V]. Qed.

Lemma quotient_honest c a b : 0 <= a < 2 ^ 256 -> 0 < b < 2 ^ 256 ->
  exists r, bench_quotient c (uof c a, uof c b) = Ret r /\ Forall (good c) r.
Proof.
  intros A B. unfold bench_quotient.
  destruct (bench_name_of c a A) as (s & -> & S). destruct (bench_name_of c b ltac:(lia)) as (t & -> & T). cbn [bind].
  eexists. split; [reflexivity|]. good_all. rewrite !uval_of by lia. split; [reflexivity|]. split; [lia|].
  exists s, t. auto.
Qed.

Lemma signed_honest c a b tag : - 2 ^ 255 < a < 2 ^ 255 -> - 2 ^ 255 < b < 2 ^ 255 -> tagged (- 2 ^ 255) (2 ^ 255) (a * b) tag ->
  exists r, bench_signed c tag (iof c a, iof c b) = Ret r /\ Forall (good c) r.
Proof.
  intros A B T. unfold bench_signed.
  assert (N : forall v, - 2 ^ 255 < v < 2 ^ 255 -> exists s, bench_iname c (iof c v) = Ret s /\ drawn_signed v s).
  { intros v V. pose proof (iname_drawn c (iof c v) (wf_iof c v)) as H. rewrite ival_of in H by lia. apply H. right. unfold MINI. lia. }
  destruct (N a A) as (s & -> & S). destruct (N b B) as (t & -> & T'). cbn [bind].
  eexists. split; [reflexivity|].
  good_all; rewrite !ival_of by lia; (split; [reflexivity|]); exists s, t, tag; auto.
Qed.

Lemma products_honest c a b tag : 0 <= a < 2 ^ 255 -> 0 <= b < 2 ^ 255 ->
  tagged 0 (2 ^ 256) (a * b) tag -> tagged (- 2 ^ 255) (2 ^ 255) (a * b) tag -> tagged (- 2 ^ 255) (2 ^ 255) (- (a * b)) tag ->
  exists r, bench_products c (uof c a, uof c b, tag) = Ret r /\ Forall (good c) r.
Proof.
  intros A B T P N. unfold bench_products.
  destruct (bench_name_of c a ltac:(lia)) as (s & -> & S). destruct (bench_name_of c b ltac:(lia)) as (t & -> & T'). cbn [bind].
  rewrite !u_as_i_of, !i_wrapping_neg_of.
  assert (E : exists r, each [(iof c a, iof c b); (iof c a, iof c (- b)); (iof c (- a), iof c b); (iof c (- a), iof c (- b))]
                (bench_signed c tag) = Ret r /\ Forall (good c) r).
  { apply each_good. repeat apply Forall_cons; [| | | |apply Forall_nil]; apply signed_honest; try lia.
    - exact P.
    - replace (a * - b) with (- (a * b)) by lia. exact N.
    - replace (- a * b) with (- (a * b)) by lia. exact N.
    - replace (- a * - b) with (a * b) by lia. exact P. }
  destruct E as (r & -> & H). cbn [bind app]. eexists. split; [reflexivity|].
  good_all; [| |exact H]; rewrite !uval_of by lia;
    (split; [reflexivity|]; exists s, t, tag; auto).
Qed.

Lemma counts_honest c v s : drawn v s -> drawn_from_top (uval c (u_swap_bytes (uof c v))) s ->
  exists r, bench_counts c (uof c v) = Ret r /\ Forall (good c) r.
Proof.
  intros D T. unfold bench_counts. destruct (bench_name_of c v (drawn_range _ _ D)) as (s' & -> & D').
  rewrite <- (drawn_unique _ _ _ D D'). cbn [bind]. eexists. split; [reflexivity|].
  good_all; rewrite ?uval_of by (apply (drawn_range _ _ D)); (split; [reflexivity|]); exists s; auto.
Qed.

Definition num (hi lo : Z) : Z := hi * 2 ^ 128 + lo.
Definition n0 := num 0x00017eb02a11f4a9443abc5058e1c2c2 0x3540ba08c848a6eb3a1e1415b0000000.
Definition n1 := num 0x0000000007a5c694c4fb15944398653f 0x724f5c482676cba8ea4e698d75210fe0.
Definition n2 := num 0x0000000000000000024e9ffa7e0bba23 0x451a0df036962a5b327f93054732380a.
Definition n3 := num 0x0000000000000000000000000647a49c 0xf1055ae531427db60296077b1863d256.
Definition n4 := 0x000f4187ab979b49ad893d525a13a5aa.
Definition n5 := 0x000000000edac72a3447ed506fccc42c.
Definition n6 := 0x00000000000000000b96d82991369928.
Definition n7 := 0x00000000000000000000000000000cab.

Lemma wides c :
  wide c 0x00017eb02a11f4a9443abc5058e1c2c2 0x3540ba08c848a6eb3a1e1415b0000000 = Ret (uof c n0) /\
  wide c 0x0000000007a5c694c4fb15944398653f 0x724f5c482676cba8ea4e698d75210fe0 = Ret (uof c n1) /\
  wide c 0x0000000000000000024e9ffa7e0bba23 0x451a0df036962a5b327f93054732380a = Ret (uof c n2) /\
  wide c 0x0000000000000000000000000647a49c 0xf1055ae531427db60296077b1863d256 = Ret (uof c n3).
Proof. destruct c as [d o b u l]. destruct d, o, b, l; vm_compute; repeat split. Qed.

Lemma swapped c :
  drawn_from_top (uval c (u_swap_bytes (uof c n0))) "####" /\ drawn_from_top (uval c (u_swap_bytes (uof c n2))) "###" /\
  drawn_from_top (uval c (u_swap_bytes (uof c n4))) "##" /\ drawn_from_top (uval c (u_swap_bytes (uof c n6))) "#".
Proof.
  destruct c as [d o b u l]. split; [|split; [|split]]; constructor; destruct b; vm_compute; congruence.
Qed.

Lemma benchmarks_honest c : exists l, benchmarks c = Ret l /\ Forall (good c) l.
Proof.
  unfold benchmarks. destruct (wides c) as (-> & -> & -> & ->). cbn [bind]. unfold u_from_prim. rewrite !u_new_of by lia.
  fold n4 n5 n6 n7. destruct (swapped c) as (W0 & W2 & W4 & W6).
  assert (R0 : 2 ^ 240 <= n0 < 2 ^ 241) by (vm_compute; intuition congruence).
  assert (R1 : 2 ^ 218 <= n1 < 2 ^ 219) by (vm_compute; intuition congruence).
  assert (R2 : 2 ^ 185 <= n2 < 2 ^ 186) by (vm_compute; intuition congruence).
  assert (R3 : 2 ^ 154 <= n3 < 2 ^ 155) by (vm_compute; intuition congruence).
  assert (R4 : 2 ^ 115 <= n4 < 2 ^ 116) by (vm_compute; intuition congruence).
  assert (R5 : 2 ^ 91 <= n5 < 2 ^ 92) by (vm_compute; intuition congruence).
  assert (R6 : 2 ^ 59 <= n6 < 2 ^ 60) by (vm_compute; intuition congruence).
  assert (R7 : 2 ^ 11 <= n7 < 2 ^ 12) by (vm_compute; intuition congruence).
  assert (Q : exists r, each (quotients (map (uof c) [n0; n2; n4; n6]) (map (uof c) [n1; n3; n5; n7])) (bench_quotient c) = Ret r /\
                Forall (good c) r).
  { apply each_good. cbn [map quotients tl app]. repeat apply Forall_cons; try apply Forall_nil; apply quotient_honest; lia. }
  cbn [map] in Q. destruct Q as (q & -> & Q). cbn [bind].
  assert (P : exists r, each [(uof c n0, uof c n1, "overflow"); (uof c n3, uof c n5, "no overflow"); (uof c n3, uof c n4, "overflow");
                         (uof c n5, uof c n3, "no overflow"); (uof c n4, uof c n3, "overflow"); (uof c n6, uof c n7, "no overflow")]
                (bench_products c) = Ret r /\ Forall (good c) r).
  { apply each_good. repeat apply Forall_cons; try apply Forall_nil; apply products_honest; try lia; unfold tagged;
      solve [right; split; [reflexivity|nia] | left; split; [reflexivity|nia]]. }
  destruct P as (p & -> & P). cbn [bind].
  assert (K : exists r, each [uof c n0; uof c n2; uof c n4; uof c n6] (bench_counts c) = Ret r /\ Forall (good c) r).
  { apply each_good. repeat apply Forall_cons; try apply Forall_nil.
    - apply (counts_honest c n0 "####"); [constructor; lia|exact W0].
    - apply (counts_honest c n2 "###"); [constructor; lia|exact W2].
    - apply (counts_honest c n4 "##"); [constructor; lia|exact W4].
    - apply (counts_honest c n6 "#"); [constructor; lia|exact W6]. }
  destruct K as (k & -> & K). cbn [bind]. eexists. split; [reflexivity|].
  apply Forall_app. split.
  { good_all. do 2 (split; [reflexivity|]). rewrite !uval_of by lia. lia. }
  apply Forall_app. split; [exact Q|]. apply Forall_app. split.
  { good_all. do 2 (split; [reflexivity|]). rewrite !uval_of by lia. nia. }
  apply Forall_app. split; [exact P|]. apply Forall_app. split; [|exact K].
  good_all; (split; [reflexivity|]).
  { split; [reflexivity|]. rewrite !uval_of by lia. lia. }
  all: first [exists "short"; split; [left; split; [reflexivity|lia]|reflexivity] | exists "long"; split; [right; split; [reflexivity|lia]|reflexivity]].
Qed.

(** ** The runs *)

Lemma same_bits_u v : same_bits (v mod 2 ^ 256) v.
Proof. exists (- (v / 2 ^ 256)). pose proof (Z.div_mod v (2 ^ 256) ltac:(lia)). lia. Qed.
Lemma same_bits_i v : same_bits (wrap_i 256 v) v.
Proof.
  exists (- ((v + 2 ^ 255) / 2 ^ 256)). unfold wrap_i. change (256 - 1) with 255.
  pose proof (Z.div_mod (v + 2 ^ 255) (2 ^ 256) ltac:(lia)). lia.
Qed.
Lemma dbg_true {A} c msg (v : A) : dbg c true msg v = Ret v.
Proof. unfold dbg. rewrite andb_false_r. reflexivity. Qed.
Lemma in_u_256_true v : 0 <= v < 2 ^ 256 -> in_u 256 v = true.
Proof. intros V. rewrite in_u_256. apply andb_true_intro. split; [apply Z.leb_le|apply Z.ltb_lt]; lia. Qed.
Lemma in_u_256_flag v : 0 <= v -> (negb (in_u 256 v) = true <-> 2 ^ 256 <= v).
Proof.
  intros V. rewrite in_u_256. destruct (Z.leb_spec 0 v); [|lia]. destruct (Z.ltb_spec v (2 ^ 256)); cbn; split; intros; congruence || lia.
Qed.
Lemma in_i_256_flag v : negb (in_i 256 v) = true <-> ~ - 2 ^ 255 <= v < 2 ^ 255.
Proof.
  rewrite in_i_256. destruct (Z.leb_spec (- 2 ^ 255) v); destruct (Z.ltb_spec v (2 ^ 255)); cbn; split; intros; congruence || lia.
Qed.
Lemma shift_out_small {A} c s msg (v : Z -> A) : 0 <= s < 256 -> shift_out c s msg v = Ret (v s).
Proof.
  intros S. unfold shift_out, rel_amt. rewrite in_u8_spec, (Z.mod_small s (2 ^ 32)) by lia.
  rewrite (proj2 (Z.leb_le 0 s)), (proj2 (Z.ltb_lt s 256)) by lia. cbn [andb].
  rewrite (Z.mod_small s 256) by lia. destruct (debug_assertions c), (llvm c); reflexivity.
Qed.
Lemma distance_range s d : distance s d -> 0 <= s < 256.
Proof. intros [[_ S]|[_ S]]; lia. Qed.
Lemma rotated_bit c v n i : 0 <= v < 2 ^ 256 -> 0 <= i < 256 ->
  Z.testbit (uval c (uof c (rotl_num v n))) i = Z.testbit v ((i - n) mod 256).
Proof. intros V I. rewrite uval_uof, Z.mod_pow2_bits_low by lia. apply rotl_num_bit; assumption. Qed.

(** the numbers that the operands stand for *)
Ltac operands :=
  cbn [measures];
  repeat match goal with
  | V : 0 <= ?v < 2 ^ 256 |- context [uval ?c (uof ?c ?v)] => rewrite (uval_of_small c v V)
  | V : - 2 ^ 255 <= ?v < 2 ^ 255 |- context [ival ?c (iof ?c ?v)] => rewrite (ival_of_small c v V)
  end.
Lemma job_run c b : wf_job (b_job b) -> honest c b -> exists r, run_job c (b_job b) = Ret r /\ measures c (b_job b) r.
Proof.
  destruct b as [g p j]. unfold honest. cbn [b_job b_group b_param].
  destruct j as [x y|x y|x y|x y|x y|x y|x y|x y|x s|x s|x s|x s|x|x]; unfold wf_job, run_job; intros W H.
  - destruct W as [X Y]. destruct H as (_ & _ & H). revert H. on_u c x. on_u c y. intros H.
    rewrite u_op_add_of, in_u_256_true, dbg_true by lia. eexists. split; [reflexivity|]. operands. apply uval_of. lia.
  - destruct W as [X Y]. destruct H as (_ & H & _). revert H. on_u c x. on_u c y. intros H.
    rewrite u_op_div_of, (proj2 (Z.eqb_neq ny 0)) by lia. eexists. split; [reflexivity|]. operands. apply uval_of.
    split; [apply Z.div_pos; lia|]. apply Z.le_lt_trans with nx; [|lia]. apply Z.div_le_upper_bound; nia.
  - destruct W as [X Y]. destruct H as (_ & _ & H). revert H. on_u c x. on_u c y. intros H.
    rewrite u_op_mul_of, in_u_256_true, dbg_true by nia. eexists. split; [reflexivity|]. operands. apply uval_of. nia.
  - destruct W as [X Y]. destruct H as (_ & _ & H). revert H. on_u c x. on_u c y. intros H.
    rewrite u_op_sub_of, in_u_256_true, dbg_true by lia. eexists. split; [reflexivity|]. operands. apply uval_of. lia.
  - destruct W as [X Y]. clear H. on_u c x. on_u c y. unfold u_wrapping_mul. rewrite mul3_of.
    eexists. split; [reflexivity|]. operands. split; [apply wf_uof|]. rewrite uval_uof. apply same_bits_u.
  - destruct W as [X Y]. clear H. on_u c x. on_u c y. rewrite u_overflowing_mul_of by lia.
    eexists. split; [reflexivity|]. operands. split; [apply wf_uof|]. rewrite uval_uof.
    split; [apply same_bits_u|apply in_u_256_flag; nia].
  - destruct W as [X Y]. clear H. on_i c x. on_i c y. unfold i_wrapping_mul. rewrite imul3_of.
    eexists. split; [reflexivity|]. operands. split; [apply wf_iof|]. rewrite ival_iof. apply same_bits_i.
  - destruct W as [X Y]. clear H. on_i c x. on_i c y. rewrite i_overflowing_mul_of by lia.
    eexists. split; [reflexivity|]. operands. split; [apply wf_iof|]. rewrite ival_iof.
    split; [apply same_bits_i|apply in_i_256_flag].
  - destruct H as (_ & d & D & _). apply distance_range in D. on_u c x.
    rewrite u_shl_amt_of by (cbn; lia). cbn [amt_val]. rewrite shift_out_small by exact D.
    eexists. split; [reflexivity|]. operands. split; [apply wf_uof|]. rewrite uval_uof. apply same_bits_u.
  - destruct H as (_ & d & D & _). apply distance_range in D. on_u c x.
    rewrite u_shr_amt_of by (cbn; lia). cbn [amt_val]. rewrite shift_out_small by exact D.
    eexists. split; [reflexivity|]. operands. apply uval_of.
    pose proof (Z.pow_pos_nonneg 2 s ltac:(lia) ltac:(lia)) as P. revert P. generalize (2 ^ s). intros k P.
    split; [apply Z.div_pos; lia|]. apply Z.le_lt_trans with nx; [|lia]. apply Z.div_le_upper_bound; nia.
  - destruct H as (_ & d & D & _). apply distance_range in D. on_u c x. unfold u_rotate_left.
    rewrite rol3_of by (try lia; right; right; lia). eexists. split; [reflexivity|]. operands.
    intros i I. apply rotated_bit; assumption.
  - destruct H as (_ & d & D & _). apply distance_range in D. on_u c x. unfold u_rotate_right.
    rewrite ror3_of by (try lia; right; right; lia). eexists. split; [reflexivity|]. operands.
    intros i I. rewrite rotated_bit by assumption. f_equal. f_equal. lia.
  - pose proof (runs_family c x I256_ZERO W) as R. destruct R as ((k & E & K) & _); [split; cbn; lia|].
    rewrite E. eexists. split; [reflexivity|]. exact K.
  - pose proof (runs_family c x I256_ZERO W) as R. destruct R as (_ & _ & (k & E & K) & _); [split; cbn; lia|].
    rewrite E. eexists. split; [reflexivity|]. exact K.
Qed.

Definition label (b : benchmark) : string * option string := (b_group b, b_param b).
Definition pair_dec : forall x y : string * option string, {x = y} + {x <> y}.
Proof. repeat decide equality. Defined.

(** ** The labels, the same in every build *)
Definition labels_of (r : res (list benchmark)) : list (string * option string) := match r with Ret l => map label l | _ => [] end.
Definition labels : list (string * option string) := labels_of (benchmarks (Build_cfg true true false 64 false)).
Lemma all_labels c : labels_of (benchmarks c) = labels.
Proof. destruct c as [d o b u l]. destruct d, o, b, l; vm_compute; reflexivity. Qed.
Lemma labels_distinct : NoDup labels.
Proof.
  assert (E : nodup pair_dec labels = labels) by (vm_compute; reflexivity). rewrite <- E. apply NoDup_nodup.
Qed.
Lemma benchmarks_labels c l : benchmarks c = Ret l -> map label l = labels.
Proof. intros E. pose proof (all_labels c) as L. rewrite E in L. exact L. Qed.
Lemma benchmarks_ids c c' l l' : benchmarks c = Ret l -> benchmarks c' = Ret l' ->
  map (fun b => (b_group b, b_param b)) l = map (fun b => (b_group b, b_param b)) l' /\
  NoDup (map (fun b => (b_group b, b_param b)) l) /\ length l = 89%nat.
Proof.
  intros E E'. pose proof (benchmarks_labels c l E) as L. pose proof (benchmarks_labels c' l' E') as L'.
  unfold label in L, L'. rewrite <- (map_length (fun b => (b_group b, b_param b)) l), L, L'.
  split; [reflexivity|]. split; [apply labels_distinct|vm_compute; reflexivity].
Qed.

(** * Texts and serialization compared in two builds: auxiliary lemmas *)

From Coq Require Import ZArith List String Bool Lia ZifyBool.
Import ListNotations. Local Notation length := List.length.
From Verif Require Import M_Prim M_Words M_Intr M_Div M_Mul M_Ops M_UintApi M_IntApi M_Convert M_Float M_Parse M_Fmt M_Serde
  Spec Spec_Shift Spec_Bits Spec_Parse Spec_Fmt Spec_Serde Spec_Convert Spec_Builds Spec_Api
  P_Words P_AddSub P_Bits P_Ops P_Uint P_Int P_Bytes P_Convert P_Parse P_Literal P_Fmt P_Serde P_SerdeNum P_SerdeBytes
  P_Builds P_BuildsBase.
Open Scope Z_scope.

(** ** Parsing *)

Lemma same_result_u c1 c2 (o : result Z) : same c1 c2 (Result U) (result_map (uof c1) o) (result_map (uof c2) o).
Proof. destruct o; [apply same_u|reflexivity]. Qed.
Lemma same_result_i c1 c2 (o : result Z) : same c1 c2 (Result I) (result_map (iof c1) o) (result_map (iof c2) o).
Proof. destruct o; [apply same_i|reflexivity]. Qed.
Lemma radix_cases r : {2 <= r <= 36} + {(2 <=? r) && (r <=? 36) = false}.
Proof. destruct ((2 <=? r) && (r <=? 36)) eqn:E; [left; lia|right; reflexivity]. Qed.
Lemma cmp_parse_u c1 c2 s r p : in_builds (cmp_outcome c1 c2) c1 c2 (Runs (Result U))
  (from_str_radix (u_helper c1) s r p) (from_str_radix (u_helper c2) s r p).
Proof.
  destruct (radix_cases r) as [R|R]; [|unfold from_str_radix; rewrite R; apply run_panic].
  rewrite (from_str_radix_fun _ _ _ _ _ (u_helper_ok c1) R), (from_str_radix_fun _ _ _ _ _ (u_helper_ok c2) R).
  apply run_ret, same_result_u.
Qed.
Lemma cmp_parse_i c1 c2 s r p : in_builds (cmp_outcome c1 c2) c1 c2 (Runs (Result I))
  (from_str_radix (i_helper c1) s r p) (from_str_radix (i_helper c2) s r p).
Proof.
  destruct (radix_cases r) as [R|R]; [|unfold from_str_radix; rewrite R; apply run_panic].
  rewrite (from_str_radix_fun _ _ _ _ _ (i_helper_ok c1) R), (from_str_radix_fun _ _ _ _ _ (i_helper_ok c2) R).
  apply run_ret, same_result_i.
Qed.
Lemma cmp_prefixed_u c1 c2 s : in_builds (cmp_outcome c1 c2) c1 c2 (Runs (Result U))
  (from_str_prefixed (u_helper c1) s) (from_str_prefixed (u_helper c2) s).
Proof.
  rewrite (from_str_prefixed_fun _ _ _ _ (u_helper_ok c1)), (from_str_prefixed_fun _ _ _ _ (u_helper_ok c2)).
  apply run_ret, same_result_u.
Qed.
Lemma cmp_prefixed_i c1 c2 s : in_builds (cmp_outcome c1 c2) c1 c2 (Runs (Result I))
  (from_str_prefixed (i_helper c1) s) (from_str_prefixed (i_helper c2) s).
Proof.
  rewrite (from_str_prefixed_fun _ _ _ _ (i_helper_ok c1)), (from_str_prefixed_fun _ _ _ _ (i_helper_ok c2)).
  apply run_ret, same_result_i.
Qed.
Lemma cmp_visit_str c1 c2 k (p1 p2 : list Z -> res (result (den k))) v :
  in_builds (cmp_outcome c1 c2) c1 c2 (Runs (Result k)) (p1 v) (p2 v) ->
  in_builds (cmp_outcome c1 c2) c1 c2 (Runs (De k)) (format_visit_str p1 v) (format_visit_str p2 v).
Proof.
  unfold format_visit_str. cbn [in_builds]. intros H. destruct (p1 v) as [[]| | |], (p2 v) as [[]| | |]; cbn in H |- *; try contradiction; try congruence; exact H.
Qed.
Lemma cmp_visit_bytes c1 c2 k (p1 p2 : list Z -> res (result (den k))) v :
  in_builds (cmp_outcome c1 c2) c1 c2 (Runs (Result k)) (p1 v) (p2 v) ->
  in_builds (cmp_outcome c1 c2) c1 c2 (Runs (De k)) (format_visit_bytes p1 v) (format_visit_bytes p2 v).
Proof.
  unfold format_visit_bytes. intros H. destruct (utf8_valid v); [apply cmp_visit_str; exact H|]. reflexivity.
Qed.

(** ** Literals *)

(** the outcome of a function that computes the same number in every build *)
Definition numeric {A} (of_ : cfg -> Z -> A) (lo hi : Z) (f : cfg -> res A) : Prop :=
  (exists v, lo <= v < hi /\ forall c, f c = Ret (of_ c v)) \/ (exists m, forall c, f c = Panic m).
Lemma numeric_good {k} (of_ : cfg -> Z -> den k) lo hi f c1 c2 : numeric of_ lo hi f ->
  (forall v, same c1 c2 k (of_ c1 v) (of_ c2 v)) -> in_builds (cmp_outcome c1 c2) c1 c2 (Runs k) (f c1) (f c2).
Proof.
  intros [(v & _ & H)|(m & H)] S; rewrite (H c1), (H c2); [apply run_ret, S|apply run_panic].
Qed.
Lemma cp_loop_numeric r text : lit_radix r -> forall acc, 0 <= acc < 2 ^ 256 ->
  numeric uof 0 (2 ^ 256) (fun c => cp_loop c r text (uof c acc)).
Proof.
  intros R. induction text as [|b t IH]; intros acc A.
  - left. exists acc. auto.
  - assert (E := fun c => cp_loop_step c r b t acc R A).
    destruct (blank b).
    { destruct (IH acc A) as [(v & V & H)|(m & H)]; [left; exists v|right; exists m]; [split; [assumption|]|]; intros c; rewrite E; apply H. }
    destruct (to_digit b r) as [d|] eqn:D; [|right; eexists; exact E].
    destruct ((acc * r + d <? 2 ^ 256) && (low_sum r acc <? 2 ^ 128)) eqn:L; [|right; eexists; exact E].
    assert (0 <= d < r).
    { apply (to_digit_spec r b d (lit_radix_range r R)) in D. exact (digit_range r b d D). }
    assert (0 <= acc * r) by nia.
    destruct (IH (acc * r + d) ltac:(lia)) as [(v & V & H')|(m & H')]; [left; exists v|right; exists m]; [split; [assumption|]|];
      intros c; rewrite E; apply H'.
Qed.
Lemma const_numeric bytes start : numeric uof 0 (2 ^ 256) (fun c => const_from_str_prefixed c bytes start).
Proof.
  assert (E := fun c => const_split c bytes start).
  destruct (skipn start bytes) as [|b0 t] eqn:S; [right; eexists; exact E|].
  destruct (lit_split (b0 :: t)) as [r text] eqn:L.
  destruct (lit_split_spec (b0 :: t) [] r text ltac:(discriminate) L) as (R & _).
  destruct (cp_loop_numeric r text R 0 ltac:(lia)) as [(v & V & H)|(m & H)]; [left; exists v|right; exists m]; [split; [assumption|]|];
    intros c; rewrite E, (U256_ZERO_of c); exact (H c).
Qed.
Lemma u_const_numeric s : numeric uof 0 (2 ^ 256) (fun c => u_const_from_str_prefixed c s).
Proof. destruct s; [right; eexists; reflexivity|]. apply const_numeric. Qed.
Lemma i_finish_numeric negate v : 0 <= v < 2 ^ 256 ->
  numeric iof (- 2 ^ 255) (2 ^ 255) (fun c => i_finish c negate (uof c v)).
Proof.
  intros V.
  assert (EW : forall c, i_finish c negate (uof c v) =
    let int := iof c (signed_by negate v) in
    let s := i_signum128 c int in
    if (negb negate && (s =? -1)) || (negate && (s =? 1)) then Panic "overflows integer type" else Ret int).
  { intros c. unfold i_finish. destruct negate; cbn [signed_by].
    - pose proof (neg_words_of c v V) as W. cbv zeta in W |- *. rewrite W, as_i_words. reflexivity.
    - rewrite u_into_words_of. rewrite <- (as_i_words c v), (Z.mod_small v (2 ^ 256)) by lia.
      replace ((v / 2 ^ 128) mod 2 ^ 128) with (v / 2 ^ 128) by (symmetry; apply Z.mod_small; zz). reflexivity. }
  assert (ES : forall c, i_signum128 c (iof c (signed_by negate v)) = Z.sgn (wrap_i 256 (signed_by negate v))).
  { intros c. rewrite (iof_wrapped c). apply i_signum128_of. apply (wrap_i_range 256). lia. }
  assert (EW' := fun c => EW c). cbv zeta in EW'. 
  destruct ((negb negate && (Z.sgn (wrap_i 256 (signed_by negate v)) =? -1)) || (negate && (Z.sgn (wrap_i 256 (signed_by negate v)) =? 1))) eqn:B.
  - right. eexists. intros c. rewrite EW', ES, B. reflexivity.
  - left. exists (wrap_i 256 (signed_by negate v)). split; [apply (wrap_i_range 256); lia|].
    intros c. rewrite EW', ES, B, iof_wrapped. reflexivity.
Qed.
Lemma i_const_numeric s : numeric iof (- 2 ^ 255) (2 ^ 255) (fun c => i_const_from_str_prefixed c s).
Proof.
  destruct s as [|b0 t]; [right; eexists; reflexivity|].
  assert (EQ : forall c, i_const_from_str_prefixed c (b0 :: t) =
    let! uint := const_from_str_prefixed c (b0 :: t) (snd (sign_i (b0 :: t))) in i_finish c (fst (sign_i (b0 :: t))) uint).
  { intros c. unfold i_const_from_str_prefixed, sign_i. destruct (b0 =? 43); [reflexivity|]. destruct (b0 =? 45); reflexivity. }
  destruct (const_numeric (b0 :: t) (snd (sign_i (b0 :: t)))) as [(v & V & H)|(m & H)].
  - destruct (i_finish_numeric (fst (sign_i (b0 :: t))) v V) as [(w & W & H')|(m & H')]; [left; exists w|right; exists m]; [split; [assumption|]|];
      intros c; rewrite EQ, H; apply H'.
  - right. exists m. intros c. rewrite EQ, H. reflexivity.
Qed.

(** ** Formatting *)

Lemma fmt_same c1 c2 o n b : usize_ok c1 -> usize_ok c2 -> 0 <= n < 2 ^ 256 ->
  exists out, fmt_u256 c1 o (uof c1 n) b = Ret out /\ fmt_u256 c2 o (uof c2 n) b = Ret out.
Proof.
  intros U1 U2 N. destruct (fmt_u256_of c1 o n b U1 N) as (s1 & C1 & ->), (fmt_u256_of c2 o n b U2 N) as (s2 & C2 & ->).
  rewrite (canonical_unique false 10 n s1 s2 ltac:(lia) C1 C2). eexists. split; reflexivity.
Qed.
Lemma radix_same c1 c2 k o n b : usize_ok c1 -> usize_ok c2 -> 0 <= n < 2 ^ 256 ->
  exists out, radix_fmt_u256 c1 k o (uof c1 n) b = Ret out /\ radix_fmt_u256 c2 k o (uof c2 n) b = Ret out.
Proof.
  intros U1 U2 N. destruct (radix_fmt_of c1 k o n b U1 N) as (s1 & C1 & ->), (radix_fmt_of c2 k o n b U2 N) as (s2 & C2 & ->).
  rewrite (canonical_unique (kind_upper k) (r_base k) n s1 s2 ltac:(pose proof (r_base_range k); lia) C1 C2). eexists. split; reflexivity.
Qed.
Definition same_text (f : cfg -> res (list (list Z))) : Prop :=
  forall c1 c2, usize_ok c1 -> usize_ok c2 -> exists out, f c1 = Ret out /\ f c2 = Ret out.
Lemma u_display_same o n : 0 <= n < 2 ^ 256 -> same_text (fun c => u_fmt_display c o (uof c n)).
Proof.
  intros N c1 c2 U1 U2. unfold u_fmt_display, u256_as_u256. rewrite !u_cmp_prim_of, !is_ge_cmp by lia.
  replace (0 <=? n) with true by lia. apply fmt_same; assumption.
Qed.
Lemma i_display_same o n : - 2 ^ 255 <= n < 2 ^ 255 -> same_text (fun c => i_fmt_display c o (iof c n)).
Proof.
  intros N c1 c2 U1 U2. unfold i_fmt_display, i256_as_u256. rewrite !i_cmp_prim_of, !is_ge_cmp by lia.
  destruct (Z.leb_spec 0 n) as [G|G]; rewrite !i_as_u256_of.
  - apply fmt_same; try assumption. lia.
  - rewrite !u_op_not_of. unfold u_wrapping_add. rewrite !U256_ONE_of, !add3_of.
    replace (- n - 1 + 1) with (- n) by lia. apply fmt_same; try assumption. lia.
Qed.
Lemma u_radix_same k o n : 0 <= n < 2 ^ 256 -> same_text (fun c => u_fmt_radix c k o (uof c n)).
Proof.
  intros N c1 c2 U1 U2. unfold u_fmt_radix, u256_as_u256. rewrite !u_cmp_prim_of, !is_lt_cmp by lia.
  replace (n <? 0) with false by lia. cbn [andb]. apply radix_same; assumption.
Qed.
Lemma i_radix_same k o n : - 2 ^ 255 <= n < 2 ^ 255 -> same_text (fun c => i_fmt_radix c k o (iof c n)).
Proof.
  intros N c1 c2 U1 U2. unfold i_fmt_radix, i256_as_u256. rewrite !i_cmp_prim_of, !is_lt_cmp by lia.
  destruct ((n <? 0) && o_minus o) eqn:E.
  - rewrite !i_wrapping_neg_of, !i_as_u256_of. apply radix_same; try assumption. lia.
  - rewrite !i_as_u256_of, <- (uof_mod c1), <- (uof_mod c2). apply radix_same; try assumption. apply Z.mod_pos_bound. lia.
Qed.
Lemma u_debug_same o n : 0 <= n < 2 ^ 256 -> same_text (fun c => u_fmt_debug c o (uof c n)).
Proof.
  intros N. unfold u_fmt_debug. destruct (o_debug_lower o); [apply u_radix_same; assumption|].
  destruct (o_debug_upper o); [apply u_radix_same; assumption|apply u_display_same; assumption].
Qed.
Lemma i_debug_same o n : - 2 ^ 255 <= n < 2 ^ 255 -> same_text (fun c => i_fmt_debug c o (iof c n)).
Proof.
  intros N. unfold i_fmt_debug. destruct (o_debug_lower o); [apply i_radix_same; assumption|].
  destruct (o_debug_upper o); [apply i_radix_same; assumption|apply i_display_same; assumption].
Qed.
Lemma text_good c1 c2 f : comparable c1 c2 -> same_text f -> in_builds (cmp_outcome c1 c2) c1 c2 (Runs Writes) (f c1) (f c2).
Proof.
  intros CM S. destruct (usize_same _ _ CM). destruct (S c1 c2) as (out & -> & ->); try assumption.
  apply run_ret. split; [reflexivity|exact Logic.I].
Qed.

(** ** Serialized texts *)

Lemma u_serialize_same c1 c2 n : usize_ok c1 -> usize_ok c2 -> 0 <= n < 2 ^ 256 ->
  exists h d, u_serialize c1 (uof c1 n) = Ret h /\ u_serialize c2 (uof c2 n) = Ret h /\
              u_serialize_decimal c1 (uof c1 n) = Ret d /\ u_serialize_decimal c2 (uof c2 n) = Ret d.
Proof.
  intros U1 U2 N.
  destruct (u_text c1 (uof c1 n) U1 (wf_uof _ _)) as (s & t & C1 & D1 & E1 & _ & _ & F1 & _).
  destruct (u_text c2 (uof c2 n) U2 (wf_uof _ _)) as (s' & t' & C2 & D2 & E2 & _ & _ & F2 & _).
  rewrite uval_of_small in * by assumption.
  rewrite (canonical_unique false 16 n s' s ltac:(lia) C2 C1) in E2. rewrite (canonical_unique false 10 n t' t ltac:(lia) D2 D1) in F2.
  eexists _, _. eauto.
Qed.
Lemma i_serialize_same c1 c2 n : usize_ok c1 -> usize_ok c2 -> - 2 ^ 255 <= n < 2 ^ 255 ->
  exists h d, i_serialize c1 (iof c1 n) = Ret h /\ i_serialize c2 (iof c2 n) = Ret h /\
              i_serialize_decimal c1 (iof c1 n) = Ret d /\ i_serialize_decimal c2 (iof c2 n) = Ret d.
Proof.
  intros U1 U2 N.
  destruct (i_text c1 (iof c1 n) U1 (wf_iof _ _)) as (s & t & C1 & D1 & E1 & _ & _ & F1 & _).
  destruct (i_text c2 (iof c2 n) U2 (wf_iof _ _)) as (s' & t' & C2 & D2 & E2 & _ & _ & F2 & _).
  rewrite ival_of_small in * by assumption.
  rewrite (canonical_unique false 16 _ s' s ltac:(lia) C2 C1) in E2. rewrite (canonical_unique false 10 _ t' t ltac:(lia) D2 D1) in F2.
  eexists _, _. eauto.
Qed.
Lemma same_any c1 c2 A (x : A) : same c1 c2 (Same A any) x x.
Proof. split; [reflexivity|exact Logic.I]. Qed.

(** ** Numbers *)

Lemma f_as_i64_range x : - 2 ^ 63 <= f_as_i64 x < 2 ^ 63.
Proof.
  destruct x as [| []|neg m e]; cbn [f_as_i64]; try lia. cbv zeta.
  destruct (_ <? - 2 ^ 63) eqn:A; [lia|]. destruct (2 ^ 63 - 1 <? _) eqn:B; lia.
Qed.
Lemma visit_u c v : - 2 ^ 127 <= v < 2 ^ 128 -> visit_int u_cast c v = Ret (DOk (uof c v)).
Proof. intros. apply visit_ints. assumption. Qed.
Lemma visit_i c v : - 2 ^ 127 <= v < 2 ^ 128 -> visit_int i_cast c v = Ret (DOk (iof c v)).
Proof. intros. apply visit_ints. assumption. Qed.
Lemma same_dok c1 c2 k a b : same c1 c2 k a b -> same c1 c2 (De k) (DOk a) (DOk b).
Proof. exact (fun H => H). Qed.
Lemma same_derr c1 c2 k e : same c1 c2 (De k) (DErr e) (DErr e).
Proof. reflexivity. Qed.
Lemma cmp_f64_u c1 c2 x : in_builds (cmp_outcome c1 c2) c1 c2 (Runs (De U)) (visit_f64 u_cast c1 x) (visit_f64 u_cast c2 x).
Proof.
  unfold visit_f64. cbv zeta. pose proof (f_as_i64_range x). rewrite !visit_u by lia.
  destruct (negb _); [apply run_ret, same_derr|]. destruct (negb _); [apply run_ret, same_derr|]. apply run_ret, same_dok, same_u.
Qed.
Lemma cmp_f64_i c1 c2 x : in_builds (cmp_outcome c1 c2) c1 c2 (Runs (De I)) (visit_f64 i_cast c1 x) (visit_f64 i_cast c2 x).
Proof.
  unfold visit_f64. cbv zeta. pose proof (f_as_i64_range x). rewrite !visit_i by lia.
  destruct (negb _); [apply run_ret, same_derr|]. destruct (negb _); [apply run_ret, same_derr|]. apply run_ret, same_dok, same_i.
Qed.

(** ** Bytes *)

Lemma u_to_bytes_nums c o v : 0 <= v < 2 ^ 256 -> u_to_bytes c o (uof c v) = in_order o (le_bytes 32 v).
Proof. intros V. rewrite (proj1 (to_bytes_of c o (uof c v) (iof c 0) (wf_uof _ _) (wf_iof _ _))), uval_of_small by assumption. reflexivity. Qed.
Lemma i_to_bytes_nums c o v : - 2 ^ 255 <= v < 2 ^ 255 -> i_to_bytes c o (iof c v) = in_order o (le_bytes 32 v).
Proof. intros V. rewrite (proj2 (to_bytes_of c o (uof c 0) (iof c v) (wf_uof _ _) (wf_iof _ _))), ival_of_small by assumption. reflexivity. Qed.

Lemma le_ok n v : bytes_ok (le_bytes n v).
Proof. apply le_bytes_range. Qed.
Lemma same_bytes c1 c2 l : bytes_ok l -> same c1 c2 Bytes l l.
Proof. intros H. split; [reflexivity|exact H]. Qed.
Lemma same_seq_bytes s l : Forall (fun e => forall b, e = DOk b -> 0 <= b < 256) (elements s) -> yields s l -> bytes_ok l.
Proof.
  unfold yields, bytes_ok. intros F E. rewrite E, Forall_map in F. revert F. apply Forall_impl. auto.
Qed.
Lemma cmp_bytes_u c1 c2 o v : bytes_ok v ->
  in_builds (cmp_outcome c1 c2) c1 c2 (Runs (De U)) (u_visit_bytes c1 o v) (u_visit_bytes c2 o v).
Proof.
  intros H. rewrite (proj1 (bytes_decoding c1 o v H)), (proj1 (bytes_decoding c2 o v H)). apply run_ret.
  destruct (_ =? 32); [apply same_dok, same_u|apply same_derr].
Qed.
Lemma cmp_bytes_i c1 c2 o v : bytes_ok v ->
  in_builds (cmp_outcome c1 c2) c1 c2 (Runs (De I)) (i_visit_bytes c1 o v) (i_visit_bytes c2 o v).
Proof.
  intros H. rewrite (proj2 (bytes_decoding c1 o v H)), (proj2 (bytes_decoding c2 o v H)). apply run_ret.
  destruct (_ =? 32); [apply same_dok, same_i|apply same_derr].
Qed.
Lemma cmp_compressed_u c1 c2 o v : usize_ok c1 -> usize_ok c2 -> bytes_ok v ->
  in_builds (cmp_outcome c1 c2) c1 c2 (Runs (De U)) (u_compressed_visit_bytes c1 o v) (u_compressed_visit_bytes c2 o v).
Proof.
  intros U1 U2 H. destruct (compressed_decoding c1 o v U1 H) as [A1 B1], (compressed_decoding c2 o v U2 H) as [A2 B2].
  destruct (Z.le_gt_cases (Z.of_nat (length v)) 32) as [L|L].
  - rewrite (proj1 (A1 L)), (proj1 (A2 L)). apply run_ret, same_dok, same_u.
  - rewrite (proj1 (B1 L)), (proj1 (B2 L)). apply run_ret, same_derr.
Qed.
Lemma cmp_compressed_i c1 c2 o v : usize_ok c1 -> usize_ok c2 -> bytes_ok v ->
  in_builds (cmp_outcome c1 c2) c1 c2 (Runs (De I)) (i_compressed_visit_bytes c1 o v) (i_compressed_visit_bytes c2 o v).
Proof.
  intros U1 U2 H. destruct (compressed_decoding c1 o v U1 H) as [A1 B1], (compressed_decoding c2 o v U2 H) as [A2 B2].
  destruct (Z.le_gt_cases (Z.of_nat (length v)) 32) as [L|L].
  - rewrite (proj2 (A1 L)), (proj2 (A2 L)). apply run_ret, same_dok, same_i.
  - rewrite (proj2 (B1 L)), (proj2 (B2 L)). apply run_ret, same_derr.
Qed.

(** what a sequence yields before its bytes are interpreted *)
Definition de_map {A B} (f : A -> B) (x : de A) : de B := match x with DOk a => DOk (f a) | DErr e => DErr e end.
Lemma bytes_seq_natural {A} (f : list Z -> A) s :
  bytes_visit_seq f s = let! r := bytes_visit_seq (fun l => l) s in Ret (de_map f r).
Proof.
  unfold bytes_visit_seq. cbv zeta.
  destruct (size_hint s) as [n|]; [destruct (negb _); [reflexivity|]|];
    (destruct (seq_fill _ _ _ _) as [[[b l]|e]| | |]; cbn [bind]; try reflexivity;
     destruct (seq_end l); try reflexivity; destruct (buf_read b 0 32); reflexivity).
Qed.
Lemma bytes_seq_pre s : (exists l, yields s l /\ length l = 32%nat /\ bytes_visit_seq (fun l => l) s = Ret (DOk l)) \/
  (exists e, bytes_visit_seq (fun l => l) s = Ret (DErr e)).
Proof.
  destruct (bytes_seq_gen (fun l => l) s) as [G1 G2].
  destruct (yields_dec (elements s)) as [(a & EL)|(a & e & r & EL)].
  - destruct (hint_is s (fun n => n =? 32)) eqn:H.
    + destruct (Nat.eq_dec (length a) 32) as [L|L]; [left; exists a; auto|].
      right. apply G2. intros (l & Y & _ & L'). unfold yields in Y. rewrite EL in Y. apply map_DOk_inj in Y. congruence.
    + right. apply G2. intros (l & _ & X & _). discriminate X.
  - right. apply G2. intros (l & Y & _). unfold yields in Y. rewrite EL in Y. exact (no_yield _ _ _ _ Y).
Qed.
Lemma cmp_seq {k} c1 c2 (f1 f2 : list Z -> den k) s :
  (forall l, yields s l -> length l = 32%nat -> same c1 c2 k (f1 l) (f2 l)) ->
  in_builds (cmp_outcome c1 c2) c1 c2 (Runs (De k)) (bytes_visit_seq f1 s) (bytes_visit_seq f2 s).
Proof.
  intros H. rewrite (bytes_seq_natural f1), (bytes_seq_natural f2).
  destruct (bytes_seq_pre s) as [(l & Y & L & E)|(e & E)]; rewrite E; cbn [bind de_map]; apply run_ret; [apply same_dok; auto|apply same_derr].
Qed.

Definition seq_pre (s : seq_access) : res (de (list Z)) :=
  let go :=
    let! r := seq_take 32 0 (uninit 32) (elements s) in
    match r with
    | DErr e => Ret (DErr e)
    | DOk (bytes, i, l) =>
        match (if i =? 32 then seq_end l else DOk tt) with
        | DErr e => Ret (DErr e)
        | DOk _ => let! bytes := buf_read bytes 0 i in Ret (DOk bytes)
        end
    end in
  match size_hint s with
  | Some len => if 32 <? len then Ret (DErr (InvalidLength len)) else go
  | None => go
  end.
Lemma compressed_seq_natural {A} c o ext (f : list Z -> A) s :
  compressed_visit_seq c o ext f s =
  let! r := seq_pre s in match r with DOk l => compressed_visit_bytes c o ext f l | DErr e => Ret (DErr e) end.
Proof.
  unfold compressed_visit_seq, seq_pre. cbv zeta.
  destruct (size_hint s) as [n|]; [destruct (_ <? _); [reflexivity|]|];
    (destruct (seq_take _ _ _ _) as [[[[b i] l]|e]| | |]; cbn [bind]; try reflexivity;
     destruct (if i =? 32 then seq_end l else DOk tt); try reflexivity; destruct (buf_read b 0 i); reflexivity).
Qed.
Lemma cmp_compressed_seq {k} c1 c2 o ext (f1 f2 : list Z -> den k) s : usize_ok c1 -> usize_ok c2 ->
  (forall l, yields s l -> (length l <= 32)%nat -> in_builds (cmp_outcome c1 c2) c1 c2 (Runs (De k))
     (compressed_visit_bytes c1 o ext f1 l) (compressed_visit_bytes c2 o ext f2 l)) ->
  in_builds (cmp_outcome c1 c2) c1 c2 (Runs (De k)) (compressed_visit_seq c1 o ext f1 s) (compressed_visit_seq c2 o ext f2 s).
Proof.
  intros U1 U2 H.
  assert (D : (exists l, yields s l /\ hint_is s (fun n => n <=? 32) = true /\ (length l <= 32)%nat) \/
              ~ (exists l, yields s l /\ hint_is s (fun n => n <=? 32) = true /\ (length l <= 32)%nat)).
  { destruct (yields_dec (elements s)) as [(a & EL)|(a & e & r & EL)].
    - destruct (hint_is s (fun n => n <=? 32)) eqn:HH; [|right; intros (l & _ & X & _); discriminate X].
      destruct (le_dec (length a) 32) as [L|L]; [left; exists a; auto|].
      right. intros (l & Y & _ & L'). unfold yields in Y. rewrite EL in Y. apply map_DOk_inj in Y. congruence.
    - right. intros (l & Y & _). unfold yields in Y. rewrite EL in Y. exact (no_yield _ _ _ _ Y). }
  destruct D as [(l & Y & HH & L)|N].
  - rewrite (proj1 (compressed_seq_gen c1 o ext f1 s) l Y HH L), (proj1 (compressed_seq_gen c2 o ext f2 s) l Y HH L). auto.
  - destruct (proj2 (compressed_seq_gen c1 o ext f1 s) N) as [e1 E1], (proj2 (compressed_seq_gen c2 o ext f2 s) N) as [e2 E2].
    rewrite E1, E2. rewrite compressed_seq_natural in E1, E2.
    destruct (seq_pre s) as [[l|e]| | |]; cbn [bind] in E1, E2; try discriminate; [|apply run_ret; cbn; congruence].
    destruct (le_gt_dec (length l) 32) as [L|L].
    + exfalso. destruct (expand_of c1 o ext f1 l U1 L) as (bs & _ & X). congruence.
    + unfold compressed_visit_bytes in E1, E2. replace (32 <? Z.of_nat (length l)) with true in E1, E2 by lia. apply run_ret. cbn. congruence.
Qed.
Lemma from_bytes_u c1 c2 o l : bytes_ok l -> length l = 32%nat -> same c1 c2 U (u_from_bytes c1 o l) (u_from_bytes c2 o l).
Proof. intros H L. rewrite !(fun c => proj1 (from_bytes_of c o l (conj L H))). apply same_u. Qed.
Lemma from_bytes_i c1 c2 o l : bytes_ok l -> length l = 32%nat -> same c1 c2 I (i_from_bytes c1 o l) (i_from_bytes c2 o l).
Proof. intros H L. rewrite !(fun c => proj2 (from_bytes_of c o l (conj L H))). apply same_i. Qed.

(** ** Compressed bytes *)

Lemma same_least o v v' : bytes_ok v -> bytes_ok v' -> length v = length v' -> value_le (in_order o v) = value_le (in_order o v') -> v = v'.
Proof.
  intros B B' L E. rewrite <- (order_rev o v), <- (order_rev o v'). f_equal.
  rewrite <- (le_bytes_value (in_order o v)) by (apply order_ok; assumption).
  rewrite <- (le_bytes_value (in_order o v')) by (apply order_ok; assumption).
  rewrite !order_length, E, L. reflexivity.
Qed.
Lemma u_ser_compressed_same c1 c2 o n : usize_ok c1 -> usize_ok c2 -> 0 <= n < 2 ^ 256 ->
  exists v, bytes_ok v /\ u_ser_compressed c1 o (uof c1 n) = Ret v /\ u_ser_compressed c2 o (uof c2 n) = Ret v.
Proof.
  intros U1 U2 N.
  destruct (u_compressed c1 o (uof c1 n) U1 (wf_uof _ _)) as (v & E & B & V & L & _).
  destruct (u_compressed c2 o (uof c2 n) U2 (wf_uof _ _)) as (v' & E' & B' & V' & L' & _).
  rewrite uval_of_small in * by assumption.
  assert (v = v'); [|subst v'; eauto]. apply (same_least o); try assumption; [|congruence].
  pose proof (least_unique _ _ _ L L'). lia.
Qed.
Lemma i_ser_compressed_same c1 c2 o n : usize_ok c1 -> usize_ok c2 -> - 2 ^ 255 <= n < 2 ^ 255 ->
  exists v, bytes_ok v /\ i_ser_compressed c1 o (iof c1 n) = Ret v /\ i_ser_compressed c2 o (iof c2 n) = Ret v.
Proof.
  intros U1 U2 N.
  destruct (i_compressed c1 o (iof c1 n) U1 (wf_iof _ _)) as (v & E & B & V & L & _).
  destruct (i_compressed c2 o (iof c2 n) U2 (wf_iof _ _)) as (v' & E' & B' & V' & L' & _).
  rewrite ival_of_small in * by assumption.
  assert (length v = length v') as LL by (pose proof (least_unique _ _ _ L L'); lia).
  assert (v = v'); [|subst v'; eauto]. apply (same_least o); try assumption. congruence.
Qed.

(** ** Memory *)

Lemma same_endian_u c1 c2 v : same_endian c1 c2 -> uof c1 v = uof c2 v.
Proof. unfold same_endian, uof. intros ->. reflexivity. Qed.
Lemma same_endian_i c1 c2 v : same_endian c1 c2 -> iof c1 v = iof c2 v.
Proof. unfold same_endian, iof. intros ->. reflexivity. Qed.

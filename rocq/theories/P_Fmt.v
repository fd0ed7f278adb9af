(** * Formatting *)

From Coq Require Import ZArith String List Bool Lia ZifyBool.
Import ListNotations.
From Verif Require Import M_Prim M_Words M_Intr M_Div M_Ops M_UintApi M_IntApi M_Convert M_Parse M_Fmt
  Spec Spec_Convert Spec_Parse Spec_Fmt P_Words P_AddSub P_Mul P_DivKnuth P_Ops P_Uint P_Convert P_Parse.
Open Scope Z_scope.

(** ** pad_integral *)

Lemma concat_repeat (x : Z) n : concat (repeat [x] n) = repeat x n.
Proof. induction n as [|n IH]; cbn; [reflexivity|]. rewrite IH. reflexivity. Qed.

Lemma pad_integral_spec o nonneg prefix buf : padded o (negb nonneg) prefix buf (concat (pad_integral o nonneg prefix buf)).
Proof.
  unfold padded, pad_integral. set (lead := (if negb nonneg then [45] else if o_plus o then [43] else []) ++ (if o_alternate o then prefix else [])).
  assert (E : exists chunks w, concat chunks = lead /\ w = Z.of_nat (length (lead ++ buf)) /\
    (let '(sign, width) := if negb nonneg then ([[45]], Z.of_nat (length buf) + 1) else if o_plus o then ([[43]], Z.of_nat (length buf) + 1) else ([], Z.of_nat (length buf)) in
     let '(prefix, width) := if o_alternate o then ([prefix], width + Z.of_nat (length prefix)) else ([], width) in (sign ++ prefix, width)) = (chunks, w)).
  { unfold lead. destruct nonneg; cbn [negb]; destruct (o_plus o); destruct (o_alternate o); eexists; eexists;
      (split; [|split; [|reflexivity]]); rewrite ?app_length; cbn [concat app length]; rewrite ?app_nil_r, ?app_length; try reflexivity; lia. }
  destruct E as (chunks & w & EC & EW & E).
  destruct (if negb nonneg then ([[45]], Z.of_nat (length buf) + 1) else if o_plus o then ([[43]], Z.of_nat (length buf) + 1) else ([], Z.of_nat (length buf))) as [sign w1].
  destruct (if o_alternate o then ([prefix], w1 + Z.of_nat (length prefix)) else ([], w1)) as [px w2]. inversion E as [[E1 E2]]. rewrite E1. subst w2. clear E E1 w1 px sign.
  assert (EB : forall l, concat (chunks ++ l) = lead ++ concat l) by (intros; rewrite concat_app, EC; reflexivity).
  destruct (o_width o) as [min|]; [|rewrite EB; cbn [concat]; rewrite app_nil_r; reflexivity].
  rewrite <- EW. destruct (Z.leb_spec min w) as [L|L].
  - split; [|lia]. intros _. rewrite EB. cbn [concat]. rewrite app_nil_r. reflexivity.
  - split; [lia|]. intros _. destruct (o_zero o).
    + unfold padding. change (Z.to_nat 0) with 0%nat. cbn [repeat]. rewrite EB. cbn [app]. rewrite concat_app, concat_repeat. cbn [concat]. rewrite app_nil_r.
      split; [|eexists; reflexivity]. rewrite !app_length, repeat_length. rewrite app_length in EW. lia.
    + unfold padding. rewrite app_length in EW.
      assert (EH : 0 <= (min - w) / 2 /\ 0 <= (min - w + 1) / 2 /\ (min - w) / 2 + (min - w + 1) / 2 = min - w /\
                   ((min - w) / 2 = (min - w + 1) / 2 \/ (min - w) / 2 + 1 = (min - w + 1) / 2)).
      { revert L. clear. intros. Z.to_euclidean_division_equations. lia. }
      revert EH. generalize ((min - w) / 2) ((min - w + 1) / 2). intros h1 h2 EH.
      destruct (match o_align o with Some a => a | None => ARight end) eqn:EA; cbn [app];
        rewrite concat_app, EB, concat_repeat; cbn [concat]; rewrite concat_repeat;
        (split; [rewrite !app_length, !repeat_length; lia|]);
        (eexists; eexists; rewrite app_assoc; split; [rewrite <- !app_assoc; reflexivity|]);
        destruct (o_align o) as [[| |]|]; try discriminate; try reflexivity; lia.
Qed.

(** ** Buffers *)

Lemma buf_write_app pre old post new : length old = length new ->
  buf_write (pre ++ old ++ post) (Z.of_nat (length pre)) new = Ret (pre ++ map Some new ++ post).
Proof.
  intros H. unfold buf_write. rewrite !app_length, H.
  replace ((0 <=? Z.of_nat (length pre)) && (Z.of_nat (length pre) + Z.of_nat (length new) <=? Z.of_nat (length pre + (length new + length post)))) with true by lia.
  rewrite Nat2Z.id. rewrite firstn_app, Nat.sub_diag, firstn_all, app_nil_r.
  rewrite <- H, skipn_app. replace (length pre + length old - length pre)%nat with (length old) by lia.
  rewrite (skipn_all2 pre) by lia. rewrite skipn_app, Nat.sub_diag, skipn_all. reflexivity.
Qed.
Lemma all_init_some l : all_init (map Some l) = Some l.
Proof. induction l as [|x l IH]; cbn; [reflexivity|]. rewrite IH. reflexivity. Qed.
Lemma buf_read_tail pre l : buf_read (pre ++ map Some l) (Z.of_nat (length pre)) (Z.of_nat (length l)) = Ret l.
Proof.
  unfold buf_read. rewrite app_length, map_length.
  replace ((0 <=? Z.of_nat (length pre)) && (0 <=? Z.of_nat (length l)) && (Z.of_nat (length pre) + Z.of_nat (length l) <=? Z.of_nat (length pre + length l))) with true by lia.
  rewrite !Nat2Z.id, skipn_app, skipn_all, Nat.sub_diag. cbn [app skipn]. rewrite firstn_all2 by (rewrite map_length; lia).
  rewrite all_init_some. reflexivity.
Qed.
(** the last [k] positions of a list *)
Lemma split_tail {A} (l : list A) k : (k <= length l)%nat -> exists a b, l = a ++ b /\ length b = k.
Proof.
  intros H. exists (firstn (length l - k) l), (skipn (length l - k) l). split; [symmetry; apply firstn_skipn|]. rewrite skipn_length. lia.
Qed.

(** ** Values of digit lists *)

Lemma value_concat r a b : value r (a ++ b) = value r a * r ^ Z.of_nat (length b) + value r b.
Proof.
  induction a as [|x a IH]; cbn [app value]; [lia|]. rewrite IH, app_length, Nat2Z.inj_add, Z.pow_add_r by lia. ring.
Qed.
Definition digits_ok (r : Z) (ds : list Z) : Prop := Forall (fun d => 0 <= d < r) ds.
Lemma value_bound r ds : 2 <= r -> digits_ok r ds -> 0 <= value r ds < r ^ Z.of_nat (length ds).
Proof.
  intros Hr H. induction H as [|d ds Hd _ IH]; cbn [value length]; [change (Z.of_nat 0) with 0; rewrite Z.pow_0_r; lia|].
  rewrite Nat2Z.inj_succ, Z.pow_succ_r by lia. nia.
Qed.

(** ** Radix digits *)

Lemma r_digit_of c k d : 0 <= d < r_base k -> r_digit c k d = Ret (digit_char (kind_upper k) d).
Proof.
  intros H. unfold r_digit, digit_char, u_add, u_sub. destruct k; cbn [r_base kind_upper] in *.
  - replace ((0 <=? d) && (d <=? 1)) with true by lia. replace (48 + d <? 2 ^ 8) with true by lia. replace (d <? 10) with true by lia. reflexivity.
  - replace ((0 <=? d) && (d <=? 7)) with true by lia. replace (48 + d <? 2 ^ 8) with true by lia. replace (d <? 10) with true by lia. reflexivity.
  - destruct (Z.ltb_spec d 10).
    + replace ((0 <=? d) && (d <=? 9)) with true by lia. replace (48 + d <? 2 ^ 8) with true by lia. reflexivity.
    + replace ((0 <=? d) && (d <=? 9)) with false by lia. replace ((10 <=? d) && (d <=? 15)) with true by lia.
      replace (0 <=? d - 10) with true by lia. cbn [bind]. replace (97 + (d - 10) <? 2 ^ 8) with true by lia. reflexivity.
  - destruct (Z.ltb_spec d 10).
    + replace ((0 <=? d) && (d <=? 9)) with true by lia. replace (48 + d <? 2 ^ 8) with true by lia. reflexivity.
    + replace ((0 <=? d) && (d <=? 9)) with false by lia. replace ((10 <=? d) && (d <=? 15)) with true by lia.
      replace (0 <=? d - 10) with true by lia. cbn [bind]. replace (65 + (d - 10) <? 2 ^ 8) with true by lia. reflexivity.
Qed.

Lemma u_as_small c t v : 0 <= v < 2 ^ 256 -> t_wrap c t v = v -> In t int_types -> usize_ok c -> u_as c t (uof c v) = v.
Proof.
  intros Hv E I U. rewrite (proj1 (as_family c t (uof c v) (iof c 0) U I (wf_uof c v) (wf_iof c 0))). rewrite uval_uof, Z.mod_small by lia. exact E.
Qed.
Lemma r_base_range k : 2 <= r_base k <= 16. Proof. destruct k; cbn; lia. Qed.

Lemma usize_sub c a b : usize_ok c -> 0 <= b <= a -> a < 2 ^ 16 -> u_sub c (usize_bits c) a b = Ret (a - b).
Proof. intros U H H1. unfold u_sub. replace (0 <=? a - b) with true by lia. reflexivity. Qed.

(** the loop from [n] remaining positions *)
Lemma radix_loop_of c k : usize_ok c -> forall n x pre ds, length pre = n -> 
  0 <= x < r_base k ^ Z.of_nat n -> 0 <= x < 2 ^ 256 -> (0 < n <= 256)%nat -> (ds <> [] -> x <> 0) -> digits_ok (r_base k) ds ->
  exists ds' pre', radix_loop c k n (uof c x) (pre ++ map Some (map (digit_char (kind_upper k)) ds)) (Z.of_nat n) =
    Ret (pre' ++ map Some (map (digit_char (kind_upper k)) ds'), Z.of_nat (length pre')) /\
    (length pre' + length ds' = n + length ds)%nat /\
    digits_ok (r_base k) ds' /\ value (r_base k) ds' = x * r_base k ^ Z.of_nat (length ds) + value (r_base k) ds /\
    ds' <> [] /\ (hd 0 ds' = 0 -> ds' = [0]).
Proof.
  intros U. pose proof (r_base_range k) as HB. induction n as [|n IH]; intros x pre ds HL HX HV HN HZ HD; [lia|].
  cbn [radix_loop]. unfold u_from_prim. rewrite u_new_of by lia. rewrite u_op_rem_of by lia.
  replace (r_base k =? 0) with false by lia. cbn [bind].
  rewrite u_op_div_assign_of by lia. replace (r_base k =? 0) with false by lia. cbn [bind].
  assert (HM : 0 <= x mod r_base k < r_base k) by (apply Z.mod_pos_bound; lia).
  rewrite u_as_small; [|lia|cbn [t_wrap]; unfold wrap_u; apply Z.mod_small; lia|cbn; tauto|assumption].
  rewrite r_digit_of by assumption. cbn [bind].
  destruct (split_tail pre 1 ltac:(lia)) as (pre1 & old & -> & HO). rewrite app_length in HL. rewrite <- app_assoc.
  assert (n = length pre1) by lia. subst n.
  rewrite buf_write_app by (rewrite HO; reflexivity). cbn [bind].
  rewrite usize_sub by (try assumption; lia). cbn [bind]. replace (Z.of_nat (S (length pre1)) - 1) with (Z.of_nat (length pre1)) by lia.
  assert (HQ : 0 <= x / r_base k <= x) by (split; [apply Z.div_pos; lia|apply Z.div_le_upper_bound; nia]).
  assert (HQ2 : x / r_base k < r_base k ^ Z.of_nat (length pre1)).
  { apply Z.div_lt_upper_bound; [lia|]. rewrite <- Z.pow_succ_r by lia. rewrite <- Nat2Z.inj_succ. lia. }
  rewrite (U256_ZERO_of c), u_eq_of by lia.
  assert (EX : x = r_base k * (x / r_base k) + x mod r_base k) by (apply Z.div_mod; lia).
  change (map Some [digit_char (kind_upper k) (x mod r_base k)] ++ map Some (map (digit_char (kind_upper k)) ds))
    with (map Some (map (digit_char (kind_upper k)) (x mod r_base k :: ds))).
  assert (HD' : digits_ok (r_base k) (x mod r_base k :: ds)) by (constructor; assumption).
  assert (HV' : value (r_base k) (x mod r_base k :: ds) = x mod r_base k * r_base k ^ Z.of_nat (length ds) + value (r_base k) ds) by reflexivity.
  destruct (Z.eqb_spec (x / r_base k) 0) as [E0|E0].
  - exists (x mod r_base k :: ds), pre1. split; [reflexivity|]. split; [cbn [length]; lia|]. split; [assumption|].
    split; [rewrite HV'; f_equal; rewrite EX at 2; rewrite E0; f_equal; lia|]. split; [discriminate|].
    cbn [hd]. intros EZ. rewrite EZ. destruct ds as [|d ds]; [reflexivity|]. exfalso. apply HZ; [discriminate|]. rewrite EX, E0, EZ. lia.
  - destruct (IH (x / r_base k) pre1 (x mod r_base k :: ds)) as (ds' & pre' & E & L & D & V & N & Z0); try assumption; try lia.
    { split; [|intros; lia]. destruct pre1; [|cbn [length]; lia]. cbn [length] in HQ2. change (Z.of_nat 0) with 0 in HQ2. rewrite Z.pow_0_r in HQ2. lia. }
    exists ds', pre'. split; [exact E|]. split; [cbn [length] in L; lia|]. split; [assumption|]. split; [|split; assumption].
    rewrite V, HV'. cbn [length]. rewrite Nat2Z.inj_succ, Z.pow_succ_r by lia. rewrite EX at 3. ring.
Qed.

Lemma radix_fmt_of c k o x nonneg : usize_ok c -> 0 <= x < 2 ^ 256 ->
  exists s, canonical (kind_upper k) (r_base k) x s /\ radix_fmt_u256 c k o (uof c x) nonneg = Ret (pad_integral o nonneg (r_prefix k) s).
Proof.
  intros U HX. unfold radix_fmt_u256.
  assert (HP : x < r_base k ^ Z.of_nat 256).
  { apply Z.lt_le_trans with (2 ^ 256); [lia|]. change (Z.of_nat 256) with 256. apply Z.pow_le_mono_l. pose proof (r_base_range k). lia. }
  destruct (radix_loop_of c k U 256 x (uninit 256) [] ltac:(apply repeat_length) ltac:(lia) HX ltac:(lia) ltac:(congruence) ltac:(constructor))
    as (ds & pre & E & L & D & V & N & Z0).
  cbn [map] in E. rewrite app_nil_r in E. change (Z.of_nat 256) with 256 in E. rewrite E. cbn [bind].
  exists (map (digit_char (kind_upper k)) ds). split.
  { exists ds. split; [reflexivity|]. split; [exact D|]. split; [|split; assumption]. rewrite V. cbn [length value]. change (Z.of_nat 0) with 0. rewrite Z.pow_0_r. lia. }
  clear E HP. assert (L' : Z.of_nat (length pre) <= 256) by (apply (f_equal Z.of_nat) in L; rewrite Nat2Z.inj_add in L; change (Z.of_nat (256 + length (@nil Z))) with 256 in L; lia).
  clear L. replace (256 <? Z.of_nat (length pre)) with false by lia.
  rewrite Nat2Z.id, skipn_app, skipn_all, Nat.sub_diag. cbn [app skipn].
  rewrite !map_length. assert (length ds <> 0)%nat by (destruct ds; [congruence|discriminate]).
  replace (Z.of_nat (length ds) =? 0) with false by lia.
  assert (ER := buf_read_tail [] (map (digit_char (kind_upper k)) ds)). cbn [app length] in ER. rewrite map_length in ER. change (Z.of_nat 0) with 0 in ER.
  rewrite ER. reflexivity.
Qed.

(** ** Decimal *)

Definition dchars (ds : list Z) : list Z := map (digit_char false) ds.
Lemma lut_read_of i : 0 <= i < 100 -> lut_read (2 * i) = Ret (dchars [i / 10; i mod 10]).
Proof.
  intros H. assert (I : In i (map Z.of_nat (seq 0 100))) by (apply in_map_iff; exists (Z.to_nat i); split; [lia|apply in_seq; lia]).
  pose (ok := fun i => match lut_read (2 * i) with
                       | Ret l => if list_eq_dec Z.eq_dec l (dchars [i / 10; i mod 10]) then true else false
                       | _ => false end).
  assert (A : forallb ok (map Z.of_nat (seq 0 100)) = true) by (vm_compute; reflexivity).
  apply (proj1 (forallb_forall _ _) A) in I. unfold ok in I. clear A ok. revert I. generalize (dchars [i / 10; i mod 10]). intros l I.
  destruct (lut_read (2 * i)); try discriminate.
  destruct (list_eq_dec Z.eq_dec a l); [congruence|discriminate].
Qed.

Lemma isize_small c v : usize_ok c -> 0 <= v < 2 ^ 15 -> wrap_i (usize_bits c) v = v /\
  (- 2 ^ (usize_bits c - 1) <=? v) && (v <? 2 ^ (usize_bits c - 1)) = true.
Proof.
  intros U H. assert (HP : 2 ^ 15 <= 2 ^ (usize_bits c - 1)).
  { apply Z.pow_le_mono_r; [lia|]. unfold usize_ok in U. cbn [In] in U. lia. }
  split; [|lia]. apply wrap_i_small; [unfold usize_ok in U; cbn [In] in U; lia|lia].
Qed.
Lemma u_as_isize c v : usize_ok c -> 0 <= v < 2 ^ 15 -> u_as c Tisize (uof c v) = v.
Proof.
  intros U H. apply u_as_small; [lia| |cbn; tauto|assumption]. cbn [t_wrap]. apply isize_small; assumption.
Qed.
Lemma isize_sub_of c a b : usize_ok c -> 0 <= b <= a -> a < 2 ^ 15 -> isize_sub c a b = Ret (a - b).
Proof. intros U H H1. unfold isize_sub. rewrite (proj2 (isize_small c (a - b) U ltac:(lia))). reflexivity. Qed.
Lemma isize_add_of c a b : usize_ok c -> 0 <= a -> 0 <= b -> a + b < 2 ^ 15 -> isize_add c a b = Ret (a + b).
Proof. intros U H H0 H1. unfold isize_add. rewrite (proj2 (isize_small c (a + b) U ltac:(lia))). reflexivity. Qed.
Lemma isize_shl1_of c a : usize_ok c -> 0 <= a < 2 ^ 14 -> isize_shl1 c a = 2 * a.
Proof.
  intros U H. unfold isize_shl1. rewrite Z.shiftl_mul_pow2 by lia. change (2 ^ 1) with 2. rewrite as_i_wrap by (unfold usize_ok in U; cbn [In] in U; lia).
  rewrite (proj1 (isize_small c (a * 2) U ltac:(lia))). lia.
Qed.

(** four digits *)
Definition four (v : Z) : list Z := [v / 100 / 10; (v / 100) mod 10; v mod 100 / 10; (v mod 100) mod 10].
Lemma four_ok v : 0 <= v < 10000 -> digits_ok 10 (four v) /\ value 10 (four v) = v.
Proof.
  intros H. unfold four. split.
  - repeat constructor; Z.to_euclidean_division_equations; lia.
  - cbn [value length]. change (10 ^ Z.of_nat 3) with 1000. change (10 ^ Z.of_nat 2) with 100. change (10 ^ Z.of_nat 1) with 10. change (10 ^ Z.of_nat 0) with 1.
    Z.to_euclidean_division_equations. lia.
Qed.

Lemma dec_step_of c n pre ds : usize_ok c -> 10000 <= n < 2 ^ 256 -> (4 <= length pre <= 79)%nat ->
  exists pre', length pre = (length pre' + 4)%nat /\
  dec_step c (uof c n, pre ++ map Some (dchars ds), Z.of_nat (length pre)) =
  Ret (inl (uof c (n / 10000), pre' ++ map Some (dchars (four (n mod 10000) ++ ds)), Z.of_nat (length pre'))).
Proof.
  intros U HN HL. destruct (split_tail pre 4 ltac:(lia)) as (pre' & old & -> & HO). exists pre'. rewrite app_length in *. split; [lia|].
  unfold dec_step. rewrite u_cmp_prim_of, is_ge_cmp by lia. replace (10000 <=? n) with true by lia.
  rewrite u_new_of by lia. rewrite div_rem_ok by lia. replace (10000 =? 0) with false by reflexivity. cbn [bind].
  assert (HM : 0 <= n mod 10000 < 10000) by (apply Z.mod_pos_bound; lia). set (m := n mod 10000) in *.
  rewrite u_as_isize by (try assumption; lia). rewrite Z.quot_div_nonneg, Z.rem_mod_nonneg by lia.
  assert (H1 : 0 <= m / 100 < 100) by (Z.to_euclidean_division_equations; lia). assert (H2 : 0 <= m mod 100 < 100) by (apply Z.mod_pos_bound; lia).
  rewrite !isize_shl1_of by (try assumption; lia). rewrite isize_sub_of by (try assumption; lia). cbn [bind].
  rewrite !lut_read_of by lia. cbn [bind].
  replace (Z.of_nat (length pre' + length old) - 4) with (Z.of_nat (length pre')) by lia.
  destruct old as [|o1 [|o2 [|o3 [|o4 [|]]]]]; try discriminate.
  rewrite <- app_assoc. change ([o1; o2; o3; o4] ++ map Some (dchars ds)) with ([o1; o2] ++ ([o3; o4] ++ map Some (dchars ds))).
  rewrite buf_write_app by reflexivity. cbn [bind]. rewrite isize_add_of by (try assumption; lia). cbn [bind].
  rewrite app_assoc. replace (Z.of_nat (length pre') + 2) with (Z.of_nat (length (pre' ++ map Some (dchars [m / 100 / 10; (m / 100) mod 10])))) by (rewrite app_length; cbn [dchars map length]; lia).
  rewrite buf_write_app by reflexivity. cbn [bind]. rewrite <- app_assoc. reflexivity.
Qed.

Lemma dec_loop_of c n0 : usize_ok c -> n0 < 10 ^ 78 -> forall fuel n pre ds, (0 < fuel)%nat -> 0 <= n < 10000 ^ Z.of_nat fuel -> 0 <= n < 2 ^ 256 ->
  n0 = n * 10 ^ Z.of_nat (length ds) + value 10 ds -> digits_ok 10 ds -> (length pre + length ds = 79)%nat -> (ds <> [] -> n <> 0) ->
  exists n' pre' ds', @loop (u256 * buffer * Z) (u256 * buffer * Z) fuel (dec_step c) (uof c n, pre ++ map Some (dchars ds), Z.of_nat (length pre)) =
    Ret (uof c n', pre' ++ map Some (dchars ds'), Z.of_nat (length pre')) /\
    0 <= n' < 10000 /\ n0 = n' * 10 ^ Z.of_nat (length ds') + value 10 ds' /\ digits_ok 10 ds' /\ (length pre' + length ds' = 79)%nat /\ (ds' <> [] -> n' <> 0).
Proof.
  intros U H0. induction fuel as [|fuel IH]; intros n pre ds HF0 HF HN EN HD HL HZ; [lia|].
  cbn [loop]. destruct (Z.leb_spec 10000 n) as [G|G].
  - assert (HP : (length ds <= 73)%nat).
    { destruct (Nat.leb_spec (length ds) 73) as [|X]; [assumption|exfalso].
      pose proof (value_bound 10 ds ltac:(lia) HD) as VB.
      assert (10 ^ 74 <= 10 ^ Z.of_nat (length ds)) by (apply Z.pow_le_mono_r; lia).
      assert (10000 * 10 ^ 74 <= n0) by nia. change (10 ^ 78) with (10000 * 10 ^ 74) in H0. lia. }
    destruct (dec_step_of c n pre ds U ltac:(lia) ltac:(lia)) as (pre1 & L1 & E1). rewrite E1. cbn [bind].
    destruct (four_ok (n mod 10000) ltac:(apply Z.mod_pos_bound; lia)) as [F1 F2].
    assert (HQ : 1 <= n / 10000 <= n) by (split; [apply Z.div_le_lower_bound; lia|apply Z.div_le_upper_bound; lia]).
    assert (HF' : n / 10000 < 10000 ^ Z.of_nat fuel).
    { apply Z.div_lt_upper_bound; [lia|]. rewrite <- Z.pow_succ_r, <- Nat2Z.inj_succ by lia. lia. }
    apply IH; try lia.
    + destruct fuel; [change (Z.of_nat 0) with 0 in HF'; rewrite Z.pow_0_r in HF'; lia|lia].
    + rewrite value_concat, F2, app_length. change (length (four (n mod 10000))) with 4%nat. rewrite Nat2Z.inj_add, Z.pow_add_r by lia.
      change (10 ^ Z.of_nat 4) with 10000. rewrite EN. pose proof (Z.div_mod n 10000 ltac:(lia)) as DM. rewrite DM at 1. ring.
    + apply Forall_app. split; assumption.
    + rewrite app_length. change (length (four (n mod 10000))) with 4%nat. lia.
  - exists n, pre, ds. unfold dec_step at 1. rewrite u_cmp_prim_of, is_ge_cmp by lia. replace (10000 <=? n) with false by lia. cbn [bind].
    split; [reflexivity|]. split; [lia|]. auto.
Qed.

Lemma buf_put pre ds new : (length new <= length pre)%nat -> exists pre1, length pre = (length pre1 + length new)%nat /\
  buf_write (pre ++ map Some (dchars ds)) (Z.of_nat (length pre) - Z.of_nat (length new)) (dchars new) =
  Ret (pre1 ++ map Some (dchars (new ++ ds))).
Proof.
  intros H. destruct (split_tail pre (length new) H) as (pre1 & old & -> & HO). exists pre1. rewrite app_length. split; [lia|].
  rewrite <- app_assoc. replace (Z.of_nat (length pre1 + length old) - Z.of_nat (length new)) with (Z.of_nat (length pre1)) by lia.
  rewrite buf_write_app by (unfold dchars; rewrite map_length; assumption).
  unfold dchars. rewrite !map_app. reflexivity.
Qed.

(** room for the next digits *)
Lemma room n0 n (ds : list Z) (pre : buffer) j : n0 < 10 ^ 78 -> digits_ok 10 ds -> n0 = n * 10 ^ Z.of_nat (length ds) + value 10 ds ->
  (length pre + length ds = 79)%nat -> 0 <= j -> 10 ^ j <= n -> j + 2 <= Z.of_nat (length pre).
Proof.
  intros H0 HD EN HL Hj Hn. destruct (Z.leb_spec (j + 2) (Z.of_nat (length pre))) as [|X]; [assumption|exfalso].
  pose proof (value_bound 10 ds ltac:(lia) HD) as VB.
  assert (P : 10 ^ 78 <= 10 ^ (j + Z.of_nat (length ds))) by (apply Z.pow_le_mono_r; lia).
  rewrite Z.pow_add_r in P by lia. nia.
Qed.

Lemma fmt_u256_of c o n nonneg : usize_ok c -> 0 <= n < 2 ^ 256 ->
  exists s, canonical false 10 n s /\ fmt_u256 c o (uof c n) nonneg = Ret (pad_integral o nonneg [] s).
Proof.
  intros U HN. unfold fmt_u256. assert (H78 : n < 10 ^ 78) by (apply Z.lt_trans with (2 ^ 256); [lia|reflexivity]).
  assert (HF : 0 <= n < 10000 ^ Z.of_nat 20) by (split; [lia|apply Z.lt_trans with (2 ^ 256); [lia|reflexivity]]).
  assert (EN : n = n * 10 ^ Z.of_nat (length (@nil Z)) + value 10 []) by (cbn [length value]; change (Z.of_nat 0) with 0; rewrite Z.pow_0_r; lia).
  destruct (dec_loop_of c n U H78 20 n (uninit 79) [] ltac:(lia) HF HN EN ltac:(constructor) ltac:(reflexivity) ltac:(congruence))
    as (n1 & pre1 & ds1 & E & R1 & EN1 & D1 & L1 & Z1).
  cbn [dchars map] in E. rewrite app_nil_r in E. change (Z.of_nat (length (uninit 79))) with 79 in E.
  match goal with |- context [@loop ?S ?R ?fu ?f ?st] =>
    let H := fresh in assert (H : @loop S R fu f st = Ret (uof c n1, pre1 ++ map Some (dchars ds1), Z.of_nat (length pre1))) by exact E; rewrite H; clear H end.
  cbn [bind]. clear E HF EN.
  rewrite u_as_isize by (try assumption; lia).
  (* two more digits *)
  assert (S1 : exists n2 pre2 ds2,
     dec_two c n1 (pre1 ++ map Some (dchars ds1)) (Z.of_nat (length pre1)) = Ret (n2, pre2 ++ map Some (dchars ds2), Z.of_nat (length pre2)) /\
     0 <= n2 < 100 /\ n = n2 * 10 ^ Z.of_nat (length ds2) + value 10 ds2 /\ digits_ok 10 ds2 /\ (length pre2 + length ds2 = 79)%nat /\ (ds2 <> [] -> n2 <> 0)).
  { unfold dec_two. destruct (Z.leb_spec 100 n1) as [G|G].
    - pose proof (room n n1 ds1 pre1 2 H78 D1 EN1 L1 ltac:(lia) ltac:(lia)) as RM.
      rewrite Z.rem_mod_nonneg, Z.quot_div_nonneg by lia. assert (HM : 0 <= n1 mod 100 < 100) by (apply Z.mod_pos_bound; lia). cbv zeta.
      rewrite isize_shl1_of by (try assumption; lia). rewrite isize_sub_of by (try assumption; lia). cbn [bind].
      rewrite lut_read_of by lia. cbn [bind]. set (m := n1 mod 100) in *.
      destruct (buf_put pre1 ds1 [m / 10; m mod 10] ltac:(cbn [length]; lia)) as (pre2 & L2 & E2). change (Z.of_nat (length [m / 10; m mod 10])) with 2 in E2. rewrite E2. cbn [bind].
      cbn [length] in L2. exists (n1 / 100), pre2, ([m / 10; m mod 10] ++ ds1).
      split; [do 2 f_equal; lia|]. split; [Z.to_euclidean_division_equations; lia|]. split; [|split; [|split]].
      + rewrite value_concat, app_length, Nat2Z.inj_add, Z.pow_add_r by lia. change (10 ^ Z.of_nat (length [m / 10; m mod 10])) with 100.
        assert (EM : value 10 [m / 10; m mod 10] = m).
        { cbn [value length]. change (10 ^ Z.of_nat 1) with 10. change (10 ^ Z.of_nat 0) with 1. Z.to_euclidean_division_equations; lia. }
        rewrite EM, EN1. pose proof (Z.div_mod n1 100 ltac:(lia)) as DM. fold m in DM. rewrite DM at 1. ring.
      + apply Forall_app. split; [|assumption]. repeat constructor; Z.to_euclidean_division_equations; lia.
      + rewrite app_length. cbn [length]. lia.
      + intros _. assert (1 <= n1 / 100) by (apply Z.div_le_lower_bound; lia). lia.
    - exists n1, pre1, ds1. split; [reflexivity|]. split; [lia|]. auto. }
  destruct S1 as (n2 & pre2 & ds2 & E & R2 & EN2 & D2 & L2 & Z2). rewrite E. cbn [bind]. clear E EN1 D1 L1 Z1.
  (* the last one or two digits *)
  assert (S2 : exists pre3 ds3,
     dec_last c n2 (pre2 ++ map Some (dchars ds2)) (Z.of_nat (length pre2)) = Ret (pre3 ++ map Some (dchars ds3), Z.of_nat (length pre3)) /\
     value 10 ds3 = n /\ digits_ok 10 ds3 /\ (length pre3 + length ds3 = 79)%nat /\ ds3 <> [] /\ (hd 0 ds3 = 0 -> ds3 = [0])).
  { assert (RM : 1 <= Z.of_nat (length pre2)).
    { destruct ds2 as [|d ds2]; [cbn [length] in L2; lia|].
      pose proof (room n n2 (d :: ds2) pre2 0 H78 D2 EN2 L2 ltac:(lia)) as RM. rewrite Z.pow_0_r in RM.
      specialize (Z2 ltac:(discriminate)). lia. }
    unfold dec_last. destruct (Z.ltb_spec n2 10) as [G|G].
    - rewrite isize_sub_of by (try assumption; lia). cbn [bind]. unfold u_add, as_u. rewrite Z.mod_small by lia.
      replace (n2 + 48 <? 2 ^ 8) with true by lia. cbn [bind].
      replace [n2 + 48] with (dchars [n2]) by (unfold dchars, digit_char; cbn [map]; replace (n2 <? 10) with true by lia; f_equal; lia).
      destruct (buf_put pre2 ds2 [n2] ltac:(cbn [length]; lia)) as (pre3 & L3 & E3). change (Z.of_nat (length [n2])) with 1 in E3. rewrite E3. cbn [bind].
      cbn [length] in L3. exists pre3, ([n2] ++ ds2). split; [do 2 f_equal; lia|]. split; [cbn [app value]; lia|].
      split; [apply Forall_app; split; [repeat constructor; lia|assumption]|]. split; [cbn [app length]; lia|]. split; [discriminate|].
      cbn [app hd]. intros EZ. destruct ds2; [subst; reflexivity|]. destruct Z2; [discriminate|assumption].
    - pose proof (room n n2 ds2 pre2 1 H78 D2 EN2 L2 ltac:(lia) ltac:(lia)) as RM2. cbv zeta.
      rewrite isize_shl1_of by (try assumption; lia). rewrite isize_sub_of by (try assumption; lia). cbn [bind].
      rewrite lut_read_of by lia. cbn [bind].
      destruct (buf_put pre2 ds2 [n2 / 10; n2 mod 10] ltac:(cbn [length]; lia)) as (pre3 & L3 & E3). change (Z.of_nat (length [n2 / 10; n2 mod 10])) with 2 in E3. rewrite E3. cbn [bind].
      cbn [length] in L3. exists pre3, ([n2 / 10; n2 mod 10] ++ ds2). split; [do 2 f_equal; lia|].
      split.
      { rewrite value_concat. assert (EM : value 10 [n2 / 10; n2 mod 10] = n2).
        { cbn [value length]. change (10 ^ Z.of_nat 1) with 10. change (10 ^ Z.of_nat 0) with 1. Z.to_euclidean_division_equations; lia. }
        rewrite EM. lia. }
      split; [apply Forall_app; split; [repeat constructor; Z.to_euclidean_division_equations; lia|assumption]|].
      split; [rewrite app_length; cbn [length]; lia|]. split; [discriminate|].
      cbn [app hd]. intros EZ. exfalso. Z.to_euclidean_division_equations; lia. }
  destruct S2 as (pre3 & ds3 & E & V3 & D3 & L3 & N3 & Z3). rewrite E. cbn [bind]. clear E.
  exists (dchars ds3). split; [exists ds3; split; [reflexivity|]; split; [exact D3|]; split; [exact V3|]; split; assumption|].
  assert (LZ : Z.of_nat (length pre3) + Z.of_nat (length ds3) = 79) by (rewrite <- Nat2Z.inj_add, L3; reflexivity).
  assert (UB : 2 ^ 15 < 2 ^ usize_bits c) by (apply Z.pow_lt_mono_r; unfold usize_ok in U; cbn [In] in U; lia).
  unfold as_u. rewrite Z.mod_small by lia. rewrite usize_sub by (try assumption; lia). cbn [bind].
  replace (79 - Z.of_nat (length pre3)) with (Z.of_nat (length (dchars ds3))) by (unfold dchars; rewrite map_length; lia).
  rewrite buf_read_tail. reflexivity.
Qed.

Lemma kind_radix_eq k : kind_radix k = r_base k. Proof. destruct k; reflexivity. Qed.
Lemma kind_prefix_eq k : kind_prefix k = r_prefix k. Proof. destruct k; reflexivity. Qed.

(** ** Property lemmas *)

Lemma u_display c o x : usize_ok c -> wf_u x ->
  exists s out, canonical false 10 (uval c x) s /\ to_string (u_fmt_display c o x) = Ret out /\ padded o false [] s out.
Proof.
  intros U Hx. on_u c x. unfold u_fmt_display, u256_as_u256. rewrite u_cmp_prim_of, is_ge_cmp by lia. replace (0 <=? nx) with true by lia.
  destruct (fmt_u256_of c o nx true U ltac:(lia)) as (s & C & E). rewrite E. exists s. eexists. split; [exact C|]. split; [reflexivity|].
  apply (pad_integral_spec o true).
Qed.
Lemma i_display c o x : usize_ok c -> wf_i x ->
  exists s out, canonical false 10 (Z.abs (ival c x)) s /\ to_string (i_fmt_display c o x) = Ret out /\ padded o (ival c x <? 0) [] s out.
Proof.
  intros U Hx. on_i c x. unfold i_fmt_display, i256_as_u256. rewrite i_cmp_prim_of, is_ge_cmp by lia.
  destruct (Z.leb_spec 0 nx) as [G|G].
  - rewrite i_as_u256_of. destruct (fmt_u256_of c o nx true U ltac:(lia)) as (s & C & E). rewrite E. exists s. eexists.
    rewrite Z.abs_eq by lia. split; [exact C|]. split; [reflexivity|]. replace (nx <? 0) with false by lia. apply (pad_integral_spec o true).
  - rewrite i_as_u256_of, u_op_not_of. unfold u_wrapping_add. rewrite U256_ONE_of, add3_of. replace (- nx - 1 + 1) with (- nx) by lia.
    destruct (fmt_u256_of c o (- nx) false U ltac:(lia)) as (s & C & E). rewrite E. exists s. eexists.
    rewrite Z.abs_neq by lia. split; [exact C|]. split; [reflexivity|]. replace (nx <? 0) with true by lia. apply (pad_integral_spec o false).
Qed.
Lemma u_radix c k o x : usize_ok c -> wf_u x ->
  exists s out, canonical (kind_upper k) (kind_radix k) (uval c x) s /\ to_string (u_fmt_radix c k o x) = Ret out /\ padded o false (kind_prefix k) s out.
Proof.
  intros U Hx. rewrite kind_radix_eq, kind_prefix_eq. on_u c x. unfold u_fmt_radix, u256_as_u256. rewrite u_cmp_prim_of, is_lt_cmp by lia. replace (nx <? 0) with false by lia. cbn [andb].
  destruct (radix_fmt_of c k o nx true U ltac:(lia)) as (s & C & E). rewrite E. exists s. eexists. split; [exact C|]. split; [reflexivity|].
  apply (pad_integral_spec o true).
Qed.
Lemma i_radix c k o x : usize_ok c -> wf_i x ->
  let neg := (ival c x <? 0) && o_minus o in
  exists s out, canonical (kind_upper k) (kind_radix k) (if neg then - ival c x else ival c x mod 2 ^ 256) s /\
    to_string (i_fmt_radix c k o x) = Ret out /\ padded o neg (kind_prefix k) s out.
Proof.
  intros U Hx. rewrite kind_radix_eq, kind_prefix_eq. on_i c x. cbv zeta. unfold i_fmt_radix, i256_as_u256. rewrite i_cmp_prim_of, is_lt_cmp by lia.
  destruct ((nx <? 0) && o_minus o) eqn:EN.
  - rewrite i_wrapping_neg_of, i_as_u256_of. destruct (radix_fmt_of c k o (- nx) false U ltac:(lia)) as (s & C & E). rewrite E. exists s. eexists.
    split; [exact C|]. split; [reflexivity|]. apply (pad_integral_spec o false).
  - rewrite i_as_u256_of, <- uof_mod. destruct (radix_fmt_of c k o (nx mod 2 ^ 256) true U ltac:(apply Z.mod_pos_bound; lia)) as (s & C & E). rewrite E. exists s. eexists.
    split; [exact C|]. split; [reflexivity|]. apply (pad_integral_spec o true).
Qed.

(** {:?}, {:x?} and {:X?} *)
Lemma debug_fmt c o x y : usize_ok c -> wf_u x -> wf_i y ->
  let hex := o_debug_lower o || o_debug_upper o in
  let upper := hex && negb (o_debug_lower o) in
  let r := if hex then 16 else 10 in
  let prefix := if hex then [48; 120] else [] in
  let neg := (ival c y <? 0) && (negb hex || o_minus o) in
  (exists s out, canonical upper r (uval c x) s /\ to_string (u_fmt_debug c o x) = Ret out /\ padded o false prefix s out) /\
  (exists s out, canonical upper r (if neg then - ival c y else ival c y mod 2 ^ 256) s /\
     to_string (i_fmt_debug c o y) = Ret out /\ padded o neg prefix s out).
Proof.
  intros U Hx Hy. cbv zeta. unfold u_fmt_debug, i_fmt_debug.
  destruct (o_debug_lower o); cbn [orb andb negb]; [split; [apply (u_radix c LowerHex o x U Hx)|apply (i_radix c LowerHex o y U Hy)]|].
  destruct (o_debug_upper o); cbn [orb andb negb]; [split; [apply (u_radix c UpperHex o x U Hx)|apply (i_radix c UpperHex o y U Hy)]|].
  split; [apply (u_display c o x U Hx)|]. rewrite andb_true_r. destruct (i_display c o y U Hy) as (s & out & C & E & P).
  exists s, out. split; [|split; assumption]. pose proof (ival_range c y Hy). destruct (Z.ltb_spec (ival c y) 0).
  - rewrite Z.abs_neq in C by lia. exact C.
  - rewrite Z.abs_eq in C by lia. rewrite Z.mod_small by lia. exact C.
Qed.

(** the canonical numeral is unique *)
Lemma digit_char_inj up r d d' : 2 <= r <= 36 -> 0 <= d < r -> 0 <= d' < r -> digit_char up d = digit_char up d' -> d = d'.
Proof. unfold digit_char. intros. destruct (Z.ltb_spec d 10), (Z.ltb_spec d' 10), up; lia. Qed.
Lemma value_lead r d ds : 2 <= r -> digits_ok r (d :: ds) -> d <> 0 -> r ^ Z.of_nat (length ds) <= value r (d :: ds).
Proof.
  intros Hr H Hd. inversion H as [|? ? H1 H2]; subst. pose proof (value_bound r ds Hr H2). cbn [value]. nia.
Qed.
Lemma value_inj r ds ds' : 2 <= r -> digits_ok r ds -> digits_ok r ds' -> length ds = length ds' -> value r ds = value r ds' -> ds = ds'.
Proof.
  intros Hr H. revert ds'. induction H as [|d ds H1 H2 IH]; intros ds' H' L V; destruct ds' as [|d' ds']; try discriminate; [reflexivity|].
  inversion H' as [|? ? H1' H2']; subst. inversion L as [L']. pose proof (value_bound r ds Hr H2) as B. pose proof (value_bound r ds' Hr H2') as B'.
  cbn [value] in V. rewrite L' in V, B. set (P := r ^ Z.of_nat (length ds')) in *. assert (d = d') by nia. subst d'. f_equal. apply IH; [assumption|exact L'|lia].
Qed.
Lemma canonical_unique up r v s s' : 2 <= r <= 36 -> canonical up r v s -> canonical up r v s' -> s = s'.
Proof.
  intros Hr (ds & -> & D & V & N & Z0) (ds' & -> & D' & V' & N' & Z0'). f_equal.
  assert (LE : forall a b, digits_ok r a -> digits_ok r b -> value r a = value r b -> a <> [] -> b <> [] -> (hd 0 a = 0 -> a = [0]) -> (length a <= length b)%nat).
  { clear - Hr. intros a b Da Db E Na Nb Za. destruct (Nat.leb_spec (length a) (length b)) as [|L]; [assumption|exfalso].
    destruct a as [|d a]; [congruence|]. cbn [hd] in Za. destruct (Z.eq_dec d 0) as [->|Nd].
    - specialize (Za eq_refl). inversion Za; subst. destruct b; [congruence|]. cbn [length] in L. lia.
    - pose proof (value_lead r d a ltac:(lia) Da Nd) as LB. pose proof (value_bound r b ltac:(lia) Db) as UB.
      cbn [length] in L. assert (r ^ Z.of_nat (length b) <= r ^ Z.of_nat (length a)) by (apply Z.pow_le_mono_r; lia). lia. }
  apply value_inj with r; try assumption; try lia. 
  pose proof (LE ds ds' D D' ltac:(congruence) N N' Z0). pose proof (LE ds' ds D' D ltac:(congruence) N' N Z0'). lia.
Qed.

(** ** Printing, then parsing *)

Lemma digit_char_digit up r d : 2 <= r <= 36 -> 0 <= d < r -> digit r (digit_char up d) d.
Proof. intros Hr Hd. unfold digit, digit_char. destruct (Z.ltb_spec d 10); destruct up; lia. Qed.
Lemma canonical_numeral up r v s n : 2 <= r <= 36 -> canonical up r v s ->
  exists ds, numeral r (repeat 48 n ++ s) ds /\ value r ds = v /\ repeat 48 n ++ s <> [].
Proof.
  intros Hr (ds & -> & D & V & N & _). exists (repeat 0 n ++ ds).
  split; [|split].
  - apply Forall2_app.
    + induction n; cbn [repeat]; constructor; [unfold digit; lia|assumption].
    + clear N V. induction D as [|d ds H1 H2 IH]; cbn [map]; constructor; [apply digit_char_digit; assumption|assumption].
  - rewrite <- V. induction n as [|n IH]; cbn [repeat app value]; [reflexivity|]. rewrite IH. lia.
  - destruct n; cbn [repeat app]; [|discriminate]. destruct ds; [congruence|discriminate].
Qed.
Lemma padded_plain o neg prefix s out : no_fill o -> padded o neg prefix s out ->
  exists n, out = ((if neg then [45] else if o_plus o then [43] else []) ++ (if o_alternate o then prefix else [])) ++ repeat 48 n ++ s.
Proof.
  intros NF P. unfold padded in P. unfold no_fill in NF. destruct (o_width o) as [w|]; [|exists 0%nat; exact P].
  destruct NF as [NF|NF]; [discriminate|]. rewrite NF in P. destruct P as [P1 P2].
  destruct (Z.leb_spec w (Z.of_nat (length (((if neg then [45] else if o_plus o then [43] else []) ++ (if o_alternate o then prefix else [])) ++ s)))) as [L|L].
  - exists 0%nat. apply P1. exact L.
  - destruct (P2 L) as (_ & n & E). exists n. exact E.
Qed.

(** the first character of a body is not a sign *)
Lemma numeral_hd r s ds : 2 <= r <= 36 -> numeral r s ds -> s <> [] -> hd 0 s <> 43 /\ hd 0 s <> 45.
Proof. intros Hr N Ns. destruct N as [|ch d s ds H1 H2]; [congruence|]. cbn [hd]. unfold digit in H1. lia. Qed.
Lemma sign_plain signed s : hd 0 s <> 43 -> hd 0 s <> 45 -> sign signed s = (false, s).
Proof.
  destruct s as [|b t]; [reflexivity|]. cbn [hd]. intros H1 H2. unfold sign. replace (b =? 43) with false by lia. replace (b =? 45) with false by lia. reflexivity.
Qed.

Lemma shown_reads up r v s o neg prefix out signed lo hi : 2 <= r <= 36 -> canonical up r v s -> no_fill o ->
  (prefix = [] \/ hd 0 prefix = 48) -> (neg = true -> signed = true) -> padded o neg prefix s out -> lo <= signed_by neg v <= hi ->
  reads signed lo hi r (if o_alternate o then prefix else []) out (Ok (signed_by neg v)).
Proof.
  intros Hr C NF HP HS P R. destruct (padded_plain o neg prefix s out NF P) as (n & ->).
  destruct (canonical_numeral up r v s n Hr C) as (ds & N & V & NE).
  set (px := if o_alternate o then prefix else []). set (body := repeat 48 n ++ s) in *.
  assert (HB : hd 0 (px ++ body) <> 43 /\ hd 0 (px ++ body) <> 45).
  { unfold px. destruct (o_alternate o); [|apply (numeral_hd r body ds Hr N NE)].
    destruct prefix as [|p0 prefix]; [apply (numeral_hd r body ds Hr N NE)|]. destruct HP as [HP|HP]; [discriminate|]. cbn [hd app] in *. lia. }
  assert (ES : sign signed (((if neg then [45] else if o_plus o then [43] else []) ++ px) ++ body) = (neg, px ++ body)).
  { rewrite <- app_assoc. destruct neg; cbn [app].
    - rewrite (HS eq_refl). reflexivity.
    - destruct (o_plus o); cbn [app]; [reflexivity|]. apply sign_plain; tauto. }
  unfold reads. rewrite ES. exists body, ds. rewrite V. auto.
Qed.
Lemma kind_range k : 2 <= kind_radix k <= 36. Proof. destruct k; cbn; lia. Qed.
Lemma kind_prefix_hd k : kind_prefix k = [] \/ hd 0 (kind_prefix k) = 48. Proof. destruct k; right; reflexivity. Qed.
Lemma kind_prefix_in k : In (kind_prefix k, kind_radix k) radix_prefixes. Proof. destruct k; cbn; tauto. Qed.

Lemma display_parse c o x y : usize_ok c -> no_fill o -> wf_u x -> wf_i y ->
  (exists out, to_string (u_fmt_display c o x) = Ret out /\ u_from_str c out = Ret (Ok x) /\
               u_from_str_prefixed c out = Ret (Ok x)) /\
  (exists out, to_string (i_fmt_display c o y) = Ret out /\ i_from_str c out = Ret (Ok y) /\
               i_from_str_prefixed c out = Ret (Ok y)).
Proof.
  intros U NF Hx Hy. pose proof (uval_range c x Hx) as RX. pose proof (ival_range c y Hy) as RY. split.
  - destruct (u_display c o x U Hx) as (s & out & C & E & P). exists out. split; [exact E|].
    pose proof (shown_reads false 10 _ s o false [] out false 0 MAXU r10 C NF (or_introl eq_refl) ltac:(discriminate) P ltac:(cbn [signed_by]; unfold MAXU; lia)) as R.
    cbn [signed_by] in R. replace (if o_alternate o then [] else []) with (@nil Z) in R by (destruct (o_alternate o); reflexivity).
    split.
    + apply (proj2 (proj1 (u_parse_radix c out 10 (Ok x) r10))). split; [exact Hx|exact R].
    + apply (proj2 (proj1 (u_prefixed_ok c out x))). split; [exact Hx|]. exists [], 10. split; [cbn; tauto|exact R].
  - destruct (i_display c o y U Hy) as (s & out & C & E & P). exists out. split; [exact E|].
    assert (EV : signed_by (ival c y <? 0) (Z.abs (ival c y)) = ival c y) by (destruct (Z.ltb_spec (ival c y) 0); cbn [signed_by]; lia).
    pose proof (shown_reads false 10 _ s o (ival c y <? 0) [] out true MINI MAXI r10 C NF (or_introl eq_refl) ltac:(reflexivity) P ltac:(rewrite EV; unfold MINI, MAXI; lia)) as R.
    rewrite EV in R. replace (if o_alternate o then [] else []) with (@nil Z) in R by (destruct (o_alternate o); reflexivity).
    split.
    + apply (proj2 (proj1 (i_parse_radix c out 10 (Ok y) r10))). split; [exact Hy|exact R].
    + apply (proj2 (proj1 (i_prefixed_ok c out y))). split; [exact Hy|]. exists [], 10. split; [cbn; tauto|exact R].
Qed.

Lemma radix_parse c k o x : usize_ok c -> no_fill o -> wf_u x ->
  exists out, to_string (u_fmt_radix c k o x) = Ret out /\
    (o_alternate o = false -> u_from_str_radix c out (kind_radix k) = Ret (Ok x)) /\
    (o_alternate o = true -> u_from_str_prefixed c out = Ret (Ok x) /\ (kind_radix k = 16 -> u_from_str_hex c out = Ret (Ok x))).
Proof.
  intros U NF Hx. pose proof (uval_range c x Hx) as RX. destruct (u_radix c k o x U Hx) as (s & out & C & E & P). exists out. split; [exact E|].
  pose proof (shown_reads _ _ _ s o false (kind_prefix k) out false 0 MAXU (kind_range k) C NF (kind_prefix_hd k) ltac:(discriminate) P ltac:(cbn [signed_by]; unfold MAXU; lia)) as R.
  cbn [signed_by] in R. split; intros HA; rewrite HA in R.
  - apply (proj2 (proj1 (u_parse_radix c out _ (Ok x) (kind_range k)))). split; [exact Hx|exact R].
  - split.
    + apply (proj2 (proj1 (u_prefixed_ok c out x))). split; [exact Hx|]. exists (kind_prefix k), (kind_radix k). split; [apply kind_prefix_in|exact R].
    + intros HK. apply (proj2 (proj1 (parse_hex c out (Ok x) (Err Empty)))). split; [exact Hx|]. destruct k; try discriminate; exact R.
Qed.

Lemma i_radix_parse c k o y : usize_ok c -> no_fill o -> wf_i y ->
  exists out, to_string (i_fmt_radix c k o y) = Ret out /\
    (o_minus o = true \/ 0 <= ival c y ->
     (o_alternate o = false -> i_from_str_radix c out (kind_radix k) = Ret (Ok y)) /\
     (o_alternate o = true -> i_from_str_prefixed c out = Ret (Ok y) /\ (kind_radix k = 16 -> i_from_str_hex c out = Ret (Ok y)))) /\
    (o_minus o = false ->
     (o_alternate o = false -> u_from_str_radix c out (kind_radix k) = Ret (Ok (i_as_u256 y))) /\
     (o_alternate o = true -> u_from_str_prefixed c out = Ret (Ok (i_as_u256 y)))).
Proof.
  intros U NF Hy. pose proof (ival_range c y Hy) as RY. destruct (i_radix c k o y U Hy) as (s & out & C & E & P). cbv zeta in *. exists out. split; [exact E|].
  split.
  - intros HM. set (neg := (ival c y <? 0) && o_minus o) in *.
    assert (EV : signed_by neg (if neg then - ival c y else ival c y mod 2 ^ 256) = ival c y).
    { unfold neg. destruct (Z.ltb_spec (ival c y) 0); cbn [andb].
      - destruct HM as [HM|HM]; [|lia]. rewrite HM. cbn [signed_by]. lia.
      - cbn [signed_by]. apply Z.mod_small. lia. }
    pose proof (shown_reads _ _ _ s o neg (kind_prefix k) out true MINI MAXI (kind_range k) C NF (kind_prefix_hd k) ltac:(reflexivity) P ltac:(rewrite EV; unfold MINI, MAXI; lia)) as R.
    rewrite EV in R. split; intros HA; rewrite HA in R.
    + apply (proj2 (proj1 (i_parse_radix c out _ (Ok y) (kind_range k)))). split; [exact Hy|exact R].
    + split.
      * apply (proj2 (proj1 (i_prefixed_ok c out y))). split; [exact Hy|]. exists (kind_prefix k), (kind_radix k). split; [apply kind_prefix_in|exact R].
      * intros HK. apply (proj2 (proj1 (proj2 (parse_hex c out (Err Empty) (Ok y))))). split; [exact Hy|]. destruct k; try discriminate; exact R.
  - intros HM. rewrite HM, andb_false_r in *.
    assert (HB : 0 <= ival c y mod 2 ^ 256 < 2 ^ 256) by (apply Z.mod_pos_bound; lia).
    pose proof (shown_reads _ _ _ s o false (kind_prefix k) out false 0 MAXU (kind_range k) C NF (kind_prefix_hd k) ltac:(discriminate) P ltac:(cbn [signed_by]; unfold MAXU; lia)) as R.
    cbn [signed_by] in R.
    assert (EU : uval c (i_as_u256 y) = ival c y mod 2 ^ 256) by (rewrite <- (iof_ival c y Hy) at 1; rewrite i_as_u256_of; apply uval_uof).
    assert (WU : wf_u (i_as_u256 y)) by (rewrite <- (iof_ival c y Hy); rewrite i_as_u256_of; apply wf_uof).
    rewrite <- EU in R. split; intros HA; rewrite HA in R.
    + apply (proj2 (proj1 (u_parse_radix c out _ (Ok (i_as_u256 y)) (kind_range k)))). split; [exact WU|exact R].
    + apply (proj2 (proj1 (u_prefixed_ok c out (i_as_u256 y)))). split; [exact WU|]. exists (kind_prefix k), (kind_radix k). split; [apply kind_prefix_in|exact R].
Qed.

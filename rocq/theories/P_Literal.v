(** * The const parser behind uint! and int! *)

From Coq Require Import ZArith String List Bool Lia ZifyBool.
From Verif Require Import M_Prim M_Words M_Mul M_Ops M_UintApi M_IntApi M_Convert M_Parse Spec Spec_Parse
  P_Words P_AddSub P_Bits P_Mul P_Ops P_Uint P_Int P_Convert P_Parse.
Import ListNotations.
Open Scope Z_scope.

Definition ovf_if (b : bool) (c : cfg) (v : Z) : res u256 :=
  if b then Ret (uof c v) else Panic "overflows integer type".

Lemma cp_add_of c a d : 0 <= a < 2 ^ 256 -> 0 <= d < 2 ^ 8 -> cp_add c (uof c a) d = ovf_if (a + d <? 2 ^ 256) c (a + d).
Proof.
  intros Ha Hd. unfold cp_add, overflowing_add, cp_check, ovf_if. rewrite u_into_words_of.
  assert (H1 : 0 <= a / 2 ^ 128 < 2 ^ 128) by zz. rewrite (Z.mod_small (a / 2 ^ 128)) by lia.
  assert (H2 : 0 <= a mod 2 ^ 128 < 2 ^ 128) by (apply Z.mod_pos_bound; lia).
  assert (EV : a = 2 ^ 128 * (a / 2 ^ 128) + a mod 2 ^ 128) by (apply Z.div_mod; lia).
  set (hi := a / 2 ^ 128) in *. set (lo := a mod 2 ^ 128) in *.
  destruct (Z.leb_spec (2 ^ 128) (lo + d)) as [L|L]; cbn [Z.b2z].
  - destruct (Z.leb_spec (2 ^ 128) (hi + 1)); destruct (Z.ltb_spec (a + d) (2 ^ 256)); cbn [bind]; try lia; try reflexivity.
    f_equal. replace (a + d) with ((hi + 1) * 2 ^ 128 + (lo + d - 2 ^ 128)) by lia.
    rewrite (Z.mod_small (hi + 1)) by lia. replace ((lo + d) mod 2 ^ 128) with (lo + d - 2 ^ 128) by zz.
    rewrite u_from_words_of by lia. reflexivity.
  - destruct (Z.leb_spec (2 ^ 128) (hi + 0)); destruct (Z.ltb_spec (a + d) (2 ^ 256)); cbn [bind]; try lia.
    f_equal. replace (a + d) with (hi * 2 ^ 128 + (lo + d)) by lia.
    rewrite (Z.mod_small (hi + 0)), (Z.mod_small (lo + d)) by lia. rewrite Z.add_0_r.
    rewrite u_from_words_of by lia. reflexivity.
Qed.

Lemma cp_mul_of c a r : 0 <= a < 2 ^ 256 -> 2 <= r <= 36 ->
  cp_mul c (uof c a) r = ovf_if ((a * r <? 2 ^ 256) && (low_sum r a <? 2 ^ 128)) c (a * r).
Proof.
  intros Ha Hr. unfold cp_mul. rewrite u_into_words_of. rewrite Z.shiftr_div_pow2 by lia.
  change (2 ^ 64 - 1) with (Z.ones 64). rewrite Z.land_ones by lia.
  assert (H1 : 0 <= a / 2 ^ 128 < 2 ^ 128) by zz. rewrite (Z.mod_small (a / 2 ^ 128)) by lia.
  assert (H2 : 0 <= a mod 2 ^ 128 < 2 ^ 128) by (apply Z.mod_pos_bound; lia).
  assert (E1 : a mod 2 ^ 128 mod 2 ^ 64 = a mod 2 ^ 64) by zz.
  assert (E2 : a mod 2 ^ 128 / 2 ^ 64 = a / 2 ^ 64 mod 2 ^ 64) by zz.
  rewrite E1, E2. assert (L1 : 0 <= a mod 2 ^ 64 < 2 ^ 64) by (apply Z.mod_pos_bound; lia).
  assert (L2 : 0 <= a / 2 ^ 64 mod 2 ^ 64 < 2 ^ 64) by (apply Z.mod_pos_bound; lia).
  assert (EV : a = 2 ^ 128 * (a / 2 ^ 128) + 2 ^ 64 * (a / 2 ^ 64 mod 2 ^ 64) + a mod 2 ^ 64) by zz.
  unfold low_sum. clear E1 E2 H2. revert L1 L2 EV H1.
  generalize (a mod 2 ^ 64) (a / 2 ^ 64 mod 2 ^ 64) (a / 2 ^ 128). intros ll lh hi L1 L2 EV H1.
  unfold u_mul. replace (ll * r <? 2 ^ 128) with true by nia. replace (lh * r <? 2 ^ 128) with true by nia. cbn [bind].
  unfold overflowing_mul, overflowing_add, cp_check, ovf_if. rewrite Z.shiftl_mul_pow2, Z.shiftr_div_pow2 by lia.
  assert (EM : (lh * r * 2 ^ 64) mod 2 ^ 128 = (lh * r) mod 2 ^ 64 * 2 ^ 64).
  { change (2 ^ 128) with (2 ^ 64 * 2 ^ 64). apply Z.mul_mod_distr_r; lia. }
  rewrite EM. assert (EP : lh * r = 2 ^ 64 * (lh * r / 2 ^ 64) + (lh * r) mod 2 ^ 64) by (apply Z.div_mod; lia).
  assert (M1 : 0 <= (lh * r) mod 2 ^ 64 < 2 ^ 64) by (apply Z.mod_pos_bound; lia).
  assert (M2 : 0 <= lh * r / 2 ^ 64 < 2 ^ 64) by (split; [apply Z.div_pos; nia|apply Z.div_lt_upper_bound; nia]).
  assert (N1 : 0 <= hi * r) by nia. assert (N2 : 0 <= ll * r) by nia.
  assert (EA : a * r = 2 ^ 128 * (hi * r + lh * r / 2 ^ 64) + (ll * r + (lh * r) mod 2 ^ 64 * 2 ^ 64)).
  { rewrite EV. replace ((2 ^ 128 * hi + 2 ^ 64 * lh + ll) * r) with (2 ^ 128 * (hi * r) + 2 ^ 64 * (lh * r) + ll * r) by ring.
    rewrite EP at 1. change (2 ^ 128) with (2 ^ 64 * 2 ^ 64). ring. }
  rewrite EA. clear EA EP EM EV. revert M1 M2 N1 N2. 
  generalize ((lh * r) mod 2 ^ 64) (lh * r / 2 ^ 64) (hi * r) (ll * r). intros x y u w M1 M2 N1 N2.
  destruct (Z.leb_spec (2 ^ 128) u); cbn [bind].
  { replace (2 ^ 128 * (u + y) + (w + x * 2 ^ 64) <? 2 ^ 256) with false by lia. reflexivity. }
  destruct (Z.leb_spec (2 ^ 128) (w + x * 2 ^ 64)); cbn [bind].
  { replace (w + x * 2 ^ 64 <? 2 ^ 128) with false by lia. rewrite andb_false_r. reflexivity. }
  rewrite (Z.mod_small u), (Z.mod_small (w + x * 2 ^ 64)) by lia. replace (w + x * 2 ^ 64 <? 2 ^ 128) with true by lia. rewrite andb_true_r.
  destruct (Z.leb_spec (2 ^ 128) (u + y)); destruct (Z.ltb_spec (2 ^ 128 * (u + y) + (w + x * 2 ^ 64)) (2 ^ 256)); cbn [bind]; try lia; try reflexivity.
  rewrite (Z.mod_small (u + y)) by lia. rewrite u_from_words_of by lia. do 2 f_equal. lia.
Qed.

Lemma low_sum_pow2 r a : 0 <= a -> r = 2 \/ r = 8 \/ r = 16 -> low_sum r a < 2 ^ 128.
Proof.
  intros Ha Hr. unfold low_sum. assert (L1 : 0 <= a mod 2 ^ 64 < 2 ^ 64) by (apply Z.mod_pos_bound; lia).
  assert (E : exists k, 2 ^ 64 = r * k /\ 0 < k). { destruct Hr as [->|[->| ->]]; [exists (2 ^ 63)|exists (2 ^ 61)|exists (2 ^ 60)]; split; reflexivity. }
  destruct E as (k & E & Hk). set (b := a / 2 ^ 64 mod 2 ^ 64).
  assert (EM : (b * r) mod 2 ^ 64 = (b mod k) * r) by (rewrite E, (Z.mul_comm r k); apply Z.mul_mod_distr_r; lia).
  rewrite EM. assert (0 <= b mod k < k) by (apply Z.mod_pos_bound; lia).
  assert ((b mod k) * r <= 2 ^ 64 - r) by nia. nia.
Qed.
Lemma low_sum_small r a : 0 <= a -> 2 <= r <= 36 -> a * r < 2 ^ 128 -> low_sum r a < 2 ^ 128.
Proof.
  intros Ha Hr H. unfold low_sum. assert (a < 2 ^ 128) by nia.
  assert (EV : a = 2 ^ 64 * (a / 2 ^ 64) + a mod 2 ^ 64) by (apply Z.div_mod; lia).
  assert (L1 : 0 <= a / 2 ^ 64 < 2 ^ 64) by zz. rewrite (Z.mod_small (a / 2 ^ 64)) by lia.
  assert (L2 : 0 <= a mod 2 ^ 64 < 2 ^ 64) by (apply Z.mod_pos_bound; lia).
  assert ((a / 2 ^ 64 * r) mod 2 ^ 64 <= a / 2 ^ 64 * r) by (apply Z.mod_le; nia).
  revert H H1 EV. generalize (a / 2 ^ 64) (a mod 2 ^ 64) ((a / 2 ^ 64 * r) mod 2 ^ 64). intros. nia.
Qed.

(** ** Digits and blanks *)

Definition lit_radix (r : Z) : Prop := r = 2 \/ r = 8 \/ r = 10 \/ r = 16.
Lemma blank_eq b : blank b = (b =? 95) || is_ascii_whitespace b.
Proof. unfold blank, is_ascii_whitespace. cbn [existsb]. rewrite orb_false_r, !orb_assoc. reflexivity. Qed.
Lemma cp_digit_spec r b : lit_radix r -> blank b = false -> 
  cp_digit b r = match to_digit b r with Some d => Some (Some d) | None => None end.
Proof.
  intros Hr Hb. destruct (Z.ltb_spec b 48) as [L|L]; [|destruct (Z.ltb_spec 122 b) as [G|G]].
  - unfold cp_digit, to_digit.
    replace (48 <=? b) with false by lia. replace (50 <=? b) with false by lia. replace (56 <=? b) with false by lia.
    replace (97 <=? b) with false by lia. replace (65 <=? b) with false by lia. replace (b =? 95) with false by lia. cbn [andb].
    replace (36 <? r) with false by (unfold lit_radix in Hr; lia). reflexivity.
  - unfold cp_digit, to_digit.
    replace (b <=? 49) with false by lia. replace (b <=? 55) with false by lia. replace (b <=? 57) with false by lia.
    replace (b <=? 102) with false by lia. replace (b <=? 70) with false by lia. replace (b =? 95) with false by lia.
    replace (b <=? 122) with false by lia. replace (b <=? 90) with false by lia. rewrite !andb_false_r. cbn [andb].
    replace (36 <? r) with false by (unfold lit_radix in Hr; lia). reflexivity.
  - assert (I : In b (map Z.of_nat (seq 48 75))).
    { apply in_map_iff. exists (Z.to_nat b). split; [lia|]. apply in_seq. lia. }
    assert (J : In r [2; 8; 10; 16]) by (unfold lit_radix in Hr; cbn [In]; lia).
    clear L G Hr. unfold seq, map in I. cbn [Z.of_nat Pos.of_succ_nat Pos.succ In] in I, J.
    repeat (destruct J as [<-|J]; [repeat (destruct I as [<-|I]; [first [reflexivity|discriminate Hb]|]); destruct I|]). destruct J.
Qed.
Lemma lit_radix_range r : lit_radix r -> 2 <= r <= 36. Proof. unfold lit_radix. lia. Qed.

(** ** The loop *)

Definition nonblank (text : list Z) : list Z := filter (fun ch => negb (blank ch)) text.

Lemma cp_loop_step c r b t acc : lit_radix r -> 0 <= acc < 2 ^ 256 ->
  cp_loop c r (b :: t) (uof c acc) =
  if blank b then cp_loop c r t (uof c acc)
  else match to_digit b r with
       | None => Panic "invalid digit"
       | Some d => if (acc * r + d <? 2 ^ 256) && (low_sum r acc <? 2 ^ 128) then cp_loop c r t (uof c (acc * r + d))
                   else Panic "overflows integer type"
       end.
Proof.
  intros Hr Ha. cbn [cp_loop]. rewrite <- blank_eq. destruct (blank b) eqn:EB; [reflexivity|].
  pose proof (lit_radix_range r Hr) as HR.
  rewrite cp_digit_spec by assumption. destruct (to_digit b r) as [d|] eqn:ED; [|reflexivity].
  apply to_digit_spec in ED; [|assumption]. apply digit_range in ED.
  rewrite cp_mul_of by assumption. unfold ovf_if at 1.
  destruct (Z.ltb_spec (low_sum r acc) (2 ^ 128)); [rewrite !andb_true_r|rewrite !andb_false_r; reflexivity].
  destruct (Z.ltb_spec (acc * r) (2 ^ 256)); cbn [bind].
  - rewrite cp_add_of by nia. unfold ovf_if. destruct (Z.ltb_spec (acc * r + d) (2 ^ 256)); reflexivity.
  - replace (acc * r + d <? 2 ^ 256) with false by lia. reflexivity.
Qed.

(** the accumulated value *)
Definition acc_of (r acc : Z) (ds : list Z) : Z := acc * r ^ Z.of_nat (length ds) + value r ds.
Lemma acc_nil r acc : acc_of r acc [] = acc.
Proof. unfold acc_of. cbn [length value]. change (Z.of_nat 0) with 0. rewrite Z.pow_0_r. lia. Qed.
Lemma acc_cons r acc d ds : acc_of r acc (d :: ds) = acc_of r (acc * r + d) ds.
Proof. unfold acc_of. cbn [length value]. rewrite Nat2Z.inj_succ, Z.pow_succ_r by lia. ring. Qed.
Lemma acc_zero r ds : acc_of r 0 ds = value r ds.
Proof. unfold acc_of. lia. Qed.
Lemma acc_mono r acc ds s : 2 <= r -> 0 <= acc -> numeral r s ds -> acc <= acc_of r acc ds.
Proof.
  intros Hr Ha Hn. pose proof (value_nonneg r ds s ltac:(lia) Hn).
  pose proof (Z.pow_pos_nonneg r (Z.of_nat (length ds)) ltac:(lia) ltac:(lia)). unfold acc_of. nia.
Qed.

(** no step has a carry in the low word *)
Definition no_carry (r acc : Z) (ds : list Z) : Prop :=
  forall p d q, ds = p ++ d :: q -> low_sum r (acc_of r acc p) < 2 ^ 128.

Lemma cp_loop_sound c r text : lit_radix r -> forall acc, 0 <= acc < 2 ^ 256 ->
  (exists ds, numeral r (nonblank text) ds /\ acc_of r acc ds < 2 ^ 256 /\ no_carry r acc ds /\
              cp_loop c r text (uof c acc) = Ret (uof c (acc_of r acc ds))) \/
  (panics (cp_loop c r text (uof c acc)) /\
   forall ds, numeral r (nonblank text) ds -> acc_of r acc ds < 2 ^ 256 -> ~ no_carry r acc ds).
Proof.
  intros Hr. pose proof (lit_radix_range r Hr) as HR. induction text as [|b t IH]; intros acc Ha.
  - left. exists []. split; [constructor|]. rewrite acc_nil. split; [lia|]. split; [|reflexivity].
    intros p d q E. destruct p; discriminate.
  - rewrite cp_loop_step by assumption. unfold nonblank. cbn [filter]. fold (nonblank t).
    destruct (blank b) eqn:EB; cbn [negb]; [apply IH; assumption|].
    destruct (to_digit b r) as [d|] eqn:ED.
    + apply to_digit_spec in ED; [|assumption]. pose proof (digit_range _ _ _ ED) as HD.
      destruct ((acc * r + d <? 2 ^ 256) && (low_sum r acc <? 2 ^ 128)) eqn:EC.
      * destruct (IH (acc * r + d) ltac:(nia)) as [(ds & N & R & NC & E)|(P & X)].
        -- left. exists (d :: ds). split; [constructor; assumption|]. rewrite acc_cons. split; [assumption|]. split; [|assumption].
           intros p d' q Eq. destruct p as [|y p]; cbn [app] in Eq; inversion Eq; subst.
           ++ rewrite acc_nil. lia.
           ++ rewrite acc_cons. eapply NC. reflexivity.
        -- right. split; [assumption|]. intros ds N R NC. inversion N as [|? d0 ? ds0 D0 N0]; subst.
           replace d0 with d in * by (eapply digit_fun; eassumption). rewrite acc_cons in R.
           apply (X ds0 N0 R). intros p d' q Eq. specialize (NC (d :: p) d' q ltac:(cbn [app]; congruence)). rewrite acc_cons in NC. assumption.
      * right. split; [eexists; reflexivity|]. intros ds N R NC. inversion N as [|? d0 ? ds0 D0 N0]; subst.
        replace d0 with d in * by (eapply digit_fun; eassumption). rewrite acc_cons in R.
        specialize (NC [] d ds0 eq_refl). rewrite acc_nil in NC.
        pose proof (acc_mono r (acc * r + d) ds0 _ ltac:(lia) ltac:(nia) N0). lia.
    + right. split; [eexists; reflexivity|]. intros ds N. inversion N as [|? d0 ? ds0 D0 N0]; subst.
      apply to_digit_spec in D0; [|assumption]. congruence.
Qed.

Lemma no_carry_pow2 r acc s ds : (r = 2 \/ r = 8 \/ r = 16) -> 0 <= acc -> numeral r s ds -> no_carry r acc ds.
Proof.
  intros Hr Ha N p d q E. apply low_sum_pow2; [|assumption]. subst ds.
  unfold numeral in N. apply Forall2_app_inv_r in N. destruct N as (s1 & s2 & N1 & _ & _).
  pose proof (acc_mono r acc p s1 ltac:(lia) Ha N1). lia.
Qed.
Lemma no_carry_small r s ds : 2 <= r <= 36 -> numeral r s ds -> value r ds < 2 ^ 128 -> no_carry r 0 ds.
Proof.
  intros Hr N V p d q E. subst ds. unfold numeral in N. apply Forall2_app_inv_r in N. destruct N as (s1 & s2 & N1 & N2 & _).
  inversion N2 as [|? ? ? ? D0 N3]; subst. pose proof (acc_mono r 0 p s1 ltac:(lia) ltac:(lia) N1) as B. rewrite acc_zero in B.
  rewrite acc_zero. apply low_sum_small; [lia|lia|].
  assert (E : value r (p ++ d :: q) = acc_of r (value r (p ++ [d])) q).
  { clear. induction p as [|x p IH]; cbn [app value].
    - unfold acc_of. change (length (@nil Z)) with 0%nat. change (Z.of_nat 0) with 0. rewrite Z.pow_0_r. ring.
    - rewrite IH. unfold acc_of. rewrite !app_length. cbn [length]. rewrite Nat2Z.inj_add, Nat2Z.inj_succ.
      replace (Z.of_nat (length p) + Z.succ (Z.of_nat (length q))) with (Z.of_nat (length p + 1) + Z.of_nat (length q)) by lia.
      rewrite Z.pow_add_r by lia. ring. }
  apply digit_range in D0. assert (0 <= value r (p ++ [d])) by (rewrite value_app; nia).
  pose proof (acc_mono r (value r (p ++ [d])) q _ ltac:(lia) ltac:(lia) N3) as B2. rewrite <- E in B2. rewrite value_app in B2. lia.
Qed.

(** ** const_from_str_prefixed *)

(** the radix and the text after the prefix *)
Definition lit_split (b : list Z) : Z * list Z :=
  if 2 <? Z.of_nat (length b) then
    match b with
    | b0 :: b1 :: rest =>
        if (b0 =? 48) && (b1 =? 98) then (2, rest)
        else if (b0 =? 48) && (b1 =? 111) then (8, rest)
        else if (b0 =? 48) && (b1 =? 120) then (16, rest)
        else (10, b)
    | _ => (10, b)
    end
  else (10, b).

Lemma const_split c bytes start :
  const_from_str_prefixed c bytes start =
  match skipn start bytes with
  | [] => Panic "missing number"
  | b => let '(r, text) := lit_split b in cp_loop c r text U256_ZERO
  end.
Proof.
  unfold const_from_str_prefixed, lit_split. pose proof (skipn_length start bytes) as HL.
  destruct (skipn start bytes) as [|b0 t] eqn:E.
  - cbn [length] in HL. replace (Z.of_nat start <? Z.of_nat (length bytes)) with false by lia. reflexivity.
  - cbn [length] in HL. replace (Z.of_nat start <? Z.of_nat (length bytes)) with true by lia. cbn [negb].
    replace (2 <? Z.of_nat (length bytes) - Z.of_nat start) with (2 <? Z.of_nat (length (b0 :: t))) by (cbn [length]; lia). reflexivity.
Qed.

Definition lit_text (pre text b : list Z) : Prop := b = pre ++ text /\ text <> [].

(** which texts are literals of the radix [r] with prefix [pre] *)
Lemma lit_split_spec b ds r text : b <> [] -> lit_split b = (r, text) ->
  lit_radix r /\ text <> [] /\ (exists pre, In (pre, r) radix_prefixes /\ b = pre ++ text) /\
  (forall pre' r' text', In (pre', r') radix_prefixes -> b = pre' ++ text' -> text' <> [] ->
     numeral r' (nonblank text') ds -> r' = r /\ text' = text).
Proof.
  intros Hb E. unfold lit_split in E.
  assert (DEC : (r, text) = (10, b) -> (forall b1 rest, In b1 [98; 111; 120] -> rest <> [] -> b <> 48 :: b1 :: rest) ->
     lit_radix r /\ text <> [] /\ (exists pre, In (pre, r) radix_prefixes /\ b = pre ++ text) /\
     (forall pre' r' text', In (pre', r') radix_prefixes -> b = pre' ++ text' -> text' <> [] ->
        numeral r' (nonblank text') ds -> r' = r /\ text' = text)).
  { intros X NP. inversion X; subst. split; [unfold lit_radix; auto|]. split; [assumption|]. split.
    - exists []. split; [right; right; right; left; reflexivity|reflexivity].
    - intros pre' r' text' I Eb Nt N. unfold radix_prefixes in I. cbn [In] in I.
      destruct I as [I|[I|[I|[I|[]]]]]; inversion I; subst; cbn [app] in *.
      + destruct (NP 98 text'); [left; reflexivity|assumption|reflexivity].
      + destruct (NP 111 text'); [right; left; reflexivity|assumption|reflexivity].
      + destruct (NP 120 text'); [right; right; left; reflexivity|assumption|reflexivity].
      + split; reflexivity. }
  assert (PRE : forall b1 rest q, b = 48 :: b1 :: rest -> rest <> [] -> In ([48; b1], q) radix_prefixes -> (b1 = 98 \/ b1 = 111 \/ b1 = 120) ->
     (q, rest) = (r, text) ->
     lit_radix r /\ text <> [] /\ (exists pre, In (pre, r) radix_prefixes /\ b = pre ++ text) /\
     (forall pre' r' text', In (pre', r') radix_prefixes -> b = pre' ++ text' -> text' <> [] ->
        numeral r' (nonblank text') ds -> r' = r /\ text' = text)).
  { intros b1 rest q -> Nr I HB X. inversion X; subst q rest. split; [|split; [assumption|split]].
    - unfold lit_radix. unfold radix_prefixes in I. cbn [In] in I. destruct I as [I|[I|[I|[I|[]]]]]; inversion I; auto.
    - exists [48; b1]. split; [assumption|reflexivity].
    - intros pre' r' text' I' Eb Nt N.
      assert (ND : pre' = [] -> False).
      { intros ->. cbn [app] in Eb. subst text'. unfold radix_prefixes in I'. cbn [In] in I'.
        destruct I' as [I'|[I'|[I'|[I'|[]]]]]; inversion I'; subst r'.
        unfold nonblank in N. cbn [filter] in N. replace (blank 48) with false in N by reflexivity. cbn [negb] in N.
        assert (EB : blank b1 = false) by (destruct HB as [->|[->| ->]]; reflexivity). rewrite EB in N. cbn [negb] in N.
        inversion N as [|? ? ? ? _ N2]; subst. inversion N2 as [|? ? ? ? D _]; subst. unfold digit in D. lia. }
      unfold radix_prefixes in I, I'. cbn [In] in I, I'.
      destruct I' as [I'|[I'|[I'|[I'|[]]]]]; inversion I'; subst pre' r'; [| | |destruct (ND eq_refl)];
        destruct I as [I|[I|[I|[I|[]]]]]; inversion I; subst b1 r; cbn [app] in Eb; inversion Eb; split; reflexivity. }
  destruct (Z.ltb_spec 2 (Z.of_nat (length b))) as [L|L].
  - destruct b as [|b0 [|b1 rest]]; [congruence|cbn [length] in L; lia|].
    assert (Nr : rest <> []) by (intros ->; cbn [length] in L; lia).
    destruct (Z.eqb_spec b0 48) as [->|N0].
    2: { cbn [andb] in E. apply DEC; [congruence|]. intros ? ? _ _ X. inversion X; congruence. }
    cbn [andb] in E. destruct (Z.eqb_spec b1 98) as [->|N1]; [apply (PRE 98 rest 2); auto; left; reflexivity|].
    destruct (Z.eqb_spec b1 111) as [->|N2]; [apply (PRE 111 rest 8); auto; right; left; reflexivity|].
    destruct (Z.eqb_spec b1 120) as [->|N3]; [apply (PRE 120 rest 16); auto; right; right; left; reflexivity|].
    apply DEC; [congruence|]. intros b' rest' I _ X. inversion X; subst. cbn [In] in I. lia.
  - apply DEC; [congruence|]. intros b' rest' _ Nr X. subst b. destruct rest'; [congruence|]. cbn [length] in L. lia.
Qed.

(** the body of an unsigned literal *)
Lemma const_body c bytes start : let b := skipn start bytes in
  (exists pre r text ds, In (pre, r) radix_prefixes /\ b = pre ++ text /\ text <> [] /\ numeral r (nonblank text) ds /\
     value r ds < 2 ^ 256 /\ no_carry r 0 ds /\ const_from_str_prefixed c bytes start = Ret (uof c (value r ds))) \/
  (panics (const_from_str_prefixed c bytes start) /\
   forall pre r text ds, In (pre, r) radix_prefixes -> b = pre ++ text -> text <> [] -> numeral r (nonblank text) ds ->
     value r ds < 2 ^ 256 -> ~ no_carry r 0 ds).
Proof.
  cbv zeta. rewrite const_split. destruct (skipn start bytes) as [|b0 t] eqn:Eb.
  - right. split; [eexists; reflexivity|]. intros pre r text ds I E Nt. destruct pre; [|discriminate]. cbn [app] in E. congruence.
  - destruct (lit_split (b0 :: t)) as [r text] eqn:ES.
    pose proof (fun ds => lit_split_spec (b0 :: t) ds r text ltac:(discriminate) ES) as SP.
    destruct (SP []) as (Hr & Nt & (pre & I & E) & _).
    rewrite (U256_ZERO_of c).
    destruct (cp_loop_sound c r text Hr 0 ltac:(lia)) as [(ds & N & R & NC & EQ)|(P & X)].
    + left. exists pre, r, text, ds. rewrite acc_zero in *. tauto.
    + right. split; [assumption|]. intros pre' r' text' ds I' E' Nt' N' R'.
      destruct (SP ds) as (_ & _ & _ & U). destruct (U pre' r' text' I' E' Nt' N') as [-> ->].
      apply X; [assumption|]. rewrite acc_zero. assumption.
Qed.

(** ** Property lemmas *)

Lemma sign_u s : s <> [] -> skipn (if hd 0 s =? 43 then 1%nat else 0%nat) s = snd (sign false s) /\ fst (sign false s) = false.
Proof.
  destruct s as [|b t]; [congruence|]. intros _. cbn [hd]. unfold sign. rewrite andb_false_r.
  destruct (b =? 43); split; reflexivity.
Qed.

(** every literal text of uint! whose value is in range and whose evaluation has no carry is accepted, with its value;
    everything else is rejected *)
Lemma u_literal c s :
  (exists pre r text ds, In (pre, r) radix_prefixes /\ snd (sign false s) = pre ++ text /\ text <> [] /\ numeral r (nonblank text) ds /\
     value r ds < 2 ^ 256 /\ no_carry r 0 ds /\ u_const_from_str_prefixed c s = Ret (uof c (value r ds))) \/
  (panics (u_const_from_str_prefixed c s) /\
   forall pre r text ds, In (pre, r) radix_prefixes -> snd (sign false s) = pre ++ text -> text <> [] -> numeral r (nonblank text) ds ->
     value r ds < 2 ^ 256 -> ~ no_carry r 0 ds).
Proof.
  destruct s as [|b t].
  - right. split; [eexists; reflexivity|]. intros pre r text ds I E Nt. cbn [sign snd] in E. destruct pre; [|discriminate]. cbn [app] in E. congruence.
  - cbn [u_const_from_str_prefixed]. destruct (sign_u (b :: t) ltac:(discriminate)) as [E _]. cbn [hd] in E. rewrite <- E.
    apply const_body.
Qed.

Lemma u_lit_sound c s x : u_const_from_str_prefixed c s = Ret x ->
  wf_u x /\ exists pre r, In (pre, r) radix_prefixes /\ literal false pre r s (uval c x).
Proof.
  intros H. destruct (u_literal c s) as [(pre & r & text & ds & I & E & Nt & N & R & NC & EQ)|((m & P) & _)]; [|congruence].
  rewrite EQ in H. apply ret_inj in H. subst x. split; [apply wf_uof|]. exists pre, r. split; [assumption|]. exists text, ds.
  split; [assumption|]. split; [assumption|]. split; [assumption|].
  assert (HF : fst (sign false s) = false). { unfold sign. destruct s as [|b t]; [reflexivity|]. rewrite andb_false_r. destruct (b =? 43); reflexivity. }
  rewrite HF. cbn [signed_by]. rewrite uval_uof. apply Z.mod_small. pose proof (value_nonneg r ds _ ltac:(pose proof (prefix_radix _ _ I); lia) N). lia.
Qed.
Lemma u_lit_total c s : (exists x, u_const_from_str_prefixed c s = Ret x) \/ panics (u_const_from_str_prefixed c s).
Proof.
  destruct (u_literal c s) as [(pre & r & text & ds & I & E & Nt & N & R & NC & EQ)|(P & _)]; [left; eexists; eassumption|right; assumption].
Qed.
Lemma sign_false_fst s : fst (sign false s) = false.
Proof. unfold sign. destruct s as [|b t]; [reflexivity|]. rewrite andb_false_r. destruct (b =? 43); reflexivity. Qed.

(** a literal has one value only *)
Lemma body_unique pre r text ds pre' r' text' ds' b : In (pre, r) radix_prefixes -> In (pre', r') radix_prefixes ->
  b = pre ++ text -> b = pre' ++ text' -> text <> [] -> text' <> [] -> numeral r (nonblank text) ds -> numeral r' (nonblank text') ds' ->
  pre = pre' /\ r = r' /\ text = text' /\ ds = ds'.
Proof.
  intros I I' E E' Nt Nt' N N'.
  assert (Nb : b <> []) by (subst b; destruct pre; [assumption|discriminate]).
  destruct (lit_split b) as [q tx] eqn:ES.
  destruct (lit_split_spec b ds q tx Nb ES) as (_ & _ & _ & U1). destruct (lit_split_spec b ds' q tx Nb ES) as (_ & _ & _ & U2).
  destruct (U1 _ _ _ I E Nt N) as [-> ->]. destruct (U2 _ _ _ I' E' Nt' N') as [-> ->].
  split; [|split; [reflexivity|split; [reflexivity|]]].
  - apply app_inv_tail with tx. congruence.
  - clear U1 U2; revert ds' N'. induction N as [|x y l l' H1 H2 IH]; intros ds' N'; inversion N'; subst; [reflexivity|].
    f_equal; [eapply digit_fun; eassumption|]. auto.
Qed.

Lemma u_lit_complete c s pre r v : In (pre, r) radix_prefixes -> literal false pre r s v -> 0 <= v < 2 ^ 256 ->
  r <> 10 \/ v < 2 ^ 128 -> u_const_from_str_prefixed c s = Ret (uof c v).
Proof.
  intros I (text & ds & E & Nt & N & V) HV HC. rewrite sign_false_fst in V. cbn [signed_by] in V. subst v.
  pose proof (prefix_radix _ _ I) as HR.
  assert (NC : no_carry r 0 ds).
  { destruct HC as [HC|HC]; [|apply no_carry_small with (nonblank text); assumption].
    apply no_carry_pow2 with (nonblank text); [|lia|assumption].
    unfold radix_prefixes in I. cbn [In] in I. destruct I as [I|[I|[I|[I|[]]]]]; inversion I; subst; auto; congruence. }
  destruct (u_literal c s) as [(pre' & r' & text' & ds' & I' & E' & Nt' & N' & R' & NC' & EQ)|(P & X)].
  - destruct (body_unique _ _ _ _ _ _ _ _ _ I I' E E' Nt Nt' N N') as (-> & -> & -> & ->). assumption.
  - destruct (X pre r text ds I E Nt N); [lia|assumption].
Qed.
Lemma u_lit_range c s pre r v : In (pre, r) radix_prefixes -> literal false pre r s v -> ~ (0 <= v < 2 ^ 256) ->
  panics (u_const_from_str_prefixed c s).
Proof.
  intros I (text & ds & E & Nt & N & V) HV. rewrite sign_false_fst in V. cbn [signed_by] in V. subst v.
  destruct (u_literal c s) as [(pre' & r' & text' & ds' & I' & E' & Nt' & N' & R' & NC' & EQ)|(P & X)]; [|assumption].
  destruct (body_unique _ _ _ _ _ _ _ _ _ I I' E E' Nt Nt' N N') as (-> & -> & -> & ->). exfalso. apply HV.
  pose proof (value_nonneg r' ds' _ ltac:(pose proof (prefix_radix _ _ I); lia) N). lia.
Qed.

(** *** int! *)

Lemma neg_words_of c v : 0 <= v < 2 ^ 256 ->
  (let '(hi, lo) := u_into_words c (uof c v) in
   let '(lo, carry) := overflowing_add 128 (u_not 128 lo) 1 in
   let hi := wrapping_add 128 (u_not 128 hi) (Z.b2z carry) in (hi, lo)) = ((- v) mod 2 ^ 256 / 2 ^ 128, (- v) mod 2 ^ 256 mod 2 ^ 128).
Proof.
  intros Hv. rewrite u_into_words_of. unfold overflowing_add, wrapping_add, u_not.
  assert (H1 : 0 <= v / 2 ^ 128 < 2 ^ 128) by zz. rewrite (Z.mod_small (v / 2 ^ 128)) by lia.
  f_equal.
  - destruct (Z.leb_spec (2 ^ 128) (2 ^ 128 - 1 - v mod 2 ^ 128 + 1)); cbn [Z.b2z]; zz.
  - zz.
Qed.
Lemma as_i_words c v : i_from_words c (as_i 128 (v mod 2 ^ 256 / 2 ^ 128)) (as_i 128 (v mod 2 ^ 256 mod 2 ^ 128)) = iof c v.
Proof.
  unfold i_from_words, iof. assert (E : forall x, 0 <= x < 2 ^ 128 -> as_i 128 x = wrap_i 128 x).
  { intros x Hx. unfold as_i, wrap_i. rewrite Z.mod_small by lia. change (128 - 1) with 127. destruct (Z.ltb_spec x (2 ^ 127)); zz. }
  assert (H0 : 0 <= v mod 2 ^ 256 < 2 ^ 256) by (apply Z.mod_pos_bound; lia).
  rewrite !E by zz. reflexivity.
Qed.

Definition sign_i (s : list Z) : bool * nat :=
  match s with b0 :: _ => if b0 =? 43 then (false, 1%nat) else if b0 =? 45 then (true, 1%nat) else (false, 0%nat) | [] => (false, 0%nat) end.
Lemma sign_i_spec s : fst (sign_i s) = fst (sign true s) /\ skipn (snd (sign_i s)) s = snd (sign true s).
Proof.
  destruct s as [|b t]; [split; reflexivity|]. unfold sign_i, sign. rewrite andb_true_r.
  destruct (b =? 43); [split; reflexivity|]. destruct (b =? 45); split; reflexivity.
Qed.

(** the end of the signed parser *)
Definition i_finish (c : cfg) (negate : bool) (uint : u256) : res i256 :=
      let '(hi, lo) := if negate then
          let '(hi, lo) := u_into_words c uint in
          let '(lo, carry) := overflowing_add 128 (u_not 128 lo) 1 in
          let hi := wrapping_add 128 (u_not 128 hi) (Z.b2z carry) in (hi, lo)
        else u_into_words c uint in
      let int := i_from_words c (as_i 128 hi) (as_i 128 lo) in
      let s := i_signum128 c int in
      if (negb negate && (s =? -1)) || (negate && (s =? 1)) then Panic "overflows integer type" else Ret int.

Lemma i_literal c s :
  (exists pre r text ds, In (pre, r) radix_prefixes /\ snd (sign true s) = pre ++ text /\ text <> [] /\ numeral r (nonblank text) ds /\
     let v := signed_by (fst (sign true s)) (value r ds) in
     - 2 ^ 255 <= v < 2 ^ 255 /\ no_carry r 0 ds /\ i_const_from_str_prefixed c s = Ret (iof c v)) \/
  (panics (i_const_from_str_prefixed c s) /\
   forall pre r text ds, In (pre, r) radix_prefixes -> snd (sign true s) = pre ++ text -> text <> [] -> numeral r (nonblank text) ds ->
     - 2 ^ 255 <= signed_by (fst (sign true s)) (value r ds) < 2 ^ 255 -> ~ no_carry r 0 ds).
Proof.
  destruct s as [|b0 t0].
  - right. split; [eexists; reflexivity|]. intros pre r text ds I E Nt. cbn [sign snd] in E. destruct pre; [|discriminate]. cbn [app] in E. congruence.
  - destruct (sign_i_spec (b0 :: t0)) as [S1 S2]. rewrite <- S1, <- S2. set (s := b0 :: t0) in *.
    assert (EQ : i_const_from_str_prefixed c s =
      let '(negate, start) := sign_i s in
      let! uint := const_from_str_prefixed c s start in
      i_finish c negate uint) by reflexivity.
    destruct (sign_i s) as [negate start] eqn:ESI. cbn [fst snd]. rewrite EQ. clear EQ S1 S2.
    destruct (const_body c s start) as [(pre & r & text & ds & I & E & Nt & N & R & NC & EQ)|((m & P) & X)].
    2: { right. rewrite P. split; [eexists; reflexivity|]. intros pre r text ds I E Nt N R. apply (X pre r text ds I E Nt N).
         unfold signed_by in R. destruct negate; lia. }
    rewrite EQ. cbn [bind]. pose proof (value_nonneg r ds _ ltac:(pose proof (prefix_radix _ _ I); lia) N) as VN.
    assert (EI : i_finish c negate (uof c (value r ds)) =
      let v := signed_by negate (value r ds) in
      if (- 2 ^ 255 <=? v) && (v <? 2 ^ 255) then Ret (iof c v) else Panic "overflows integer type").
    { unfold i_finish. assert (EW : (if negate then
          let '(hi, lo) := u_into_words c (uof c (value r ds)) in
          let '(lo, carry) := overflowing_add 128 (u_not 128 lo) 1 in
          let hi := wrapping_add 128 (u_not 128 hi) (Z.b2z carry) in (hi, lo)
        else u_into_words c (uof c (value r ds))) = 
          (signed_by negate (value r ds) mod 2 ^ 256 / 2 ^ 128, signed_by negate (value r ds) mod 2 ^ 256 mod 2 ^ 128)).
      { destruct negate; cbn [signed_by]; [apply neg_words_of; lia|]. rewrite u_into_words_of.
        rewrite (Z.mod_small (value r ds) (2 ^ 256)) by lia. f_equal. zz. }
      cbv zeta in EW |- *. rewrite EW. rewrite as_i_words. set (v := signed_by negate (value r ds)).
      rewrite (iof_wrapped c v). set (w := wrap_i 256 v). assert (HW : - 2 ^ 255 <= w < 2 ^ 255) by (apply (wrap_i_range 256); lia).
      rewrite i_signum128_of by assumption.
      assert (HVW : w = if v <? - 2 ^ 255 then v + 2 ^ 256 else if v <? 2 ^ 255 then v else v - 2 ^ 256).
      { unfold w, wrap_i. change (256 - 1) with 255. unfold v, signed_by.
        destruct negate; destruct (Z.ltb_spec (signed_by true (value r ds)) (- 2 ^ 255)); cbn [signed_by] in *; 
        repeat match goal with |- context [?a <? ?b] => destruct (Z.ltb_spec a b) end; zz. }
      assert (SV : if negate then v <= 0 else 0 <= v) by (unfold v, signed_by; destruct negate; lia).
      assert (BV : - 2 ^ 256 < v < 2 ^ 256) by (unfold v, signed_by; destruct negate; lia).
      destruct (Z.leb_spec (- 2 ^ 255) v) as [A|A]; destruct (Z.ltb_spec v (2 ^ 255)) as [B|B]; cbn [andb].
      - assert (w = v) by (rewrite HVW; replace (v <? - 2 ^ 255) with false by lia; replace (v <? 2 ^ 255) with true by lia; reflexivity).
        rewrite H. destruct negate; cbn [negb andb orb].
        + replace (Z.sgn v =? 1) with false by lia. reflexivity.
        + replace (Z.sgn v =? -1) with false by lia. reflexivity.
      - assert (w = v - 2 ^ 256) by (rewrite HVW; replace (v <? - 2 ^ 255) with false by lia; replace (v <? 2 ^ 255) with false by lia; reflexivity).
        destruct negate; [lia|]. cbn [negb andb orb]. replace (Z.sgn w =? -1) with true by lia. reflexivity.
      - assert (w = v + 2 ^ 256) by (rewrite HVW; replace (v <? - 2 ^ 255) with true by lia; reflexivity).
        destruct negate; [|lia]. cbn [negb andb orb]. replace (Z.sgn w =? 1) with true by lia. reflexivity.
      - lia. }
    rewrite EI. cbv zeta. clear EI.
    destruct (Z.leb_spec (- 2 ^ 255) (signed_by negate (value r ds))) as [A|A]; destruct (Z.ltb_spec (signed_by negate (value r ds)) (2 ^ 255)) as [B|B]; cbn [andb].
    1: { left. exists pre, r, text, ds. tauto. }
    all: right; (split; [eexists; reflexivity|]); intros pre' r' text' ds' I' E' Nt' N' R';
      destruct (body_unique _ _ _ _ _ _ _ _ _ I I' E E' Nt Nt' N N') as (-> & -> & -> & ->); lia.
Qed.
Lemma i_lit_sound c s x : i_const_from_str_prefixed c s = Ret x ->
  wf_i x /\ exists pre r, In (pre, r) radix_prefixes /\ literal true pre r s (ival c x).
Proof.
  intros H. destruct (i_literal c s) as [(pre & r & text & ds & I & E & Nt & N & R & NC & EQ)|((m & P) & _)]; [|congruence].
  cbv zeta in *. rewrite EQ in H. apply ret_inj in H. subst x. split; [apply wf_iof|]. exists pre, r. split; [assumption|]. exists text, ds.
  split; [assumption|]. split; [assumption|]. split; [assumption|].
  rewrite ival_iof. apply (wrap_i_small 256); change (256 - 1) with 255; lia.
Qed.
Lemma i_lit_total c s : (exists x, i_const_from_str_prefixed c s = Ret x) \/ panics (i_const_from_str_prefixed c s).
Proof.
  destruct (i_literal c s) as [(pre & r & text & ds & I & E & Nt & N & R & NC & EQ)|(P & _)]; [left; eexists; eassumption|right; assumption].
Qed.
Lemma i_lit_complete c s pre r v : In (pre, r) radix_prefixes -> literal true pre r s v -> - 2 ^ 255 <= v < 2 ^ 255 ->
  r <> 10 \/ Z.abs v < 2 ^ 128 -> i_const_from_str_prefixed c s = Ret (iof c v).
Proof.
  intros I (text & ds & E & Nt & N & V) HV HC. 
  pose proof (prefix_radix _ _ I) as HR. pose proof (value_nonneg r ds _ ltac:(lia) N) as VN.
  assert (NC : no_carry r 0 ds).
  { destruct HC as [HC|HC]; [|apply no_carry_small with (nonblank text); try assumption; subst v; unfold signed_by in HC; destruct (fst (sign true s)); lia].
    apply no_carry_pow2 with (nonblank text); [|lia|assumption].
    unfold radix_prefixes in I. cbn [In] in I. destruct I as [I|[I|[I|[I|[]]]]]; inversion I; subst; auto; congruence. }
  destruct (i_literal c s) as [(pre' & r' & text' & ds' & I' & E' & Nt' & N' & R' & NC' & EQ)|(P & X)].
  - destruct (body_unique _ _ _ _ _ _ _ _ _ I I' E E' Nt Nt' N N') as (-> & -> & -> & ->). cbv zeta in EQ. rewrite EQ, V. reflexivity.
  - subst v. destruct (X pre r text ds I E Nt N HV NC).
Qed.
Lemma i_lit_range c s pre r v : In (pre, r) radix_prefixes -> literal true pre r s v -> ~ (- 2 ^ 255 <= v < 2 ^ 255) ->
  panics (i_const_from_str_prefixed c s).
Proof.
  intros I (text & ds & E & Nt & N & V) HV.
  destruct (i_literal c s) as [(pre' & r' & text' & ds' & I' & E' & Nt' & N' & R' & NC' & EQ)|(P & X)]; [|assumption].
  destruct (body_unique _ _ _ _ _ _ _ _ _ I I' E E' Nt Nt' N N') as (-> & -> & -> & ->). cbv zeta in *. subst v. tauto.
Qed.

(** ** Packaged statements *)

Lemma lit_sound c s x y :
  (u_const_from_str_prefixed c s = Ret x ->
   wf_u x /\ exists pre r, In (pre, r) radix_prefixes /\ literal false pre r s (uval c x)) /\
  (i_const_from_str_prefixed c s = Ret y ->
   wf_i y /\ exists pre r, In (pre, r) radix_prefixes /\ literal true pre r s (ival c y)).
Proof. split; [apply u_lit_sound|apply i_lit_sound]. Qed.

Lemma lit_reject c s :
  ((~ exists pre r v, In (pre, r) radix_prefixes /\ literal false pre r s v /\ 0 <= v <= MAXU) ->
   panics (u_const_from_str_prefixed c s)) /\
  ((~ exists pre r v, In (pre, r) radix_prefixes /\ literal true pre r s v /\ MINI <= v <= MAXI) ->
   panics (i_const_from_str_prefixed c s)).
Proof.
  split; intros H.
  - destruct (u_lit_total c s) as [(x & E)|P]; [|assumption]. destruct H.
    destruct (u_lit_sound c s x E) as (W & pre & r & I & L). exists pre, r, (uval c x). split; [assumption|]. split; [assumption|].
    pose proof (uval_range c x W). unfold MAXU. lia.
  - destruct (i_lit_total c s) as [(x & E)|P]; [|assumption]. destruct H.
    destruct (i_lit_sound c s x E) as (W & pre & r & I & L). exists pre, r, (ival c x). split; [assumption|]. split; [assumption|].
    pose proof (ival_range c x W). unfold MINI, MAXI. lia.
Qed.

Lemma lit_total c s : 
  ((exists x, u_const_from_str_prefixed c s = Ret x) \/ panics (u_const_from_str_prefixed c s)) /\
  ((exists y, i_const_from_str_prefixed c s = Ret y) \/ panics (i_const_from_str_prefixed c s)).
Proof. split; [apply u_lit_total|apply i_lit_total]. Qed.

Lemma lit_complete c s pre r v : In (pre, r) radix_prefixes -> r <> 10 \/ Z.abs v < 2 ^ 128 ->
  (literal false pre r s v -> 0 <= v <= MAXU -> u_const_from_str_prefixed c s = Ret (uof c v)) /\
  (literal true pre r s v -> MINI <= v <= MAXI -> i_const_from_str_prefixed c s = Ret (iof c v)).
Proof.
  intros I HC. unfold MAXU, MINI, MAXI. split; intros L R.
  - apply u_lit_complete with pre r; try assumption; lia.
  - apply i_lit_complete with pre r; try assumption; lia.
Qed.

(** the value of a literal text is unique *)
Lemma lit_unique signed s pre r v pre' r' v' : In (pre, r) radix_prefixes -> In (pre', r') radix_prefixes ->
  literal signed pre r s v -> literal signed pre' r' s v' -> pre = pre' /\ r = r' /\ v = v'.
Proof.
  intros I I' (text & ds & E & Nt & N & V) (text' & ds' & E' & Nt' & N' & V').
  destruct (body_unique _ _ _ _ _ _ _ _ _ I I' E E' Nt Nt' N N') as (-> & -> & -> & ->). subst. auto.
Qed.

Lemma lit_actual c signed s pre r text ds : In (pre, r) radix_prefixes ->
  snd (sign signed s) = pre ++ text -> text <> [] -> numeral r (filter (fun ch => negb (blank ch)) text) ds ->
  let v := signed_by (fst (sign signed s)) (value r ds) in
  let ok := forall p d q, ds = p ++ d :: q -> low_sum r (value r p) < 2 ^ 128 in
  (signed = false -> 0 <= v <= MAXU ->
   (u_const_from_str_prefixed c s = Ret (uof c v) <-> ok) /\ (panics (u_const_from_str_prefixed c s) <-> ~ ok)) /\
  (signed = true -> MINI <= v <= MAXI ->
   (i_const_from_str_prefixed c s = Ret (iof c v) <-> ok) /\ (panics (i_const_from_str_prefixed c s) <-> ~ ok)).
Proof.
  intros I E Nt N. cbv zeta. unfold MAXU, MINI, MAXI.
  assert (NCE : no_carry r 0 ds <-> forall p d q, ds = p ++ d :: q -> low_sum r (value r p) < 2 ^ 128).
  { unfold no_carry. split; intros H p d q Eq; specialize (H p d q Eq); rewrite acc_zero in *; assumption. }
  rewrite <- NCE. split; intros -> R.
  - rewrite sign_false_fst in *. cbn [signed_by] in *.
    destruct (u_literal c s) as [(pre' & r' & text' & ds' & I' & E' & Nt' & N' & R' & NC' & EQ)|((m & P) & X)].
    + destruct (body_unique _ _ _ _ _ _ _ _ _ I I' E E' Nt Nt' N N') as (-> & -> & -> & ->). rewrite EQ. split; [tauto|].
      split; [intros (m & M); discriminate|tauto].
    + specialize (X pre r text ds I E Nt N ltac:(lia)). rewrite P. split; (split; [|intros; first [contradiction|exists m; reflexivity]]).
      * discriminate.
      * intros _. assumption.
  - destruct (i_literal c s) as [(pre' & r' & text' & ds' & I' & E' & Nt' & N' & R' & NC' & EQ)|((m & P) & X)].
    + destruct (body_unique _ _ _ _ _ _ _ _ _ I I' E E' Nt Nt' N N') as (-> & -> & -> & ->). rewrite EQ. split; [tauto|].
      split; [intros (m & M); discriminate|tauto].
    + specialize (X pre r text ds I E Nt N ltac:(lia)). rewrite P. split; (split; [|intros; first [contradiction|exists m; reflexivity]]).
      * discriminate.
      * intros _. assumption.
Qed.

(** a decimal literal far below the maximum that is rejected *)
Definition carry_literal : list Z := [54; 56; 48; 53; 54; 52; 55; 51; 51; 56; 52; 49; 56; 55; 54; 57; 50; 55; 48; 55; 52; 51; 50; 51; 49; 54; 55; 52; 53; 51; 50; 49; 50; 56; 51; 53; 56; 51; 55].

Lemma lit_witness c :
  literal false [] 10 carry_literal 680564733841876927074323167453212835837 /\ literal true [] 10 carry_literal 680564733841876927074323167453212835837 /\
  680564733841876927074323167453212835837 < MAXI /\
  u_const_from_str_prefixed c carry_literal = Panic "overflows integer type" /\
  i_const_from_str_prefixed c carry_literal = Panic "overflows integer type" /\
  u_from_str c carry_literal = Ret (Ok (uof c 680564733841876927074323167453212835837)).
Proof.
  assert (N : numeral 10 carry_literal [6; 8; 0; 5; 6; 4; 7; 3; 3; 8; 4; 1; 8; 7; 6; 9; 2; 7; 0; 7; 4; 3; 2; 3; 1; 6; 7; 4; 5; 3; 2; 1; 2; 8; 3; 5; 8; 3; 7]).
  { unfold numeral, carry_literal. repeat (constructor; [unfold digit; lia|]). constructor. }
  assert (L : forall signed, literal signed [] 10 carry_literal 680564733841876927074323167453212835837).
  { intros signed. exists carry_literal, [6; 8; 0; 5; 6; 4; 7; 3; 3; 8; 4; 1; 8; 7; 6; 9; 2; 7; 0; 7; 4; 3; 2; 3; 1; 6; 7; 4; 5; 3; 2; 1; 2; 8; 3; 5; 8; 3; 7].
    destruct signed; (split; [reflexivity|split; [discriminate|split; [exact N|vm_compute; reflexivity]]]). }
  split; [apply L|]. split; [apply L|]. split; [vm_compute; reflexivity|].
  destruct c as [d o b u l]. split; [|split]; destruct d, o, b, l; vm_compute; reflexivity.
Qed.

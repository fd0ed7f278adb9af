(** * What every panic says *)

From Coq Require Import ZArith List String Bool Lia ZifyBool.
Import ListNotations. Local Notation length := List.length.
From Verif Require Import M_Prim M_Words M_Intr M_Div M_Mul M_Ops M_UintApi M_IntApi M_Convert M_Float M_Parse M_Fmt M_Serde M_Misc
  Spec Spec_Fold Spec_Shift Spec_Bits Spec_Serde Spec_Convert Spec_Parse Spec_Fmt Spec_Builds Spec_Api Spec_Panic Spec_Message
  P_Words P_AddSub P_Bits P_Ops P_IntDiv P_Uint P_Int P_Forms P_BitsApi P_Count P_Bytes P_Pow P_Pow2 P_Convert P_Float P_Round
  P_Parse P_Literal P_SerdeBytes P_Builds P_BuildsBase P_BuildsText P_PanicBase P_Clamp.
Open Scope string_scope.
Open Scope Z_scope.

Definition voiced (s : sig) (f : forall c, fn s) (M : cfg -> utter s) : Prop :=
  forall c, usize_ok c -> speaks c s (f c) (M c).

Lemma speaks_ret c k v M : speaks c (Runs k) (Ret v) M.
Proof. intros m E. discriminate. Qed.
Lemma speaks_panic c k m (M : string -> Prop) : M m -> speaks c (Runs k) (Panic m) M.
Proof. intros H m' E. injection E as <-. exact H. Qed.

Ltac mside := unfold rem_assign_message; rewrite ?uval_of_small, ?ival_of_small by first [assumption | split; assumption];
  unfold MAXU, MINI, MAXI, in_u, in_i in *; cbn [Z.sub Z.add Pos.sub Z.opp Z.pos_sub Pos.pred_double] in *;
  repeat match goal with |- context [if ?b then _ else _] => destruct b eqn:? end;
  first [reflexivity | discriminate | exfalso; lia].
Ltac mfin := repeat match goal with
  | |- speaks _ (Runs _) (if ?b then _ else _) _ => destruct b eqn:?
  | |- speaks _ (Runs _) (Ret _) _ => apply speaks_ret
  | |- speaks _ (Runs _) (Panic _) _ => apply speaks_panic
  end; try mside.
Ltac mgo := match goal with |- speaks _ _ ?l _ => use_eq l end; mfin.

Lemma speaks_shift c k s msg (v : Z -> den k) : speaks c (Runs k) (shift_out c s msg v) (eq msg).
Proof. unfold shift_out. mfin. Qed.
Lemma speaks_fold c k (r : res (den k)) (rng : Z -> bool) (spec : list Z -> Z) vs msg x :
  (debug_assertions c = false -> r = Ret x) ->
  (debug_assertions c = true -> (forall n, rng (spec (firstn n vs)) = true) -> r = Ret x) ->
  (debug_assertions c = true -> (exists n, rng (spec (firstn n vs)) = false) -> r = Panic msg) ->
  speaks c (Runs k) r (eq msg).
Proof.
  intros R T F. destruct (debug_assertions c) eqn:D.
  - destruct (all_or_one (fun n => rng (spec (firstn n vs))) (length vs)) as [H|[n H]].
    + intros n L. rewrite !firstn_all2 by lia. reflexivity.
    + rewrite (T eq_refl H). apply speaks_ret.
    + rewrite (F eq_refl) by (exists n; exact H). apply speaks_panic. reflexivity.
  - rewrite (R eq_refl). apply speaks_ret.
Qed.

(** ** Texts *)

Lemma u32_digits_canonical n : forall v after, 0 <= v < 10 ^ Z.of_nat n -> (0 < n)%nat ->
  exists ds, map (fun a => Z.of_N (Ascii.N_of_ascii a)) (list_ascii_of_string (u32_digits n v after)) =
    (map (digit_char false) ds ++ map (fun a => Z.of_N (Ascii.N_of_ascii a)) (list_ascii_of_string after))%list /\
    Forall (fun d => 0 <= d < 10) ds /\ value 10 ds = v /\ ds <> [] /\ (hd 0 ds = 0 -> ds = [0]).
Proof.
  induction n as [|n IH]; intros v after Hv Hn; [lia|].
  rewrite Nat2Z.inj_succ, Z.pow_succ_r in Hv by lia. cbn [u32_digits].
  pose proof (Z.mod_pos_bound v 10 ltac:(lia)) as M. pose proof (Z.div_mod v 10 ltac:(lia)) as D.
  assert (CH : Z.of_N (Ascii.N_of_ascii (Ascii.ascii_of_N (Z.to_N (48 + v mod 10)))) = digit_char false (v mod 10)).
  { rewrite Ascii.N_ascii_embedding by lia. unfold digit_char. replace (v mod 10 <? 10) with true by lia. lia. }
  destruct (Z.ltb_spec v 10) as [L|L].
  - exists [v mod 10]. cbn [list_ascii_of_string map app]. rewrite CH. split; [reflexivity|].
    split; [repeat constructor; lia|]. split; [cbn [value List.length Z.of_nat]; rewrite Z.pow_0_r; lia|]. split; [discriminate|]. cbn [hd]. intros ->. reflexivity.
  - assert (Hn' : (0 < n)%nat) by (destruct n; [cbn in Hv; lia|lia]).
    assert (0 <= v / 10 < 10 ^ Z.of_nat n) by (split; [apply Z.div_pos; lia|apply Z.div_lt_upper_bound; lia]).
    destruct (IH (v / 10) (String (Ascii.ascii_of_N (Z.to_N (48 + v mod 10))) after)) as (ds & E & F & V & N & Z0); try assumption.
    exists (ds ++ [v mod 10])%list. rewrite E. cbn [list_ascii_of_string map]. rewrite CH, map_app, <- app_assoc.
    split; [reflexivity|]. split; [apply Forall_app; split; [exact F|repeat constructor; lia]|].
    split; [rewrite value_app, V; lia|]. split; [destruct ds; discriminate|].
    intros H0. destruct ds as [|d ds]; [contradiction|]. cbn [app hd] in *. specialize (Z0 H0). rewrite Z0 in V. change (value 10 [0]) with 0 in V. lia.
Qed.
Lemma radix_says {T} (h : helper T) s r p : 0 <= r < 2 ^ 32 -> ~ 2 <= r <= 36 ->
  exists m, from_str_radix h s r p = Panic m /\ radix_message r m.
Proof.
  intros R H. unfold from_str_radix. replace ((2 <=? r) && (r <=? 36)) with false by lia. cbn [negb].
  eexists. split; [reflexivity|]. exists (u32_display r). split; [reflexivity|].
  destruct (u32_digits_canonical 10 r EmptyString) as (ds & E & K); [change (10 ^ Z.of_nat 10) with 10000000000; lia|lia|].
  exists ds. split; [|exact K]. unfold u32_display. rewrite E. apply app_nil_r.
Qed.
Lemma speaks_radix_u c s r : 0 <= r < 2 ^ 32 -> speaks c (Runs (Result U)) (u_from_str_radix c s r) (radix_message r).
Proof.
  intros R. destruct (Z.le_gt_cases 2 r), (Z.le_gt_cases r 36).
  1: unfold u_from_str_radix; destruct (parse_u_total c s r None ltac:(lia)) as [o ->]; apply speaks_ret.
  all: unfold u_from_str_radix; destruct (radix_says (u_helper c) s r None R ltac:(lia)) as (m & -> & M); apply speaks_panic; exact M.
Qed.
Lemma speaks_radix_i c s r : 0 <= r < 2 ^ 32 -> speaks c (Runs (Result I)) (i_from_str_radix c s r) (radix_message r).
Proof.
  intros R. destruct (Z.le_gt_cases 2 r), (Z.le_gt_cases r 36).
  1: unfold i_from_str_radix; destruct (parse_i_total c s r None ltac:(lia)) as [o ->]; apply speaks_ret.
  all: unfold i_from_str_radix; destruct (radix_says (i_helper c) s r None R ltac:(lia)) as (m & -> & M); apply speaks_panic; exact M.
Qed.

(** as [stumbles], from the value [acc] on *)
Definition trips (r acc : Z) (text : list Z) : Prop :=
  exists before ch after ds, text = (before ++ ch :: after)%list /\ blank ch = false /\ (forall d, ~ digit r ch d) /\
    numeral r (nonblank before) ds /\ acc_of r acc ds < 2 ^ 256 /\ no_carry r acc ds.

Lemma loop_says c r text : lit_radix r -> forall acc m, 0 <= acc < 2 ^ 256 -> cp_loop c r text (uof c acc) = Panic m ->
  trips r acc text /\ m = "invalid digit" \/ ~ trips r acc text /\ m = "overflows integer type".
Proof.
  intros Hr. pose proof (lit_radix_range r Hr) as HR. induction text as [|b t IH]; intros acc m Ha E; [discriminate|].
  rewrite cp_loop_step in E by assumption. destruct (blank b) eqn:EB.
  - destruct (IH acc m Ha E) as [[(p & ch & q & ds & -> & B & D & N & V & C) ->]|[H ->]]; [left|right]; (split; [|reflexivity]).
    + exists (b :: p), ch, q, ds. cbn [app nonblank filter]. unfold nonblank. cbn [filter]. rewrite EB. cbn [negb]. auto 9.
    + intros (p & ch & q & ds & X & B & D & N & V & C). destruct p as [|y p]; cbn [app] in X; injection X as -> ->; [congruence|].
      apply H. exists p, ch, q, ds. unfold nonblank in N. cbn [filter] in N. rewrite EB in N. cbn [negb] in N. auto 9.
  - destruct (to_digit b r) as [d|] eqn:ED.
    + apply to_digit_spec in ED; [|assumption]. pose proof (digit_range _ _ _ ED) as HD.
      destruct ((acc * r + d <? 2 ^ 256) && (low_sum r acc <? 2 ^ 128)) eqn:EC.
      * destruct (IH (acc * r + d) m ltac:(nia) E) as [[(p & ch & q & ds & -> & B & D & N & V & C) ->]|[H ->]]; [left|right]; (split; [|reflexivity]).
        -- exists (b :: p), ch, q, (d :: ds). split; [reflexivity|]. split; [exact B|]. split; [exact D|].
           split; [unfold nonblank; cbn [filter]; rewrite EB; constructor; assumption|]. rewrite acc_cons. split; [exact V|].
           intros p' d' q' Eq. destruct p' as [|y p']; cbn [app] in Eq; inversion Eq; subst.
           ++ rewrite acc_nil. lia.
           ++ rewrite acc_cons. eapply C. reflexivity.
        -- intros (p & ch & q & ds & X & B & D & N & V & C). destruct p as [|y p]; cbn [app] in X; injection X as -> ->.
           ++ exact (D d ED).
           ++ unfold nonblank in N. cbn [filter] in N. rewrite EB in N. cbn [negb] in N. inversion N as [|? d0 ? ds0 D0 N0]; subst.
              replace d0 with d in * by (eapply digit_fun; eassumption). rewrite acc_cons in V.
              apply H. exists p, ch, q, ds0. repeat (split; [first [reflexivity|assumption]|]).
              intros p' d' q' Eq. specialize (C (d :: p') d' q' ltac:(cbn [app]; congruence)). rewrite acc_cons in C. exact C.
      * injection E as <-. right. split; [|reflexivity].
        intros (p & ch & q & ds & X & B & D & N & V & C). destruct p as [|y p]; cbn [app] in X; injection X as -> ->.
        -- exact (D d ED).
        -- unfold nonblank in N. cbn [filter] in N. rewrite EB in N. cbn [negb] in N. inversion N as [|? d0 ? ds0 D0 N0]; subst.
           replace d0 with d in * by (eapply digit_fun; eassumption). rewrite acc_cons in V.
           specialize (C []%list d ds0 eq_refl). rewrite acc_nil in C.
           pose proof (acc_mono r (acc * r + d) ds0 _ ltac:(lia) ltac:(nia) N0). lia.
    + injection E as <-. left. split; [|reflexivity]. exists []%list, b, t, []%list. split; [reflexivity|]. split; [exact EB|].
      split; [intros d D; apply to_digit_spec in D; [congruence|assumption]|]. split; [constructor|].
      rewrite acc_nil. split; [lia|]. intros p d q X. destruct p; discriminate.
Qed.
Lemma trips_zero r text : trips r 0 text <-> stumbles r text.
Proof.
  unfold trips, stumbles, no_carry, nonblank, MAXU. setoid_rewrite acc_zero.
  split; intros (p & ch & q & ds & A & B & C & D & E & F); exists p, ch, q, ds; (repeat (split; [first [assumption|lia]|])); exact F.
Qed.
Lemma announced_radix pre r : In (pre, r) radix_prefixes -> lit_radix r.
Proof. cbn [In radix_prefixes]. unfold lit_radix. intros I. repeat (destruct I as [I|I]; [injection I as <- <-; auto 6|]). destruct I. Qed.
Lemma split_announces b : b <> []%list -> exists pre, announces b pre (fst (lit_split b)) (snd (lit_split b)).
Proof.
  intros N. destruct b as [|b0 [|b1 [|b2 t]]]; [congruence|..].
  - exists []%list. split; [do 3 right; left; reflexivity|]. split; [reflexivity|]. split; [discriminate|].
    intros pre r text I E T. cbn [In radix_prefixes] in I.
    repeat (destruct I as [I|I]; [injection I as <- <-; cbn [length app] in *; first [discriminate E | lia]|]). destruct I.
  - exists []%list. split; [do 3 right; left; reflexivity|]. split; [reflexivity|]. split; [discriminate|].
    intros pre r text I E T. cbn [In radix_prefixes] in I.
    repeat (destruct I as [I|I]; [injection I as <- <-; cbn [length app] in *; first [lia | destruct text; [congruence|discriminate E]]|]). destruct I.
  - unfold lit_split. replace (2 <? Z.of_nat (length (b0 :: b1 :: b2 :: t))) with true by (cbn [length]; lia).
    destruct ((b0 =? 48) && (b1 =? 98)) eqn:E1; [|destruct ((b0 =? 48) && (b1 =? 111)) eqn:E2; [|destruct ((b0 =? 48) && (b1 =? 120)) eqn:E3]]; cbn [fst snd].
    4: exists []%list; split; [do 3 right; left; reflexivity|]; split; [reflexivity|]; split; [discriminate|];
       intros pre r text I E T; cbn [In radix_prefixes] in I;
       repeat (destruct I as [I|I]; [injection I as <- <-; cbn [length]; try lia; injection E as E E'; exfalso; lia|]); destruct I.
    all: [> assert (b0 = 48 /\ b1 = 98) as [-> ->] by lia; exists [48; 98]%list
         |  assert (b0 = 48 /\ b1 = 111) as [-> ->] by lia; exists [48; 111]%list
         |  assert (b0 = 48 /\ b1 = 120) as [-> ->] by lia; exists [48; 120]%list ].
    all: split; [cbn [In radix_prefixes]; auto 6|]; split; [reflexivity|]; split; [discriminate|];
       intros pre r text I E T; cbn [In radix_prefixes] in I;
       repeat (destruct I as [I|I]; [injection I as <- <-; cbn [length]; lia|]); destruct I.
Qed.
Lemma body_says c bytes start m : bytes <> []%list -> const_from_str_prefixed c bytes start = Panic m ->
  skipn start bytes = []%list /\ m = "missing number" \/
  exists pre r text, announces (skipn start bytes) pre r text /\
    (stumbles r text /\ m = "invalid digit" \/ ~ stumbles r text /\ m = "overflows integer type").
Proof.
  intros N E. rewrite const_split in E. destruct (skipn start bytes) as [|b t] eqn:S.
  - injection E as <-. auto.
  - right. destruct (split_announces (b :: t) ltac:(discriminate)) as [pre A].
    destruct (lit_split (b :: t)) as [r text] eqn:L. cbn [fst snd] in A. exists pre, r, text. split; [exact A|].
    assert (LR : lit_radix r) by (destruct A as (I & _); exact (announced_radix _ _ I)).
    rewrite (U256_ZERO_of c) in E. rewrite <- !trips_zero. exact (loop_says c r text LR 0 m ltac:(lia) E).
Qed.
Lemma speaks_literal_u c s : speaks c (Runs U) (u_const_from_str_prefixed c s) (literal_message false s).
Proof.
  intros m E. destruct s as [|b t]; [injection E as <-; left; auto|]. right.
  unfold u_const_from_str_prefixed in E.
  assert (S : skipn (if b =? 43 then 1%nat else 0%nat) (b :: t) = snd (sign false (b :: t))).
  { unfold sign. rewrite ?andb_false_r. destruct (b =? 43); reflexivity. }
  destruct (body_says c (b :: t) _ m ltac:(discriminate) E) as [[X ->]|H]; rewrite S in *; [left|right; exact H].
  split; [discriminate|]. auto.
Qed.
Lemma loop_clean c r text v : lit_radix r -> cp_loop c r text (uof c 0) = Ret v -> ~ trips r 0 text.
Proof.
  intros Hr E (p & ch & q & ds & -> & B & D & _).
  destruct (cp_loop_sound c r (p ++ ch :: q)%list Hr 0 ltac:(lia)) as [(es & N & _)|((m & X) & _)]; [|congruence].
  unfold nonblank in N. rewrite filter_app in N. cbn [filter] in N. rewrite B in N. cbn [negb] in N.
  unfold numeral in N. apply Forall2_app_inv_l in N. destruct N as (e1 & e2 & _ & N & _). inversion N; subst. eapply D. eassumption.
Qed.
Lemma finish_says c negate uint m : i_finish c negate uint = Panic m -> m = "overflows integer type".
Proof.
  unfold i_finish. cbv zeta.
  destruct (if negate then _ else _) as [hi lo].
  destruct (_ || _); intros E; [injection E as <-; reflexivity|discriminate].
Qed.
Lemma speaks_literal_i c s : speaks c (Runs I) (i_const_from_str_prefixed c s) (literal_message true s).
Proof.
  intros m E. destruct s as [|b t]; [injection E as <-; left; auto|]. right.
  assert (EQ : i_const_from_str_prefixed c (b :: t) =
      let '(negate, start) := sign_i (b :: t) in
      let! uint := const_from_str_prefixed c (b :: t) start in
      i_finish c negate uint) by reflexivity.
  rewrite EQ in E. clear EQ. destruct (sign_i_spec (b :: t)) as [_ S].
  destruct (sign_i (b :: t)) as [negate start]. cbn [snd] in S.
  destruct (const_from_str_prefixed c (b :: t) start) as [v|m'|w|] eqn:EC; cbn [bind] in E; try discriminate.
  - apply finish_says in E as ->. right. rewrite const_split in EC. rewrite S in EC.
    destruct (snd (sign true (b :: t))) as [|b' t']; [discriminate|].
    destruct (split_announces (b' :: t') ltac:(discriminate)) as [pre A].
    destruct (lit_split (b' :: t')) as [r text] eqn:L. cbn [fst snd] in A. exists pre, r, text. split; [exact A|]. right.
    split; [|reflexivity]. rewrite <- trips_zero.
    assert (LR : lit_radix r) by (destruct A as (I & _); exact (announced_radix _ _ I)).
    rewrite (U256_ZERO_of c) in EC. exact (loop_clean c r text v LR EC).
  - injection E as ->. destruct (body_says c (b :: t) _ m ltac:(discriminate) EC) as [[X ->]|H]; rewrite S in *; [left|right; exact H].
    split; [discriminate|]. auto.
Qed.

(** ** The operations *)

Lemma vb13 : voiced (U --> U --> Runs U) u_op_add (fun _ _ _ => eq "attempt to add with overflow").
Proof. pbegin. pU a. pU b. pose proof (u_operators c (uof c a) (uof c b) (wf_uof c a) (wf_uof c b)) as F. fam1 F. all: mgo. Qed.

Lemma vb14 : voiced (U --> U --> Runs U) u_op_add_assign (fun _ _ _ => eq "attempt to add with overflow").
Proof. pbegin. pU a. pU b. pose proof (u_operators c (uof c a) (uof c b) (wf_uof c a) (wf_uof c b)) as F. fam1 F. all: mgo. Qed.

Lemma vb15 : voiced (U --> U --> Runs U) u_op_sub (fun _ _ _ => eq "attempt to subtract with overflow").
Proof. pbegin. pU a. pU b. pose proof (u_operators c (uof c a) (uof c b) (wf_uof c a) (wf_uof c b)) as F. fam1 F. all: mgo. Qed.

Lemma vb16 : voiced (U --> U --> Runs U) u_op_sub_assign (fun _ _ _ => eq "attempt to subtract with overflow").
Proof. pbegin. pU a. pU b. pose proof (u_operators c (uof c a) (uof c b) (wf_uof c a) (wf_uof c b)) as F. fam1 F. all: mgo. Qed.

Lemma vb17 : voiced (U --> U --> Runs U) u_op_mul (fun _ _ _ => eq "attempt to multiply with overflow").
Proof. pbegin. pU a. pU b. pose proof (u_operators c (uof c a) (uof c b) (wf_uof c a) (wf_uof c b)) as F. fam1 F. all: mgo. Qed.

Lemma vb18 : voiced (U --> U --> Runs U) u_op_mul_assign (fun _ _ _ => eq "attempt to multiply with overflow").
Proof. pbegin. pU a. pU b. pose proof (u_operators c (uof c a) (uof c b) (wf_uof c a) (wf_uof c b)) as F. fam1 F. all: mgo. Qed.

Lemma vb19 : voiced (U --> U --> Runs U) u_op_div (fun _ _ _ => eq "attempt to divide by zero").
Proof. pbegin. pU a. pU b. pose proof (div_family c (uof c a) (uof c b) (wf_uof c a) (wf_uof c b)) as F. fam1 F. all: mgo. Qed.

Lemma vb20 : voiced (U --> U --> Runs U) u_op_div_assign (fun _ _ _ => eq "attempt to divide by zero").
Proof. pbegin. pU a. pU b. pose proof (div_family c (uof c a) (uof c b) (wf_uof c a) (wf_uof c b)) as F. fam1 F. all: mgo. Qed.

Lemma vb21 : voiced (U --> U --> Runs U) u_op_rem (fun _ _ _ => eq "attempt to calculate the remainder with a divisor of zero").
Proof. pbegin. pU a. pU b. pose proof (div_family c (uof c a) (uof c b) (wf_uof c a) (wf_uof c b)) as F. fam1 F. all: mgo. Qed.

Lemma vb22 : voiced (U --> U --> Runs U) u_op_rem_assign (fun c _ _ => eq (rem_assign_message c)).
Proof. pbegin. pU a. pU b. pose proof (u_op_rem_assign_of c a b Ha Hb) as F. fam1 F. all: mgo. Qed.

Lemma vb23 : voiced (U --> U --> Runs U) u_div_euclid (fun _ _ _ => eq "attempt to divide by zero").
Proof. pbegin. pU a. pU b. pose proof (div_family c (uof c a) (uof c b) (wf_uof c a) (wf_uof c b)) as F. fam1 F. all: mgo. Qed.

Lemma vb24 : voiced (U --> U --> Runs U) u_rem_euclid (fun _ _ _ => eq "attempt to calculate the remainder with a divisor of zero").
Proof. pbegin. pU a. pU b. pose proof (div_family c (uof c a) (uof c b) (wf_uof c a) (wf_uof c b)) as F. fam1 F. all: mgo. Qed.

Lemma vb25 : voiced (U --> U --> Runs U) u_wrapping_div (fun _ _ _ => eq "attempt to divide by zero").
Proof. pbegin. pU a. pU b. pose proof (div_family c (uof c a) (uof c b) (wf_uof c a) (wf_uof c b)) as F. fam1 F. all: mgo. Qed.

Lemma vb26 : voiced (U --> U --> Runs U) u_wrapping_div_euclid (fun _ _ _ => eq "attempt to divide by zero").
Proof. pbegin. pU a. pU b. pose proof (div_family c (uof c a) (uof c b) (wf_uof c a) (wf_uof c b)) as F. fam1 F. all: mgo. Qed.

Lemma vb27 : voiced (U --> U --> Runs U) u_wrapping_rem (fun _ _ _ => eq "attempt to calculate the remainder with a divisor of zero").
Proof. pbegin. pU a. pU b. pose proof (div_family c (uof c a) (uof c b) (wf_uof c a) (wf_uof c b)) as F. fam1 F. all: mgo. Qed.

Lemma vb28 : voiced (U --> U --> Runs U) u_wrapping_rem_euclid (fun _ _ _ => eq "attempt to calculate the remainder with a divisor of zero").
Proof. pbegin. pU a. pU b. pose proof (div_family c (uof c a) (uof c b) (wf_uof c a) (wf_uof c b)) as F. fam1 F. all: mgo. Qed.

Lemma vb29 : voiced (U --> U --> Runs U) u_saturating_div (fun _ _ _ => eq "attempt to divide by zero").
Proof. pbegin. pU a. pU b. pose proof (div_family c (uof c a) (uof c b) (wf_uof c a) (wf_uof c b)) as F. fam1 F. all: mgo. Qed.

Lemma vb31 : voiced (U --> U --> Runs (Pair U Flag)) u_overflowing_div (fun _ _ _ => eq "attempt to divide by zero").
Proof. pbegin. pU a. pU b. pose proof (div_family c (uof c a) (uof c b) (wf_uof c a) (wf_uof c b)) as F. fam1 F. all: mgo. Qed.

Lemma vb32 : voiced (U --> U --> Runs (Pair U Flag)) u_overflowing_div_euclid (fun _ _ _ => eq "attempt to divide by zero").
Proof. pbegin. pU a. pU b. pose proof (div_family c (uof c a) (uof c b) (wf_uof c a) (wf_uof c b)) as F. fam1 F. all: mgo. Qed.

Lemma vb33 : voiced (U --> U --> Runs (Pair U Flag)) u_overflowing_rem (fun _ _ _ => eq "attempt to calculate the remainder with a divisor of zero").
Proof. pbegin. pU a. pU b. pose proof (div_family c (uof c a) (uof c b) (wf_uof c a) (wf_uof c b)) as F. fam1 F. all: mgo. Qed.

Lemma vb34 : voiced (U --> U --> Runs (Pair U Flag)) u_overflowing_rem_euclid (fun _ _ _ => eq "attempt to calculate the remainder with a divisor of zero").
Proof. pbegin. pU a. pU b. pose proof (div_family c (uof c a) (uof c b) (wf_uof c a) (wf_uof c b)) as F. fam1 F. all: mgo. Qed.

Lemma vb40 : voiced (U --> U --> Runs (Pair U U)) u_div_rem (fun _ _ _ => eq "attempt to divide by zero").
Proof. pbegin. pU a. pU b. pose proof (div_rem_family c (uof c a) (uof c b) (wf_uof c a) (wf_uof c b)) as F. fam1 F. all: mgo. Qed.

Lemma vb41 : voiced (U --> U --> Runs (Pair U U)) u_div_rem_euclid (fun _ _ _ => eq "attempt to divide by zero").
Proof. pbegin. pU a. pU b. pose proof (div_rem_family c (uof c a) (uof c b) (wf_uof c a) (wf_uof c b)) as F. fam1 F. all: mgo. Qed.

Lemma vb42 : voiced (U --> U --> Runs (Pair U U)) u_wrapping_div_rem (fun _ _ _ => eq "attempt to divide by zero").
Proof. pbegin. pU a. pU b. pose proof (div_rem_family c (uof c a) (uof c b) (wf_uof c a) (wf_uof c b)) as F. fam1 F. all: mgo. Qed.

Lemma vb43 : voiced (U --> U --> Runs (Pair U U)) u_wrapping_div_rem_euclid (fun _ _ _ => eq "attempt to divide by zero").
Proof. pbegin. pU a. pU b. pose proof (div_rem_family c (uof c a) (uof c b) (wf_uof c a) (wf_uof c b)) as F. fam1 F. all: mgo. Qed.

Lemma vb44 : voiced (U --> U --> Runs (Pair U U)) u_saturating_div_rem (fun _ _ _ => eq "attempt to divide by zero").
Proof. pbegin. pU a. pU b. pose proof (div_rem_family c (uof c a) (uof c b) (wf_uof c a) (wf_uof c b)) as F. fam1 F. all: mgo. Qed.

Lemma vb45 : voiced (U --> U --> Runs (Pair U U)) u_saturating_div_rem_euclid (fun _ _ _ => eq "attempt to divide by zero").
Proof. pbegin. pU a. pU b. pose proof (div_rem_family c (uof c a) (uof c b) (wf_uof c a) (wf_uof c b)) as F. fam1 F. all: mgo. Qed.

Lemma vb46 : voiced (U --> U --> Runs (Pair (Pair U U) Flag)) u_overflowing_div_rem (fun _ _ _ => eq "attempt to divide by zero").
Proof. pbegin. pU a. pU b. pose proof (div_rem_family c (uof c a) (uof c b) (wf_uof c a) (wf_uof c b)) as F. fam1 F. all: mgo. Qed.

Lemma vb47 : voiced (U --> U --> Runs (Pair (Pair U U) Flag)) u_overflowing_div_rem_euclid (fun _ _ _ => eq "attempt to divide by zero").
Proof. pbegin. pU a. pU b. pose proof (div_rem_family c (uof c a) (uof c b) (wf_uof c a) (wf_uof c b)) as F. fam1 F. all: mgo. Qed.

Lemma vb59 : voiced (U --> U32 --> Runs U) u_pow (fun _ _ _ => eq "attempt to multiply with overflow").
Proof. pbegin. pU a. pZ b. pose proof (u_pow_family c (uof c a) b (wf_uof c a) Hb) as F. fam1 F. all: mgo. Qed.

Lemma vb63 : voiced (U --> Runs U) u_next_power_of_two (fun _ _ => eq "attempt to add with overflow").
Proof. pbegin. pU a. destruct (pow2_of c a Ha) as (k & b & _ & _ & H & E1 & E2). pose proof (next_pow2_range a k H Ha). mgo. Qed.

Lemma vb65 : voiced (List U --> Runs U) u_sum (fun _ _ => eq "attempt to add with overflow").
Proof. pbegin. intros l L. apply legal_list_u in L. destruct (iter_u_sum c l L) as (R1 & R2 & R3). eapply speaks_fold; [exact R1|exact R2|exact R3]. Qed.

Lemma vb66 : voiced (List U --> Runs U) u_product (fun _ _ => eq "attempt to multiply with overflow").
Proof. pbegin. intros l L. apply legal_list_u in L. destruct (iter_u_product c l L) as (R1 & R2 & R3). eapply speaks_fold; [exact R1|exact R2|exact R3]. Qed.

Lemma vb80 : voiced (I --> I --> Runs I) i_op_add (fun _ _ _ => eq "attempt to add with overflow").
Proof. pbegin. pI a. pI b. pose proof (i_operators c (iof c a) (iof c b) (wf_iof c a) (wf_iof c b)) as F. fam1 F. all: mgo. Qed.

Lemma vb81 : voiced (I --> I --> Runs I) i_op_add_assign (fun _ _ _ => eq "attempt to add with overflow").
Proof. pbegin. pI a. pI b. pose proof (i_operators c (iof c a) (iof c b) (wf_iof c a) (wf_iof c b)) as F. fam1 F. all: mgo. Qed.

Lemma vb82 : voiced (I --> I --> Runs I) i_op_sub (fun _ _ _ => eq "attempt to subtract with overflow").
Proof. pbegin. pI a. pI b. pose proof (i_operators c (iof c a) (iof c b) (wf_iof c a) (wf_iof c b)) as F. fam1 F. all: mgo. Qed.

Lemma vb83 : voiced (I --> I --> Runs I) i_op_sub_assign (fun _ _ _ => eq "attempt to subtract with overflow").
Proof. pbegin. pI a. pI b. pose proof (i_operators c (iof c a) (iof c b) (wf_iof c a) (wf_iof c b)) as F. fam1 F. all: mgo. Qed.

Lemma vb84 : voiced (I --> I --> Runs I) i_op_mul (fun _ _ _ => eq "attempt to multiply with overflow").
Proof. pbegin. pI a. pI b. pose proof (i_operators c (iof c a) (iof c b) (wf_iof c a) (wf_iof c b)) as F. fam1 F. all: mgo. Qed.

Lemma vb85 : voiced (I --> I --> Runs I) i_op_mul_assign (fun _ _ _ => eq "attempt to multiply with overflow").
Proof. pbegin. pI a. pI b. pose proof (i_operators c (iof c a) (iof c b) (wf_iof c a) (wf_iof c b)) as F. fam1 F. all: mgo. Qed.

Lemma vb86 : voiced (I --> I --> Runs I) i_op_div (fun _ _ _ => eq "attempt to divide by zero").
Proof. pbegin. pI a. pI b. pose proof (idiv_family c (iof c a) (iof c b) (wf_iof c a) (wf_iof c b)) as F. fam1 F. all: mgo. Qed.

Lemma vb87 : voiced (I --> I --> Runs I) i_op_div_assign (fun _ _ _ => eq "attempt to divide by zero").
Proof. pbegin. pI a. pI b. pose proof (idiv_family c (iof c a) (iof c b) (wf_iof c a) (wf_iof c b)) as F. fam1 F. all: mgo. Qed.

Lemma vb88 : voiced (I --> I --> Runs I) i_op_rem (fun _ _ _ => eq "attempt to calculate the remainder with a divisor of zero").
Proof. pbegin. pI a. pI b. pose proof (idiv_family c (iof c a) (iof c b) (wf_iof c a) (wf_iof c b)) as F. fam1 F. all: mgo. Qed.

Lemma vb89 : voiced (I --> I --> Runs I) i_op_rem_assign (fun c _ _ => eq (rem_assign_message c)).
Proof. pbegin. pI a. pI b. pose proof (i_op_rem_assign_of c a b Ha Hb) as F. fam1 F. all: mgo. Qed.

Lemma vb90 : voiced (I --> I --> Runs I) i_div_euclid (fun _ _ _ => eq "attempt to divide by zero").
Proof. pbegin. pI a. pI b. destruct (ieuclid_when a b Ha Hb) as [[Z F]|[Z (q & r & F)]]; specialize (F c); [unfold ieuclid_zero_ops in F|unfold ieuclid_ops in F]; fam1 F. all: mgo. Qed.

Lemma vb91 : voiced (I --> I --> Runs I) i_rem_euclid (fun _ _ _ => eq "attempt to calculate the remainder with a divisor of zero").
Proof. pbegin. pI a. pI b. destruct (ieuclid_when a b Ha Hb) as [[Z F]|[Z (q & r & F)]]; specialize (F c); [unfold ieuclid_zero_ops in F|unfold ieuclid_ops in F]; fam1 F. all: mgo. Qed.

Lemma vb92 : voiced (I --> I --> Runs I) i_wrapping_div (fun _ _ _ => eq "attempt to divide by zero").
Proof. pbegin. pI a. pI b. pose proof (idiv_family c (iof c a) (iof c b) (wf_iof c a) (wf_iof c b)) as F. fam1 F. all: mgo. Qed.

Lemma vb93 : voiced (I --> I --> Runs I) i_wrapping_div_euclid (fun _ _ _ => eq "attempt to divide by zero").
Proof. pbegin. pI a. pI b. destruct (ieuclid_when a b Ha Hb) as [[Z F]|[Z (q & r & F)]]; specialize (F c); [unfold ieuclid_zero_ops in F|unfold ieuclid_ops in F]; fam1 F. all: mgo. Qed.

Lemma vb94 : voiced (I --> I --> Runs I) i_wrapping_rem (fun _ _ _ => eq "attempt to calculate the remainder with a divisor of zero").
Proof. pbegin. pI a. pI b. pose proof (idiv_family c (iof c a) (iof c b) (wf_iof c a) (wf_iof c b)) as F. fam1 F. all: mgo. Qed.

Lemma vb95 : voiced (I --> I --> Runs I) i_wrapping_rem_euclid (fun _ _ _ => eq "attempt to calculate the remainder with a divisor of zero").
Proof. pbegin. pI a. pI b. destruct (ieuclid_when a b Ha Hb) as [[Z F]|[Z (q & r & F)]]; specialize (F c); [unfold ieuclid_zero_ops in F|unfold ieuclid_ops in F]; fam1 F. all: mgo. Qed.

Lemma vb96 : voiced (I --> I --> Runs I) i_saturating_div (fun _ _ _ => eq "attempt to divide by zero").
Proof. pbegin. pI a. pI b. pose proof (idiv_family c (iof c a) (iof c b) (wf_iof c a) (wf_iof c b)) as F. fam1 F. all: mgo. Qed.

Lemma vb98 : voiced (I --> I --> Runs (Pair I Flag)) i_overflowing_div (fun _ _ _ => eq "attempt to divide by zero").
Proof. pbegin. pI a. pI b. pose proof (idiv_family c (iof c a) (iof c b) (wf_iof c a) (wf_iof c b)) as F. fam1 F. all: mgo. Qed.

Lemma vb99 : voiced (I --> I --> Runs (Pair I Flag)) i_overflowing_div_euclid (fun _ _ _ => eq "attempt to divide by zero").
Proof. pbegin. pI a. pI b. destruct (ieuclid_when a b Ha Hb) as [[Z F]|[Z (q & r & F)]]; specialize (F c); [unfold ieuclid_zero_ops in F|unfold ieuclid_ops in F]; fam1 F. all: mgo. Qed.

Lemma vb100 : voiced (I --> I --> Runs (Pair I Flag)) i_overflowing_rem (fun _ _ _ => eq "attempt to calculate the remainder with a divisor of zero").
Proof. pbegin. pI a. pI b. pose proof (idiv_family c (iof c a) (iof c b) (wf_iof c a) (wf_iof c b)) as F. fam1 F. all: mgo. Qed.

Lemma vb101 : voiced (I --> I --> Runs (Pair I Flag)) i_overflowing_rem_euclid (fun _ _ _ => eq "attempt to calculate the remainder with a divisor of zero").
Proof. pbegin. pI a. pI b. destruct (ieuclid_when a b Ha Hb) as [[Z F]|[Z (q & r & F)]]; specialize (F c); [unfold ieuclid_zero_ops in F|unfold ieuclid_ops in F]; fam1 F. all: mgo. Qed.

Lemma vb107 : voiced (I --> I --> Runs (Pair I I)) i_div_rem (fun c a b => eq (if ival c b =? 0 then "attempt to divide by zero" else "attempt to divide with overflow")).
Proof. pbegin. pI a. pI b. pose proof (quot_flag a b Ha) as QF. pose proof (idiv_rem_family c (iof c a) (iof c b) (wf_iof c a) (wf_iof c b)) as F. fam1 F. 1: mgo.
  assert (Z : b <> 0) by lia. specialize (QF Z). mgo. Qed.

Lemma vb108 : voiced (I --> I --> Runs (Pair I I)) i_div_rem_euclid (fun c a b => eq (if ival c b =? 0 then "attempt to divide by zero" else if (ival c a =? MINI) && (ival c b =? -1) then "attempt to divide with overflow" else "attempt to subtract with overflow")).
Proof. pbegin. pI a. pI b. destruct (idre_when a b Ha Hb) as [[Z F]|[Z (q & r & bad & QR & BR & F)]]; specialize (F c); [unfold idre_zero_ops in F|unfold idre_ops in F]; fam1 F. all: mgo. Qed.

Lemma vb109 : voiced (I --> I --> Runs (Pair I I)) i_wrapping_div_rem (fun _ _ _ => eq "attempt to divide by zero").
Proof. pbegin. pI a. pI b. pose proof (idiv_rem_family c (iof c a) (iof c b) (wf_iof c a) (wf_iof c b)) as F. fam1 F. all: mgo. Qed.

Lemma vb110 : voiced (I --> I --> Runs (Pair I I)) i_wrapping_div_rem_euclid (fun c a b => eq (if ival c b =? 0 then "attempt to divide by zero" else "attempt to subtract with overflow")).
Proof. pbegin. pI a. pI b. destruct (idre_when a b Ha Hb) as [[Z F]|[Z (q & r & bad & QR & BR & F)]]; specialize (F c); [unfold idre_zero_ops in F|unfold idre_ops in F]; fam1 F. all: mgo. Qed.

Lemma vb111 : voiced (I --> I --> Runs (Pair I I)) i_saturating_div_rem (fun _ _ _ => eq "attempt to divide by zero").
Proof. pbegin. pI a. pI b. pose proof (idiv_rem_family c (iof c a) (iof c b) (wf_iof c a) (wf_iof c b)) as F. fam1 F. all: mgo. Qed.

Lemma vb112 : voiced (I --> I --> Runs (Pair I I)) i_saturating_div_rem_euclid (fun c a b => eq (if ival c b =? 0 then "attempt to divide by zero" else "attempt to subtract with overflow")).
Proof. pbegin. pI a. pI b. destruct (idre_when a b Ha Hb) as [[Z F]|[Z (q & r & bad & QR & BR & F)]]; specialize (F c); [unfold idre_zero_ops in F|unfold idre_ops in F]; fam1 F. all: mgo. Qed.

Lemma vb113 : voiced (I --> I --> Runs (Pair (Pair I I) Flag)) i_overflowing_div_rem (fun _ _ _ => eq "attempt to divide by zero").
Proof. pbegin. pI a. pI b. pose proof (idiv_rem_family c (iof c a) (iof c b) (wf_iof c a) (wf_iof c b)) as F. fam1 F. all: mgo. Qed.

Lemma vb114 : voiced (I --> I --> Runs (Pair (Pair I I) Flag)) i_overflowing_div_rem_euclid (fun c a b => eq (if ival c b =? 0 then "attempt to divide by zero" else "attempt to subtract with overflow")).
Proof. pbegin. pI a. pI b. destruct (idre_when a b Ha Hb) as [[Z F]|[Z (q & r & bad & QR & BR & F)]]; specialize (F c); [unfold idre_zero_ops in F|unfold idre_ops in F]; fam1 F. all: mgo. Qed.

Lemma vb116 : voiced (I --> I --> Runs (Opt (Pair I I))) i_checked_div_rem_euclid (fun _ _ _ => eq "attempt to subtract with overflow").
Proof. pbegin. pI a. pI b. destruct (idre_when a b Ha Hb) as [[Z F]|[Z (q & r & bad & QR & BR & F)]]; specialize (F c); [unfold idre_zero_ops in F|unfold idre_ops in F]; fam1 F. all: mgo. Qed.

Lemma vb130 : voiced (I --> Runs I) i_op_neg (fun _ _ => eq "attempt to negate with overflow").
Proof. pbegin. pI a. pose proof (ineg_family c (iof c a) (wf_iof c a)) as F. fam1 F. all: mgo. Qed.

Lemma vb131 : voiced (I --> Runs I) i_abs (fun _ _ => eq "attempt to negate with overflow").
Proof. pbegin. pI a. pose proof (abs_family c (iof c a) (wf_iof c a)) as F. fam1 F. all: mgo. Qed.

Lemma vb142 : voiced (I --> U32 --> Runs I) i_pow (fun _ _ _ => eq "attempt to multiply with overflow").
Proof. pbegin. pI a. pZ b. pose proof (i_pow_family c (iof c a) b (wf_iof c a) Hb) as F. fam1 F. all: mgo. Qed.

Lemma vb145 : voiced (List I --> Runs I) i_sum (fun _ _ => eq "attempt to add with overflow").
Proof. pbegin. intros l L. apply legal_list_i in L. destruct (iter_i_sum c l L) as (R1 & R2 & R3). eapply speaks_fold; [exact R1|exact R2|exact R3]. Qed.

Lemma vb146 : voiced (List I --> Runs I) i_product (fun _ _ => eq "attempt to multiply with overflow").
Proof. pbegin. intros l L. apply legal_list_i in L. destruct (iter_i_product c l L) as (R1 & R2 & R3). eapply speaks_fold; [exact R1|exact R2|exact R3]. Qed.

Lemma vb147 : voiced (U --> U128 --> Runs U) (u_rhs_prim u_op_add) (fun _ _ _ => eq "attempt to add with overflow").
Proof. pbegin. pU a. pZ b. unfold range in Hb. assert (0 <= b < 2 ^ 256) as Hb' by lia. rewrite (proj1 (u_prim_forms u_op_add _ _ b Hb)). clear Hb; rename Hb' into Hb. pose proof (u_operators c (uof c a) (uof c b) (wf_uof c a) (wf_uof c b)) as F. fam1 F. all: mgo. Qed.

Lemma vb148 : voiced (U --> U128 --> Runs U) (u_rhs_prim u_op_add_assign) (fun _ _ _ => eq "attempt to add with overflow").
Proof. pbegin. pU a. pZ b. unfold range in Hb. assert (0 <= b < 2 ^ 256) as Hb' by lia. rewrite (proj1 (u_prim_forms u_op_add_assign _ _ b Hb)). clear Hb; rename Hb' into Hb. pose proof (u_operators c (uof c a) (uof c b) (wf_uof c a) (wf_uof c b)) as F. fam1 F. all: mgo. Qed.

Lemma vb149 : voiced (U128 --> U --> Runs U) (u_lhs_prim u_op_add) (fun _ _ _ => eq "attempt to add with overflow").
Proof. pbegin. pZ a. pU b. unfold range in Ha. assert (0 <= a < 2 ^ 256) as Ha' by lia. rewrite (proj2 (u_prim_forms u_op_add _ _ a Ha)). clear Ha; rename Ha' into Ha. pose proof (u_operators c (uof c a) (uof c b) (wf_uof c a) (wf_uof c b)) as F. fam1 F. all: mgo. Qed.

Lemma vb150 : voiced (I --> I128 --> Runs I) (i_rhs_prim i_op_add) (fun _ _ _ => eq "attempt to add with overflow").
Proof. pbegin. pI a. pZ b. unfold range in Hb. assert (- 2 ^ 255 <= b < 2 ^ 255) as Hb' by lia. rewrite (proj1 (i_prim_forms i_op_add _ _ b Hb)). clear Hb; rename Hb' into Hb. pose proof (i_operators c (iof c a) (iof c b) (wf_iof c a) (wf_iof c b)) as F. fam1 F. all: mgo. Qed.

Lemma vb151 : voiced (I --> I128 --> Runs I) (i_rhs_prim i_op_add_assign) (fun _ _ _ => eq "attempt to add with overflow").
Proof. pbegin. pI a. pZ b. unfold range in Hb. assert (- 2 ^ 255 <= b < 2 ^ 255) as Hb' by lia. rewrite (proj1 (i_prim_forms i_op_add_assign _ _ b Hb)). clear Hb; rename Hb' into Hb. pose proof (i_operators c (iof c a) (iof c b) (wf_iof c a) (wf_iof c b)) as F. fam1 F. all: mgo. Qed.

Lemma vb152 : voiced (I128 --> I --> Runs I) (i_lhs_prim i_op_add) (fun _ _ _ => eq "attempt to add with overflow").
Proof. pbegin. pZ a. pI b. unfold range in Ha. assert (- 2 ^ 255 <= a < 2 ^ 255) as Ha' by lia. rewrite (proj2 (i_prim_forms i_op_add _ _ a Ha)). clear Ha; rename Ha' into Ha. pose proof (i_operators c (iof c a) (iof c b) (wf_iof c a) (wf_iof c b)) as F. fam1 F. all: mgo. Qed.

Lemma vb153 : voiced (U --> U128 --> Runs U) (u_rhs_prim u_op_sub) (fun _ _ _ => eq "attempt to subtract with overflow").
Proof. pbegin. pU a. pZ b. unfold range in Hb. assert (0 <= b < 2 ^ 256) as Hb' by lia. rewrite (proj1 (u_prim_forms u_op_sub _ _ b Hb)). clear Hb; rename Hb' into Hb. pose proof (u_operators c (uof c a) (uof c b) (wf_uof c a) (wf_uof c b)) as F. fam1 F. all: mgo. Qed.

Lemma vb154 : voiced (U --> U128 --> Runs U) (u_rhs_prim u_op_sub_assign) (fun _ _ _ => eq "attempt to subtract with overflow").
Proof. pbegin. pU a. pZ b. unfold range in Hb. assert (0 <= b < 2 ^ 256) as Hb' by lia. rewrite (proj1 (u_prim_forms u_op_sub_assign _ _ b Hb)). clear Hb; rename Hb' into Hb. pose proof (u_operators c (uof c a) (uof c b) (wf_uof c a) (wf_uof c b)) as F. fam1 F. all: mgo. Qed.

Lemma vb155 : voiced (U128 --> U --> Runs U) (u_lhs_prim u_op_sub) (fun _ _ _ => eq "attempt to subtract with overflow").
Proof. pbegin. pZ a. pU b. unfold range in Ha. assert (0 <= a < 2 ^ 256) as Ha' by lia. rewrite (proj2 (u_prim_forms u_op_sub _ _ a Ha)). clear Ha; rename Ha' into Ha. pose proof (u_operators c (uof c a) (uof c b) (wf_uof c a) (wf_uof c b)) as F. fam1 F. all: mgo. Qed.

Lemma vb156 : voiced (I --> I128 --> Runs I) (i_rhs_prim i_op_sub) (fun _ _ _ => eq "attempt to subtract with overflow").
Proof. pbegin. pI a. pZ b. unfold range in Hb. assert (- 2 ^ 255 <= b < 2 ^ 255) as Hb' by lia. rewrite (proj1 (i_prim_forms i_op_sub _ _ b Hb)). clear Hb; rename Hb' into Hb. pose proof (i_operators c (iof c a) (iof c b) (wf_iof c a) (wf_iof c b)) as F. fam1 F. all: mgo. Qed.

Lemma vb157 : voiced (I --> I128 --> Runs I) (i_rhs_prim i_op_sub_assign) (fun _ _ _ => eq "attempt to subtract with overflow").
Proof. pbegin. pI a. pZ b. unfold range in Hb. assert (- 2 ^ 255 <= b < 2 ^ 255) as Hb' by lia. rewrite (proj1 (i_prim_forms i_op_sub_assign _ _ b Hb)). clear Hb; rename Hb' into Hb. pose proof (i_operators c (iof c a) (iof c b) (wf_iof c a) (wf_iof c b)) as F. fam1 F. all: mgo. Qed.

Lemma vb158 : voiced (I128 --> I --> Runs I) (i_lhs_prim i_op_sub) (fun _ _ _ => eq "attempt to subtract with overflow").
Proof. pbegin. pZ a. pI b. unfold range in Ha. assert (- 2 ^ 255 <= a < 2 ^ 255) as Ha' by lia. rewrite (proj2 (i_prim_forms i_op_sub _ _ a Ha)). clear Ha; rename Ha' into Ha. pose proof (i_operators c (iof c a) (iof c b) (wf_iof c a) (wf_iof c b)) as F. fam1 F. all: mgo. Qed.

Lemma vb159 : voiced (U --> U128 --> Runs U) (u_rhs_prim u_op_mul) (fun _ _ _ => eq "attempt to multiply with overflow").
Proof. pbegin. pU a. pZ b. unfold range in Hb. assert (0 <= b < 2 ^ 256) as Hb' by lia. rewrite (proj1 (u_prim_forms u_op_mul _ _ b Hb)). clear Hb; rename Hb' into Hb. pose proof (u_operators c (uof c a) (uof c b) (wf_uof c a) (wf_uof c b)) as F. fam1 F. all: mgo. Qed.

Lemma vb160 : voiced (U --> U128 --> Runs U) (u_rhs_prim u_op_mul_assign) (fun _ _ _ => eq "attempt to multiply with overflow").
Proof. pbegin. pU a. pZ b. unfold range in Hb. assert (0 <= b < 2 ^ 256) as Hb' by lia. rewrite (proj1 (u_prim_forms u_op_mul_assign _ _ b Hb)). clear Hb; rename Hb' into Hb. pose proof (u_operators c (uof c a) (uof c b) (wf_uof c a) (wf_uof c b)) as F. fam1 F. all: mgo. Qed.

Lemma vb161 : voiced (U128 --> U --> Runs U) (u_lhs_prim u_op_mul) (fun _ _ _ => eq "attempt to multiply with overflow").
Proof. pbegin. pZ a. pU b. unfold range in Ha. assert (0 <= a < 2 ^ 256) as Ha' by lia. rewrite (proj2 (u_prim_forms u_op_mul _ _ a Ha)). clear Ha; rename Ha' into Ha. pose proof (u_operators c (uof c a) (uof c b) (wf_uof c a) (wf_uof c b)) as F. fam1 F. all: mgo. Qed.

Lemma vb162 : voiced (I --> I128 --> Runs I) (i_rhs_prim i_op_mul) (fun _ _ _ => eq "attempt to multiply with overflow").
Proof. pbegin. pI a. pZ b. unfold range in Hb. assert (- 2 ^ 255 <= b < 2 ^ 255) as Hb' by lia. rewrite (proj1 (i_prim_forms i_op_mul _ _ b Hb)). clear Hb; rename Hb' into Hb. pose proof (i_operators c (iof c a) (iof c b) (wf_iof c a) (wf_iof c b)) as F. fam1 F. all: mgo. Qed.

Lemma vb163 : voiced (I --> I128 --> Runs I) (i_rhs_prim i_op_mul_assign) (fun _ _ _ => eq "attempt to multiply with overflow").
Proof. pbegin. pI a. pZ b. unfold range in Hb. assert (- 2 ^ 255 <= b < 2 ^ 255) as Hb' by lia. rewrite (proj1 (i_prim_forms i_op_mul_assign _ _ b Hb)). clear Hb; rename Hb' into Hb. pose proof (i_operators c (iof c a) (iof c b) (wf_iof c a) (wf_iof c b)) as F. fam1 F. all: mgo. Qed.

Lemma vb164 : voiced (I128 --> I --> Runs I) (i_lhs_prim i_op_mul) (fun _ _ _ => eq "attempt to multiply with overflow").
Proof. pbegin. pZ a. pI b. unfold range in Ha. assert (- 2 ^ 255 <= a < 2 ^ 255) as Ha' by lia. rewrite (proj2 (i_prim_forms i_op_mul _ _ a Ha)). clear Ha; rename Ha' into Ha. pose proof (i_operators c (iof c a) (iof c b) (wf_iof c a) (wf_iof c b)) as F. fam1 F. all: mgo. Qed.

Lemma vb165 : voiced (U --> U128 --> Runs U) (u_rhs_prim u_op_div) (fun _ _ _ => eq "attempt to divide by zero").
Proof. pbegin. pU a. pZ b. unfold range in Hb. assert (0 <= b < 2 ^ 256) as Hb' by lia. rewrite (proj1 (u_prim_forms u_op_div _ _ b Hb)). clear Hb; rename Hb' into Hb. pose proof (div_family c (uof c a) (uof c b) (wf_uof c a) (wf_uof c b)) as F. fam1 F. all: mgo. Qed.

Lemma vb166 : voiced (U --> U128 --> Runs U) (u_rhs_prim u_op_div_assign) (fun _ _ _ => eq "attempt to divide by zero").
Proof. pbegin. pU a. pZ b. unfold range in Hb. assert (0 <= b < 2 ^ 256) as Hb' by lia. rewrite (proj1 (u_prim_forms u_op_div_assign _ _ b Hb)). clear Hb; rename Hb' into Hb. pose proof (div_family c (uof c a) (uof c b) (wf_uof c a) (wf_uof c b)) as F. fam1 F. all: mgo. Qed.

Lemma vb167 : voiced (U128 --> U --> Runs U) (u_lhs_prim u_op_div) (fun _ _ _ => eq "attempt to divide by zero").
Proof. pbegin. pZ a. pU b. unfold range in Ha. assert (0 <= a < 2 ^ 256) as Ha' by lia. rewrite (proj2 (u_prim_forms u_op_div _ _ a Ha)). clear Ha; rename Ha' into Ha. pose proof (div_family c (uof c a) (uof c b) (wf_uof c a) (wf_uof c b)) as F. fam1 F. all: mgo. Qed.

Lemma vb168 : voiced (I --> I128 --> Runs I) (i_rhs_prim i_op_div) (fun _ _ _ => eq "attempt to divide by zero").
Proof. pbegin. pI a. pZ b. unfold range in Hb. assert (- 2 ^ 255 <= b < 2 ^ 255) as Hb' by lia. rewrite (proj1 (i_prim_forms i_op_div _ _ b Hb)). clear Hb; rename Hb' into Hb. pose proof (idiv_family c (iof c a) (iof c b) (wf_iof c a) (wf_iof c b)) as F. fam1 F. all: mgo. Qed.

Lemma vb169 : voiced (I --> I128 --> Runs I) (i_rhs_prim i_op_div_assign) (fun _ _ _ => eq "attempt to divide by zero").
Proof. pbegin. pI a. pZ b. unfold range in Hb. assert (- 2 ^ 255 <= b < 2 ^ 255) as Hb' by lia. rewrite (proj1 (i_prim_forms i_op_div_assign _ _ b Hb)). clear Hb; rename Hb' into Hb. pose proof (idiv_family c (iof c a) (iof c b) (wf_iof c a) (wf_iof c b)) as F. fam1 F. all: mgo. Qed.

Lemma vb170 : voiced (I128 --> I --> Runs I) (i_lhs_prim i_op_div) (fun _ _ _ => eq "attempt to divide by zero").
Proof. pbegin. pZ a. pI b. unfold range in Ha. assert (- 2 ^ 255 <= a < 2 ^ 255) as Ha' by lia. rewrite (proj2 (i_prim_forms i_op_div _ _ a Ha)). clear Ha; rename Ha' into Ha. pose proof (idiv_family c (iof c a) (iof c b) (wf_iof c a) (wf_iof c b)) as F. fam1 F. all: mgo. Qed.

Lemma vb171 : voiced (U --> U128 --> Runs U) (u_rhs_prim u_op_rem) (fun _ _ _ => eq "attempt to calculate the remainder with a divisor of zero").
Proof. pbegin. pU a. pZ b. unfold range in Hb. assert (0 <= b < 2 ^ 256) as Hb' by lia. rewrite (proj1 (u_prim_forms u_op_rem _ _ b Hb)). clear Hb; rename Hb' into Hb. pose proof (div_family c (uof c a) (uof c b) (wf_uof c a) (wf_uof c b)) as F. fam1 F. all: mgo. Qed.

Lemma vb172 : voiced (U --> U128 --> Runs U) (u_rhs_prim u_op_rem_assign) (fun c _ _ => eq (rem_assign_message c)).
Proof. pbegin. pU a. pZ b. unfold range in Hb. assert (0 <= b < 2 ^ 256) as Hb' by lia. rewrite (proj1 (u_prim_forms u_op_rem_assign _ _ b Hb)). clear Hb; rename Hb' into Hb. pose proof (u_op_rem_assign_of c a b Ha Hb) as F. fam1 F. all: mgo. Qed.

Lemma vb173 : voiced (U128 --> U --> Runs U) (u_lhs_prim u_op_rem) (fun _ _ _ => eq "attempt to calculate the remainder with a divisor of zero").
Proof. pbegin. pZ a. pU b. unfold range in Ha. assert (0 <= a < 2 ^ 256) as Ha' by lia. rewrite (proj2 (u_prim_forms u_op_rem _ _ a Ha)). clear Ha; rename Ha' into Ha. pose proof (div_family c (uof c a) (uof c b) (wf_uof c a) (wf_uof c b)) as F. fam1 F. all: mgo. Qed.

Lemma vb174 : voiced (I --> I128 --> Runs I) (i_rhs_prim i_op_rem) (fun _ _ _ => eq "attempt to calculate the remainder with a divisor of zero").
Proof. pbegin. pI a. pZ b. unfold range in Hb. assert (- 2 ^ 255 <= b < 2 ^ 255) as Hb' by lia. rewrite (proj1 (i_prim_forms i_op_rem _ _ b Hb)). clear Hb; rename Hb' into Hb. pose proof (idiv_family c (iof c a) (iof c b) (wf_iof c a) (wf_iof c b)) as F. fam1 F. all: mgo. Qed.

Lemma vb175 : voiced (I --> I128 --> Runs I) (i_rhs_prim i_op_rem_assign) (fun c _ _ => eq (rem_assign_message c)).
Proof. pbegin. pI a. pZ b. unfold range in Hb. assert (- 2 ^ 255 <= b < 2 ^ 255) as Hb' by lia. rewrite (proj1 (i_prim_forms i_op_rem_assign _ _ b Hb)). clear Hb; rename Hb' into Hb. pose proof (i_op_rem_assign_of c a b Ha Hb) as F. fam1 F. all: mgo. Qed.

Lemma vb176 : voiced (I128 --> I --> Runs I) (i_lhs_prim i_op_rem) (fun _ _ _ => eq "attempt to calculate the remainder with a divisor of zero").
Proof. pbegin. pZ a. pI b. unfold range in Ha. assert (- 2 ^ 255 <= a < 2 ^ 255) as Ha' by lia. rewrite (proj2 (i_prim_forms i_op_rem _ _ a Ha)). clear Ha; rename Ha' into Ha. pose proof (idiv_family c (iof c a) (iof c b) (wf_iof c a) (wf_iof c b)) as F. fam1 F. all: mgo. Qed.

Lemma vb298 : voiced (Text --> U32 --> Runs (Result U)) u_from_str_radix (fun _ _ r => radix_message r).
Proof. pbegin. pZ a. pZ b. apply speaks_radix_u. assumption. Qed.

Lemma vb302 : voiced (Text --> Runs U) u_const_from_str_prefixed (fun _ s m => literal_message false s m).
Proof. pbegin. pZ a. apply speaks_literal_u. Qed.

Lemma vb326 : voiced (Text --> U32 --> Runs (Result I)) i_from_str_radix (fun _ _ r => radix_message r).
Proof. pbegin. pZ a. pZ b. apply speaks_radix_i. assumption. Qed.

Lemma vb330 : voiced (Text --> Runs I) i_const_from_str_prefixed (fun _ s m => literal_message true s m).
Proof. pbegin. pZ a. apply speaks_literal_i. Qed.

Lemma vb354 : voiced (U --> U --> U --> Runs U) u_clamp (fun _ _ _ _ => eq "assertion failed: min <= max").
Proof. pbegin. pU a. pU b. pU d. rewrite u_clamp_of by assumption. mfin. Qed.

Lemma vb355 : voiced (I --> I --> I --> Runs I) i_clamp (fun _ _ _ _ => eq "assertion failed: min <= max").
Proof. pbegin. pI a. pI b. pI d. rewrite i_clamp_of by assumption. mfin. Qed.

Lemma vw0 : voiced (U --> Amt --> Runs U) u_shl_amt (fun _ _ _ => eq "attempt to shift left with overflow").
Proof. pbegin. pU a. intros s (O1 & _). rewrite u_shl_amt_of by assumption. apply speaks_shift. Qed.

Lemma vw1 : voiced (U --> Amt --> Runs U) u_shl_assign (fun _ _ _ => eq "attempt to shift left with overflow").
Proof. pbegin. pU a. intros s (O1 & _). rewrite u_shl_assign_eq. rewrite u_shl_amt_of by assumption. apply speaks_shift. Qed.

Lemma vw2 : voiced (I --> Amt --> Runs I) i_shl_amt (fun _ _ _ => eq "attempt to shift left with overflow").
Proof. pbegin. pI a. intros s (O1 & _). rewrite i_shl_amt_of by assumption. apply speaks_shift. Qed.

Lemma vw3 : voiced (I --> Amt --> Runs I) i_shl_assign (fun _ _ _ => eq "attempt to shift left with overflow").
Proof. pbegin. pI a. intros s (O1 & _). rewrite i_shl_assign_eq. rewrite i_shl_amt_of by assumption. apply speaks_shift. Qed.

Lemma vw4 : voiced (U --> Amt --> Runs U) u_shr_amt (fun _ _ _ => eq "attempt to shift right with overflow").
Proof. pbegin. pU a. intros s (O1 & _). rewrite u_shr_amt_of by assumption. apply speaks_shift. Qed.

Lemma vw5 : voiced (U --> Amt --> Runs U) u_shr_assign (fun _ _ _ => eq "attempt to shift right with overflow").
Proof. pbegin. pU a. intros s (O1 & _). rewrite u_shr_assign_eq. rewrite u_shr_amt_of by assumption. apply speaks_shift. Qed.

Lemma vw6 : voiced (I --> Amt --> Runs I) i_shr_amt (fun _ _ _ => eq "attempt to shift right with overflow").
Proof. pbegin. pI a. intros s (O1 & _). rewrite i_shr_amt_of by assumption. apply speaks_shift. Qed.

Lemma vw7 : voiced (I --> Amt --> Runs I) i_shr_assign (fun _ _ _ => eq "attempt to shift right with overflow").
Proof. pbegin. pI a. intros s (O1 & _). rewrite i_shr_assign_eq. rewrite i_shr_amt_of by assumption. apply speaks_shift. Qed.

Lemma vw8 : voiced (U --> U32 --> Runs U) u_rotate_left (fun _ _ _ => eq "attempt to subtract with overflow").
Proof. pbegin. pU a. pZ b. unfold range in Hb. assert (0 <= b < 2 ^ 32) as Hb' by lia.
  pose proof (rotate_u_small c b a true Hb' Ha) as E1. cbv iota beta in E1. rewrite E1. mfin. Qed.

Lemma vw9 : voiced (I --> U32 --> Runs I) i_rotate_left (fun _ _ _ => eq "attempt to subtract with overflow").
Proof. pbegin. pI a. pZ b. unfold range in Hb. assert (0 <= b < 2 ^ 32) as Hb' by lia.
  pose proof (rotate_i c b a true Hb') as E1. cbv iota beta in E1. rewrite E1. mfin. Qed.

Lemma vw10 : voiced (U --> U32 --> Runs U) u_rotate_right (fun _ _ _ => eq "attempt to subtract with overflow").
Proof. pbegin. pU a. pZ b. unfold range in Hb. assert (0 <= b < 2 ^ 32) as Hb' by lia.
  pose proof (rotate_u_small c b a false Hb' Ha) as E1. cbv iota beta in E1. rewrite E1. mfin. Qed.

Lemma vw11 : voiced (I --> U32 --> Runs I) i_rotate_right (fun _ _ _ => eq "attempt to subtract with overflow").
Proof. pbegin. pI a. pZ b. unfold range in Hb. assert (0 <= b < 2 ^ 32) as Hb' by lia.
  pose proof (rotate_i c b a false Hb') as E1. cbv iota beta in E1. rewrite E1. mfin. Qed.

Lemma message_table : forall c, usize_ok c -> Forall (fun v => speaks c (v_sig v) (v_fn v c) (v_msg v c)) voices.
Proof.
  intros c U. unfold voices.
  apply Forall_cons; [exact (vb13 c U)|].
  apply Forall_cons; [exact (vb14 c U)|].
  apply Forall_cons; [exact (vb15 c U)|].
  apply Forall_cons; [exact (vb16 c U)|].
  apply Forall_cons; [exact (vb17 c U)|].
  apply Forall_cons; [exact (vb18 c U)|].
  apply Forall_cons; [exact (vb19 c U)|].
  apply Forall_cons; [exact (vb20 c U)|].
  apply Forall_cons; [exact (vb21 c U)|].
  apply Forall_cons; [exact (vb22 c U)|].
  apply Forall_cons; [exact (vb23 c U)|].
  apply Forall_cons; [exact (vb24 c U)|].
  apply Forall_cons; [exact (vb25 c U)|].
  apply Forall_cons; [exact (vb26 c U)|].
  apply Forall_cons; [exact (vb27 c U)|].
  apply Forall_cons; [exact (vb28 c U)|].
  apply Forall_cons; [exact (vb29 c U)|].
  apply Forall_cons; [exact (vb31 c U)|].
  apply Forall_cons; [exact (vb32 c U)|].
  apply Forall_cons; [exact (vb33 c U)|].
  apply Forall_cons; [exact (vb34 c U)|].
  apply Forall_cons; [exact (vb40 c U)|].
  apply Forall_cons; [exact (vb41 c U)|].
  apply Forall_cons; [exact (vb42 c U)|].
  apply Forall_cons; [exact (vb43 c U)|].
  apply Forall_cons; [exact (vb44 c U)|].
  apply Forall_cons; [exact (vb45 c U)|].
  apply Forall_cons; [exact (vb46 c U)|].
  apply Forall_cons; [exact (vb47 c U)|].
  apply Forall_cons; [exact (vb59 c U)|].
  apply Forall_cons; [exact (vb63 c U)|].
  apply Forall_cons; [exact (vb65 c U)|].
  apply Forall_cons; [exact (vb66 c U)|].
  apply Forall_cons; [exact (vb80 c U)|].
  apply Forall_cons; [exact (vb81 c U)|].
  apply Forall_cons; [exact (vb82 c U)|].
  apply Forall_cons; [exact (vb83 c U)|].
  apply Forall_cons; [exact (vb84 c U)|].
  apply Forall_cons; [exact (vb85 c U)|].
  apply Forall_cons; [exact (vb86 c U)|].
  apply Forall_cons; [exact (vb87 c U)|].
  apply Forall_cons; [exact (vb88 c U)|].
  apply Forall_cons; [exact (vb89 c U)|].
  apply Forall_cons; [exact (vb90 c U)|].
  apply Forall_cons; [exact (vb91 c U)|].
  apply Forall_cons; [exact (vb92 c U)|].
  apply Forall_cons; [exact (vb93 c U)|].
  apply Forall_cons; [exact (vb94 c U)|].
  apply Forall_cons; [exact (vb95 c U)|].
  apply Forall_cons; [exact (vb96 c U)|].
  apply Forall_cons; [exact (vb98 c U)|].
  apply Forall_cons; [exact (vb99 c U)|].
  apply Forall_cons; [exact (vb100 c U)|].
  apply Forall_cons; [exact (vb101 c U)|].
  apply Forall_cons; [exact (vb107 c U)|].
  apply Forall_cons; [exact (vb108 c U)|].
  apply Forall_cons; [exact (vb109 c U)|].
  apply Forall_cons; [exact (vb110 c U)|].
  apply Forall_cons; [exact (vb111 c U)|].
  apply Forall_cons; [exact (vb112 c U)|].
  apply Forall_cons; [exact (vb113 c U)|].
  apply Forall_cons; [exact (vb114 c U)|].
  apply Forall_cons; [exact (vb116 c U)|].
  apply Forall_cons; [exact (vb130 c U)|].
  apply Forall_cons; [exact (vb131 c U)|].
  apply Forall_cons; [exact (vb142 c U)|].
  apply Forall_cons; [exact (vb145 c U)|].
  apply Forall_cons; [exact (vb146 c U)|].
  apply Forall_cons; [exact (vb147 c U)|].
  apply Forall_cons; [exact (vb148 c U)|].
  apply Forall_cons; [exact (vb149 c U)|].
  apply Forall_cons; [exact (vb150 c U)|].
  apply Forall_cons; [exact (vb151 c U)|].
  apply Forall_cons; [exact (vb152 c U)|].
  apply Forall_cons; [exact (vb153 c U)|].
  apply Forall_cons; [exact (vb154 c U)|].
  apply Forall_cons; [exact (vb155 c U)|].
  apply Forall_cons; [exact (vb156 c U)|].
  apply Forall_cons; [exact (vb157 c U)|].
  apply Forall_cons; [exact (vb158 c U)|].
  apply Forall_cons; [exact (vb159 c U)|].
  apply Forall_cons; [exact (vb160 c U)|].
  apply Forall_cons; [exact (vb161 c U)|].
  apply Forall_cons; [exact (vb162 c U)|].
  apply Forall_cons; [exact (vb163 c U)|].
  apply Forall_cons; [exact (vb164 c U)|].
  apply Forall_cons; [exact (vb165 c U)|].
  apply Forall_cons; [exact (vb166 c U)|].
  apply Forall_cons; [exact (vb167 c U)|].
  apply Forall_cons; [exact (vb168 c U)|].
  apply Forall_cons; [exact (vb169 c U)|].
  apply Forall_cons; [exact (vb170 c U)|].
  apply Forall_cons; [exact (vb171 c U)|].
  apply Forall_cons; [exact (vb172 c U)|].
  apply Forall_cons; [exact (vb173 c U)|].
  apply Forall_cons; [exact (vb174 c U)|].
  apply Forall_cons; [exact (vb175 c U)|].
  apply Forall_cons; [exact (vb176 c U)|].
  apply Forall_cons; [exact (vb298 c U)|].
  apply Forall_cons; [exact (vb302 c U)|].
  apply Forall_cons; [exact (vb326 c U)|].
  apply Forall_cons; [exact (vb330 c U)|].
  apply Forall_cons; [exact (vb354 c U)|].
  apply Forall_cons; [exact (vb355 c U)|].
  apply Forall_cons; [exact (vw0 c U)|].
  apply Forall_cons; [exact (vw1 c U)|].
  apply Forall_cons; [exact (vw2 c U)|].
  apply Forall_cons; [exact (vw3 c U)|].
  apply Forall_cons; [exact (vw4 c U)|].
  apply Forall_cons; [exact (vw5 c U)|].
  apply Forall_cons; [exact (vw6 c U)|].
  apply Forall_cons; [exact (vw7 c U)|].
  apply Forall_cons; [exact (vw8 c U)|].
  apply Forall_cons; [exact (vw9 c U)|].
  apply Forall_cons; [exact (vw10 c U)|].
  apply Forall_cons; [exact (vw11 c U)|].
  apply Forall_nil.
Qed.

(** which entry of [voices] speaks for an operation; [None] for one that never panics *)
Fixpoint spoken (es : list entry) (ks : list (option nat)) : Prop :=
  match es, ks with
  | []%list, []%list => True
  | (e :: es)%list, (None :: ks)%list => (e_cond e = fun _ => never _) /\ spoken es ks
  | (e :: es)%list, (Some k :: ks)%list => nth_error (map v_op voices) k = Some (e_op e) /\ spoken es ks
  | _, _ => False
  end.
Lemma spoken_cover es : forall ks, spoken es ks ->
  Forall (fun e => (e_cond e = fun _ => never _) \/ In (e_op e) (map v_op voices)) es.
Proof.
  induction es as [|e es IH]; intros [|[k|] ks] H; cbn [spoken] in H; try contradiction; constructor; try (eapply IH; apply H).
  - right. eapply nth_error_In. apply H.
  - left. apply H.
Qed.
Lemma message_cover : Forall (fun e => (e_cond e = fun _ => never _) \/ In (e_op e) (map v_op voices)) (panics_api ++ panics_amounts ++ panics_memory).
Proof.
  apply (spoken_cover _
    [None; None; None; None; None; None; None; None; None; None; None; None; None; Some 0; Some 1; Some 2; Some 3; Some 4; Some 5; Some 6; Some 7; Some 8; Some 9; Some 10; Some 11; Some 12; Some 13; Some 14; Some 15; Some 16; None; Some 17; Some 18; Some 19; Some 20; None; None; None; None; None; Some 21; Some 22; Some 23; Some 24; Some 25; Some 26; Some 27; Some 28; None; None; None; None; None; None; None; None; None; None; None; Some 29; None; None; None; Some 30; None; Some 31; Some 32; None; None; None; None; None; None; None; None; None; None; None; None; None; Some 33; Some 34; Some 35; Some 36; Some 37; Some 38; Some 39; Some 40; Some 41; Some 42; Some 43; Some 44; Some 45; Some 46; Some 47; Some 48; Some 49; None; Some 50; Some 51; Some 52; Some 53; None; None; None; None; None; Some 54; Some 55; Some 56; Some 57; Some 58; Some 59; Some 60; Some 61; None; Some 62; None; None; None; None; None; None; None; None; None; None; None; None; None; Some 63; Some 64; None; None; None; None; None; None; None; None; None; None; Some 65; None; None; Some 66; Some 67; Some 68; Some 69; Some 70; Some 71; Some 72; Some 73; Some 74; Some 75; Some 76; Some 77; Some 78; Some 79; Some 80; Some 81; Some 82; Some 83; Some 84; Some 85; Some 86; Some 87; Some 88; Some 89; Some 90; Some 91; Some 92; Some 93; Some 94; Some 95; Some 96; Some 97; None; None; None; None; None; None; None; None; None; None; None; None; None; None; None; None; None; None; None; None; None; None; None; None; None; None; None; None; None; None; None; None; None; None; None; None; None; None; None; None; None; None; None; None; None; None; None; None; None; None; None; None; None; None; None; None; None; None; None; None; None; None; None; None; None; None; None; None; None; None; None; None; None; None; None; None; None; None; None; None; None; None; None; None; None; None; None; None; None; None; None; None; None; None; None; None; None; None; None; None; None; None; None; None; None; None; None; None; None; None; None; None; None; None; None; None; None; None; None; None; None; Some 98; None; None; None; Some 99; None; None; None; None; None; None; None; None; None; None; None; None; None; None; None; None; None; None; None; None; None; None; None; Some 100; None; None; None; Some 101; None; None; None; None; None; None; None; None; None; None; None; None; None; None; None; None; None; None; None; None; None; None; None; Some 102; Some 103; None; None; Some 104; Some 105; Some 106; Some 107; Some 108; Some 109; Some 110; Some 111; Some 112; Some 113; Some 114; Some 115; None; None; None; None; None; None; None; None; None; None; None; None; None; None; None; None; None; None]%nat).
  repeat (split; [reflexivity|]). exact Logic.I.
Qed.

(** ** Like the primitive integers *)

Lemma like {A B} (r : res A) (r' : res B) (k : string) :
  (forall m, r = Panic m -> k = m) -> (forall m, r' = Panic m -> k = m) -> same_words r r'.
Proof. intros H H' m m' E E'. rewrite <- (H m E). exact (H' m' E'). Qed.
Ltac prim_says := let E := fresh in intros ? E;
  unfold u_add, u_sub, u_mul, u_div, u_rem, u_shl, p_shr in E;
  repeat match type of E with (if ?b then _ else _) = _ => destruct b end; try discriminate; injection E as <-; reflexivity.

Lemma message_primitives c a b x y s : usize_ok c -> wf_u a -> wf_u b -> wf_i x -> wf_i y -> amt_ok s -> forall c' n p q,
  Forall (fun r => same_words r (u_add c' n p q)) [u_op_add c a b; u_op_add_assign c a b] /\
  Forall (fun r => same_words r (u_add c' n p q)) [i_op_add c x y; i_op_add_assign c x y] /\
  Forall (fun r => same_words r (u_sub c' n p q)) [u_op_sub c a b; u_op_sub_assign c a b] /\
  Forall (fun r => same_words r (u_sub c' n p q)) [i_op_sub c x y; i_op_sub_assign c x y] /\
  Forall (fun r => same_words r (u_mul c' n p q)) [u_op_mul c a b; u_op_mul_assign c a b] /\
  Forall (fun r => same_words r (u_mul c' n p q)) [i_op_mul c x y; i_op_mul_assign c x y] /\
  Forall (fun r => same_words r (u_div p q)) [u_op_div c a b; u_op_div_assign c a b] /\
  Forall (fun r => same_words r (u_div p q)) [i_op_div c x y; i_op_div_assign c x y] /\
  Forall (fun r => same_words r (u_rem p q)) [u_op_rem c a b] /\
  Forall (fun r => same_words r (u_rem p q)) [i_op_rem c x y] /\
  Forall (fun r => same_words r (u_shl c' n p q)) [u_shl_amt c a s; u_shl_assign c a s] /\
  Forall (fun r => same_words r (u_shl c' n p q)) [i_shl_amt c x s; i_shl_assign c x s] /\
  Forall (fun r => same_words r (p_shr c' n p q)) [u_shr_amt c a s; u_shr_assign c a s] /\
  Forall (fun r => same_words r (p_shr c' n p q)) [i_shr_amt c x s; i_shr_assign c x s].
Proof.
  intros U0 Wa Wb Wx Wy As c' n p q.
  assert (La : legal c U a) by (unfold legal; cbn [same]; auto). assert (Lb : legal c U b) by (unfold legal; cbn [same]; auto).
  assert (Lx : legal c I x) by (unfold legal; cbn [same]; auto). assert (Ly : legal c I y) by (unfold legal; cbn [same]; auto).
  assert (Ls : legal c Amt s).
  { unfold legal. cbn [same]. split; [exact As|]. split; [exact As|]. destruct s; reflexivity. }
  split; [constructor; [apply (like _ _ "attempt to add with overflow"); [exact (vb13 c U0 a La b Lb)|prim_says]|]; constructor; [apply (like _ _ "attempt to add with overflow"); [exact (vb14 c U0 a La b Lb)|prim_says]|]; constructor|].
  split; [constructor; [apply (like _ _ "attempt to add with overflow"); [exact (vb80 c U0 x Lx y Ly)|prim_says]|]; constructor; [apply (like _ _ "attempt to add with overflow"); [exact (vb81 c U0 x Lx y Ly)|prim_says]|]; constructor|].
  split; [constructor; [apply (like _ _ "attempt to subtract with overflow"); [exact (vb15 c U0 a La b Lb)|prim_says]|]; constructor; [apply (like _ _ "attempt to subtract with overflow"); [exact (vb16 c U0 a La b Lb)|prim_says]|]; constructor|].
  split; [constructor; [apply (like _ _ "attempt to subtract with overflow"); [exact (vb82 c U0 x Lx y Ly)|prim_says]|]; constructor; [apply (like _ _ "attempt to subtract with overflow"); [exact (vb83 c U0 x Lx y Ly)|prim_says]|]; constructor|].
  split; [constructor; [apply (like _ _ "attempt to multiply with overflow"); [exact (vb17 c U0 a La b Lb)|prim_says]|]; constructor; [apply (like _ _ "attempt to multiply with overflow"); [exact (vb18 c U0 a La b Lb)|prim_says]|]; constructor|].
  split; [constructor; [apply (like _ _ "attempt to multiply with overflow"); [exact (vb84 c U0 x Lx y Ly)|prim_says]|]; constructor; [apply (like _ _ "attempt to multiply with overflow"); [exact (vb85 c U0 x Lx y Ly)|prim_says]|]; constructor|].
  split; [constructor; [apply (like _ _ "attempt to divide by zero"); [exact (vb19 c U0 a La b Lb)|prim_says]|]; constructor; [apply (like _ _ "attempt to divide by zero"); [exact (vb20 c U0 a La b Lb)|prim_says]|]; constructor|].
  split; [constructor; [apply (like _ _ "attempt to divide by zero"); [exact (vb86 c U0 x Lx y Ly)|prim_says]|]; constructor; [apply (like _ _ "attempt to divide by zero"); [exact (vb87 c U0 x Lx y Ly)|prim_says]|]; constructor|].
  split; [constructor; [apply (like _ _ "attempt to calculate the remainder with a divisor of zero"); [exact (vb21 c U0 a La b Lb)|prim_says]|]; constructor|].
  split; [constructor; [apply (like _ _ "attempt to calculate the remainder with a divisor of zero"); [exact (vb88 c U0 x Lx y Ly)|prim_says]|]; constructor|].
  split; [constructor; [apply (like _ _ "attempt to shift left with overflow"); [exact (vw0 c U0 a La s Ls)|prim_says]|]; constructor; [apply (like _ _ "attempt to shift left with overflow"); [exact (vw1 c U0 a La s Ls)|prim_says]|]; constructor|].
  split; [constructor; [apply (like _ _ "attempt to shift left with overflow"); [exact (vw2 c U0 x Lx s Ls)|prim_says]|]; constructor; [apply (like _ _ "attempt to shift left with overflow"); [exact (vw3 c U0 x Lx s Ls)|prim_says]|]; constructor|].
  split; [constructor; [apply (like _ _ "attempt to shift right with overflow"); [exact (vw4 c U0 a La s Ls)|prim_says]|]; constructor; [apply (like _ _ "attempt to shift right with overflow"); [exact (vw5 c U0 a La s Ls)|prim_says]|]; constructor|].
  constructor; [apply (like _ _ "attempt to shift right with overflow"); [exact (vw6 c U0 x Lx s Ls)|prim_says]|]; constructor; [apply (like _ _ "attempt to shift right with overflow"); [exact (vw7 c U0 x Lx s Ls)|prim_says]|]; constructor.
Qed.

Lemma message_rem_assign :
  ~ (forall c a b, usize_ok c -> wf_u a -> wf_u b -> forall p q, same_words (u_op_rem_assign c a b) (u_rem p q)) /\
  ~ (forall c a b, usize_ok c -> wf_i a -> wf_i b -> forall p q, same_words (i_op_rem_assign c a b) (u_rem p q)).
Proof.
  split; intros H.
  - specialize (H (Build_cfg false false false 64 false) (uof (Build_cfg false false false 64 false) 0) (uof (Build_cfg false false false 64 false) 0) ltac:(unfold usize_ok; cbn; auto)
      (wf_uof _ 0) (wf_uof _ 0) 0 0 "attempt to divide by zero" "attempt to calculate the remainder with a divisor of zero").
    discriminate H; vm_compute; reflexivity.
  - specialize (H (Build_cfg false false false 64 false) (iof (Build_cfg false false false 64 false) 0) (iof (Build_cfg false false false 64 false) 0) ltac:(unfold usize_ok; cbn; auto)
      (wf_iof _ 0) (wf_iof _ 0) 0 0 "attempt to divide by zero" "attempt to calculate the remainder with a divisor of zero").
    discriminate H; vm_compute; reflexivity.
Qed.

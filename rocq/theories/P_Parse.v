(** * Parsing *)

From Coq Require Import ZArith String List Bool Lia ZifyBool.
From Verif Require Import M_Prim M_Words M_Mul M_Ops M_UintApi M_IntApi M_Convert M_Parse Spec Spec_Parse
  P_Words P_Bits P_Mul P_Ops P_Uint P_Int P_Convert.
Import ListNotations.
Open Scope Z_scope.

(** ** Digits *)

Lemma to_digit_spec r ch d : 2 <= r <= 36 -> (to_digit ch r = Some d <-> digit r ch d).
Proof.
  intros Hr. unfold to_digit, digit.
  destruct (Z.leb_spec 48 ch); destruct (Z.leb_spec ch 57); cbn [andb];
  destruct (Z.leb_spec 97 ch); destruct (Z.leb_spec ch 122); cbn [andb];
  destruct (Z.leb_spec 65 ch); destruct (Z.leb_spec ch 90); cbn [andb];
  match goal with |- (if ?a <? ?b then _ else _) = _ <-> _ => destruct (Z.ltb_spec a b) end;
  (split; [intros H'; first [discriminate H'|injection H' as <-; lia]|intros H'; first [f_equal; lia|exfalso; lia]]).
Qed.
Lemma to_digit_none r ch : 2 <= r <= 36 -> (to_digit ch r = None <-> forall d, ~ digit r ch d).
Proof.
  intros Hr. split.
  - intros H d Hd. apply to_digit_spec in Hd; [congruence|assumption].
  - intros H. destruct (to_digit ch r) eqn:E; [|reflexivity]. apply to_digit_spec in E; [|assumption]. destruct (H _ E).
Qed.
Lemma digit_range r ch d : digit r ch d -> 0 <= d < r.
Proof. unfold digit. lia. Qed.
Lemma digit_fun r ch d d' : digit r ch d -> digit r ch d' -> d = d'.
Proof. unfold digit. lia. Qed.

Lemma value_app r ds d : value r (ds ++ [d]) = value r ds * r + d.
Proof.
  induction ds as [|x t IH]; cbn [app value]; [change (Z.of_nat (length (@nil Z))) with 0; rewrite Z.pow_0_r; lia|].
  rewrite IH, app_length. cbn [length]. rewrite Nat.add_1_r, Nat2Z.inj_succ, Z.pow_succ_r by lia. ring.
Qed.
Lemma value_nonneg r ds s : 0 <= r -> numeral r s ds -> 0 <= value r ds.
Proof.
  intros Hr H. induction H as [|ch d s ds H1 H2 IH]; cbn [value]; [lia|]. apply digit_range in H1.
  pose proof (Z.pow_nonneg r (Z.of_nat (length ds)) Hr). nia.
Qed.

(** ** Scanning digits: the common description of both loops *)

Section Scan.
Variables (neg : bool) (r lo hi : Z) (ovf : int_error).
Hypothesis Hr : 2 <= r <= 36.
Hypothesis Hlo : lo <= 0.
Hypothesis Hhi : 0 <= hi.
Hypothesis Hovf : ovf <> Empty /\ ovf <> InvalidDigit.

Definition sg (d : Z) : Z := signed_by neg d.

Fixpoint scan (digits : list Z) (acc : Z) : result Z :=
  match digits with
  | [] => Ok acc
  | ch :: t =>
      match to_digit ch r with
      | None => Err InvalidDigit
      | Some d => let v := acc * r + sg d in
                  if (lo <=? v) && (v <=? hi) then scan t v else Err ovf
      end
  end.

Definition at_ (acc : Z) (ds : list Z) : Z := acc * r ^ Z.of_nat (length ds) + sg (value r ds).
Lemma at_nil acc : at_ acc [] = acc.
Proof. unfold at_, sg, signed_by. cbn [length value]. change (Z.of_nat 0) with 0. rewrite Z.pow_0_r. destruct neg; lia. Qed.
Lemma at_cons acc d ds : at_ acc (d :: ds) = at_ (acc * r + sg d) ds.
Proof.
  unfold at_, sg, signed_by. cbn [length value]. rewrite Nat2Z.inj_succ, Z.pow_succ_r by lia. destruct neg; ring.
Qed.
Lemma at_zero ds : at_ 0 ds = signed_by neg (value r ds).
Proof. unfold at_, sg. lia. Qed.

Definition scans (digits : list Z) (acc : Z) (o : result Z) : Prop :=
  match o with
  | Ok v => exists ds, numeral r digits ds /\ v = at_ acc ds /\ lo <= v <= hi
  | Err Empty => False
  | Err InvalidDigit =>
      exists p ch q ds, digits = p ++ ch :: q /\ numeral r p ds /\ lo <= at_ acc ds <= hi /\ forall d, ~ digit r ch d
  | Err e => e = ovf /\
      exists p ch q ds d, digits = p ++ ch :: q /\ numeral r p ds /\ lo <= at_ acc ds <= hi /\
                          digit r ch d /\ ~ (lo <= at_ acc (ds ++ [d]) <= hi)
  end.
Definition scans_ovf digits acc : Prop :=
      exists p ch q ds d, digits = p ++ ch :: q /\ numeral r p ds /\ lo <= at_ acc ds <= hi /\
                          digit r ch d /\ ~ (lo <= at_ acc (ds ++ [d]) <= hi).
Lemma scans_ovf_eq digits acc : scans digits acc (Err ovf) <-> scans_ovf digits acc.
Proof. unfold scans, scans_ovf. destruct Hovf as [A B]. destruct ovf; try congruence; tauto. Qed.

(** values only move away from zero *)
Lemma at_bound acc ds s : 0 <= sg acc -> numeral r s ds ->
  (if neg then at_ acc ds <= acc else acc <= at_ acc ds).
Proof.
  intros Ha Hn. pose proof (value_nonneg r ds s ltac:(lia) Hn).
  assert (1 <= r ^ Z.of_nat (length ds)) by (pose proof (Z.pow_pos_nonneg r (Z.of_nat (length ds)) ltac:(lia) ltac:(lia)); lia).
  unfold at_, sg, signed_by in *. destruct neg; nia.
Qed.
Lemma sg_step acc ch d : 0 <= sg acc -> digit r ch d -> 0 <= sg (acc * r + sg d).
Proof. intros Ha Hd. apply digit_range in Hd. unfold sg, signed_by in *. destruct neg; nia. Qed.

Lemma scan_scans digits : forall acc, lo <= acc <= hi -> 0 <= sg acc -> scans digits acc (scan digits acc).
Proof.
  induction digits as [|ch t IH]; intros acc HA HS; cbn [scan].
  - exists []. split; [constructor|]. split; [symmetry; apply at_nil|assumption].
  - destruct (to_digit ch r) as [d|] eqn:E.
    + apply to_digit_spec in E; [|assumption]. pose proof (sg_step acc ch d HS E) as HS'. cbv zeta.
      destruct ((lo <=? acc * r + sg d) && (acc * r + sg d <=? hi)) eqn:EB.
      * specialize (IH (acc * r + sg d) ltac:(lia) HS').
        destruct (scan t (acc * r + sg d)) as [v|e] eqn:ES; cbn [scans] in *.
        -- destruct IH as (ds & N & V & R). exists (d :: ds). split; [constructor; assumption|]. split; [rewrite at_cons; assumption|assumption].
        -- assert (OV : scans_ovf t (acc * r + sg d) -> scans_ovf (ch :: t) acc).
           { intros (p & c' & q & ds & d' & E1 & N & R & D & X). exists (ch :: p), c', q, (d :: ds), d'.
             split; [cbn [app]; congruence|]. split; [constructor; assumption|]. cbn [app]. rewrite !at_cons. tauto. }
           destruct e; try (destruct IH as (-> & IH); split; [reflexivity|apply OV; assumption]).
           ++ assumption.
           ++ destruct IH as (p & c' & q & ds & E1 & N & R & D). exists (ch :: p), c', q, (d :: ds).
              split; [cbn [app]; congruence|]. split; [constructor; assumption|]. rewrite at_cons. tauto.
      * apply scans_ovf_eq. exists [], ch, t, [], d. split; [reflexivity|]. split; [constructor|]. rewrite at_nil.
        split; [assumption|]. split; [assumption|]. cbn [app]. rewrite at_cons, at_nil. lia.
    + cbn [scans]. exists [], ch, t, []. split; [reflexivity|]. split; [constructor|]. rewrite at_nil. split; [assumption|].
      apply to_digit_none; assumption.
Qed.

Lemma scans_unique digits : forall acc o, lo <= acc <= hi -> 0 <= sg acc -> scans digits acc o -> o = scan digits acc.
Proof.
  induction digits as [|ch t IH]; intros acc o HA HS H; cbn [scan].
  - destruct o as [v|e]; cbn [scans] in H.
    + destruct H as (ds & N & V & R). inversion N; subst. rewrite at_nil. reflexivity.
    + exfalso. destruct e.
      * assumption.
      * destruct H as (p & c' & q & ds & E1 & _). destruct p; discriminate.
      * destruct H as (_ & p & c' & q & ds & d' & E1 & _). destruct p; discriminate.
      * destruct H as (_ & p & c' & q & ds & d' & E1 & _). destruct p; discriminate.
  - destruct (to_digit ch r) as [d|] eqn:E.
    + apply to_digit_spec in E; [|assumption]. pose proof (sg_step acc ch d HS E) as HS'. cbv zeta.
      assert (RNG : forall s ds, numeral r s ds -> lo <= at_ (acc * r + sg d) ds <= hi -> lo <= acc * r + sg d <= hi).
      { intros s ds N R. pose proof (at_bound _ _ _ HS' N) as B.
        revert B R HS'. generalize (acc * r + sg d). intros w. unfold sg, signed_by. destruct neg; lia. }
      assert (OV : scans_ovf (ch :: t) acc -> Err ovf = (if (lo <=? acc * r + sg d) && (acc * r + sg d <=? hi) then scan t (acc * r + sg d) else Err ovf)).
      { intros (p & c' & q & ds & d' & E1 & N & R & D & X).
        destruct p as [|x p]; cbn [app] in E1; injection E1 as -> ->.
        - inversion N; subst. replace d' with d in * by (eapply digit_fun; eassumption).
          cbn [app] in X. rewrite at_cons, at_nil in X.
          replace ((lo <=? acc * r + sg d) && (acc * r + sg d <=? hi)) with false by lia. reflexivity.
        - inversion N as [|? d0 ? ds0 D0 N0]; subst. replace d0 with d in * by (eapply digit_fun; eassumption).
          cbn [app] in X. rewrite at_cons in R, X. pose proof (RNG _ _ N0 R) as RG.
          replace ((lo <=? acc * r + sg d) && (acc * r + sg d <=? hi)) with true by lia.
          apply IH; [lia|assumption|]. apply scans_ovf_eq. exists p, c', q, ds0, d'. tauto. }
      destruct o as [v|e]; cbn [scans] in H.
      * destruct H as (ds & N & V & R). inversion N as [|? d0 ? ds0 D0 N0]; subst. replace d0 with d in * by (eapply digit_fun; eassumption).
        rewrite at_cons in *. pose proof (RNG _ _ N0 R) as RG.
        replace ((lo <=? acc * r + sg d) && (acc * r + sg d <=? hi)) with true by lia.
        apply IH; [lia|assumption|]. exists ds0. tauto.
      * destruct e; try (destruct H as (-> & H); apply OV; exact H).
        -- destruct H.
        -- destruct H as (p & c' & q & ds & E1 & N & R & D).
           destruct p as [|x p]; cbn [app] in E1; injection E1 as -> ->; [destruct (D _ E)|].
           inversion N as [|? d0 ? ds0 D0 N0]; subst. replace d0 with d in * by (eapply digit_fun; eassumption).
           rewrite at_cons in R. pose proof (RNG _ _ N0 R) as RG.
           replace ((lo <=? acc * r + sg d) && (acc * r + sg d <=? hi)) with true by lia.
           apply IH; [lia|assumption|]. exists p, c', q, ds0. tauto.
    + pose proof (proj1 (to_digit_none r ch Hr) E) as E'.
      destruct o as [v|e]; cbn [scans] in H.
      * destruct H as (ds & N & V & R). inversion N as [|? d0 ? ds0 D0 N0]; subst. destruct (E' _ D0).
      * assert (OV : scans_ovf (ch :: t) acc -> False).
        { intros (p & c' & q & ds & d' & E1 & N & R & D & X). destruct p as [|x p]; cbn [app] in E1; injection E1 as -> ->.
          - destruct (E' _ D).
          - inversion N as [|? d0 ? ds0 D0 N0]; subst. destruct (E' _ D0). }
        destruct e; try reflexivity; try (destruct H as (-> & H); destruct (OV H)). destruct H.
Qed.
Lemma scans_iff digits o : scans digits 0 o <-> o = scan digits 0.
Proof.
  assert (0 <= sg 0) by (unfold sg, signed_by; destruct neg; lia).
  split; [apply scans_unique; lia|]. intros ->. apply scan_scans; lia.
Qed.
End Scan.

(** ** The two loops *)

Record helper_ok {T} (h : helper T) (of : Z -> T) (lo hi : Z) : Prop := {
  ok_lo : lo <= 0;
  ok_hi : 64 <= hi;
  ok_u32 : forall v, 0 <= v < 2 ^ 32 -> h_from_u32 h v = of v;
  ok_add : forall a b, lo <= a <= hi -> lo <= b <= hi -> lo <= a + b <= hi -> h_add h (of a) (of b) = Ret (of (a + b));
  ok_sub : forall a b, lo <= a <= hi -> lo <= b <= hi -> lo <= a - b <= hi -> h_sub h (of a) (of b) = Ret (of (a - b));
  ok_mul : forall a b, lo <= a <= hi -> lo <= b <= hi -> lo <= a * b <= hi -> h_mul h (of a) (of b) = Ret (of (a * b));
  ok_cadd : forall a b, lo <= a <= hi -> 0 <= b < 64 -> h_checked_add h (of a) b = Ret (if (lo <=? a + b) && (a + b <=? hi) then Some (of (a + b)) else None);
  ok_csub : forall a b, lo <= a <= hi -> 0 <= b < 64 -> h_checked_sub h (of a) b = Ret (if (lo <=? a - b) && (a - b <=? hi) then Some (of (a - b)) else None);
  ok_cmul : forall a b, lo <= a <= hi -> 0 <= b < 64 -> h_checked_mul h (of a) b = Ret (if (lo <=? a * b) && (a * b <=? hi) then Some (of (a * b)) else None);
  ok_signed : h_gt h (h_from_u32 h 0) (h_min h) = (lo <? 0);
  ok_size : h_size_of h = 32;
  ok_bound_u : lo = 0 -> hi = 2 ^ 256 - 1;
  ok_bound_i : lo < 0 -> lo = - 2 ^ 255 /\ hi = 2 ^ 255 - 1
}.

Lemma u_helper_ok c : helper_ok (u_helper c) (uof c) 0 (2 ^ 256 - 1).
Proof.
  assert (U : forall v, 0 <= v < 2 ^ 128 -> u_from_prim c v = uof c v) by (intros; apply u_new_of; lia).
  constructor; cbn [u_helper h_min h_gt h_from_u32 h_add h_sub h_mul h_checked_mul h_checked_sub h_checked_add h_size_of];
    try lia; try reflexivity.
  - intros. apply U. lia.
  - intros. rewrite u_op_add_of by lia. rewrite in_u_256. unfold dbg. replace ((0 <=? a + b) && (a + b <? 2 ^ 256)) with true by lia. rewrite andb_false_r. reflexivity.
  - intros. rewrite u_op_sub_of by lia. rewrite in_u_256. unfold dbg. replace ((0 <=? a - b) && (a - b <? 2 ^ 256)) with true by lia. rewrite andb_false_r. reflexivity.
  - intros. rewrite u_op_mul_of by lia. rewrite in_u_256. unfold dbg. replace ((0 <=? a * b) && (a * b <? 2 ^ 256)) with true by lia. rewrite andb_false_r. reflexivity.
  - intros. rewrite U, u_checked_add_of, in_u_256 by lia. replace (a + b <? 2 ^ 256) with (a + b <=? 2 ^ 256 - 1) by lia. reflexivity.
  - intros. rewrite U, u_checked_sub_of, in_u_256 by lia. replace (a - b <? 2 ^ 256) with (a - b <=? 2 ^ 256 - 1) by lia. reflexivity.
  - intros. rewrite U, u_checked_mul_of, in_u_256 by lia. replace (a * b <? 2 ^ 256) with (a * b <=? 2 ^ 256 - 1) by lia. reflexivity.
  - rewrite U by lia. change U256_MIN with U256_ZERO. rewrite (U256_ZERO_of c). rewrite u_gt_of by lia. reflexivity.
Qed.
Lemma i_helper_ok c : helper_ok (i_helper c) (iof c) (- 2 ^ 255) (2 ^ 255 - 1).
Proof.
  assert (U : forall v, 0 <= v < 2 ^ 127 -> i_from_prim c v = iof c v) by (intros; apply prim_as_i256_of; lia).
  constructor; cbn [i_helper h_min h_gt h_from_u32 h_add h_sub h_mul h_checked_mul h_checked_sub h_checked_add h_size_of];
    try lia; try reflexivity.
  - intros. apply U. lia.
  - intros. rewrite i_op_add_of by lia. rewrite in_i_256. unfold dbg. replace ((- 2 ^ 255 <=? a + b) && (a + b <? 2 ^ 255)) with true by lia. rewrite andb_false_r. reflexivity.
  - intros. rewrite i_op_sub_of by lia. rewrite in_i_256. unfold dbg. replace ((- 2 ^ 255 <=? a - b) && (a - b <? 2 ^ 255)) with true by lia. rewrite andb_false_r. reflexivity.
  - intros. rewrite i_op_mul_of by lia. rewrite in_i_256. unfold dbg. replace ((- 2 ^ 255 <=? a * b) && (a * b <? 2 ^ 255)) with true by lia. rewrite andb_false_r. reflexivity.
  - intros. rewrite U, i_checked_add_of, in_i_256 by lia. replace (a + b <? 2 ^ 255) with (a + b <=? 2 ^ 255 - 1) by lia. reflexivity.
  - intros. rewrite U, i_checked_sub_of, in_i_256 by lia. replace (a - b <? 2 ^ 255) with (a - b <=? 2 ^ 255 - 1) by lia. reflexivity.
  - intros. rewrite U, i_checked_mul_of, in_i_256 by lia. replace (a * b <? 2 ^ 255) with (a * b <=? 2 ^ 255 - 1) by lia. reflexivity.
  - rewrite U, I256_MIN_of, i_gt_of by (unfold MINI; lia). reflexivity.
Qed.

Section Loops.
Context {T : Type} (h : helper T) (of : Z -> T) (lo hi r : Z).
Hypothesis HK : helper_ok h of lo hi.
Hypothesis Hr : 2 <= r <= 36.

Lemma digit_lt ch d : to_digit ch r = Some d -> 0 <= d < 36.
Proof. intros E. apply to_digit_spec in E; [|assumption]. apply digit_range in E. lia. Qed.

Lemma checked_pos digits : forall acc, 0 <= acc <= hi ->
  checked_loop h r (h_checked_add h) PosOverflow digits (of acc) = Ret (result_map of (scan false r lo hi PosOverflow digits acc)).
Proof.
  pose proof (ok_lo _ _ _ _ HK). induction digits as [|ch t IH]; intros acc HA; cbn [checked_loop scan]; [reflexivity|].
  rewrite (ok_cmul _ _ _ _ HK) by lia. cbn [bind]. destruct (to_digit ch r) as [d|] eqn:E; [|reflexivity]. cbv zeta. unfold sg, signed_by.
  pose proof (digit_lt ch d E).
  destruct ((lo <=? acc * r) && (acc * r <=? hi)) eqn:E1.
  - rewrite (ok_cadd _ _ _ _ HK) by lia. cbn [bind].
    destruct ((lo <=? acc * r + d) && (acc * r + d <=? hi)) eqn:E2; [|reflexivity]. apply IH. nia.
  - replace ((lo <=? acc * r + d) && (acc * r + d <=? hi)) with false by nia. reflexivity.
Qed.
Lemma checked_neg digits : forall acc, lo <= acc <= 0 ->
  checked_loop h r (h_checked_sub h) NegOverflow digits (of acc) = Ret (result_map of (scan true r lo hi NegOverflow digits acc)).
Proof.
  pose proof (ok_hi _ _ _ _ HK). induction digits as [|ch t IH]; intros acc HA; cbn [checked_loop scan]; [reflexivity|].
  rewrite (ok_cmul _ _ _ _ HK) by lia. cbn [bind]. destruct (to_digit ch r) as [d|] eqn:E; [|reflexivity]. cbv zeta. unfold sg, signed_by.
  pose proof (digit_lt ch d E). replace (acc * r + - d) with (acc * r - d) by lia.
  destruct ((lo <=? acc * r) && (acc * r <=? hi)) eqn:E1.
  - rewrite (ok_csub _ _ _ _ HK) by lia. cbn [bind].
    destruct ((lo <=? acc * r - d) && (acc * r - d <=? hi)) eqn:E2; [|reflexivity]. apply IH. nia.
  - replace ((lo <=? acc * r - d) && (acc * r - d <=? hi)) with false by nia. reflexivity.
Qed.

Lemma pow_len n : 1 <= r ^ Z.of_nat n.
Proof. pose proof (Z.pow_pos_nonneg r (Z.of_nat n) ltac:(lia) ltac:(lia)). lia. Qed.

Lemma unchecked_pos digits ovf : forall acc, 0 <= acc -> (acc + 1) * r ^ Z.of_nat (length digits) <= hi + 1 ->
  unchecked_loop h r (h_add h) digits (of acc) = Ret (result_map of (scan false r lo hi ovf digits acc)).
Proof.
  pose proof (ok_lo _ _ _ _ HK). pose proof (ok_hi _ _ _ _ HK).
  induction digits as [|ch t IH]; intros acc HA HB; cbn [unchecked_loop scan]; [reflexivity|].
  cbn [length] in HB. rewrite Nat2Z.inj_succ, Z.pow_succ_r in HB by lia. pose proof (pow_len (length t)) as PL.
  assert (B1 : (acc + 1) * r <= hi + 1) by nia.
  rewrite (ok_u32 _ _ _ _ HK) by lia. rewrite (ok_mul _ _ _ _ HK) by nia. cbn [bind].
  destruct (to_digit ch r) as [d|] eqn:E; [|reflexivity]. cbv zeta. unfold sg, signed_by.
  apply to_digit_spec in E; [|assumption]. apply digit_range in E.
  rewrite (ok_u32 _ _ _ _ HK) by lia. rewrite (ok_add _ _ _ _ HK) by nia. cbn [bind].
  replace ((lo <=? acc * r + d) && (acc * r + d <=? hi)) with true by nia. apply IH; nia.
Qed.
Lemma unchecked_neg digits ovf : forall acc, acc <= 0 -> (- acc + 1) * r ^ Z.of_nat (length digits) <= - lo ->
  unchecked_loop h r (h_sub h) digits (of acc) = Ret (result_map of (scan true r lo hi ovf digits acc)).
Proof.
  pose proof (ok_lo _ _ _ _ HK). pose proof (ok_hi _ _ _ _ HK).
  induction digits as [|ch t IH]; intros acc HA HB; cbn [unchecked_loop scan]; [reflexivity|].
  cbn [length] in HB. rewrite Nat2Z.inj_succ, Z.pow_succ_r in HB by lia. pose proof (pow_len (length t)) as PL.
  assert (B1 : (- acc + 1) * r <= - lo) by nia.
  rewrite (ok_u32 _ _ _ _ HK) by lia. rewrite (ok_mul _ _ _ _ HK) by nia. cbn [bind].
  destruct (to_digit ch r) as [d|] eqn:E; [|reflexivity]. cbv zeta. unfold sg, signed_by.
  apply to_digit_spec in E; [|assumption]. apply digit_range in E. replace (acc * r + - d) with (acc * r - d) by lia.
  rewrite (ok_u32 _ _ _ _ HK) by lia. rewrite (ok_sub _ _ _ _ HK) by nia. cbn [bind].
  replace ((lo <=? acc * r - d) && (acc * r - d <=? hi)) with true by nia. apply IH; nia.
Qed.

(** ** from_str_radix *)

Definition parse_fun (prefix : list Z) (s : list Z) : result Z :=
  match s with
  | [] => Err Empty
  | _ =>
      let '(neg, body) := sign (lo <? 0) s in
      match strip_prefix body prefix with
      | None | Some [] => Err InvalidDigit
      | Some digits => scan neg r lo hi (if neg then NegOverflow else PosOverflow) digits 0
      end
  end.

Lemma radix_pow n : r <= 16 -> 0 <= n <= 64 -> r ^ n <= 2 ^ 256.
Proof.
  intros. apply Z.le_trans with (16 ^ n); [apply Z.pow_le_mono_l; lia|].
  apply Z.le_trans with (16 ^ 64); [apply Z.pow_le_mono_r; lia|]. reflexivity || lia.
Qed.
Lemma radix_pow_i n : r <= 16 -> 0 <= n <= 63 -> r ^ n <= 2 ^ 255.
Proof.
  intros. apply Z.le_trans with (16 ^ n); [apply Z.pow_le_mono_l; lia|].
  apply Z.le_trans with (16 ^ 63); [apply Z.pow_le_mono_r; lia|]. reflexivity || lia.
Qed.

Lemma from_str_radix_fun s prefix :
  from_str_radix h s r prefix = Ret (result_map of (parse_fun (match prefix with Some p => p | None => [] end) s)).
Proof.
  unfold from_str_radix, parse_fun. replace (negb ((2 <=? r) && (r <=? 36))) with false by lia.
  pose proof (ok_lo _ _ _ _ HK) as L0. pose proof (ok_hi _ _ _ _ HK) as L1.
  destruct s as [|b t]; [reflexivity|]. cbv zeta. rewrite (ok_signed _ _ _ _ HK).
  rewrite (ok_u32 _ _ _ _ HK 0) by lia. rewrite (ok_size _ _ _ _ HK).
  assert (STRIP : forall l, (match prefix with Some p => strip_prefix l p | None => Some l end) = strip_prefix l (match prefix with Some p => p | None => [] end)).
  { intros. destruct prefix; [reflexivity|]. destruct l; reflexivity. }
  assert (GO : forall neg body, (neg = true -> lo < 0) -> 
    match match prefix with Some p => strip_prefix body p | None => Some body end with
    | None => Ret (Err InvalidDigit)
    | Some [] => Ret (Err InvalidDigit)
    | Some ((_ :: _) as digits) =>
        if can_not_overflow 32 r (lo <? 0) digits
        then unchecked_loop h r (if negb neg then h_add h else h_sub h) digits (of 0)
        else if negb neg then checked_loop h r (h_checked_add h) PosOverflow digits (of 0)
        else checked_loop h r (h_checked_sub h) NegOverflow digits (of 0)
    end = Ret (result_map of
       match strip_prefix body (match prefix with Some p => p | None => [] end) with
       | None | Some [] => Err InvalidDigit
       | Some ((_ :: _) as digits) => scan neg r lo hi (if neg then NegOverflow else PosOverflow) digits 0
       end)).
  {
  intros neg body HNL. rewrite STRIP. destruct (strip_prefix body _) as [[|d0 ds]|]; try reflexivity.
  generalize (d0 :: ds). clear d0 ds. intros digits. unfold can_not_overflow.
  destruct (Z.leb_spec r 16) as [R16|R16]; cbn [andb].
  - destruct (Z.leb_spec (Z.of_nat (length digits)) (32 * 2 - Z.b2z (lo <? 0))) as [HL|HL].
    + destruct neg; cbn [negb].
      * specialize (HNL eq_refl). apply unchecked_neg; [lia|]. replace (lo <? 0) with true in HL by lia. cbn [Z.b2z] in HL.
        destruct (ok_bound_i _ _ _ _ HK HNL) as [E1 E2].
        pose proof (radix_pow_i (Z.of_nat (length digits)) R16 ltac:(lia)). lia.
      * apply unchecked_pos; [lia|]. destruct (Z.ltb_spec lo 0) as [LN|LN]; cbn [Z.b2z] in HL.
        -- destruct (ok_bound_i _ _ _ _ HK LN) as [E1 E2].
           pose proof (radix_pow_i (Z.of_nat (length digits)) R16 ltac:(lia)). lia.
        -- pose proof (ok_bound_u _ _ _ _ HK ltac:(lia)). pose proof (radix_pow (Z.of_nat (length digits)) R16 ltac:(lia)). lia.
    + destruct neg; cbn [negb]; [specialize (HNL eq_refl); apply checked_neg; lia|apply checked_pos; lia].
  - destruct neg; cbn [negb]; [specialize (HNL eq_refl); apply checked_neg; lia|apply checked_pos; lia].
  }
  destruct (Z.eqb_spec b 43) as [E43|E43].
  - subst b. unfold split_sign, sign. change (43 =? 43) with true. cbn [orb andb].
    destruct t as [|x t].
    + cbn [strip_prefix]. destruct prefix as [[|]|]; reflexivity.
    + specialize (GO false (x :: t) ltac:(discriminate)). exact GO.
  - unfold split_sign, sign. replace (b =? 43) with false by lia. cbn [orb].
    destruct (Z.eqb_spec b 45) as [E45|E45]; cbn [andb].
    + destruct t as [|x t].
      * destruct (Z.ltb_spec lo 0); [destruct prefix as [[|]|]; reflexivity|].
        subst b. assert (ND : to_digit 45 r = None) by (apply to_digit_none; [assumption|]; unfold digit; intros; lia).
        destruct prefix as [[|p0 p]|]; cbn [strip_prefix scan]; rewrite ?ND; try reflexivity.
        destruct (Z.eqb_spec 45 p0); [|reflexivity]. destruct p; reflexivity.
      * destruct (Z.ltb_spec lo 0).
        -- specialize (GO true (x :: t) ltac:(lia)). replace (lo <? 0) with true in GO by lia. exact GO.
        -- specialize (GO false (b :: x :: t) ltac:(discriminate)). replace (lo <? 0) with false in GO by lia. exact GO.
    + specialize (GO false (b :: t) ltac:(discriminate)). exact GO.
Qed.

Lemma strip_spec l : forall pre t, strip_prefix l pre = Some t <-> l = pre ++ t.
Proof.
  intros pre. revert l. induction pre as [|p pre IH]; intros l t.
  - destruct l; cbn [strip_prefix app]; split; intros H; inversion H; reflexivity.
  - destruct l as [|x l]; cbn [strip_prefix app]; [split; discriminate|]. destruct (Z.eqb_spec x p) as [->|N].
    + rewrite IH. split; intros H; [congruence|inversion H; reflexivity].
    + split; [discriminate|]. intros H. inversion H. congruence.
Qed.

Lemma reads_iff pre s o : reads (lo <? 0) lo hi r pre s o <-> o = parse_fun pre s.
Proof.
  pose proof (ok_lo _ _ _ _ HK) as L0. pose proof (ok_hi _ _ _ _ HK) as L1.
  unfold reads, parse_fun. destruct s as [|b t].
  - cbn [sign]. destruct o as [v|e]; [|destruct e]; (split; [|intros H; try discriminate H]).
    + intros (digits & ds & E & N & _). exfalso. destruct pre; [|discriminate]. cbn [app] in E. congruence.
    + reflexivity.
    + reflexivity.
    + intros (H & _). congruence.
    + intros (_ & p & ch & q & ds & d & E & _). destruct pre; destruct p; discriminate.
    + intros (H & _). discriminate.
  - destruct (sign (lo <? 0) (b :: t)) as [neg body] eqn:ES.
    destruct (strip_prefix body pre) as [digits|] eqn:EP.
    2: { assert (NO : forall x, body <> pre ++ x) by (intros x H; apply strip_spec in H; congruence).
      destruct o as [v|e]; [|destruct e]; (split; [|intros H; try discriminate H]).
      - intros (digits & ds & E & _). destruct (NO _ E).
      - discriminate.
      - reflexivity.
      - split; [discriminate|]. left. intros (x & E & _). destruct (NO _ E).
      - intros (_ & p & ch & q & ds & d & E & _). destruct (NO _ E).
      - intros (_ & p & ch & q & ds & d & E & _). destruct (NO _ E). }
    apply strip_spec in EP. 
    assert (CAN : forall x, body = pre ++ x <-> digits = x).
    { intros x. rewrite EP. split; [apply app_inv_head|congruence]. }
    destruct digits as [|d0 rest].
    { destruct o as [v|e]; [|destruct e]; (split; [|intros H; try discriminate H]).
      - intros (x & ds & E & N & _). apply CAN in E. congruence.
      - discriminate.
      - reflexivity.
      - split; [discriminate|]. left. intros (x & E & N). apply CAN in E. congruence.
      - intros (_ & p & ch & q & ds & d & E & _). apply CAN in E. destruct p; discriminate.
      - intros (_ & p & ch & q & ds & d & E & _). apply CAN in E. destruct p; discriminate. }
    set (dg := d0 :: rest) in *. assert (DN : dg <> []) by discriminate.
    set (ovf := if neg then NegOverflow else PosOverflow).
    rewrite <- (scans_iff neg r lo hi ovf Hr L0 ltac:(lia) ltac:(unfold ovf; destruct neg; split; discriminate)).
    unfold scans. destruct o as [v|e]; [|destruct e].
    + split.
      * intros (x & ds & E & N & NM & V & R). apply CAN in E. subst x. exists ds. rewrite at_zero. tauto.
      * intros (ds & NM & V & R). rewrite at_zero in V. exists dg, ds. split; [apply CAN; reflexivity|]. tauto.
    + split; [discriminate|]. intros [].
    + split.
      * intros (_ & [H|(p & ch & q & ds & E & NM & R & D)]).
        -- destruct H. exists dg. split; [apply CAN; reflexivity|assumption].
        -- apply CAN in E. exists p, ch, q, ds. rewrite at_zero. tauto.
      * intros (p & ch & q & ds & E & NM & R & D). rewrite at_zero in R. split; [discriminate|]. right.
        exists p, ch, q, ds. rewrite CAN. tauto.
    + split.
      * intros (-> & p & ch & q & ds & d & E & NM & R & D & X). split; [reflexivity|]. apply CAN in E.
        exists p, ch, q, ds, d. rewrite !at_zero. split; [assumption|]. split; [assumption|]. split; [assumption|]. split; [assumption|]. lia.
      * intros (EO & p & ch & q & ds & d & E & NM & R & D & X). unfold ovf in EO. destruct neg; [discriminate|]. split; [reflexivity|].
        exists p, ch, q, ds, d. rewrite at_zero in R. rewrite at_zero in X. rewrite CAN. split; [assumption|]. split; [assumption|]. split; [assumption|]. split; [assumption|].
        unfold signed_by in *. rewrite value_app in *. pose proof (value_nonneg r ds p ltac:(lia) NM). apply digit_range in D. nia.
    + split.
      * intros (-> & p & ch & q & ds & d & E & NM & R & D & X). split; [reflexivity|]. apply CAN in E.
        exists p, ch, q, ds, d. rewrite !at_zero. split; [assumption|]. split; [assumption|]. split; [assumption|]. split; [assumption|]. lia.
      * intros (EO & p & ch & q & ds & d & E & NM & R & D & X). unfold ovf in EO. destruct neg; [|discriminate]. split; [reflexivity|].
        exists p, ch, q, ds, d. rewrite at_zero in R. rewrite at_zero in X. rewrite CAN. split; [assumption|]. split; [assumption|]. split; [assumption|]. split; [assumption|].
        unfold signed_by in *. rewrite value_app in *. pose proof (value_nonneg r ds p ltac:(lia) NM). apply digit_range in D. nia.
Qed.

Lemma parse_fun_range pre s v : parse_fun pre s = Ok v -> lo <= v <= hi.
Proof.
  intros H. symmetry in H. apply reads_iff in H. unfold reads in H. destruct (sign (lo <? 0) s) as [neg body].
  destruct H as (digits & ds & _ & _ & _ & _ & R). exact R.
Qed.
End Loops.

(** ** Property lemmas *)

Definition pfx (prefix : option (list Z)) : list Z := match prefix with Some p => p | None => [] end.

Lemma parse_u_iff c s r prefix o : 2 <= r <= 36 ->
  (from_str_radix (u_helper c) s r prefix = Ret o <->
   result_ok wf_u o /\ reads false 0 MAXU r (pfx prefix) s (result_map (uval c) o)).
Proof.
  intros Hr. pose proof (u_helper_ok c) as HK. rewrite (from_str_radix_fun _ _ _ _ _ HK Hr). fold (pfx prefix).
  pose proof (reads_iff _ _ _ _ _ HK Hr (pfx prefix) s) as RI. change (0 <? 0) with false in RI. change MAXU with (2 ^ 256 - 1). rewrite RI.
  pose proof (parse_fun_range _ _ _ _ _ HK Hr (pfx prefix) s) as PR.
  split.
  - intros H. apply ret_inj in H. subst o. destruct (parse_fun 0 (2 ^ 256 - 1) r (pfx prefix) s) as [v|e]; cbn [result_map result_ok]; [|auto].
    specialize (PR v eq_refl). split; [apply wf_uof|]. f_equal. rewrite uval_uof. apply Z.mod_small. lia.
  - intros (W & E). rewrite <- E. destruct o as [x|e]; cbn [result_map result_ok] in *; [|reflexivity].
    rewrite uof_uval by assumption. reflexivity.
Qed.
Lemma parse_i_iff c s r prefix o : 2 <= r <= 36 ->
  (from_str_radix (i_helper c) s r prefix = Ret o <->
   result_ok wf_i o /\ reads true MINI MAXI r (pfx prefix) s (result_map (ival c) o)).
Proof.
  intros Hr. pose proof (i_helper_ok c) as HK. rewrite (from_str_radix_fun _ _ _ _ _ HK Hr). fold (pfx prefix).
  pose proof (reads_iff _ _ _ _ _ HK Hr (pfx prefix) s) as RI. change (- 2 ^ 255 <? 0) with true in RI. change MAXI with (2 ^ 255 - 1). change MINI with (- 2 ^ 255). rewrite RI.
  pose proof (parse_fun_range _ _ _ _ _ HK Hr (pfx prefix) s) as PR.
  split.
  - intros H. apply ret_inj in H. subst o. destruct (parse_fun (- 2 ^ 255) (2 ^ 255 - 1) r (pfx prefix) s) as [v|e]; cbn [result_map result_ok]; [|auto].
    specialize (PR v eq_refl). split; [apply wf_iof|]. f_equal. rewrite ival_iof. apply (wrap_i_small 256); change (256 - 1) with 255; lia.
  - intros (W & E). rewrite <- E. destruct o as [x|e]; cbn [result_map result_ok] in *; [|reflexivity].
    rewrite iof_ival by assumption. reflexivity.
Qed.
Lemma parse_u_total c s r prefix : 2 <= r <= 36 -> exists o, from_str_radix (u_helper c) s r prefix = Ret o.
Proof. intros Hr. eexists. apply (from_str_radix_fun _ _ _ _ _ (u_helper_ok c) Hr). Qed.
Lemma parse_i_total c s r prefix : 2 <= r <= 36 -> exists o, from_str_radix (i_helper c) s r prefix = Ret o.
Proof. intros Hr. eexists. apply (from_str_radix_fun _ _ _ _ _ (i_helper_ok c) Hr). Qed.

Lemma u_parse_radix c s r o : 2 <= r <= 36 ->
  (u_from_str_radix c s r = Ret o <-> result_ok wf_u o /\ reads false 0 MAXU r [] s (result_map (uval c) o)) /\
  (exists o', u_from_str_radix c s r = Ret o').
Proof. intros Hr. split; [apply (parse_u_iff c s r None o Hr)|apply (parse_u_total c s r None Hr)]. Qed.
Lemma i_parse_radix c s r o : 2 <= r <= 36 ->
  (i_from_str_radix c s r = Ret o <-> result_ok wf_i o /\ reads true MINI MAXI r [] s (result_map (ival c) o)) /\
  (exists o', i_from_str_radix c s r = Ret o').
Proof. intros Hr. split; [apply (parse_i_iff c s r None o Hr)|apply (parse_i_total c s r None Hr)]. Qed.
Lemma parse_bad_radix c s r : ~ (2 <= r <= 36) ->
  panics (u_from_str_radix c s r) /\ panics (i_from_str_radix c s r).
Proof.
  intros Hr. unfold u_from_str_radix, i_from_str_radix, from_str_radix, panics.
  replace (negb ((2 <=? r) && (r <=? 36))) with true by lia. split; eexists; reflexivity.
Qed.
Lemma from_str_decimal c s : u_from_str c s = u_from_str_radix c s 10 /\ i_from_str c s = i_from_str_radix c s 10.
Proof. split; reflexivity. Qed.
Lemma parse_hex c s o o' :
  (u_from_str_hex c s = Ret o <-> result_ok wf_u o /\ reads false 0 MAXU 16 [48; 120] s (result_map (uval c) o)) /\
  (i_from_str_hex c s = Ret o' <-> result_ok wf_i o' /\ reads true MINI MAXI 16 [48; 120] s (result_map (ival c) o')) /\
  (exists x, u_from_str_hex c s = Ret x) /\ (exists x, i_from_str_hex c s = Ret x).
Proof.
  split; [apply (parse_u_iff c s 16 (Some px_x) o); lia|]. split; [apply (parse_i_iff c s 16 (Some px_x) o'); lia|].
  split; [apply (parse_u_total c s 16 (Some px_x)); lia|apply (parse_i_total c s 16 (Some px_x)); lia].
Qed.

(** the outcome of reading is unique *)
Lemma reads_unique signed r pre s o o' : 2 <= r <= 36 ->
  let lo := if signed : bool then MINI else 0 in let hi := if signed then MAXI else MAXU in
  reads signed lo hi r pre s o -> reads signed lo hi r pre s o' -> o = o'.
Proof.
  intros Hr. destruct signed; cbv zeta; intros A B.
  - apply (reads_iff _ _ _ _ _ (i_helper_ok {| debug_assertions := true; overflow_checks := true; big_endian := true; usize_bits := 64; llvm := false |}) Hr) in A, B.
    congruence.
  - apply (reads_iff _ _ _ _ _ (u_helper_ok {| debug_assertions := true; overflow_checks := true; big_endian := true; usize_bits := 64; llvm := false |}) Hr) in A, B.
    congruence.
Qed.

(** ** from_str_prefixed *)

Lemma prefix_radix p q : In (p, q) radix_prefixes -> 2 <= q <= 36.
Proof. unfold radix_prefixes. cbn [In]. intros [H|[H|[H|[H|[]]]]]; inversion H; lia. Qed.

Section Prefixed.
Context {T : Type} (h : helper T) (of : Z -> T) (lo hi : Z).
Hypothesis HK : helper_ok h of lo hi.

Definition prefixed_fun (s : list Z) : result Z :=
  match parse_fun lo hi 2 px_b s with
  | Ok v => Ok v
  | Err _ => match parse_fun lo hi 8 px_o s with
             | Ok v => Ok v
             | Err _ => match parse_fun lo hi 16 px_x s with
                        | Ok v => Ok v
                        | Err _ => parse_fun lo hi 10 [] s
                        end
             end
  end.
Lemma from_str_prefixed_fun s : from_str_prefixed h s = Ret (result_map of (prefixed_fun s)).
Proof.
  unfold from_str_prefixed, or_else, prefixed_fun.
  rewrite !(from_str_radix_fun _ _ _ _ _ HK) by lia. cbn [bind].
  destruct (parse_fun lo hi 2 px_b s); cbn [result_map bind]; [reflexivity|].
  destruct (parse_fun lo hi 8 px_o s); cbn [result_map bind]; [reflexivity|].
  destruct (parse_fun lo hi 16 px_x s); cbn [result_map bind]; reflexivity.
Qed.

Lemma reads_ok_prefix r pre s v : 2 <= r <= 36 -> parse_fun lo hi r pre s = Ok v ->
  exists digits ds, snd (sign (lo <? 0) s) = pre ++ digits /\ digits <> [] /\ numeral r digits ds.
Proof.
  intros Hr H. symmetry in H. apply (reads_iff _ _ _ _ _ HK Hr) in H. unfold reads in H.
  destruct (sign (lo <? 0) s) as [neg body]. destruct H as (digits & ds & E & N & NM & _). exists digits, ds. cbn [snd]. tauto.
Qed.
(** the four grammars exclude each other *)
Lemma prefix_excl r pre r' pre' s v v' : In (pre, r) radix_prefixes -> In (pre', r') radix_prefixes ->
  parse_fun lo hi r pre s = Ok v -> parse_fun lo hi r' pre' s = Ok v' -> (pre, r) = (pre', r').
Proof.
  assert (ND : forall ds t, ~ numeral 10 (48 :: 98 :: t) ds /\ ~ numeral 10 (48 :: 111 :: t) ds /\ ~ numeral 10 (48 :: 120 :: t) ds).
  { intros ds t. assert (X : forall y, y = 98 \/ y = 111 \/ y = 120 -> ~ numeral 10 (48 :: y :: t) ds).
    { intros y Hy H. inversion H as [|? ? ? ? _ H2]; subst. inversion H2 as [|? ? ? ? D _]; subst. unfold digit in D. lia. }
    split; [apply X; auto|]. split; apply X; auto. }
  intros I1 I2 P1 P2.
  pose proof prefix_radix as RR.
  destruct (reads_ok_prefix r pre s v (RR _ _ I1) P1) as (d1 & ds1 & E1 & N1 & M1).
  destruct (reads_ok_prefix r' pre' s v' (RR _ _ I2) P2) as (d2 & ds2 & E2 & N2 & M2).
  rewrite E1 in E2. clear E1 P1 P2.
  unfold radix_prefixes in I1, I2. cbn [In] in I1, I2.
  destruct I1 as [I1|[I1|[I1|[I1|[]]]]]; destruct I2 as [I2|[I2|[I2|[I2|[]]]]]; inversion I1; inversion I2; subst; try reflexivity;
    cbn [app] in E2; try discriminate E2; subst; exfalso.
  - destruct (ND ds2 d1) as (A & B & C). contradiction.
  - destruct (ND ds2 d1) as (A & B & C). contradiction.
  - destruct (ND ds2 d1) as (A & B & C). contradiction.
  - destruct (ND ds1 d2) as (A & B & C). contradiction.
  - destruct (ND ds1 d2) as (A & B & C). contradiction.
  - destruct (ND ds1 d2) as (A & B & C). contradiction.
Qed.
Lemma prefixed_ok s v : prefixed_fun s = Ok v <-> exists pre r, In (pre, r) radix_prefixes /\ parse_fun lo hi r pre s = Ok v.
Proof.
  unfold prefixed_fun. split.
  - intros H. destruct (parse_fun lo hi 2 px_b s) eqn:E1; [exists px_b, 2; split; [left; reflexivity|congruence]|].
    destruct (parse_fun lo hi 8 px_o s) eqn:E2; [exists px_o, 8; split; [right; left; reflexivity|congruence]|].
    destruct (parse_fun lo hi 16 px_x s) eqn:E3; [exists px_x, 16; split; [right; right; left; reflexivity|congruence]|].
    exists [], 10. split; [right; right; right; left; reflexivity|assumption].
  - intros (pre & r & I & P).
    assert (X : forall q p w, In (q, p) radix_prefixes -> parse_fun lo hi p q s = Ok w -> w = v).
    { intros q p w I' P'. pose proof (prefix_excl _ _ _ _ _ _ _ I I' P P') as E. inversion E; subst. congruence. }
    destruct (parse_fun lo hi 2 px_b s) eqn:E1; [f_equal; apply (X px_b 2); [left; reflexivity|assumption]|].
    destruct (parse_fun lo hi 8 px_o s) eqn:E2; [f_equal; apply (X px_o 8); [right; left; reflexivity|assumption]|].
    destruct (parse_fun lo hi 16 px_x s) eqn:E3; [f_equal; apply (X px_x 16); [right; right; left; reflexivity|assumption]|].
    unfold radix_prefixes in I. cbn [In] in I. destruct I as [I|[I|[I|[I|[]]]]]; inversion I; subst; unfold px_b, px_o, px_x in *; congruence.
Qed.
End Prefixed.

Lemma u_prefixed_ok c s x :
  (u_from_str_prefixed c s = Ret (Ok x) <->
   wf_u x /\ exists pre r, In (pre, r) radix_prefixes /\ reads false 0 MAXU r pre s (Ok (uval c x))) /\
  (exists o, u_from_str_prefixed c s = Ret o).
Proof.
  pose proof (u_helper_ok c) as HK. unfold u_from_str_prefixed. rewrite (from_str_prefixed_fun _ _ _ _ HK).
  split; [|eexists; reflexivity].
  pose proof prefix_radix as RR.
  split.
  - intros H. apply ret_inj in H. destruct (prefixed_fun 0 (2 ^ 256 - 1) s) as [v|] eqn:E; cbn [result_map] in H; [|discriminate].
    inversion H; subst x. apply (prefixed_ok _ _ _ _ HK) in E. destruct E as (pre & r & I & P).
    split; [apply wf_uof|]. exists pre, r. split; [assumption|].
    apply (reads_iff _ _ _ _ _ HK (RR _ _ I)). rewrite P, uval_uof. f_equal. apply Z.mod_small.
    pose proof (parse_fun_range _ _ _ _ _ HK (RR _ _ I) _ _ _ P). lia.
  - intros (W & pre & r & I & R). apply (reads_iff _ _ _ _ _ HK (RR _ _ I)) in R.
    assert (E : prefixed_fun 0 (2 ^ 256 - 1) s = Ok (uval c x)) by (apply (prefixed_ok _ _ _ _ HK); exists pre, r; split; congruence).
    rewrite E. cbn [result_map]. rewrite uof_uval by assumption. reflexivity.
Qed.
Lemma i_prefixed_ok c s x :
  (i_from_str_prefixed c s = Ret (Ok x) <->
   wf_i x /\ exists pre r, In (pre, r) radix_prefixes /\ reads true MINI MAXI r pre s (Ok (ival c x))) /\
  (exists o, i_from_str_prefixed c s = Ret o).
Proof.
  pose proof (i_helper_ok c) as HK. unfold i_from_str_prefixed. rewrite (from_str_prefixed_fun _ _ _ _ HK).
  split; [|eexists; reflexivity].
  pose proof prefix_radix as RR.
  split.
  - intros H. apply ret_inj in H. destruct (prefixed_fun (- 2 ^ 255) (2 ^ 255 - 1) s) as [v|] eqn:E; cbn [result_map] in H; [|discriminate].
    inversion H; subst x. apply (prefixed_ok _ _ _ _ HK) in E. destruct E as (pre & r & I & P).
    split; [apply wf_iof|]. exists pre, r. split; [assumption|].
    apply (reads_iff _ _ _ _ _ HK (RR _ _ I)). rewrite P, ival_iof. f_equal.
    pose proof (parse_fun_range _ _ _ _ _ HK (RR _ _ I) _ _ _ P). apply (wrap_i_small 256); change (256 - 1) with 255; lia.
  - intros (W & pre & r & I & R). apply (reads_iff _ _ _ _ _ HK (RR _ _ I)) in R.
    assert (E : prefixed_fun (- 2 ^ 255) (2 ^ 255 - 1) s = Ok (ival c x)) by (apply (prefixed_ok _ _ _ _ HK); exists pre, r; split; congruence).
    rewrite E. cbn [result_map]. rewrite iof_ival by assumption. reflexivity.
Qed.
Lemma r10 : 2 <= 10 <= 36. Proof. lia. Qed.
(** when reading fails the error is the one of decimal reading *)
Lemma prefixed_error c s e e' :
  (u_from_str_prefixed c s = Ret (Err e) -> reads false 0 MAXU 10 [] s (Err e)) /\
  (i_from_str_prefixed c s = Ret (Err e') -> reads true MINI MAXI 10 [] s (Err e')).
Proof.
  unfold u_from_str_prefixed, i_from_str_prefixed.
  rewrite (from_str_prefixed_fun _ _ _ _ (u_helper_ok c)), (from_str_prefixed_fun _ _ _ _ (i_helper_ok c)).
  split; intros H; apply ret_inj in H.
  - assert (E : prefixed_fun 0 (2 ^ 256 - 1) s = Err e) by (destruct (prefixed_fun 0 (2 ^ 256 - 1) s); inversion H; reflexivity).
    apply (reads_iff _ _ _ _ _ (u_helper_ok c) r10). unfold prefixed_fun in E.
    destruct (parse_fun 0 (2 ^ 256 - 1) 2 px_b s); [discriminate|]. destruct (parse_fun 0 (2 ^ 256 - 1) 8 px_o s); [discriminate|].
    destruct (parse_fun 0 (2 ^ 256 - 1) 16 px_x s); [discriminate|]. congruence.
  - assert (E : prefixed_fun (- 2 ^ 255) (2 ^ 255 - 1) s = Err e') by (destruct (prefixed_fun (- 2 ^ 255) (2 ^ 255 - 1) s); inversion H; reflexivity).
    apply (reads_iff _ _ _ _ _ (i_helper_ok c) r10). unfold prefixed_fun in E.
    destruct (parse_fun (- 2 ^ 255) (2 ^ 255 - 1) 2 px_b s); [discriminate|]. destruct (parse_fun (- 2 ^ 255) (2 ^ 255 - 1) 8 px_o s); [discriminate|].
    destruct (parse_fun (- 2 ^ 255) (2 ^ 255 - 1) 16 px_x s); [discriminate|]. congruence.
Qed.
(** so for a prefixed text it is always InvalidDigit *)
Lemma prefixed_error_kind c s e :
  (exists ch t, In ch [98; 111; 120] /\ snd (sign false s) = 48 :: ch :: t) ->
  u_from_str_prefixed c s = Ret (Err e) -> e = InvalidDigit.
Proof.
  intros (ch & t & Hc & Es) H. apply (prefixed_error c s e e) in H.
  apply (reads_iff _ _ _ _ _ (u_helper_ok c) r10) in H. symmetry in H. unfold parse_fun in H. change (0 <? 0) with false in H.
  destruct s as [|b s']; [discriminate|]. destruct (sign false (b :: s')) as [neg body]. cbn [snd] in Es. subst body.
  cbn [strip_prefix] in H. cbn [scan] in H. change (to_digit 48 10) with (Some 0) in H. cbv zeta in H.
  assert (E : to_digit ch 10 = None) by (cbn [In] in Hc; destruct Hc as [<-|[<-|[<-|[]]]]; reflexivity).
  rewrite E in H. destruct neg; vm_compute in H; congruence.
Qed.
Lemma prefixed_error_kind_i c s e :
  (exists ch t, In ch [98; 111; 120] /\ snd (sign true s) = 48 :: ch :: t) ->
  i_from_str_prefixed c s = Ret (Err e) -> e = InvalidDigit.
Proof.
  intros (ch & t & Hc & Es) H. apply (prefixed_error c s e e) in H.
  apply (reads_iff _ _ _ _ _ (i_helper_ok c) r10) in H. symmetry in H. unfold parse_fun in H. change (- 2 ^ 255 <? 0) with true in H.
  destruct s as [|b s']; [discriminate|]. destruct (sign true (b :: s')) as [neg body]. cbn [snd] in Es. subst body.
  cbn [strip_prefix] in H. cbn [scan] in H. change (to_digit 48 10) with (Some 0) in H. cbv zeta in H.
  assert (E : to_digit ch 10 = None) by (cbn [In] in Hc; destruct Hc as [<-|[<-|[<-|[]]]]; reflexivity).
  rewrite E in H. destruct neg; vm_compute in H; congruence.
Qed.
(** the witness: 0x followed by 65 times f *)
Lemma prefixed_error_witness c :
  let s := [48; 120] ++ repeat 102 65 in
  u_from_str_prefixed c s = Ret (Err InvalidDigit) /\ u_from_str_hex c s = Ret (Err PosOverflow) /\
  i_from_str_prefixed c (45 :: s) = Ret (Err InvalidDigit) /\ i_from_str_hex c (45 :: s) = Ret (Err NegOverflow) /\
  reads false 0 MAXU 16 [48; 120] s (Err PosOverflow) /\ ~ reads false 0 MAXU 16 [48; 120] s (Err InvalidDigit).
Proof.
  cbv zeta. set (s := [48; 120] ++ repeat 102 65).
  assert (U : parse_fun 0 (2 ^ 256 - 1) 16 px_x s = Err PosOverflow) by (vm_compute; reflexivity).
  assert (r16 : 2 <= 16 <= 36) by lia.
  split; [|split; [|split; [|split; [|split]]]].
  - unfold u_from_str_prefixed. rewrite (from_str_prefixed_fun _ _ _ _ (u_helper_ok c)).
    replace (prefixed_fun 0 (2 ^ 256 - 1) s) with (@Err Z InvalidDigit) by (vm_compute; reflexivity). reflexivity.
  - unfold u_from_str_hex. rewrite (from_str_radix_fun _ _ _ _ _ (u_helper_ok c) r16). rewrite U. reflexivity.
  - unfold i_from_str_prefixed. rewrite (from_str_prefixed_fun _ _ _ _ (i_helper_ok c)).
    replace (prefixed_fun (- 2 ^ 255) (2 ^ 255 - 1) (45 :: s)) with (@Err Z InvalidDigit) by (vm_compute; reflexivity). reflexivity.
  - unfold i_from_str_hex. rewrite (from_str_radix_fun _ _ _ _ _ (i_helper_ok c) r16).
    replace (parse_fun (- 2 ^ 255) (2 ^ 255 - 1) 16 px_x (45 :: s)) with (@Err Z NegOverflow) by (vm_compute; reflexivity). reflexivity.
  - apply (reads_iff _ _ _ _ _ (u_helper_ok c) r16). symmetry. exact U.
  - intros H. apply (reads_iff _ _ _ _ _ (u_helper_ok c) r16) in H. change [48; 120] with px_x in H. rewrite U in H. discriminate.
Qed.

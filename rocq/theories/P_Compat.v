(** * Compatibility of the text formats with each other and between the two types *)

From Coq Require Import ZArith String List Bool Lia.
Import ListNotations.
From Verif Require Import M_Prim M_Words M_Fmt M_Parse M_Serde Spec Spec_Convert Spec_Parse Spec_Fmt Spec_Serde Spec_Compat
  P_Words P_Parse P_Fmt P_Serde.
Open Scope Z_scope.

(** ** Reading as U256 and as I256 *)

Lemma not_digit45 r d : ~ digit r 45 d. Proof. unfold digit. lia. Qed.
Lemma unsigned_no_minus lo hi r pre s v : (pre = [] \/ hd 0 pre = 48) -> reads false lo hi r pre s (Ok v) -> hd 0 s <> 45.
Proof.
  intros HP H E. destruct s as [|b t]; [discriminate|]. cbn [hd] in E. subst b. unfold reads in H. cbn [sign Z.eqb andb Pos.eqb] in H.
  destruct H as (digits & ds & B & N & M & _). destruct pre as [|p pre].
  - cbn [app] in B. subst digits. inversion M; subst. eapply not_digit45. eassumption.
  - destruct HP as [?|HP]; [discriminate|]. cbn [hd] in HP. cbn [app] in B. congruence.
Qed.
Lemma sign_same s : hd 0 s <> 45 -> sign true s = sign false s /\ fst (sign true s) = false.
Proof.
  destruct s as [|b t]; [split; reflexivity|]. cbn [hd sign]. intros H. destruct (b =? 43); [split; reflexivity|].
  destruct (Z.eqb_spec b 45); [contradiction|]. split; reflexivity.
Qed.
Lemma reads_signed r pre s v : (pre = [] \/ hd 0 pre = 48) -> reads false 0 MAXU r pre s (Ok v) -> v <= MAXI -> reads true MINI MAXI r pre s (Ok v).
Proof.
  intros HP H L. pose proof (unsigned_no_minus _ _ _ _ _ _ HP H) as N. destruct (sign_same s N) as [E F].
  unfold reads in *. rewrite E. destruct (sign false s) as [neg body]. destruct H as (digits & ds & B & D & M & V & R).
  exists digits, ds. repeat (split; [assumption|]). unfold MINI. lia.
Qed.
Lemma reads_unsigned r pre s v : 2 <= r -> hd 0 s <> 45 -> reads true MINI MAXI r pre s (Ok v) -> reads false 0 MAXU r pre s (Ok v).
Proof.
  intros Hr N H. destruct (sign_same s N) as [E F]. unfold reads in *. rewrite E in *. destruct (sign false s) as [neg body].
  cbn [fst] in F. subst neg. destruct H as (digits & ds & B & D & M & V & R). exists digits, ds. repeat (split; [assumption|]).
  pose proof (value_nonneg r ds digits ltac:(lia) M). cbn [signed_by] in V. unfold MAXU, MAXI in *. lia.
Qed.
Lemma reads_agree r pre s v w : 2 <= r <= 36 -> (pre = [] \/ hd 0 pre = 48) ->
  reads false 0 MAXU r pre s (Ok v) -> reads true MINI MAXI r pre s (Ok w) -> v = w.
Proof.
  intros Hr HP HV HW. pose proof (unsigned_no_minus _ _ _ _ _ _ HP HV) as N.
  pose proof (reads_unsigned r pre s w ltac:(lia) N HW) as HW'.
  pose proof (reads_unique false r pre s (Ok v) (Ok w) Hr HV HW'). congruence.
Qed.
Lemma prefix_hd pre r : In (pre, r) radix_prefixes -> pre = [] \/ hd 0 pre = 48.
Proof. cbn. intuition (injection H0 as <- <- || injection H as <- <-; auto). Qed.

Lemma u_exists c (P : Z -> Prop) : forall v, 0 <= v <= MAXU -> P v -> exists x, wf_u x /\ P (uval c x).
Proof. intros v Hv HP. exists (uof c v). split; [apply wf_uof|]. rewrite uval_uof, Z.mod_small by (unfold MAXU in *; lia). exact HP. Qed.
Lemma i_exists c (P : Z -> Prop) : forall v, MINI <= v <= MAXI -> P v -> exists x, wf_i x /\ P (ival c x).
Proof. intros v Hv HP. exists (iof c v). split; [apply wf_iof|]. rewrite ival_iof, wrap_i_small by (unfold MINI, MAXI in *; lia). exact HP. Qed.
Lemma reads_range sg lo hi r pre s v : reads sg lo hi r pre s (Ok v) -> lo <= v <= hi.
Proof. unfold reads. destruct (sign sg s). intros (digits & ds & B & D & M & V & R). exact R. Qed.

Lemma types_radix c s r : 2 <= r <= 36 ->
  exists ru ri, u_from_str_radix c s r = Ret ru /\ i_from_str_radix c s r = Ret ri /\ both c ru ri s.
Proof.
  intros Hr. destruct (proj2 (u_parse_radix c s r (Err Empty) Hr)) as [ru EU]. destruct (proj2 (i_parse_radix c s r (Err Empty) Hr)) as [ri EI].
  exists ru, ri. split; [exact EU|]. split; [exact EI|].
  apply (proj1 (u_parse_radix c s r ru Hr)) in EU as PU. apply (proj1 (i_parse_radix c s r ri Hr)) in EI as PI.
  split; [|split].
  - intros x y -> ->. cbn [result_map] in *. eapply reads_agree; [exact Hr|left; reflexivity|apply PU|apply PI].
  - intros x -> L. cbn [result_map] in *. destruct PU as [_ PU]. pose proof (reads_signed r [] s _ (or_introl eq_refl) PU L) as R.
    destruct (i_exists c (fun v => reads true MINI MAXI r [] s (Ok v)) _ (reads_range _ _ _ _ _ _ _ R) R) as (y & Wy & Ry).
    exists y. assert (E : i_from_str_radix c s r = Ret (Ok y)) by (apply (proj1 (i_parse_radix c s r (Ok y) Hr)); split; assumption). congruence.
  - intros y -> N. cbn [result_map] in *. destruct PI as [_ PI]. pose proof (reads_unsigned r [] s _ ltac:(lia) N PI) as R.
    destruct (u_exists c (fun v => reads false 0 MAXU r [] s (Ok v)) _ (reads_range _ _ _ _ _ _ _ R) R) as (x & Wx & Rx).
    exists x. assert (E : u_from_str_radix c s r = Ret (Ok x)) by (apply (proj1 (u_parse_radix c s r (Ok x) Hr)); split; assumption). congruence.
Qed.
Lemma types_prefixed c s :
  exists ru ri, u_from_str_prefixed c s = Ret ru /\ i_from_str_prefixed c s = Ret ri /\ both c ru ri s.
Proof.
  destruct (proj2 (u_prefixed_ok c s (uof c 0))) as [ru EU]. destruct (proj2 (i_prefixed_ok c s (iof c 0))) as [ri EI].
  exists ru, ri. split; [exact EU|]. split; [exact EI|].
  assert (SG : forall x pre r, wf_u x -> In (pre, r) radix_prefixes -> reads false 0 MAXU r pre s (Ok (uval c x)) -> uval c x <= MAXI ->
    exists y, ival c y = uval c x /\ i_from_str_prefixed c s = Ret (Ok y)).
  { intros x pre r Wx I R L. pose proof (reads_signed r pre s _ (prefix_hd _ _ I) R L) as R'.
    pose proof (reads_range _ _ _ _ _ _ _ R') as RG. exists (iof c (uval c x)).
    assert (V : ival c (iof c (uval c x)) = uval c x) by (rewrite ival_iof, wrap_i_small by (unfold MINI, MAXI in *; lia); reflexivity).
    split; [exact V|]. apply (proj1 (i_prefixed_ok c s _)). split; [apply wf_iof|]. exists pre, r. rewrite V. split; assumption. }
  assert (US : forall y pre r, wf_i y -> In (pre, r) radix_prefixes -> reads true MINI MAXI r pre s (Ok (ival c y)) -> hd 0 s <> 45 ->
    exists x, uval c x = ival c y /\ u_from_str_prefixed c s = Ret (Ok x)).
  { intros y pre r Wy I R N. pose proof (prefix_radix pre r I). pose proof (reads_unsigned r pre s _ ltac:(lia) N R) as R'.
    pose proof (reads_range _ _ _ _ _ _ _ R') as RG. exists (uof c (ival c y)).
    assert (V : uval c (uof c (ival c y)) = ival c y) by (rewrite uval_uof, Z.mod_small by (unfold MAXU in *; lia); reflexivity).
    split; [exact V|]. apply (proj1 (u_prefixed_ok c s _)). split; [apply wf_uof|]. exists pre, r. rewrite V. split; assumption. }
  split; [|split].
  - intros x y -> ->. apply (proj1 (u_prefixed_ok c s x)) in EU as (Wx & pre & r & I & R).
    apply (proj1 (i_prefixed_ok c s y)) in EI as (Wy & pre' & r' & I' & R').
    pose proof (unsigned_no_minus _ _ _ _ _ _ (prefix_hd _ _ I) R) as N.
    destruct (US y pre' r' Wy I' R' N) as (x' & V & E).
    assert (E' : u_from_str_prefixed c s = Ret (Ok x)) by (apply (proj1 (u_prefixed_ok c s x)); split; [assumption|]; exists pre, r; split; assumption).
    rewrite E in E'. injection E' as ->. exact V.
  - intros x -> L. apply (proj1 (u_prefixed_ok c s x)) in EU as (Wx & pre & r & I & R).
    destruct (SG x pre r Wx I R L) as (y & _ & E). exists y. congruence.
  - intros y -> N. apply (proj1 (i_prefixed_ok c s y)) in EI as (Wy & pre & r & I & R).
    destruct (US y pre r Wy I R N) as (x & _ & E). exists x. congruence.
Qed.
Lemma types_hex c s :
  exists ru ri, u_from_str_hex c s = Ret ru /\ i_from_str_hex c s = Ret ri /\ both c ru ri s.
Proof.
  pose proof (fun o o' => parse_hex c s o o') as PH. destruct (PH (Err Empty) (Err Empty)) as (_ & _ & [ru EU] & [ri EI]).
  assert (PU : forall o, u_from_str_hex c s = Ret o <-> result_ok wf_u o /\ reads false 0 MAXU 16 [48; 120] s (result_map (uval c) o)) by (intros o; apply (PH o (Err Empty))).
  assert (PI : forall o, i_from_str_hex c s = Ret o <-> result_ok wf_i o /\ reads true MINI MAXI 16 [48; 120] s (result_map (ival c) o)) by (intros o; apply (PH (Err Empty) o)).
  exists ru, ri. split; [exact EU|]. split; [exact EI|].
  apply PU in EU as QU. apply PI in EI as QI. assert (HP : [48; 120] = [] \/ hd 0 [48; 120] = 48) by (right; reflexivity).
  split; [|split].
  - intros x y -> ->. cbn [result_map] in *. eapply reads_agree; [|exact HP|apply QU|apply QI]. lia.
  - intros x -> L. cbn [result_map] in *. destruct QU as [_ QU]. pose proof (reads_signed 16 _ s _ HP QU L) as R.
    destruct (i_exists c (fun v => reads true MINI MAXI 16 [48; 120] s (Ok v)) _ (reads_range _ _ _ _ _ _ _ R) R) as (y & Wy & Ry).
    exists y. assert (E : i_from_str_hex c s = Ret (Ok y)) by (apply PI; split; assumption). congruence.
  - intros y -> N. cbn [result_map] in *. destruct QI as [_ QI]. pose proof (reads_unsigned 16 _ s _ ltac:(lia) N QI) as R.
    destruct (u_exists c (fun v => reads false 0 MAXU 16 [48; 120] s (Ok v)) _ (reads_range _ _ _ _ _ _ _ R) R) as (x & Wx & Rx).
    exists x. assert (E : u_from_str_hex c s = Ret (Ok x)) by (apply PU; split; assumption). congruence.
Qed.

(** ** The prefixed format reads what the others read *)

Lemma formats_agree c s x y :
  (u_from_str_hex c s = Ret (Ok x) -> u_from_str_prefixed c s = Ret (Ok x)) /\
  (u_from_str_radix c s 10 = Ret (Ok x) -> u_from_str_prefixed c s = Ret (Ok x)) /\
  (i_from_str_hex c s = Ret (Ok y) -> i_from_str_prefixed c s = Ret (Ok y)) /\
  (i_from_str_radix c s 10 = Ret (Ok y) -> i_from_str_prefixed c s = Ret (Ok y)).
Proof.
  destruct (parse_hex c s (Ok x) (Ok y)) as (PU & PI & _).
  split; [|split; [|split]]; intros H.
  - apply PU in H as [W R]. apply u_prefixed_ok. split; [exact W|]. exists [48; 120], 16. split; [cbn; tauto|exact R].
  - apply (proj1 (u_parse_radix c s 10 (Ok x) r10)) in H as [W R]. apply u_prefixed_ok. split; [exact W|]. exists [], 10. split; [cbn; tauto|exact R].
  - apply PI in H as [W R]. apply i_prefixed_ok. split; [exact W|]. exists [48; 120], 16. split; [cbn; tauto|exact R].
  - apply (proj1 (i_parse_radix c s 10 (Ok y) r10)) in H as [W R]. apply i_prefixed_ok. split; [exact W|]. exists [], 10. split; [cbn; tauto|exact R].
Qed.
(** hexadecimal and decimal texts are disjoint *)
Lemma formats_disjoint c s x x' y y' :
  ~ (u_from_str_hex c s = Ret (Ok x) /\ u_from_str_radix c s 10 = Ret (Ok x')) /\
  ~ (i_from_str_hex c s = Ret (Ok y) /\ i_from_str_radix c s 10 = Ret (Ok y')).
Proof.
  destruct (parse_hex c s (Ok x) (Ok y)) as (PU & PI & _).
  assert (D : forall sg lo hi v w, reads sg lo hi 16 [48; 120] s (Ok v) -> reads sg lo hi 10 [] s (Ok w) -> False).
  { intros sg lo hi v w. unfold reads. destruct (sign sg s) as [neg body].
    intros (digits & ds & -> & _) (digits' & ds' & B & N & M & _). cbn [app] in B. subst digits'.
    inversion M as [|? ? ? ? ? M']; subst. inversion M' as [|? ? ? ? Q]; subst. unfold digit in Q. lia. }
  split; intros [H1 H2].
  - apply PU in H1 as [_ H1]. apply (proj1 (u_parse_radix c s 10 (Ok x') r10)) in H2 as [_ H2]. exact (D _ _ _ _ _ H1 H2).
  - apply PI in H1 as [_ H1]. apply (proj1 (i_parse_radix c s 10 (Ok y') r10)) in H2 as [_ H2]. exact (D _ _ _ _ _ H1 H2).
Qed.

(** ** What one type and format writes, the other types and formats read *)

Lemma u_written c x t : usize_ok c -> wf_u x -> u_serialize c x = Ret t \/ u_serialize_decimal c x = Ret t ->
  u_permissive_visit_str c t = Ret (DOk x) /\ format_visit_str (u_de_prefixed c) t = Ret (DOk x) /\
  (uval c x <= MAXI -> i_permissive_visit_str c t = Ret (DOk (iof c (uval c x))) /\
                       format_visit_str (i_de_prefixed c) t = Ret (DOk (iof c (uval c x)))) /\
  (MAXI < uval c x -> exists e, i_permissive_visit_str c t = Ret (DErr e) /\ format_visit_str (i_de_prefixed c) t = Ret (DErr e)).
Proof.
  intros U Hx HT.
  assert (P : u_from_str_prefixed c t = Ret (Ok x)).
  { destruct (u_text c x U Hx) as (s & d & _ & _ & E1 & _ & _ & E2 & _ & R1 & _ & R2).
    destruct HT as [E|E]; rewrite E in *.
    - injection E1 as ->. apply visit_str_ok in R1. exact R1.
    - injection E2 as ->. apply visit_str_ok in R2. apply (formats_agree c d x (iof c 0)). exact R2. }
  destruct (types_prefixed c t) as (ru & ri & EU & EI & A & B & C). rewrite P in EU. injection EU as <-.
  unfold u_permissive_visit_str, i_permissive_visit_str. rewrite visit_str_ok. split; [exact P|]. split; [exact P|].
  assert (W : forall y, ri = Ok y -> wf_i y).
  { intros y ->. apply i_prefixed_ok in EI. tauto. }
  split; intros L.
  - destruct (B x eq_refl L) as [y ->]. rewrite !visit_str_ok. unfold i_de_prefixed. rewrite EI.
    rewrite (A x y eq_refl eq_refl), iof_ival by (apply W; reflexivity). split; reflexivity.
  - unfold format_visit_str, i_de_prefixed. rewrite EI. cbn [bind]. destruct ri as [y|e]; [exfalso|eexists; split; reflexivity].
    pose proof (A x y eq_refl eq_refl). pose proof (ival_range c y (W y eq_refl)). unfold MAXI in *. lia.
Qed.
Lemma i_written c x t : usize_ok c -> wf_i x -> i_serialize c x = Ret t \/ i_serialize_decimal c x = Ret t ->
  i_permissive_visit_str c t = Ret (DOk x) /\ format_visit_str (i_de_prefixed c) t = Ret (DOk x) /\
  (0 <= ival c x -> u_permissive_visit_str c t = Ret (DOk (uof c (ival c x))) /\
                    format_visit_str (u_de_prefixed c) t = Ret (DOk (uof c (ival c x)))) /\
  (ival c x < 0 -> u_permissive_visit_str c t = Ret (DErr (ParseFailed InvalidDigit)) /\
                   format_visit_str (u_de_prefixed c) t = Ret (DErr (ParseFailed InvalidDigit))).
Proof.
  intros U Hx HT.
  assert (HD : (0 <= ival c x -> hd 0 t <> 45) /\ (ival c x < 0 -> hd 0 t = 45) /\ i_from_str_prefixed c t = Ret (Ok x)).
  { destruct (i_text c x U Hx) as (s & d & _ & CD & E1 & _ & _ & E2 & _ & R1 & _ & R2).
    apply visit_str_ok in R1, R2. set (sg := if ival c x <? 0 then [45] else []) in *.
    destruct HT as [E|E]; rewrite E in *.
    - injection E1 as ->. unfold sg. split; [|split; [|exact R1]]; intros L; destruct (Z.ltb_spec (ival c x) 0); try lia; cbn; lia.
    - injection E2 as ->. split; [|split; [|apply (formats_agree c _ (uof c 0) x); exact R2]]; intros L; unfold sg; destruct (Z.ltb_spec (ival c x) 0); try lia.
      + cbn [app]. destruct (canonical_numeral false 10 _ d 0 r10 CD) as (ds & N & _ & NE). cbn [repeat app] in N, NE.
        apply (numeral_hd 10 d ds r10 N NE).
      + reflexivity. }
  destruct HD as (H0 & H1 & P).
  destruct (types_prefixed c t) as (ru & ri & EU & EI & A & B & C). rewrite P in EI. injection EI as <-.
  unfold u_permissive_visit_str, i_permissive_visit_str. rewrite visit_str_ok. split; [exact P|]. split; [exact P|].
  assert (W : forall y, ru = Ok y -> wf_u y).
  { intros y ->. apply u_prefixed_ok in EU. tauto. }
  split; intros L.
  - destruct (C x eq_refl (H0 L)) as [y ->]. rewrite !visit_str_ok. unfold u_de_prefixed. rewrite EU.
    rewrite <- (A y x eq_refl eq_refl), uof_uval by (apply W; reflexivity). split; reflexivity.
  - specialize (H1 L). unfold format_visit_str, u_de_prefixed. rewrite EU. cbn [bind]. destruct ru as [y|e].
    + exfalso. apply u_prefixed_ok in EU as (_ & pre & r & I & R). exact (unsigned_no_minus _ _ _ _ _ _ (prefix_hd _ _ I) R H1).
    + apply (proj1 (prefixed_error c t e Empty)) in EU. destruct t as [|b q]; [discriminate|]. cbn [hd] in H1. subst b.
      assert (Q : reads false 0 MAXU 10 [] (45 :: q) (Err InvalidDigit)).
      { unfold reads. cbn [sign Z.eqb Pos.eqb andb]. split; [discriminate|]. right. exists [], 45, q, [].
        split; [reflexivity|]. split; [constructor|]. split; [cbn; unfold MAXU; lia|]. apply not_digit45. }
      pose proof (reads_unique false 10 [] (45 :: q) (Err e) (Err InvalidDigit) r10 EU Q) as X. injection X as ->. split; reflexivity.
Qed.

(** * Serialization: proofs *)

From Coq Require Import ZArith String List Bool Lia.
From Verif Require Import M_Prim M_Words M_Intr M_Ops M_UintApi M_IntApi M_Convert M_Float M_Parse M_Fmt M_Serde
  Spec Spec_Bits Spec_Convert Spec_Float Spec_Parse Spec_Fmt Spec_Serde
  P_Words P_AddSub P_Bits P_Mul P_Ops P_Forms P_Count P_Bytes P_Convert P_Float P_Round P_Parse P_Fmt.
Import ListNotations.
Open Scope Z_scope.

(** ** Buffers filled from the front *)

Definition filled (w : list Z) (n : nat) : buffer := map Some w ++ uninit n.
Lemma filled_length w n : length (filled w n) = (length w + n)%nat.
Proof. unfold filled, uninit. rewrite app_length, map_length, repeat_length. reflexivity. Qed.
Lemma skipn_repeat {A} (a : A) n k : skipn k (repeat a n) = repeat a (n - k).
Proof. revert n. induction k; intros [|n]; cbn; auto. Qed.
Lemma filled_write w n s : (length s <= n)%nat -> buf_write (filled w n) (Z.of_nat (length w)) s = Ret (filled (w ++ s) (n - length s)).
Proof.
  intros H. unfold buf_write. rewrite filled_length.
  replace ((0 <=? Z.of_nat (length w)) && (Z.of_nat (length w) + Z.of_nat (length s) <=? Z.of_nat (length w + n))) with true by lia.
  rewrite Nat2Z.id. f_equal. unfold filled, uninit. rewrite firstn_app, map_length, Nat.sub_diag, firstn_O, app_nil_r.
  rewrite firstn_all2 by (rewrite map_length; lia). rewrite map_app, <- app_assoc. do 2 f_equal.
  rewrite skipn_app, map_length. rewrite (skipn_all2 (map Some w)) by (rewrite map_length; lia). cbn [app].
  rewrite skipn_repeat. f_equal. lia.
Qed.
Lemma all_init_some w : all_init (map Some w) = Some w.
Proof. induction w as [|a w IH]; cbn; [reflexivity|]. rewrite IH. reflexivity. Qed.
Lemma filled_read w n : buf_read (filled w n) 0 (Z.of_nat (length w)) = Ret w.
Proof.
  unfold buf_read. rewrite filled_length. replace ((0 <=? 0) && (0 <=? Z.of_nat (length w)) && (0 + Z.of_nat (length w) <=? Z.of_nat (length w + n))) with true by lia.
  cbn [Z.to_nat skipn]. rewrite Nat2Z.id. unfold filled. rewrite firstn_app, map_length, Nat.sub_diag, firstn_O, app_nil_r.
  rewrite firstn_all2 by (rewrite map_length; lia). rewrite all_init_some. reflexivity.
Qed.

Lemma write_all_of c w n texts : Z.of_nat (length w + n) < 2 ^ usize_bits c -> (length (concat texts) <= n)%nat ->
  fb_write_all c (mkFB (Z.of_nat (length w)) (filled w n)) texts =
  Ret (Some (mkFB (Z.of_nat (length (w ++ concat texts))) (filled (w ++ concat texts) (n - length (concat texts))))).
Proof.
  revert w n. induction texts as [|s texts IH]; intros w n HU HN; cbn [fb_write_all concat].
  - rewrite app_nil_r. cbn [length]. rewrite Nat.sub_0_r. reflexivity.
  - cbn [concat] in HN. rewrite app_length in HN. unfold fb_write_str. cbn [fb_offset fb_buffer].
    rewrite filled_length. replace (2 ^ usize_bits c <=? Z.of_nat (length w) + Z.of_nat (length s)) with false by lia.
    replace (Z.of_nat (length w + n) <? Z.of_nat (length w) + Z.of_nat (length s)) with false by lia.
    rewrite filled_write by lia. cbn [bind].
    replace (Z.of_nat (length w) + Z.of_nat (length s)) with (Z.of_nat (length (w ++ s))) by (rewrite app_length; lia).
    rewrite IH by (rewrite ?app_length; lia). rewrite <- app_assoc. do 3 f_equal. f_equal. rewrite app_length. lia.
Qed.

Lemma write_expect_of c n msg r out : usize_ok c -> (n <= 78)%nat -> (length out <= n)%nat -> to_string r = Ret out ->
  write_expect c (fb_new n) msg r = Ret out.
Proof.
  intros U Hn HO E. unfold to_string, res_map in E. destruct r as [texts| | |]; try discriminate. apply ret_inj in E. subst out.
  unfold write_expect, fb_new. cbn [bind].
  assert (HU : Z.of_nat n < 2 ^ usize_bits c) by (destruct U as [<-|[<-|[<-|[]]]]; lia).
  pose proof (write_all_of c [] n texts HU HO) as W. cbn [length app Z.of_nat] in W. unfold filled at 1 in W. cbn [map app] in W. rewrite W. cbn [bind].
  unfold fb_as_str. cbn [fb_buffer fb_offset]. apply filled_read.
Qed.

(** ** Texts *)

Lemma canonical_length up r v s k : 2 <= r -> canonical up r v s -> v < r ^ Z.of_nat k -> (1 <= k)%nat -> (length s <= k)%nat.
Proof.
  intros Hr (ds & -> & D & V & N & Z0) HV Hk. rewrite map_length. destruct ds as [|d ds]; [congruence|]. cbn [hd] in Z0.
  destruct (Z.eq_dec d 0) as [->|Nd].
  - specialize (Z0 eq_refl). inversion Z0; subst. cbn [length]. lia.
  - pose proof (value_lead r d ds Hr D Nd) as L. destruct (Nat.leb_spec (length (d :: ds)) k) as [|G]; [assumption|exfalso]. cbn [length] in G.
    assert (r ^ Z.of_nat k <= r ^ Z.of_nat (length ds)) by (apply Z.pow_le_mono_r; lia). lia.
Qed.

Lemma ascii_valid l : Forall (fun b => b < 128) l -> utf8_valid l = true.
Proof. induction 1 as [|b l H1 H2 IH]; cbn [utf8_valid]; [reflexivity|]. replace (b <? 128) with true by lia. exact IH. Qed.
Lemma digit_ascii r ch d : digit r ch d -> ch < 128.
Proof. unfold digit. lia. Qed.
Lemma reads_ascii signed lo hi r pre s x : Forall (fun b => b < 128) pre -> reads signed lo hi r pre s (Ok x) -> Forall (fun b => b < 128) s.
Proof.
  intros HP R. unfold reads in R. destruct (sign signed s) as [neg body] eqn:ES. destruct R as (digits & ds & -> & _ & N & _).
  assert (HB : Forall (fun b => b < 128) (pre ++ digits)).
  { apply Forall_app. split; [exact HP|]. clear - N. induction N; constructor; [eapply digit_ascii; eassumption|assumption]. }
  destruct s as [|b t]; [constructor|]. unfold sign in ES. destruct (Z.eqb_spec b 43) as [->|]; [inversion ES; subst; constructor; [lia|exact HB]|].
  destruct ((b =? 45) && signed) eqn:E2; [|inversion ES as [[E3 E4]]; rewrite E4; exact HB].
  inversion ES; subst. constructor; [lia|exact HB].
Qed.
Lemma prefixes_ascii pre r : In (pre, r) radix_prefixes -> Forall (fun b => b < 128) pre.
Proof. intros H. cbn in H. destruct H as [H|[H|[H|[H|[]]]]]; inversion H; repeat constructor. Qed.

Lemma visit_str_ok {A} (p : list Z -> res (result A)) v x : format_visit_str p v = Ret (DOk x) <-> p v = Ret (Ok x).
Proof.
  unfold format_visit_str. destruct (p v) as [[a|e]| | |]; cbn [bind]; split; intros H; try discriminate; apply ret_inj in H; inversion H; reflexivity.
Qed.
Lemma visit_bytes_ok {A} (p : list Z -> res (result A)) v x : (p v = Ret (Ok x) -> Forall (fun b => b < 128) v) ->
  (format_visit_bytes p v = Ret (DOk x) <-> p v = Ret (Ok x)).
Proof.
  intros H. unfold format_visit_bytes. destruct (utf8_valid v) eqn:EU; [apply visit_str_ok|]. split; intros E.
  - discriminate.
  - rewrite (ascii_valid v (H E)) in EU. discriminate.
Qed.

Lemma accepted_ascii c v x y :
  (u_de_hex c v = Ret (Ok x) -> Forall (fun b => b < 128) v) /\
  (i_de_hex c v = Ret (Ok y) -> Forall (fun b => b < 128) v) /\
  (u_de_decimal c v = Ret (Ok x) -> Forall (fun b => b < 128) v) /\
  (i_de_decimal c v = Ret (Ok y) -> Forall (fun b => b < 128) v) /\
  (u_de_prefixed c v = Ret (Ok x) -> Forall (fun b => b < 128) v) /\
  (i_de_prefixed c v = Ret (Ok y) -> Forall (fun b => b < 128) v).
Proof.
  repeat split; intros E.
  - apply (proj1 (proj1 (parse_hex c v (Ok x) (Err Empty)))) in E. destruct E as [_ R]. eapply reads_ascii; [|exact R]. repeat constructor.
  - apply (proj1 (proj1 (proj2 (parse_hex c v (Err Empty) (Ok y))))) in E. destruct E as [_ R]. eapply reads_ascii; [|exact R]. repeat constructor.
  - apply (proj1 (proj1 (u_parse_radix c v 10 (Ok x) r10))) in E. destruct E as [_ R]. eapply reads_ascii; [|exact R]. constructor.
  - apply (proj1 (proj1 (i_parse_radix c v 10 (Ok y) r10))) in E. destruct E as [_ R]. eapply reads_ascii; [|exact R]. constructor.
  - apply (proj1 (proj1 (u_prefixed_ok c v x))) in E. destruct E as (_ & pre & r & I & R). eapply reads_ascii; [|exact R]. eapply prefixes_ascii; exact I.
  - apply (proj1 (proj1 (i_prefixed_ok c v y))) in E. destruct E as (_ & pre & r & I & R). eapply reads_ascii; [|exact R]. eapply prefixes_ascii; exact I.
Qed.

(** a text is accepted from bytes exactly when it is accepted as a string, with the same value *)
Lemma visitors_agree c v x y :
  (format_visit_bytes (u_de_hex c) v = Ret (DOk x) <-> format_visit_str (u_de_hex c) v = Ret (DOk x)) /\
  (format_visit_bytes (i_de_hex c) v = Ret (DOk y) <-> format_visit_str (i_de_hex c) v = Ret (DOk y)) /\
  (format_visit_bytes (u_de_decimal c) v = Ret (DOk x) <-> format_visit_str (u_de_decimal c) v = Ret (DOk x)) /\
  (format_visit_bytes (i_de_decimal c) v = Ret (DOk y) <-> format_visit_str (i_de_decimal c) v = Ret (DOk y)) /\
  (format_visit_bytes (u_de_prefixed c) v = Ret (DOk x) <-> format_visit_str (u_de_prefixed c) v = Ret (DOk x)) /\
  (format_visit_bytes (i_de_prefixed c) v = Ret (DOk y) <-> format_visit_str (i_de_prefixed c) v = Ret (DOk y)).
Proof.
  destruct (accepted_ascii c v x y) as (H1 & H2 & H3 & H4 & H5 & H6).
  repeat split; intros E; rewrite visit_bytes_ok in * by assumption; rewrite visit_str_ok in *; assumption.
Qed.

Lemma hex_room v : v < 2 ^ 256 -> v < 16 ^ Z.of_nat 64.
Proof. exact (fun H => H). Qed.
Lemma dec_room v : v < 2 ^ 256 -> v < 10 ^ Z.of_nat 78.
Proof. intros H. eapply Z.lt_le_trans; [exact H|]. vm_compute. discriminate. Qed.
Lemma dec_room_i v : v <= 2 ^ 255 -> v < 10 ^ Z.of_nat 77.
Proof. intros H. eapply Z.le_lt_trans; [exact H|]. vm_compute. reflexivity. Qed.

(** C37 *)
Lemma u_text c x : usize_ok c -> wf_u x ->
  exists s t, canonical false 16 (uval c x) s /\ canonical false 10 (uval c x) t /\
    u_serialize c x = Ret ([48; 120] ++ s) /\ u_serialize_prefixed c x = Ret ([48; 120] ++ s) /\
    u_serialize_permissive c x = Ret ([48; 120] ++ s) /\ u_serialize_decimal c x = Ret t /\
    format_visit_str (u_de_hex c) ([48; 120] ++ s) = Ret (DOk x) /\
    format_visit_str (u_de_prefixed c) ([48; 120] ++ s) = Ret (DOk x) /\
    u_permissive_visit_str c ([48; 120] ++ s) = Ret (DOk x) /\
    format_visit_str (u_de_decimal c) t = Ret (DOk x).
Proof.
  intros U Hx. pose proof (uval_range c x Hx) as RX. destruct (u_radix c LowerHex opts_hex x U Hx) as (s & out & C & E & P).
  destruct (u_display c opts_plain x U Hx) as (t & out' & C' & E' & P').
  unfold padded in P, P'. cbn in P, P'. subst out out'. exists s, t. split; [exact C|]. split; [exact C'|].
  pose proof (canonical_length false 16 _ _ 64 ltac:(lia) C (hex_room _ (proj2 RX)) ltac:(lia)) as L.
  pose proof (canonical_length false 10 _ _ 78 ltac:(lia) C' (dec_room _ (proj2 RX)) ltac:(lia)) as L'.
  assert (ES : u_serialize c x = Ret ([48; 120] ++ s)) by (apply write_expect_of; [exact U|lia|cbn [length app]; lia|exact E]).
  unfold u_serialize_prefixed, u_serialize_permissive. repeat (split; [exact ES|]). clear ES.
  split; [apply write_expect_of; [exact U|lia|cbn [length app]; lia|exact E']|].
  destruct (radix_parse c LowerHex opts_hex x U (or_introl eq_refl) Hx) as (o1 & E1 & _ & R1). rewrite E in E1. apply ret_inj in E1. subst o1.
  destruct (R1 eq_refl) as [R2 R3]. specialize (R3 eq_refl).
  destruct (display_parse c opts_plain x (iof c 0) U (or_introl eq_refl) Hx (wf_iof c 0)) as [(o2 & E2 & D1 & D2) _]. rewrite E' in E2. apply ret_inj in E2. subst o2.
  unfold u_permissive_visit_str. rewrite !visit_str_ok. split; [exact R3|]. split; [exact R2|]. split; [exact R2|exact D1].
Qed.

Lemma i_text c x : usize_ok c -> wf_i x ->
  exists s t, canonical false 16 (Z.abs (ival c x)) s /\ canonical false 10 (Z.abs (ival c x)) t /\
    let sg := if ival c x <? 0 then [45] else [] in
    i_serialize c x = Ret (sg ++ [48; 120] ++ s) /\ i_serialize_prefixed c x = Ret (sg ++ [48; 120] ++ s) /\
    i_serialize_permissive c x = Ret (sg ++ [48; 120] ++ s) /\ i_serialize_decimal c x = Ret (sg ++ t) /\
    format_visit_str (i_de_hex c) (sg ++ [48; 120] ++ s) = Ret (DOk x) /\
    format_visit_str (i_de_prefixed c) (sg ++ [48; 120] ++ s) = Ret (DOk x) /\
    i_permissive_visit_str c (sg ++ [48; 120] ++ s) = Ret (DOk x) /\
    format_visit_str (i_de_decimal c) (sg ++ t) = Ret (DOk x).
Proof.
  intros U Hx. pose proof (ival_range c x Hx) as RX. destruct (i_radix c LowerHex opts_neg_hex x U Hx) as (s & out & C & E & P).
  destruct (i_display c opts_plain x U Hx) as (t & out' & C' & E' & P').
  unfold padded in P, P'. cbn [o_minus o_width o_alternate o_plus opts_neg_hex opts_plain kind_upper kind_radix kind_prefix] in *. rewrite andb_true_r in *.
  rewrite <- ?app_assoc in P. rewrite app_nil_r in P'. subst out out'. exists s, t.
  assert (CA : canonical false 16 (Z.abs (ival c x)) s).
  { destruct (Z.ltb_spec (ival c x) 0); [rewrite Z.abs_neq by lia; exact C|rewrite Z.mod_small in C by lia; rewrite Z.abs_eq by lia; exact C]. }
  split; [exact CA|]. split; [exact C'|]. cbv zeta.
  pose proof (canonical_length false 16 _ _ 64 ltac:(lia) CA (hex_room (Z.abs (ival c x)) ltac:(lia)) ltac:(lia)) as L.
  pose proof (canonical_length false 10 _ _ 77 ltac:(lia) C' (dec_room_i (Z.abs (ival c x)) ltac:(lia)) ltac:(lia)) as L'.
  set (sg := if ival c x <? 0 then [45] else []) in *. assert (LS : (length sg <= 1)%nat) by (unfold sg; destruct (ival c x <? 0); cbn; lia).
  assert (ES : i_serialize c x = Ret (sg ++ [48; 120] ++ s)) by (apply write_expect_of; [exact U|lia|rewrite app_length; cbn [length app]; lia|exact E]).
  unfold i_serialize_prefixed, i_serialize_permissive. repeat (split; [exact ES|]). clear ES.
  split; [apply write_expect_of; [exact U|lia|rewrite app_length; lia|exact E']|].
  destruct (i_radix_parse c LowerHex opts_neg_hex x U (or_introl eq_refl) Hx) as (o1 & E1 & R1 & _). rewrite E in E1. apply ret_inj in E1. subst o1.
  destruct (proj2 (R1 (or_introl eq_refl)) eq_refl) as [R2 R3]. specialize (R3 eq_refl).
  destruct (display_parse c opts_plain (uof c 0) x U (or_introl eq_refl) (wf_uof c 0) Hx) as [_ (o2 & E2 & D1 & D2)]. rewrite E' in E2. apply ret_inj in E2. subst o2.
  unfold i_permissive_visit_str. rewrite !visit_str_ok. split; [exact R3|]. split; [exact R2|]. split; [exact R2|exact D1].
Qed.

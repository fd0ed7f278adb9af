(** * Visitors, modules and data formats: proofs *)

From Coq Require Import ZArith String List Bool Lia.
From Verif Require Import M_Prim M_Words M_Ops M_UintApi M_IntApi M_Convert M_Float M_Parse M_Fmt M_Serde M_Visit
  Spec Spec_Bits Spec_Convert Spec_Float Spec_Parse Spec_Fmt Spec_Serde Spec_Visit
  P_Words P_AddSub P_Ops P_Forms P_Mul P_Convert P_Round P_Parse P_Serde P_Bytes P_SerdeBytes P_SerdeNum P_Compat.
Import ListNotations.
Local Notation length := List.length.
Open Scope Z_scope.

(** ** One visitor *)

Lemma call_ok {A B} e (f : B -> res (de A)) u v a : call e (Some f) u v = Ret (Accepted a) <-> f v = Ret (DOk a).
Proof.
  unfold call. destruct (f v) as [[b|x]| | |]; cbn [bind]; split; intros H; try discriminate; apply ret_inj in H; inversion H; reflexivity.
Qed.
Lemma call_ret {A B} e (f : B -> res (de A)) u v : (exists r, f v = Ret r) -> exists r, call e (Some f) u v = Ret r.
Proof. intros (r & E). unfold call. rewrite E. eexists. reflexivity. Qed.
Lemma no_accept {A} (e : failure) (a : A) : Ret (Rejected e) = Ret (Accepted a) <-> False.
Proof. split; [intros H; discriminate (ret_inj _ _ H)|contradiction]. Qed.

Definition ascii (s : list Z) : Prop := Forall (fun b => b < 128) s.
Lemma char_ascii (P : list Z -> Prop) ch : (forall s, P s -> ascii s) -> 0 <= ch -> (P (encode_utf8 ch) <-> P [ch]).
Proof.
  intros HP H. unfold encode_utf8. destruct (Z.ltb_spec ch 0x80) as [|G]; [reflexivity|].
  split; intros X; exfalso; apply HP in X; unfold ascii in X.
  - assert (0 <= ch / 64 /\ 0 <= ch / 4096 /\ 0 <= ch / 262144) by (repeat split; apply Z.div_pos; lia).
    destruct (ch <? 0x800); [|destruct (ch <? 0x10000)]; apply Forall_inv in X; cbv beta in X; lia.
  - apply Forall_inv in X. cbv beta in X. lia.
Qed.
Lemma f_is_dec x : (exists z, f_is x z) \/ ~ exists z, f_is x z.
Proof.
  destruct x as [|neg|neg m e]; cbn [f_is]; try (right; intros (z & []); fail). cbv zeta. set (M := if neg then - m else m).
  destruct (0 <=? e) eqn:EE; [left; eexists; reflexivity|].
  assert (HP : 0 < 2 ^ (- e)) by (apply Z.pow_pos_nonneg; lia). set (d := 2 ^ (- e)) in *.
  destruct (Z.eq_dec (M mod d) 0) as [E|E].
  - left. exists (M / d). rewrite Z.mul_comm. apply Z_div_exact_full_2; lia.
  - right. intros (z & Hz). apply E. rewrite Hz. apply Z_mod_mult.
Qed.
Lemma f_in_dec x n : (exists z, f_is x z /\ - n <= z < n) \/ ~ exists z, f_is x z /\ - n <= z < n.
Proof.
  destruct (f_is_dec x) as [(z & Hz)|N]; [|right; intros (z & Hz & _); apply N; exists z; exact Hz].
  destruct (Z.leb_spec (- n) z), (Z.ltb_spec z n); try (left; exists z; split; [exact Hz|lia]).
  all: right; intros (z' & Hz' & R); rewrite (f_is_unique _ _ _ Hz' Hz) in R; lia.
Qed.

Section Text.
  Context {A : Type} (p : list Z -> res (result A)) (M : list Z -> A -> Prop).
  Context (PR : forall s, exists r, p s = Ret r) (PM : forall s a, p s = Ret (Ok a) <-> M s a) (PA : forall s a, M s a -> ascii s).

  Lemma fmt_str_ret s : exists r, format_visit_str p s = Ret r.
  Proof. unfold format_visit_str. destruct (PR s) as (r & ->). cbn [bind]. eexists. reflexivity. Qed.
  Lemma fmt_bytes_ret s : exists r, format_visit_bytes p s = Ret r.
  Proof. unfold format_visit_bytes. destruct (utf8_valid s); [apply fmt_str_ret|eexists; reflexivity]. Qed.
  Lemma fmt_str s a : format_visit_str p s = Ret (DOk a) <-> M s a.
  Proof. rewrite visit_str_ok. apply PM. Qed.
  Lemma fmt_bytes s a : format_visit_bytes p s = Ret (DOk a) <-> M s a.
  Proof. rewrite visit_bytes_ok; [apply PM|]. intros E. eapply PA, PM, E. Qed.

  Lemma format_visitor_spec i a : input_ok i ->
    (visit (format_visitor p) i = Ret (Accepted a) <->
     match i with In_char ch => M [ch] a | In_str _ s | In_bytes _ s => M s a | _ => False end) /\
    exists r, visit (format_visitor p) i = Ret r.
  Proof.
    intros HI. destruct i; try destruct w; cbn [visit format_visitor on_i64 on_u64 on_i128 on_u128 on_f32 on_f64 on_str on_bytes on_seq expecting];
      try (split; [apply no_accept|eexists; reflexivity]).
    - split; [|apply call_ret, fmt_str_ret]. rewrite call_ok, fmt_str. apply (char_ascii (fun s => M s a)); [intros s; apply PA|cbn in HI; lia].
    - split; [|apply call_ret, fmt_str_ret]. rewrite call_ok. apply fmt_str.
    - split; [|apply call_ret, fmt_bytes_ret]. rewrite call_ok. apply fmt_bytes.
  Qed.

  Context (c : cfg) (cast : i256 -> A) (of : Z -> A) (CO : forall z, cast (iof c z) = of z).
  Lemma cast_int v a : - 2 ^ 127 <= v < 2 ^ 128 -> (visit_int cast c v = Ret (DOk a) <-> a = of v).
  Proof.
    intros H. unfold visit_int. rewrite prim_as_i256_of by exact H. rewrite CO. split; [intros E; symmetry; apply ret_dok in E; exact E|intros ->; reflexivity].
  Qed.
  Lemma cast_f64 b a : visit_f64 cast c (f_of_bits F64 b) = Ret (DOk a) <-> exists z, (f_is (f_of_bits F64 b) z /\ - 2 ^ 53 <= z < 2 ^ 53) /\ a = of z.
  Proof.
    destruct (f64_gen cast c _ (of_bits_m F64 b ltac:(cbn; lia))) as [F1 F2]. destruct (f_in_dec (f_of_bits F64 b) (2 ^ 53)) as [(z & Hz & R)|N].
    - rewrite (F1 z Hz R), CO. split; [intros E; exists z; split; [split; assumption|symmetry; apply ret_dok in E; exact E]|].
      intros (z' & (Hz' & _) & ->). rewrite (f_is_unique _ _ _ Hz' Hz). reflexivity.
    - destruct (F2 N) as (m & ->). split; [intros E; discriminate (ret_inj _ _ E)|]. intros (z & Hz & _). exfalso. apply N. exists z. exact Hz.
  Qed.
  Lemma cast_f32 b a : visit_f32 cast c (f_of_bits F32 b) = Ret (DOk a) <-> exists z, (f_is (f_of_bits F32 b) z /\ - 2 ^ 24 <= z < 2 ^ 24) /\ a = of z.
  Proof.
    pose proof (of_bits_m F32 b ltac:(cbn; lia)) as HM. set (x := f_of_bits F32 b) in *. clearbody x.
    destruct (f64_gen cast c _ HM) as [F1 F2]. unfold visit_f32. cbv zeta. destruct (f_in_dec x (2 ^ 24)) as [(z & Hz & R)|N].
    - rewrite (f_range x (2 ^ 24) HM ltac:(lia) z Hz). replace ((- 2 ^ 24 <=? z) && (z <? 2 ^ 24)) with true by lia. cbn [negb].
      rewrite (F1 z Hz ltac:(lia)), CO. split; [intros E; exists z; split; [split; assumption|symmetry; apply ret_dok in E; exact E]|].
      intros (z' & (Hz' & _) & ->). rewrite (f_is_unique _ _ _ Hz' Hz). reflexivity.
    - assert (NN : ~ exists z, (f_is x z /\ - 2 ^ 24 <= z < 2 ^ 24) /\ a = of z) by (intros (z & Hz & _); apply N; exists z; exact Hz).
      split; [|contradiction]. destruct (f_ge x (- 2 ^ 24) && f_lt x (2 ^ 24)) eqn:EB; cbn [negb]; [|intros E; discriminate (ret_inj _ _ E)].
      assert (NO' : ~ exists z, f_is x z /\ - 2 ^ 53 <= z < 2 ^ 53).
      { intros (z & Hz & R). rewrite (f_range x (2 ^ 24) HM ltac:(lia) z Hz) in EB. apply N. exists z. split; [exact Hz|]. lia. }
      destruct (F2 NO') as (m & ->). intros E. discriminate (ret_inj _ _ E).
  Qed.
  Lemma f64_ret x : exists r, visit_f64 cast c x = Ret r.
  Proof. unfold visit_f64, visit_int. cbv zeta. destruct (negb _); [eexists; reflexivity|]. destruct (negb _); eexists; reflexivity. Qed.
  Lemma f32_ret x : exists r, visit_f32 cast c x = Ret r.
  Proof. unfold visit_f32. cbv zeta. destruct (negb _); [eexists; reflexivity|apply f64_ret]. Qed.
  Lemma int_ret v : exists r, visit_int cast c v = Ret r.
  Proof. eexists. reflexivity. Qed.

  Lemma permissive_visitor_spec i a : input_ok i ->
    (visit (permissive_visitor c cast p) i = Ret (Accepted a) <->
     match i with
     | In_char ch => M [ch] a | In_str _ s => M s a
     | In_signed _ v | In_unsigned _ v => a = of v
     | In_f32 b => exists z, (f_is (f_of_bits F32 b) z /\ - 2 ^ 24 <= z < 2 ^ 24) /\ a = of z
     | In_f64 b => exists z, (f_is (f_of_bits F64 b) z /\ - 2 ^ 53 <= z < 2 ^ 53) /\ a = of z
     | _ => False
     end) /\
    exists r, visit (permissive_visitor c cast p) i = Ret r.
  Proof.
    intros HI. destruct i; try destruct w; cbn [visit permissive_visitor on_i64 on_u64 on_i128 on_u128 on_f32 on_f64 on_str on_bytes on_seq expecting];
      try (split; [apply no_accept|eexists; reflexivity]); cbn [input_ok wbits] in HI.
    1-10: split; [rewrite call_ok; apply cast_int; lia|apply call_ret, int_ret].
    - split; [rewrite call_ok; apply cast_f32|apply call_ret, f32_ret].
    - split; [rewrite call_ok; apply cast_f64|apply call_ret, f64_ret].
    - split; [|apply call_ret, fmt_str_ret]. rewrite call_ok, fmt_str. apply (char_ascii (fun s => M s a)); [intros s; apply PA|lia].
    - split; [|apply call_ret, fmt_str_ret]. rewrite call_ok. apply fmt_str.
  Qed.
End Text.

(** ** The modules *)

Lemma asks_of k : asks k = hint_of k.
Proof. destruct k; reflexivity. Qed.

Lemma reads_range signed lo hi r pre s z : reads signed lo hi r pre s (Ok z) -> lo <= z <= hi.
Proof. unfold reads. destruct (sign signed s). intros (d & ds & _ & _ & _ & _ & R). exact R. Qed.
Lemma means_ascii signed k s z : text_means signed k s z -> ascii s.
Proof.
  intros (pre & r & HI & R). eapply reads_ascii; [|exact R]. destruct k; cbn in HI; repeat destruct HI as [HI|HI]; try contradiction; inversion HI; subst; repeat constructor.
Qed.
Lemma u_text_number c k s (Q : u256 -> Prop) : (forall x, Q x <-> wf_u x /\ text_means false k s (uval c x)) ->
  forall x, Q x <-> exists z, text_means false k s z /\ x = uof c z.
Proof.
  intros H x. rewrite H. split.
  - intros (W & T). exists (uval c x). rewrite uof_uval by exact W. auto.
  - intros (z & T & ->). split; [apply wf_uof|]. rewrite uval_uof. pose proof T as (pre & r & _ & R). apply reads_range in R.
    rewrite Z.mod_small by (unfold MAXU in R; lia). exact T.
Qed.
Lemma i_text_number c k s (Q : i256 -> Prop) : (forall x, Q x <-> wf_i x /\ text_means true k s (ival c x)) ->
  forall x, Q x <-> exists z, text_means true k s z /\ x = iof c z.
Proof.
  intros H x. rewrite H. split.
  - intros (W & T). exists (ival c x). rewrite iof_ival by exact W. auto.
  - intros (z & T & ->). split; [apply wf_iof|]. rewrite ival_iof. pose proof T as (pre & r & _ & R). apply reads_range in R.
    rewrite wrap_i_small by (unfold MINI, MAXI in R; lia). exact T.
Qed.
Lemma one_text signed lo hi pre r s z : (exists pre' r', In (pre', r') [(pre, r)] /\ reads signed lo hi r' pre' s (Ok z)) <-> reads signed lo hi r pre s (Ok z).
Proof.
  split; [intros (pre' & r' & [E|[]] & R); inversion E; subst; exact R|intros R; exists pre, r; split; [left; reflexivity|exact R]].
Qed.

Lemma u_texts c s x :
  (u_de_hex c s = Ret (Ok x) <-> exists z, text_means false Plain s z /\ x = uof c z) /\
  (u_de_decimal c s = Ret (Ok x) <-> exists z, text_means false Decimal s z /\ x = uof c z) /\
  (u_de_prefixed c s = Ret (Ok x) <-> exists z, text_means false Prefixed s z /\ x = uof c z).
Proof.
  split; [|split].
  - apply (u_text_number c Plain s (fun x => u_de_hex c s = Ret (Ok x))). intros y. unfold text_means. cbn [texts_of]. rewrite one_text.
    apply (proj1 (parse_hex c s (Ok y) (Ok (iof c 0)))).
  - apply (u_text_number c Decimal s (fun x => u_de_decimal c s = Ret (Ok x))). intros y. unfold text_means. cbn [texts_of]. rewrite one_text.
    apply (proj1 (u_parse_radix c s 10 (Ok y) ltac:(lia))).
  - apply (u_text_number c Prefixed s (fun x => u_de_prefixed c s = Ret (Ok x))). intros y. apply (proj1 (u_prefixed_ok c s y)).
Qed.
Lemma i_texts c s x :
  (i_de_hex c s = Ret (Ok x) <-> exists z, text_means true Plain s z /\ x = iof c z) /\
  (i_de_decimal c s = Ret (Ok x) <-> exists z, text_means true Decimal s z /\ x = iof c z) /\
  (i_de_prefixed c s = Ret (Ok x) <-> exists z, text_means true Prefixed s z /\ x = iof c z).
Proof.
  split; [|split].
  - apply (i_text_number c Plain s (fun x => i_de_hex c s = Ret (Ok x))). intros y. unfold text_means. cbn [texts_of]. rewrite one_text.
    apply (proj1 (proj2 (parse_hex c s (Ok (uof c 0)) (Ok y)))).
  - apply (i_text_number c Decimal s (fun x => i_de_decimal c s = Ret (Ok x))). intros y. unfold text_means. cbn [texts_of]. rewrite one_text.
    apply (proj1 (i_parse_radix c s 10 (Ok y) ltac:(lia))).
  - apply (i_text_number c Prefixed s (fun x => i_de_prefixed c s = Ret (Ok x))). intros y. apply (proj1 (i_prefixed_ok c s y)).
Qed.

Lemma text_ret c s :
  (exists r, u_de_hex c s = Ret r) /\ (exists r, u_de_decimal c s = Ret r) /\ (exists r, u_de_prefixed c s = Ret r) /\
  (exists r, i_de_hex c s = Ret r) /\ (exists r, i_de_decimal c s = Ret r) /\ (exists r, i_de_prefixed c s = Ret r).
Proof.
  destruct (parse_hex c s (Ok (uof c 0)) (Ok (iof c 0))) as (_ & _ & E1 & E2).
  split; [exact E1|]. split; [apply (proj2 (u_parse_radix c s 10 (Ok (uof c 0)) ltac:(lia)))|]. split; [apply (proj2 (u_prefixed_ok c s (uof c 0)))|].
  split; [exact E2|]. split; [apply (proj2 (i_parse_radix c s 10 (Ok (iof c 0)) ltac:(lia)))|apply (proj2 (i_prefixed_ok c s (iof c 0)))].
Qed.

Lemma yields_ok s l : input_ok (In_seq s) -> yields s l -> bytes_ok l.
Proof.
  cbn [input_ok]. unfold yields, bytes_ok. intros H E. rewrite E in H. clear E. induction l as [|b l IH]; constructor; inversion H; subst; auto.
Qed.
Lemma ret_if {A} (b : bool) (x y : A) e : Ret (if b then DOk x else DErr e) = Ret (DOk y) <-> b = true /\ y = x.
Proof.
  destruct b; split; intros H; try (apply ret_inj in H); try discriminate; [inversion H; auto| |destruct H; discriminate].
  destruct H as [_ ->]. reflexivity.
Qed.

Lemma u_bytes_mean c o l x : bytes_ok l ->
  (u_visit_bytes c (resolve c o) l = Ret (DOk x) <-> exists z, bytes_mean c false (Bytes o) l z /\ x = uof c z).
Proof.
  intros B. rewrite (proj1 (bytes_decoding c (resolve c o) l B)), ret_if. cbn [bytes_mean]. split.
  - intros (E & ->). eexists. split; [split; [lia|reflexivity]|reflexivity].
  - intros (z & (E & ->) & ->). split; [lia|reflexivity].
Qed.
Lemma i_bytes_mean c o l x : bytes_ok l ->
  (i_visit_bytes c (resolve c o) l = Ret (DOk x) <-> exists z, bytes_mean c true (Bytes o) l z /\ x = iof c z).
Proof.
  intros B. rewrite (proj2 (bytes_decoding c (resolve c o) l B)), ret_if. cbn [bytes_mean]. split.
  - intros (E & ->). eexists. split; [split; [lia|reflexivity]|reflexivity].
  - intros (z & (E & ->) & ->). split; [lia|reflexivity].
Qed.
Lemma u_compressed_mean c o l x : usize_ok c -> bytes_ok l ->
  (u_compressed_visit_bytes c (resolve c o) l = Ret (DOk x) <-> exists z, bytes_mean c false (Compressed o) l z /\ x = uof c z).
Proof.
  intros U B. destruct (compressed_decoding c (resolve c o) l U B) as [D1 D2]. cbn [bytes_mean andb].
  destruct (Z.leb_spec (Z.of_nat (length l)) 32) as [G|G].
  - rewrite (proj1 (D1 G)). split.
    + intros E. apply ret_dok in E. eexists. split; [split; [lia|reflexivity]|]. rewrite Z.sub_0_r. symmetry. exact E.
    + intros (z & (_ & ->) & ->). rewrite Z.sub_0_r. reflexivity.
  - rewrite (proj1 (D2 G)). split; [intros E; discriminate (ret_inj _ _ E)|]. intros (z & (E & _) & _). lia.
Qed.
Lemma i_compressed_mean c o l x : usize_ok c -> bytes_ok l ->
  (i_compressed_visit_bytes c (resolve c o) l = Ret (DOk x) <-> exists z, bytes_mean c true (Compressed o) l z /\ x = iof c z).
Proof.
  intros U B. destruct (compressed_decoding c (resolve c o) l U B) as [D1 D2]. cbn [bytes_mean andb].
  destruct (Z.leb_spec (Z.of_nat (length l)) 32) as [G|G].
  - rewrite (proj2 (D1 G)). split.
    + intros E. apply ret_dok in E. eexists. split; [split; [lia|reflexivity]|]. symmetry. exact E.
    + intros (z & (_ & ->) & ->). reflexivity.
  - rewrite (proj2 (D2 G)). split; [intros E; discriminate (ret_inj _ _ E)|]. intros (z & (E & _) & _). lia.
Qed.
Lemma hint_bytes o s : hint_ok (Bytes o) s <-> size_hint s = None \/ size_hint s = Some 32.
Proof. unfold hint_ok. destruct (size_hint s) as [n|]; split; intros H; auto; [right; congruence|]. destruct H as [H|H]; congruence. Qed.
Lemma hint_compressed o s : hint_ok (Compressed o) s <-> forall n, size_hint s = Some n -> n <= 32.
Proof. unfold hint_ok. destruct (size_hint s) as [n|]; split; intros H; auto; [intros m E; inversion E; subst; exact H|discriminate]. Qed.

Lemma pull {A} (P : list Z -> Prop) (Q : list Z -> Z -> Prop) (E : Z -> A) x :
  (exists l, P l /\ exists z, Q l z /\ x = E z) <-> exists z, (exists l, P l /\ Q l z) /\ x = E z.
Proof. split; [intros (l & HP & z & HQ & ->)|intros (z & (l & HP & HQ) & ->)]; eauto 8. Qed.

(** C66: what every module makes of every input *)
Lemma u_visit_means c k i x : usize_ok c -> input_ok i ->
  (visit (u_visitor c k) i = Ret (Accepted x) <-> exists z, means c false k i z /\ x = uof c z) /\
  (exists r, visit (u_visitor c k) i = Ret r).
Proof.
  intros U HI.
  assert (NO : (exists z, False /\ x = uof c z) <-> False) by (split; [intros (z & [] & _)|contradiction]).
  assert (T : forall k' p, (forall s, exists r, p s = Ret r) -> (forall s y, p s = Ret (Ok y) <-> exists z, text_means false k' s z /\ y = uof c z) ->
     match k' with Plain | Decimal | Prefixed => True | _ => False end ->
     (visit (format_visitor p) i = Ret (Accepted x) <-> exists z, means c false k' i z /\ x = uof c z) /\ exists r, visit (format_visitor p) i = Ret r).
  { intros k' p PR PM K. destruct (format_visitor_spec p (fun s y => exists z, text_means false k' s z /\ y = uof c z) PR PM
      ltac:(intros s a (z & TM & _); exact (means_ascii _ _ _ _ TM)) i x HI) as [E R]. split; [|exact R]. rewrite E.
    destruct k'; try contradiction; destruct i; cbn [means bytes_mean]; try (rewrite NO; reflexivity); try reflexivity;
      (split; [contradiction|intros (z & (E1 & _) & _); discriminate E1]). }
  destruct k; cbn [u_visitor].
  - apply (T Plain); [apply text_ret|intros; apply u_texts|exact I].
  - apply (T Decimal); [apply text_ret|intros; apply u_texts|exact I].
  - apply (T Prefixed); [apply text_ret|intros; apply u_texts|exact I].
  - destruct (permissive_visitor_spec (u_de_prefixed c) (fun s y => exists z, text_means false Permissive s z /\ y = uof c z)
      ltac:(intros; apply text_ret) ltac:(intros; apply u_texts) ltac:(intros s a (z & TM & _); exact (means_ascii _ _ _ _ TM))
      c u_cast (uof c) ltac:(intros; apply i_as_u256_of) i x HI) as [E R]. split; [|exact R]. rewrite E.
    destruct i; cbn [means bytes_mean]; try (rewrite NO; reflexivity); try reflexivity.
    all: try (split; [intros ->; eauto|intros (z & (_ & ->) & ->); reflexivity]).
    all: split; [intros (z & (F & R1) & ->); eauto 8|intros (z & (_ & F & R1) & ->); eauto 8].
  - destruct i; try destruct w; cbn [visit bytes_visitor on_i64 on_u64 on_i128 on_u128 on_f32 on_f64 on_str on_bytes on_seq expecting means];
      try (split; [cbn [call]; rewrite no_accept; try (rewrite NO; reflexivity)|eexists; reflexivity]).
    all: try (split; [contradiction|intros (z & (E1 & _) & _); try discriminate E1; destruct E1 as (? & [] & _)]).
    + split; [contradiction|]. intros (z & (pre & r & [] & _) & _).
    + split; [contradiction|]. intros (z & (pre & r & [] & _) & _).
    + split; [|apply (call_ret _ (u_visit_bytes c (resolve c o))); rewrite (proj1 (bytes_decoding c (resolve c o) l HI)); eexists; reflexivity].
      etransitivity; [apply (call_ok _ (u_visit_bytes c (resolve c o)))|]. apply u_bytes_mean. exact HI.
    + destruct (bytes_seq c (resolve c o) s x (iof c 0)) as (E & _ & R & _).
      split; [|apply (call_ret _ (u_visit_seq c (resolve c o))); exact R].
      etransitivity; [apply (call_ok _ (u_visit_seq c (resolve c o)))|]. rewrite E. split.
      * intros (l & Y & H & V). apply u_bytes_mean in V; [|exact (yields_ok _ _ HI Y)]. destruct V as (z & V & ->). exists z. split; [|reflexivity].
        exists l. split; [exact Y|]. split; [apply hint_bytes; exact H|exact V].
      * intros (z & (l & Y & H & V) & ->). exists l. split; [exact Y|]. split; [apply hint_bytes in H; exact H|].
        apply u_bytes_mean; [exact (yields_ok _ _ HI Y)|]. eauto.
  - destruct i; try destruct w; cbn [visit compressed_visitor on_i64 on_u64 on_i128 on_u128 on_f32 on_f64 on_str on_bytes on_seq expecting means];
      try (split; [cbn [call]; rewrite no_accept; try (rewrite NO; reflexivity)|eexists; reflexivity]).
    all: try (split; [contradiction|intros (z & (E1 & _) & _); try discriminate E1; destruct E1 as (? & [] & _)]).
    + split; [contradiction|]. intros (z & (pre & r & [] & _) & _).
    + split; [contradiction|]. intros (z & (pre & r & [] & _) & _).
    + split; [|apply (call_ret _ (u_compressed_visit_bytes c (resolve c o))); apply compressed_ret; exact U].
      etransitivity; [apply (call_ok _ (u_compressed_visit_bytes c (resolve c o)))|]. apply u_compressed_mean; assumption.
    + destruct (compressed_seq c (resolve c o) s x (iof c 0) U) as (E & _ & R & _).
      split; [|apply (call_ret _ (u_compressed_visit_seq c (resolve c o))); exact R].
      etransitivity; [apply (call_ok _ (u_compressed_visit_seq c (resolve c o)))|]. rewrite E. split.
      * intros (l & Y & H & V). apply u_compressed_mean in V; [|exact U|exact (yields_ok _ _ HI Y)]. destruct V as (z & V & ->). exists z. split; [|reflexivity].
        exists l. split; [exact Y|]. split; [apply hint_compressed; exact H|exact V].
      * intros (z & (l & Y & H & V) & ->). exists l. split; [exact Y|]. split; [apply hint_compressed with (o := o); exact H|].
        apply u_compressed_mean; [exact U|exact (yields_ok _ _ HI Y)|]. eauto.
Qed.
Lemma i_visit_means c k i x : usize_ok c -> input_ok i ->
  (visit (i_visitor c k) i = Ret (Accepted x) <-> exists z, means c true k i z /\ x = iof c z) /\
  (exists r, visit (i_visitor c k) i = Ret r).
Proof.
  intros U HI.
  assert (NO : (exists z, False /\ x = iof c z) <-> False) by (split; [intros (z & [] & _)|contradiction]).
  assert (T : forall k' p, (forall s, exists r, p s = Ret r) -> (forall s y, p s = Ret (Ok y) <-> exists z, text_means true k' s z /\ y = iof c z) ->
     match k' with Plain | Decimal | Prefixed => True | _ => False end ->
     (visit (format_visitor p) i = Ret (Accepted x) <-> exists z, means c true k' i z /\ x = iof c z) /\ exists r, visit (format_visitor p) i = Ret r).
  { intros k' p PR PM K. destruct (format_visitor_spec p (fun s y => exists z, text_means true k' s z /\ y = iof c z) PR PM
      ltac:(intros s a (z & TM & _); exact (means_ascii _ _ _ _ TM)) i x HI) as [E R]. split; [|exact R]. rewrite E.
    destruct k'; try contradiction; destruct i; cbn [means bytes_mean]; try (rewrite NO; reflexivity); try reflexivity;
      (split; [contradiction|intros (z & (E1 & _) & _); discriminate E1]). }
  destruct k; cbn [i_visitor].
  - apply (T Plain); [apply text_ret|intros; apply i_texts|exact I].
  - apply (T Decimal); [apply text_ret|intros; apply i_texts|exact I].
  - apply (T Prefixed); [apply text_ret|intros; apply i_texts|exact I].
  - destruct (permissive_visitor_spec (i_de_prefixed c) (fun s y => exists z, text_means true Permissive s z /\ y = iof c z)
      ltac:(intros; apply text_ret) ltac:(intros; apply i_texts) ltac:(intros s a (z & TM & _); exact (means_ascii _ _ _ _ TM))
      c i_cast (iof c) ltac:(reflexivity) i x HI) as [E R]. split; [|exact R]. rewrite E.
    destruct i; cbn [means bytes_mean]; try (rewrite NO; reflexivity); try reflexivity.
    all: try (split; [intros ->; eauto|intros (z & (_ & ->) & ->); reflexivity]).
    all: split; [intros (z & (F & R1) & ->); eauto 8|intros (z & (_ & F & R1) & ->); eauto 8].
  - destruct i; try destruct w; cbn [visit bytes_visitor on_i64 on_u64 on_i128 on_u128 on_f32 on_f64 on_str on_bytes on_seq expecting means];
      try (split; [cbn [call]; rewrite no_accept; try (rewrite NO; reflexivity)|eexists; reflexivity]).
    all: try (split; [contradiction|intros (z & (E1 & _) & _); try discriminate E1; destruct E1 as (? & [] & _)]).
    + split; [contradiction|]. intros (z & (pre & r & [] & _) & _).
    + split; [contradiction|]. intros (z & (pre & r & [] & _) & _).
    + split; [|apply (call_ret _ (i_visit_bytes c (resolve c o))); rewrite (proj2 (bytes_decoding c (resolve c o) l HI)); eexists; reflexivity].
      etransitivity; [apply (call_ok _ (i_visit_bytes c (resolve c o)))|]. apply i_bytes_mean. exact HI.
    + destruct (bytes_seq c (resolve c o) s (uof c 0) x) as (_ & E & _ & R).
      split; [|apply (call_ret _ (i_visit_seq c (resolve c o))); exact R].
      etransitivity; [apply (call_ok _ (i_visit_seq c (resolve c o)))|]. rewrite E. split.
      * intros (l & Y & H & V). apply i_bytes_mean in V; [|exact (yields_ok _ _ HI Y)]. destruct V as (z & V & ->). exists z. split; [|reflexivity].
        exists l. split; [exact Y|]. split; [apply hint_bytes; exact H|exact V].
      * intros (z & (l & Y & H & V) & ->). exists l. split; [exact Y|]. split; [apply hint_bytes in H; exact H|].
        apply i_bytes_mean; [exact (yields_ok _ _ HI Y)|]. eauto.
  - destruct i; try destruct w; cbn [visit compressed_visitor on_i64 on_u64 on_i128 on_u128 on_f32 on_f64 on_str on_bytes on_seq expecting means];
      try (split; [cbn [call]; rewrite no_accept; try (rewrite NO; reflexivity)|eexists; reflexivity]).
    all: try (split; [contradiction|intros (z & (E1 & _) & _); try discriminate E1; destruct E1 as (? & [] & _)]).
    + split; [contradiction|]. intros (z & (pre & r & [] & _) & _).
    + split; [contradiction|]. intros (z & (pre & r & [] & _) & _).
    + split; [|apply (call_ret _ (i_compressed_visit_bytes c (resolve c o))); apply compressed_ret; exact U].
      etransitivity; [apply (call_ok _ (i_compressed_visit_bytes c (resolve c o)))|]. apply i_compressed_mean; assumption.
    + destruct (compressed_seq c (resolve c o) s (uof c 0) x U) as (_ & E & _ & R).
      split; [|apply (call_ret _ (i_compressed_visit_seq c (resolve c o))); exact R].
      etransitivity; [apply (call_ok _ (i_compressed_visit_seq c (resolve c o)))|]. rewrite E. split.
      * intros (l & Y & H & V). apply i_compressed_mean in V; [|exact U|exact (yields_ok _ _ HI Y)]. destruct V as (z & V & ->). exists z. split; [|reflexivity].
        exists l. split; [exact Y|]. split; [apply hint_compressed; exact H|exact V].
      * intros (z & (l & Y & H & V) & ->). exists l. split; [exact Y|]. split; [apply hint_compressed with (o := o); exact H|].
        apply i_compressed_mean; [exact U|exact (yields_ok _ _ HI Y)|]. eauto.
Qed.

Lemma wrong_kind c k i : kind_ok k i = false ->
  exists u, visit (u_visitor c k) i = Ret (Rejected (Wrong_type u (wanted c k))) /\
            visit (i_visitor c k) i = Ret (Rejected (Wrong_type u (wanted c k))).
Proof. intros H. destruct k, i; try destruct w; try discriminate H; eexists; split; reflexivity. Qed.
Lemma call_kind {A B} e (f : B -> res (de A)) u v u' e' : call e (Some f) u v <> Ret (Rejected (Wrong_type u' e')).
Proof. unfold call. destruct (f v) as [[a|[]]| | |]; cbn [bind report]; intros H; try discriminate; apply ret_inj in H; discriminate. Qed.
Lemma right_kind c k i u e : kind_ok k i = true ->
  visit (u_visitor c k) i <> Ret (Rejected (Wrong_type u e)) /\ visit (i_visitor c k) i <> Ret (Rejected (Wrong_type u e)).
Proof. intros H. destruct k, i; try destruct w; try discriminate H; split; apply call_kind. Qed.

(** ** Data formats *)

Lemma u_read_of F c k e i x : get F (hint_of k) (put F e) = Some i -> visit (u_visitor c k) i = Ret (Accepted x) ->
  u_read F c k (put F e) = Ret (Some (Accepted x)).
Proof. intros G V. unfold u_read. rewrite G, V. reflexivity. Qed.
Lemma i_read_of F c k e i x : get F (hint_of k) (put F e) = Some i -> visit (i_visitor c k) i = Ret (Accepted x) ->
  i_read F c k (put F e) = Ret (Some (Accepted x)).
Proof. intros G V. unfold i_read. rewrite G, V. reflexivity. Qed.
Lemma i_read_iff F c k e i x : get F (hint_of k) (put F e) = Some i ->
  (i_read F c k (put F e) = Ret (Some (Accepted x)) <-> visit (i_visitor c k) i = Ret (Accepted x)).
Proof.
  intros G. unfold i_read. rewrite G. destruct (visit (i_visitor c k) i); cbn [bind]; split; intros H; try discriminate; apply ret_inj in H; [inversion H|subst]; reflexivity.
Qed.
Lemma u_read_iff F c k e i x : get F (hint_of k) (put F e) = Some i ->
  (u_read F c k (put F e) = Ret (Some (Accepted x)) <-> visit (u_visitor c k) i = Ret (Accepted x)).
Proof.
  intros G. unfold u_read. rewrite G. destruct (visit (u_visitor c k) i); cbn [bind]; split; intros H; try discriminate; apply ret_inj in H; [inversion H|subst]; reflexivity.
Qed.

(** a text that the module reads from a string is read however the format holds it *)
Lemma u_text_held c k s i x : match k with Plain | Decimal | Prefixed | Permissive => True | _ => False end ->
  holds (match hint_of k with Want_any => false | _ => true end) (Em_str s) i ->
  visit (u_visitor c k) (In_str Transient s) = Ret (Accepted x) -> visit (u_visitor c k) i = Ret (Accepted x).
Proof.
  intros K H V. destruct (visitors_agree c s x (iof c 0)) as (A1 & _ & A2 & _ & A3 & _).
  destruct i; try contradiction; cbn [holds] in H; [subst; destruct k; try contradiction; exact V|]. destruct H as [HR ->].
  destruct k; try contradiction; try discriminate HR; cbn [visit u_visitor format_visitor on_str on_bytes] in *;
    rewrite call_ok in *; apply A1 || apply A2 || apply A3; exact V.
Qed.
Lemma i_text_held c k s i x : match k with Plain | Decimal | Prefixed | Permissive => True | _ => False end ->
  holds (match hint_of k with Want_any => false | _ => true end) (Em_str s) i ->
  visit (i_visitor c k) (In_str Transient s) = Ret (Accepted x) -> visit (i_visitor c k) i = Ret (Accepted x).
Proof.
  intros K H V. destruct (visitors_agree c s (uof c 0) x) as (_ & A1 & _ & A2 & _ & A3).
  destruct i; try contradiction; cbn [holds] in H; [subst; destruct k; try contradiction; exact V|]. destruct H as [HR ->].
  destruct k; try contradiction; try discriminate HR; cbn [visit i_visitor format_visitor on_str on_bytes] in *;
    rewrite call_ok in *; apply A1 || apply A2 || apply A3; exact V.
Qed.
(** bytes likewise, if their number fits the module *)
Definition fits (k : codec) (l : list Z) : Prop :=
  match k with Bytes _ => length l = 32%nat | Compressed _ => (length l <= 32)%nat | _ => False end.
Lemma honest_hint k q l : fits k l -> yields q l -> honest q -> hint_ok k q.
Proof.
  unfold fits, yields, honest, hint_ok. intros K Y H. destruct (size_hint q) as [n|]; [|exact I]. subst n. rewrite Y, map_length. destruct k; try contradiction; lia.
Qed.
Lemma u_bytes_held c k l i x raw : usize_ok c -> fits k l -> holds raw (Em_bytes l) i ->
  (visit (u_visitor c k) i = Ret (Accepted x) <-> visit (u_visitor c k) (In_bytes Transient l) = Ret (Accepted x)).
Proof.
  intros U K H. destruct i; try contradiction; cbn [holds] in H; [subst; destruct k; reflexivity|]. destruct H as [Y HO].
  pose proof (honest_hint k s l K Y HO) as HH. destruct k; try contradiction; cbn [visit u_visitor bytes_visitor compressed_visitor on_seq on_bytes].
  - rewrite !call_ok. destruct (bytes_seq c (resolve c o) s x (iof c 0)) as (E & _). etransitivity; [exact E|]. apply hint_bytes in HH. split.
    + intros (l' & Y' & _ & V). unfold yields in *. rewrite Y in Y'. apply map_DOk_inj in Y'. subst l'. exact V.
    + intros V. exists l. auto.
  - rewrite !call_ok. destruct (compressed_seq c (resolve c o) s x (iof c 0) U) as (E & _). etransitivity; [exact E|]. rewrite hint_compressed in HH. split.
    + intros (l' & Y' & _ & V). unfold yields in *. rewrite Y in Y'. apply map_DOk_inj in Y'. subst l'. exact V.
    + intros V. exists l. auto.
Qed.
Lemma i_bytes_held c k l i x raw : usize_ok c -> fits k l -> holds raw (Em_bytes l) i ->
  (visit (i_visitor c k) i = Ret (Accepted x) <-> visit (i_visitor c k) (In_bytes Transient l) = Ret (Accepted x)).
Proof.
  intros U K H. destruct i; try contradiction; cbn [holds] in H; [subst; destruct k; reflexivity|]. destruct H as [Y HO].
  pose proof (honest_hint k s l K Y HO) as HH. destruct k; try contradiction; cbn [visit i_visitor bytes_visitor compressed_visitor on_seq on_bytes].
  - rewrite !call_ok. destruct (bytes_seq c (resolve c o) s (uof c 0) x) as (_ & E & _). etransitivity; [exact E|]. apply hint_bytes in HH. split.
    + intros (l' & Y' & _ & V). unfold yields in *. rewrite Y in Y'. apply map_DOk_inj in Y'. subst l'. exact V.
    + intros V. exists l. auto.
  - rewrite !call_ok. destruct (compressed_seq c (resolve c o) s (uof c 0) x U) as (_ & E & _). etransitivity; [exact E|]. rewrite hint_compressed in HH. split.
    + intros (l' & Y' & _ & V). unfold yields in *. rewrite Y in Y'. apply map_DOk_inj in Y'. subst l'. exact V.
    + intros V. exists l. auto.
Qed.

Lemma ser_length c o x y : wf_u x -> wf_i y -> length (u_ser_bytes c o x) = 32%nat /\ length (i_ser_bytes c o y) = 32%nat.
Proof.
  intros Hx Hy. destruct (to_bytes_of c o x y Hx Hy) as [E F]. unfold u_ser_bytes, i_ser_bytes. rewrite E, F, !order_length, !le_bytes_length. auto.
Qed.

(** C67 *)
Lemma u_round_trip F c k x : usize_ok c -> wf_u x -> faithful F (asks k) ->
  exists d, u_write F c k x = Ret d /\ u_read F c k d = Ret (Some (Accepted x)).
Proof.
  rewrite asks_of. intros U Hx HF. destruct (u_text c x U Hx) as (s & t & _ & _ & E1 & E2 & E3 & E4 & V1 & V2 & V3 & V4).
  assert (T : forall s', match k with Plain | Decimal | Prefixed | Permissive => True | _ => False end -> u_emit c k x = Ret (Em_str s') ->
     visit (u_visitor c k) (In_str Transient s') = Ret (Accepted x) ->
     exists d, u_write F c k x = Ret d /\ u_read F c k d = Ret (Some (Accepted x))).
  { intros s' K E V. exists (put F (Em_str s')). unfold u_write. rewrite E. split; [reflexivity|]. destruct (HF (Em_str s')) as (i & G & H).
    eapply u_read_of; [exact G|]. eapply u_text_held; eassumption. }
  assert (B : forall l, fits k l -> u_emit c k x = Ret (Em_bytes l) -> visit (u_visitor c k) (In_bytes Transient l) = Ret (Accepted x) ->
     exists d, u_write F c k x = Ret d /\ u_read F c k d = Ret (Some (Accepted x))).
  { intros l K E V. exists (put F (Em_bytes l)). unfold u_write. rewrite E. split; [reflexivity|]. destruct (HF (Em_bytes l)) as (i & G & H).
    eapply u_read_of; [exact G|]. eapply u_bytes_held; eassumption. }
  destruct k.
  - apply (T ([48; 120] ++ s)); [exact I|cbn [u_emit]; rewrite E1; reflexivity|]. cbn [visit u_visitor format_visitor on_str]. rewrite call_ok. exact V1.
  - apply (T t); [exact I|cbn [u_emit]; rewrite E4; reflexivity|]. cbn [visit u_visitor format_visitor on_str]. rewrite call_ok. exact V4.
  - apply (T ([48; 120] ++ s)); [exact I|cbn [u_emit]; rewrite E2; reflexivity|]. cbn [visit u_visitor format_visitor on_str]. rewrite call_ok. exact V2.
  - apply (T ([48; 120] ++ s)); [exact I|cbn [u_emit]; rewrite E3; reflexivity|]. cbn [visit u_visitor permissive_visitor on_str]. rewrite call_ok. exact V3.
  - destruct (bytes_encoding c (resolve c o) x (iof c 0) Hx (wf_iof c 0)) as (_ & _ & _ & _ & V & _).
    apply (B (u_ser_bytes c (resolve c o) x)); [apply (ser_length c (resolve c o) x _ Hx (wf_iof c 0))|reflexivity|].
    cbn [visit u_visitor bytes_visitor on_bytes]. rewrite call_ok. exact V.
  - destruct (u_compressed c (resolve c o) x U Hx) as (v & E & _ & _ & _ & V).
    apply (B v); [cbn [fits]; apply compressed_len in V; exact V|cbn [u_emit]; rewrite E; reflexivity|].
    cbn [visit u_visitor compressed_visitor on_bytes]. rewrite call_ok. exact V.
Qed.
Lemma i_round_trip F c k x : usize_ok c -> wf_i x -> faithful F (asks k) ->
  exists d, i_write F c k x = Ret d /\
    (i_read F c k d = Ret (Some (Accepted x)) <->
     match k with Compressed o => compressed_ok (side c o) (ival c x) | _ => True end).
Proof.
  rewrite asks_of. intros U Hx HF. destruct (i_text c x U Hx) as (s & t & _ & _ & E). cbv zeta in E. set (sg := if ival c x <? 0 then [45] else []) in *.
  destruct E as (E1 & E2 & E3 & E4 & V1 & V2 & V3 & V4).
  assert (T : forall s', match k with Plain | Decimal | Prefixed | Permissive => True | _ => False end -> i_emit c k x = Ret (Em_str s') ->
     visit (i_visitor c k) (In_str Transient s') = Ret (Accepted x) ->
     exists d, i_write F c k x = Ret d /\ (i_read F c k d = Ret (Some (Accepted x)) <-> True)).
  { intros s' K E V. exists (put F (Em_str s')). unfold i_write. rewrite E. split; [reflexivity|]. destruct (HF (Em_str s')) as (i & G & H).
    split; [trivial|]. intros _. eapply i_read_of; [exact G|]. eapply i_text_held; eassumption. }
  assert (B : forall l P, fits k l -> i_emit c k x = Ret (Em_bytes l) -> (visit (i_visitor c k) (In_bytes Transient l) = Ret (Accepted x) <-> P) ->
     exists d, i_write F c k x = Ret d /\ (i_read F c k d = Ret (Some (Accepted x)) <-> P)).
  { intros l P K E V. exists (put F (Em_bytes l)). unfold i_write. rewrite E. split; [reflexivity|]. destruct (HF (Em_bytes l)) as (i & G & H).
    rewrite (i_read_iff F c k _ i x G), <- V. eapply i_bytes_held; eassumption. }
  destruct k.
  - apply (T (sg ++ [48; 120] ++ s)); [exact I|cbn [i_emit]; rewrite E1; reflexivity|]. cbn [visit i_visitor format_visitor on_str]. rewrite call_ok. exact V1.
  - apply (T (sg ++ t)); [exact I|cbn [i_emit]; rewrite E4; reflexivity|]. cbn [visit i_visitor format_visitor on_str]. rewrite call_ok. exact V4.
  - apply (T (sg ++ [48; 120] ++ s)); [exact I|cbn [i_emit]; rewrite E2; reflexivity|]. cbn [visit i_visitor format_visitor on_str]. rewrite call_ok. exact V2.
  - apply (T (sg ++ [48; 120] ++ s)); [exact I|cbn [i_emit]; rewrite E3; reflexivity|]. cbn [visit i_visitor permissive_visitor on_str]. rewrite call_ok. exact V3.
  - destruct (bytes_encoding c (resolve c o) (uof c 0) x (wf_uof c 0) Hx) as (_ & _ & _ & _ & _ & V).
    apply (B (i_ser_bytes c (resolve c o) x)); [apply (ser_length c (resolve c o) _ x (wf_uof c 0) Hx)|reflexivity|].
    cbn [visit i_visitor bytes_visitor on_bytes]. rewrite call_ok. split; [trivial|intros _; exact V].
  - destruct (i_compressed c (resolve c o) x U Hx) as (v & E & _ & _ & L & V).
    apply (B v); [|cbn [i_emit]; rewrite E; reflexivity|].
    + cbn [fits]. destruct L as (_ & _ & L). destruct (Nat.leb_spec (length v) 32) as [|G]; [assumption|exfalso]. apply (L 32); [lia|].
      pose proof (ival_range c x Hx) as R. unfold i_fits. destruct (ival c x <? 0); lia.
    + cbn [visit i_visitor compressed_visitor on_bytes]. rewrite call_ok. exact V.
Qed.

(** what one text module writes, the lenient ones read, for both types *)
Lemma text_visit_str c k s x y : lenient k ->
  (visit (u_visitor c k) (In_str Transient s) = Ret (Accepted x) <-> format_visit_str (u_de_prefixed c) s = Ret (DOk x)) /\
  (visit (i_visitor c k) (In_str Transient s) = Ret (Accepted y) <-> format_visit_str (i_de_prefixed c) s = Ret (DOk y)).
Proof. intros K. destruct k; try contradiction; split; apply call_ok. Qed.
Lemma lenient_text k : lenient k -> match k with Plain | Decimal | Prefixed | Permissive => True | _ => False end.
Proof. destruct k; auto. Qed.
(** a text of ASCII characters that is not a number is rejected however the format holds it *)
Lemma u_text_rejected c k s i e : lenient k -> ascii s ->
  holds (match hint_of k with Want_any => false | _ => true end) (Em_str s) i ->
  format_visit_str (u_de_prefixed c) s = Ret (DErr (ParseFailed e)) -> visit (u_visitor c k) i = Ret (Rejected (Not_a_number e)).
Proof.
  intros K HA H V. destruct i; try contradiction; cbn [holds] in H; [subst|destruct H as [HR ->]];
    destruct k; try contradiction; try discriminate HR; cbn [visit u_visitor format_visitor permissive_visitor on_str on_bytes call];
    unfold format_visit_bytes; rewrite ?(ascii_valid _ HA), V; reflexivity.
Qed.
Lemma i_text_rejected c k s i e : lenient k -> ascii s ->
  holds (match hint_of k with Want_any => false | _ => true end) (Em_str s) i ->
  format_visit_str (i_de_prefixed c) s = Ret (DErr (ParseFailed e)) -> visit (i_visitor c k) i = Ret (Rejected (Not_a_number e)).
Proof.
  intros K HA H V. destruct i; try contradiction; cbn [holds] in H; [subst|destruct H as [HR ->]];
    destruct k; try contradiction; try discriminate HR; cbn [visit i_visitor format_visitor permissive_visitor on_str on_bytes call];
    unfold format_visit_bytes; rewrite ?(ascii_valid _ HA), V; reflexivity.
Qed.
Lemma parse_failed {A} (p : list Z -> res (result A)) s e : format_visit_str p s = Ret (DErr e) -> exists e', e = ParseFailed e'.
Proof. unfold format_visit_str. destruct (p s) as [[a|e']| | |]; cbn [bind]; intros H; try discriminate; apply ret_inj in H; inversion H. eauto. Qed.

Lemma u_other_text F c kw kr x : usize_ok c -> wf_u x -> texty kw -> lenient kr -> faithful F (asks kr) ->
  exists d, u_write F c kw x = Ret d /\ u_read F c kr d = Ret (Some (Accepted x)) /\
    (uval c x <= MAXI -> i_read F c kr d = Ret (Some (Accepted (iof c (uval c x))))) /\
    (MAXI < uval c x -> exists e, i_read F c kr d = Ret (Some (Rejected (Not_a_number e)))).
Proof.
  rewrite asks_of. intros U Hx KW KR HF.
  assert (E : exists t, u_emit c kw x = Ret (Em_str t) /\ (u_serialize c x = Ret t \/ u_serialize_decimal c x = Ret t)).
  { destruct (u_text c x U Hx) as (s & t & _ & _ & E1 & E2 & E3 & E4 & _).
    destruct kw; try contradiction; cbn [u_emit]; rewrite ?E1, ?E2, ?E3, ?E4; eexists; (split; [reflexivity|]); auto. }
  destruct E as (t & E & W). destruct (u_written c x t U Hx W) as (_ & V & VI & VO).
  assert (HA : ascii t).
  { pose proof V as V'. apply visit_str_ok in V'. destruct (accepted_ascii c t x (iof c 0)) as (_ & _ & _ & _ & A & _). exact (A V'). }
  exists (put F (Em_str t)). unfold u_write. rewrite E. split; [reflexivity|]. destruct (HF (Em_str t)) as (i & G & H). split; [|split].
  - eapply u_read_of; [exact G|]. eapply u_text_held; [apply lenient_text, KR|exact H|]. apply (text_visit_str c kr t x (iof c 0) KR). exact V.
  - intros L. destruct (VI L) as [_ V2]. eapply i_read_of; [exact G|]. eapply i_text_held; [apply lenient_text, KR|exact H|].
    apply (text_visit_str c kr t x _ KR). exact V2.
  - intros L. destruct (VO L) as (e & _ & V2). destruct (parse_failed _ _ _ V2) as (e' & ->). exists e'.
    unfold i_read. rewrite G, (i_text_rejected c kr t i e' KR HA H V2). reflexivity.
Qed.
Lemma i_other_text F c kw kr x : usize_ok c -> wf_i x -> texty kw -> lenient kr -> faithful F (asks kr) ->
  exists d, i_write F c kw x = Ret d /\ i_read F c kr d = Ret (Some (Accepted x)) /\
    (0 <= ival c x -> u_read F c kr d = Ret (Some (Accepted (uof c (ival c x))))) /\
    (ival c x < 0 -> u_read F c kr d = Ret (Some (Rejected (Not_a_number InvalidDigit)))).
Proof.
  rewrite asks_of. intros U Hx KW KR HF.
  assert (E : exists t, i_emit c kw x = Ret (Em_str t) /\ (i_serialize c x = Ret t \/ i_serialize_decimal c x = Ret t)).
  { destruct (i_text c x U Hx) as (s & t & _ & _ & E). cbv zeta in E. destruct E as (E1 & E2 & E3 & E4 & _).
    destruct kw; try contradiction; cbn [i_emit]; rewrite ?E1, ?E2, ?E3, ?E4; eexists; (split; [reflexivity|]); auto. }
  destruct E as (t & E & W). destruct (i_written c x t U Hx W) as (_ & V & VI & VO).
  assert (HA : ascii t).
  { pose proof V as V'. apply visit_str_ok in V'. destruct (accepted_ascii c t (uof c 0) x) as (_ & _ & _ & _ & _ & A). exact (A V'). }
  exists (put F (Em_str t)). unfold i_write. rewrite E. split; [reflexivity|]. destruct (HF (Em_str t)) as (i & G & H). split; [|split].
  - eapply i_read_of; [exact G|]. eapply i_text_held; [apply lenient_text, KR|exact H|]. apply (text_visit_str c kr t (uof c 0) x KR). exact V.
  - intros L. destruct (VI L) as [_ V2]. eapply u_read_of; [exact G|]. eapply u_text_held; [apply lenient_text, KR|exact H|].
    apply (text_visit_str c kr t _ x KR). exact V2.
  - intros L. destruct (VO L) as (_ & V2). unfold u_read. rewrite G, (u_text_rejected c kr t i _ KR HA H V2). reflexivity.
Qed.

(** the 32-byte encodings are read by the compressed modules; the other way round only if all bytes are there *)
Lemma other_bytes F c o x y : usize_ok c -> wf_u x -> wf_i y -> faithful F Want_bytes ->
  (exists d, u_write F c (Bytes o) x = Ret d /\ u_read F c (Compressed o) d = Ret (Some (Accepted x))) /\
  (exists d, i_write F c (Bytes o) y = Ret d /\ i_read F c (Compressed o) d = Ret (Some (Accepted y))) /\
  (exists d, u_write F c (Compressed o) x = Ret d /\ (u_read F c (Bytes o) d = Ret (Some (Accepted x)) <-> 2 ^ 248 <= uval c x)).
Proof.
  intros U Hx Hy HF. set (r := resolve c o).
  destruct (to_bytes_of c r x y Hx Hy) as [Ex Ey]. destruct (ser_length c r x y Hx Hy) as [Lx Ly].
  destruct (bytes_encoding c r x y Hx Hy) as (_ & _ & _ & _ & Vx & Vy).
  assert (Bx : bytes_ok (u_ser_bytes c r x)) by (unfold u_ser_bytes; rewrite Ex; apply order_ok, le_bytes_range).
  assert (By : bytes_ok (i_ser_bytes c r y)) by (unfold i_ser_bytes; rewrite Ey; apply order_ok, le_bytes_range).
  split; [|split].
  - exists (put F (Em_bytes (u_ser_bytes c r x))). split; [reflexivity|]. destruct (HF (Em_bytes (u_ser_bytes c r x))) as (i & G & H).
    eapply u_read_of; [exact G|]. eapply u_bytes_held; [exact U| |exact H|]; [cbn [fits]; lia|].
    cbn [visit u_visitor compressed_visitor on_bytes]. rewrite call_ok. fold r. change (u_compressed_visit_bytes c r (u_ser_bytes c r x) = Ret (DOk x)).
    rewrite (proj1 (proj1 (compressed_decoding c r _ U Bx) ltac:(lia))). rewrite (proj1 (bytes_decoding c r _ Bx)) in Vx.
    rewrite Lx in Vx. exact Vx.
  - exists (put F (Em_bytes (i_ser_bytes c r y))). split; [reflexivity|]. destruct (HF (Em_bytes (i_ser_bytes c r y))) as (i & G & H).
    eapply i_read_of; [exact G|]. eapply i_bytes_held; [exact U| |exact H|]; [cbn [fits]; lia|].
    cbn [visit i_visitor compressed_visitor on_bytes]. rewrite call_ok. fold r. change (i_compressed_visit_bytes c r (i_ser_bytes c r y) = Ret (DOk y)).
    rewrite (proj2 (proj1 (compressed_decoding c r _ U By) ltac:(lia))). rewrite (proj2 (bytes_decoding c r _ By)) in Vy.
    rewrite Ly in *. change (Z.of_nat 32 =? 32) with true in Vy. cbn [Z.of_nat] in *. cbv iota in Vy. rewrite <- Vy. do 2 f_equal.
    apply iof_cong. destruct (128 <=? _); [|rewrite Z.sub_0_r; reflexivity]. change (8 * _) with 256.
    replace (value_le (in_order r (i_ser_bytes c r y)) - 2 ^ 256) with (value_le (in_order r (i_ser_bytes c r y)) + (-1) * 2 ^ 256) by lia.
    apply Z_mod_plus_full.
  - destruct (u_compressed c r x U Hx) as (v & E & B & V & L & _). exists (put F (Em_bytes v)). unfold u_write. cbn [u_emit]. fold r. rewrite E. split; [reflexivity|].
    destruct (HF (Em_bytes v)) as (i & G & H). rewrite (u_read_iff F c (Bytes o) _ i x G).
    pose proof (uval_range c x Hx) as R. destruct L as (_ & L1 & L2).
    destruct (Nat.eq_dec (length v) 32) as [N|N].
    + split.
      * intros _. destruct (Z.leb_spec (2 ^ 248) (uval c x)); [assumption|exfalso]. apply (L2 31); [lia|]. assumption.
      * intros _. eapply u_bytes_held; [exact U|exact N|exact H|]. cbn [visit u_visitor bytes_visitor on_bytes]. rewrite call_ok. fold r.
        change (u_visit_bytes c r v = Ret (DOk x)). rewrite (proj1 (bytes_decoding c r v B)), N, V, uof_uval by exact Hx. reflexivity.
    + assert (N' : Z.of_nat (length v) < 32).
      { destruct (Z.ltb_spec (Z.of_nat (length v)) 32); [assumption|exfalso]. apply (L2 32); [lia|]. change (8 * 32) with 256. lia. }
      split.
      * intros A. exfalso. destruct i; try contradiction; cbn [holds] in H.
        -- subst l. cbn [visit u_visitor bytes_visitor on_bytes] in A. rewrite call_ok in A. unfold bytes_visit_bytes in A.
           replace (Z.of_nat (length v) =? 32) with false in A by lia. discriminate (ret_inj _ _ A).
        -- destruct H as [Y _]. cbn [visit u_visitor bytes_visitor on_seq] in A. rewrite call_ok in A. fold r in A.
           destruct (bytes_seq c r s x (iof c 0)) as (S & _). destruct (proj1 S A) as (l' & Y' & _ & V').
           unfold yields in *. rewrite Y in Y'. apply map_DOk_inj in Y'. subst l'.
           unfold u_visit_bytes, bytes_visit_bytes in V'. replace (Z.of_nat (length v) =? 32) with false in V' by lia. discriminate (ret_inj _ _ V').
      * intros A. exfalso. assert (2 ^ (8 * Z.of_nat (length v)) <= 2 ^ 248) by (apply Z.pow_le_mono_r; lia). lia.
Qed.

(** what is written *)
Lemma u_documents F c k x : usize_ok c -> wf_u x ->
  exists e, u_write F c k x = Ret (put F e) /\
    match k, e with
    | (Plain | Prefixed | Permissive), Em_str s => exists t, s = [48; 120] ++ t /\ canonical false 16 (uval c x) t
    | Decimal, Em_str s => canonical false 10 (uval c x) s
    | Bytes o, Em_bytes l => l = in_order (side c o) (digits_le (uval c x))
    | Compressed o, Em_bytes l =>
        bytes_ok l /\ value_le (in_order (side c o) l) = uval c x /\ least (fun n => uval c x < 2 ^ (8 * n)) (Z.of_nat (length l))
    | _, _ => False
    end.
Proof.
  intros U Hx. destruct (u_text c x U Hx) as (s & t & C1 & C2 & E1 & E2 & E3 & E4 & _). unfold u_write.
  destruct k; cbn [u_emit].
  - rewrite E1. eexists. split; [reflexivity|]. cbv iota. eauto.
  - rewrite E4. eexists. split; [reflexivity|]. exact C2.
  - rewrite E2. eexists. split; [reflexivity|]. cbv iota. eauto.
  - rewrite E3. eexists. split; [reflexivity|]. cbv iota. eauto.
  - eexists. split; [reflexivity|]. apply (proj1 (bytes_encoding c (resolve c o) x (iof c 0) Hx (wf_iof c 0))).
  - destruct (u_compressed c (resolve c o) x U Hx) as (v & E & B & V & L & _). rewrite E. eexists. split; [reflexivity|]. exact (conj B (conj V L)).
Qed.
Lemma i_documents F c k x : usize_ok c -> wf_i x ->
  let sg := if ival c x <? 0 then [45] else [] in
  exists e, i_write F c k x = Ret (put F e) /\
    match k, e with
    | (Plain | Prefixed | Permissive), Em_str s => exists t, s = sg ++ [48; 120] ++ t /\ canonical false 16 (Z.abs (ival c x)) t
    | Decimal, Em_str s => exists t, s = sg ++ t /\ canonical false 10 (Z.abs (ival c x)) t
    | Bytes o, Em_bytes l => l = in_order (side c o) (digits_le (ival c x))
    | Compressed o, Em_bytes l =>
        bytes_ok l /\ value_le (in_order (side c o) l) = ival c x mod 2 ^ (8 * Z.of_nat (length l)) /\
        least (i_fits (ival c x)) (Z.of_nat (length l))
    | _, _ => False
    end.
Proof.
  intros U Hx. cbv zeta. destruct (i_text c x U Hx) as (s & t & C1 & C2 & E). cbv zeta in E. destruct E as (E1 & E2 & E3 & E4 & _). unfold i_write.
  destruct k; cbn [i_emit].
  - rewrite E1. eexists. split; [reflexivity|]. cbv iota. eauto.
  - rewrite E4. eexists. split; [reflexivity|]. cbv iota. eauto.
  - rewrite E2. eexists. split; [reflexivity|]. cbv iota. eauto.
  - rewrite E3. eexists. split; [reflexivity|]. cbv iota. eauto.
  - eexists. split; [reflexivity|]. apply (proj1 (proj2 (bytes_encoding c (resolve c o) (uof c 0) x (wf_uof c 0) Hx))).
  - destruct (i_compressed c (resolve c o) x U Hx) as (v & E & B & V & L & _). rewrite E. eexists. split; [reflexivity|]. exact (conj B (conj V L)).
Qed.

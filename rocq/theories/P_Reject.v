(** * The reasons of a rejection: proofs *)

From Coq Require Import ZArith String List Bool Lia.
From Verif Require Import M_Prim M_Words M_Ops M_UintApi M_IntApi M_Convert M_Float M_Parse M_Fmt M_Serde M_Visit
  Spec Spec_Bits Spec_Convert Spec_Float Spec_Parse Spec_Fmt Spec_Serde Spec_Visit Spec_Reject
  P_Words P_AddSub P_Ops P_Forms P_Mul P_Convert P_Round P_Parse P_Serde P_Bytes P_SerdeBytes P_SerdeNum P_Compat P_Visit.
Import ListNotations.
Local Notation length := List.length.
Open Scope Z_scope.

(** ** UTF-8 *)

Lemma cont_true b : 0 <= b < 64 -> cont (0x80 + b) = true.
Proof. intros H. unfold cont. apply andb_true_intro. split; apply Z.leb_le; lia. Qed.
Lemma ltb_no a b : b <= a -> (a <? b) = false. Proof. apply Z.ltb_ge. Qed.
Lemma leb_no a b : b < a -> (a <=? b) = false. Proof. apply Z.leb_gt. Qed.
Lemma leb_yes a b : a <= b -> (a <=? b) = true. Proof. apply Z.leb_le. Qed.
Lemma eqb_no a b : a <> b -> (a =? b) = false. Proof. apply Z.eqb_neq. Qed.

Lemma utf8_char_valid ch l r : utf8_char ch l -> utf8_valid (l ++ r) = utf8_valid r.
Proof.
  intros H. destruct H as [a A|a b A B M|a b d A B D M S|a b d e A B D E M]; cbn [app utf8_valid].
  - rewrite (proj2 (Z.ltb_lt _ _)) by lia. reflexivity.
  - rewrite ltb_no, (leb_yes 194), leb_yes, cont_true by lia. reflexivity.
  - rewrite ltb_no, (leb_no (_ + a) 223), andb_false_r by lia. rewrite (leb_yes 224), (leb_yes (_ + a)), (cont_true d) by lia. cbn [andb].
    destruct (Z.eq_dec a 0) as [->|N]; [change (224 + 0 =? 224) with true; cbn iota; rewrite !leb_yes by lia; reflexivity|]. rewrite (eqb_no _ 224) by lia.
    destruct (Z.eq_dec a 13) as [->|N']; [change (224 + 13 =? 237) with true; cbn iota; rewrite !leb_yes by lia; reflexivity|].
    rewrite eqb_no, cont_true by lia. reflexivity.
  - rewrite ltb_no, (leb_no (_ + a) 223), andb_false_r by lia. rewrite (leb_no (_ + a) 239), andb_false_r by lia.
    rewrite (leb_yes 240), (leb_yes (_ + a)), (cont_true d), (cont_true e) by lia. cbn [andb].
    destruct (Z.eq_dec a 0) as [->|N]; [change (240 + 0 =? 240) with true; cbn iota; rewrite !leb_yes by lia; reflexivity|].
    rewrite (eqb_no _ 240) by lia.
    destruct (Z.eq_dec a 4) as [->|N']; [change (240 + 4 =? 244) with true; cbn iota; rewrite !leb_yes by lia; reflexivity|].
    rewrite eqb_no, cont_true by lia. reflexivity.
Qed.
Lemma utf8_sound l : utf8 l -> utf8_valid l = true.
Proof. induction 1 as [|ch l r H _ IH]; [reflexivity|]. rewrite (utf8_char_valid ch) by exact H. exact IH. Qed.
Lemma utf8_complete n : forall l, (length l <= n)%nat -> bytes_ok l -> utf8_valid l = true -> utf8 l.
Proof.
  induction n as [|n IH]; intros l L B H; [destruct l; [constructor|cbn in L; lia]|].
  destruct l as [|b0 l]; [constructor|]. apply Forall_inv in B as B0. apply Forall_inv_tail in B. cbn [utf8_valid length] in *.
  destruct (Z.ltb_spec b0 128).
  { apply (utf8_cons b0 [b0]); [constructor; lia|]. apply IH; [lia|exact B|exact H]. }
  destruct l as [|b1 l]; [discriminate|]. apply Forall_inv_tail in B. cbn [length] in L.
  destruct (Z.leb_spec 194 b0), (Z.leb_spec b0 223); cbn [andb] in H; try lia.
  1:{ apply andb_prop in H. destruct H as [C H]. unfold cont in C.
      apply (utf8_cons ((b0 - 192) * 64 + (b1 - 128)) [b0; b1]); [|apply IH; [lia|exact B|exact H]].
      replace [b0; b1] with [0xc0 + (b0 - 192); 0x80 + (b1 - 128)] by (f_equal; [lia|f_equal; lia]). constructor; lia. }
  all: destruct l as [|b2 l]; [discriminate|]; apply Forall_inv_tail in B; cbn [length] in L.
  all: destruct (Z.leb_spec 224 b0), (Z.leb_spec b0 239); cbn [andb] in H; try lia.
  all: try (apply andb_prop in H; destruct H as [C H]; apply andb_prop in C; destruct C as [C C2]; unfold cont in *;
    apply (utf8_cons (((b0 - 224) * 64 + (b1 - 128)) * 64 + (b2 - 128)) [b0; b1; b2]); [|apply IH; [lia|exact B|exact H]];
    replace [b0; b1; b2] with [0xe0 + (b0 - 224); 0x80 + (b1 - 128); 0x80 + (b2 - 128)] by (f_equal; [lia|f_equal; [lia|f_equal; lia]]);
    destruct (Z.eqb_spec b0 224); [constructor; lia|]; destruct (Z.eqb_spec b0 237); constructor; lia).
  all: destruct l as [|b3 l]; [discriminate|]; apply Forall_inv_tail in B; cbn [length] in L.
  all: repeat match type of H with (_ && _) = true => let C := fresh "C" in apply andb_prop in H; destruct H as [H C] end.
  all: try lia.
  all: repeat match goal with C : (_ && _) = true |- _ => apply andb_prop in C; destruct C end.
  all: unfold cont in *.
  all: apply (utf8_cons ((((b0 - 240) * 64 + (b1 - 128)) * 64 + (b2 - 128)) * 64 + (b3 - 128)) [b0; b1; b2; b3]); [|apply IH; [lia|exact B|assumption]].
  all: replace [b0; b1; b2; b3] with [0xf0 + (b0 - 240); 0x80 + (b1 - 128); 0x80 + (b2 - 128); 0x80 + (b3 - 128)] by (f_equal; [lia|f_equal; [lia|f_equal; [lia|f_equal; lia]]]).
  all: destruct (Z.eqb_spec b0 240); [constructor; lia|]; destruct (Z.eqb_spec b0 244); constructor; lia.
Qed.
Lemma utf8_iff l : bytes_ok l -> (utf8_valid l = true <-> utf8 l).
Proof. intros B. split; [apply (utf8_complete (length l)); auto|apply utf8_sound]. Qed.
Lemma utf8_false l : bytes_ok l -> (utf8_valid l = false <-> ~ utf8 l).
Proof.
  intros B. rewrite <- (utf8_iff l B). destruct (utf8_valid l); split; intros H; try reflexivity; try discriminate.
  exfalso. apply H. reflexivity.
Qed.

Lemma encode_char ch : 0 <= ch < 0xd800 \/ 0xe000 <= ch <= 0x10ffff -> utf8_char ch (encode_utf8 ch).
Proof.
  intros H. unfold encode_utf8.
  assert (D1 : ch = ch / 64 * 64 + ch mod 64 /\ 0 <= ch mod 64 < 64) by (split; [rewrite Z.mul_comm; apply Z.div_mod|apply Z.mod_pos_bound]; lia).
  assert (E2 : ch / 64 / 64 = ch / 4096) by (rewrite Z.div_div by lia; reflexivity).
  assert (E3 : ch / 4096 / 64 = ch / 262144) by (rewrite Z.div_div by lia; reflexivity).
  assert (D2 : ch / 64 = ch / 4096 * 64 + ch / 64 mod 64 /\ 0 <= ch / 64 mod 64 < 64) by (rewrite <- E2; split; [rewrite Z.mul_comm; apply Z.div_mod|apply Z.mod_pos_bound]; lia).
  assert (D3 : ch / 4096 = ch / 262144 * 64 + ch / 4096 mod 64 /\ 0 <= ch / 4096 mod 64 < 64) by (rewrite <- E3; split; [rewrite Z.mul_comm; apply Z.div_mod|apply Z.mod_pos_bound]; lia).
  clear E2 E3. generalize dependent (ch mod 64). generalize dependent (ch / 64 mod 64). generalize dependent (ch / 4096 mod 64).
  generalize dependent (ch / 64). generalize dependent (ch / 4096). generalize dependent (ch / 262144).
  intros q3 q2 q1 m3 [-> M3] m2 [-> M2] m1 [E1 M1].
  destruct (Z.ltb_spec ch 0x80); [constructor; lia|]. destruct (Z.ltb_spec ch 0x800); [|destruct (Z.ltb_spec ch 0x10000)].
  - rewrite E1. change 192 with 0xc0. change 128 with 0x80. constructor; lia.
  - rewrite E1. change 224 with 0xe0. change 128 with 0x80. constructor; lia.
  - rewrite E1. change 240 with 0xf0. change 128 with 0x80. constructor; lia.
Qed.
Lemma char_unique ch l l' : utf8_char ch l -> utf8_char ch l' -> l = l'.
Proof.
  intros H. remember ch as n eqn:E in |- *. destruct H; intros H'; destruct H'; try lia.
  - congruence.
  - assert (a = a0 /\ b = b0) as [-> ->] by lia. reflexivity.
  - assert (a = a0 /\ b = b0 /\ d = d0) as (-> & -> & ->) by lia. reflexivity.
  - assert (a = a0 /\ b = b0 /\ d = d0 /\ e = e0) as (-> & -> & -> & ->) by lia. reflexivity.
Qed.
Lemma the_char (P : list Z -> Prop) ch : 0 <= ch < 0xd800 \/ 0xe000 <= ch <= 0x10ffff ->
  ((exists s, utf8_char ch s /\ P s) <-> P (encode_utf8 ch)).
Proof.
  intros H. pose proof (encode_char ch H) as C. split; [|intros HP; exists (encode_utf8 ch); auto].
  intros (s & Hs & HP). rewrite <- (char_unique _ _ _ Hs C). exact HP.
Qed.

(** ** One visitor *)

Lemma call_rej {A B} exp (f : B -> res (de A)) u v e :
  call exp (Some f) u v = Ret (Rejected e) <-> exists d, f v = Ret (DErr d) /\ e = report exp d.
Proof.
  unfold call. split.
  - destruct (f v) as [[b|x]| | |]; cbn [bind]; try discriminate; intros H; apply ret_inj in H; inversion H. exists x. auto.
  - intros (d & E & ->). rewrite E. reflexivity.
Qed.
Lemma rejected {A} (e e' : failure) : Ret (@Rejected A e) = Ret (Rejected e') <-> e' = e.
Proof. split; [intros H; apply ret_inj in H; inversion H; reflexivity|intros ->; reflexivity]. Qed.
Lemma derr {A} (d d' : de_error) : Ret (@DErr A d) = Ret (DErr d') <-> d' = d.
Proof. split; [intros H; apply ret_inj in H; inversion H; reflexivity|intros ->; reflexivity]. Qed.

(** floats *)
Lemma within_iff x n : f_ge x (- n) && f_lt x n = true <-> within x n.
Proof.
  destruct x as [|neg|neg m e]; cbn [within]; unfold f_ge, f_lt; cbn [f_cmp].
  - split; [discriminate|contradiction].
  - destruct neg; split; try discriminate; contradiction.
  - cbv zeta. set (M := if neg then - m else m). destruct (0 <=? e).
    + destruct (Z.compare_spec (M * 2 ^ e) (- n)), (Z.compare_spec (M * 2 ^ e) n); cbn [andb]; split; intros; try discriminate; try reflexivity; lia.
    + destruct (Z.compare_spec M (- n * 2 ^ (- e))), (Z.compare_spec M (n * 2 ^ (- e))); cbn [andb]; split; intros; try discriminate; try reflexivity; lia.
Qed.
Lemma f_is_within x n z : nonneg_m x -> 0 < n -> f_is x z -> within x n -> - n <= z < n.
Proof. intros M N F W. apply within_iff in W. rewrite (f_range x n M N z F) in W. lia. Qed.
Lemma within_more x n n' : n <= n' -> within x n -> within x n'.
Proof.
  intros L. destruct x as [|neg|neg m e]; cbn [within]; auto. cbv zeta. destruct (0 <=? e); [lia|].
  assert (0 <= 2 ^ (- e)) by (apply Z.pow_nonneg; lia). nia.
Qed.
Definition double_range : string :=
  "invalid conversion from double precision floating point number outside of valid integer range (-2^53, 2^53)".
Definition single_range : string :=
  "invalid conversion from single precision floating point number outside of valid integer range (-2^24, 2^24)".
Definition fraction : string := "invalid conversion from floating point number with fractional part to 256-bit integer".
Lemma f64_err {A} (cast : i256 -> A) c x d : nonneg_m x ->
  (visit_f64 cast c x = Ret (DErr d) <->
   (~ within x (2 ^ 53) /\ d = Custom double_range) \/ (within x (2 ^ 53) /\ (forall z, ~ f_is x z) /\ d = Custom fraction)).
Proof.
  intros M. destruct (f64_gen cast c x M) as [F1 F2]. pose proof (within_iff x (2 ^ 53)) as W.
  destruct (f_is_dec x) as [(z & Hz)|N].
  - assert (D : within x (2 ^ 53) \/ ~ within x (2 ^ 53)) by (destruct (f_ge x (- 2 ^ 53) && f_lt x (2 ^ 53)); [left; apply W; reflexivity|right; intros X; apply W in X; discriminate]).
    destruct D as [D|D].
    + rewrite (F1 z Hz (f_is_within x (2 ^ 53) z M ltac:(lia) Hz D)). split; [intros H; discriminate (ret_inj _ _ H)|].
      intros [[H _]|(_ & H & _)]; [contradiction|]. destruct (H z Hz).
    + unfold visit_f64. cbv zeta. destruct (f_ge x (- 2 ^ 53) && f_lt x (2 ^ 53)); [exfalso; apply D, W; reflexivity|]. cbn [negb]. rewrite derr.
      split; [auto|]. intros [[_ H]|(H & _)]; [exact H|contradiction].
  - destruct (F2 ltac:(intros (z & Hz & _); apply N; exists z; exact Hz)) as (m & E). revert E. unfold visit_f64. cbv zeta.
    destruct (f_ge x (- 2 ^ 53) && f_lt x (2 ^ 53)); cbn [negb].
    + assert (D : within x (2 ^ 53)) by (apply W; reflexivity). destruct (negb _); [|discriminate]. intros _. rewrite derr.
      split; [intros ->; right; split; [exact D|]; split; [|reflexivity]; intros z Hz; apply N; exists z; exact Hz|].
      intros [[H _]|(_ & _ & H)]; [contradiction|exact H].
    + assert (D : ~ within x (2 ^ 53)) by (intros X; apply W in X; discriminate). intros _. rewrite derr. split; [auto|].
      intros [[_ H]|(H & _)]; [exact H|contradiction].
Qed.
Lemma f32_err {A} (cast : i256 -> A) c x d : nonneg_m x ->
  (visit_f32 cast c x = Ret (DErr d) <->
   (~ within x (2 ^ 24) /\ d = Custom single_range) \/ (within x (2 ^ 24) /\ (forall z, ~ f_is x z) /\ d = Custom fraction)).
Proof.
  intros M. pose proof (within_iff x (2 ^ 24)) as W. unfold visit_f32. cbv zeta. destruct (f_ge x (- 2 ^ 24) && f_lt x (2 ^ 24)); cbn [negb].
  - assert (D : within x (2 ^ 24)) by (apply W; reflexivity). assert (D' : within x (2 ^ 53)) by (apply (within_more x (2 ^ 24)); [lia|exact D]).
    rewrite (f64_err cast c x d M). tauto.
  - assert (D : ~ within x (2 ^ 24)) by (intros X; apply W in X; discriminate). rewrite derr. split; [auto|]. intros [[_ H]|(H & _)]; [exact H|contradiction].
Qed.
Lemma float_report exp x n range d e : e = report exp d ->
  (~ within x n /\ d = Custom range) \/ (within x n /\ (forall z, ~ f_is x z) /\ d = Custom fraction) -> float_blames x n range e.
Proof. intros -> [[H ->]|(H & N & ->)]; [left|right]; auto. Qed.
Lemma float_unreport exp x n range e : float_blames x n range e ->
  exists d, ((~ within x n /\ d = Custom range) \/ (within x n /\ (forall z, ~ f_is x z) /\ d = Custom fraction)) /\ e = report exp d.
Proof. intros [[H ->]|(H & N & ->)]; [exists (Custom range)|exists (Custom fraction)]; (split; [|reflexivity]); auto. Qed.

(** texts *)
Section Text.
  Context {A : Type} (p : list Z -> res (result A)) (M : list Z -> int_error -> Prop).
  Context (PE : forall s e, p s = Ret (Err e) <-> M s e).

  Lemma str_err s d : format_visit_str p s = Ret (DErr d) <-> exists e, M s e /\ d = ParseFailed e.
  Proof.
    unfold format_visit_str. split.
    - destruct (p s) as [[a|e]| | |] eqn:E; cbn [bind]; try discriminate; intros H; apply ret_inj in H; inversion H. exists e. split; [apply PE; exact E|reflexivity].
    - intros (e & H & ->). apply PE in H. rewrite H. reflexivity.
  Qed.
  Lemma bytes_err s d : bytes_ok s -> (format_visit_bytes p s = Ret (DErr d) <->
    (~ utf8 s /\ d = InvalidValue s) \/ (utf8 s /\ exists e, M s e /\ d = ParseFailed e)).
  Proof.
    intros B. unfold format_visit_bytes. destruct (utf8_valid s) eqn:E.
    - apply (utf8_iff s B) in E. rewrite str_err. tauto.
    - apply (utf8_false s B) in E. rewrite derr. tauto.
  Qed.
  Lemma str_call exp u s e : call exp (Some (format_visit_str p)) u s = Ret (Rejected e) <-> exists err, M s err /\ e = Not_a_number err.
  Proof.
    rewrite call_rej. split.
    - intros (d & H & ->). apply str_err in H. destruct H as (err & H & ->). exists err. auto.
    - intros (err & H & ->). exists (ParseFailed err). split; [apply str_err; exists err; auto|reflexivity].
  Qed.
  Lemma char_call exp u ch e : input_ok (In_char ch) ->
    (call exp (Some (format_visit_str p)) u (encode_utf8 ch) = Ret (Rejected e) <-> exists s err, utf8_char ch s /\ M s err /\ e = Not_a_number err).
  Proof.
    intros H. rewrite str_call, <- (the_char (fun s => exists err, M s err /\ e = Not_a_number err) ch H). split.
    - intros (s & C & err & X). exists s, err. tauto.
    - intros (s & err & C & X). exists s. split; [exact C|]. exists err. exact X.
  Qed.
  Lemma bytes_call exp u s e : bytes_ok s -> (call exp (Some (format_visit_bytes p)) u s = Ret (Rejected e) <->
    (~ utf8 s /\ e = Wrong_value s exp) \/ (utf8 s /\ exists err, M s err /\ e = Not_a_number err)).
  Proof.
    intros B. rewrite call_rej. split.
    - intros (d & H & ->). apply (bytes_err s d B) in H. destruct H as [[H ->]|(H & err & X & ->)]; [left; auto|right]. split; [exact H|]. exists err. auto.
    - intros [[H ->]|(H & err & X & ->)]; [exists (InvalidValue s)|exists (ParseFailed err)]; (split; [apply (bytes_err s _ B)|reflexivity]); [left; auto|right].
      split; [exact H|]. exists err. auto.
  Qed.
End Text.

Lemma one_blame signed lo hi pre r s e : 2 <= r <= 36 -> lo = (if signed : bool then MINI else 0) -> hi = (if signed then MAXI else MAXU) ->
  reads signed lo hi r pre s (Err e) -> forall z, ~ exists pre' r', In (pre', r') [(pre, r)] /\ reads signed lo hi r' pre' s (Ok z).
Proof.
  intros Hr -> -> R z H. apply one_text in H. discriminate (reads_unique signed r pre s _ _ Hr R H).
Qed.
Lemma u_text_err c s e :
  (u_de_hex c s = Ret (Err e) <-> text_blames false Plain s e) /\
  (u_de_decimal c s = Ret (Err e) <-> text_blames false Decimal s e) /\
  (u_de_prefixed c s = Ret (Err e) <-> text_blames false Prefixed s e).
Proof.
  unfold text_blames. cbv zeta. split; [|split].
  - unfold u_de_hex. rewrite (proj1 (parse_hex c s (Err e) (Ok (iof c 0)))). cbn [result_ok result_map]. split; [intros [_ R]|intros [_ R]; auto].
    split; [|exact R]. apply (one_blame false _ _ [48; 120] 16 s e ltac:(lia) eq_refl eq_refl R).
  - unfold u_de_decimal. rewrite (proj1 (u_parse_radix c s 10 (Err e) ltac:(lia))). cbn [result_ok result_map]. split; [intros [_ R]|intros [_ R]; auto].
    split; [|exact R]. apply (one_blame false _ _ [] 10 s e ltac:(lia) eq_refl eq_refl R).
  - split.
    + intros H. split; [|apply (proj1 (prefixed_error c s e e)); exact H]. intros z T.
      pose proof (proj2 (proj2 (u_texts c s (uof c z)))) as P. assert (X : u_de_prefixed c s = Ret (Ok (uof c z))) by (apply P; exists z; auto).
      rewrite X in H. discriminate (ret_inj _ _ H).
    + intros [N R]. destruct (proj2 (u_prefixed_ok c s (uof c 0))) as ([x|e'] & E).
      * exfalso. apply (proj1 (proj2 (proj2 (u_texts c s x)))) in E. destruct E as (z & T & _). exact (N z T).
      * unfold u_de_prefixed. rewrite E. apply (proj1 (prefixed_error c s e' e')) in E.
        pose proof (reads_unique false 10 [] s _ _ ltac:(lia) R E) as X. congruence.
Qed.
Lemma i_text_err c s e :
  (i_de_hex c s = Ret (Err e) <-> text_blames true Plain s e) /\
  (i_de_decimal c s = Ret (Err e) <-> text_blames true Decimal s e) /\
  (i_de_prefixed c s = Ret (Err e) <-> text_blames true Prefixed s e).
Proof.
  unfold text_blames. cbv zeta. split; [|split].
  - unfold i_de_hex. rewrite (proj1 (proj2 (parse_hex c s (Ok (uof c 0)) (Err e)))). cbn [result_ok result_map]. split; [intros [_ R]|intros [_ R]; auto].
    split; [|exact R]. apply (one_blame true _ _ [48; 120] 16 s e ltac:(lia) eq_refl eq_refl R).
  - unfold i_de_decimal. rewrite (proj1 (i_parse_radix c s 10 (Err e) ltac:(lia))). cbn [result_ok result_map]. split; [intros [_ R]|intros [_ R]; auto].
    split; [|exact R]. apply (one_blame true _ _ [] 10 s e ltac:(lia) eq_refl eq_refl R).
  - split.
    + intros H. split; [|apply (proj2 (prefixed_error c s e e)); exact H]. intros z T.
      pose proof (proj2 (proj2 (i_texts c s (iof c z)))) as P. assert (X : i_de_prefixed c s = Ret (Ok (iof c z))) by (apply P; exists z; auto).
      rewrite X in H. discriminate (ret_inj _ _ H).
    + intros [N R]. destruct (proj2 (i_prefixed_ok c s (iof c 0))) as ([x|e'] & E).
      * exfalso. apply (proj1 (proj2 (proj2 (i_texts c s x)))) in E. destruct E as (z & T & _). exact (N z T).
      * unfold i_de_prefixed. rewrite E. apply (proj2 (prefixed_error c s e' e')) in E.
        pose proof (reads_unique true 10 [] s _ _ ltac:(lia) R E) as X. congruence.
Qed.
Lemma permissive_blames signed s e : text_blames signed Permissive s e <-> text_blames signed Prefixed s e.
Proof. reflexivity. Qed.

(** sequences *)
Definition foreign_errors (l : list (de Z)) : Prop :=
  Forall (fun e => match e with DOk _ | DErr (ElementError _) => True | _ => False end) l.
Lemma foreign_tail a e r : foreign_errors (map (@DOk Z) a ++ DErr e :: r) -> exists w, e = ElementError w.
Proof.
  unfold foreign_errors. rewrite Forall_app. intros [_ H]. apply Forall_inv in H. cbv beta in H. destruct e as [| | | |w]; try contradiction. exists w. reflexivity.
Qed.
(** two splittings of a sequence are the same, up to where they end *)
Lemma split_err a a' e e' r r' : map (@DOk Z) a ++ DErr e :: r = map DOk a' ++ DErr e' :: r' -> a = a' /\ e = e'.
Proof.
  revert a'. induction a as [|x a IH]; intros [|y a'] H; cbn [map app] in H; inversion H; subst; auto.
  destruct (IH a' ltac:(assumption)) as [-> ->]. auto.
Qed.
Lemma split_long a a' e r r' : map (@DOk Z) a ++ DErr e :: r = map DOk a' ++ r' -> (length a' <= length a)%nat.
Proof.
  revert a'. induction a as [|x a IH]; intros [|y a'] H; cbn [map app length] in *; inversion H; subst; try lia.
  specialize (IH a' ltac:(assumption)). lia.
Qed.
Lemma split_end a a' r' : map (@DOk Z) a = map DOk a' ++ r' -> (length a' <= length a)%nat.
Proof. intros H. apply (f_equal (@length (de Z))) in H. rewrite app_length, !map_length in H. lia. Qed.

(** what is wrong with the elements, from the outcomes of the two loops *)
Definition elements_blame (short : bool) (l : list (de Z)) (d : de_error) : Prop :=
  (exists a w r, l = map DOk a ++ DErr (ElementError w) :: r /\ (length a <= 32)%nat /\ d = ElementError w) \/
  (exists a r, l = map DOk a ++ r /\ length a = 33%nat /\ d = InvalidLength 33) \/
  (short = true /\ exists a, l = map DOk a /\ (length a < 32)%nat /\ d = InvalidLength (Z.of_nat (length a))).
Lemma blame_err short a w r d : (length a <= 32)%nat ->
  (elements_blame short (map DOk a ++ DErr (ElementError w) :: r) d <-> d = ElementError w).
Proof.
  intros L. unfold elements_blame. split.
  - intros [(a' & w' & r' & H & _ & ->)|[(a' & r' & H & L' & _)|(_ & a' & H & _)]].
    + apply split_err in H. destruct H as [_ H]. symmetry. exact H.
    + apply split_long in H. lia.
    + destruct (no_yield _ _ _ _ H).
  - intros ->. left. exists a, w, r. auto.
Qed.
Lemma blame_long short a r d : length a = 33%nat -> (elements_blame short (map DOk a ++ r) d <-> d = InvalidLength 33).
Proof.
  intros L. unfold elements_blame. split.
  - intros [(a' & w' & r' & H & L' & ->)|[(a' & r' & _ & _ & ->)|(_ & a' & H & L' & _)]].
    + symmetry in H. apply split_long in H. lia.
    + reflexivity.
    + symmetry in H. apply split_end in H. lia.
  - intros ->. right. left. exists a, r. auto.
Qed.
Lemma blame_done short a d : (length a <= 32)%nat ->
  (elements_blame short (map DOk a) d <-> short = true /\ (length a < 32)%nat /\ d = InvalidLength (Z.of_nat (length a))).
Proof.
  intros L. unfold elements_blame. split.
  - intros [(a' & w' & r' & H & _)|[(a' & r' & H & L' & _)|(S & a' & H & L' & ->)]].
    + symmetry in H. destruct (no_yield _ _ _ _ H).
    + apply split_end in H. lia.
    + apply map_DOk_inj in H. subst a'. auto.
  - intros (S & L' & ->). right. right. split; [exact S|]. exists a. auto.
Qed.

Lemma elements_cases l : foreign_errors l ->
  (exists a w r, l = map DOk a ++ DErr (ElementError w) :: r /\ (length a < 32)%nat) \/
  (exists a w r, l = map DOk a ++ DErr (ElementError w) :: r /\ length a = 32%nat) \/
  (exists a b r, l = map DOk a ++ DOk b :: r /\ length a = 32%nat) \/
  (exists a, l = map DOk a /\ length a = 32%nat) \/
  (exists a, l = map DOk a /\ (length a < 32)%nat).
Proof.
  intros F. destruct (yields_dec l) as [(a & ->)|(a & e & r & ->)].
  - destruct (split32 a) as [S|(p & q & -> & LP)]; [do 4 right; exists a; auto|]. destruct q as [|b q].
    + do 3 right. left. exists p. rewrite app_nil_r. auto.
    + do 2 right. left. exists p, b, (map DOk q). rewrite map_app. auto.
  - destruct (foreign_tail _ _ _ F) as (w & ->). destruct (split32 a) as [S|(p & q & -> & LP)]; [left; exists a, w, r; auto|]. destruct q as [|b q].
    + right. left. exists p, w, r. rewrite app_nil_r. auto.
    + do 2 right. left. exists p, b, (map DOk q ++ DErr (ElementError w) :: r). rewrite map_app, <- app_assoc. auto.
Qed.
Lemma snoc_DOk a (b : Z) (r : list (de Z)) : map DOk a ++ DOk b :: r = map DOk (a ++ [b]) ++ r.
Proof. rewrite map_app, <- app_assoc. reflexivity. Qed.

Lemma bytes_seq_err {A} (f : list Z -> A) s d : foreign_errors (elements s) ->
  (bytes_visit_seq f s = Ret (DErr d) <->
   (exists n, size_hint s = Some n /\ n <> 32 /\ d = InvalidLength n) \/
   ((size_hint s = None \/ size_hint s = Some 32) /\ elements_blame true (elements s) d)).
Proof.
  intros F. unfold bytes_visit_seq. cbv zeta.
  set (go := bind (seq_fill 32 0 (uninit 32) (elements s)) _).
  assert (GO : go = Ret (DErr d) <-> elements_blame true (elements s) d).
  { subst go. destruct (elements_cases _ F) as [(a & w & r & E & L)|[(a & w & r & E & L)|[(a & b & r & E & L)|[(a & E & L)|(a & E & L)]]]]; rewrite E.
    - pose proof (fill_short 32 [] 32 a (DErr (ElementError w) :: r) L (le_n _) (or_intror (ex_intro _ _ (ex_intro _ r eq_refl)))) as X.
      cbn [length Z.of_nat] in X. rewrite filled_nil in X. rewrite X. cbn [bind]. rewrite derr, blame_err by lia. reflexivity.
    - pose proof (fill_ok 32 [] 32 a (DErr (ElementError w) :: r) L (le_n _)) as X. cbn [length Z.of_nat] in X. rewrite filled_nil in X. rewrite X.
      cbn [bind seq_end next]. rewrite derr, blame_err by lia. reflexivity.
    - pose proof (fill_ok 32 [] 32 a (DOk b :: r) L (le_n _)) as X. cbn [length Z.of_nat] in X. rewrite filled_nil in X. rewrite X.
      cbn [bind seq_end next]. rewrite derr, snoc_DOk, blame_long by (rewrite app_length; cbn [length]; lia). reflexivity.
    - pose proof (fill_ok 32 [] 32 a [] L (le_n _)) as X. cbn [length Z.of_nat app] in X. rewrite filled_nil, app_nil_r in X. rewrite X.
      cbn [bind seq_end next]. pose proof (filled_read a (32 - 32)) as R. rewrite L in R. change (Z.of_nat 32) with 32 in R. rewrite R. cbn [bind].
      rewrite blame_done by lia. split; [intros H; discriminate (ret_inj _ _ H)|lia].
    - pose proof (fill_short 32 [] 32 a [] L (le_n _) (or_introl eq_refl)) as X. cbn [length Z.of_nat] in X. rewrite filled_nil, app_nil_r in X. rewrite X.
      cbn [bind]. rewrite derr, blame_done by lia. cbn [Nat.add]. tauto. }
  clearbody go. destruct (size_hint s) as [n|].
  - destruct (Z.eqb_spec n 32) as [->|NE]; cbn [negb].
    + rewrite GO. split; [auto|]. intros [(n & E & NE & _)|(_ & H)]; [congruence|exact H].
    + rewrite derr. split; [intros ->; left; exists n; auto|]. intros [(m & E & _ & ->)|([E|E] & _)]; congruence.
  - rewrite GO. split; [auto|]. intros [(n & E & _)|(_ & H)]; [discriminate|exact H].
Qed.
Lemma compressed_seq_err {A} c o ext (f : list Z -> A) s d : foreign_errors (elements s) ->
  (forall l, (length l <= 32)%nat -> exists x, compressed_visit_bytes c o ext f l = Ret (DOk x)) ->
  (compressed_visit_seq c o ext f s = Ret (DErr d) <->
   (exists n, size_hint s = Some n /\ 32 < n /\ d = InvalidLength n) \/
   ((forall n, size_hint s = Some n -> n <= 32) /\ elements_blame false (elements s) d)).
Proof.
  intros F CV. unfold compressed_visit_seq. cbv zeta.
  set (go := bind (seq_take 32 0 (uninit 32) (elements s)) _).
  assert (GO : go = Ret (DErr d) <-> elements_blame false (elements s) d).
  { assert (DONE : forall a, (length a <= 32)%nat -> elements s = map DOk a -> go <> Ret (DErr d)).
    { intros a L E. subst go. rewrite E. pose proof (take_ok 32 [] 32 a [] L (le_n _) (fun _ => eq_refl)) as X. rewrite app_nil_r in X. cbn [length Z.of_nat app] in X.
      rewrite filled_nil in X. rewrite X. cbn [bind seq_end next]. rewrite filled_read. destruct (CV a L) as (x & CX). destruct (Z.of_nat (length a) =? 32); cbn [bind]; rewrite CX; discriminate. }
    destruct (elements_cases _ F) as [(a & w & r & E & L)|[(a & w & r & E & L)|[(a & b & r & E & L)|[(a & E & L)|(a & E & L)]]]].
    4,5: rewrite E, blame_done by lia; split; [intros H; exfalso; apply (DONE a); [lia|exact E|exact H]|intros (H & _); discriminate].
    all: clear DONE; subst go; rewrite E.
    - pose proof (take_err 32 [] 32 a (ElementError w) r L (le_n _)) as X. cbn [length Z.of_nat] in X. rewrite filled_nil in X. rewrite X.
      cbn [bind]. rewrite derr, blame_err by lia. reflexivity.
    - pose proof (take_ok 32 [] 32 a (DErr (ElementError w) :: r) ltac:(lia) (le_n _) ltac:(lia)) as X. cbn [length Z.of_nat app] in X. rewrite filled_nil in X. rewrite X.
      cbn [bind]. rewrite L. change (Z.of_nat 32 =? 32) with true. cbv iota. cbn [seq_end next]. rewrite derr, blame_err by lia. reflexivity.
    - pose proof (take_ok 32 [] 32 a (DOk b :: r) ltac:(lia) (le_n _) ltac:(lia)) as X. cbn [length Z.of_nat app] in X. rewrite filled_nil in X. rewrite X.
      cbn [bind]. rewrite L. change (Z.of_nat 32 =? 32) with true. cbv iota. cbn [seq_end next].
      rewrite derr, snoc_DOk, blame_long by (rewrite app_length; cbn [length]; lia). reflexivity. }
  clearbody go. destruct (size_hint s) as [n|].
  - destruct (Z.ltb_spec 32 n) as [G|G].
    + rewrite derr. split; [intros ->; left; exists n; auto|]. intros [(m & E & _ & ->)|(H & _)]; [congruence|]. specialize (H n eq_refl). lia.
    + rewrite GO. split; [right; split; [intros m E; inversion E; lia|assumption]|]. intros [(m & E & H & _)|(_ & H)]; [|exact H]. inversion E. lia.
  - rewrite GO. split; [right; split; [discriminate|assumption]|]. intros [(m & E & _)|(_ & H)]; [discriminate|exact H].
Qed.

Lemma seq_report c k (short : bool) s e : (short = true <-> exists o, k = Bytes o) ->
  ((exists d, elements_blame short (elements s) d /\ e = report (wanted c k) d) <->
   (exists a w r, elements s = map DOk a ++ DErr (ElementError w) :: r /\ (length a <= 32)%nat /\ e = Foreign w) \/
   (exists a r, elements s = map DOk a ++ r /\ length a = 33%nat /\ e = Wrong_length 33 (wanted c k)) \/
   (exists o a, k = Bytes o /\ elements s = map DOk a /\ (length a < 32)%nat /\ e = Wrong_length (Z.of_nat (length a)) (wanted c k))).
Proof.
  intros K. unfold elements_blame. split.
  - intros (d & [(a & w & r & E & L & ->)|[(a & r & E & L & ->)|(S & a & E & L & ->)]] & ->).
    + left. exists a, w, r. auto.
    + right. left. exists a, r. auto.
    + right. right. apply K in S. destruct S as (o & EK). exists o, a. auto.
  - intros [(a & w & r & E & L & ->)|[(a & r & E & L & ->)|(o & a & EK & E & L & ->)]].
    + exists (ElementError w). split; [|reflexivity]. left. exists a, w, r. auto.
    + exists (InvalidLength 33). split; [|reflexivity]. right. left. exists a, r. auto.
    + exists (InvalidLength (Z.of_nat (length a))). split; [|reflexivity]. right. right. split; [apply K; exists o; exact EK|]. exists a. auto.
Qed.
Lemma bytes_seq_call {A} c o (f : list Z -> A) u s e : foreign_errors (elements s) ->
  (call (wanted c (Bytes o)) (Some (bytes_visit_seq f)) u s = Ret (Rejected e) <-> seq_blames c (Bytes o) s e).
Proof.
  intros F. rewrite call_rej. unfold seq_blames. rewrite <- (seq_report c (Bytes o) true s e) by (split; [eauto|reflexivity]). split.
  - intros (d & H & ->). apply (bytes_seq_err f s d F) in H. destruct H as [(n & E & NE & ->)|(HH & B)]; [left|right].
    + exists n. split; [exact E|]. split; [|reflexivity]. rewrite hint_bytes. intros [X|X]; congruence.
    + split; [apply hint_bytes; exact HH|]. exists d. auto.
  - intros [(n & E & NE & ->)|(HH & d & B & ->)].
    + exists (InvalidLength n). split; [|reflexivity]. apply (bytes_seq_err f s _ F). left. exists n. split; [exact E|]. split; [|reflexivity].
      intros ->. apply NE, hint_bytes. auto.
    + exists d. split; [|reflexivity]. apply (bytes_seq_err f s d F). right. split; [apply hint_bytes in HH; exact HH|exact B].
Qed.
Lemma compressed_seq_call {A} c o ext (f : list Z -> A) u s e : usize_ok c -> foreign_errors (elements s) ->
  (call (wanted c (Compressed o)) (Some (compressed_visit_seq c (resolve c o) ext f)) u s = Ret (Rejected e) <-> seq_blames c (Compressed o) s e).
Proof.
  intros U F. rewrite call_rej. unfold seq_blames. rewrite <- (seq_report c (Compressed o) false s e) by (split; [discriminate|intros (o' & X); discriminate]).
  assert (CV : forall l, (length l <= 32)%nat -> exists x, compressed_visit_bytes c (resolve c o) ext f l = Ret (DOk x)).
  { intros l L. destruct (expand_of c (resolve c o) ext f l U ltac:(lia)) as (b & _ & E). eexists. exact E. }
  split.
  - intros (d & H & ->). apply (compressed_seq_err _ _ _ f s d F CV) in H. destruct H as [(n & E & NE & ->)|(HH & B)]; [left|right].
    + exists n. split; [exact E|]. split; [|reflexivity]. rewrite hint_compressed. intros X. specialize (X n E). lia.
    + split; [apply hint_compressed; exact HH|]. exists d. auto.
  - intros [(n & E & NE & ->)|(HH & d & B & ->)].
    + exists (InvalidLength n). split; [|reflexivity]. apply (compressed_seq_err _ _ _ f s _ F CV). left. exists n. split; [exact E|]. split; [|reflexivity].
      destruct (Z.ltb_spec 32 n) as [G|G]; [exact G|]. exfalso. apply NE, hint_compressed. intros m E'. rewrite E in E'. inversion E'. lia.
    + exists d. split; [|reflexivity]. apply (compressed_seq_err _ _ _ f s d F CV). right. split; [apply hint_compressed with (o := o); exact HH|exact B].
Qed.
Lemma bytes_length_call {A} exp (f : list Z -> A) u l e :
  call exp (Some (bytes_visit_bytes f)) u l = Ret (Rejected e) <-> length l <> 32%nat /\ e = Wrong_length (Z.of_nat (length l)) exp.
Proof.
  rewrite call_rej. unfold bytes_visit_bytes. destruct (Z.eqb_spec (Z.of_nat (length l)) 32) as [E|E]; split.
  - intros (d & H & _). discriminate (ret_inj _ _ H).
  - lia.
  - intros (d & H & ->). apply derr in H. subst d. split; [lia|reflexivity].
  - intros (_ & ->). eexists. split; [reflexivity|reflexivity].
Qed.
Lemma compressed_length_call {A} c o ext exp (f : list Z -> A) u l e : usize_ok c ->
  (call exp (Some (compressed_visit_bytes c o ext f)) u l = Ret (Rejected e) <-> (32 < length l)%nat /\ e = Wrong_length (Z.of_nat (length l)) exp).
Proof.
  intros U. rewrite call_rej. destruct (le_lt_dec (length l) 32) as [L|L].
  - destruct (expand_of c o ext f l U ltac:(lia)) as (b & _ & E). rewrite E. split; [intros (d & H & _); discriminate (ret_inj _ _ H)|lia].
  - unfold compressed_visit_bytes. replace (32 <? Z.of_nat (length l)) with true by lia. split.
    + intros (d & H & ->). apply derr in H. subst d. split; [lia|reflexivity].
    + intros (_ & ->). eexists. split; [reflexivity|reflexivity].
Qed.

(** ** The modules *)

Lemma wrong_type_call {A} i u exp e : (forall u', found i u' <-> u' = u) ->
  (Ret (@Rejected A (Wrong_type u exp)) = Ret (Rejected e) <-> exists u', found i u' /\ e = Wrong_type u' exp).
Proof.
  intros H. rewrite rejected. split; [intros ->; exists u; split; [apply H|]; reflexivity|].
  intros (u' & F & ->). apply H in F. subst u'. reflexivity.
Qed.
Lemma found_char ch u : input_ok (In_char ch) -> (found (In_char ch) u <-> u = Ux_str (encode_utf8 ch)).
Proof. intros H. exact (the_char (fun l => u = Ux_str l) ch H). Qed.

Lemma format_blames {A} c signed k (p : list Z -> res (result A)) i e : (forall s err, p s = Ret (Err err) <-> text_blames signed k s err) ->
  match k with Plain | Decimal | Prefixed => True | _ => False end -> input_ok i ->
  (visit (format_visitor p) i = Ret (Rejected e) <-> blames c signed k i e).
Proof.
  intros PE K HI.
  assert (W : wanted c k = "a formatted 256-bit integer"%string) by (destruct k; try contradiction; reflexivity).
  assert (KO : kind_ok k i = match i with In_char _ | In_str _ _ | In_bytes _ _ => true | _ => false end) by (destruct k; try contradiction; destruct i; reflexivity).
  unfold blames. rewrite KO, W.
  destruct i; try destruct w; cbn [visit format_visitor on_i64 on_u64 on_i128 on_u128 on_f32 on_f64 on_str on_bytes on_seq expecting];
    try (cbn [call]; apply wrong_type_call; intros u'; reflexivity).
  - apply (char_call p _ PE). exact HI.
  - apply (str_call p _ PE).
  - rewrite (bytes_call p _ PE) by exact HI. destruct k; try contradiction; reflexivity.
Qed.
Lemma permissive_visitor_blames {A} c signed (cast : i256 -> A) (p : list Z -> res (result A)) i e :
  (forall s err, p s = Ret (Err err) <-> text_blames signed Permissive s err) -> input_ok i ->
  (visit (permissive_visitor c cast p) i = Ret (Rejected e) <-> blames c signed Permissive i e).
Proof.
  intros PE HI.
  assert (INT : forall exp u v, call exp (Some (visit_int cast c)) u v = Ret (Rejected e) <-> False).
  { intros exp u v. rewrite call_rej. split; [intros (d & H & _); discriminate (ret_inj _ _ H)|contradiction]. }
  unfold blames.
  destruct i; try destruct w; cbn [visit permissive_visitor on_i64 on_u64 on_i128 on_u128 on_f32 on_f64 on_str on_bytes on_seq expecting kind_ok];
    try (apply INT); try (cbn [call]; apply wrong_type_call; intros u'; reflexivity).
  - rewrite call_rej. split.
    + intros (d & H & X). apply f32_err in H; [|apply of_bits_m; cbn; lia]. exact (float_report _ _ _ _ _ _ X H).
    + intros H. apply (float_unreport (wanted c Permissive)) in H. destruct H as (d & H & X). exists d. split; [|exact X]. apply f32_err; [apply of_bits_m; cbn; lia|exact H].
  - rewrite call_rej. split.
    + intros (d & H & X). apply f64_err in H; [|apply of_bits_m; cbn; lia]. exact (float_report _ _ _ _ _ _ X H).
    + intros H. apply (float_unreport (wanted c Permissive)) in H. destruct H as (d & H & X). exists d. split; [|exact X]. apply f64_err; [apply of_bits_m; cbn; lia|exact H].
  - apply (char_call p _ PE). exact HI.
  - apply (str_call p _ PE).
Qed.
Lemma bytes_blames {A} c signed o (f : list Z -> A) i e : input_ok i -> errors_foreign i ->
  (visit (bytes_visitor (resolve c o) f) i = Ret (Rejected e) <-> blames c signed (Bytes o) i e).
Proof.
  intros HI HF. unfold blames.
  destruct i; try destruct w; cbn [visit bytes_visitor on_i64 on_u64 on_i128 on_u128 on_f32 on_f64 on_str on_bytes on_seq expecting kind_ok];
    try (cbn [call]; apply wrong_type_call; intros u'; reflexivity).
  - apply wrong_type_call. intros u'. apply found_char. exact HI.
  - apply bytes_length_call.
  - apply (bytes_seq_call c o f). exact HF.
Qed.
Lemma compressed_blames {A} c signed o ext (f : list Z -> A) i e : usize_ok c -> input_ok i -> errors_foreign i ->
  (visit (compressed_visitor c (resolve c o) ext f) i = Ret (Rejected e) <-> blames c signed (Compressed o) i e).
Proof.
  intros U HI HF. unfold blames.
  destruct i; try destruct w; cbn [visit compressed_visitor on_i64 on_u64 on_i128 on_u128 on_f32 on_f64 on_str on_bytes on_seq expecting kind_ok];
    try (cbn [call]; apply wrong_type_call; intros u'; reflexivity).
  - apply wrong_type_call. intros u'. apply found_char. exact HI.
  - apply compressed_length_call. exact U.
  - apply (compressed_seq_call c o ext f); assumption.
Qed.

(** C73: the reason every module gives *)
Lemma u_visit_blames c k i e : usize_ok c -> input_ok i -> errors_foreign i ->
  (visit (u_visitor c k) i = Ret (Rejected e) <-> blames c false k i e).
Proof.
  intros U HI HF. destruct k; cbn [u_visitor].
  - apply format_blames; [intros; apply u_text_err|exact I|exact HI].
  - apply format_blames; [intros; apply u_text_err|exact I|exact HI].
  - apply format_blames; [intros; apply u_text_err|exact I|exact HI].
  - apply permissive_visitor_blames; [intros s err; rewrite permissive_blames; apply u_text_err|exact HI].
  - apply bytes_blames; assumption.
  - apply compressed_blames; assumption.
Qed.
Lemma i_visit_blames c k i e : usize_ok c -> input_ok i -> errors_foreign i ->
  (visit (i_visitor c k) i = Ret (Rejected e) <-> blames c true k i e).
Proof.
  intros U HI HF. destruct k; cbn [i_visitor].
  - apply format_blames; [intros; apply i_text_err|exact I|exact HI].
  - apply format_blames; [intros; apply i_text_err|exact I|exact HI].
  - apply format_blames; [intros; apply i_text_err|exact I|exact HI].
  - apply permissive_visitor_blames; [intros s err; rewrite permissive_blames; apply i_text_err|exact HI].
  - apply bytes_blames; assumption.
  - apply compressed_blames; assumption.
Qed.
(** every rejected input has exactly one reason; acceptance and rejection exclude each other *)
Lemma blames_or_means c k i : usize_ok c -> input_ok i -> errors_foreign i ->
  ((exists z, means c false k i z) \/ exists e, blames c false k i e) /\
  ((exists z, means c true k i z) \/ exists e, blames c true k i e) /\
  (forall signed z e, ~ (means c signed k i z /\ blames c signed k i e)) /\
  (forall signed e e', blames c signed k i e -> blames c signed k i e' -> e = e').
Proof.
  intros U HI HF. split; [|split; [|split]].
  - destruct (proj2 (u_visit_means c k i (uof c 0) U HI)) as ([x|e] & E).
    + left. apply u_visit_means in E; try assumption. destruct E as (z & M & _). exists z. exact M.
    + right. exists e. apply u_visit_blames; assumption.
  - destruct (proj2 (i_visit_means c k i (iof c 0) U HI)) as ([x|e] & E).
    + left. apply i_visit_means in E; try assumption. destruct E as (z & M & _). exists z. exact M.
    + right. exists e. apply i_visit_blames; assumption.
  - intros [|] z e [M B].
    + apply i_visit_blames in B; try assumption. assert (E : visit (i_visitor c k) i = Ret (Accepted (iof c z))) by (apply i_visit_means; eauto). rewrite E in B. discriminate (ret_inj _ _ B).
    + apply u_visit_blames in B; try assumption. assert (E : visit (u_visitor c k) i = Ret (Accepted (uof c z))) by (apply u_visit_means; eauto). rewrite E in B. discriminate (ret_inj _ _ B).
  - intros [|] e e' B B'.
    + apply i_visit_blames in B; try assumption. apply i_visit_blames in B'; try assumption. rewrite B in B'. apply ret_inj in B'. congruence.
    + apply u_visit_blames in B; try assumption. apply u_visit_blames in B'; try assumption. rewrite B in B'. apply ret_inj in B'. congruence.
Qed.

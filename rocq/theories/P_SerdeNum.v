(** * The permissive visitor: proofs *)

From Coq Require Import ZArith String List Bool Lia.
From Verif Require Import M_Prim M_Words M_Ops M_IntApi M_Convert M_Float M_Parse M_Serde
  Spec Spec_Convert Spec_Float Spec_Parse Spec_Serde
  P_Words P_AddSub P_Ops P_Forms P_Mul P_Convert P_Round P_Parse P_Serde.
Import ListNotations.
Open Scope Z_scope.

Lemma visit_ints c v : - 2 ^ 127 <= v < 2 ^ 128 ->
  visit_int i_cast c v = Ret (DOk (iof c v)) /\ visit_int u_cast c v = Ret (DOk (uof c v)).
Proof.
  intros H. unfold visit_int, i_cast, u_cast. rewrite prim_as_i256_of by exact H. rewrite i_as_u256_of. auto.
Qed.

Lemma rnd64_small z : Z.abs z <= 2 ^ 53 -> rnd F64 z = Fin z.
Proof.
  intros H. unfold rnd. cbn [f_digits F64].
  assert (E : rne 53 (Z.abs z) = Z.abs z).
  { destruct (Z.eq_dec (Z.abs z) (2 ^ 53)) as [->|]; [reflexivity|]. apply rne_small. lia. }
  rewrite E. replace (Z.sgn z * Z.abs z) with z by (lia).
  assert (L : 2 ^ 53 < 2 ^ f_emax F64) by (vm_compute; reflexivity). generalize dependent (2 ^ f_emax F64). intros q L. replace (q <=? Z.abs z) with false by lia. reflexivity.
Qed.

Definition nonneg_m (x : float) : Prop := match x with FNum _ m _ => 0 <= m | _ => True end.
Lemma of_bits_m f b : 1 <= f_digits f -> nonneg_m (f_of_bits f b).
Proof.
  intros H. unfold f_of_bits. assert (0 <= b mod 2 ^ (f_digits f - 1)) by (apply Z.mod_pos_bound, Z.pow_pos_nonneg; lia).
  assert (0 <= 2 ^ (f_digits f - 1)) by (apply Z.pow_nonneg; lia).
  destruct (_ =? _); [destruct (_ =? _); exact I|]. destruct (_ =? 0); cbn [nonneg_m]; lia.
Qed.

Lemma ret_dok {A} (a b : A) : Ret (DOk a) = Ret (DOk b) -> a = b.
Proof. intros E. apply ret_inj in E. inversion E. reflexivity. Qed.

Lemma f64_gen {A} (cast : i256 -> A) c x : nonneg_m x ->
  (forall z, f_is x z -> - 2 ^ 53 <= z < 2 ^ 53 -> visit_f64 cast c x = Ret (DOk (cast (iof c z)))) /\
  ((~ exists z, f_is x z /\ - 2 ^ 53 <= z < 2 ^ 53) -> exists m, visit_f64 cast c x = Ret (DErr (Custom m))).
Proof.
  intros HM. unfold visit_f64. destruct x as [|neg|neg m e]; cbn [f_is nonneg_m] in *.
  - split; [contradiction|intros _; eexists; reflexivity].
  - split; [contradiction|intros _; destruct neg; eexists; reflexivity].
  - cbv zeta. unfold f_ge, f_lt, f_eq, f_as_i64. cbn [f_cmp]. set (M := if neg then - m else m).
    destruct (Z.leb_spec 0 e) as [HE|HE].
    + assert (HP : 0 < 2 ^ e) by (apply Z.pow_pos_nonneg; lia).
      replace (if neg then - (m * 2 ^ e) else m * 2 ^ e) with (M * 2 ^ e) by (unfold M; destruct neg; lia). set (V := M * 2 ^ e).
      destruct (Z.compare_spec V (- 2 ^ 53)) as [C1|C1|C1]; [| |destruct (Z.compare_spec V (2 ^ 53)) as [C2|C2|C2]].
      all: destruct (Z.compare_spec V (2 ^ 53)) as [D|D|D]; try lia; cbn [andb negb].
      all: split; [intros z Hz R; subst z; try lia|intros NO].
      all: try (eexists; reflexivity).
      all: try (exfalso; apply NO; exists V; split; [reflexivity|lia]).
      all: replace (V <? - 2 ^ 63) with false by lia; replace (2 ^ 63 - 1 <? V) with false by lia.
      all: rewrite rnd64_small by lia; rewrite Z.compare_refl; cbn [negb]; unfold visit_int; rewrite prim_as_i256_of by lia; reflexivity.
    + set (d := 2 ^ (- e)). assert (HP : 0 < d) by (apply Z.pow_pos_nonneg; lia).
      set (a := m / d). assert (HA : m = a * d + m mod d /\ 0 <= m mod d < d) by (split; [unfold a; rewrite Z.mul_comm; apply Z.div_mod; lia|apply Z.mod_pos_bound; lia]).
      set (i := if neg then - a else a).
      assert (IS : forall z, M = z * d -> z = i) by (intros z Hz; unfold M, i in *; destruct neg; nia).
      destruct ((match M ?= - 2 ^ 53 * d with Lt => false | _ => true end) && (match M ?= 2 ^ 53 * d with Lt => true | _ => false end)) eqn:EB; cbn [negb].
      * apply andb_prop in EB. destruct EB as [B1 B2].
        assert (R1 : - 2 ^ 53 * d <= M) by (destruct (Z.compare_spec M (- 2 ^ 53 * d)); try discriminate; lia).
        assert (R2 : M < 2 ^ 53 * d) by (destruct (Z.compare_spec M (2 ^ 53 * d)); try discriminate; lia).
        assert (RI : - 2 ^ 53 <= i <= 2 ^ 53) by (unfold M, i in *; destruct neg; nia).
        replace (i <? - 2 ^ 63) with false by lia. replace (2 ^ 63 - 1 <? i) with false by lia. rewrite rnd64_small by lia.
        split.
        -- intros z Hz R. rewrite <- (IS z Hz), <- Hz, Z.compare_refl. cbn [negb]. unfold visit_int. rewrite prim_as_i256_of by lia. reflexivity.
        -- intros NO. destruct (Z.compare_spec M (i * d)) as [E|E|E]; cbn [negb]; try (eexists; reflexivity).
           exfalso. apply NO. exists i. split; [exact E|]. nia.
      * split; [|intros _; eexists; reflexivity]. intros z Hz R. exfalso.
        assert (R1 : - 2 ^ 53 * d <= M) by nia. assert (R2 : M < 2 ^ 53 * d) by nia.
        destruct (Z.compare_spec M (- 2 ^ 53 * d)), (Z.compare_spec M (2 ^ 53 * d)); try discriminate; lia.
Qed.

Lemma f_range x n : nonneg_m x -> 0 < n -> forall z, f_is x z -> f_ge x (- n) && f_lt x n = ((- n <=? z) && (z <? n)).
Proof.
  intros HM Hn z. destruct x as [|neg|neg m e]; cbn [f_is]; try contradiction. cbv zeta. unfold f_ge, f_lt. cbn [f_cmp]. set (M := if neg then - m else m).
  destruct (Z.leb_spec 0 e) as [HE|HE]; intros HZ.
  - rewrite HZ. destruct (Z.compare_spec z (- n)), (Z.compare_spec z n); lia.
  - assert (HP : 0 < 2 ^ (- e)) by (apply Z.pow_pos_nonneg; lia). rewrite HZ.
    rewrite <- !(Zmult_compare_compat_r _ _ (2 ^ (- e))) by lia. destruct (Z.compare_spec z (- n)), (Z.compare_spec z n); lia.
Qed.

(** C40 for floats *)
Lemma permissive_f64 c b : 
  let x := f_of_bits F64 b in
  (forall z, f_is x z -> - 2 ^ 53 <= z < 2 ^ 53 ->
     visit_f64 i_cast c x = Ret (DOk (iof c z)) /\ visit_f64 u_cast c x = Ret (DOk (uof c z))) /\
  ((~ exists z, f_is x z /\ - 2 ^ 53 <= z < 2 ^ 53) ->
     (exists m, visit_f64 i_cast c x = Ret (DErr (Custom m))) /\ exists m, visit_f64 u_cast c x = Ret (DErr (Custom m))).
Proof.
  cbv zeta. pose proof (of_bits_m F64 b ltac:(cbn; lia)) as HM. destruct (f64_gen i_cast c _ HM) as [A1 A2]. destruct (f64_gen u_cast c _ HM) as [B1 B2].
  split.
  - intros z Hz R. rewrite (A1 z Hz R), (B1 z Hz R). unfold i_cast, u_cast. rewrite i_as_u256_of. auto.
  - intros NO. auto.
Qed.
Lemma permissive_f32 c b : 
  let x := f_of_bits F32 b in
  (forall z, f_is x z -> - 2 ^ 24 <= z < 2 ^ 24 ->
     visit_f32 i_cast c x = Ret (DOk (iof c z)) /\ visit_f32 u_cast c x = Ret (DOk (uof c z))) /\
  ((~ exists z, f_is x z /\ - 2 ^ 24 <= z < 2 ^ 24) ->
     (exists m, visit_f32 i_cast c x = Ret (DErr (Custom m))) /\ exists m, visit_f32 u_cast c x = Ret (DErr (Custom m))).
Proof.
  cbv zeta. pose proof (of_bits_m F32 b ltac:(cbn; lia)) as HM. set (x := f_of_bits F32 b) in *. clearbody x.
  destruct (f64_gen i_cast c _ HM) as [A1 A2]. destruct (f64_gen u_cast c _ HM) as [B1 B2]. unfold visit_f32. cbv zeta.
  split.
  - intros z Hz R. rewrite (f_range x (2 ^ 24) HM ltac:(lia) z Hz). replace ((- 2 ^ 24 <=? z) && (z <? 2 ^ 24)) with true by lia. cbn [negb].
    rewrite (A1 z Hz ltac:(lia)), (B1 z Hz ltac:(lia)). unfold i_cast, u_cast. rewrite i_as_u256_of. auto.
  - intros NO. destruct (f_ge x (- 2 ^ 24) && f_lt x (2 ^ 24)) eqn:EB; cbn [negb]; [|split; eexists; reflexivity].
    assert (NO' : ~ exists z, f_is x z /\ - 2 ^ 53 <= z < 2 ^ 53).
    { intros (z & Hz & R). rewrite (f_range x (2 ^ 24) HM ltac:(lia) z Hz) in EB. apply NO. exists z. split; [exact Hz|]. lia. }
    auto.
Qed.
(** a float is at most one whole number *)
Lemma f_is_unique x z z' : f_is x z -> f_is x z' -> z = z'.
Proof.
  destruct x as [|neg|neg m e]; cbn [f_is]; try contradiction. cbv zeta. destruct (Z.leb_spec 0 e); intros H1 H2; [congruence|].
  assert (HP : 0 < 2 ^ (- e)) by (apply Z.pow_pos_nonneg; lia). nia.
Qed.

Lemma permissive_str c v x y :
  (u_permissive_visit_str c v = Ret (DOk x) <->
   wf_u x /\ exists pre r, In (pre, r) radix_prefixes /\ reads false 0 MAXU r pre v (Ok (uval c x))) /\
  (i_permissive_visit_str c v = Ret (DOk y) <->
   wf_i y /\ exists pre r, In (pre, r) radix_prefixes /\ reads true MINI MAXI r pre v (Ok (ival c y))).
Proof.
  unfold u_permissive_visit_str, i_permissive_visit_str. rewrite !visit_str_ok. split; [apply u_prefixed_ok|apply i_prefixed_ok].
Qed.

Lemma permissive_int c v : - 2 ^ 127 <= v < 2 ^ 128 ->
  visit_int i_cast c v = Ret (DOk (iof c v)) /\ ival c (iof c v) = v /\
  visit_int u_cast c v = Ret (DOk (uof c v)) /\ uval c (uof c v) = v mod 2 ^ 256 /\ (0 <= v -> uval c (uof c v) = v).
Proof.
  intros H. destruct (visit_ints c v H) as [E1 E2]. rewrite E1, E2, ival_iof, uval_uof, wrap_i_small by lia.
  repeat split. intros. apply Z.mod_small. lia.
Qed.
Lemma permissive_witness c :
  visit_int u_cast c (-1) = Ret (DOk (uof c MAXU)) /\
  f_of_bits F64 0xc340000000000000 = FNum true (2 ^ 52) 1 /\
  visit_f64 i_cast c (FNum true (2 ^ 52) 1) = Ret (DOk (iof c (- 2 ^ 53))) /\
  f_of_bits F64 0xbff0000000000000 = FNum true (2 ^ 52) (-52) /\
  visit_f64 u_cast c (FNum true (2 ^ 52) (-52)) = Ret (DOk (uof c MAXU)).
Proof. destruct c as [d v b w l]. destruct b, l; vm_compute; intuition congruence. Qed.

(** * Binary serialization: proofs *)

From Coq Require Import ZArith String List Bool Lia.
From Verif Require Import M_Prim M_Words M_Intr M_Ops M_UintApi M_IntApi M_Convert M_Float M_Parse M_Fmt M_Serde
  Spec Spec_Bits Spec_Convert Spec_Float Spec_Serde
  P_Words P_AddSub P_Bits P_Mul P_Ops P_Forms P_Count P_Bytes P_Convert P_Fmt P_Serde.
Import ListNotations.
Open Scope Z_scope.

(** ** 32 bytes *)

Lemma order_rev o l : in_order o (in_order o l) = l.
Proof. destruct o; [reflexivity|apply rev_involutive]. Qed.
Lemma order_length o l : length (in_order o l) = length l.
Proof. destruct o; [reflexivity|apply rev_length]. Qed.
Lemma order_ok o l : bytes_ok l -> bytes_ok (in_order o l).
Proof. destruct o; [auto|apply Forall_rev']. Qed.

Lemma to_bytes_of c o x y : wf_u x -> wf_i y ->
  u_to_bytes c o x = in_order o (le_bytes 32 (uval c x)) /\ i_to_bytes c o y = in_order o (le_bytes 32 (ival c y)).
Proof.
  intros Hx Hy.
  assert (HB : is_bytes 32 (le_bytes 32 0)) by (split; [apply le_bytes_length|apply le_bytes_range]).
  destruct (u_bytes_family c x _ Hx HB) as (E1 & E2 & _). destruct (i_bytes_family c y _ Hy HB) as (F1 & F2 & _).
  rewrite digits_le_eq in *. destruct o; cbn [u_to_bytes i_to_bytes in_order]; auto.
Qed.
Lemma from_bytes_of c o l : is_bytes 32 l ->
  u_from_bytes c o l = uof c (value_le (in_order o l)) /\ i_from_bytes c o l = iof c (value_le (in_order o l)).
Proof.
  intros HB. destruct (u_bytes_family c _ l (wf_uof c 0) HB) as (_ & _ & _ & E1 & E2 & _).
  destruct (i_bytes_family c _ l (wf_iof c 0) HB) as (_ & _ & _ & F1 & F2 & _).
  destruct o; cbn [u_from_bytes i_from_bytes in_order]; auto.
Qed.

Lemma bytes_encoding c o x y : wf_u x -> wf_i y ->
  u_ser_bytes c o x = in_order o (digits_le (uval c x)) /\ i_ser_bytes c o y = in_order o (digits_le (ival c y)) /\
  u_ser_bytes c (native c) x = u_to_ne_bytes c x /\ i_ser_bytes c (native c) y = i_to_ne_bytes c y /\
  u_visit_bytes c o (u_ser_bytes c o x) = Ret (DOk x) /\ i_visit_bytes c o (i_ser_bytes c o y) = Ret (DOk y).
Proof.
  intros Hx Hy. rewrite !digits_le_eq. unfold u_ser_bytes, i_ser_bytes. destruct (to_bytes_of c o x y Hx Hy) as [E F].
  split; [exact E|]. split; [exact F|].
  assert (HB : is_bytes 32 (le_bytes 32 0)) by (split; [apply le_bytes_length|apply le_bytes_range]).
  split. { destruct (u_bytes_family c x _ Hx HB) as (_ & _ & N & _). rewrite N. unfold native. destruct (big_endian c); reflexivity. }
  split. { destruct (i_bytes_family c y _ Hy HB) as (_ & _ & N & _). rewrite N. unfold native. destruct (big_endian c); reflexivity. }
  rewrite E, F. unfold u_visit_bytes, i_visit_bytes, bytes_visit_bytes. rewrite !order_length, !le_bytes_length.
  change (Z.of_nat 32 =? 32) with true. cbv iota.
  assert (B : forall v, is_bytes 32 (in_order o (le_bytes 32 v))) by (intros v; split; [rewrite order_length; apply le_bytes_length|apply order_ok, le_bytes_range]).
  destruct (from_bytes_of c o _ (B (uval c x))) as [G _]. destruct (from_bytes_of c o _ (B (ival c y))) as [_ H].
  rewrite G, H, !order_rev, !value_le_bytes, p32. split; do 2 f_equal.
  - rewrite uof_mod. apply uof_uval, Hx.
  - rewrite (iof_cong c _ (ival c y)) by (rewrite Z.mod_mod by lia; reflexivity). apply iof_ival, Hy.
Qed.
Lemma bytes_decoding c o v : bytes_ok v ->
  u_visit_bytes c o v = Ret (if Z.of_nat (length v) =? 32 then DOk (uof c (value_le (in_order o v))) else DErr (InvalidLength (Z.of_nat (length v)))) /\
  i_visit_bytes c o v = Ret (if Z.of_nat (length v) =? 32 then DOk (iof c (value_le (in_order o v))) else DErr (InvalidLength (Z.of_nat (length v)))).
Proof.
  intros H. unfold u_visit_bytes, i_visit_bytes, bytes_visit_bytes. destruct (Z.eqb_spec (Z.of_nat (length v)) 32) as [E|E]; [|auto].
  assert (B : is_bytes 32 v) by (split; [lia|exact H]). destruct (from_bytes_of c o v B) as [E1 E2]. rewrite E1, E2. auto.
Qed.

(** ** Sequences *)

Lemma yields_dec (l : list (de Z)) : (exists a, l = map DOk a) \/ (exists a e r, l = map DOk a ++ DErr e :: r).
Proof.
  induction l as [|[b|e] l IH].
  - left. exists []. reflexivity.
  - destruct IH as [(a & ->)|(a & e & r & ->)]; [left; exists (b :: a); reflexivity|right; exists (b :: a), e, r; reflexivity].
  - right. exists [], e, l. reflexivity.
Qed.
Lemma map_DOk_inj (a b : list Z) : map (@DOk Z) a = map DOk b -> a = b.
Proof. revert b. induction a as [|x a IH]; intros [|y b] H; try discriminate; [reflexivity|]. inversion H. f_equal. auto. Qed.
Lemma no_yield a e r (b : list Z) : map (@DOk Z) a ++ DErr e :: r <> map DOk b.
Proof. revert b. induction a as [|x a IH]; intros [|y b] H; try discriminate. cbn in H. inversion H. eapply IH; eassumption. Qed.

Lemma fill_ok n w m a rest : length a = n -> (n <= m)%nat ->
  seq_fill n (Z.of_nat (length w)) (filled w m) (map DOk a ++ rest) = Ret (DOk (filled (w ++ a) (m - n), rest)).
Proof.
  revert n w m. induction a as [|b a IH]; intros n w m L Hm; cbn [length] in L; subst n.
  - cbn. rewrite app_nil_r, Nat.sub_0_r. reflexivity.
  - cbn [seq_fill map app next]. rewrite filled_write by (cbn [length]; lia). cbn [bind].
    replace (Z.of_nat (length w) + 1) with (Z.of_nat (length (w ++ [b]))) by (rewrite app_length; cbn [length]; lia).
    rewrite IH by (cbn [length]; lia). rewrite <- app_assoc. cbn [app length]. do 4 f_equal. lia.
Qed.
Lemma fill_short n w m a rest : (length a < n)%nat -> (n <= m)%nat -> (rest = [] \/ exists e r, rest = DErr e :: r) ->
  seq_fill n (Z.of_nat (length w)) (filled w m) (map DOk a ++ rest) =
  Ret (DErr match rest with DErr e :: _ => e | _ => InvalidLength (Z.of_nat (length w + length a)) end).
Proof.
  revert n w m. induction a as [|b a IH]; intros n w m L Hm HR; destruct n as [|n]; cbn [length] in L; try lia.
  - cbn [map app]. destruct HR as [->|(e & r & ->)]; cbn [seq_fill next]; [|reflexivity]. do 3 f_equal. cbn [length]. lia.
  - cbn [seq_fill map app next]. rewrite filled_write by (cbn [length]; lia). cbn [bind].
    replace (Z.of_nat (length w) + 1) with (Z.of_nat (length (w ++ [b]))) by (rewrite app_length; cbn [length]; lia).
    rewrite IH; try assumption; try (cbn [length]; lia). do 2 f_equal. destruct rest as [|[|] ?]; try reflexivity; rewrite app_length; cbn [length]; do 2 f_equal; lia.
Qed.
Lemma take_ok n w m a rest : (length a <= n)%nat -> (n <= m)%nat -> ((length a < n)%nat -> rest = []) ->
  seq_take n (Z.of_nat (length w)) (filled w m) (map DOk a ++ rest) =
  Ret (DOk (filled (w ++ a) (m - length a), Z.of_nat (length (w ++ a)), rest)).
Proof.
  revert n w m. induction a as [|b a IH]; intros n w m L Hm HR; cbn [length] in L, HR.
  - rewrite app_nil_r. cbn [length map app]. rewrite Nat.sub_0_r. destruct n as [|n]; [reflexivity|]. rewrite HR by lia. reflexivity.
  - destruct n as [|n]; [lia|]. cbn [seq_take map app next]. rewrite filled_write by (cbn [length]; lia). cbn [bind].
    replace (Z.of_nat (length w) + 1) with (Z.of_nat (length (w ++ [b]))) by (rewrite app_length; cbn [length]; lia).
    rewrite IH by (try (cbn [length]; lia); intros; apply HR; lia). rewrite <- app_assoc. cbn [app length]. replace (m - 1 - length a)%nat with (m - S (length a))%nat by lia. reflexivity.
Qed.
Lemma take_err n w m a e r : (length a < n)%nat -> (n <= m)%nat ->
  seq_take n (Z.of_nat (length w)) (filled w m) (map DOk a ++ DErr e :: r) = Ret (DErr e).
Proof.
  revert n w m. induction a as [|b a IH]; intros n w m L Hm; cbn [length] in L; (destruct n as [|n]; [lia|]); cbn [seq_take map app next]; [reflexivity|].
  rewrite filled_write by (cbn [length]; lia). cbn [bind].
  replace (Z.of_nat (length w) + 1) with (Z.of_nat (length (w ++ [b]))) by (rewrite app_length; cbn [length]; lia).
  apply IH; cbn [length]; lia.
Qed.

Definition hint_is (s : seq_access) (ok : Z -> bool) : bool := match size_hint s with Some n => ok n | None => true end.

(** elements up to the first error or the end, split at 32 *)
Lemma split32 (a : list Z) : (length a < 32)%nat \/ exists p q, a = p ++ q /\ length p = 32%nat.
Proof.
  destruct (Nat.ltb_spec (length a) 32) as [|G]; [left; assumption|right]. exists (firstn 32 a), (skipn 32 a).
  split; [symmetry; apply firstn_skipn|]. rewrite firstn_length. lia.
Qed.
Lemma filled_nil n : filled [] n = uninit n. Proof. reflexivity. Qed.

Lemma bytes_seq_gen {A} (f : list Z -> A) s : 
  (forall l, yields s l -> hint_is s (fun n => n =? 32) = true -> length l = 32%nat -> bytes_visit_seq f s = Ret (DOk (f l))) /\
  ((~ exists l, yields s l /\ hint_is s (fun n => n =? 32) = true /\ length l = 32%nat) -> exists e, bytes_visit_seq f s = Ret (DErr e)).
Proof.
  unfold yields, hint_is, bytes_visit_seq. cbv zeta.
  assert (GO : forall l, elements s = map DOk l -> length l = 32%nat ->
     (let! r := seq_fill 32 0 (uninit 32) (elements s) in
      match r with
      | DErr e => Ret (DErr e)
      | DOk (bytes, l) => match seq_end l with DErr e => Ret (DErr e) | DOk _ => let! bytes := buf_read bytes 0 32 in Ret (DOk (f bytes)) end
      end) = Ret (DOk (f l))).
  { intros l EL L. rewrite EL. pose proof (fill_ok 32 [] 32 l [] L (le_n _)) as E. rewrite app_nil_r in E. cbn [length Z.of_nat app] in E.
    rewrite filled_nil in E. rewrite E. cbn [bind seq_end next]. pose proof (filled_read l (32 - 32)) as R. rewrite L in R. change (Z.of_nat 32) with 32 in R. rewrite R. reflexivity. }
  split.
  - intros l EL HH L. destruct (size_hint s) as [n|]; [rewrite HH; cbn [negb]|]; apply GO; assumption.
  - intros NO. destruct (size_hint s) as [n|]; [destruct (Z.eqb_spec n 32) as [EN|NE]; cbn [negb]; [|eexists; reflexivity]|].
    all: destruct (yields_dec (elements s)) as [(a & EL)|(a & e & r & EL)]; destruct (split32 a) as [SH|(p & q & -> & LP)]; rewrite EL.
    all: try (pose proof (fill_short 32 [] 32 a [] SH (le_n _) (or_introl eq_refl)) as E; cbn [length Z.of_nat] in E; rewrite filled_nil, app_nil_r in E; rewrite E; cbn [bind]; eexists; reflexivity).
    all: try (pose proof (fill_short 32 [] 32 a (DErr e :: r) SH (le_n _) (or_intror (ex_intro _ e (ex_intro _ r eq_refl)))) as E; cbn [length Z.of_nat] in E; rewrite filled_nil in E; rewrite E; cbn [bind]; eexists; reflexivity).
    all: rewrite map_app, <- ?app_assoc.
    all: match goal with LP : length ?p = 32%nat |- context [seq_fill 32 0 (uninit 32) (map DOk ?p ++ ?R)] =>
           pose proof (fill_ok 32 [] 32 p R LP (le_n _)) as E; cbn [length Z.of_nat] in E; rewrite filled_nil in E; rewrite E; cbn [bind] end.
    all: destruct q as [|b q]; cbn [map app seq_end next]; try (eexists; reflexivity).
    all: exfalso; apply NO; exists p; rewrite app_nil_r in EL; auto.
Qed.

Lemma compressed_seq_gen {A} c o ext (f : list Z -> A) s :
  (forall l, yields s l -> hint_is s (fun n => n <=? 32) = true -> (length l <= 32)%nat -> compressed_visit_seq c o ext f s = compressed_visit_bytes c o ext f l) /\
  ((~ exists l, yields s l /\ hint_is s (fun n => n <=? 32) = true /\ (length l <= 32)%nat) -> exists e, compressed_visit_seq c o ext f s = Ret (DErr e)).
Proof.
  unfold yields, hint_is, compressed_visit_seq. cbv zeta.
  assert (GO : forall l, elements s = map DOk l -> (length l <= 32)%nat ->
     (let! r := seq_take 32 0 (uninit 32) (elements s) in
      match r with
      | DErr e => Ret (DErr e)
      | DOk (bytes, i, l) => match (if i =? 32 then seq_end l else DOk tt) with DErr e => Ret (DErr e) | DOk _ => let! bytes := buf_read bytes 0 i in compressed_visit_bytes c o ext f bytes end
      end) = compressed_visit_bytes c o ext f l).
  { intros l EL L. rewrite EL. pose proof (take_ok 32 [] 32 l [] L (le_n _) (fun _ => eq_refl)) as E. rewrite app_nil_r in E. cbn [length Z.of_nat app] in E.
    rewrite filled_nil in E. rewrite E. cbn [bind seq_end next]. rewrite filled_read. destruct (Z.of_nat (length l) =? 32); reflexivity. }
  split.
  - intros l EL HH L. destruct (size_hint s) as [n|]; [replace (32 <? n) with false by lia|]; apply GO; assumption.
  - intros NO. destruct (size_hint s) as [n|]; [destruct (Z.ltb_spec 32 n) as [NE|NE]; [eexists; reflexivity|replace (n <=? 32) with true in NO by lia]|].
    all: destruct (yields_dec (elements s)) as [(a & EL)|(a & e & r & EL)]; destruct (split32 a) as [SH|(p & q & -> & LP)]; rewrite EL.
    all: try (exfalso; apply NO; exists a; split; [exact EL|split; [reflexivity|lia]]).
    all: try (pose proof (take_err 32 [] 32 a e r SH (le_n _)) as E; cbn [length Z.of_nat] in E; rewrite filled_nil in E; rewrite E; cbn [bind]; eexists; reflexivity).
    all: rewrite map_app, <- ?app_assoc.
    all: match goal with LP : length ?p = 32%nat |- context [seq_take 32 0 (uninit 32) (map DOk ?p ++ ?R)] =>
           pose proof (take_ok 32 [] 32 p R ltac:(lia) (le_n _) ltac:(lia)) as E; cbn [length Z.of_nat] in E; rewrite filled_nil in E; rewrite E; cbn [bind app]; rewrite LP end.
    all: change (Z.of_nat 32 =? 32) with true; cbv iota.
    all: destruct q as [|b q]; cbn [map app seq_end next]; try (eexists; reflexivity).
    all: exfalso; apply NO; exists p; rewrite app_nil_r in EL; split; [exact EL|split; [reflexivity|lia]].
Qed.

(** the outcome of [visit_seq] in terms of [visit_bytes] *)
Lemma bytes_seq c o s x y :
  (u_visit_seq c o s = Ret (DOk x) <->
   exists l, yields s l /\ (size_hint s = None \/ size_hint s = Some 32) /\ u_visit_bytes c o l = Ret (DOk x)) /\
  (i_visit_seq c o s = Ret (DOk y) <->
   exists l, yields s l /\ (size_hint s = None \/ size_hint s = Some 32) /\ i_visit_bytes c o l = Ret (DOk y)) /\
  (exists r, u_visit_seq c o s = Ret r) /\ (exists r, i_visit_seq c o s = Ret r).
Proof.
  assert (HI : hint_is s (fun n => n =? 32) = true <-> size_hint s = None \/ size_hint s = Some 32).
  { unfold hint_is. destruct (size_hint s) as [n|]; split; intros H; auto.
    - right. f_equal. lia.
    - destruct H as [H|H]; [discriminate|]. inversion H. reflexivity. }
  assert (G : forall A (f : list Z -> A) z,
    (bytes_visit_seq f s = Ret (DOk z) <-> exists l, yields s l /\ (size_hint s = None \/ size_hint s = Some 32) /\ bytes_visit_bytes f l = Ret (DOk z)) /\
    (exists r, bytes_visit_seq f s = Ret r)).
  { intros A f z. destruct (bytes_seq_gen f s) as [G1 G2].
    assert (D : (exists l, yields s l /\ hint_is s (fun n => n =? 32) = true /\ length l = 32%nat) \/
                ~ (exists l, yields s l /\ hint_is s (fun n => n =? 32) = true /\ length l = 32%nat)).
    { destruct (yields_dec (elements s)) as [(a & EL)|(a & e & r & EL)].
      - destruct (hint_is s (fun n => n =? 32)) eqn:EH; [|right; intros (l & _ & Q & _); discriminate].
        destruct (Nat.eq_dec (length a) 32); [left; exists a; auto|right]. intros (l & Y & _ & L). unfold yields in Y. rewrite EL in Y. apply map_DOk_inj in Y. subst. contradiction.
      - right. intros (l & Y & _). unfold yields in Y. rewrite EL in Y. eapply no_yield; exact Y. }
    assert (VB : forall l w, bytes_visit_bytes f l = Ret (DOk w) <-> length l = 32%nat /\ w = f l).
    { intros l w. unfold bytes_visit_bytes. destruct (Z.eqb_spec (Z.of_nat (length l)) 32) as [E|E]; split; intros H; try discriminate.
      - apply ret_inj in H. inversion H. split; [lia|reflexivity].
      - destruct H as [_ ->]. reflexivity.
      - destruct H. lia. }
    destruct D as [D|D].
    - destruct D as (l & Y & H & L). rewrite (G1 l Y H L). split; [|eexists; reflexivity]. split.
      + intros E. apply ret_inj in E. inversion E. subst z. exists l. split; [exact Y|]. split; [apply HI, H|]. apply VB. auto.
      + intros (l' & Y' & H' & E). apply VB in E. destruct E as [_ ->]. unfold yields in Y, Y'. rewrite Y in Y'. apply map_DOk_inj in Y'. subst. reflexivity.
    - destruct (G2 D) as [e E]. rewrite E. split; [|eexists; reflexivity]. split; [discriminate|].
      intros (l & Y & H & EV). apply VB in EV. exfalso. apply D. exists l. split; [exact Y|]. split; [apply HI, H|apply EV]. }
  destruct (G _ (u_from_bytes c o) x) as [U1 U2]. destruct (G _ (i_from_bytes c o) y) as [I1 I2].
  split; [exact U1|]. split; [exact I1|]. split; [exact U2|exact I2].
Qed.

Lemma compressed_len {A} c o ext (f : list Z -> A) v r : compressed_visit_bytes c o ext f v = Ret (DOk r) -> (length v <= 32)%nat.
Proof. unfold compressed_visit_bytes. destruct (Z.ltb_spec 32 (Z.of_nat (length v))); [discriminate|lia]. Qed.
Lemma compressed_ret {A} c o ext (f : list Z -> A) v : usize_ok c -> exists r, compressed_visit_bytes c o ext f v = Ret r.
Proof.
  intros U. unfold compressed_visit_bytes. destruct (Z.ltb_spec 32 (Z.of_nat (length v))); [eexists; reflexivity|]. cbv zeta. destruct o.
  - unfold copy_range. replace (Z.of_nat (length v) <? 0) with false by lia. rewrite repeat_length. replace (Z.of_nat 32 <? Z.of_nat (length v)) with false by lia.
    replace (Z.of_nat (length v) =? Z.of_nat (length v) - 0) with true by lia. eexists; reflexivity.
  - rewrite usize_sub by (try assumption; lia). cbn [bind]. unfold copy_range. replace (32 <? 32 - Z.of_nat (length v)) with false by lia. rewrite repeat_length.
    replace (Z.of_nat 32 <? 32) with false by lia. replace (Z.of_nat (length v) =? 32 - (32 - Z.of_nat (length v))) with true by lia. eexists; reflexivity.
Qed.
Lemma compressed_seq c o s x y : usize_ok c ->
  (u_compressed_visit_seq c o s = Ret (DOk x) <->
   exists l, yields s l /\ (forall n, size_hint s = Some n -> n <= 32) /\ u_compressed_visit_bytes c o l = Ret (DOk x)) /\
  (i_compressed_visit_seq c o s = Ret (DOk y) <->
   exists l, yields s l /\ (forall n, size_hint s = Some n -> n <= 32) /\ i_compressed_visit_bytes c o l = Ret (DOk y)) /\
  (exists r, u_compressed_visit_seq c o s = Ret r) /\ (exists r, i_compressed_visit_seq c o s = Ret r).
Proof.
  intros U.
  assert (HI : hint_is s (fun n => n <=? 32) = true <-> forall n, size_hint s = Some n -> n <= 32).
  { unfold hint_is. destruct (size_hint s) as [n|]; split; intros H; auto.
    - intros m E. inversion E. lia.
    - specialize (H n eq_refl). lia.
    - discriminate. }
  assert (G : forall A ext (f : list Z -> A) z,
    (compressed_visit_seq c o ext f s = Ret (DOk z) <-> exists l, yields s l /\ (forall n, size_hint s = Some n -> n <= 32) /\ compressed_visit_bytes c o ext f l = Ret (DOk z)) /\
    (exists r, compressed_visit_seq c o ext f s = Ret r)).
  { intros A ext f z. destruct (compressed_seq_gen c o ext f s) as [G1 G2].
    assert (D : (exists l, yields s l /\ hint_is s (fun n => n <=? 32) = true /\ (length l <= 32)%nat) \/
                ~ (exists l, yields s l /\ hint_is s (fun n => n <=? 32) = true /\ (length l <= 32)%nat)).
    { destruct (yields_dec (elements s)) as [(a & EL)|(a & e & r & EL)].
      - destruct (hint_is s (fun n => n <=? 32)) eqn:EH; [|right; intros (l & _ & Q & _); discriminate].
        destruct (Compare_dec.le_dec (length a) 32); [left; exists a; auto|right]. intros (l & Y & _ & L). unfold yields in Y. rewrite EL in Y. apply map_DOk_inj in Y. subst. contradiction.
      - right. intros (l & Y & _). unfold yields in Y. rewrite EL in Y. eapply no_yield; exact Y. }
    destruct D as [D|D].
    - destruct D as (l & Y & H & L). rewrite (G1 l Y H L). split; [|apply compressed_ret, U]. split.
      + intros E. exists l. split; [exact Y|]. split; [apply HI, H|exact E].
      + intros (l' & Y' & H' & E). unfold yields in Y, Y'. rewrite Y in Y'. apply map_DOk_inj in Y'. subst. exact E.
    - destruct (G2 D) as [e E]. rewrite E. split; [|eexists; reflexivity]. split; [discriminate|].
      intros (l & Y & H & EV). apply compressed_len in EV. exfalso. apply D. exists l. split; [exact Y|]. split; [apply HI, H|exact EV]. }
  destruct (G _ u_extend (u_from_bytes c o) x) as [U1 U2]. destruct (G _ i_extend (i_from_bytes c o) y) as [I1 I2].
  split; [exact U1|]. split; [exact I1|]. split; [exact U2|exact I2].
Qed.

(** ** Compressed bytes *)

Lemma value_zeros n : value_le (repeat 0 n) = 0.
Proof. induction n as [|n IH]; [reflexivity|]. cbn [repeat value_le fold_right] in *. unfold value_le in IH. rewrite IH. reflexivity. Qed.
Lemma value_ones n : value_le (repeat 255 n) = 256 ^ Z.of_nat n - 1.
Proof.
  induction n as [|n IH]; [reflexivity|]. cbn [repeat value_le fold_right] in *. unfold value_le in IH. rewrite IH.
  rewrite Nat2Z.inj_succ, Z.pow_succ_r by lia. lia.
Qed.
Lemma pow256 n : 256 ^ Z.of_nat n = 2 ^ (8 * Z.of_nat n).
Proof. rewrite Z.pow_mul_r by lia. reflexivity. Qed.

Lemma expand_of {A} c o ext (f : list Z -> A) v : usize_ok c -> (length v <= 32)%nat ->
  exists bytes, in_order o bytes = in_order o v ++ repeat (ext (last v 0)) (32 - length v) /\
    compressed_visit_bytes c o ext f v = Ret (DOk (f bytes)).
Proof.
  intros U L. unfold compressed_visit_bytes. replace (32 <? Z.of_nat (length v)) with false by lia. cbv zeta.
  set (e := ext (last v 0)). destruct o; cbn [in_order].
  - exists (v ++ repeat e (32 - length v)). split; [reflexivity|].
    unfold copy_range. replace (Z.of_nat (length v) <? 0) with false by lia. rewrite repeat_length. replace (Z.of_nat 32 <? Z.of_nat (length v)) with false by lia.
    replace (Z.of_nat (length v) =? Z.of_nat (length v) - 0) with true by lia. cbn [negb bind Z.to_nat firstn app]. rewrite Nat2Z.id, skipn_repeat. reflexivity.
  - exists (repeat e (32 - length v) ++ v). split.
    + rewrite rev_app_distr. f_equal. clear. induction (32 - length v)%nat as [|n IH]; [reflexivity|]. cbn [repeat rev]. rewrite IH. symmetry. apply repeat_cons.
    + rewrite usize_sub by (try assumption; lia). cbn [bind]. unfold copy_range. replace (32 <? 32 - Z.of_nat (length v)) with false by lia. rewrite repeat_length.
      replace (Z.of_nat 32 <? 32) with false by lia. replace (Z.of_nat (length v) =? 32 - (32 - Z.of_nat (length v))) with true by lia. cbn [negb bind].
      rewrite skipn_all2 by (rewrite repeat_length; lia). rewrite app_nil_r. do 4 f_equal.
      replace (Z.to_nat (32 - Z.of_nat (length v))) with (32 - length v)%nat by lia.
      clear. generalize 32%nat. intros n. replace (repeat e n) with (repeat e (n - length v) ++ repeat e (n - (n - length v))) by (rewrite <- repeat_app; f_equal; lia).
      rewrite firstn_app, repeat_length, Nat.sub_diag, firstn_O, app_nil_r. apply firstn_all2. rewrite repeat_length. lia.
Qed.

Lemma last_byte v : bytes_ok v -> 0 <= last v 0 < 256.
Proof. intros H. induction H as [|b v H1 H2 IH]; [cbn; lia|]. cbn [last]. destruct v; [exact H1|exact IH]. Qed.
Lemma i_extend_of b : 0 <= b < 256 -> i_extend b = if 128 <=? b then 255 else 0.
Proof.
  intros H. unfold i_extend, as_u, as_i. change (2 ^ 8) with 256. change (2 ^ (8 - 1)) with 128. rewrite (Z.mod_small b) by lia.
  rewrite Z.shiftr_div_pow2 by lia. change (2 ^ 7) with 128.
  destruct (Z.leb_spec 128 b).
  - replace (b <? 128) with false by lia. replace ((b - 256) / 128) with (-1) by zz. reflexivity.
  - replace (b <? 128) with true by lia. rewrite Z.div_small by lia. reflexivity.
Qed.

Lemma compressed_decoding c o v : usize_ok c -> bytes_ok v ->
  (Z.of_nat (length v) <= 32 ->
   u_compressed_visit_bytes c o v = Ret (DOk (uof c (value_le (in_order o v)))) /\
   i_compressed_visit_bytes c o v =
     Ret (DOk (iof c (value_le (in_order o v) - if 128 <=? last v 0 then 2 ^ (8 * Z.of_nat (length v)) else 0)))) /\
  (32 < Z.of_nat (length v) ->
   u_compressed_visit_bytes c o v = Ret (DErr (InvalidLength (Z.of_nat (length v)))) /\
   i_compressed_visit_bytes c o v = Ret (DErr (InvalidLength (Z.of_nat (length v))))).
Proof.
  intros U H. split; intros L.
  - unfold u_compressed_visit_bytes, i_compressed_visit_bytes.
    destruct (expand_of c o u_extend (u_from_bytes c o) v U ltac:(lia)) as (bu & OU & EU).
    destruct (expand_of c o i_extend (i_from_bytes c o) v U ltac:(lia)) as (bi & OI & EI).
    assert (IB : forall e b, in_order o b = in_order o v ++ repeat e (32 - length v) -> 0 <= e < 256 -> is_bytes 32 b).
    { intros e b E He. rewrite <- (order_rev o b), E. split.
      - rewrite order_length, app_length, order_length, repeat_length. lia.
      - apply order_ok. apply Forall_app. split; [apply order_ok, H|]. clear - He. induction (32 - length v)%nat; constructor; auto. }
    rewrite i_extend_of in OI by (apply last_byte, H). unfold u_extend in OU.
    rewrite EU, EI. rewrite (proj1 (from_bytes_of c o bu (IB _ _ OU ltac:(lia)))).
    rewrite (proj2 (from_bytes_of c o bi (IB _ _ OI ltac:(destruct (128 <=? last v 0); lia)))).
    rewrite OU, OI, !value_le_app, value_zeros, Z.mul_0_r, Z.add_0_r, order_length. split; [reflexivity|]. do 2 f_equal.
    destruct (128 <=? last v 0).
    + rewrite value_ones, !pow256. apply iof_cong.
      replace (value_le (in_order o v) + 2 ^ (8 * Z.of_nat (length v)) * (2 ^ (8 * Z.of_nat (32 - length v)) - 1))
        with (value_le (in_order o v) - 2 ^ (8 * Z.of_nat (length v)) + 1 * 2 ^ 256).
      * apply Z.mod_add. lia.
      * replace (2 ^ 256) with (2 ^ (8 * Z.of_nat (length v)) * 2 ^ (8 * Z.of_nat (32 - length v))) by (rewrite <- Z.pow_add_r by lia; f_equal; lia). lia.
    + rewrite value_zeros. f_equal. lia.
  - unfold u_compressed_visit_bytes, i_compressed_visit_bytes, compressed_visit_bytes. replace (32 <? Z.of_nat (length v)) with true by lia. auto.
Qed.

(** what the serializer keeps: [k] bytes *)
Lemma ser_compressed_of c o v n : usize_ok c -> 0 <= n <= 256 ->
  ser_compressed c o (in_order o (le_bytes 32 v)) (Ret n) = Ret (in_order o (le_bytes (Z.to_nat (32 - n / 8)) v)).
Proof.
  intros U Hn. unfold ser_compressed. cbn [bind]. unfold as_u. rewrite (Z.mod_small n) by (destruct U as [<-|[<-|[<-|[]]]]; lia).
  assert (Hq : 0 <= n / 8 <= 32) by (split; [apply Z.div_pos; lia|apply Z.div_le_upper_bound; lia]). set (q := n / 8) in *.
  assert (FB : forall k, (k <= 32)%nat -> firstn k (le_bytes 32 v) = le_bytes k v).
  { intros k Hk. replace 32%nat with (k + (32 - k))%nat by lia. rewrite le_bytes_app, firstn_app, le_bytes_length, Nat.sub_diag, firstn_O, app_nil_r.
    apply firstn_all2. rewrite le_bytes_length. lia. }
  destruct o; cbn [in_order].
  - rewrite usize_sub by (try assumption; lia). cbn [bind]. rewrite le_bytes_length. replace (Z.of_nat 32 <? 32 - q) with false by lia. f_equal. apply FB. lia.
  - rewrite rev_length, le_bytes_length. replace (Z.of_nat 32 <? q) with false by lia. f_equal. rewrite skipn_rev, le_bytes_length. f_equal.
    replace (32 - Z.to_nat q)%nat with (Z.to_nat (32 - q)) by lia. apply FB. lia.
Qed.

Lemma least_bytes w : 0 <= w < 2 ^ 256 ->
  least (fun k => w < 2 ^ (8 * k)) (32 - (if w =? 0 then 256 else 255 - Z.log2 w) / 8).
Proof.
  intros Hw. destruct (Z.eqb_spec w 0) as [->|N]; [split; [reflexivity|]; split; [reflexivity|]; cbn; intros; lia|].
  pose proof (Z.log2_spec w ltac:(lia)) as LS. assert (0 <= Z.log2 w < 256) by (split; [apply Z.log2_nonneg|apply Z.log2_lt_pow2; lia]).
  set (L := Z.log2 w) in *. assert (E : 32 - (255 - L) / 8 = L / 8 + 1) by zz. rewrite E.
  assert (0 <= L / 8) by zz. split; [lia|]. split.
  - assert (2 ^ Z.succ L <= 2 ^ (8 * (L / 8 + 1))) by (apply Z.pow_le_mono_r; [lia|zz]). lia.
  - intros j Hj C. assert (2 ^ (8 * j) <= 2 ^ L) by (apply Z.pow_le_mono_r; [lia|zz]). lia.
Qed.

(** C39 for U256 *)
Lemma u_compressed c o x : usize_ok c -> wf_u x ->
  exists v, u_ser_compressed c o x = Ret v /\ bytes_ok v /\ value_le (in_order o v) = uval c x /\
    least (fun k => uval c x < 2 ^ (8 * k)) (Z.of_nat (length v)) /\
    u_compressed_visit_bytes c o v = Ret (DOk x).
Proof.
  intros U Hx. pose proof (uval_range c x Hx) as RX. destruct (to_bytes_of c o x (iof c 0) Hx (wf_iof c 0)) as [EB _].
  set (n := if uval c x =? 0 then 256 else 255 - Z.log2 (uval c x)).
  assert (EN : u_leading_bits c x = Ret n).
  { unfold u_leading_bits, u_leading_zeros. rewrite <- (uof_uval c x Hx) at 1. apply ctlz_of. exact RX. }
  assert (Hn : 0 <= n <= 256).
  { unfold n. destruct (Z.eqb_spec (uval c x) 0); [lia|]. pose proof (Z.log2_nonneg (uval c x)). assert (Z.log2 (uval c x) < 256) by (apply Z.log2_lt_pow2; lia). lia. }
  pose proof (least_bytes (uval c x) RX) as LB. fold n in LB.
  unfold u_ser_compressed. rewrite EN, EB, (ser_compressed_of c o _ n U Hn). set (k := 32 - n / 8) in *.
  assert (Hk : 0 <= k <= 32) by (unfold k; zz).
  assert (OKB : bytes_ok (in_order o (le_bytes (Z.to_nat k) (uval c x)))) by (apply order_ok, le_bytes_range).
  assert (LV : Z.of_nat (length (in_order o (le_bytes (Z.to_nat k) (uval c x)))) = k) by (rewrite order_length, le_bytes_length; lia).
  assert (VV : value_le (in_order o (in_order o (le_bytes (Z.to_nat k) (uval c x)))) = uval c x).
  { rewrite order_rev, value_le_bytes, pow256, Z2Nat.id by lia. apply Z.mod_small. destruct LB as (_ & LB & _). lia. }
  eexists. split; [reflexivity|]. split; [exact OKB|]. split; [exact VV|]. split; [rewrite LV; exact LB|].
  destruct (compressed_decoding c o _ U OKB) as [D _]. destruct (D ltac:(lia)) as [D1 _]. rewrite D1, VV, uof_uval by assumption. reflexivity.
Qed.

(** C39 for I256 *)
Lemma least_unique f k k' : least f k -> least f k' -> k = k'.
Proof.
  intros (A & B & C) (A' & B' & C'). destruct (Z.lt_trichotomy k k') as [H|[H|H]]; [exfalso; apply (C' k); [lia|exact B]|exact H|exfalso; apply (C k'); [lia|exact B']].
Qed.
Lemma i_leading_of c x : wf_i x -> exists n, i_leading_bits c x = Ret n /\ 0 <= n <= 256 /\ least (i_fits (ival c x)) (32 - n / 8).
Proof.
  intros Hx. on_i c x. rename nx into v. unfold i_leading_bits. rewrite i_is_negative_of by lia. unfold i_fits.
  destruct (Z.ltb_spec v 0) as [NEG|POS].
  - unfold i_leading_ones, i_leading_zeros, ictlz. rewrite i_op_not_of, i_as_u256_of, ctlz_of by lia. cbn [bind]. set (w := - v - 1).
    destruct (Z.eqb_spec w 0) as [E|E].
    + exists 255. assert (v = -1) by (unfold w in E; lia). clear E w. subst v. split; [reflexivity|]. split; [lia|].
      split; [cbn; lia|]. split; [cbn; lia|]. intros j Hj. assert (j = 0) by (cbn in Hj; lia). subst j. cbn. lia.
    + pose proof (Z.log2_spec w ltac:(lia)) as LS. assert (0 <= Z.log2 w < 255) by (split; [apply Z.log2_nonneg|apply Z.log2_lt_pow2; lia]).
      set (L := Z.log2 w) in *. exists (254 - L). split; [unfold u_sub; replace (0 <=? 255 - L - 1) with true by lia; f_equal; lia|]. split; [lia|].
      assert (EK : 32 - (254 - L) / 8 = (L + 1) / 8 + 1) by zz. rewrite EK. assert (0 <= (L + 1) / 8) by zz. split; [lia|]. split.
      * assert (2 ^ (Z.succ L + 1) <= 2 ^ (8 * ((L + 1) / 8 + 1))) by (apply Z.pow_le_mono_r; [lia|zz]). rewrite Z.pow_add_r in * by lia. lia.
      * intros j Hj C. assert (2 ^ (8 * j) <= 2 ^ (Z.succ L)) by (apply Z.pow_le_mono_r; [lia|zz]). rewrite Z.pow_succ_r in * by lia. lia.
  - unfold i_leading_zeros, ictlz. rewrite i_as_u256_of, ctlz_of by lia. eexists. split; [reflexivity|]. split.
    + destruct (Z.eqb_spec v 0); [lia|]. pose proof (Z.log2_nonneg v). assert (Z.log2 v < 256) by (apply Z.log2_lt_pow2; lia). lia.
    + apply least_bytes. lia.
Qed.

Lemma byte_top v i : 0 <= i -> (128 <=? byte v i) = Z.testbit v (8 * i + 7).
Proof.
  intros Hi. unfold byte. rewrite Z.add_comm, <- (Z.div_pow2_bits v (8 * i) 7) by lia.
  set (q := v / 2 ^ (8 * i)).
  pose proof (Z.mod_pow2_bits_low q 8 7 ltac:(lia)) as E. rewrite <- E. change (2 ^ 8) with 256.
  assert (H : 0 <= q mod 256 < 256) by (apply Z.mod_pos_bound; lia). set (b := q mod 256) in *. clearbody b.
  pose proof (Z.testbit_spec' b 7 ltac:(lia)) as T. change (2 ^ 7) with 128 in T.
  destruct (Z.testbit b 7); cbn [Z.b2z] in T; [assert (b / 128 = 1) by zz; zz|assert (b / 128 = 0) by zz; zz].
Qed.
Lemma last_rev (l : list Z) : last (rev l) 0 = hd 0 l.
Proof. destruct l as [|b l]; [reflexivity|]. cbn [rev hd]. apply last_last. Qed.
Lemma last_top o v k : (1 <= k)%nat -> (128 <=? last (in_order o (le_bytes k v)) 0) = Z.testbit v (match o with LE => 8 * Z.of_nat k - 1 | BE => 7 end).
Proof.
  intros Hk. destruct o; cbn [in_order].
  - destruct k as [|k]; [lia|]. replace (S k) with (k + 1)%nat by lia. rewrite le_bytes_app. cbn [le_bytes]. rewrite last_last.
    rewrite pow256. fold (byte v (Z.of_nat k)). rewrite byte_top by lia. f_equal. lia.
  - rewrite last_rev. destruct k as [|k]; [lia|]. cbn [le_bytes hd]. pose proof (byte_top v 0 ltac:(lia)) as E. unfold byte in E. cbn in E. rewrite Z.div_1_r in E. exact E.
Qed.

Lemma i_compressed c o x : usize_ok c -> wf_i x ->
  exists v, i_ser_compressed c o x = Ret v /\ bytes_ok v /\
    value_le (in_order o v) = ival c x mod 2 ^ (8 * Z.of_nat (length v)) /\
    least (i_fits (ival c x)) (Z.of_nat (length v)) /\
    (i_compressed_visit_bytes c o v = Ret (DOk x) <-> compressed_ok o (ival c x)).
Proof.
  intros U Hx. pose proof (ival_range c x Hx) as RX. destruct (to_bytes_of c o (uof c 0) x (wf_uof c 0) Hx) as [_ EB].
  destruct (i_leading_of c x Hx) as (n & EN & Hn & LB). unfold i_ser_compressed.
  rewrite EN, EB, (ser_compressed_of c o _ n U Hn). set (k := 32 - n / 8) in *. assert (Hk : 0 <= k <= 32) by (unfold k; zz). clearbody k. clear n EN Hn.
  assert (OKB : bytes_ok (in_order o (le_bytes (Z.to_nat k) (ival c x)))) by (apply order_ok, le_bytes_range).
  assert (LV : Z.of_nat (length (in_order o (le_bytes (Z.to_nat k) (ival c x)))) = k) by (rewrite order_length, le_bytes_length; lia).
  assert (VV : value_le (in_order o (in_order o (le_bytes (Z.to_nat k) (ival c x)))) = ival c x mod 2 ^ (8 * k)).
  { rewrite order_rev, value_le_bytes, pow256, Z2Nat.id by lia. reflexivity. }
  eexists. split; [reflexivity|]. split; [exact OKB|]. split; [rewrite LV; exact VV|]. split; [rewrite LV; exact LB|].
  destruct (compressed_decoding c o _ U OKB) as [D _]. destruct (D ltac:(lia)) as [_ D1]. rewrite D1, VV, LV. clear D D1.
  set (b := 128 <=? last (in_order o (le_bytes (Z.to_nat k) (ival c x))) 0).
  assert (TB : b = if k =? 0 then false else Z.testbit (ival c x) (match o with LE => 8 * k - 1 | BE => 7 end)).
  { unfold b. destruct (Z.eqb_spec k 0) as [->|]; [destruct o; reflexivity|]. rewrite last_top by lia. destruct o; [rewrite Z2Nat.id by lia|]; reflexivity. }
  clearbody b. clear OKB LV VV EB. assert (EX : x = iof c (ival c x)) by (symmetry; apply iof_ival, Hx). rewrite EX at 2. clear EX Hx.
  set (v := ival c x) in *. clearbody v. clear x.
  assert (EQ : Ret (DOk (iof c (v mod 2 ^ (8 * k) - (if b then 2 ^ (8 * k) else 0)))) = Ret (DOk (iof c v)) <->
               k = 32 \/ b = (v <? 0)).
  { assert (I : forall p q, Ret (DOk (iof c p)) = Ret (DOk (iof c q)) <-> p mod 2 ^ 256 = q mod 2 ^ 256).
    { intros p q. split; intros E.
      - apply ret_inj in E. inversion E as [E']. pose proof (f_equal (fun z => uval c (i_as_u256 z)) E') as E2. cbn beta in E2. rewrite !i_as_u256_of, !uval_uof in E2. exact E2.
      - do 2 f_equal. apply iof_cong. exact E. }
    rewrite I. destruct LB as (_ & FIT & _). unfold i_fits in FIT.
    assert (HP : 0 < 2 ^ (8 * k) <= 2 ^ 256) by (split; [apply Z.pow_pos_nonneg; lia|apply Z.pow_le_mono_r; lia]).
    assert (H32 : 2 ^ (8 * k) = 2 ^ 256 <-> k = 32) by (split; [intros E; apply Z.pow_inj_r in E; lia|intros ->; reflexivity]).
    set (P := 2 ^ (8 * k)) in *. clearbody P.
    assert (DIFF : forall d, (v + d) mod 2 ^ 256 = v mod 2 ^ 256 <-> d mod 2 ^ 256 = 0).
    { intros d. split; intros E.
      - replace d with ((v + d) - v) by lia. rewrite Zminus_mod, E, Z.sub_diag. reflexivity.
      - rewrite Z.add_mod, E, Z.add_0_r, Z.mod_mod by lia. reflexivity. }
    destruct (Z.ltb_spec v 0) as [NEG|POS].
    - assert (E : v mod P = v + P) by (rewrite <- (Z.mod_add v 1 P) by lia; rewrite Z.mul_1_l; apply Z.mod_small; lia). rewrite E.
      destruct b; [split; [auto|intros _; f_equal; lia]|].
      replace (v + P - 0) with (v + P) by lia. rewrite DIFF. split.
      + intros M. left. apply H32. assert (P < 2 ^ 256 -> False) by (intros; rewrite Z.mod_small in M; lia). lia.
      + intros [K|K]; [apply H32 in K; rewrite K; reflexivity|discriminate].
    - rewrite (Z.mod_small v P) by lia. destruct b; [|split; [auto|intros _; f_equal; lia]].
      replace (v - P) with (v + - P) by lia. rewrite DIFF. split.
      + intros M. left. apply H32. assert (P < 2 ^ 256 -> False); [|lia]. intros. replace (- P) with (2 ^ 256 - P + (-1) * 2 ^ 256) in M by lia. rewrite Z.mod_add, Z.mod_small in M; lia.
      + intros [K|K]; [apply H32 in K; rewrite K; reflexivity|discriminate]. }
  rewrite EQ. clear EQ. destruct LB as (_ & FIT & LEAST). unfold compressed_ok, i_fits in *. subst b.
  destruct (Z.ltb_spec v 0) as [NEG|POS].
  - assert (K0 : k <> 0) by (intros ->; change (2 ^ (8 * 0)) with 1 in FIT; lia). replace (k =? 0) with false by lia. destruct o.
    + split; [auto|intros _; right].
      assert (E : v / 2 ^ (8 * k - 1) = -1).
      { assert (2 ^ (8 * k) = 2 * 2 ^ (8 * k - 1)) by (rewrite <- Z.pow_succ_r by lia; f_equal; lia). assert (0 < 2 ^ (8 * k - 1)) by (apply Z.pow_pos_nonneg; lia).
        symmetry. apply Z.div_unique with (v + 2 ^ (8 * k - 1)); lia. }
      pose proof (Z.testbit_spec' v (8 * k - 1) ltac:(lia)) as T. rewrite E in T. destruct (Z.testbit v (8 * k - 1)); [reflexivity|discriminate].
    + assert (K32 : k = 32 <-> v < - 2 ^ 247).
      { split.
        - intros ->. specialize (LEAST 31 ltac:(lia)). change (2 ^ (8 * 31)) with (2 * 2 ^ 247) in LEAST. lia.
        - intros H. destruct (Z.eq_dec k 32) as [|NE]; [assumption|exfalso].
          assert (2 ^ (8 * k) <= 2 ^ 248) by (apply Z.pow_le_mono_r; lia). change (2 ^ 248) with (2 * 2 ^ 247) in *. lia. }
      rewrite K32. reflexivity.
  - destruct o.
    + split.
      * intros H. destruct (Z.eq_dec v 0) as [|NV]; [right; left; assumption|right; right].
        pose proof (Z.log2_spec v ltac:(lia)) as LS. pose proof (Z.log2_nonneg v) as LN. set (L := Z.log2 v) in *.
        intros M. assert (EK : k = (L + 1) / 8).
        { assert (8 * k <= L + 1 \/ L + 1 < 8 * k) as [G|G] by lia.
          - assert (L < 8 * k) by (apply Z.log2_lt_pow2 in FIT; [exact FIT|lia]). zz.
          - exfalso. apply (LEAST (k - 1)); [split; [|lia]|].
            + zz.
            + assert (2 ^ Z.succ L <= 2 ^ (8 * (k - 1))) by (apply Z.pow_le_mono_r; [lia|zz]). lia. }
        assert (EL : 8 * k - 1 = L) by zz. destruct H as [H|H].
        -- subst k. assert (L < 255) by (apply Z.log2_lt_pow2; lia). lia.
        -- replace (k =? 0) with false in H by lia. rewrite EL in H. unfold L in H. rewrite Z.bit_log2 in H by lia. discriminate.
      * intros [H|[->|H]]; [lia| |].
        -- right. destruct (k =? 0); [reflexivity|]. apply Z.testbit_0_l.
        -- right. destruct (Z.eqb_spec k 0) as [|NK]; [reflexivity|]. destruct (Z.testbit v (8 * k - 1)) eqn:T; [exfalso|reflexivity].
           assert (EL : 8 * k - 1 = Z.log2 v).
           { assert (v <> 0) by (intros ->; rewrite Z.testbit_0_l in T; discriminate). assert (Z.log2 v < 8 * k) by (apply Z.log2_lt_pow2; lia).
             destruct (Z.eq_dec (8 * k - 1) (Z.log2 v)) as [E|NE]; [exact E|exfalso]. rewrite Z.bits_above_log2 in T by lia. discriminate. }
           apply H. rewrite <- EL. replace (8 * k - 1 + 1) with (k * 8) by lia. apply Z.mod_mul. lia.
    + assert (K32 : k = 32 <-> 2 ^ 248 <= v).
      { split.
        - intros ->. specialize (LEAST 31 ltac:(lia)). change (8 * 31) with 248 in LEAST. lia.
        - intros H. destruct (Z.eq_dec k 32) as [|NE]; [assumption|exfalso]. assert (2 ^ (8 * k) <= 2 ^ 248) by (apply Z.pow_le_mono_r; lia). lia. }
      rewrite K32. destruct (Z.eqb_spec k 0) as [->|]; [|reflexivity]. change (2 ^ (8 * 0)) with 1 in FIT. assert (v = 0) by lia. subst v. rewrite Z.testbit_0_l. reflexivity.
Qed.

Lemma i_compressed_witness c : usize_ok c ->
  i_ser_compressed c LE (iof c 128) = Ret [128] /\ i_compressed_visit_bytes c LE [128] = Ret (DOk (iof c (-128))) /\
  i_ser_compressed c BE (iof c 255) = Ret [255] /\ i_compressed_visit_bytes c BE [255] = Ret (DOk (iof c (-1))) /\
  i_ser_compressed c BE (iof c (-256)) = Ret [255; 0] /\ i_compressed_visit_bytes c BE [255; 0] = Ret (DOk (iof c 65280)) /\
  i_ser_compressed c BE (iof c 384) = Ret [1; 128] /\ i_compressed_visit_bytes c BE [1; 128] = Ret (DOk (iof c (-65152))).
Proof. intros U. destruct c as [d v b w l]. cbn in U. destruct U as [<-|[<-|[<-|[]]]]; destruct d, v, b, l; vm_compute; intuition congruence. Qed.

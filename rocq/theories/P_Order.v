(** * The order of big-endian byte strings *)

From Coq Require Import ZArith String List Bool Lia.
Import ListNotations.
From Verif Require Import M_Prim M_Words M_UintApi M_IntApi Spec Spec_Bits Spec_Compat P_Words P_Bytes.
Open Scope Z_scope.

Definition be (l : list Z) : Z := value_le (rev l).
Lemma be_cons a l : be (a :: l) = a * 256 ^ Z.of_nat (length l) + be l.
Proof. unfold be. cbn [rev]. rewrite value_le_app, rev_length. cbn [value_le fold_right]. lia. Qed.
Lemma be_range l : Forall (fun b => 0 <= b < 256) l -> 0 <= be l < 256 ^ Z.of_nat (length l).
Proof. intros H. unfold be. rewrite <- (rev_length l). apply value_le_range. apply Forall_rev'. exact H. Qed.
Lemma lex_be l : forall l', length l = length l' -> Forall (fun b => 0 <= b < 256) l -> Forall (fun b => 0 <= b < 256) l' ->
  (lex_lt l l' <-> be l < be l').
Proof.
  induction l as [|a t IH]; intros [|b t'] L H H'; try discriminate; [cbn; split; [tauto|unfold be; cbn; lia]|].
  injection L as L. inversion H as [|? ? Ha Ht]; subst. inversion H' as [|? ? Hb Ht']; subst.
  cbn [lex_lt]. rewrite !be_cons, <- L. specialize (IH t' L Ht Ht'). pose proof (be_range t Ht). pose proof (be_range t' Ht') as R'. rewrite <- L in R'.
  set (P := 256 ^ Z.of_nat (length t)) in *. rewrite IH. split.
  - intros [Q|[-> Q]]; [|lia]. assert ((a + 1) * P <= b * P) by (apply Z.mul_le_mono_nonneg_r; lia). lia.
  - intros Q. destruct (Z.lt_trichotomy a b) as [?|[?|G]]; [left; assumption|right; split; [assumption|subst; lia]|].
    assert ((b + 1) * P <= a * P) by (apply Z.mul_le_mono_nonneg_r; lia). lia.
Qed.
Lemma flip_be l : length l = 32%nat -> Forall (fun b => 0 <= b < 256) l ->
  be (flip_top l) = (be l + 2 ^ 255) mod 2 ^ 256 /\ length (flip_top l) = 32%nat /\ Forall (fun b => 0 <= b < 256) (flip_top l).
Proof.
  destruct l as [|a t]; intros L H; [discriminate|]. inversion H as [|? ? Ha Ht]; subst. cbn [flip_top]. injection L as L.
  pose proof (be_range t Ht) as R. rewrite L in R. change (256 ^ Z.of_nat 31) with (2 ^ 248) in R.
  split; [|split; [cbn [length]; lia|constructor; [apply Z.mod_pos_bound; lia|assumption]]].
  rewrite !be_cons, L. change (256 ^ Z.of_nat 31) with (2 ^ 248).
  symmetry. destruct (Z.ltb_spec a 128).
  - rewrite (Z.mod_small (a + 128)) by lia. rewrite Z.mod_small by lia. lia.
  - replace (a + 128) with (a - 128 + 1 * 256) by lia. rewrite Z.mod_add, (Z.mod_small (a - 128)) by lia.
    replace (a * 2 ^ 248 + be t + 2 ^ 255) with ((a - 128) * 2 ^ 248 + be t + 1 * 2 ^ 256) by lia.
    rewrite Z.mod_add by lia. apply Z.mod_small. lia.
Qed.
Lemma digits_be v : be (rev (digits_le v)) = v mod 2 ^ 256 /\ length (rev (digits_le v)) = 32%nat /\ Forall (fun b => 0 <= b < 256) (rev (digits_le v)).
Proof.
  unfold be, digits_le. rewrite rev_involutive, <- (le_bytes_digits 32). split; [apply value_le_bytes|].
  rewrite rev_length. split; [apply le_bytes_length|]. apply Forall_rev'. apply le_bytes_range.
Qed.
Lemma bytes_order c x x' y y' : wf_u x -> wf_u x' -> wf_i y -> wf_i y' ->
  (lex_lt (u_to_be_bytes c x) (u_to_be_bytes c x') <-> uval c x < uval c x') /\
  (lex_lt (flip_top (i_to_be_bytes c y)) (flip_top (i_to_be_bytes c y')) <-> ival c y < ival c y').
Proof.
  intros Hx Hx' Hy Hy'.
  assert (B : is_bytes 32 (repeat 0 32)) by (split; [reflexivity|repeat constructor; lia]).
  rewrite (proj1 (proj2 (u_bytes_family c x _ Hx B))), (proj1 (proj2 (u_bytes_family c x' _ Hx' B))).
  rewrite (proj1 (proj2 (i_bytes_family c y _ Hy B))), (proj1 (proj2 (i_bytes_family c y' _ Hy' B))).
  pose proof (uval_range c x Hx). pose proof (uval_range c x' Hx'). pose proof (ival_range c y Hy). pose proof (ival_range c y' Hy').
  split.
  - destruct (digits_be (uval c x)) as (E & L & F). destruct (digits_be (uval c x')) as (E' & L' & F').
    rewrite lex_be by congruence. rewrite E, E', !Z.mod_small by lia. reflexivity.
  - destruct (digits_be (ival c y)) as (E & L & F). destruct (digits_be (ival c y')) as (E' & L' & F').
    destruct (flip_be _ L F) as (G & M & K). destruct (flip_be _ L' F') as (G' & M' & K').
    rewrite lex_be by congruence. rewrite G, G', E, E', !Zplus_mod_idemp_l, !Z.mod_small by lia. lia.
Qed.

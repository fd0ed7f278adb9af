(** * Exponentiation *)

From Coq Require Import ZArith String List Bool Lia ZifyBool.
Import ListNotations.
From Verif Require Import M_Prim M_Words M_Intr M_Div M_Mul M_Ops M_UintApi M_IntApi Spec
  P_Words P_AddSub P_Bits P_Mul P_Div P_DivKnuth P_IntDiv P_Ops P_Uint P_Int.
Open Scope Z_scope.

Lemma land_1 e : Z.land e 1 = e mod 2.
Proof. change 1 with (Z.ones 1). rewrite Z.land_ones by lia. reflexivity. Qed.

Lemma step_exp e m j : (if e mod 2 =? 1 then j + m else j) + 2 * m * (e / 2) = j + m * e.
Proof.
  assert (H : e = 2 * (e / 2) + e mod 2) by (apply Z.div_mod; lia).
  assert (G : e mod 2 = 0 \/ e mod 2 = 1) by (pose proof (Z.mod_pos_bound e 2); lia).
  destruct G as [G|G]; rewrite G in *; cbn [Z.eqb Pos.eqb]; revert H; generalize (e / 2); intros; subst e; ring.
Qed.
Lemma half_pos e : 1 < e -> 1 <= e / 2.
Proof. intros. apply Z.div_le_lower_bound; lia. Qed.

Lemma fuel_step n e : 2 <= e < 2 ^ Z.of_nat (S n) -> exists n', n = S n' /\ 0 <= e / 2 < 2 ^ Z.of_nat n.
Proof.
  intros H. rewrite Nat2Z.inj_succ, Z.pow_succ_r in H by lia. destruct n as [|n'].
  - cbn in H. lia.
  - exists n'. split; [reflexivity|]. zz.
Qed.

Lemma step_bounds e m j : 0 <= m -> 0 <= j -> 1 < e ->
  0 <= (if e mod 2 =? 1 then j + m else j) <= j + m * e /\ 0 <= 2 * m <= j + m * e /\ 0 <= j + m <= j + m * e.
Proof. intros. clear -H H0 H1. destruct (e mod 2 =? 1); repeat split; nia. Qed.
(** A fact about the tail of a loop, carried back over one iteration. *)
Lemma tail_fact (P : Prop) (e e' m' j' s : Z) : 1 < e -> 1 <= e / 2 ->
  0 <= e' <= 1 /\ (0 < e / 2 -> e' = 1) /\ 0 <= m' /\ 0 <= j' /\ j' + m' * e' = s /\ P ->
  0 <= e' <= 1 /\ (0 < e -> e' = 1) /\ 0 <= m' /\ 0 <= j' /\ j' + m' * e' = s /\ P.
Proof. intros H H0 (A & B & C & D & E & F). split; [exact A|]. split; [intros; apply B; lia|]. auto. Qed.

(** The loops of both types are instances of these. *)
Section Loops.
Variable T : Type.

Definition w_step (mul : T -> T -> res T) (sq : T -> T -> res T) (st : Z * T * T) : res ((Z * T * T) + (Z * T * T)) :=
  let '(exp, base, acc) := st in
  if 1 <? exp then
    let! acc := (if Z.land exp 1 =? 1 then mul acc base else Ret acc) in
    let exp := exp / 2 in
    let! base := sq base base in
    Ret (inl (exp, base, acc))
  else Ret (inr (exp, base, acc)).
Definition c_step (mul : T -> T -> res (option T)) (st : Z * T * T) : res ((Z * T * T) + option (Z * T * T)) :=
  let '(exp, base, acc) := st in
  if 1 <? exp then
    let! oacc := (if Z.land exp 1 =? 1 then mul acc base else Ret (Some acc)) in
    try_opt oacc (fun acc =>
    let exp := exp / 2 in
    let! obase := mul base base in
    try_opt obase (fun base => Ret (inl (exp, base, acc))))
  else Ret (inr (Some (exp, base, acc))).
Definition o_step (mul : T -> T -> res (T * bool)) (st : Z * T * T * bool)
  : res ((Z * T * T * bool) + (Z * T * T * bool)) :=
  let '(exp, base, acc, overflown) := st in
  if 1 <? exp then
    let! '(acc, overflown) :=
      (if Z.land exp 1 =? 1 then
         let! '(r0, r1) := mul acc base in Ret (r0, overflown || r1)
       else Ret (acc, overflown)) in
    let exp := exp / 2 in
    let! '(r0, r1) := mul base base in
    Ret (inl (exp, r0, acc, overflown || r1))
  else Ret (inr (exp, base, acc, overflown)).

Variables (of_ : Z -> T) (rng : Z -> bool) (b : Z).
Hypothesis mono : forall t e, 0 <= t <= e -> rng (b ^ t) = false -> rng (b ^ e) = false.

Lemma sq_pow m : 0 <= m -> b ^ m * b ^ m = b ^ (2 * m).
Proof. intros. rewrite <- Z.pow_add_r by lia. f_equal. lia. Qed.

Lemma w_loop mul sq : 
  (forall x y, mul (of_ x) (of_ y) = Ret (of_ (x * y))) -> (forall x y, sq (of_ x) (of_ y) = Ret (of_ (x * y))) ->
  forall n e m j, 0 <= e < 2 ^ Z.of_nat (S n) -> 0 <= m -> 0 <= j ->
  exists e' m' j', loop (S n) (w_step mul sq) (e, of_ (b ^ m), of_ (b ^ j)) = Ret (e', of_ (b ^ m'), of_ (b ^ j')) /\
    0 <= e' <= 1 /\ (0 < e -> e' = 1) /\ 0 <= m' /\ 0 <= j' /\ j' + m' * e' = j + m * e.
Proof.
  intros HM HS. induction n as [n IH] using lt_wf_ind. intros e m j He Hm Hj.
  cbn [loop]. unfold w_step at 1. destruct (Z.ltb_spec 1 e) as [H1|H1].
  - destruct (fuel_step n e ltac:(lia)) as (n' & -> & Hf).
    rewrite land_1, HS, sq_pow by lia.
    set (j1 := if e mod 2 =? 1 then j + m else j).
    assert (EA : (if e mod 2 =? 1 then mul (of_ (b ^ j)) (of_ (b ^ m)) else Ret (of_ (b ^ j))) = Ret (of_ (b ^ j1))).
    { unfold j1. destruct (e mod 2 =? 1); [|reflexivity]. rewrite HM, Z.pow_add_r by lia. reflexivity. }
    rewrite EA. cbn [bind].
    destruct (IH n' ltac:(lia) (e / 2) (2 * m) j1) as (e' & m' & j' & E & HH); [lia..|unfold j1; destruct (e mod 2 =? 1); lia|].
    exists e', m', j'. split; [exact E|]. destruct HH as (G1 & G2 & G3 & G4 & G5).
    split; [lia|]. split; [intros; apply G2; pose proof (half_pos e H1); lia|]. split; [lia|]. split; [lia|].
    rewrite G5. apply step_exp.
  - exists e, m, j. cbn [bind]. repeat split; lia.
Qed.

Lemma c_loop mul :
  (forall x y, rng x = true -> rng y = true -> mul (of_ x) (of_ y) = Ret (if rng (x * y) then Some (of_ (x * y)) else None)) ->
  forall n e m j, 0 <= e < 2 ^ Z.of_nat (S n) -> 0 <= m -> 0 <= j -> rng (b ^ m) = true -> rng (b ^ j) = true ->
  exists r, loop (S n) (c_step mul) (e, of_ (b ^ m), of_ (b ^ j)) = Ret r /\
  match r with
  | None => rng (b ^ (j + m * e)) = false
  | Some (e', B, A) => exists m' j', B = of_ (b ^ m') /\ A = of_ (b ^ j') /\ rng (b ^ m') = true /\ rng (b ^ j') = true /\
      0 <= e' <= 1 /\ (0 < e -> e' = 1) /\ 0 <= m' /\ 0 <= j' /\ j' + m' * e' = j + m * e
  end.
Proof.
  intros HM. induction n as [n IH] using lt_wf_ind. intros e m j He Hm Hj Rm Rj.
  cbn [loop]. unfold c_step at 1. destruct (Z.ltb_spec 1 e) as [H1|H1].
  - destruct (fuel_step n e ltac:(lia)) as (n' & -> & Hf).
    rewrite land_1, (HM (b ^ m) (b ^ m)), sq_pow by assumption.
    set (j1 := if e mod 2 =? 1 then j + m else j).
    assert (EA : (if e mod 2 =? 1 then mul (of_ (b ^ j)) (of_ (b ^ m)) else Ret (Some (of_ (b ^ j)))) =
      Ret (if rng (b ^ j1) then Some (of_ (b ^ j1)) else None)).
    { unfold j1. destruct (e mod 2 =? 1); [|rewrite Rj; reflexivity].
      rewrite HM, Z.pow_add_r by (assumption || lia). reflexivity. }
    rewrite EA. cbn [bind].
    assert (ES : j1 + 2 * m * (e / 2) = j + m * e).
    { apply step_exp. }
    assert (Hj1 : 0 <= j1) by (unfold j1; destruct (e mod 2 =? 1); lia).
    assert (Hh : 1 <= e / 2) by (apply half_pos; assumption).
    destruct (rng (b ^ j1)) eqn:R1; cbn [try_opt bind].
    2:{ exists None. split; [reflexivity|]. apply (mono j1); [apply (step_bounds e m j); assumption|assumption]. }
    destruct (rng (b ^ (2 * m))) eqn:R2; cbn [try_opt bind].
    2:{ exists None. split; [reflexivity|]. apply (mono (2 * m)); [apply (step_bounds e m j); assumption|assumption]. }
    destruct (IH n' ltac:(lia) (e / 2) (2 * m) j1) as (r & E & HH); [exact Hf|clear -Hm; lia|exact Hj1|assumption|assumption|].
    exists r. split; [exact E|]. rewrite ES in HH. destruct r as [[[e' B] A]|]; [|exact HH].
    destruct HH as (m' & j' & X1 & X2 & X3 & X4 & X5 & X6 & X7 & X8 & X9). exists m', j'.
    destruct (tail_fact True e e' m' j' (j + m * e) H1 Hh ltac:(auto 10)) as (Y1 & Y2 & Y3 & Y4 & Y5 & _). auto 15.
  - eexists. split; [reflexivity|]. cbv beta iota. exists m, j. repeat split; auto; lia.
Qed.

Lemma o_loop mul :
  (forall x y, exists o, mul (of_ x) (of_ y) = Ret (of_ (x * y), o) /\
     (rng x = true -> rng y = true -> o = negb (rng (x * y)))) ->
  forall n e m j f, 0 <= e < 2 ^ Z.of_nat (S n) -> 0 <= m -> 0 <= j ->
  (f = false -> rng (b ^ m) = true /\ rng (b ^ j) = true) ->
  (f = true -> rng (b ^ (j + m * e)) = false) ->
  exists e' m' j' f', loop (S n) (o_step mul) (e, of_ (b ^ m), of_ (b ^ j), f) = Ret (e', of_ (b ^ m'), of_ (b ^ j'), f') /\
    0 <= e' <= 1 /\ (0 < e -> e' = 1) /\ 0 <= m' /\ 0 <= j' /\ j' + m' * e' = j + m * e /\
    (f' = false -> rng (b ^ m') = true /\ rng (b ^ j') = true) /\
    (f' = true -> rng (b ^ (j + m * e)) = false).
Proof.
  intros HM. induction n as [n IH] using lt_wf_ind. intros e m j f He Hm Hj Rf Rt.
  cbn [loop]. unfold o_step at 1. destruct (Z.ltb_spec 1 e) as [H1|H1].
  - destruct (fuel_step n e ltac:(lia)) as (n' & -> & Hf).
    destruct (HM (b ^ m) (b ^ m)) as (o2 & E2 & O2). rewrite land_1, E2, sq_pow in * by assumption.
    set (j1 := if e mod 2 =? 1 then j + m else j).
    assert (ES : j1 + 2 * m * (e / 2) = j + m * e).
    { apply step_exp. }
    assert (Hj1 : 0 <= j1) by (unfold j1; destruct (e mod 2 =? 1); lia).
    assert (Hh : 1 <= e / 2) by (apply half_pos; assumption).
    assert (EA : exists f1, (if e mod 2 =? 1 then
         let! '(r0, r1) := mul (of_ (b ^ j)) (of_ (b ^ m)) in Ret (r0, f || r1)
       else Ret (of_ (b ^ j), f)) = Ret (of_ (b ^ j1), f1) /\ 
       (f1 = false -> f = false /\ rng (b ^ j1) = true) /\ (f1 = true -> rng (b ^ (j + m * e)) = false)).
    { unfold j1 in *. destruct (e mod 2 =? 1).
      - destruct (HM (b ^ j) (b ^ m)) as (o1 & E1 & O1). rewrite <- Z.pow_add_r in E1, O1 by assumption. rewrite E1. cbn [bind].
        exists (f || o1). split; [reflexivity|]. split.
        + intros HF. apply orb_false_elim in HF. destruct HF as [-> ->]. destruct Rf as [Ra Rb]; [reflexivity|].
          specialize (O1 Rb Ra). destruct (rng (b ^ (j + m))); [auto|discriminate].
        + destruct f; [auto|]. destruct Rf as [Ra Rb]; [reflexivity|]. cbn [orb]. intros ->.
          specialize (O1 Rb Ra). destruct (rng (b ^ (j + m))) eqn:ER; [discriminate|].
          apply (mono (j + m)); [apply (step_bounds e m j); assumption|assumption].
      - exists f. split; [reflexivity|]. split; [|assumption]. intros ->. destruct Rf; auto. }
    destruct EA as (f1 & EA & F1 & F2). rewrite EA. cbn [bind].
    destruct (IH n' ltac:(lia) (e / 2) (2 * m) j1 (f1 || o2)) as (e' & m' & j' & f' & E & HH); [exact Hf|clear -Hm; lia|exact Hj1| | |].
    + intros HF. apply orb_false_elim in HF. destruct HF as [-> ->]. destruct F1 as [-> R1]; [reflexivity|].
      destruct Rf as [Ra Rb]; [reflexivity|]. specialize (O2 Ra Ra).
      destruct (rng (b ^ (2 * m))); [auto|discriminate].
    + rewrite ES. destruct f1; [auto|]. cbn [orb]. intros ->. destruct F1 as [-> R1]; [reflexivity|].
      destruct Rf as [Ra Rb]; [reflexivity|]. specialize (O2 Ra Ra).
      destruct (rng (b ^ (2 * m))) eqn:ER; [discriminate|]. apply (mono (2 * m)); [apply (step_bounds e m j); assumption|assumption].
    + exists e', m', j', f'. split; [exact E|]. rewrite ES in HH. exact (tail_fact _ e e' m' j' _ H1 Hh HH).

  - exists e, m, j, f. cbn [bind]. repeat split; try lia; tauto.
Qed.

(** the checking multiplication of the debug operators *)
Lemma d_loop mul sq msg :
  (forall x y, rng x = true -> rng y = true -> mul (of_ x) (of_ y) = if rng (x * y) then Ret (of_ (x * y)) else Panic msg) ->
  (forall x y, rng x = true -> rng y = true -> sq (of_ x) (of_ y) = if rng (x * y) then Ret (of_ (x * y)) else Panic msg) ->
  forall n e m j, 0 <= e < 2 ^ Z.of_nat (S n) -> 0 <= m -> 0 <= j -> rng (b ^ m) = true -> rng (b ^ j) = true ->
  (loop (S n) (w_step mul sq) (e, of_ (b ^ m), of_ (b ^ j)) = Panic msg /\ rng (b ^ (j + m * e)) = false) \/
  (exists e' m' j', loop (S n) (w_step mul sq) (e, of_ (b ^ m), of_ (b ^ j)) = Ret (e', of_ (b ^ m'), of_ (b ^ j')) /\
      rng (b ^ m') = true /\ rng (b ^ j') = true /\
      0 <= e' <= 1 /\ (0 < e -> e' = 1) /\ 0 <= m' /\ 0 <= j' /\ j' + m' * e' = j + m * e).
Proof.
  intros HM HS. induction n as [n IH] using lt_wf_ind. intros e m j He Hm Hj Rm Rj.
  cbn [loop]. unfold w_step at 1 3. destruct (Z.ltb_spec 1 e) as [H1|H1].
  - destruct (fuel_step n e ltac:(lia)) as (n' & -> & Hf).
    rewrite land_1, (HS (b ^ m) (b ^ m)), sq_pow by assumption.
    set (j1 := if e mod 2 =? 1 then j + m else j).
    assert (EA : (if e mod 2 =? 1 then mul (of_ (b ^ j)) (of_ (b ^ m)) else Ret (of_ (b ^ j))) =
      if rng (b ^ j1) then Ret (of_ (b ^ j1)) else Panic msg).
    { unfold j1. destruct (e mod 2 =? 1); [|rewrite Rj; reflexivity].
      rewrite HM, Z.pow_add_r by (assumption || lia). reflexivity. }
    rewrite EA.
    assert (ES : j1 + 2 * m * (e / 2) = j + m * e).
    { apply step_exp. }
    assert (Hj1 : 0 <= j1) by (unfold j1; destruct (e mod 2 =? 1); lia).
    assert (Hh : 1 <= e / 2) by (apply half_pos; assumption).
    destruct (rng (b ^ j1)) eqn:R1; cbn [bind].
    2:{ left. split; [reflexivity|]. apply (mono j1); [apply (step_bounds e m j); assumption|assumption]. }
    destruct (rng (b ^ (2 * m))) eqn:R2; cbn [bind].
    2:{ left. split; [reflexivity|]. apply (mono (2 * m)); [apply (step_bounds e m j); assumption|assumption]. }
    destruct (IH n' ltac:(lia) (e / 2) (2 * m) j1) as [[E HH]|(e' & m' & j' & E & HH)];
      [exact Hf|clear -Hm; lia|exact Hj1|assumption|assumption| |].
    + left. rewrite ES in HH. split; [exact E|assumption].
    + right. exists e', m', j'. split; [exact E|]. rewrite ES in HH. destruct HH as (X3 & X4 & X5 & X6 & X7 & X8 & X9).
      destruct (tail_fact True e e' m' j' (j + m * e) H1 Hh ltac:(auto 10)) as (Y1 & Y2 & Y3 & Y4 & Y5 & _). auto 15.
  - right. exists e, m, j. cbn [bind]. repeat split; auto; lia.
Qed.
End Loops.

(** ** Powers leaving the range do not come back *)
Lemma u_mono b t e : 0 <= b -> 0 <= t <= e -> in_u 256 (b ^ t) = false -> in_u 256 (b ^ e) = false.
Proof.
  unfold in_u. intros Hb Ht H. assert (0 <= b ^ t) by (apply Z.pow_nonneg; lia).
  assert (Hx : 2 ^ 256 <= b ^ t) by lia.
  destruct (Z.eq_dec b 0) as [->|].
  { destruct (Z.eq_dec t 0) as [->|]; [rewrite Z.pow_0_r in Hx; lia|rewrite Z.pow_0_l in Hx by lia; lia]. }
  assert (b ^ t <= b ^ e) by (apply Z.pow_le_mono_r; lia). lia.
Qed.
Lemma i_mono b t e : 0 <= t <= e -> in_i 256 (b ^ t) = false -> in_i 256 (b ^ e) = false.
Proof.
  intros Ht H. rewrite in_i_256 in *.
  destruct (Z.eq_dec t e) as [->|Hne]; [assumption|].
  assert (Hx : 2 ^ 255 <= Z.abs (b ^ t)) by lia.
  assert (HB : 2 <= Z.abs b).
  { destruct (Z.le_gt_cases 2 (Z.abs b)); [assumption|]. exfalso.
    rewrite Z.abs_pow in Hx. assert (Z.abs b = 0 \/ Z.abs b = 1) as [E|E] by lia; rewrite E in Hx.
    - destruct (Z.eq_dec t 0) as [->|]; [rewrite Z.pow_0_r in Hx; lia|rewrite Z.pow_0_l in Hx by lia; lia].
    - rewrite Z.pow_1_l in Hx; lia. }
  assert (HE : Z.abs (b ^ e) >= 2 * Z.abs (b ^ t)).
  { replace e with (t + (e - t)) by lia. rewrite Z.pow_add_r, Z.abs_mul by lia.
    assert (2 <= Z.abs (b ^ (e - t))).
    { rewrite Z.abs_pow. apply Z.le_trans with (Z.abs b ^ 1); [lia|]. apply Z.pow_le_mono_r; lia. }
    nia. }
  lia.
Qed.

Lemma u_rng_wf v : in_u 256 v = true -> 0 <= v < 2 ^ 256. Proof. rewrite in_u_256. lia. Qed.
Lemma i_rng_wf v : in_i 256 v = true -> - 2 ^ 255 <= v < 2 ^ 255. Proof. rewrite in_i_256. lia. Qed.

Lemma u_omul c x y : exists o, u_overflowing_mul c (uof c x) (uof c y) = Ret (uof c (x * y), o) /\
  (in_u 256 x = true -> in_u 256 y = true -> o = negb (in_u 256 (x * y))).
Proof.
  destruct (in_u 256 x && in_u 256 y) eqn:E.
  - apply andb_prop in E. destruct E as [E1 E2]. exists (negb (in_u 256 (x * y))).
    rewrite u_overflowing_mul_of by auto using u_rng_wf. auto.
  - exists (negb (in_u 256 (x mod 2 ^ 256 * (y mod 2 ^ 256)))). split.
    + rewrite <- (uof_mod c x), <- (uof_mod c y), u_overflowing_mul_of by (apply Z.mod_pos_bound; lia).
      f_equal. f_equal. apply uof_cong. symmetry. apply Zmult_mod.
    + intros E1 E2. rewrite E1, E2 in E. discriminate.
Qed.
Lemma i_omul c x y : exists o, i_overflowing_mul c (iof c x) (iof c y) = Ret (iof c (x * y), o) /\
  (in_i 256 x = true -> in_i 256 y = true -> o = negb (in_i 256 (x * y))).
Proof.
  destruct (in_i 256 x && in_i 256 y) eqn:E.
  - apply andb_prop in E. destruct E as [E1 E2]. exists (negb (in_i 256 (x * y))).
    rewrite i_overflowing_mul_of by auto using i_rng_wf. auto.
  - exists (negb (in_i 256 (wrap_i 256 x * wrap_i 256 y))). split.
    + rewrite <- (iof_wrap c x), <- (iof_wrap c y), i_overflowing_mul_of by (apply (wrap_i_range 256); lia).
      f_equal. f_equal. apply iof_cong. rewrite Zmult_mod, !wrap_i_mod, <- Zmult_mod by lia. reflexivity.
    + intros E1 E2. rewrite E1, E2 in E. discriminate.
Qed.

Lemma pow_1 : forall b, b ^ 0 = 1 /\ b ^ 1 = b.
Proof. intros. rewrite Z.pow_0_r, Z.pow_1_r. auto. Qed.

Section U.
Variables (c : cfg) (b e : Z).
Hypothesis Hb : 0 <= b < 2 ^ 256.
Hypothesis He : 0 <= e < 2 ^ 32.
Let He' : 0 <= e < 2 ^ Z.of_nat 32. Proof. exact He. Qed.
Let M := fun t e => u_mono b t e (proj1 Hb).
Let R1 : in_u 256 (b ^ 1) = true. Proof. rewrite Z.pow_1_r, in_u_256. lia. Qed.
Let R0 : in_u 256 (b ^ 0) = true. Proof. rewrite Z.pow_0_r. reflexivity. Qed.

Lemma u_wrapping_pow_of : u_wrapping_pow c (uof c b) e = Ret (uof c (b ^ e)).
Proof.
  unfold u_wrapping_pow. rewrite U256_ONE_of.
  destruct (w_loop u256 (uof c) b (u_wrapping_mul c) (u_wrapping_mul c) (mul3_of c) (mul3_of c) 31 e 1 0 He') as
    (e' & m & j & E & G1 & _ & G3 & G4 & G5); [lia..|].
  destruct (pow_1 b) as [P0 P1]. rewrite P0, P1 in E.
  change (u_wrapping_pow_step c) with (w_step u256 (u_wrapping_mul c) (u_wrapping_mul c)).
  rewrite E. cbn [bind]. rewrite Z.add_0_l, Z.mul_1_l in G5. rewrite <- G5.
  destruct (Z.eqb_spec e' 1) as [->|].
  - unfold u_wrapping_mul. rewrite mul3_of, Z.mul_1_r, Z.pow_add_r by lia. reflexivity.
  - f_equal. f_equal. f_equal. nia.
Qed.
Lemma u_checked_pow_of : u_checked_pow c (uof c b) e = Ret (if in_u 256 (b ^ e) then Some (uof c (b ^ e)) else None).
Proof.
  unfold u_checked_pow. rewrite U256_ONE_of.
  destruct (c_loop u256 (uof c) (in_u 256) b M (u_checked_mul c)
    (fun x y Hx Hy => u_checked_mul_of c x y (u_rng_wf x Hx) (u_rng_wf y Hy)) 31 e 1 0 He') as
    (r & E & HR); [lia..|assumption|assumption|].
  destruct (pow_1 b) as [P0 P1]. rewrite P0, P1 in E.
  change (u_checked_pow_step c) with (c_step u256 (u_checked_mul c)).
  rewrite E. cbn [bind]. rewrite Z.add_0_l, Z.mul_1_l in HR.
  destruct r as [[[e' B] A]|]; [|rewrite HR; reflexivity].
  destruct HR as (m & j & -> & -> & Rm & Rj & G1 & _ & G3 & G4 & G5).
  destruct (Z.eqb_spec e' 1) as [->|].
  - rewrite u_checked_mul_of, <- Z.pow_add_r by auto using u_rng_wf. rewrite Z.mul_1_r in G5. rewrite G5.
    cbn [bind]. destruct (in_u 256 (b ^ e)); reflexivity.
  - assert (e' = 0) by lia. subst e'. rewrite Z.mul_0_r, Z.add_0_r in G5. rewrite <- G5, Rj. reflexivity.
Qed.
Lemma u_overflowing_pow_of : u_overflowing_pow c (uof c b) e = Ret (uof c (b ^ e), negb (in_u 256 (b ^ e))).
Proof.
  unfold u_overflowing_pow. rewrite U256_ONE_of.
  destruct (o_loop u256 (uof c) (in_u 256) b M (u_overflowing_mul c) (u_omul c) 31 e 1 0 false He') as
    (e' & m & j & f & E & G1 & _ & G3 & G4 & G5 & F1 & F2); [lia..|auto|discriminate|].
  destruct (pow_1 b) as [P0 P1]. rewrite P0, P1 in E.
  change (u_overflowing_pow_step c) with (o_step u256 (u_overflowing_mul c)).
  rewrite E. cbn [bind]. rewrite Z.add_0_l, Z.mul_1_l in *.
  destruct (Z.eqb_spec e' 1) as [->|].
  - rewrite Z.mul_1_r in G5. destruct (u_omul c (b ^ j) (b ^ m)) as (o & EO & HO). rewrite <- Z.pow_add_r, G5 in EO, HO by assumption. rewrite EO.
    cbn [bind]. f_equal. f_equal. destruct f.
    + rewrite F2 by reflexivity. reflexivity.
    + destruct F1 as [Ra Rb]; [reflexivity|]. cbn [orb]. auto.
  - assert (e' = 0) by lia. subst e'. rewrite Z.mul_0_r, Z.add_0_r in G5. subst j. f_equal. f_equal. destruct f.
    + rewrite F2 by reflexivity. reflexivity.
    + destruct F1 as [Ra ->]; reflexivity.
Qed.
Lemma u_pow_of : u_pow c (uof c b) e = dbg c (in_u 256 (b ^ e)) "attempt to multiply with overflow" (uof c (b ^ e)).
Proof.
  unfold u_pow, dbg. rewrite U256_ONE_of.
  change (u_pow_step c) with (w_step u256 (u_op_mul_assign c) (u_op_mul c)).
  destruct (pow_1 b) as [P0 P1]. destruct (debug_assertions c) eqn:Hd; cbn [andb].
  - assert (HM : forall x y, in_u 256 x = true -> in_u 256 y = true ->
      u_op_mul c (uof c x) (uof c y) = if in_u 256 (x * y) then Ret (uof c (x * y)) else Panic "attempt to multiply with overflow").
    { intros. rewrite u_op_mul_of by auto using u_rng_wf. unfold dbg. rewrite Hd. destruct (in_u 256 (x * y)); reflexivity. }
    assert (HM' : forall x y, in_u 256 x = true -> in_u 256 y = true ->
      u_op_mul_assign c (uof c x) (uof c y) = if in_u 256 (x * y) then Ret (uof c (x * y)) else Panic "attempt to multiply with overflow").
    { intros. rewrite u_op_mul_assign_of. auto. }
    destruct (d_loop u256 (uof c) (in_u 256) b M _ _ _ HM' HM 31 e 1 0 He') as
      [[E HR]|(e' & m & j & E & Rm & Rj & G1 & _ & G3 & G4 & G5)]; [lia..|assumption|assumption| |].
    + rewrite P0, P1 in E. rewrite E. rewrite Z.add_0_l, Z.mul_1_l in HR. rewrite HR. reflexivity.
    + rewrite P0, P1 in E. rewrite E. cbn [bind]. rewrite Z.add_0_l, Z.mul_1_l in G5.
      destruct (Z.eqb_spec e' 1) as [->|].
      * rewrite HM', <- Z.pow_add_r by assumption. rewrite Z.mul_1_r in G5. rewrite G5. destruct (in_u 256 (b ^ e)); reflexivity.
      * assert (e' = 0) by lia. subst e'. rewrite Z.mul_0_r, Z.add_0_r in G5. rewrite <- G5, Rj. reflexivity.
  - assert (HM : forall x y, u_op_mul c (uof c x) (uof c y) = Ret (uof c (x * y))).
    { intros. unfold u_op_mul. rewrite Hd. apply mul3_of. }
    assert (HM' : forall x y, u_op_mul_assign c (uof c x) (uof c y) = Ret (uof c (x * y))).
    { intros. rewrite u_op_mul_assign_of. auto. }
    destruct (w_loop u256 (uof c) b _ _ HM' HM 31 e 1 0 He') as (e' & m & j & E & G1 & _ & G3 & G4 & G5); [lia..|].
    rewrite P0, P1 in E. rewrite E. cbn [bind]. rewrite Z.add_0_l, Z.mul_1_l in G5. rewrite <- G5.
    destruct (Z.eqb_spec e' 1) as [->|].
    + rewrite HM', Z.mul_1_r, Z.pow_add_r by lia. reflexivity.
    + f_equal. f_equal. f_equal. nia.
Qed.
End U.

Section I.
Variables (c : cfg) (b e : Z).
Hypothesis Hb : - 2 ^ 255 <= b < 2 ^ 255.
Hypothesis He : 0 <= e < 2 ^ 32.
Let He' : 0 <= e < 2 ^ Z.of_nat 32. Proof. exact He. Qed.
Let M := i_mono b.
Let R1 : in_i 256 (b ^ 1) = true. Proof. rewrite Z.pow_1_r, in_i_256. lia. Qed.
Let R0 : in_i 256 (b ^ 0) = true. Proof. rewrite Z.pow_0_r. reflexivity. Qed.

Lemma i_wrapping_pow_of : i_wrapping_pow c (iof c b) e = Ret (iof c (b ^ e)).
Proof.
  unfold i_wrapping_pow. rewrite I256_ONE_of. destruct (Z.eqb_spec e 0) as [->|Hn]; [reflexivity|].
  destruct (w_loop i256 (iof c) b (i_wrapping_mul c) (i_wrapping_mul c) (imul3_of c) (imul3_of c) 31 e 1 0 He') as
    (e' & m & j & E & G1 & G2 & G3 & G4 & G5); [lia..|].
  destruct (pow_1 b) as [P0 P1]. rewrite P0, P1 in E.
  change (i_wrapping_pow_step c) with (w_step i256 (i_wrapping_mul c) (i_wrapping_mul c)).
  rewrite E. cbn [bind]. rewrite Z.add_0_l, Z.mul_1_l in G5. rewrite <- G5.
  rewrite G2 by lia. unfold i_wrapping_mul. rewrite imul3_of, Z.mul_1_r, Z.pow_add_r by lia. reflexivity.
Qed.
Lemma i_checked_pow_of : i_checked_pow c (iof c b) e = Ret (if in_i 256 (b ^ e) then Some (iof c (b ^ e)) else None).
Proof.
  unfold i_checked_pow. rewrite I256_ONE_of. destruct (Z.eqb_spec e 0) as [->|Hn]; [reflexivity|].
  destruct (c_loop i256 (iof c) (in_i 256) b M (i_checked_mul c)
    (fun x y Hx Hy => i_checked_mul_of c x y (i_rng_wf x Hx) (i_rng_wf y Hy)) 31 e 1 0 He') as
    (r & E & HR); [lia..|assumption|assumption|].
  destruct (pow_1 b) as [P0 P1]. rewrite P0, P1 in E.
  change (i_checked_pow_step c) with (c_step i256 (i_checked_mul c)).
  rewrite E. cbn [bind]. rewrite Z.add_0_l, Z.mul_1_l in HR.
  destruct r as [[[e' B] A]|]; [|rewrite HR; reflexivity].
  destruct HR as (m & j & -> & -> & Rm & Rj & G1 & G2 & G3 & G4 & G5).
  rewrite G2 in * by lia.
  rewrite i_checked_mul_of, <- Z.pow_add_r by auto using i_rng_wf. rewrite Z.mul_1_r in G5. rewrite G5. reflexivity.
Qed.
Lemma i_overflowing_pow_of : i_overflowing_pow c (iof c b) e = Ret (iof c (b ^ e), negb (in_i 256 (b ^ e))).
Proof.
  unfold i_overflowing_pow. rewrite I256_ONE_of. destruct (Z.eqb_spec e 0) as [->|Hn]; [reflexivity|].
  destruct (o_loop i256 (iof c) (in_i 256) b M (i_overflowing_mul c) (i_omul c) 31 e 1 0 false He') as
    (e' & m & j & f & E & G1 & G2 & G3 & G4 & G5 & F1 & F2); [lia..|auto|discriminate|].
  destruct (pow_1 b) as [P0 P1]. rewrite P0, P1 in E.
  change (i_overflowing_pow_step c) with (o_step i256 (i_overflowing_mul c)).
  rewrite E. cbn [bind]. rewrite Z.add_0_l, Z.mul_1_l in *. rewrite G2, Z.mul_1_r in G5 by lia.
  destruct (i_omul c (b ^ j) (b ^ m)) as (o & EO & HO). rewrite <- Z.pow_add_r, G5 in EO, HO by assumption. rewrite EO.
  cbn [bind]. f_equal. f_equal. destruct f.
  - rewrite F2 by reflexivity. apply orb_true_r.
  - destruct F1 as [Ra Rb]; [reflexivity|]. rewrite orb_false_r. auto.
Qed.
Lemma i_pow_of : i_pow c (iof c b) e = dbg c (in_i 256 (b ^ e)) "attempt to multiply with overflow" (iof c (b ^ e)).
Proof.
  unfold i_pow, dbg. rewrite I256_ONE_of.
  destruct (Z.eqb_spec e 0) as [->|Hn]. { rewrite R0, andb_false_r. reflexivity. }
  change (i_pow_step c) with (w_step i256 (i_op_mul_assign c) (i_op_mul c)).
  destruct (pow_1 b) as [P0 P1]. destruct (debug_assertions c) eqn:Hd; cbn [andb].
  - assert (HM : forall x y, in_i 256 x = true -> in_i 256 y = true ->
      i_op_mul c (iof c x) (iof c y) = if in_i 256 (x * y) then Ret (iof c (x * y)) else Panic "attempt to multiply with overflow").
    { intros. rewrite i_op_mul_of by auto using i_rng_wf. unfold dbg. rewrite Hd. destruct (in_i 256 (x * y)); reflexivity. }
    assert (HM' : forall x y, in_i 256 x = true -> in_i 256 y = true ->
      i_op_mul_assign c (iof c x) (iof c y) = if in_i 256 (x * y) then Ret (iof c (x * y)) else Panic "attempt to multiply with overflow").
    { intros. rewrite i_op_mul_assign_of. auto. }
    destruct (d_loop i256 (iof c) (in_i 256) b M _ _ _ HM' HM 31 e 1 0 He') as
      [[E HR]|(e' & m & j & E & Rm & Rj & G1 & G2 & G3 & G4 & G5)]; [lia..|assumption|assumption| |].
    + rewrite P0, P1 in E. rewrite E. rewrite Z.add_0_l, Z.mul_1_l in HR. rewrite HR. reflexivity.
    + rewrite P0, P1 in E. rewrite E. cbn [bind]. rewrite Z.add_0_l, Z.mul_1_l, G2, Z.mul_1_r in G5 by lia.
      rewrite HM, <- Z.pow_add_r by assumption. rewrite G5. destruct (in_i 256 (b ^ e)); reflexivity.
  - assert (HM : forall x y, i_op_mul c (iof c x) (iof c y) = Ret (iof c (x * y))).
    { intros. unfold i_op_mul. rewrite Hd. apply imul3_of. }
    assert (HM' : forall x y, i_op_mul_assign c (iof c x) (iof c y) = Ret (iof c (x * y))).
    { intros. rewrite i_op_mul_assign_of. auto. }
    destruct (w_loop i256 (iof c) b _ _ HM' HM 31 e 1 0 He') as (e' & m & j & E & G1 & G2 & G3 & G4 & G5); [lia..|].
    rewrite P0, P1 in E. rewrite E. cbn [bind]. rewrite Z.add_0_l, Z.mul_1_l, G2, Z.mul_1_r in G5 by lia. rewrite <- G5.
    rewrite HM, Z.pow_add_r by lia. reflexivity.
Qed.
End I.

Lemma u_pow_family c a e : wf_u a -> 0 <= e < 2 ^ 32 -> let p := uval c a ^ e in
  u_wrapping_pow c a e = Ret (uof c p) /\
  u_overflowing_pow c a e = Ret (uof c p, negb (in_u 256 p)) /\
  u_checked_pow c a e = Ret (if in_u 256 p then Some (uof c p) else None) /\
  u_saturating_pow c a e = Ret (uof c (clamp_u p)) /\
  u_pow c a e = (if debug_assertions c && negb (in_u 256 p)
                 then Panic "attempt to multiply with overflow" else Ret (uof c p)).
Proof.
  intros Ha He. on_u c a. cbv zeta. unfold u_saturating_pow.
  rewrite u_wrapping_pow_of, u_overflowing_pow_of, u_checked_pow_of, u_pow_of by assumption. cbn [bind].
  repeat split. rewrite clamp_u_eq, in_u_256.
  assert (0 <= na ^ e) by (apply Z.pow_nonneg; lia).
  destruct (Z.leb_spec 0 (na ^ e)); [|lia]. cbn [andb].
  destruct (Z.ltb_spec (na ^ e) (2 ^ 256)); cbn [andb]; rewrite ?(U256_MAX_of c); try reflexivity.
  all: repeat match goal with |- context [if ?x then _ else _] => destruct x eqn:? end; try reflexivity; try lia.
Qed.
Lemma pow_sign b e : 0 <= e -> in_i 256 (b ^ e) = false ->
  (b <? 0) && (e mod 2 =? 1) = (b ^ e <? 0).
Proof.
  intros He Hr. rewrite in_i_256 in Hr. 
  destruct (Z.ltb_spec b 0).
  - cbn [andb].
    rewrite (Z.div_mod e 2) at 2 by lia.
    assert (0 < b * b) by nia.
    assert (0 < (b * b) ^ (e / 2)) by (apply Z.pow_pos_nonneg; [lia|zz]).
    rewrite Z.pow_add_r, Z.pow_mul_r, Z.pow_2_r by zz.
    assert (e mod 2 = 0 \/ e mod 2 = 1) as [E|E] by zz; rewrite E.
    + rewrite Z.pow_0_r. lia.
    + rewrite Z.pow_1_r. symmetry. apply Z.ltb_lt. apply Z.mul_pos_neg; assumption.
  - cbn [andb]. assert (0 <= b ^ e) by (apply Z.pow_nonneg; lia). lia.
Qed.
Lemma i_pow_family c a e : wf_i a -> 0 <= e < 2 ^ 32 -> let p := ival c a ^ e in
  i_wrapping_pow c a e = Ret (iof c p) /\
  i_overflowing_pow c a e = Ret (iof c p, negb (in_i 256 p)) /\
  i_checked_pow c a e = Ret (if in_i 256 p then Some (iof c p) else None) /\
  i_saturating_pow c a e = Ret (iof c (clamp_i p)) /\
  i_pow c a e = (if debug_assertions c && negb (in_i 256 p)
                 then Panic "attempt to multiply with overflow" else Ret (iof c p)).
Proof.
  intros Ha He. on_i c a. cbv zeta. unfold i_saturating_pow.
  rewrite i_wrapping_pow_of, i_overflowing_pow_of, i_checked_pow_of, i_pow_of by assumption. cbn [bind].
  repeat split. destruct (i_cmp0 c na Hna) as [-> _].
  destruct (in_i 256 (na ^ e)) eqn:E; cbn [bind].
  - f_equal. f_equal. rewrite in_i_256 in E. unfold clamp_i, MINI, MAXI. lia.
  - rewrite pow_sign by (assumption || lia). rewrite in_i_256 in E.
    rewrite I256_MIN_of, I256_MAX_of. unfold clamp_i, MINI, MAXI.
    destruct (Z.ltb_spec (na ^ e) 0); f_equal; f_equal; lia.
Qed.

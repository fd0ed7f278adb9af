(** * Numbers of several U256 limbs

    The usual programs that compute with numbers of any length, least significant limb first, using U256 as the limb.
    The Rust is given above each.  They are not code of the repository, the operations they call are. *)

From Coq Require Import ZArith List Bool.
Import ListNotations.
From Verif Require Import M_Prim M_Words M_Intr M_Mul M_Ops M_UintApi M_Convert Spec.
Open Scope Z_scope.

(** The number that limbs stand for. *)
Fixpoint number (c : cfg) (l : list u256) : Z :=
  match l with
  | [] => 0
  | x :: l => uval c x + 2 ^ 256 * number c l
  end.

(** for (a, b) in l.iter_mut().zip(m) {
        let (s, o) = a.overflowing_add(b);
        let (s, p) = s.overflowing_add(U256::from(carry));
        *a = s;
        carry = o | p;
    } *)
Fixpoint add_limbs (c : cfg) (l m : list u256) (carry : bool) : list u256 * bool :=
  match l, m with
  | a :: l, b :: m =>
      let '(s, o) := u_overflowing_add c a b in
      let '(s, p) := u_overflowing_add c s (u_from_bool c carry) in
      let '(r, carry) := add_limbs c l m (o || p) in
      (s :: r, carry)
  | _, _ => ([], carry)
  end.

(** the same with overflowing_sub *)
Fixpoint sub_limbs (c : cfg) (l m : list u256) (borrow : bool) : list u256 * bool :=
  match l, m with
  | a :: l, b :: m =>
      let '(s, o) := u_overflowing_sub c a b in
      let '(s, p) := u_overflowing_sub c s (u_from_bool c borrow) in
      let '(r, borrow) := sub_limbs c l m (o || p) in
      (s :: r, borrow)
  | _, _ => ([], borrow)
  end.

(** let (ah, al) = a.into_words();
    let (bh, bl) = b.into_words();
    let low = U256::from(u128::MAX);
    let ll = U256::from(al) * U256::from(bl);
    let mid = U256::from(al) * U256::from(bh) + (ll >> 128);
    let top = U256::from(ah) * U256::from(bl) + (mid & low);
    (U256::from(ah) * U256::from(bh) + (mid >> 128) + (top >> 128), (top << 128) | (ll & low)) *)
Definition mul_wide (c : cfg) (a b : u256) : res (u256 * u256) :=
  let '(ah, al) := u_into_words c a in
  let '(bh, bl) := u_into_words c b in
  let low := u_from_prim c (2 ^ 128 - 1) in
  let! ll := u_op_mul c (u_from_prim c al) (u_from_prim c bl) in
  let! lh := u_op_mul c (u_from_prim c al) (u_from_prim c bh) in
  let! t := u_op_shr c ll 128 in
  let! mid := u_op_add c lh t in
  let! hl := u_op_mul c (u_from_prim c ah) (u_from_prim c bl) in
  let! top := u_op_add c hl (u_op_and mid low) in
  let! hh := u_op_mul c (u_from_prim c ah) (u_from_prim c bh) in
  let! t := u_op_shr c mid 128 in
  let! h := u_op_add c hh t in
  let! t := u_op_shr c top 128 in
  let! h := u_op_add c h t in
  let! t := u_op_shl c top 128 in
  Ret (h, u_op_or t (u_op_and ll low)).

(** for a in l.iter_mut() {
        let (hi, lo) = mul_wide(a.clone(), k);
        let (s, o) = lo.overflowing_add(carry);
        *a = s;
        carry = hi + U256::from(o);
    } *)
Fixpoint scale_limbs (c : cfg) (l : list u256) (k carry : u256) : res (list u256 * u256) :=
  match l with
  | [] => Ret ([], carry)
  | a :: l =>
      let! w := mul_wide c a k in
      let '(hi, lo) := w in
      let '(s, o) := u_overflowing_add c lo carry in
      let! carry := u_op_add c hi (u_from_bool c o) in
      let! t := scale_limbs c l k carry in
      let '(r, carry) := t in
      Ret (s :: r, carry)
  end.

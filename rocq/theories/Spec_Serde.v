(** * Vocabulary for serialization *)

From Coq Require Import ZArith List Bool.
From Verif Require Import M_Float M_Serde Spec_Bits.
Import ListNotations.
Open Scope Z_scope.

(** the float [x] is the whole number [z] *)
Definition f_is (x : float) (z : Z) : Prop :=
  match x with
  | FNum neg m e =>
      let m := if neg then - m else m in
      if 0 <=? e then m * 2 ^ e = z else m = z * 2 ^ (- e)
  | _ => False
  end.

(** the base-256 digits of the number [v] encoded by [l] in the given order *)
Definition in_order (o : order) (l : list Z) : list Z := match o with LE => l | BE => rev l end.

(** a size hint that may be missing but is never wrong *)
Definition honest (s : seq_access) : Prop :=
  match size_hint s with Some n => n = Z.of_nat (length (elements s)) | None => True end.
(** a sequence that yields the bytes [l] without errors *)
Definition yields (s : seq_access) (l : list Z) : Prop := elements s = map DOk l.

(** [k] is the least number of bytes for which [fits k] *)
Definition least (fits : Z -> Prop) (k : Z) : Prop := 0 <= k /\ fits k /\ forall j, 0 <= j < k -> ~ fits j.

(** a list of bytes *)
Definition bytes_ok (l : list Z) : Prop := Forall (fun b => 0 <= b < 256) l.

(** how many bytes the compressed format of I256 keeps: for negative numbers those of the shortest two's
    complement representation, for the others those of the shortest unsigned one *)
Definition i_fits (x k : Z) : Prop := if x <? 0 then - 2 ^ (8 * k) <= 2 * x else x < 2 ^ (8 * k).

(** the I256 numbers that survive the compressed format *)
Definition compressed_ok (o : order) (x : Z) : Prop :=
  match o with
  | LE => x < 0 \/ x = 0 \/ (Z.log2 x + 1) mod 8 <> 0
  | BE => if x <? 0 then x < - 2 ^ 247 \/ Z.testbit x 7 = true
          else 2 ^ 248 <= x \/ Z.testbit x 7 = false
  end.

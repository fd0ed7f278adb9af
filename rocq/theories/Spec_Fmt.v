(** * Vocabulary for formatted numbers

    Only the record of options is taken from the model. *)

From Coq Require Import ZArith List Bool.
From Verif Require Import M_Fmt Spec_Parse.
Import ListNotations.
Open Scope Z_scope.

(** the character of the digit [d] *)
Definition digit_char (upper : bool) (d : Z) : Z :=
  if d <? 10 then 48 + d else (if upper then 65 else 97) + (d - 10).

(** [s] is the numeral of [v] in radix [r] without leading zeros *)
Definition canonical (upper : bool) (r v : Z) (s : list Z) : Prop :=
  exists ds, s = map (digit_char upper) ds /\ Forall (fun d => 0 <= d < r) ds /\
    value r ds = v /\ ds <> [] /\ (hd 0 ds = 0 -> ds = [0]).

(** The text [out] shows the numeral [digits] under the options [o], as for primitive
    integers: the sign; the prefix if requested; zeros after these or otherwise the fill
    character on the sides chosen by the alignment, up to the requested width. *)
Definition padded (o : fmt_opts) (neg : bool) (prefix digits out : list Z) : Prop :=
  let lead := (if neg then [45] else if o_plus o then [43] else []) ++ (if o_alternate o then prefix else []) in
  match o_width o with
  | None => out = lead ++ digits
  | Some w =>
      (w <= Z.of_nat (length (lead ++ digits)) -> out = lead ++ digits) /\
      (Z.of_nat (length (lead ++ digits)) < w ->
       Z.of_nat (length out) = w /\
       if o_zero o then exists n, out = lead ++ repeat 48 n ++ digits
       else exists a b, out = repeat (o_fill o) a ++ (lead ++ digits) ++ repeat (o_fill o) b /\
              match o_align o with
              | Some ALeft => a = 0%nat
              | Some ACenter => a = b \/ S a = b
              | Some ARight | None => b = 0%nat
              end)
  end.

(** nothing but zeros may be inserted *)
Definition no_fill (o : fmt_opts) : Prop := o_width o = None \/ o_zero o = true.

(** the four radix formats: letter case, radix and prefix *)
Definition kind_upper (k : radix_kind) : bool := match k with UpperHex => true | _ => false end.
Definition kind_radix (k : radix_kind) : Z :=
  match k with Binary => 2 | Octal => 8 | LowerHex => 16 | UpperHex => 16 end.
Definition kind_prefix (k : radix_kind) : list Z :=
  match k with Binary => [48; 98] | Octal => [48; 111] | LowerHex => [48; 120] | UpperHex => [48; 120] end.

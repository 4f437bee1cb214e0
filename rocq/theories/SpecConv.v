(** * SpecConv: what the conversions have to satisfy (independent of the model) *)

From Coq Require Import ZArith Bool.
From Verif Require Import Spec.
Open Scope Z_scope.

(** The IEEE interpretation of a pattern with [w] exponent and [f] fraction bits: the
    result must be of the same kind, have the same sign, and the same value. *)
Definition same_float (w f b : Z) (r : Z) : Prop :=
  let m := b mod 2 ^ (w + f) in
  let e := m / 2 ^ f in
  let frac := m mod 2 ^ f in
  sgn r = b / 2 ^ (w + f) /\
  if e =? 2 ^ w - 1 then (if frac =? 0 then infb r = true else nanb r = true)
  else finb r = true /\
       mag_val (mag r) = (if e =? 0 then frac else 2 ^ f + frac)
                         * 2 ^ (Z.max e 1 - (2 ^ (w - 1) - 1) - f + UNITe).

(** * SpecLog: specification of the logarithms

    Over the real numbers; [rval v] is the real number a finite datum stands for. *)

From Coq Require Import ZArith Bool Reals.
From Verif Require Import Spec SpecDeg.
Open Scope Z_scope.

Definition rval (v : Z) : R := (IZR (sval v) / IZR (2 ^ UNITe))%R.

(** The distance of the datum [r] to the next larger magnitude *)
Definition rulp (r : Z) : R := (IZR (ulp_units (mag r)) / IZR (2 ^ UNITe))%R.

(** [r] is a finite datum that differs from the real number [y] by at most n / d of its unit
    in the last place. *)
Definition within_ulp (n d : Z) (y : R) (r : Z) : Prop :=
  finb r = true /\ (Rabs (rval r - y) <= IZR n / IZR d * rulp r)%R.

(** IEEE 754 (9.2.1) for log, log2 and log10 of operands without a real logarithm: NaN for NaN
    and negative numbers, minus infinity for zeros, infinity for infinity. *)
Definition spec_log_special (v r : Z) : Prop :=
  if nanb v then nanb r = true
  else if zerob v then r = mkf 1 INFm
  else if sgn v =? 1 then nanb r = true
  else infb v = true -> r = mkf 0 INFm.

(** The logarithm to the base [b] *)
Definition log_b (b x : R) : R := (ln x / ln b)%R.

(** The logarithm of a finite positive datum [v], given as a real function. *)
Definition spec_log (f : R -> R) (n d v r : Z) : Prop :=
  finb v = true -> zerob v = false -> sgn v = 0 -> within_ulp n d (f (rval v)) r.

(** Where the exact logarithm is an integer, it is returned. *)
Definition spec_log_exact (f : R -> R) (v r : Z) : Prop :=
  finb v = true -> zerob v = false -> sgn v = 0 ->
  forall j, f (rval v) = IZR j -> finb r = true /\ sval r = j * 2 ^ UNITe.

(** Fixed point numbers: the number of units of 2^-492 with the bit pattern [w] of 512 bits *)
Definition fp_units (w : Z) : Z := if w <? 2 ^ 511 then w else w - 2 ^ 512.

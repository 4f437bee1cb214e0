(** * SpecTrig: specification of the trigonometric functions

    Over the sine and cosine of the standard library's real numbers. *)

From Coq Require Import ZArith Bool Reals.
From Verif Require Import Spec SpecDeg SpecLog.
Open Scope Z_scope.

(** The datum [r] differs from [f] of the datum [v] by at most 65/64 of a unit in the last place,
    and by at most 65/128 when the magnitude of [v] is less than 1/2. *)
Definition near (f : R -> R) (v r : Z) : Prop :=
  within_ulp 65 64 (f (rval v)) r /\ ((Rabs (rval v) < / 2)%R -> within_ulp 65 128 (f (rval v)) r).

(** The result for zeros, infinities and NaN: the quiet NaN unless [v] is a zero *)
Definition special_res (v zero : Z) : Z := if finb v then zero else QNAN.

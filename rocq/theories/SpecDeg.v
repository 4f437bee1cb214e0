(** * SpecDeg: specification of the conversion between degrees and radians

    In units of 2^-262378 as in Spec.v, but over the real numbers, as pi is not rational. *)

From Coq Require Import ZArith Bool Reals.
From Verif Require Import Spec.
Open Scope Z_scope.

(** The distance of the finite magnitude [a] to the next larger one *)
Definition ulp_units (a : Z) : Z := mag_val (a + 1) - mag_val a.

(** The datum [r] differs from the exact product of the datum [v] and [rho] by at most
    [n / d] of the distance of [r] to its neighbour. *)
Definition scaled_within (rho : R) (n d : Z) (v r : Z) : Prop :=
  finb r = true /\ sgn r = sgn v
  /\ (Rabs (IZR (sval r) - IZR (sval v) * rho) <= IZR n / IZR d * IZR (ulp_units (mag r)))%R.

(** What is claimed of [to_degrees] and [to_radians]: the product to within one unit in the
    last place; zeros, infinities and NaN are kept. *)
Definition spec_scaled (rho : R) (v r : Z) : Prop :=
  if nanb v then nanb r = true
  else if infb v || zerob v then r = v
  else scaled_within rho 1 1 v r
    \/ (sgn r = sgn v /\ infb r = true
        /\ (IZR (mag_val (INFm - 1)) < Rabs (IZR (sval v) * rho))%R).

(** * SpecFns: specification of comparison, rounding to integers and scaling

    Like Spec.v, independent of the model.  Values are integers in units of
    2^-262378; [U1] is the number 1 in that unit.  The value used for an infinity
    is +-2^262144, beyond every finite one. *)

From Coq Require Import ZArith Bool.
From Verif Require Import Spec.
Open Scope Z_scope.

(** Numeric equality and order of extended reals. *)
Definition spec_eq (x y : Z) : bool := negb (nanb x) && negb (nanb y) && (sval x =? sval y).
Definition spec_cmp (x y : Z) : option comparison :=
  if nanb x || nanb y then None else Some (sval x ?= sval y).

(** totalOrder of IEEE 754 (5.10): position of a bit pattern in the total order. *)
Definition tkey (v : Z) : Z := if sgn v =? 0 then mag v else - mag v - 1.
Definition spec_total_cmp (x y : Z) : comparison := tkey x ?= tkey y.

Definition U1 : Z := 2 ^ UNITe.

(** Integers of the rounding functions; the argument is a value in units. *)
Definition int_trunc (n : Z) : Z := Z.quot n U1.
Definition int_floor (n : Z) : Z := n / U1.
Definition int_ceil (n : Z) : Z := - ((- n) / U1).
Definition int_round (n : Z) : Z := Z.sgn n * ((2 * Z.abs n + U1) / (2 * U1)).
Definition int_rte (n : Z) : Z := rne_div n U1.

(** [r] is the rounding of [x] to an integer by [f]; NaN, infinities and zeros are
    returned unchanged.  The sign of a zero result of a non-zero [x] is left open. *)
Definition spec_int (f : Z -> Z) (x r : Z) : Prop :=
  if nanb x || infb x || zerob x then r = x
  else finb r = true /\ sval r = f (sval x) * U1.

(** Multiplication and division by 2^n, rounded once. *)
Definition spec_mul_pow2 (x n : Z) : Z :=
  if nanb x || infb x || zerob x then x
  else mkf (sgn x) (rnd_mag (mag_val (mag x) * 2 ^ n) 1).
Definition spec_div_pow2 (x n : Z) : Z :=
  if nanb x || infb x || zerob x then x
  else mkf (sgn x) (rnd_mag (mag_val (mag x)) (2 ^ n)).

(** [r] is the unit in the last place of the finite [x]: the positive power of two
    2^k (in units) such that [x] has a significand of at most 237 bits above it,
    exactly 237 unless k = 0. *)
Definition spec_ulp (x r : Z) : Prop :=
  if finb x then
    sgn r = 0 /\ exists k c, 0 <= k /\ mag_val (mag r) = 2 ^ k /\ mag_val (mag x) = c * 2 ^ k
                       /\ c < 2 ^ 237 /\ (k = 0 \/ 2 ^ 236 <= c)
  else nanb r = true.

(** The magnitude of the number c * 2^t rounded to nearest even: with k = t + 262378
    it is c * 2^k units. *)
Definition rnd_scaled (c t : Z) : Z :=
  let k := t + UNITe in
  rnd_mag (c * 2 ^ Z.max 0 k) (2 ^ Z.max 0 (- k)).

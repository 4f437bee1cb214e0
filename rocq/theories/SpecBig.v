(** * SpecBig: the numbers and the rounding of the extended format of src/math/big_float.rs

    Over the real numbers.  Rounding to 255 bits is Flocq's: round to nearest, ties to even, in the
    format of unbounded exponent range and precision 255. *)

From Coq Require Import ZArith Reals.
From Flocq Require Import Core.
From Verif Require Import Spec.
Open Scope Z_scope.

(** signum * signif * 2^-254 * 2^exp *)
Definition bval (s e m : Z) : R := (IZR (s * m) * bpow radix2 (e - 254))%R.

(** The significand has a leading one at bit 254. *)
Definition bnormal (s m : Z) : Prop := (s = 1 \/ s = -1) /\ 2 ^ 254 <= m < 2 ^ 255.

Definition rnd255 (v : R) : R := round radix2 (FLX_exp 255) ZnearestE v.

(** The same with the excess digits dropped *)
Definition rtz255 (v : R) : R := round radix2 (FLX_exp 255) Ztrunc v.

(** The magnitude [rnd_mag] of m * 2^(e - 254): the f256 nearest to it, with the sign of [s] *)
Definition spec_of_big (s e m : Z) : Z :=
  mkf (if s <? 0 then 1 else 0)
      (let k := e - 254 + UNITe in if 0 <=? k then rnd_mag (m * 2 ^ k) 1 else rnd_mag m (2 ^ - k)).

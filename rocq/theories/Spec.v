(** * Spec: an independent specification of IEEE 754 binary256 arithmetic

    Nothing here depends on the model.  A datum is the integer [0 <= v < 2^256]
    formed by its bits.  The magnitude of a finite datum is an integer multiple
    of the least positive number 2^(-262378), so every operation can be specified
    with exact integers: [mag_val] is that multiple, and [rnd_mag n d] is the
    encoding of the rational n / d (in units of 2^(-262378)) rounded to nearest,
    ties to even.  SpecProps.v proves that [rnd_mag] is the nearest encoding,
    and SpecFlocq.v relates the operations to Flocq's. *)

From Coq Require Import ZArith Bool.
Open Scope Z_scope.

(** Round half to even of n / d, d > 0. *)
Definition rne_div (n d : Z) : Z :=
  let q := n / d in
  let r := n mod d in
  if (d <? 2 * r) || ((2 * r =? d) && Z.odd q) then q + 1 else q.

(** Fields of the interchange format: 1 sign bit, 19 exponent bits, 236 fraction bits *)
Definition sgn (v : Z) : Z := v / 2 ^ 255.
Definition mag (v : Z) : Z := v mod 2 ^ 255.
Definition mkf (s m : Z) : Z := s * 2 ^ 255 + m.

(** Magnitude of infinity, canonical NaN, 1 and the unit 2^262378 = 1 / 2^-262378 *)
Definition INFm : Z := 524287 * 2 ^ 236.
Definition QNAN : Z := 524287 * 2 ^ 236 + 2 ^ 235.
Definition ONEm : Z := 262143 * 2 ^ 236.
Definition UNITe : Z := 262378.

Definition nanb (v : Z) : bool := INFm <? mag v.
Definition infb (v : Z) : bool := mag v =? INFm.
Definition finb (v : Z) : bool := mag v <? INFm.
Definition zerob (v : Z) : bool := mag v =? 0.

(** The magnitude with encoding [a], in units of 2^-262378.  On [a = INFm] this is
    2^262144 / 2^-262378, the first power of two beyond the finite range. *)
Definition mag_val (a : Z) : Z :=
  if a <? 2 ^ 236 then a else (2 ^ 236 + a mod 2 ^ 236) * 2 ^ (a / 2 ^ 236 - 1).

(** The signed value of a finite datum, in units of 2^-262378. *)
Definition sval (v : Z) : Z := (1 - 2 * sgn v) * mag_val (mag v).

(** The encoding of n / d rounded to nearest even (n >= 0, d > 0). *)
Definition rnd_mag (n d : Z) : Z :=
  let e := Z.max 0 (Z.log2 (n / d) - 236) in
  Z.min INFm (e * 2 ^ 236 + rne_div n (d * 2 ^ e)).

(** A signed exact result n / d; [s0] is the sign of an exact zero. *)
Definition rnd_signed (s0 n d : Z) : Z :=
  if n =? 0 then mkf s0 0
  else mkf (if n <? 0 then 1 else 0) (rnd_mag (Z.abs n) d).

Definition xors (a b : Z) : Z := if a =? b then 0 else 1.

(** ** Operations *)

(** IEEE 754 (6.3): an exact zero sum is +0 unless both operands are -0. *)
Definition spec_add (x y : Z) : Z :=
  if nanb x || nanb y then QNAN
  else if infb x then (if infb y && negb (sgn x =? sgn y) then QNAN else x)
  else if infb y then y
  else rnd_signed (sgn x * sgn y) (sval x + sval y) 1.

Definition spec_neg (x : Z) : Z := mkf (1 - sgn x) (mag x).
Definition spec_sub (x y : Z) : Z := spec_add x (spec_neg y).

Definition spec_mul (x y : Z) : Z :=
  let s := xors (sgn x) (sgn y) in
  if nanb x || nanb y then QNAN
  else if infb x || infb y then (if zerob x || zerob y then QNAN else mkf s INFm)
  else mkf s (rnd_mag (mag_val (mag x) * mag_val (mag y)) (2 ^ UNITe)).

Definition spec_div (x y : Z) : Z :=
  let s := xors (sgn x) (sgn y) in
  if nanb x || nanb y then QNAN
  else if infb x then (if infb y then QNAN else mkf s INFm)
  else if infb y then mkf s 0
  else if zerob y then (if zerob x then QNAN else mkf s INFm)
  else mkf s (rnd_mag (mag_val (mag x) * 2 ^ UNITe) (mag_val (mag y))).

(** The remainder of truncating division; exact. *)
Definition spec_rem (x y : Z) : Z :=
  if nanb x || nanb y || infb x || zerob y then QNAN
  else if infb y then x
  else mkf (sgn x) (rnd_mag (mag_val (mag x) mod mag_val (mag y)) 1).

(** [z] is the encoding nearest to the square root of the magnitude with value
    [n] units, i.e. to sqrt (n * 2^UNITe) units: the root lies strictly between
    the midpoints of [z] with its two neighbours.  (A square root of a binary256
    number is never a midpoint.) *)
Definition nearest_sqrt (n z : Z) : Prop :=
  0 < z < INFm
  /\ (mag_val (z - 1) + mag_val z) ^ 2 < 4 * (n * 2 ^ UNITe) < (mag_val z + mag_val (z + 1)) ^ 2.

Definition spec_sqrt (x r : Z) : Prop :=
  if nanb x then nanb r = true
  else if zerob x then r = x
  else if sgn x =? 1 then nanb r = true
  else if infb x then r = x
  else sgn r = 0 /\ nearest_sqrt (mag_val (mag x)) (mag r).

(** x * y + a with one rounding *)
Definition spec_fma (x y a : Z) : Z :=
  let s := xors (sgn x) (sgn y) in
  if nanb x || nanb y || nanb a then QNAN
  else if infb x || infb y then
    (if zerob x || zerob y then QNAN
     else if infb a && negb (sgn a =? s) then QNAN else mkf s INFm)
  else if infb a then a
  else
    rnd_signed (if zerob a then s * sgn a else 0)
      ((1 - 2 * s) * (mag_val (mag x) * mag_val (mag y)) + sval a * 2 ^ UNITe) (2 ^ UNITe).

(** x^2 + y^2 with one rounding *)
Definition spec_sos (x y : Z) : Z :=
  if nanb x || nanb y then QNAN
  else if infb x || infb y then mkf 0 INFm
  else mkf 0 (rnd_mag (mag_val (mag x) * mag_val (mag x) + mag_val (mag y) * mag_val (mag y))
                      (2 ^ UNITe)).

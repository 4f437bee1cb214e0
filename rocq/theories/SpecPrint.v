(** * SpecPrint: printed text, and what the tables of the printer have to hold

    Uses the model only for the type of the tables. *)

From Verif Require Import Base Spec SpecParse Print.
Open Scope Z_scope.

(** The value of an entry and its range *)
Definition entry_value (t : Z * Z * Z * Z) : Z :=
  let '(a, b, c, d) := t in ((a * 2 ^ 128 + b) * 2 ^ 128 + c) * 2 ^ 128 + d.
Definition entry_wf (t : Z * Z * Z * Z) : Prop :=
  let '(a, b, c, d) := t in
  0 <= a < 2 ^ 128 /\ 0 <= b < 2 ^ 128 /\ 0 <= c < 2 ^ 128 /\ 0 <= d < 2 ^ 128.

(** The entries used for quantum exponents from -710 to 191: 2^(h+2) / 5^g, rounded up by
    at most 4, where h = floor(log2 5^g) + 501, and 5^i / 2^(h-2), which is an integer,
    where h = floor(log2 5^i) - 500. *)
Definition tables_ok (t : luts) : Prop :=
  (forall g, 0 <= g <= 55 -> exists v, pow2_div_pow5 t g = Some v /\ entry_wf v
     /\ 2 ^ (Z.log2 (5 ^ g) + 503) < 5 ^ g * entry_value v <= 2 ^ (Z.log2 (5 ^ g) + 503) + 4 * 5 ^ g)
  /\ (forall i, 0 <= i <= 216 -> exists v, pow5_div_pow2 t i = Some v /\ entry_wf v
     /\ entry_value v = 5 ^ i * 2 ^ (502 - Z.log2 (5 ^ i))).

(** The exponent of the leading bit of a normal number: 2^expo <= |x| < 2^(expo+1) *)
Definition expo (x : Z) : Z := mag x / 2 ^ 236 - 262143.
(** |x| is an integral number. *)
Definition integral (x : Z) : Prop := mag_val (mag x) mod 2 ^ UNITe = 0.
(** |x| is a power of two (x normal). *)
Definition power_of_two (x : Z) : Prop := mag x mod 2 ^ 236 = 0.

(** The significand of the literal has at most [d] significant digits. *)
Definition significant (l : literal) (d : Z) : Prop :=
  exists w z, lit_signif l = w * 10 ^ z /\ 0 <= z /\ 0 <= w < 10 ^ d.

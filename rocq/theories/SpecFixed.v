(** * SpecFixed: the positional format with a given precision

    Uses the model only for the type of the table. *)

From Coq Require Import List.
From Verif Require Import Base Spec SpecParse PrintFixed.
Import ListNotations.
Open Scope Z_scope.

(** What the theorems need of the table (see the generator script):
    for exponents down to -319 the entries are 10^(19 (j+1)) * 2^s modulo 10^19 * 2^304, where
    s is 304 plus the lowest exponent of the segment; these powers are integers.  For
    exponents below -511 there are at least four chunks of 19 zeros. *)
Definition chunks_ok (t : chunk_table) : Prop :=
  (forall e, -319 <= e <= -237 -> exists i, let s := 273 - 32 * (- e / 32) in
     seg t e = Some (i, (0, s))
     /\ forall j, 0 <= j <= 3 -> exists a b c, entry t i j = Some (a, b, c)
          /\ 0 <= a < 2 ^ 128 /\ 0 <= b < 2 ^ 128 /\ 0 <= c < 2 ^ 128
          /\ (a * 2 ^ 128 + b) * 2 ^ 128 + c
             = (10 ^ (19 * (j + 1)) * 2 ^ Z.max 0 s / 2 ^ Z.max 0 (- s)) mod (10 ^ 19 * 2 ^ 304))
  /\ (forall e, -262615 <= e <= -512 -> exists i z s,
     seg t e = Some (i, (z, s)) /\ 4 <= z < 10000 /\ e < s <= e + 304).

(** The literal is |x| rounded to [p] fractional digits (ties to even), with exactly [p] such
    digits, without superfluous zeros in front, and with the sign of x. *)
Definition fixed_literal (x p : Z) (l : literal) : Prop :=
  documented l
  /\ l_exp l = None
  /\ l_sign l = (if sgn x =? 1 then Minus else NoSign)
  /\ (l_frac l = None <-> p = 0)
  /\ Z.of_nat (List.length (frac_digits l)) = p
  /\ (l_int l = [0] \/ hd 0 (l_int l) <> 0)
  /\ lit_signif l = rne_div (mag_val (mag x) * 10 ^ p) (2 ^ UNITe).

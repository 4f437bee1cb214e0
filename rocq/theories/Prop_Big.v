(** * Properties C47 to C52: the extended format of the trigonometric functions (src/math/big_float.rs)

    [bfv x] is the real number x stands for, [bf_normal x] says that x is normalised and not zero,
    [exp30 x] that its exponent is from -2^30 to 2^30 - 1. *)

From Coq Require Import ZArith Reals Lia Lra Bool.
From Flocq Require Import Core.
From Verif Require Import Base BigUInt BigExtra ZLemmas Spec SpecLog F256 Interface SpecBig BigFloat BigReal BigRefute.
Open Scope Z_scope.

(** ** C47: conversions *)

(** Every finite f256 converts without error. *)
Theorem C47_from : forall (P : profile) v, wf256 v -> finb (v256 v) = true ->
  exists z, bf_from_f256 v = Some z /\ bf_wf z /\ bfv z = rval (v256 v) /\ (z = BF_ZERO <-> zerob (v256 v) = true)
    /\ -262378 <= bf_exp z <= 262143.
Proof. exact (@R_from). Qed.
Print Assumptions C47_from.

Theorem C47_roundtrip : forall (P : profile) v, wf256 v -> finb (v256 v) = true -> zerob (v256 v) = false ->
  exists z, bf_from_f256 v = Some z /\ f256_of_bf z = Some v.
Proof. exact (@R_roundtrip). Qed.
Print Assumptions C47_roundtrip.

(** Missing: the numbers above 2^-262379 and below 2^-262378, where the statement is false (C47_refuted). *)
Theorem C47_to_partial : forall (P : profile) x, bf_normal x -> - 2 ^ 31 <= bf_exp x < 2 ^ 31 ->
  bf_exp x <> -262379 \/ v256 (bf_signif x) = 2 ^ 254 ->
  exists z, f256_of_bf x = Some z /\ wf256 z /\ v256 z = spec_of_big (bf_signum x) (bf_exp x) (v256 (bf_signif x)).
Proof. exact (@R_to). Qed.
Print Assumptions C47_to_partial.

(** Just above half of the least positive number: the result is 0 instead of that number. *)
Theorem C47_refuted : forall P : profile, exists x, bf_normal x /\ f256_of_bf x = Some ZERO
  /\ spec_of_big (bf_signum x) (bf_exp x) (v256 (bf_signif x)) = 1.
Proof. exact (@to_refuted). Qed.
Print Assumptions C47_refuted.

(** -3 2^-262378, and a tie between the two least positive numbers (1.5 2^-262378) *)
Example C47_ex : forall P : profile,
  bf_from_f256 (bits (mkf 1 3)) = Some (BF (-1) (-262377) (bits (3 * 2 ^ 253)))
  /\ f256_of_bf (BF (-1) (-262377) (bits (3 * 2 ^ 253))) = Some (bits (mkf 1 3))
  /\ f256_of_bf (BF 1 (-262378) (bits (3 * 2 ^ 253))) = Some (bits 2)
  /\ f256_of_bf (BF 1 0 (bits (2 ^ 254 + 3 * 2 ^ 17))) = Some (bits (ONEm + 2)).
Proof. intros []; vm_compute; repeat split. Qed.

(** ** C48: multiplication *)

(** Missing: the products that round up to a power of two from below (both significands together just under
    2^509).  For them the result is half of what it should be. *)
Theorem C48_partial : forall (P : profile) x y, bf_normal x -> bf_normal y -> exp30 x -> exp30 y ->
  let mx := v256 (bf_signif x) in let my := v256 (bf_signif y) in
  exists z, bf_mul x y = Some z /\ bf_normal z /\ bf_signum z = bf_signum x * bf_signum y
    /\ (~ 2 ^ 509 - 2 ^ 253 <= mx * my < 2 ^ 509 -> bfv z = rnd255 (bfv x * bfv y))
    /\ (2 ^ 509 - 2 ^ 253 <= mx * my < 2 ^ 509 -> bfv z = (rnd255 (bfv x * bfv y) / 2)%R).
Proof.
  intros P x y Nx Ny Ex Ey. destruct (R_mul x y Nx Ny Ex Ey) as (z & A & B & C & _ & D & E). exists z.
  exact (conj A (conj B (conj C (conj D E)))).
Qed.
Print Assumptions C48_partial.

Theorem C48_refuted : forall P : profile, exists x y z, bf_normal x /\ bf_normal y /\ bf_exp x = 0 /\ bf_exp y = 0
  /\ bf_mul x y = Some z /\ bfv z = 1%R /\ rnd255 (bfv x * bfv y) = 2%R.
Proof. exact (@mul_refuted). Qed.
Print Assumptions C48_refuted.

(** 1.5 * 1.5 = 2.25 = 1.125 * 2; (1 + 2^-254)(1.5) is a tie, which goes to the even neighbour. *)
Example C48_ex : forall P : profile,
  bf_mul (BF 1 0 (bits (3 * 2 ^ 253))) (BF (-1) 0 (bits (3 * 2 ^ 253))) = Some (BF (-1) 1 (bits (9 * 2 ^ 251)))
  /\ bf_mul (BF 1 0 (bits (2 ^ 254 + 1))) (BF 1 0 (bits (3 * 2 ^ 253))) = Some (BF 1 0 (bits (3 * 2 ^ 253 + 2))).
Proof. intros []; vm_compute; repeat split. Qed.

(** ** C49: addition and subtraction *)

(** Same signs: the excess digits of the sum are dropped, so the error is below one unit in the last place;
    the claimed rounding to nearest is missing (C49_nearest_refuted). *)
Theorem C49_same_partial : forall (P : profile) x y, bf_normal x -> bf_normal y -> exp30 x -> exp30 y ->
  bf_signum x = bf_signum y ->
  exists z, bf_add x y = Some z /\ bf_normal z /\ bf_signum z = bf_signum x /\ bfv z = rtz255 (bfv x + bfv y).
Proof. exact (@R_add_same). Qed.
Print Assumptions C49_same_partial.

(** Different signs: the error is below one unit in the last place of the operand of larger exponent, and there
    is none if the exponents are equal.  Missing: the rounding of the difference (C49_diff_refuted). *)
Theorem C49_diff_partial : forall (P : profile) x y, bf_normal x -> bf_normal y -> exp30 x -> exp30 y ->
  bf_signum x <> bf_signum y ->
  exists z, bf_add x y = Some z /\ bf_wf z
    /\ (Rabs (bfv z - (bfv x + bfv y)) < bpow radix2 (Z.max (bf_exp x) (bf_exp y) - 254))%R
    /\ (bf_exp x = bf_exp y -> bfv z = (bfv x + bfv y)%R).
Proof. exact (@R_add_diff). Qed.
Print Assumptions C49_diff_partial.

(** Subtraction is addition of the negated operand. *)
Theorem C49_sub : forall (P : profile) x y, bf_normal x -> bf_normal y -> exp30 x -> exp30 y ->
  bf_sub x y = bf_add x (bf_neg y) /\ bf_normal (bf_neg y) /\ bfv (bf_neg y) = (- bfv y)%R.
Proof. intros P x y Nx Ny Ex Ey. exact (conj (R_sub x y Nx Ny Ex Ey) (R_neg y Ny)). Qed.
Print Assumptions C49_sub.

(** Missing: x + 0 for exponents below -254 (C49_zero_refuted). *)
Theorem C49_zero_partial : forall (P : profile) x, bf_normal x ->
  (exp30 x -> bf_add BF_ZERO x = Some x) /\ (-254 <= bf_exp x < 2 ^ 31 -> bf_add x BF_ZERO = Some x).
Proof. intros P x N. exact (conj (R_add_zero_l' x) (R_add_zero_r x N)). Qed.
Print Assumptions C49_zero_partial.

(** 1 + (2 - 2^-254) 2^-254 *)
Theorem C49_nearest_refuted : forall P : profile, exists x y z, bf_normal x /\ bf_normal y /\ bf_signum x = 1 /\ bf_signum y = 1
  /\ bf_add x y = Some z /\ bfv z <> rnd255 (bfv x + bfv y).
Proof. exact (@add_trunc_refuted). Qed.
Print Assumptions C49_nearest_refuted.

(** 2 - (2 - 2^-254): the result is twice the difference. *)
Theorem C49_diff_refuted : forall P : profile, exists x y z, bf_normal x /\ bf_normal y /\ bf_signum x = 1 /\ bf_signum y = -1
  /\ bf_add x y = Some z /\ bfv z = (2 * (bfv x + bfv y))%R /\ (0 < bfv x + bfv y)%R.
Proof. exact (@add_diff_refuted). Qed.
Print Assumptions C49_diff_refuted.

(** 2^-255 + 0 = 0 *)
Theorem C49_zero_refuted : forall P : profile, exists x, bf_normal x /\ bf_add x BF_ZERO = Some BF_ZERO.
Proof. exact (@add_zero_refuted). Qed.
Print Assumptions C49_zero_refuted.

(** 1.5 + 0.75 = 2.25; 1.5 - 1.25 = 0.25; 1 + 2^-254 3/2 is cut off to 1 + 2^-254. *)
Example C49_ex : forall P : profile,
  bf_add (BF 1 0 (bits (3 * 2 ^ 253))) (BF 1 (-1) (bits (3 * 2 ^ 253))) = Some (BF 1 1 (bits (9 * 2 ^ 251)))
  /\ bf_sub (BF 1 0 (bits (3 * 2 ^ 253))) (BF 1 0 (bits (5 * 2 ^ 252))) = Some (BF 1 (-2) (bits (2 ^ 254)))
  /\ bf_add (BF 1 0 (bits (2 ^ 254))) (BF 1 (-254) (bits (3 * 2 ^ 253))) = Some (BF 1 0 (bits (2 ^ 254 + 1)))
  /\ bf_sub (BF 1 0 (bits (2 ^ 254))) (BF 1 0 (bits (2 ^ 254))) = Some BF_ZERO.
Proof. intros []; vm_compute; repeat split. Qed.

(** ** C50: division and square root *)

(** Missing: the rounding to nearest if the significand of the dividend is the smaller one (C50_refuted). *)
Theorem C50_div_partial : forall (P : profile) x y, bf_normal x -> bf_normal y -> exp30 x -> exp30 y ->
  exists z, bf_div x y = Some z /\ bf_normal z /\ bf_signum z = bf_signum x * bf_signum y
    /\ (v256 (bf_signif y) <= v256 (bf_signif x) -> bfv z = rnd255 (bfv x / bfv y))
    /\ (Rabs (bfv z - bfv x / bfv y) <= bpow radix2 (bf_exp z - 254))%R.
Proof. exact (@R_div). Qed.
Print Assumptions C50_div_partial.

(** 1 / 1.5 *)
Theorem C50_refuted : forall P : profile, exists x y z, bf_normal x /\ bf_normal y /\ bfv x = 1%R /\ bfv y = (3 / 2)%R
  /\ bf_div x y = Some z /\ bfv z <> rnd255 (bfv x / bfv y).
Proof. exact (@div_refuted). Qed.
Print Assumptions C50_refuted.

Theorem C50_sqrt : forall (P : profile) x, bf_normal x -> bf_signum x = 1 -> exp30 x ->
  exists z, bf_sqrt x = Some z /\ bf_normal z /\ bf_signum z = 1 /\ bfv z = rnd255 (sqrt (bfv x)).
Proof. exact (@R_sqrt). Qed.
Print Assumptions C50_sqrt.

(** 9/4 / 3/2 = 3/2; sqrt (9/4) = 3/2; sqrt 2 *)
Example C50_ex : forall P : profile,
  bf_div (BF 1 1 (bits (9 * 2 ^ 251))) (BF (-1) 0 (bits (3 * 2 ^ 253))) = Some (BF (-1) 0 (bits (3 * 2 ^ 253)))
  /\ bf_sqrt (BF 1 1 (bits (9 * 2 ^ 251))) = Some (BF 1 0 (bits (3 * 2 ^ 253)))
  /\ bf_sqrt (BF 1 1 (bits (2 ^ 254))) = bf_new BF_SQRT_2.
Proof. intros []; vm_compute; repeat split. Qed.

(** ** C51: constants, comparison, truncation *)

(** Each constant is the real number of its name, rounded to 255 bits. *)
Theorem C51_consts : forall P : profile,
  let is a v := exists z, bf_new a = Some z /\ bf_normal z /\ bfv z = rnd255 v in
  is BF_PI PI /\ is BF_TAU (2 * PI)%R /\ is BF_FRAC_PI_2 (PI / 2)%R /\ is BF_FRAC_PI_4 (PI / 4)%R
  /\ is BF_FRAC_3_PI_2 (3 * PI / 2)%R /\ is BF_FRAC_3_PI_4 (3 * PI / 4)%R /\ is BF_FRAC_5_PI_4 (5 * PI / 4)%R
  /\ is BF_FRAC_7_PI_4 (7 * PI / 4)%R /\ is BF_FRAC_9_PI_4 (9 * PI / 4)%R
  /\ is BF_SQRT_PI (sqrt PI) /\ is BF_SQRT_2 (sqrt 2) /\ is BF_FRAC_1_SQRT_2 (1 / sqrt 2)%R.
Proof. exact (@R_consts). Qed.
Print Assumptions C51_consts.

(** Missing: two negative numbers, whose order is reversed (C51_cmp_refuted). *)
Theorem C51_cmp_partial : forall (P : profile) x y, bf_normal x -> bf_normal y -> ~ (bf_signum x = -1 /\ bf_signum y = -1) ->
  bf_cmp x y = Rcompare (bfv x) (bfv y).
Proof. exact (@R_cmp). Qed.
Print Assumptions C51_cmp_partial.

Theorem C51_cmp_refuted : forall P : profile, exists x y, bf_normal x /\ bf_normal y
  /\ bfv x = (-1)%R /\ bfv y = (-2)%R /\ bf_cmp x y = Lt.
Proof. exact (@cmp_refuted). Qed.
Print Assumptions C51_cmp_refuted.

(** Missing: magnitudes below 1 (C51_trunc_refuted). *)
Theorem C51_trunc_partial : forall (P : profile) x, bf_normal x -> 0 <= bf_exp x < 2 ^ 31 ->
  exists z, bf_trunc x = Some z /\ bf_normal z /\ bfv z = IZR (Ztrunc (bfv x)).
Proof. exact (@R_trunc). Qed.
Print Assumptions C51_trunc_partial.

(** trunc 0.5 is a number of value 0 that [is_zero] does not recognise; trunc 0.25 panics with overflow checks. *)
Theorem C51_trunc_refuted : forall P : profile,
  (exists x z, bf_normal x /\ bfv x = (1 / 2)%R /\ bf_trunc x = Some z /\ bf_is_zero z = false /\ bfv z = 0%R)
  /\ exists x, bf_normal x /\ bfv x = (1 / 4)%R /\ @bf_trunc true x = None.
Proof. intros P. exact (conj trunc_refuted trunc_debug). Qed.
Print Assumptions C51_trunc_refuted.

(** trunc (-2.25) = -2; 1.5 < 2.25; -1 < 1 *)
Example C51_ex : forall P : profile,
  bf_trunc (BF (-1) 1 (bits (9 * 2 ^ 251))) = Some (BF (-1) 1 (bits (2 ^ 254)))
  /\ bf_cmp (BF 1 0 (bits (3 * 2 ^ 253))) (BF 1 1 (bits (9 * 2 ^ 251))) = Lt
  /\ bf_cmp (BF (-1) 0 (bits (2 ^ 254))) (BF 1 0 (bits (2 ^ 254))) = Lt
  /\ bf_cmp (BF 1 0 (bits (2 ^ 254 + 1))) (BF 1 0 (bits (2 ^ 254))) = Gt.
Proof. intros []; vm_compute; repeat split. Qed.

(** ** C52: multiply and add *)

(** Missing: everything but zero operands (see also C52_cancel_partial in Prop_BigExact.v).  The claim, x * f + a rounded once to nearest, is false
    (C52_nearest_refuted), and so is that results are normalised (C52_normal_refuted). *)
Theorem C52_partial : forall (P : profile) x f a,
  (bf_is_zero x || bf_is_zero f = true -> bf_mul_add x f a = Some a)
  /\ (bf_is_zero x || bf_is_zero f = false -> bf_is_zero a = true -> bf_mul_add x f a = bf_mul x f).
Proof. exact (@mul_add_zero). Qed.
Print Assumptions C52_partial.

Theorem C52_nearest_refuted : forall P : profile, exists x f a z, bf_normal x /\ bf_normal f /\ bf_normal a
  /\ bf_exp x = 0 /\ bf_exp f = 0 /\ bf_exp a = 0 /\ bf_signum x = 1 /\ bf_signum f = 1 /\ bf_signum a = 1
  /\ bf_mul_add x f a = Some z /\ bfv z <> rnd255 (bfv x * bfv f + bfv a).
Proof. exact (@mul_add_round_refuted). Qed.
Print Assumptions C52_nearest_refuted.

(** 1 * 1 - 2^-400 *)
Theorem C52_normal_refuted : forall P : profile, exists x f a z, bf_normal x /\ bf_normal f /\ bf_normal a
  /\ bf_exp x = 0 /\ bf_exp f = 0 /\ bf_exp a = -400
  /\ bf_mul_add x f a = Some z /\ v256 (bf_signif z) = 2 ^ 255.
Proof. exact (@mul_add_norm_refuted). Qed.
Print Assumptions C52_normal_refuted.

(** 1.5 * 1.5 + 1 = 3.25; 1.5 * 1.5 - 2 = 0.25; 1.5 * 0 + 1 = 1 *)
Example C52_ex : forall P : profile,
  bf_mul_add (BF 1 0 (bits (3 * 2 ^ 253))) (BF 1 0 (bits (3 * 2 ^ 253))) (BF 1 0 (bits (2 ^ 254))) = Some (BF 1 1 (bits (13 * 2 ^ 251)))
  /\ bf_mul_add (BF 1 0 (bits (3 * 2 ^ 253))) (BF 1 0 (bits (3 * 2 ^ 253))) (BF (-1) 1 (bits (2 ^ 254))) = Some (BF 1 (-2) (bits (2 ^ 254)))
  /\ bf_mul_add (BF 1 0 (bits (3 * 2 ^ 253))) BF_ZERO (BF 1 0 (bits (2 ^ 254))) = Some (BF 1 0 (bits (2 ^ 254))).
Proof. intros []; vm_compute; repeat split. Qed.

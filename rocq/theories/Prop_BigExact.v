(** * Properties C59 to C61 and a part of C52: the extended format of the trigonometric functions, continued: construction from
    parts, reciprocal, and sums and products with remainder (src/math/big_float.rs)

    [bfv x] is the real number x stands for, [bf_normal x] says that x is normalised and not zero,
    [exp30 x] that its exponent is from -2^30 to 2^30 - 1. *)

From Coq Require Import ZArith Reals Lia Bool.
From Flocq Require Import Core.
From Verif Require Import Base BigUInt BigExtra Spec F256 Interface SpecBig BigFloat BigReal BigExact BigMulExact BigMulAdd.
Open Scope Z_scope.

(** ** C59: construction from sign, exponent and significand *)

(** Missing: odd significands from 2^255 on, which lose their last bit (C59_refuted). *)
Theorem C59_partial : forall (P : profile) s t h l, s = 0 \/ s = 1 -> - 2 ^ 30 <= t < 2 ^ 30 ->
  0 <= h < 2 ^ 128 -> 0 <= l < 2 ^ 128 ->
  let c := h * 2 ^ 128 + l in
  (c = 0 -> bf_from_sign_exp_signif s t (h, l) = Some BF_ZERO)
  /\ (0 < c -> exists z, bf_from_sign_exp_signif s t (h, l) = Some z /\ bf_normal z
     /\ (c < 2 ^ 255 \/ Z.even c = true -> bfv z = (IZR ((1 - 2 * s) * c) * bpow radix2 t)%R)
     /\ (2 ^ 255 <= c -> Z.even c = false -> bfv z = (IZR ((1 - 2 * s) * (c - 1)) * bpow radix2 t)%R)).
Proof. exact (@R_parts_all). Qed.
Print Assumptions C59_partial.

(** 2^255 + 1 becomes 2^255. *)
Theorem C59_refuted : forall P : profile, exists z, bf_from_sign_exp_signif 0 0 (2 ^ 127, 1) = Some z
  /\ bfv z = IZR (2 ^ 127 * 2 ^ 128) /\ (bfv z < IZR (2 ^ 127 * 2 ^ 128 + 1))%R.
Proof. exact (@parts_refuted). Qed.
Print Assumptions C59_refuted.

(** -3 * 2^7; 3 * 2^128 with a significand of two limbs; 2^255 + 2 *)
Example C59_ex : forall P : profile,
  bf_from_sign_exp_signif 1 7 (0, 3) = Some (BF (-1) 8 (bits (3 * 2 ^ 253)))
  /\ bf_from_sign_exp_signif 0 0 (3, 0) = Some (BF 1 129 (bits (3 * 2 ^ 253)))
  /\ bf_from_sign_exp_signif 0 (-5) (2 ^ 127, 2) = Some (BF 1 250 (bits (2 ^ 254 + 1))).
Proof. intros []; vm_compute; repeat split. Qed.

(** ** C60: reciprocal *)

(** Missing: the rounding to nearest for arguments other than powers of two (C60_refuted). *)
Theorem C60_partial : forall (P : profile) x, bf_normal x -> exp30 x ->
  exists z, bf_recip x = Some z /\ bf_normal z /\ bf_signum z = bf_signum x
    /\ (v256 (bf_signif x) = 2 ^ 254 -> bfv z = rnd255 (/ bfv x))
    /\ (Rabs (bfv z - / bfv x) <= bpow radix2 (bf_exp z - 254))%R.
Proof. exact (@R_recip). Qed.
Print Assumptions C60_partial.

(** The reciprocal of 1.5 *)
Theorem C60_refuted : forall P : profile, exists x z, bf_normal x /\ bfv x = (3 / 2)%R /\ bf_recip x = Some z
  /\ bfv z <> rnd255 (/ bfv x).
Proof. exact (@recip_refuted). Qed.
Print Assumptions C60_refuted.

(** 1 / -8 *)
Example C60_ex : forall P : profile, bf_recip (BF (-1) 3 (bits (2 ^ 254))) = Some (BF (-1) (-3) (bits (2 ^ 254))).
Proof. intros []; vm_compute; reflexivity. Qed.

(** ** C61: sums and products with remainder

    The claim is that sum_exact x y = (s, r) with s + r = x + y, and mul_exact x y = (p, r) with p + r = x * y. *)

(** The product.  Missing: the products that round up to a power of two from below (C61_mul_refuted, compare C48),
    and exponents outside -2^29 to 2^29 - 1. *)
Theorem C61_mul_partial : forall (P : profile) x y, bf_normal x -> bf_normal y ->
  - 2 ^ 29 <= bf_exp x < 2 ^ 29 -> - 2 ^ 29 <= bf_exp y < 2 ^ 29 ->
  ~ 2 ^ 509 - 2 ^ 253 <= v256 (bf_signif x) * v256 (bf_signif y) < 2 ^ 509 ->
  exists p r, bf_mul_exact x y = Some (p, r) /\ bf_normal p /\ bf_wf r
    /\ bfv p = rnd255 (bfv x * bfv y) /\ (bfv p + bfv r)%R = (bfv x * bfv y)%R.
Proof. exact (@R_mul_exact). Qed.
Print Assumptions C61_mul_partial.

(** 1 + 2^-255: the remainder is lost. *)
Theorem C61_sum_refuted : forall P : profile, exists x y s, bf_normal x /\ bf_normal y
  /\ bf_sum_exact x y = Some (s, BF_ZERO) /\ bfv s = 1%R /\ bfv x = 1%R /\ bfv y = bpow radix2 (-255).
Proof. exact (@sum_exact_refuted). Qed.
Print Assumptions C61_sum_refuted.

(** (1 + 2^-254) (2 - 2^-253): product and remainder are both 1. *)
Theorem C61_mul_refuted : forall P : profile, exists x y p r, bf_normal x /\ bf_normal y /\ bf_exp x = 0 /\ bf_exp y = 0
  /\ bf_mul_exact x y = Some (p, r) /\ bfv p = 1%R /\ bfv r = 1%R /\ (bfv x * bfv y < bfv p + bfv r)%R.
Proof. exact (@mul_exact_refuted). Qed.
Print Assumptions C61_mul_refuted.

(** Operands for which the remainder is right: 1 + 3/2 2^-254, (1 + 2^-254)^2 *)
Example C61_ex : forall P : profile,
  bf_sum_exact (BF 1 0 (bits (2 ^ 254))) (BF 1 (-254) (bits (3 * 2 ^ 253)))
  = Some (BF 1 0 (bits (2 ^ 254 + 1)), BF 1 (-255) (bits (2 ^ 254)))
  /\ bf_mul_exact (BF 1 0 (bits (2 ^ 254 + 1))) (BF 1 0 (bits (2 ^ 254 + 1)))
  = Some (BF 1 0 (bits (2 ^ 254 + 2)), BF 1 (-508) (bits (2 ^ 254))).
Proof. intros []; vm_compute; repeat split. Qed.

(** ** C52, continued: multiply and add *)

(** The claim, x * f + a rounded once to 255 bits, for an addend of the exponent of the product and the other sign,
    the case of cancellation.  Missing: other exponents of the addend, and equal signs, where it is false
    (C52_nearest_refuted). *)
Theorem C52_cancel_partial : forall (P : profile) x f a, bf_normal x -> bf_normal f -> bf_normal a ->
  - 2 ^ 29 <= bf_exp x < 2 ^ 29 -> - 2 ^ 29 <= bf_exp f < 2 ^ 29 ->
  bf_signum a <> bf_signum x * bf_signum f ->
  bf_exp a = bf_exp x + bf_exp f + (if v256 (bf_signif x) * v256 (bf_signif f) <? 2 ^ 509 then 0 else 1) ->
  exists z, bf_mul_add x f a = Some z /\ bfv z = rnd255 (bfv x * bfv f + bfv a).
Proof. exact (@R_mul_add). Qed.
Print Assumptions C52_cancel_partial.

(** (1 + 2^-254)^2 - (1 + 2^-253) = 2^-508; 1.5 * 1.5 - 3 = -0.75 *)
Example C52_cancel_ex : forall P : profile,
  bf_mul_add (BF 1 0 (bits (2 ^ 254 + 1))) (BF 1 0 (bits (2 ^ 254 + 1))) (BF (-1) 0 (bits (2 ^ 254 + 2))) = Some (BF 1 (-508) (bits (2 ^ 254)))
  /\ bf_mul_add (BF 1 0 (bits (3 * 2 ^ 253))) (BF 1 0 (bits (3 * 2 ^ 253))) (BF (-1) 1 (bits (3 * 2 ^ 253))) = Some (BF (-1) (-1) (bits (3 * 2 ^ 253))).
Proof. intros []; vm_compute; repeat split. Qed.

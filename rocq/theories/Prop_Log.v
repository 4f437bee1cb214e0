(** * Properties C41 to C43: logarithms and the fixed point numbers they use

    The logarithms are those of the real numbers of the standard library.  Every finite positive
    operand: the result differs from the exact logarithm by at most 65/128 of a unit in the last
    place, 1/128 more than a correctly rounded one.  The other operands all give NaN, where
    IEEE 754 asks for infinities in three cases. *)

From Coq Require Import ZArith Bool Reals Lra Lia.
From Verif Require Import Base BigUInt BigExtra Spec F256 Arith Interface SpecDeg SpecLog LogTable Log
  LnBound LogProofs LogReal LogRound LogFinal DegReal.
Open Scope Z_scope.

(** ** C41: the logarithm of finite positive numbers *)
Theorem C41_ulp : forall (P : profile) x, wf256 x ->
  returns_in (f_ln x) (spec_log ln 65 128 (v256 x))
  /\ returns_in (f_log2 x) (spec_log (log_b 2) 65 128 (v256 x))
  /\ returns_in (f_log10 x) (spec_log (log_b 10) 65 128 (v256 x)).
Proof. intros P. exact L_ulp. Qed.
Print Assumptions C41_ulp.

(** An integral logarithm is returned exactly. *)
Theorem C41_exact : forall (P : profile) x, wf256 x ->
  returns_in (f_ln x) (spec_log_exact ln (v256 x))
  /\ returns_in (f_log2 x) (spec_log_exact (log_b 2) (v256 x))
  /\ returns_in (f_log10 x) (spec_log_exact (log_b 10) (v256 x)).
Proof. intros P. exact L_exact. Qed.
Print Assumptions C41_exact.

Theorem C41_log2_powers : forall (P : profile) x k, wf256 x ->
  finb (v256 x) = true -> zerob (v256 x) = false -> sgn (v256 x) = 0 -> 0 <= k -> sval (v256 x) = 2 ^ k ->
  returns_in (f_log2 x) (fun r => finb r = true /\ sval r = (k - UNITe) * 2 ^ UNITe).
Proof. intros P. exact L_pow2. Qed.
Print Assumptions C41_log2_powers.

Theorem C41_log10_powers : forall (P : profile) x k, wf256 x ->
  finb (v256 x) = true -> zerob (v256 x) = false -> sgn (v256 x) = 0 -> 0 <= k -> sval (v256 x) = 10 ^ k * 2 ^ UNITe ->
  returns_in (f_log10 x) (fun r => finb r = true /\ sval r = k * 2 ^ UNITe).
Proof. intros P. exact L_pow10. Qed.
Print Assumptions C41_log10_powers.

(** The table of the algorithm: entry n (from 1) is ln (1 + 2^-n) to within 3/4 of 2^-492, and its
    factor is 1 + 2^-n exactly; the constant for ln 2 likewise. *)
Theorem C41_table : forall i f l, List.nth_error LUT i = Some (f, l) ->
  w512 f = 2 ^ 492 + 2 ^ (491 - Z.of_nat i)
  /\ (Rabs (IZR (w512 l) - IZR (2 ^ 492) * ln (1 + / IZR (2 ^ (1 + Z.of_nat i)))) <= 3 / 4)%R.
Proof. exact L_table. Qed.
Print Assumptions C41_table.

(** The least positive number, 2^-262378, and 8 *)
Example C41_log2_least : forall P : profile, f_log2 (bits 1) = Some (bits (mkf 1 (262160 * 2 ^ 236 + 262378 * 2 ^ 218))).
Proof. intros []; vm_compute; reflexivity. Qed.
Example C41_log2_eight : forall P : profile, f_log2 (bits (262146 * 2 ^ 236)) = Some (bits (262144 * 2 ^ 236 + 2 ^ 235)).
Proof. intros []; vm_compute; reflexivity. Qed.
Example C41_ln_one : forall P : profile, f_ln (bits ONEm) = Some (bits 0).
Proof. intros []; vm_compute; reflexivity. Qed.
(** log10 10 = 1 *)
Example C41_log10_ten : @f_log10 false (bits (262146 * 2 ^ 236 + 2 ^ 234)) = Some (bits ONEm)
  /\ sval (262146 * 2 ^ 236 + 2 ^ 234) = 10 ^ 1 * 2 ^ UNITe.
Proof. split; [|apply Z.eqb_eq]; vm_compute; reflexivity. Qed.

(** ** C42: operands that have no real logarithm *)

(** Zeros should give minus infinity, infinity itself. *)
Theorem C42_refuted : forall P : profile,
  ~ returns_in (f_ln (bits 0)) (spec_log_special 0)
  /\ ~ returns_in (f_ln (bits (2 ^ 255))) (spec_log_special (2 ^ 255))
  /\ ~ returns_in (f_ln (bits INFm)) (spec_log_special INFm)
  /\ ~ returns_in (f_log2 (bits 0)) (spec_log_special 0)
  /\ ~ returns_in (f_log2 (bits INFm)) (spec_log_special INFm)
  /\ ~ returns_in (f_log10 (bits 0)) (spec_log_special 0)
  /\ ~ returns_in (f_log10 (bits INFm)) (spec_log_special INFm).
Proof.
  intros []; repeat split; apply not_in; vm_compute; intros H; try discriminate; specialize (H eq_refl); discriminate.
Qed.
Print Assumptions C42_refuted.

(** What is returned: the canonical NaN, for all operands that are not finite and positive. *)
Theorem C42_nan_partial : forall (P : profile) x, wf256 x ->
  finb (v256 x) = false \/ zerob (v256 x) = true \/ sgn (v256 x) = 1 ->
  returns (f_ln x) QNAN /\ returns (f_log2 x) QNAN /\ returns (f_log10 x) QNAN.
Proof. intros P. exact L_nan. Qed.
Print Assumptions C42_nan_partial.

(** The claim holds for NaN and negative numbers. *)
Theorem C42_partial : forall (P : profile) x, wf256 x ->
  nanb (v256 x) = true \/ sgn (v256 x) = 1 /\ zerob (v256 x) = false ->
  returns_in (f_ln x) (spec_log_special (v256 x))
  /\ returns_in (f_log2 x) (spec_log_special (v256 x))
  /\ returns_in (f_log10 x) (spec_log_special (v256 x)).
Proof. intros P. exact L_log_special. Qed.
Print Assumptions C42_partial.
Example C42_minus_one : sgn (mkf 1 ONEm) = 1 /\ zerob (mkf 1 ONEm) = false.
Proof. split; reflexivity. Qed.

(** ** C43: fixed point numbers in units of 2^-492 *)

(** The conversion to binary256 is correctly rounded.  (The operand -2^19 is the only one left out.) *)
Theorem C43_to_f256 : forall (P : profile) x, wf512 x -> fp_units (v512 x) <> - 2 ^ 511 ->
  returns (f256_of_fp x) (rnd_signed 0 (fp_units (v512 x) * 2 ^ (UNITe - 492)) 1).
Proof. intros P. exact L_fp_to_f256. Qed.
Print Assumptions C43_to_f256.
Example C43_to_f256_case : forall P : profile,
  f256_of_fp (fp_bits (2 ^ 512 - 3 * 2 ^ 491)) = Some (bits (mkf 1 (262143 * 2 ^ 236 + 2 ^ 235))).
Proof. intros []; vm_compute; reflexivity. Qed.

(** The order and (without overflow) the sum are exact. *)
Theorem C43_cmp : forall (P : profile) x y, wf512 x -> wf512 y ->
  fp_cmp x y = (fp_units (v512 x) ?= fp_units (v512 y)).
Proof. intros P. exact L_fp_cmp. Qed.
Print Assumptions C43_cmp.
Theorem C43_add : forall (P : profile) x y, wf512 x -> wf512 y ->
  - 2 ^ 511 <= fp_units (v512 x) + fp_units (v512 y) < 2 ^ 511 ->
  fp_units (v512 (fp_add x y)) = fp_units (v512 x) + fp_units (v512 y).
Proof. intros P. exact L_fp_add. Qed.
Print Assumptions C43_add.

(** Multiplication claims to round to nearest, but (1 + 2^-492)^2 becomes 1 + 3 * 2^-492. *)
Theorem C43_mul_refuted : forall P : profile,
  fp_imul_round (fp_bits (2 ^ 492 + 1)) (fp_bits (2 ^ 492 + 1)) = Some (fp_bits (2 ^ 492 + 3))
  /\ rne_div ((2 ^ 492 + 1) * (2 ^ 492 + 1)) (2 ^ 492) = 2 ^ 492 + 2.
Proof. intros []; split; vm_compute; reflexivity. Qed.
Print Assumptions C43_mul_refuted.

(** It is off by less than one unit, and exact if the product is representable. *)
Theorem C43_mul_partial : forall (P : profile) x y, wf512 x -> wf512 y ->
  - 2 ^ 511 < fp_units (v512 x) -> - 2 ^ 511 < fp_units (v512 y) ->
  Z.abs (fp_units (v512 x) * fp_units (v512 y)) < 2 ^ 1003 - 2 ^ 492 ->
  fp_returns (fp_imul_round x y) (fun r =>
    Z.abs (r * 2 ^ 492 - fp_units (v512 x) * fp_units (v512 y)) < 2 ^ 492
    /\ ((fp_units (v512 x) * fp_units (v512 y)) mod 2 ^ 492 = 0 -> r * 2 ^ 492 = fp_units (v512 x) * fp_units (v512 y))).
Proof. intros P. exact L_fp_mul. Qed.
Print Assumptions C43_mul_partial.
Example C43_mul_case : forall P : profile,
  fp_imul_round (fp_bits (2 ^ 512 - 3 * 2 ^ 491)) (fp_bits (5 * 2 ^ 492)) = Some (fp_bits (2 ^ 512 - 15 * 2 ^ 491)).
Proof. intros []; vm_compute; reflexivity. Qed.

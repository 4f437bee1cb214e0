(** * Properties C44 to C46: constants, field accessors, error-free product *)

From Coq Require Import ZArith Bool Reals Lra Lia.
From Verif Require Import Base BigUInt BigExtra ZLemmas Spec SpecFns SpecLemmas SpecAlg F256 Arith Parse Interface SpecDeg SpecLog
  Consts ConstProofs LiftProofs LiftAlg IntExtra FieldProofs.
Open Scope Z_scope.

(** ** C44: constants *)

(** In units of 2^-262378 (so 1 is 2^262378 units) *)
Theorem C44_values :
  sval (v256 MAX) = (2 ^ 262144 - 2 ^ 261907) * 2 ^ UNITe /\ sval (v256 MIN) = - sval (v256 MAX)
  /\ sval (v256 MIN_POSITIVE) = 2 ^ 236 /\ sval (v256 MIN_GT_ZERO) = 1
  /\ sval (v256 EPSILON) * 2 ^ 236 = 2 ^ UNITe /\ sval (v256 ONE_HALF) * 2 = 2 ^ UNITe
  /\ sval (v256 ONE) = 2 ^ UNITe /\ sval (v256 NEG_ONE) = - 2 ^ UNITe /\ sval (v256 TWO) = 2 * 2 ^ UNITe
  /\ v256 ZERO = 0 /\ v256 NEG_ZERO = mkf 1 0
  /\ v256 INFINITY = mkf 0 INFm /\ v256 NEG_INFINITY = mkf 1 INFm /\ v256 NAN = QNAN
  /\ forall P : profile, returns_in FIVE (fun r => sval r = 5 * 2 ^ UNITe) /\ returns_in TEN (fun r => sval r = 10 * 2 ^ UNITe).
Proof.
  destruct (val_lists _ eq_refl) as (A1 & A2 & A3 & A4 & A5 & A6 & A7).
  exact (conj (A1 _ _ eq_refl eq_refl) (conj A2 (conj eq_refl (conj eq_refl (conj A3 (conj A4 (conj A5 (conj A6 (conj A7
    (conj eq_refl (conj eq_refl (conj eq_refl (conj eq_refl (conj eq_refl (val_small _ eq_refl))))))))))))))).
Qed.
Print Assumptions C44_values.

(** They are the extreme numbers their names say, and EPSILON is the step above 1. *)
Theorem C44_extremes : forall x, wf256 x -> finb (v256 x) = true ->
  sval (v256 MIN) <= sval (v256 x) <= sval (v256 MAX)
  /\ (0 < sval (v256 x) -> sval (v256 MIN_GT_ZERO) <= sval (v256 x))
  /\ (is_normal x = true -> sval (v256 MIN_POSITIVE) <= Z.abs (sval (v256 x)))
  /\ (sval (v256 ONE) < sval (v256 x) -> sval (v256 ONE) + sval (v256 EPSILON) <= sval (v256 x)).
Proof. exact extremes. Qed.
Print Assumptions C44_extremes.

(** Digits and the ranges of the exponents of 2 *)
Theorem C44_exponents :
  MANTISSA_DIGITS = 237 /\ SIGNIFICANT_DIGITS = 237 /\ RADIX = 2
  /\ 10 ^ DIGITS <= 2 ^ MANTISSA_DIGITS < 10 ^ (DIGITS + 1)
  /\ 2 ^ (MAX_EXP - 1 + UNITe) <= sval (v256 MAX) < 2 ^ (MAX_EXP + UNITe)
  /\ 2 ^ (MIN_EXP - 1 + UNITe) = sval (v256 MIN_POSITIVE).
Proof.
  split; [reflexivity|]. split; [reflexivity|]. split; [reflexivity|].
  split; [split; [apply Z.leb_le|apply Z.ltb_lt]; vm_compute; reflexivity|]. exact (exp_lists _ eq_refl).
Qed.
Print Assumptions C44_exponents.

(** The decimal exponents: with the values of C44_values,
    10^k <= MAX < 10^(k+1) for k = MAX_10_EXP (3/4 2^262144 < MAX < 2^262144),
    10^-(k+1) < MIN_POSITIVE <= 10^-k for -k = MIN_10_EXP, and
    10^-k < MIN_GT_ZERO <= 10^-(k-1) for -k = MIN_GT_ZERO_10_EXP. *)
Theorem C44_exponents_10 :
  (forall k e, k = MAX_10_EXP -> e = EMAX -> 2 * 10 ^ k <= 3 * 2 ^ e /\ 2 * 2 ^ e < 10 ^ (k + 1))
  /\ (forall k e, k = - MIN_10_EXP -> e = - EMIN -> 10 ^ k <= 2 ^ e < 10 ^ (k + 1))
  /\ (forall k e, k = - MIN_GT_ZERO_10_EXP -> e = UNITe -> 2 ^ e < 10 ^ k /\ 10 ^ (k - 1) <= 2 ^ e).
Proof.
  split; [exact max_10|split; [|exact min_gt_zero_10]].
  exact (fun k e Hk He => conj (proj1 (min_10 k e Hk He)) (proj1 (proj2 (min_10 k e Hk He)))).
Qed.
Print Assumptions C44_exponents_10.

(** The documentation of MIN_10_EXP gives another number: the largest n with 10^n <= 2^(EMIN + 1).
    For n = MIN_10_EXP that inequality, multiplied by 10^-n 2^-(EMIN + 1), fails. *)
Theorem C44_doc_refuted : forall k e, k = - MIN_10_EXP -> e = - EMIN -> ~ 2 ^ (e - 1) <= 10 ^ k.
Proof. exact (fun k e Hk He => Zlt_not_le _ _ (proj2 (proj2 (min_10 k e Hk He)))). Qed.
Print Assumptions C44_doc_refuted.

(** The mathematical constants are within half a unit in the last place of the real numbers. *)
Theorem C44_pi :
  within_ulp 1 2 PI (v256 K_PI) /\ within_ulp 1 2 (2 * PI) (v256 K_TAU)
  /\ (forall P : profile, returns_in K_FRAC_3_PI_2 (within_ulp 1 2 (3 * PI / 2)))
  /\ within_ulp 1 2 (PI / 2) (v256 K_FRAC_PI_2) /\ within_ulp 1 2 (PI / 3) (v256 K_FRAC_PI_3)
  /\ within_ulp 1 2 (PI / 4) (v256 K_FRAC_PI_4) /\ within_ulp 1 2 (PI / 6) (v256 K_FRAC_PI_6)
  /\ within_ulp 1 2 (PI / 8) (v256 K_FRAC_PI_8)
  /\ within_ulp 1 2 (1 / PI) (v256 K_FRAC_1_PI) /\ within_ulp 1 2 (2 / PI) (v256 K_FRAC_2_PI).
Proof. exact consts_pi. Qed.
Print Assumptions C44_pi.

Theorem C44_sqrt :
  within_ulp 1 2 (R_sqrt.sqrt PI) (v256 K_SQRT_PI) /\ within_ulp 1 2 (2 / R_sqrt.sqrt PI) (v256 K_FRAC_2_SQRT_PI)
  /\ within_ulp 1 2 (R_sqrt.sqrt 2) (v256 K_SQRT_2) /\ within_ulp 1 2 (1 / R_sqrt.sqrt 2) (v256 K_FRAC_1_SQRT_2)
  /\ within_ulp 1 2 (R_sqrt.sqrt 5) (v256 K_SQRT_5) /\ within_ulp 1 2 ((1 + R_sqrt.sqrt 5) / 2) (v256 K_PHI).
Proof. exact consts_sqrt. Qed.
Print Assumptions C44_sqrt.

Theorem C44_e : within_ulp 1 2 (exp 1) (v256 K_E).
Proof. exact const_e. Qed.
Print Assumptions C44_e.

(** The check behind C44_pi fails for the neighbours of the constant. *)
Example C44_pi_neighbour : pi_mul_ok (v256 K_PI + 1) 1 1 = false /\ pi_mul_ok (v256 K_PI - 1) 1 1 = false.
Proof. vm_compute. split; reflexivity. Qed.
(** 1 + 2^-236 is one of the numbers of C44_extremes. *)
Example C44_extremes_ex : wf256 (bits (ONEm + 1)) /\ is_normal (bits (ONEm + 1)) = true
  /\ sval (ONEm + 1) = sval (v256 ONE) + sval (v256 EPSILON).
Proof. split; [apply (@wf_bits false); unfold ONEm; lia|split; [reflexivity|]]. rewrite eps_step. apply sval_mag0; reflexivity. Qed.

(** ** C45: fields *)
Theorem C45_fields : forall x, wf256 x -> let v := v256 x in
  sign x = sgn v /\ biased_exponent x = mag v / 2 ^ 236 /\ wf256 (fraction x) /\ v256 (fraction x) = v mod 2 ^ 236.
Proof. exact (@L_fields false). Qed.
Print Assumptions C45_fields.

(** |x| = c * 2^q with the quantum exponent q and the integral significand c *)
Theorem C45_quantum : forall (P : profile) x, wf256 x -> finb (v256 x) = true ->
  exists q c, quantum_exponent x = Some q /\ integral_significand x = Some c /\ wf256 c
    /\ mag_val (mag (v256 x)) = v256 c * 2 ^ (q + UNITe) /\ 0 <= v256 c < 2 ^ 237
    /\ (zerob (v256 x) = true -> q = 0) /\ - UNITe <= q <= 261907
    /\ (zerob (v256 x) = false -> q = - UNITe \/ 2 ^ 236 <= v256 c).
Proof. exact (@L_quantum). Qed.
Print Assumptions C45_quantum.

(** |x| = s * 2^e with the exponent e and the significand s, 0 < s < 2 and 1 <= s unless e is
    the least exponent -k *)
Theorem C45_significand : forall (P : profile) x k, wf256 x -> finb (v256 x) = true -> zerob (v256 x) = false -> k = 262142 ->
  exists e s, exponent x = Some e /\ significand x = Some s /\ wf256 s /\ sgn (v256 s) = 0
    /\ - k <= e <= 262143 /\ mag_val (mag (v256 x)) * 2 ^ k = mag_val (mag (v256 s)) * 2 ^ (e + k)
    /\ 0 < mag_val (mag (v256 s)) < 2 * 2 ^ UNITe
    /\ (e = - k \/ 2 ^ UNITe <= mag_val (mag (v256 s))).
Proof. exact (@L_significand). Qed.
Print Assumptions C45_significand.

(** Doubling never goes wrong (compare C22_refuted); halving needs what C23 needs. *)
Theorem C45_mul2 : forall (P : profile) x, wf256 x -> returns (mul2 x) (spec_mul_pow2 (v256 x) 1).
Proof. intros P x W. unfold mul2. apply L_mul_pow2; auto; [split; [lia|reflexivity]|right; reflexivity]. Qed.
Print Assumptions C45_mul2.

Theorem C45_div2_partial : forall (P : profile) x, wf256 x -> div_pow2_safe (v256 x) 1 ->
  returns (div2 x) (spec_div_pow2 (v256 x) 1).
Proof. intros P x W H. unfold div2. apply L_div_pow2; auto; split; [lia|reflexivity]. Qed.
Print Assumptions C45_div2_partial.

(** Half of the least normal number must be 2^235 units. *)
Theorem C45_div2_refuted : forall P : profile, exists x, wf256 x /\ spec_div_pow2 (v256 x) 1 = 2 ^ 235 /\ div2 x <> Some (bits (2 ^ 235)).
Proof. intros P. exists (bits (2 ^ 236)). split; [apply wf_bits; lia|]. split; destruct P; vm_compute; congruence. Qed.
Print Assumptions C45_div2_refuted.

(** 3 units = 3 * 2^-236 * 2^-262142; 12 = 1.5 * 2^3 *)
Example C45_ex : forall P : profile,
  exponent (bits 3) = Some (-262142) /\ significand (bits 3) = Some (bits ((262143 - 235) * 2 ^ 236 + 2 ^ 235))
  /\ quantum_exponent (bits 3) = Some (-262378)
  /\ exponent (bits (mkf 1 (262146 * 2 ^ 236 + 2 ^ 235))) = Some 3
  /\ significand (bits (mkf 1 (262146 * 2 ^ 236 + 2 ^ 235))) = Some (bits (ONEm + 2 ^ 235))
  /\ mul2 (bits (2 ^ 236 - 1)) = Some (bits (2 ^ 237 - 2)) /\ div2 (bits (ONEm + 7)) = Some (bits (262142 * 2 ^ 236 + 7)).
Proof. intros []; vm_compute; repeat split. Qed.

(** ** C46: the error-free product *)

(** Missing: subnormal factors, and products below 2^-261670; there the error need not be
    representable (C46_refuted). *)
Theorem C46_partial : forall (P : profile) x y, wf256 x -> wf256 y -> let a := v256 x in let b := v256 y in
  finb a = true -> finb b = true -> 2 ^ 236 <= mag a -> 2 ^ 236 <= mag b ->
  262616 <= mag a / 2 ^ 236 + mag b / 2 ^ 236 -> finb (spec_mul a b) = true ->
  exists p r, fast_mul x y = Some (p, r) /\ wf256 p /\ wf256 r /\ v256 p = spec_mul a b /\ finb (v256 r) = true
    /\ (sval (v256 p) + sval (v256 r)) * 2 ^ UNITe = sval a * sval b.
Proof. exact (@fast_mul_ok). Qed.
Print Assumptions C46_partial.

(** (1 + 2^-236)^2 2^-262142: the precondition that is asserted holds, but the error 2^-472 2^-262142 is lost. *)
Theorem C46_refuted : forall P : profile, exists x y p r, wf256 x /\ wf256 y
  /\ EXP_BIAS <= biased_exponent x + biased_exponent y
  /\ fast_mul x y = Some (p, r) /\ finb (v256 p) = true /\ finb (v256 r) = true
  /\ (sval (v256 p) + sval (v256 r)) * 2 ^ UNITe <> sval (v256 x) * sval (v256 y).
Proof.
  intros P. exists (bits (ONEm + 1)), (bits (2 ^ 236 + 1)), (bits (2 ^ 236 + 2)), (bits 0).
  split; [apply wf_bits; unfold ONEm; lia|]. split; [apply wf_bits; lia|].
  split; [apply Z.leb_le; vm_compute; reflexivity|]. split; [destruct P; vm_compute; reflexivity|].
  split; [reflexivity|]. split; [reflexivity|]. apply Z.eqb_neq. vm_compute. reflexivity.
Qed.
Print Assumptions C46_refuted.

(** (1 + 2^-236)^2 = (1 + 2^-235) + 2^-472 *)
Example C46_ex : forall P : profile,
  fast_mul (bits (ONEm + 1)) (bits (ONEm + 1)) = Some (bits (ONEm + 2), bits ((262143 - 472) * 2 ^ 236)).
Proof. intros []; vm_compute; reflexivity. Qed.

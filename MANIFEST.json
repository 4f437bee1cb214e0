{
 "claims": [
  {
   "property": "C01",
   "status": "proved",
   "theorems": [
    "C01_bits",
    "C01_bits_back",
    "C01_byte_order",
    "C01_bytes",
    "C01_bytes_back"
   ],
   "note": "Bit and byte codecs for all bit patterns; byte order relative to the little/big endian digits; native order = little endian of each half, most significant half first (a finding: it differs from to_le_bytes)."
  },
  {
   "property": "C02",
   "status": "partial",
   "theorems": [
    "C02_classify_partial",
    "C02_classify_refuted",
    "C02_exactly_one",
    "C02_predicates"
   ],
   "note": "Predicates proved for all inputs; classify proved except for NaNs with a non-canonical payload, for which C02_classify_refuted shows it answers Normal."
  },
  {
   "property": "C03",
   "status": "proved",
   "theorems": [
    "C03_decode"
   ],
   "note": "decode of every finite value and re-encoding."
  },
  {
   "property": "C04",
   "status": "proved",
   "theorems": [
    "C04_encode"
   ],
   "note": "encode rounds to nearest even for every significand and exponent in the range stated in the theorem."
  },
  {
   "property": "C05",
   "status": "proved",
   "theorems": [
    "C05_eq",
    "C05_laws"
   ],
   "note": "Equality against the specification, and its laws."
  },
  {
   "property": "C06",
   "status": "partial",
   "theorems": [
    "C06_negatives_reversed",
    "C06_operators_partial",
    "C06_partial_cmp_none",
    "C06_partial_cmp_partial",
    "C06_refuted"
   ],
   "note": "Correct unless both operands are negative; C06_negatives_reversed and C06_refuted show the order of two negatives is reversed."
  },
  {
   "property": "C07",
   "status": "partial",
   "theorems": [
    "C07_negatives_reversed",
    "C07_refuted",
    "C07_total_cmp_partial",
    "C07_total_order_laws"
   ],
   "note": "As C06; total_cmp reverses the order of two negative values (C07_refuted). Order laws proved for all inputs."
  },
  {
   "property": "C08",
   "status": "partial",
   "theorems": [
    "C08_clamp_partial",
    "C08_clamp_refuted",
    "C08_max_partial",
    "C08_min_partial",
    "C08_refuted"
   ],
   "note": "max/min/clamp correct unless two negatives are compared; refuted otherwise."
  },
  {
   "property": "C09",
   "status": "proved",
   "theorems": [
    "C09_add"
   ],
   "note": "All operands, both build profiles."
  },
  {
   "property": "C10",
   "status": "proved",
   "theorems": [
    "C10_sub"
   ],
   "note": "All operands, both build profiles."
  },
  {
   "property": "C11",
   "status": "partial",
   "theorems": [
    "C11_mul_any_partial",
    "C11_mul_partial",
    "C11_refuted"
   ],
   "note": "Correct for normal (or overflowing) results and special operands; for any operands the result is within the stated distance; C11_refuted gives a double rounding for subnormal results."
  },
  {
   "property": "C12",
   "status": "proved",
   "theorems": [
    "C12_div",
    "C12_recip"
   ],
   "note": "All operands, both build profiles."
  },
  {
   "property": "C13",
   "status": "partial",
   "theorems": [
    "C13_refuted",
    "C13_rem_partial",
    "C13_rem_special"
   ],
   "note": "Special operands, normal divisors and divisors below 2^128 units; C13_refuted shows a panic for another subnormal divisor."
  },
  {
   "property": "C14",
   "status": "proved",
   "theorems": [
    "C14_sqrt"
   ],
   "note": "All operands; nearest_sqrt characterises the nearest root."
  },
  {
   "property": "C15",
   "status": "partial",
   "theorems": [
    "C15_fma_partial",
    "C15_fma_special_partial",
    "C15_refuted"
   ],
   "note": "Proved: special operands and zero factors, and all finite cases with zero or normal exact result and normal operands (or a product far below a normal addend). The rest is false: subnormal operands and results are treated wrongly (C15_refuted)."
  },
  {
   "property": "C16",
   "status": "partial",
   "theorems": [
    "C16_refuted",
    "C16_sos_partial"
   ],
   "note": "For all operands the result is the specified one or its lower neighbour, the latter only when the exact sum is above the midpoint by less than a 2^-237th part (sos_miss). That case occurs: C16_refuted."
  },
  {
   "property": "C17",
   "status": "proved",
   "theorems": [
    "C17_abs",
    "C17_laws",
    "C17_neg"
   ],
   "note": "All operands."
  },
  {
   "property": "C18",
   "status": "proved",
   "theorems": [
    "C18_ceil",
    "C18_floor",
    "C18_trunc"
   ],
   "note": "Value of trunc, floor, ceil for all operands; the sign of a zero result is not claimed (the code returns +0 for negative operands)."
  },
  {
   "property": "C19",
   "status": "proved",
   "theorems": [
    "C19_round"
   ],
   "note": "As C18."
  },
  {
   "property": "C20",
   "status": "partial",
   "theorems": [
    "C20_refuted",
    "C20_round_tie_even_partial"
   ],
   "note": "Correct except just above one half in magnitude, where the code returns 0 (C20_refuted)."
  },
  {
   "property": "C21",
   "status": "proved",
   "theorems": [
    "C21_split"
   ],
   "note": "All finite operands."
  },
  {
   "property": "C22",
   "status": "partial",
   "theorems": [
    "C22_mul_pow2_partial",
    "C22_refuted"
   ],
   "note": "Correct for normal operands with every exponent and for subnormal ones with n < 524287; C22_refuted otherwise."
  },
  {
   "property": "C23",
   "status": "partial",
   "theorems": [
    "C23_div_pow2_partial",
    "C23_refuted"
   ],
   "note": "Correct under div_pow2_safe; two counterexamples in C23_refuted."
  },
  {
   "property": "C24",
   "status": "proved",
   "theorems": [
    "C24_ulp"
   ],
   "note": "All operands."
  },
  {
   "property": "C25",
   "status": "proved",
   "theorems": [
    "C25_from_int",
    "C25_from_u256",
    "C25_injective"
   ],
   "note": "Every value of every primitive integer type, injectivity, and the internal U256 conversion for at most 237 bits."
  },
  {
   "property": "C26",
   "status": "proved",
   "theorems": [
    "C26_from_f32",
    "C26_from_f64"
   ],
   "note": "Every f32 and f64 bit pattern, including subnormals, signed zeros, infinities and NaNs."
  },
  {
   "property": "C27",
   "status": "partial",
   "theorems": [
    "C27_no_literal_partial",
    "C27_refuted"
   ],
   "note": "No text that is not a number makes the parser panic; for numbers no panic wherever a C29 theorem applies. C27_refuted: a debug build panics on 10e2147483647. Missing: totality of the slow path."
  },
  {
   "property": "C28",
   "status": "partial",
   "theorems": [
    "C28_documented_partial",
    "C28_grammar_partial",
    "C28_inf",
    "C28_nan",
    "C28_refuted"
   ],
   "note": "Exact characterisation of the accepted texts: a superset of the documented grammar (C28_refuted: \".\" is accepted). Documented texts are never rejected, names of special values have the right value."
  },
  {
   "property": "C29",
   "status": "partial",
   "theorems": [
    "C29_cutoff_refuted",
    "C29_exact_partial",
    "C29_overflow_partial",
    "C29_sign_refuted",
    "C29_stale_digits_refuted",
    "C29_tie_refuted",
    "C29_underflow_partial",
    "C29_wrap_refuted",
    "C29_zero_magnitude_partial",
    "C29_zero_partial"
   ],
   "note": "Correctly rounded: zero (but for the sign of -0 without exponent), overflow, underflow below 10^-79056, and w*10^k with w < 2^237, |k| <= 102 in any notation. Five counterexamples show the claim is false in general."
  },
  {
   "property": "C30",
   "status": "partial",
   "theorems": [
    "C30_display_partial",
    "C30_exp_partial",
    "C30_inf",
    "C30_nan",
    "C30_refuted",
    "C30_tables",
    "C30_tie_refuted",
    "C30_total_partial",
    "C30_zero"
   ],
   "note": "Round trip of {} , {:e} and {:E} for all normal numbers in 2^-474 .. 2^428 other than powers of two below 2^245, and for zeros, infinities, NaN; no panic in that range. Refuted in general: a power of two (C30_refuted) and an odd significand at a tie (C30_tie_refuted). The generated lookup tables are not in the repository: tables_ok states what is assumed of them, C30_tables that the generator satisfies it. Missing: larger and smaller exponents."
  },
  {
   "property": "C31",
   "status": "partial",
   "theorems": [
    "C31_display_partial",
    "C31_exp_partial",
    "C31_refuted"
   ],
   "note": "Shortest for all numbers in 2^-474 .. 2^428 that are neither integers nor powers of two; refuted for a large integer (C31_refuted). Missing: larger and smaller exponents."
  },
  {
   "property": "C32",
   "status": "partial",
   "theorems": [
    "C32_fraction_refuted",
    "C32_partial",
    "C32_refuted",
    "C32_special",
    "C32_table",
    "C32_too_precise",
    "C32_zero"
   ],
   "note": "The claim is false of the code: integers of 2^237 and above are printed with the shortest digits (C32_refuted), and digits are wrong in the last place for some fractions below 2^-83 (C32_fraction_refuted). Proved: correct rounding, exactly p digits, sign and shape for |x| < 2^237 with a fraction that is zero or at least 2^-83, for |x| < 2^-275 and for zeros; panic for p > 75. Missing: other numbers. The tables are assumed as generated."
  },
  {
   "property": "C33",
   "status": "proved",
   "theorems": [
    "C33_add",
    "C33_bitwise",
    "C33_cmp",
    "C33_counts",
    "C33_div_half",
    "C33_div_u128",
    "C33_mul",
    "C33_panics",
    "C33_rem_pow2",
    "C33_rounding_shift",
    "C33_shifts",
    "C33_sub",
    "C33_trailing_zeros",
    "C33_u128_rem_pow2_refuted",
    "C33_widening_mul",
    "C33_wrapping"
   ],
   "note": "Every operation at every nesting depth up to 12 (2^19 bits); the u128-level rem_pow2, which the arithmetic does not use, is refuted."
  },
  {
   "property": "C34",
   "status": "partial",
   "theorems": [
    "C34_div_low_partial",
    "C34_div_normalised_partial",
    "C34_div_smaller_partial",
    "C34_refuted",
    "C34_rounding_div_partial"
   ],
   "note": "Exact for divisors below 2^128 (U256), normalised divisors and smaller dividends; rounding division for even divisors; refuted in general."
  },
  {
   "property": "C35",
   "status": "partial",
   "theorems": [
    "C35_add_comm",
    "C35_add_mono",
    "C35_add_zero",
    "C35_div_one",
    "C35_mul_comm",
    "C35_mul_mono_partial",
    "C35_mul_neg",
    "C35_mul_one",
    "C35_sterbenz",
    "C35_sub_self"
   ],
   "note": "Commutativity, identities, sign laws, monotonicity of addition, Sterbenz for all operands; monotonicity of multiplication only for products in the normal range."
  },
  {
   "property": "C36",
   "status": "proved",
   "theorems": [
    "C36_arith",
    "C36_comparisons",
    "C36_fma",
    "C36_sos",
    "C36_sqrt"
   ],
   "note": "NaN in any operand of + - * / % sqrt mul_add sum_of_squares gives NaN without panic; all comparisons with NaN are false."
  },
  {
   "property": "C37",
   "status": "partial",
   "theorems": [
    "C37_degrees_constant_refuted",
    "C37_radians_constant",
    "C37_range_refuted",
    "C37_refuted",
    "C37_release_refuted",
    "C37_rounding_refuted",
    "C37_special_refuted",
    "C37_to_degrees_partial",
    "C37_to_radians_partial"
   ],
   "note": "Proved with the real number pi: within 1.27 (degrees) and 0.751 (radians) units in the last place for every operand whose result is a normal number. The rest is refuted: zero, infinities and NaN panic or become other numbers, overflow does not give infinity, small operands panic, and the degrees constant is wrong from its 238th bit, so errors above one unit in the last place occur."
  },
  {
   "property": "C38",
   "status": "partial",
   "theorems": [
    "C38_fast_sum",
    "C38_sum_refuted"
   ],
   "note": "fast_sum is an exact error-free transformation; sum is refuted (C38_sum_refuted)."
  },
  {
   "property": "C39",
   "status": "proved",
   "theorems": [
    "C39_add_zero",
    "C39_is_one",
    "C39_is_zero",
    "C39_mul_one"
   ],
   "note": "Zero/One of num_traits: is_zero, is_one, additive and multiplicative identity."
  },
  {
   "property": "C40",
   "status": "partial",
   "theorems": [
    "C40_add",
    "C40_div",
    "C40_fma_partial",
    "C40_mul_partial",
    "C40_mul_refuted",
    "C40_spec",
    "C40_spec_fma",
    "C40_sqrt",
    "C40_sub"
   ],
   "note": "The specification of add, sub, mul, div, sqrt and fma equals Flocq for all bit patterns; so do the modelled add, sub, div and sqrt, without panic. mul and mul_add agree under the conditions of C11 and C15; C40_mul_refuted shows mul does not in general. Missing for mul_add: operands outside C15_fma_partial."
  },
  {
   "property": "C41",
   "status": "proved",
   "theorems": [
    "C41_exact",
    "C41_log10_powers",
    "C41_log2_powers",
    "C41_table",
    "C41_ulp"
   ],
   "note": "All finite positive operands, against the real logarithm of the standard library; the table of 492 logarithms and the constants are checked against it too (C41_table)."
  },
  {
   "property": "C42",
   "status": "partial",
   "theorems": [
    "C42_nan_partial",
    "C42_partial",
    "C42_refuted"
   ],
   "note": "The claim is false for zeros and infinity (C42_refuted: NaN). Proved for NaN and negative numbers, and that every operand that is not finite and positive gives the canonical NaN."
  },
  {
   "property": "C43",
   "status": "partial",
   "theorems": [
    "C43_add",
    "C43_cmp",
    "C43_mul_partial",
    "C43_mul_refuted",
    "C43_to_f256"
   ],
   "note": "Comparison, addition and conversion to f256 proved for all operands without overflow (C43_to_f256 leaves out the single value -2^19). Multiplication does not round to nearest (C43_mul_refuted); proved to be off by less than one unit and exact on representable products."
  },
  {
   "property": "C44",
   "status": "proved",
   "theorems": [
    "C44_doc_refuted",
    "C44_e",
    "C44_exponents",
    "C44_exponents_10",
    "C44_extremes",
    "C44_pi",
    "C44_sqrt",
    "C44_values"
   ],
   "note": "All constants but GAMMA (the standard library has no such real number). The documented formula of MIN_10_EXP gives another number (C44_doc_refuted)."
  },
  {
   "property": "C45",
   "status": "partial",
   "theorems": [
    "C45_div2_partial",
    "C45_div2_refuted",
    "C45_fields",
    "C45_mul2",
    "C45_quantum",
    "C45_significand"
   ],
   "note": "Fields and mul2 proved for all operands. div2 is wrong at the bottom of the exponent range (C45_div2_refuted), proved elsewhere."
  },
  {
   "property": "C46",
   "status": "partial",
   "theorems": [
    "C46_partial",
    "C46_refuted"
   ],
   "note": "The claim is false: the asserted precondition is too weak (C46_refuted). Proved for normal factors whose biased exponents sum to at least 262616."
  },
  {
   "property": "C47",
   "status": "partial",
   "theorems": [
    "C47_from",
    "C47_refuted",
    "C47_roundtrip",
    "C47_to_partial"
   ],
   "note": "Conversion from f256 and the round trip proved for all finite numbers. Conversion to f256 is wrong for the exponent -262379 (C47_refuted), proved for all others."
  },
  {
   "property": "C48",
   "status": "partial",
   "theorems": [
    "C48_partial",
    "C48_refuted"
   ],
   "note": "The claim is false: a product that rounds up to a power of two comes out halved (C48_refuted). Proved for all other products."
  },
  {
   "property": "C49",
   "status": "partial",
   "theorems": [
    "C49_diff_partial",
    "C49_diff_refuted",
    "C49_nearest_refuted",
    "C49_same_partial",
    "C49_sub",
    "C49_zero_partial",
    "C49_zero_refuted"
   ],
   "note": "The claim is false: sums are cut off (C49_nearest_refuted), differences of numbers of different exponent can be off by a factor (C49_diff_refuted), and x + 0 can be 0 (C49_zero_refuted). Proved: truncated sum, error bound of the difference, exact difference for equal exponents, subtraction as addition."
  },
  {
   "property": "C50",
   "status": "partial",
   "theorems": [
    "C50_div_partial",
    "C50_refuted",
    "C50_sqrt"
   ],
   "note": "Square root proved. Division is wrong in the last bit for some operands (C50_refuted); proved correctly rounded if the significand of the dividend is not the smaller one, and within one unit otherwise."
  },
  {
   "property": "C51",
   "status": "partial",
   "theorems": [
    "C51_cmp_partial",
    "C51_cmp_refuted",
    "C51_consts",
    "C51_trunc_partial",
    "C51_trunc_refuted"
   ],
   "note": "Constants proved. The order of two negative numbers is reversed (C51_cmp_refuted); trunc below 1 is wrong (C51_trunc_refuted); both proved elsewhere."
  },
  {
   "property": "C52",
   "status": "partial",
   "theorems": [
    "C52_cancel_partial",
    "C52_nearest_refuted",
    "C52_normal_refuted",
    "C52_partial"
   ],
   "note": "The claim is false (C52_nearest_refuted, C52_normal_refuted). Proved for zero operands, and for an addend of the exponent of the product and the other sign (C52_cancel_partial)."
  },
  {
   "property": "C53",
   "status": "partial",
   "theorems": [
    "C53_sin_partial",
    "C53_small_refuted"
   ],
   "note": "Proved for magnitudes from 2^-256 to 8. False below (C53_small_refuted: sin 2^-1000 = 2^-492). Magnitudes of 8 or more use a reduction that is not modelled."
  },
  {
   "property": "C54",
   "status": "partial",
   "theorems": [
    "C54_cos_partial"
   ],
   "note": "Proved for magnitudes below 8. Magnitudes of 8 or more use a reduction that is not modelled."
  },
  {
   "property": "C55",
   "status": "proved",
   "theorems": [
    "C55_sin_cos"
   ],
   "note": "For all operands, whatever the reduction of large arguments returns."
  },
  {
   "property": "C56",
   "status": "proved",
   "theorems": [
    "C56_even",
    "C56_odd"
   ],
   "note": "For all finite nonzero operands (cosine: all), whatever the reduction of large arguments returns."
  },
  {
   "property": "C57",
   "status": "partial",
   "theorems": [
    "C57_special",
    "C57_zero_refuted"
   ],
   "note": "Proved as the code has it: NaN for NaN and infinities, +0 for zeros. The sign of -0 is lost (C57_zero_refuted)."
  },
  {
   "property": "C58",
   "status": "partial",
   "theorems": [
    "C58_tan_partial",
    "C58_ulp_partial"
   ],
   "note": "Proved for magnitudes from 2^-256 to 8: correctly rounded quotient of values that obey C53 and C54, and within 5 units in the last place of the tangent. Other arguments as in C53."
  },
  {
   "property": "C59",
   "status": "partial",
   "theorems": [
    "C59_partial",
    "C59_refuted"
   ],
   "note": "False for odd significands from 2^255 on (C59_refuted), which lose their last bit; proved exact for all others, for exponents of 30 bits."
  },
  {
   "property": "C60",
   "status": "partial",
   "theorems": [
    "C60_partial",
    "C60_refuted"
   ],
   "note": "False (C60_refuted). Proved: correctly rounded for powers of two, otherwise within one unit in the last place."
  },
  {
   "property": "C61",
   "status": "partial",
   "theorems": [
    "C61_mul_partial",
    "C61_mul_refuted",
    "C61_sum_refuted"
   ],
   "note": "Products: false for those that round up to a power of two (C61_mul_refuted), proved exact for all others, for exponents of 29 bits. Sums: false (C61_sum_refuted); no class of operands is proved exact."
  }
 ]
}
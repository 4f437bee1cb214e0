{"id": "C01", "title": "Bit and byte conversions are lossless", "statement": "from_bits(to_bits(f)), from_be_bytes(to_be_bytes(f)), from_le_bytes(to_le_bytes(f)) and from_ne_bytes(to_ne_bytes(f)) each return exactly the bit pattern of f, and conversely to_X(from_X(b)) = b for every input array; be bytes are the reversal of le bytes.", "quantifier": "every 256-bit pattern / every array of 32 bytes", "why_tests_cant": "The operand space is 2^256 (2^512 for pairs) bit patterns; tests sample a vanishing fraction and miss boundary exponents/carries.", "anchors": ["src/lib.rs:to_bits", "src/lib.rs:from_bits", "src/lib.rs:to_be_bytes", "src/lib.rs:from_be_bytes", "src/lib.rs:to_le_bytes", "src/lib.rs:from_le_bytes", "src/lib.rs:to_ne_bytes", "src/lib.rs:from_ne_bytes"]}
{"id": "C02", "title": "Classification predicates partition the bit patterns and classify agrees", "statement": "For every f exactly one of is_nan, is_infinite, eq_zero, is_subnormal, is_normal holds, each holding exactly when the IEEE binary256 decoding of the bits is of that kind; is_finite and is_special are the corresponding unions; and classify(f) names that same category.", "quantifier": "every bit pattern, including non-canonical NaNs created through from_bits", "why_tests_cant": "The operand space is 2^256 (2^512 for pairs) bit patterns; tests sample a vanishing fraction and miss boundary exponents/carries.", "anchors": ["src/lib.rs:is_nan", "src/lib.rs:is_infinite", "src/lib.rs:is_finite", "src/lib.rs:is_subnormal", "src/lib.rs:is_normal", "src/lib.rs:eq_zero", "src/lib.rs:is_special", "src/lib.rs:classify"]}
{"id": "C03", "title": "Decoding to (sign, exponent, significand) is exact and reversible", "statement": "For every finite f, as_sign_exp_signif(f) = (s,t,c) satisfies value(f) = (-1)^s * c * 2^t, c is odd unless f is zero, and from_sign_exp_signif(s,t,c) returns f bit for bit (for f = -0 as well); neither call panics.", "quantifier": "every finite bit pattern", "why_tests_cant": "The operand space is 2^256 (2^512 for pairs) bit patterns; tests sample a vanishing fraction and miss boundary exponents/carries.", "anchors": ["src/lib.rs:as_sign_exp_signif", "src/lib.rs:from_sign_exp_signif", "src/lib.rs:decode", "src/lib.rs:encode", "src/lib.rs:new"]}
{"id": "C04", "title": "Encoding an integral significand rounds correctly", "statement": "from_sign_exp_signif(s,t,c) with c <> 0 whose exact value lies in the finite normal range returns the IEEE round-to-nearest-even of (-1)^s*c*2^t, and the exact value whenever it is representable.", "quantifier": "all s in {0,1}, all t, all 256-bit c with the value in range", "why_tests_cant": "The operand space is 2^256 (2^512 for pairs) bit patterns; tests sample a vanishing fraction and miss boundary exponents/carries.", "anchors": ["src/lib.rs:from_sign_exp_signif", "src/lib.rs:encode", "src/big_uint/uint_generic/mod.rs:rounding_div_pow2"]}
{"id": "C05", "title": "Equality is numeric equality", "statement": "x == y is true iff neither is NaN and both denote the same extended real (so +0 == -0, Inf == Inf); hence == is symmetric, transitive, and reflexive exactly off NaN.", "quantifier": "all pairs (triples) of bit patterns", "why_tests_cant": "The operand space is 2^256 (2^512 for pairs) bit patterns; tests sample a vanishing fraction and miss boundary exponents/carries.", "anchors": ["src/binops/cmp.rs:PartialEq"]}
{"id": "C06", "title": "Partial order agrees with numeric order", "statement": "x.partial_cmp(y) is None iff x or y is NaN, and otherwise is the ordering of the denoted extended reals; so <, <=, >, >= are the numeric comparisons.", "quantifier": "all pairs of bit patterns", "why_tests_cant": "The operand space is 2^256 (2^512 for pairs) bit patterns; tests sample a vanishing fraction and miss boundary exponents/carries.", "anchors": ["src/binops/cmp.rs:PartialOrd", "src/lib.rs:total_cmp"]}
{"id": "C07", "title": "total_cmp is the IEEE totalOrder", "statement": "total_cmp orders: negative NaN < -Inf < negative finite (by value) < -0 < +0 < positive finite (by value) < +Inf < positive NaN, and is a total order on bit patterns.", "quantifier": "all pairs/triples of bit patterns", "why_tests_cant": "The operand space is 2^256 (2^512 for pairs) bit patterns; tests sample a vanishing fraction and miss boundary exponents/carries.", "anchors": ["src/lib.rs:total_cmp"]}
{"id": "C08", "title": "max/min/clamp pick the right operand", "statement": "max(x,y) (min) returns one of its operands; if neither is NaN the result is numerically >= (<=) both; if exactly one is NaN the other is returned. clamp(x,lo,hi) panics iff not lo <= hi, otherwise returns NaN for NaN x and else a value within [lo,hi] that is x whenever x is in the interval.", "quantifier": "all pairs/triples of bit patterns", "why_tests_cant": "The operand space is 2^256 (2^512 for pairs) bit patterns; tests sample a vanishing fraction and miss boundary exponents/carries.", "anchors": ["src/lib.rs:max", "src/lib.rs:min", "src/lib.rs:clamp"]}
{"id": "C09", "title": "Addition is IEEE-754 correctly rounded", "statement": "x + y equals the IEEE binary256 sum rounded to nearest, ties to even: for finite operands the nearest representable value to the exact sum (infinity on overflow, exact in the subnormal range), correct signed zeros, Inf and NaN rules; it never panics.", "quantifier": "all pairs of bit patterns, both build profiles", "why_tests_cant": "The operand space is 2^256 (2^512 for pairs) bit patterns; tests sample a vanishing fraction and miss boundary exponents/carries.", "anchors": ["src/binops/add.rs:add", "src/binops/add.rs:add_or_sub_normals_exact", "src/binops/add.rs:add_or_sub_rounded", "src/binops/add.rs:add_or_sub_subnormals"]}
{"id": "C10", "title": "Subtraction is IEEE-754 correctly rounded", "statement": "x - y equals the IEEE binary256 difference rounded to nearest, ties to even, with all special-value rules; it never panics.", "quantifier": "all pairs of bit patterns, both build profiles", "why_tests_cant": "The operand space is 2^256 (2^512 for pairs) bit patterns; tests sample a vanishing fraction and miss boundary exponents/carries.", "anchors": ["src/binops/add.rs:Sub", "src/lib.rs:negated"]}
{"id": "C11", "title": "Multiplication is IEEE-754 correctly rounded", "statement": "x * y equals the IEEE binary256 product rounded to nearest, ties to even, including gradual underflow, overflow to infinity, signed zeros, Inf*0 = NaN; it never panics.", "quantifier": "all pairs of bit patterns, both build profiles", "why_tests_cant": "The operand space is 2^256 (2^512 for pairs) bit patterns; tests sample a vanishing fraction and miss boundary exponents/carries.", "anchors": ["src/binops/mul.rs:mul", "src/binops/mul.rs:mul_abs_finite", "src/binops/mul.rs:mul_signifs"]}
{"id": "C12", "title": "Division is IEEE-754 correctly rounded", "statement": "x / y equals the IEEE binary256 quotient rounded to nearest, ties to even, including gradual underflow, overflow, x/0 = Inf, 0/0 = Inf/Inf = NaN; it never panics. recip(x) = 1/x likewise.", "quantifier": "all pairs of bit patterns, both build profiles", "why_tests_cant": "The operand space is 2^256 (2^512 for pairs) bit patterns; tests sample a vanishing fraction and miss boundary exponents/carries.", "anchors": ["src/binops/div.rs:div", "src/binops/div.rs:div_signifs", "src/lib.rs:recip"]}
{"id": "C13", "title": "Remainder is exact", "statement": "For finite x and finite non-zero y, x % y is exactly x - trunc(x/y)*y (no rounding), has magnitude < |y| and the sign of x; x % Inf = x; x % 0, Inf % y and NaN operands give NaN; it never panics.", "quantifier": "all pairs of bit patterns, both build profiles", "why_tests_cant": "The operand space is 2^256 (2^512 for pairs) bit patterns; tests sample a vanishing fraction and miss boundary exponents/carries.", "anchors": ["src/binops/rem.rs:rem"]}
{"id": "C14", "title": "Square root is IEEE-754 correctly rounded", "statement": "sqrt(x) equals the IEEE binary256 square root rounded to nearest, ties to even; sqrt(±0)=±0, sqrt(+Inf)=+Inf, NaN for negatives and NaN; it never panics.", "quantifier": "all bit patterns, both build profiles", "why_tests_cant": "The operand space is 2^256 (2^512 for pairs) bit patterns; tests sample a vanishing fraction and miss boundary exponents/carries.", "anchors": ["src/math/sqrt.rs:sqrt"]}
{"id": "C15", "title": "mul_add has a single rounding", "statement": "mul_add(x,f,a) equals the IEEE fusedMultiplyAdd: the exact x*f+a rounded once to nearest even, for every combination of normal, subnormal, zero, infinite and NaN operands; it never panics.", "quantifier": "all triples of bit patterns, both build profiles", "why_tests_cant": "2^768 triples; alignment distance, cancellation and subnormal cases multiply", "anchors": ["src/fused_ops/fma.rs:fma", "src/lib.rs:mul_add", "src/lib.rs:square_add"]}
{"id": "C16", "title": "sum_of_squares has a single rounding", "statement": "sum_of_squares(x,y) equals the exact x*x+y*y rounded once to nearest even; it never panics.", "quantifier": "all pairs of bit patterns, both build profiles", "why_tests_cant": "The operand space is 2^256 (2^512 for pairs) bit patterns; tests sample a vanishing fraction and miss boundary exponents/carries.", "anchors": ["src/fused_ops/sos.rs:sos", "src/lib.rs:sum_of_squares"]}
{"id": "C17", "title": "Negation and abs act on the sign bit only", "statement": "-x and abs(x) are exact, -(-x) = x and abs(-x) = abs(x) bit for bit, value(-x) = -value(x), value(abs x) = |value x|, sign predicates flip/clear accordingly, also for NaN, Inf and zeros.", "quantifier": "all bit patterns", "why_tests_cant": "The operand space is 2^256 (2^512 for pairs) bit patterns; tests sample a vanishing fraction and miss boundary exponents/carries.", "anchors": ["src/lib.rs:negated", "src/lib.rs:abs", "src/lib.rs:is_sign_positive", "src/lib.rs:is_sign_negative"]}
{"id": "C18", "title": "trunc, floor and ceil return the right integer", "statement": "For finite x the value of trunc(x)/floor(x)/ceil(x) is the integer x rounded toward zero / -infinity / +infinity; NaN, Inf and zeros are returned unchanged; they never panic.", "quantifier": "all bit patterns, both build profiles", "why_tests_cant": "The operand space is 2^256 (2^512 for pairs) bit patterns; tests sample a vanishing fraction and miss boundary exponents/carries.", "anchors": ["src/lib.rs:trunc", "src/lib.rs:floor", "src/lib.rs:ceil", "src/lib.rs:nearest_integral"]}
{"id": "C19", "title": "round rounds half away from zero", "statement": "For finite x the value of round(x) is the nearest integer, halfway cases away from zero; specials are returned unchanged; it never panics.", "quantifier": "all bit patterns, both build profiles", "why_tests_cant": "The operand space is 2^256 (2^512 for pairs) bit patterns; tests sample a vanishing fraction and miss boundary exponents/carries.", "anchors": ["src/lib.rs:round"]}
{"id": "C20", "title": "round_tie_even rounds half to even", "statement": "For finite x the value of round_tie_even(x) is the nearest integer, halfway cases to even; specials unchanged; it never panics.", "quantifier": "all bit patterns, both build profiles", "why_tests_cant": "The operand space is 2^256 (2^512 for pairs) bit patterns; tests sample a vanishing fraction and miss boundary exponents/carries.", "anchors": ["src/lib.rs:round_tie_even"]}
{"id": "C21", "title": "fract and split decompose exactly", "statement": "For finite x, split(x) = (trunc(x), f) with value(f) = value(x) - value(trunc x) exactly (no rounding), |f| < 1, and fract(x) = f.", "quantifier": "all finite bit patterns", "why_tests_cant": "The operand space is 2^256 (2^512 for pairs) bit patterns; tests sample a vanishing fraction and miss boundary exponents/carries.", "anchors": ["src/lib.rs:fract", "src/lib.rs:split"]}
{"id": "C22", "title": "mul_pow2 scales with at most one rounding", "statement": "mul_pow2(x,n) is the exact x*2^n when it is in range and infinity of the right sign otherwise; specials unchanged; no panic.", "quantifier": "all bit patterns and all u32 n, both build profiles", "why_tests_cant": "The operand space is 2^256 (2^512 for pairs) bit patterns; tests sample a vanishing fraction and miss boundary exponents/carries.", "anchors": ["src/lib.rs:mul_pow2", "src/lib.rs:mul2"]}
{"id": "C23", "title": "div_pow2 scales with at most one rounding", "statement": "div_pow2(x,n) is x*2^-n rounded once to nearest even (ties to even in the subnormal range); specials unchanged; symmetric in the sign; no panic.", "quantifier": "all bit patterns and all u32 n, both build profiles", "why_tests_cant": "The operand space is 2^256 (2^512 for pairs) bit patterns; tests sample a vanishing fraction and miss boundary exponents/carries.", "anchors": ["src/lib.rs:div_pow2", "src/lib.rs:div2"]}
{"id": "C24", "title": "ulp is the weight of the last significand bit", "statement": "For finite x, ulp(x) is the positive power of two 2^(max(e,Emin)-236) for |x| in [2^e,2^(e+1)); i.e. x is an integer multiple of ulp(x) and |x| < 2^237 ulp(x); for NaN/Inf it is NaN; no panic.", "quantifier": "all bit patterns, both build profiles", "why_tests_cant": "The operand space is 2^256 (2^512 for pairs) bit patterns; tests sample a vanishing fraction and miss boundary exponents/carries.", "anchors": ["src/lib.rs:ulp"]}
{"id": "C25", "title": "Integer conversions are exact", "statement": "f256::from(i) for every i8..i128, u8..u128 denotes exactly i (+0 for 0) and is injective.", "quantifier": "every value of every primitive integer type", "why_tests_cant": "2^128 values", "anchors": ["src/conv/from_int.rs:from_i64", "src/conv/from_int.rs:from_i128", "src/conv/from_int.rs:from_u64", "src/conv/from_int.rs:from_u128"]}
{"id": "C26", "title": "Float conversions are exact", "statement": "f256::from(f) for every f32/f64 denotes the same extended real with the same sign (incl. zeros and subnormals); NaN maps to NaN, Inf to Inf.", "quantifier": "every f32 and f64 bit pattern", "why_tests_cant": "2^64 patterns", "anchors": ["src/conv/from_float.rs:from"]}
{"id": "C27", "title": "Parsing never panics", "statement": "f256::from_str(s) returns Ok or Err for every string s, in both build profiles.", "quantifier": "every byte string", "why_tests_cant": "unbounded input length", "anchors": ["src/conv/from_str/mod.rs", "src/conv/from_str/common.rs", "src/conv/from_str/float_repr.rs", "src/conv/from_str/slow_exact.rs"]}
{"id": "C28", "title": "Parsing accepts exactly the documented grammar", "statement": "from_str(s) is Ok iff s is an optional sign followed by inf/infinity/nan (case-insensitive) or a decimal literal with at least one digit, an optional fraction and an optional well-formed exponent.", "quantifier": "every byte string", "why_tests_cant": "unbounded input length", "anchors": ["src/conv/from_str/common.rs", "src/conv/from_str/float_repr.rs"]}
{"id": "C29", "title": "Parsing is correctly rounded", "statement": "For every accepted decimal literal with exact value v, from_str returns the IEEE round-to-nearest-even of v, with the sign of the literal also for zero.", "quantifier": "every decimal literal of any length and exponent", "why_tests_cant": "unbounded input length; halfway cases are rare", "anchors": ["src/conv/from_str/fast_exact.rs", "src/conv/from_str/fast_approx.rs", "src/conv/from_str/slow_exact.rs", "src/conv/big_decimal.rs"]}
{"id": "C30", "title": "Display round-trips", "statement": "For every finite x, parsing the output of format!(\"{}\", x) (and {:e}) with a correctly rounding reader gives x back, bit for bit.", "quantifier": "every finite bit pattern", "why_tests_cant": "The operand space is 2^256 (2^512 for pairs) bit patterns; tests sample a vanishing fraction and miss boundary exponents/carries.", "anchors": ["src/conv/to_str/dec_repr.rs:shortest_from_bin_repr", "src/conv/to_str/mod.rs"]}
{"id": "C31", "title": "Display picks the shortest representation", "statement": "No decimal with fewer significant digits than the one displayed lies in the rounding interval of x.", "quantifier": "every finite non-zero bit pattern", "why_tests_cant": "The operand space is 2^256 (2^512 for pairs) bit patterns; tests sample a vanishing fraction and miss boundary exponents/carries.", "anchors": ["src/conv/to_str/dec_repr.rs:shortest_from_bin_repr"]}
{"id": "C32", "title": "Fixed-precision formatting is correctly rounded", "statement": "format!(\"{:.p$}\", x) is the decimal with p fractional digits nearest to x, ties to even.", "quantifier": "every finite bit pattern and every precision", "why_tests_cant": "The operand space is 2^256 (2^512 for pairs) bit patterns; tests sample a vanishing fraction and miss boundary exponents/carries.", "anchors": ["src/conv/to_str/to_fixed_prec.rs"]}
{"id": "C33", "title": "Wide unsigned arithmetic is exact", "statement": "Every internal wide integer operation (add, sub, mul, widening mul, shifts, rounding shift, remainder mod 2^n, division by a half-width or u128 divisor) used by the arithmetic above returns the mathematical result, at every nesting width (256, 512, 1024, ... bits), and panics only on overflow or division by zero.", "quantifier": "all operands at all nesting depths of the generic integer type", "why_tests_cant": "The operand space is 2^256 (2^512 for pairs) bit patterns; tests sample a vanishing fraction and miss boundary exponents/carries.", "anchors": ["src/big_uint/uint_generic/mod.rs", "src/big_uint/uint_generic/binops", "src/big_uint/uint128.rs"]}
{"id": "C34", "title": "Wide-by-wide unsigned division is exact", "statement": "Dividing two wide integers of the same width yields the Euclidean quotient and a remainder smaller than the divisor, without panicking for a non-zero divisor; rounding division rounds to nearest, ties to even.", "quantifier": "all operand pairs at all nesting depths", "why_tests_cant": "The operand space is 2^256 (2^512 for pairs) bit patterns; tests sample a vanishing fraction and miss boundary exponents/carries.", "anchors": ["src/big_uint/uint_generic/binops/divrem.rs:div_rem", "src/big_uint/uint_generic/mod.rs:rounding_div"]}
{"id": "C35", "title": "Algebraic laws that follow from correct rounding", "statement": "x+y = y+x and x*y = y*x (up to NaN), x-x = +0 for finite x, x+0 = x for nonzero x, x*1 = x, x/1 = x, -(x*y) = (-x)*y, addition and multiplication are monotone, and x-y is exact when y/2 <= x <= 2y.", "quantifier": "all bit patterns", "why_tests_cant": "The operand space is 2^256 (2^512 for pairs) bit patterns; tests sample a vanishing fraction and miss boundary exponents/carries.", "anchors": ["src/binops/add.rs", "src/binops/mul.rs", "src/binops/div.rs"]}
{"id": "C36", "title": "NaN propagates", "statement": "If any operand of +,-,*,/,%,sqrt,mul_add,sum_of_squares is NaN (any payload) the result is NaN; and comparisons with NaN are all false.", "quantifier": "all bit patterns", "why_tests_cant": "The operand space is 2^256 (2^512 for pairs) bit patterns; tests sample a vanishing fraction and miss boundary exponents/carries.", "anchors": ["src/binops", "src/fused_ops", "src/math/sqrt.rs"]}
{"id": "C37", "title": "Degree/radian conversion", "statement": "to_degrees(x)/to_radians(x) return x scaled by 180/pi resp. pi/180 up to a final rounding, map zeros, infinities and NaN to themselves, overflow to infinity, and never panic.", "quantifier": "all bit patterns, both build profiles", "why_tests_cant": "The operand space is 2^256 (2^512 for pairs) bit patterns; tests sample a vanishing fraction and miss boundary exponents/carries.", "anchors": ["src/lib.rs:to_degrees", "src/lib.rs:to_radians"]}
{"id": "C38", "title": "Error-free transformations", "statement": "sum(a,b) and fast_sum(a,b) return (s,r) with s the rounded sum and r such that s + r = a + b exactly, when no overflow occurs.", "quantifier": "all finite pairs without overflow", "why_tests_cant": "The operand space is 2^256 (2^512 for pairs) bit patterns; tests sample a vanishing fraction and miss boundary exponents/carries.", "anchors": ["src/lib.rs:sum", "src/lib.rs:fast_sum"]}
{"id": "C39", "title": "num-traits identities", "statement": "Zero::is_zero(x) iff x is a zero, One::is_one(x) iff x denotes 1, x + zero() = x for nonzero x and x * one() = x.", "quantifier": "all bit patterns", "why_tests_cant": "The operand space is 2^256 (2^512 for pairs) bit patterns; tests sample a vanishing fraction and miss boundary exponents/carries.", "anchors": ["src/num_traits.rs"]}
{"id": "C40", "title": "Basic operations agree with an independent formalisation of IEEE 754", "statement": "Decoding bit patterns with Flocq's interchange-format decoder, add, sub, mul, div, sqrt and mul_add return the datum that Flocq's Bplus, Bminus, Bmult, Bdiv, Bsqrt and Bfma give for binary256 with rounding to nearest even (all NaNs identified), and never panic.", "quantifier": "all bit patterns, both build profiles", "why_tests_cant": "No binary256 hardware or reference library is available to compare with, and the operand space is 2^512 pairs of bit patterns.", "anchors": ["src/binops/add.rs", "src/binops/mul.rs", "src/binops/div.rs", "src/math/sqrt.rs", "src/fused_ops/fma.rs"]}
{"id": "C41", "title": "Logarithms are accurate", "statement": "For every finite positive x, ln, log2 and log10 do not panic and differ from the real logarithm by at most 65/128 of a unit in the last place of the result; where the real logarithm is an integer (powers of two for log2, powers of ten for log10, 1 for all) the result is exact.", "quantifier": "all finite positive data, both build profiles", "why_tests_cant": "The operand space is 2^256 bit patterns and the comparison is with a real number; tests compare a few points with values from another library.", "anchors": ["src/math/log.rs:ln", "src/math/log.rs:log2", "src/math/log.rs:log10", "src/math/feynman.rs:feynman"]}
{"id": "C42", "title": "Logarithms of special operands", "statement": "ln, log2 and log10 return NaN for NaN and negative numbers, minus infinity for zeros and infinity for infinity, as IEEE 754 requires.", "quantifier": "all bit patterns without a real logarithm", "why_tests_cant": "Every NaN payload and every negative number is covered, 2^255 bit patterns; the tests of the repository assert the opposite for infinity.", "anchors": ["src/math/log.rs"]}
{"id": "C43", "title": "Fixed point arithmetic with 492 fraction bits", "statement": "FP492 values are compared and added exactly, multiplied with rounding to nearest, and converted to f256 with correct rounding.", "quantifier": "all 2^512 bit patterns without overflow", "why_tests_cant": "Rounding errors of one unit in 2^-492 are invisible in the results tests look at, and the operand space is 2^1024 pairs.", "anchors": ["src/math/fp509.rs:imul_round", "src/math/fp509.rs:add_assign", "src/math/fp509.rs:partial_cmp", "src/math/fp509.rs:from"]}
{"id": "C44", "title": "Constants", "statement": "MAX, MIN, MIN_POSITIVE, MIN_GT_ZERO, EPSILON and the small integers have the values their names promise and the exponent and digit constants fit them; the mathematical constants (multiples and fractions of pi, square roots, the golden ratio, e) are the real numbers rounded to nearest.", "quantifier": "all constants except GAMMA; the extreme ones against all 2^256 bit patterns", "why_tests_cant": "The tests compare constants with each other through the arithmetic of the crate, so an error in the last bits of a base constant is not seen; 'no finite number is larger' quantifies over all bit patterns.", "anchors": ["src/consts.rs", "src/lib.rs:MAX", "src/lib.rs:MIN_POSITIVE", "src/lib.rs:EPSILON", "src/lib.rs:MAX_10_EXP", "src/lib.rs:MIN_10_EXP"]}
{"id": "C45", "title": "Field accessors, doubling and halving", "statement": "For every finite number, |x| = integral_significand * 2^quantum_exponent = significand * 2^exponent with normalised significands; mul2 and div2 are x*2 and x/2, correctly rounded.", "quantifier": "all 2^256 bit patterns", "why_tests_cant": "The fields switch form between normal and subnormal numbers; tests take a few of the 2^236 subnormal significands.", "anchors": ["src/lib.rs:quantum_exponent", "src/lib.rs:integral_significand", "src/lib.rs:exponent", "src/lib.rs:significand", "src/lib.rs:mul2", "src/lib.rs:div2"]}
{"id": "C46", "title": "Error-free product", "statement": "If the asserted precondition holds and the product does not overflow, fast_mul returns the rounded product and the exact remainder.", "quantifier": "all pairs of bit patterns that meet the precondition", "why_tests_cant": "The remainder is lost only in the corner where the product is near the bottom of the exponent range; random operands never land there.", "anchors": ["src/lib.rs:fast_mul"]}
{"id": "C47", "title": "Conversions to and from the extended format", "statement": "BigFloat::from(&f256) keeps the value of every finite number, f256::from(&BigFloat) rounds to the nearest f256 (ties to even), and the two in sequence give the number back.", "quantifier": "all finite f256; all normalised BigFloats with i32 exponents", "why_tests_cant": "The tests convert a handful of numbers; the exponent just below the least positive number is one value out of 2^32.", "anchors": ["src/math/big_float.rs:From<&f256> for BigFloat", "src/math/big_float.rs:From<&BigFloat> for f256"]}
{"id": "C48", "title": "Multiplication in the extended format", "statement": "BigFloat multiplication returns the normalised product rounded to 255 bits, ties to even.", "quantifier": "all pairs of normalised numbers with exponents from -2^30 to 2^30-1", "why_tests_cant": "A product that rounds up to a power of two has probability about 2^-255.", "anchors": ["src/math/big_float.rs:MulAssign", "src/math/big_float.rs:mul_signifs"]}
{"id": "C49", "title": "Addition and subtraction in the extended format", "statement": "BigFloat addition and subtraction return the normalised sum or difference rounded to 255 bits, ties to even; zero is neutral.", "quantifier": "all pairs of normalised numbers with exponents from -2^30 to 2^30-1, and zero", "why_tests_cant": "Rounding depends on the bits shifted out and on cancellation; random operands rarely cancel.", "anchors": ["src/math/big_float.rs:AddAssign", "src/math/big_float.rs:SubAssign", "src/math/big_float.rs:add_signifs", "src/math/big_float.rs:sub_signifs"]}
{"id": "C50", "title": "Division and square root in the extended format", "statement": "BigFloat division and sqrt return the normalised result rounded to 255 bits, ties to even.", "quantifier": "all pairs of normalised numbers (positive ones for sqrt) with exponents from -2^30 to 2^30-1", "why_tests_cant": "There is no reference implementation with 255 bits to compare against; a wrong last bit shows only in exact arithmetic.", "anchors": ["src/math/big_float.rs:DivAssign", "src/math/big_float.rs:div_signifs", "src/math/big_float.rs:sqrt"]}
{"id": "C51", "title": "Constants, order and truncation in the extended format", "statement": "The constants are the multiples of pi and the roots of their names rounded to 255 bits; comparison is the order of the values; trunc drops the fraction.", "quantifier": "each constant against the real number; all pairs of normalised numbers", "why_tests_cant": "Constants are 255-bit literals; a test can only compare them to other literals.", "anchors": ["src/math/big_float.rs:PI", "src/math/big_float.rs:PartialOrd", "src/math/big_float.rs:trunc"]}
{"id": "C52", "title": "Multiply and add in the extended format", "statement": "BigFloat mul_add returns x*f+a normalised and rounded once to 255 bits, ties to even.", "quantifier": "all triples of normalised numbers and zero", "why_tests_cant": "Wrong roundings need a particular pattern in 512 intermediate bits.", "anchors": ["src/math/big_float.rs:mul_add"]}
{"id": "C53", "title": "Sine", "statement": "The sine of a finite number differs from the exact value by little more than one unit in the last place (65/64), and by 65/128 of a unit for magnitudes below 1/2.", "quantifier": "all finite operands, both build profiles", "why_tests_cant": "Needs the exact sine, and worst cases near multiples of pi/2 are rare.", "anchors": ["src/math/circular_fns/sin.rs", "src/math/circular_fns/approx_sin.rs", "src/math/circular_fns/reduce.rs:fp_reduce"]}
{"id": "C54", "title": "Cosine", "statement": "The cosine of a finite number differs from the exact value by at most 65/64 of a unit in the last place, and by 65/128 of a unit for magnitudes below 1/2.", "quantifier": "all finite operands, both build profiles", "why_tests_cant": "As for the sine.", "anchors": ["src/math/circular_fns/cos.rs", "src/math/circular_fns/approx_cos.rs", "src/math/circular_fns/reduce.rs:fp_reduce"]}
{"id": "C55", "title": "Sine and cosine at once", "statement": "sin_cos returns exactly the pair of results of sin and cos, although it has its own cut-off and sign rules.", "quantifier": "all operands", "why_tests_cant": "A difference would show only between the two cut-offs or in one quadrant.", "anchors": ["src/math/circular_fns/sin_cos.rs", "src/math/circular_fns/approx_sin_cos.rs"]}
{"id": "C56", "title": "Symmetry of sine and cosine", "statement": "sin(-x) = -sin(x) and cos(-x) = cos(x), bit for bit.", "quantifier": "all finite nonzero operands (cosine: all operands)", "why_tests_cant": "Tests cover single points.", "anchors": ["src/math/circular_fns/sin.rs", "src/math/circular_fns/cos.rs"]}
{"id": "C57", "title": "Trigonometric functions of special values", "statement": "NaN and infinities give NaN; zeros give a zero of the same sign for sin and tan and one for cos.", "quantifier": "all NaN, infinities and zeros", "why_tests_cant": "There are 2^237 NaN patterns.", "anchors": ["src/math/circular_fns/sin.rs", "src/math/circular_fns/cos.rs", "src/math/circular_fns/tan.rs", "src/math/circular_fns/sin_cos.rs"]}
{"id": "C58", "title": "Tangent", "statement": "The tangent is the correctly rounded quotient of approximations to sine and cosine that obey C53 and C54, and within 5 units in the last place of the exact tangent.", "quantifier": "all finite operands", "why_tests_cant": "Poles are approached arbitrarily close.", "anchors": ["src/math/circular_fns/tan.rs"]}
{"id": "C59", "title": "Construction of extended numbers from parts", "statement": "BigFloat from_sign_exp_signif(s, t, c) is normalised and has exactly the value (-1)^s * 2^t * c; it is zero for c = 0.", "quantifier": "all signs, all 256 bit significands, exponents from -2^30 to 2^30 - 1", "why_tests_cant": "Each position of the leading bit takes its own shift, and the lowest bit matters only at the top position.", "anchors": ["src/math/big_float.rs:from_sign_exp_signif"]}
{"id": "C60", "title": "Reciprocal in the extended format", "statement": "BigFloat recip returns 1/x rounded to 255 bits, ties to even.", "quantifier": "all normalised numbers", "why_tests_cant": "A wrong last bit shows only for particular significands.", "anchors": ["src/math/big_float.rs:recip"]}
{"id": "C61", "title": "Sums and products with remainder in the extended format", "statement": "BigFloat sum_exact and mul_exact return a rounded result and a remainder that add up to the exact sum and product.", "quantifier": "all pairs of normalised numbers", "why_tests_cant": "The remainder is wrong only for particular exponent differences or significands.", "anchors": ["src/math/big_float.rs:sum_exact", "src/math/big_float.rs:mul_exact"]}

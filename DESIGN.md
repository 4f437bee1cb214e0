# Formal model of f256.rs — design

Source: `/repo` (mamrhein/f256.rs, pinned commit), read as text.  Prover: Rocq/Coq 8.16.1.
Sources are in `rocq/theories`; `MANIFEST.json` lists the theorems of each property.

## How the code is modelled

* **Machine integers** are `Z` with the width explicit at every operation that can
  overflow (`Base.v`).  A panic is `None` in the option monad.
* **Build profile** is a parameter (`Class profile`): `debug = true` means overflow checks
  and `debug_assert!` are on (a failed check is `None`), `debug = false` means they are
  compiled out (arithmetic wraps, shift amounts are masked).  Theorems quantify over it, so
  "never panics" is proved for both profiles.
* **Generic wide integers** `UInt<SubUInt>` are modelled by a record of operations
  (a dictionary, as Rust traits are), one instance for `U128` and one construction for
  `UInt<T>` from the dictionary of `T`; `U256`, `U512`, `U1024` are iterations of it.
  Correctness is proved once for the construction, hence at every nesting depth.
* **f256** is the `U256` bit pattern.
* `&mut self` methods return the new value; loops are structural or fuelled recursion with
  out-of-fuel = `None`, and the theorems exclude it.
* **Texts** are lists of bytes.
* **Lookup tables that are generated** at build time or live in other crates (the printer)
  are parameters of the model; the theorems assume a property of the table
  (`tables_ok`, `chunks_ok`), and a separate theorem shows that the table the generator script describes has it.
  The powers of five of the parser are part of the repository; `PowersOfFive.v` contains them literally.

Model files (no proofs): `Base`, `BigUInt`, `F256`, `Arith`, `Conv`, `Parse`, `PowersOfFive`, `Print`,
`PrintTable`, `PrintFixed`, `LogTable`, `Log`.  Each definition cites file and lines, and says what was simplified.

## Specification, independent of the model

`Spec.v` decodes a 256-bit integer as IEEE binary256 (sign, biased exponent, fraction) by
plain div/mod; every finite magnitude is an integer multiple of 2^-262378 (the unit), so exact results
are rationals n/d of that quantum, and correct rounding is integer round-half-even of n/d at
the right binade.  `SpecProps.v` proves that this is what it should be (nearest, ties to even), and
`SpecFlocq.v`, `FlocqOps.v` prove that addition, subtraction, multiplication, division, square root and fused multiply-add
of the specification are those of Flocq's `binary_float 237 262144` on the data Flocq decodes from the same bits.
`SpecFns.v`: integral rounding, scaling, ulp, order.  `SpecConv.v`: f32/f64/integers.  `SpecParse.v`:
grammar and value of decimal literals.  `SpecPrint.v`, `SpecFixed.v`: printing.  `SpecDeg.v`: degrees and radians, with the
real number pi of the standard library.  `SpecLog.v`: logarithms, with `ln` of the standard library.

The property theorems are in `Prop_*.v`, which contain only statements, one-line proofs, `Print Assumptions`
and examples meeting the hypotheses.

## Per property

| id | model | statement / how proved | status |
|----|-------|------------------------|--------|
| C01 | lib.rs byte functions, bytes as lists of Z | round trips both ways by positional notation | proved |
| C02 | predicates as bit tests | equivalence with decoded kind; `classify` refuted on NaNs with other payloads | partial |
| C03, C04 | `decode`, `encode`, `new` | exact value, round trip, nearest even | proved |
| C05 | `eq` | numeric equality and its laws | proved |
| C06-C08 | `partial_cmp`, `total_cmp`, `max`, `min`, `clamp` | refuted for two negatives, proved otherwise | partial |
| C09, C10 | `add` and helpers | bit-exact for all operands | proved |
| C11 | `mul` and helpers | normal, overflowing and special results; refuted for subnormal results | partial |
| C12 | `div`, `recip` | bit-exact for all operands | proved |
| C13 | `rem` | normal divisors, small ones, specials; refuted (panic) for a subnormal divisor | partial |
| C14 | `sqrt`, digit recurrence, loop invariant | bit-exact for all operands | proved |
| C15 | `fma` | special operands, normal operands and results; refuted for subnormals | partial |
| C16 | `sos` | all operands: the right value or its lower neighbour, and exactly when; refuted | partial |
| C17 | sign ops | direct | proved |
| C18-C21 | integral rounding | against Z floor/ceil/nearest on values; `round_tie_even` refuted near 1/2 | proved, C20 partial |
| C22, C23 | `mul_pow2`, `div_pow2` | refuted at corner cases, proved elsewhere | partial |
| C24 | `ulp` | direct | proved |
| C25, C26 | conversions | exact value | proved |
| C27-C29 | the parser, byte by byte: scanner, `fast_exact`, `fast_approx`, `Decimal` | exact set of accepted texts; correct rounding on the exact paths; eight counterexamples | partial |
| C30, C31 | shortest printing (Ryu style) | round trip and shortness for 2^-474 .. 2^428; refuted in general | partial |
| C32 | printing with a precision | correct rounding for fractions from 2^-83 up and integers below 2^237; refuted in general | partial |
| C33, C34 | generic wide integers | laws of the dictionary by induction on the nesting; division refuted in general | C33 proved, C34 partial |
| C35, C36 | corollaries of C09-C16 | algebra, NaN propagation | C36 proved |
| C37 | `to_degrees`, `to_radians` | error bounds against pi; refuted on specials and near the limits | partial |
| C38 | `sum`, `fast_sum` | `fast_sum` exact; `sum` refuted | partial |
| C39 | num_traits | corollary | proved |
| C40 | C09-C12, C14, C15 against Flocq | the specification equals Flocq's operations; add, sub, div, sqrt for all operands, mul and mul_add as far as C11 and C15; mul refuted | partial |
| C41 | `ln`, `log2`, `log10`, `feynman` with its table, FP492 | loop invariant (product below x, error per step), table checked against the alternating series of ln(1+h), final rounding | proved |
| C42 | the same | refuted for zeros and infinity, which give NaN | partial |
| C43 | FP492 | two's complement; multiplication refuted, off by less than one unit | partial |
| C44 | `consts.rs`, associated constants | symbolic powers; interval for pi of C37, squares for the roots, alternating series of exp(-1) for e | proved (GAMMA is outside the claim) |
| C45 | field accessors, `mul2`, `div2` | codec lemmas; instances of C22, C23 | partial (div2 refuted) |
| C46 | `fast_mul` | the error of a rounded product is a multiple of the product of the units; `mul_add` is then exact | partial (precondition) |
| C47 | `BigFloat` from and to f256 | significand and exponent of each form; `rnd_mag` | partial (one exponent refuted) |
| C48-C50 | `BigFloat` `*`, `+`, `-`, `/`, `sqrt` | integer results lifted to the reals; rounding to 255 bits is Flocq's `round` in `FLX_exp 255` | partial (each but sqrt refuted at corner cases, proved elsewhere) |
| C51 | `BigFloat` constants, `partial_cmp`, `trunc` | interval for pi of C37, squares for the roots; order of the values | partial (order of negatives, trunc below 1) |
| C52 | `BigFloat::mul_add` | zero operands; cancellation at equal exponents by rounding the 512 bit difference; refuted in general | partial |
| C53, C54 | `sin`, `cos`, the reduction of arguments below 8, the polynomials in FP492 | coefficients are rounded reciprocals of factorials, error per Horner step, Taylor remainder, pi to 518 bits, least distance of data below 8 to multiples of pi/2, final rounding | partial (below 2^-256 refuted, from 8 on not covered) |
| C55, C56 | `sin_cos`, signs | case analysis, for any reduction of large arguments | proved |
| C57 | zeros, infinities, NaN | bits; refuted for -0 | partial |
| C58 | `tan` | C53, C54 and C12; relative errors, no datum below 8 is nearer than 2^-244 to a pole | partial |
| C59 | `BigFloat::from_sign_exp_signif` | position of the leading bit, value over the reals | partial (odd significands from 2^255 on refuted) |
| C60 | `BigFloat::recip` | division of C50 with dividend 1 | partial |
| C61 | `BigFloat::sum_exact`, `mul_exact` | products: the remainder of the rounded 512 bit product fits 255 bits; sums refuted by evaluation | partial (products that round up to a power of two and sums refuted) |

## Findings: claims that are false of the code

Each has a theorem `.._refuted` with a witness computed in the model.

* C02 `classify` calls a NaN whose payload is not the canonical one `Normal`.
* C06-C08 The order of two negative numbers is reversed in `partial_cmp` and `total_cmp`, hence `max`, `min`, `clamp`.
* C11 `mul` rounds twice when the result is subnormal.
* C13 `rem` panics for a subnormal divisor.
* C15 `mul_add` treats subnormal operands and results wrongly.
* C16 `sum_of_squares` drops a sticky bit: the result can be the lower neighbour.
* C20 `round_tie_even` of numbers just above 1/2 is 0.
* C22, C23 `mul_pow2`, `div_pow2` at the ends of the exponent range.
* C27 A debug build panics on `10e2147483647`.
* C28 The text `.` and some texts with an empty exponent are accepted.
* C29 `-0` without exponent is read as +0; ties of long literals round down; digits of an earlier
  state survive in the slow path; literals with many digits are cut off; a release build wraps
  the exponent.
* C30 A power of two is printed as a decimal nearer to its lower neighbour; an odd significand whose interval
  ends at a short decimal is printed as that decimal, which reads as the neighbour.
* C31 Integers: the lower half of the interval is not searched completely, so a shorter decimal is missed.
* C32 Integers from 2^237 are printed with their shortest digits instead of their exact ones; fractions
  below 2^-83 can be wrong in the last digit since table entries are cut off.
* C33 the `rem_pow2` of u128 (unused by the arithmetic).  C34 wide division can return the divisor as remainder.
* C37 Zero, infinities and NaN panic or become other numbers, overflow does not give infinity, small
  operands panic; the constant of `to_degrees` is wrong from its 238th bit on.
* C38 `sum` does not return an exact error for some operands.
* C42 The logarithm of a zero and of infinity is NaN (the tests of the repository expect NaN for infinity); IEEE 754 asks for -inf and +inf.
* C43 `imul_round` rounds up whenever one of the lower 384 bits of the product is set, not only above the middle
  (`a || b && c || d` misses parentheses).  Its comment says 21 bits where 20 are shifted.
  `log` and `ln_1p` are `unimplemented!()`, they always panic.
* C44 The documentation of `MIN_10_EXP` gives a formula whose value is -78913, the constant is -78912 (which fits the least normal number).
* C45 `div2` as C23.
* C46 The precondition asserted by `fast_mul` is too weak: below it the remainder can be lost.
* C47 `f256::from(&BigFloat)` flushes numbers between 2^-262379 and 2^-262378 to 0 instead of rounding them up.
* C48 `BigFloat` multiplication shifts a significand that rounded up to 2^255 without raising the exponent.
* C49 `BigFloat` addition drops the bits shifted out: sums are truncated, differences after cancellation are off by up to a factor of two,
  and a number below 2^-254 plus zero is zero (the exponent of zero is 0).
* C50 `BigFloat` division rounds the last bit wrongly for some operands, such as 1 / 1.5.
* C51 `BigFloat` orders negative numbers by magnitude; `trunc` of numbers below 1 is not the zero of the type, and below 1/2 it panics in a debug build.
* C52 `BigFloat::mul_add` can round up below a tie, and can return the significand 2^255.
* C53 The sine of a small number is wrong: the conversion to FP492 clamps the exponent, so every positive normal number below 2^-492
  has the sine 2^-492, a subnormal one has the sine 0, and between 2^-492 and 2^-256 bits are cut off.
* C57 The sine and the tangent of -0 are +0.
* C59 `BigFloat::from_sign_exp_signif` drops the last bit of odd significands from 2^255 on, against its comment.
* C60 `BigFloat::recip` inherits the wrong last bit of the division, such as 1 / 1.5.
* C61 `BigFloat::sum_exact` loses the remainder: for 1 + 2^-255 it returns (1, 0).  `mul_exact` of 1 + 2^-254 and 2 - 2^-253 returns (1, 1),
  and the second 1 has the significand 2^255.

Not refuted but noted: `to_ne_bytes` orders the bytes of each half little endian, but the halves most significant
first (C01 holds all the same); rounding functions return +0 for small negative operands (C18 claims values only).

## Not modelled

* Of `math/circular_fns`: `fma_reduce`, `large_val_reduce` and `two_over_pi.rs`, the reduction of arguments of magnitude 8 or more (the parameter `large` of the model),
  and `atan`, `atan2`, `asin`, `acos`.  Of `math/big_float.rs`:
  `quantum`, `flip_sign`, `copy_sign`, `square`, `From<&U256>`, `>>`, and the conversions of FP492.
  `log` and `ln_1p` (`unimplemented!()`).
* `{:.pe}` (to_fixed_prec.rs from line 229): it takes a logarithm in f64, whose rounding is not in the repository.
* Padding options of the formatter (width, fill, alignment, `+`), `Debug`, `Hash`, `from_str_radix`,
  `const` items that are defined by parsing, error messages.
* Capacity hints of strings, and memory.

## Trusted base

* Coq's kernel, including `vm_compute`.
* Axioms, as printed by `Print Assumptions` under each theorem: none for every theorem
  other than those of C37, C40, C41, C44, C47 to C54 and C58 to C61 listed here.  `C44_pi`, `C44_sqrt` (all four axioms named below) and `C44_e` (without `Classical_Prop.classic`) are the only ones of C44.  All C40 and C41 theorems depend on the four axioms named below (Flocq itself adds none).  `C37_rounding_refuted`, `C37_degrees_constant_refuted`, `C37_radians_constant`, `C37_to_degrees_partial`,
  `C37_to_radians_partial` and the other C37 theorems whose statement mentions real numbers depend on the standard library's
  `ClassicalDedekindReals.sig_forall_dec`, `ClassicalDedekindReals.sig_not_dec`,
  `FunctionalExtensionality.functional_extensionality_dep` and (five of them) `Classical_Prop.classic`.
  Of C47 to C52, all four axioms: `C48_partial`, `C48_refuted`, `C49_same_partial`, `C49_nearest_refuted`, `C50_div_partial`, `C50_refuted`,
  `C50_sqrt`, `C51_consts`, `C52_nearest_refuted`, `C52_cancel_partial`; only `sig_forall_dec` and `functional_extensionality_dep`: `C47_from`, `C49_diff_partial`,
  `C49_sub`, `C49_diff_refuted`, the other C51 theorems; the rest none.
  `C53_sin_partial`, `C53_small_refuted`, `C54_cos_partial`, `C58_tan_partial` and `C58_ulp_partial`: all four axioms; C55 to C57 none.
  `C52_cancel_partial`, `C60_partial`, `C60_refuted` and `C61_mul_partial`: all four axioms; the other C59 and C61 theorems: only `sig_forall_dec` and `functional_extensionality_dep`.
* The parameter `large` of C53 to C58 is an arbitrary function that may panic; no theorem assumes anything of it.
* The reading of the Rust source into Gallina, including the behaviour of the standard library it
  uses: formatting of `u64`, `u128`, `i32` as decimal digits, `format!("{:.*}", n, 0.)`, `pad_integral` without options,
  `eq_ignore_ascii_case`, and integer primitives (`leading_zeros`, `rotate`, `checked_*` ...).
* The generated tables of the printer (`tables_ok`, `chunks_ok`) are assumed to be what the scripts in `/repo` describe.

## Mutation tests

`seeded/LOG.jsonl` has one line for each wrong program tried: the definition edited, the edit, the claim it breaks
and the theorems that failed (or had to be tightened).  How a failure was established is in the note of each line:

* "Observed": the model was rebuilt with the edit in a copy.  A lemma whose proof failed was replaced by an admission in that copy to let the build
  go on; the list has the property theorems that failed or whose `Print Assumptions` then named such a lemma.
  A proof can also fail because its script no longer fits, so this shows that a theorem does not go through unnoticed, not that it is false.
* "Not rebuilt": the edited model was evaluated by `vm_compute` on sampled operands and compared with an oracle written in Python from
  the specification; each theorem listed has a counterexample among them.
* The others survived: equivalent to the original on reading, or undecided.

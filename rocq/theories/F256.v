(** * F256: model of src/lib.rs (representation, predicates, rounding to
    integers, scaling by powers of two, bytes) and src/binops/cmp.rs

    An [f256] value is its 256 bits, held in a [U256].  [xhi], [xlo] are the two
    u128 halves.  Constant shifts of u128 values by less than 128 bits never
    panic; they are written [shlc] / [shrc]. *)

From Verif Require Import Base BigUInt.

Notation f256 := U256 (only parsing).

Definition xhi (x : U256) : Z := val (hi x).
Definition xlo (x : U256) : Z := val (lo x).

Definition shlc (w a n : Z) : Z := (a * 2 ^ n) mod 2 ^ w.
Definition shrc (a n : Z) : Z := a / 2 ^ n.

(** src/lib.rs:76-130: constants *)
Definition TOTAL_BITS : Z := 256.
Definition EXP_BITS : Z := 19.
Definition SIGNIFICAND_BITS : Z := 237.
Definition FRACTION_BITS : Z := 236.
Definition EXP_MAX : Z := 524287.
Definition EXP_BIAS : Z := 262143.
Definition EMAX : Z := 262143.
Definition EMIN : Z := -262142.
Definition HI_SIGN_SHIFT : Z := 127.
Definition HI_FRACTION_BITS : Z := 108.
Definition HI_FRACTION_BIAS : Z := 2 ^ 108.
Definition HI_FRACTION_MASK : Z := 2 ^ 108 - 1.
Definition HI_EXP_MASK : Z := 524287 * 2 ^ 108.
Definition HI_SIGN_MASK : Z := 2 ^ 127.
Definition HI_ABS_MASK : Z := 2 ^ 127 - 1.
Definition NAN_HI : Z := 524287 * 2 ^ 108 + 2 ^ 107.
Definition INF_HI : Z := 524287 * 2 ^ 108.
Definition NEG_INF_HI : Z := 2 ^ 127 + 524287 * 2 ^ 108.
Definition EPSILON_HI : Z := (262143 - 236) * 2 ^ 108.
Definition MAX_HI : Z := 2 ^ 127 - 2 ^ 108 - 1.
Definition MIN_NO_FRACT_HI : Z := (262143 + 236) * 2 ^ 108.

(** src/lib.rs:1127-1131 *)
Definition negated (x : f256) : f256 := u256 (Z.lxor (xhi x) HI_SIGN_MASK) (xlo x).

(** src/lib.rs:144-180: constants of the type *)
Definition EPSILON : f256 := u256 EPSILON_HI 0.
Definition MAX : f256 := u256 MAX_HI (2 ^ 128 - 1).
Definition MIN : f256 := negated MAX.
Definition MIN_POSITIVE : f256 := u256 HI_FRACTION_BIAS 0.
Definition MIN_GT_ZERO : f256 := u256 0 1.
Definition NAN : f256 := u256 NAN_HI 0.
Definition INFINITY : f256 := u256 INF_HI 0.
Definition NEG_INFINITY : f256 := u256 NEG_INF_HI 0.
Definition ZERO : f256 := u256 0 0.
Definition NEG_ZERO : f256 := negated ZERO.
Definition ONE_HALF : f256 := u256 ((262143 - 1) * 2 ^ 108) 0.
Definition ONE : f256 := u256 (262143 * 2 ^ 108) 0.
Definition NEG_ONE : f256 := negated ONE.
Definition TWO : f256 := u256 ((1 + 262143) * 2 ^ 108) 0.

(** ** Helper functions working on the encoded bits *)

(** src/lib.rs:1275-1277 *)
Definition sign_bits_hi (f : f256) : Z := Z.land (xhi f) HI_SIGN_MASK.

(** src/lib.rs:1281-1283 *)
Definition abs_bits (f : f256) : U256 := u256 (Z.land (xhi f) HI_ABS_MASK) (xlo f).

(** src/lib.rs:1288-1290 *)
Definition abs_bits_sticky (a : U256) : Z := Z.lor (xhi a) (b2z (negb (xlo a =? 0))).

(** src/lib.rs:1297-1309; [wrapping_sub(1)] on u128 *)
Definition u128_is_special (s : Z) : bool := MAX_HI <=? (s - 1) mod 2 ^ 128.
Definition is_special_bits (a : U256) : bool := u128_is_special (abs_bits_sticky a).

(** src/lib.rs:1322-1337 *)
Definition any_special2 (a b : Z) : bool := u128_is_special a || u128_is_special b.
Definition any_subnormal2 (a b : Z) : bool := (a <=? HI_FRACTION_MASK) || (b <=? HI_FRACTION_MASK).
Definition any_non_normal2 (a b : Z) : bool := any_special2 a b || any_subnormal2 a b.

(** src/lib.rs:1339-1345 *)
Definition any_special3 (a b c : Z) : bool :=
  u128_is_special a || u128_is_special b || u128_is_special c.

(** src/lib.rs:1361-1364 *)
Definition norm_bit (a : U256) : Z := b2z (HI_FRACTION_BIAS <=? xhi a).

(** src/lib.rs:1367-1370 *)
Definition exp_bits (a : U256) : Z := castu 32 (shrc (xhi a) HI_FRACTION_BITS).

(** src/lib.rs:1381-1384 *)
Definition fraction_bits (a : U256) : U256 := u256 (Z.land (xhi a) HI_FRACTION_MASK) (xlo a).

(** src/lib.rs:1387-1394 *)
Definition signif (a : U256) : U256 :=
  u256 (Z.lor (shlc 128 (b2z (HI_FRACTION_BIAS <=? xhi a)) HI_FRACTION_BITS)
              (Z.land (xhi a) HI_FRACTION_MASK))
       (xlo a).

Section F256.
Context `{profile}.

(** src/lib.rs:1399-1404 *)
Definition norm_signif (a : U256) : option (U256 * Z) :=
  let! _ := dassert (negb (is_zero a)) in
  let s := signif a in
  let! m := msb s in
  let! shift := subu 32 FRACTION_BITS m in
  let! r := shift_left s shift in
  Some (r, shift).

(** src/lib.rs:1409-1414 *)
Definition left_adj_signif (a : U256) : option (U256 * Z) :=
  let! _ := dassert (negb (is_zero a)) in
  let s := signif a in
  let shift := leading_zeros s in
  let! r := shift_left s shift in
  Some (r, shift).

(** src/lib.rs:364-367 *)
Definition sign (x : f256) : Z := castu 32 (shrc (xhi x) HI_SIGN_SHIFT).

(** src/lib.rs:371-373 *)
Definition biased_exponent (x : f256) : Z :=
  castu 32 (shrc (Z.land (xhi x) HI_EXP_MASK) HI_FRACTION_BITS).

(** src/lib.rs:497-577: predicates *)
Definition is_nan (x : f256) : bool :=
  HI_EXP_MASK <? Z.lor (Z.land (xhi x) HI_ABS_MASK) (b2z (negb (xlo x =? 0))).
Definition is_infinite (x : f256) : bool :=
  (Z.land (xhi x) HI_ABS_MASK =? HI_EXP_MASK) && (xlo x =? 0).
Definition is_finite (x : f256) : bool := negb (Z.land (xhi x) HI_EXP_MASK =? HI_EXP_MASK).
Definition eq_zero (x : f256) : bool := (shlc 128 (xhi x) 1 =? 0) && (xlo x =? 0).
Definition is_subnormal (x : f256) : bool :=
  (Z.land (xhi x) HI_EXP_MASK =? 0) && negb (eq_zero x).
Definition is_normal (x : f256) : bool :=
  (biased_exponent x - 1) mod 2 ^ 32 <? EXP_MAX - 1.
Definition is_special (x : f256) : bool :=
  MAX_HI <=? (Z.lor (Z.land (xhi x) HI_ABS_MASK) (b2z (negb (xlo x =? 0))) - 1) mod 2 ^ 128.
Definition is_sign_positive (x : f256) : bool := xhi x <? HI_SIGN_MASK.
Definition is_sign_negative (x : f256) : bool := HI_SIGN_MASK <=? xhi x.

(** core::num::FpCategory *)
Inductive fp_category := FpNan | FpInfinite | FpZero | FpSubnormal | FpNormal.

(** src/lib.rs:535-545 *)
Definition classify (x : f256) : fp_category :=
  let s := abs_bits_sticky (abs_bits x) in
  if s =? 0 then FpZero
  else if s =? INF_HI then FpInfinite
  else if s =? NAN_HI then FpNan
  else if s <=? HI_FRACTION_MASK then FpSubnormal
  else FpNormal.

(** src/lib.rs:379-389 *)
Definition quantum_exponent (x : f256) : option Z :=
  let! _ := dassert (is_finite x) in
  let exp := casts 32 (biased_exponent x) in
  let! exp := adds 32 exp (b2z (exp =? 0)) in
  let! t := subs 32 exp (EXP_BIAS + FRACTION_BITS) in
  muls 32 (b2z (negb (eq_zero x))) t.

(** src/lib.rs:394-402 *)
Definition exponent (x : f256) : option Z :=
  let! _ := dassert (is_finite x) in
  let exp := casts 32 (biased_exponent x) in
  let! exp := adds 32 exp (b2z (exp =? 0)) in
  let! t := subs 32 exp EXP_BIAS in
  muls 32 (b2z (negb (eq_zero x))) t.

(** src/lib.rs:406-408 *)
Definition fraction (x : f256) : U256 := u256 (Z.land (xhi x) HI_FRACTION_MASK) (xlo x).

(** src/lib.rs:413-424 *)
Definition integral_significand (x : f256) : option U256 :=
  let! _ := dassert (is_finite x) in
  let hidden_one := shlc 128 (b2z (negb (biased_exponent x =? 0))) HI_FRACTION_BITS in
  Some (u256 (Z.lor (Z.land (xhi x) HI_FRACTION_MASK) hidden_one) (xlo x)).

(** src/lib.rs:428-447 *)
Definition significand (x : f256) : option f256 :=
  let! _ := dassert (is_finite x) in
  if eq_zero x then Some x
  else
    let bits := u256 (Z.land (xhi x) HI_FRACTION_MASK) (xlo x) in
    let! (bits, biased_exp) :=
      (if biased_exponent x =? 0 then
         let! shift := subu 32 (leading_zeros bits) EXP_BITS in
         let! bits := shift_left bits shift in
         let! s1 := addu 32 shift 1 in
         let! be := subu 32 EXP_BIAS s1 in
         Some (bits, be)
       else Some (bits, EXP_BIAS)) in
    let! h := addu 128 (xhi bits) (shlc 128 biased_exp HI_FRACTION_BITS) in
    Some (u256 h (xlo bits)).

(** src/lib.rs:1418-1435.  For Infinity and NaN the result is the raw pair. *)
Definition split_f256_enc (f : f256) : option (Z * Z * U256) :=
  let sgn := sign f in
  let a := abs_bits f in
  let e := exp_bits a in
  let fr := fraction_bits a in
  if e =? 0 then
    if ueqb fr uint_zero then Some (sgn, 0, uint_zero)
    else
      let! t := subs 32 1 (EXP_BIAS + FRACTION_BITS) in
      Some (sgn, t, fr)
  else if e =? EXP_MAX then Some (sgn, casts 32 e, fr)
  else
    let! t := subs 32 (casts 32 e) (EXP_BIAS + FRACTION_BITS) in
    Some (sgn, t, u256 (Z.lor (xhi fr) HI_FRACTION_BIAS) (xlo fr)).

(** src/lib.rs:463-485 *)
Definition decode (x : f256) : option (Z * Z * U256) :=
  let! _ := dassert (is_finite x) in
  let! (st, c) := split_f256_enc x in
  let '(s, t) := st in
  if is_zero c then Some (s, t, c)
  else
    let n := trailing_zeros c in
    let! c := ushr c n in
    let! t := adds 32 t (casts 32 n) in
    Some (s, t, c).

(** src/lib.rs:259-281 *)
Definition new (sgn exponent : Z) (significand : U256) : option f256 :=
  let! _ := dassert ((sgn =? 0) || (sgn =? 1)) in
  let! _ := dassert ((EMIN - 1 <=? exponent) && (exponent <=? EMAX)) in
  let! _ := dassert (negb (is_zero significand)) in
  let! _ := dassert (shrc (xhi significand) HI_FRACTION_BITS <=? 1) in
  let! be := adds 32 exponent EXP_BIAS in
  let biased_exp := castu 128 be in
  Some (u256 (Z.lor (Z.lor (Z.land (xhi significand) HI_FRACTION_MASK)
                           (shlc 128 biased_exp HI_FRACTION_BITS))
                    (shlc 128 sgn HI_SIGN_SHIFT))
             (xlo significand)).

(** src/lib.rs:294-343 *)
Definition encode (s t : Z) (c : U256) : option f256 :=
  let! _ := dassert (negb (is_zero c)) in
  let! t := adds 32 t FRACTION_BITS in
  let n := leading_zeros c in
  let! (t, c) :=
    match n ?= EXP_BITS with
    | Gt =>
      let! shift := subu 32 n EXP_BITS in
      let! lim := adds 32 EMIN (casts 32 shift) in
      if lim <=? t then
        let! c := ushl c shift in
        let! t := subs 32 t (casts 32 shift) in
        Some (t, c)
      else
        let! d := subs 32 t EMIN in
        let! c := ushl c (castu 32 d) in
        Some (EMIN - 1, c)
    | Lt =>
      let! shift := subu 32 EXP_BITS n in
      let! t := adds 32 t (casts 32 shift) in
      let! c := rounding_div_pow2 c shift in
      if negb (shrc (xhi c) (HI_FRACTION_BITS + 1) =? 0) then
        let! t := adds 32 t 1 in
        let! c := ushr c 1 in
        Some (t, c)
      else Some (t, c)
    | Eq => Some (t, c)
    end in
  let! _ := dassert ((EMIN - 1 <=? t) && (t <=? EMAX)) in
  new s t c.

(** [\[a, b\]\[s as usize\]]: indexing panics for s > 1 *)
Definition pick (a b : f256) (s : Z) : option f256 :=
  if s =? 0 then Some a else if s =? 1 then Some b else None.

(** src/lib.rs:348-360 *)
Definition from_sign_exp_signif (s t : Z) (ch cl : Z) : option f256 :=
  let! _ := dassert ((s =? 0) || (s =? 1)) in
  let c := u256 ch cl in
  if is_zero c then
    if t =? 0 then pick ZERO NEG_ZERO s
    else if t =? EMAX + 1 then pick INFINITY NEG_INFINITY s
    else encode s t c
  else encode s t c.

(** src/lib.rs:489-493 *)
Definition as_sign_exp_signif (x : f256) : option (Z * Z * (Z * Z)) :=
  let! (st, c) := decode x in
  Some (st, (xhi c, xlo c)).

(** src/lib.rs:585-605 *)
Definition ulp (x : f256) : option f256 :=
  let a := abs_bits x in
  let e := exp_bits a in
  if e <? EXP_MAX then
    let bits := u256 HI_FRACTION_BIAS 0 in
    let! d := subu 32 e (norm_bit a) in
    let sh := Z.max 0 (FRACTION_BITS - d) in
    let e := Z.max 0 (e - (FRACTION_BITS + 1)) in
    let! bits := ushr bits sh in
    let! h := addu 128 (xhi bits) (shlc 128 e HI_FRACTION_BITS) in
    Some (u256 h (xlo bits))
  else Some NAN.

(** src/lib.rs:708-726 *)
Definition to_bits (x : f256) : Z * Z := (xhi x, xlo x).
Definition from_bits (b : Z * Z) : f256 := u256 (fst b) (snd b).

(** [u128::to_le_bytes], [to_be_bytes], [from_le_bytes], [from_be_bytes]:
    a byte array is a list of values below 256, first element first. *)
Fixpoint le_bytes (n : nat) (v : Z) : list Z :=
  match n with
  | O => []
  | S n => v mod 256 :: le_bytes n (v / 256)
  end.
Definition be_bytes (n : nat) (v : Z) : list Z := rev (le_bytes n v).
Fixpoint of_le_bytes (l : list Z) : Z :=
  match l with
  | [] => 0
  | b :: l => b + 256 * of_le_bytes l
  end.
Definition of_be_bytes (l : list Z) : Z := of_le_bytes (rev l).

(** src/lib.rs:728-805.  The transmute of [[u8;16];2] concatenates; the
    transmute of the tuple (u128, u128) in [to_ne_bytes] depends on the layout
    of the tuple, taken here as declaration order on a little-endian target. *)
Definition to_be_bytes (x : f256) : list Z := be_bytes 16 (xhi x) ++ be_bytes 16 (xlo x).
Definition to_le_bytes (x : f256) : list Z := le_bytes 16 (xlo x) ++ le_bytes 16 (xhi x).
Definition to_ne_bytes (x : f256) : list Z := le_bytes 16 (xhi x) ++ le_bytes 16 (xlo x).
Definition from_be_bytes (l : list Z) : f256 :=
  u256 (of_be_bytes (firstn 16 l)) (of_be_bytes (skipn 16 l)).
Definition from_le_bytes (l : list Z) : f256 :=
  u256 (of_le_bytes (skipn 16 l)) (of_le_bytes (firstn 16 l)).
Definition from_ne_bytes (l : list Z) : f256 :=
  u256 (of_le_bytes (firstn 16 l)) (of_le_bytes (skipn 16 l)).

(** src/lib.rs:825-831 *)
Definition total_cmp (x y : f256) : comparison := ucmp (negated x) (negated y).

(** src/binops/cmp.rs:14-27 *)
Definition f_eq (x y : f256) : bool :=
  if is_nan x || is_nan y then false
  else if eq_zero x && eq_zero y then true
  else ueqb x y.

(** src/binops/cmp.rs:29-41 *)
Definition partial_cmp (x y : f256) : option comparison :=
  if is_nan x || is_nan y then None
  else if eq_zero x && eq_zero y then Some Eq
  else Some (total_cmp x y).

(** The operators [<], [<=], [>], [>=] of a type with [partial_cmp]
    (core::cmp::PartialOrd provided methods). *)
Definition f_lt (x y : f256) : bool := match partial_cmp x y with Some Lt => true | _ => false end.
Definition f_gt (x y : f256) : bool := match partial_cmp x y with Some Gt => true | _ => false end.
Definition f_le (x y : f256) : bool :=
  match partial_cmp x y with Some Lt | Some Eq => true | _ => false end.
Definition f_ge (x y : f256) : bool :=
  match partial_cmp x y with Some Gt | Some Eq => true | _ => false end.

(** src/lib.rs:682-705 *)
Definition fmax (x other : f256) : f256 := if f_gt other x || is_nan x then other else x.
Definition fmin (x other : f256) : f256 := if f_lt other x || is_nan x then other else x.

(** src/lib.rs:860-870 *)
Definition clamp (x mn mx : f256) : option f256 :=
  let! _ := assert (f_le mn mx) in
  Some (if f_lt x mn then mn else if f_gt x mx then mx else x).

(** src/lib.rs:887-891 *)
Definition abs (x : f256) : f256 := u256 (Z.land (xhi x) HI_ABS_MASK) (xlo x).

(** src/lib.rs:896-931 *)
Definition nearest_integral (x : f256) (adj : Z -> bool) : option f256 :=
  let a := abs_bits x in
  if is_special_bits a then Some x
  else if MIN_NO_FRACT_HI <=? xhi a then Some x
  else
    let sgn := sign x in
    if xhi a <? xhi ONE then
      Some (if (sgn =? 0) && adj sgn then ONE
            else if (sgn =? 1) && adj sgn then NEG_ONE
            else ZERO)
    else
      let! d := subu 32 (exp_bits a) EXP_BIAS in
      let! n := subu 32 FRACTION_BITS d in
      let! t := ushr a n in
      let! ai := ushl t n in
      let! c := mulu 32 (b2z (adj sgn)) (b2z (negb (ueqb ai a))) in
      let! t := ushl (u256 0 c) n in
      let! ai := uadd ai t in
      Some (u256 (Z.lor (xhi ai) (sign_bits_hi x)) (xlo ai)).

(** src/lib.rs:946-949, 995-998, 1016-1019 *)
Definition trunc (x : f256) : option f256 := nearest_integral x (fun _ => false).
Definition ceil (x : f256) : option f256 := nearest_integral x (fun s => s =? 0).
Definition floor (x : f256) : option f256 := nearest_integral x (fun s => s =? 1).

(** src/lib.rs:1036-1075 *)
Definition round (x : f256) : option f256 :=
  let a := abs_bits x in
  if is_special_bits a then Some x
  else if MIN_NO_FRACT_HI <=? xhi a then Some x
  else if xhi a <? xhi ONE_HALF then Some ZERO
  else if xhi a <=? xhi ONE then Some (u256 (Z.lor (xhi ONE) (sign_bits_hi x)) 0)
  else
    let! d := subu 32 (exp_bits a) EXP_BIAS in
    let! n := subu 32 FRACTION_BITS d in
    let! n1 := subu 32 n 1 in
    let! tie := ushl uint_one n1 in
    let! r := rem_pow2 a n in
    let! a := ushr a n in
    let a := if uge r tie then incr a else a in
    let! a := ushl a n in
    Some (u256 (Z.lor (xhi a) (sign_bits_hi x)) (xlo a)).

(** src/lib.rs:1090-1124 *)
Definition round_tie_even (x : f256) : option f256 :=
  let a := abs_bits x in
  if is_special_bits a then Some x
  else if MIN_NO_FRACT_HI <=? xhi a then Some x
  else if xhi a <=? xhi ONE_HALF then Some ZERO
  else if xhi a <=? xhi ONE then Some (u256 (Z.lor (xhi ONE) (sign_bits_hi x)) 0)
  else
    let! d := subu 32 (exp_bits a) EXP_BIAS in
    let! n := subu 32 FRACTION_BITS d in
    let! a := rounding_div_pow2 a n in
    let! a := ushl a n in
    Some (u256 (Z.lor (xhi a) (sign_bits_hi x)) (xlo a)).

(** src/lib.rs:1142-1172; [1 - (EXP_BIAS + FRACTION_BITS)] = -262378 *)
Definition mul_pow2 (x : f256) (n : Z) : option f256 :=
  let a := abs_bits x in
  if is_special_bits a then Some x
  else
    let e := exp_bits a in
    if EXP_MAX <=? Z.min (2 ^ 32 - 1) (e + n) then pick INFINITY NEG_INFINITY (sign x)
    else if e =? 0 then
      let fr := fraction_bits a in
      let! exp := adds 32 (-262378) (casts 32 n) in
      from_sign_exp_signif (sign x) exp (xhi fr) (xlo fr)
    else
      let! h := addu 128 (xhi x) (shlc 128 n HI_FRACTION_BITS) in
      Some (u256 h (xlo x)).
Definition mul2 (x : f256) : option f256 := mul_pow2 x 1.

(** src/lib.rs:1217-1252 *)
Definition div_pow2 (x : f256) (n : Z) : option f256 :=
  let a := abs_bits x in
  if is_special_bits a then Some x
  else
    let e := exp_bits a in
    if e <? n then
      let! t := subu 32 n e in
      let! shr := addu 32 t (norm_bit a) in
      let! m := msb x in
      if m <? shr then pick ZERO NEG_ZERO (sign x)
      else
        let! s := rounding_div_pow2 (signif a) shr in
        if is_zero s then pick ZERO NEG_ZERO (sign x)
        else from_sign_exp_signif (sign x) (-262378) (xhi s) (xlo s)
    else
      let! h := subu 128 (xhi x) (shlc 128 n HI_FRACTION_BITS) in
      Some (u256 h (xlo x)).
Definition div2 (x : f256) : option f256 := div_pow2 x 1.

(** src/lib.rs:636-653; M / 2^250 approximates 180 / pi *)
Definition to_degrees (x : f256) : option f256 :=
  let M := u256 304636616676435425756912514760952666071
                69798147688063442975655060594812004816 in
  let! s := integral_significand x in
  let! exp := quantum_exponent x in
  let! (l, h) := wmul M s in
  let t := mk h l in
  let! m := msb s in
  let! sh := addu 32 m 256 in
  let! sh := subu 32 sh SIGNIFICAND_BITS in
  let! t := rounding_div_pow2 t sh in
  let! e := subs 32 exp 250 in
  let! e := adds 32 e (casts 32 sh) in
  encode (sign x) e (lo t).

(** src/lib.rs:658-675; M / 2^261 approximates pi / 180 *)
Definition to_radians (x : f256) : option f256 :=
  let M := u256 190049526055994088508387621895443694809
                953738875812114979603059177117484306 in
  let! s := integral_significand x in
  let! exp := quantum_exponent x in
  let! (l, h) := wmul M s in
  let t := mk h l in
  let! m := msb s in
  let! sh := addu 32 m 256 in
  let! sh := subu 32 sh SIGNIFICAND_BITS in
  let! t := rounding_div_pow2 t sh in
  let! e := subs 32 exp 261 in
  let! e := adds 32 e (casts 32 sh) in
  encode (sign x) e (lo t).

End F256.

(** * Log: model of src/math/fp509.rs (as far as the logarithms use it),
    src/math/feynman.rs and src/math/log.rs

    An [FP492] is a [U512] read as a two's complement number in units of 2^-492.  Methods that
    change [self] are functions returning the new value. *)

From Verif Require Import Base BigUInt F256 LogTable.

Notation FP492 := U512 (only parsing).

(** src/math/fp509.rs:22, 33-34 *)
Definition FP_HI_FRACTION_BITS : Z := 108.
Definition FP_FRACTION_BITS : Z := 492.
Definition FP_INT_BITS : Z := 19.

(** src/math/fp509.rs:45-48 *)
Definition fp_new (hh hl lh ll : Z) : FP492 := mk (u256 hh hl) (u256 lh ll).
Definition fp_of (t : Z * Z * Z * Z) : FP492 :=
  let '(hh, hl, lh, ll) := t in fp_new hh hl lh ll.

(** src/math/fp509.rs:35-37 *)
Definition FP_ZERO : FP492 := fp_new 0 0 0 0.
Definition FP_ONE : FP492 := fp_new (2 ^ 108) 0 0 0.

Section Log.
Context `{profile}.

(** src/math/fp509.rs:60-67 *)
Definition fp_signum (x : FP492) : Z :=
  let n := leading_zeros x in
  if n =? 0 then -1 else if n =? 512 then 0 else 1.

(** src/math/fp509.rs:74-77 *)
Definition fp_is_sign_negative (x : FP492) : bool := leading_zeros (hi (hi x)) =? 0.

(** src/math/fp509.rs:79-85 *)
Definition fp_invert (x : FP492) : FP492 :=
  fp_new (Z.lxor (val (hi (hi x))) (2 ^ 128 - 1)) (Z.lxor (val (lo (hi x))) (2 ^ 128 - 1))
         (Z.lxor (val (hi (lo x))) (2 ^ 128 - 1)) (Z.lxor (val (lo (lo x))) (2 ^ 128 - 1)).

(** src/math/fp509.rs:87-91 *)
Definition fp_ineg (x : FP492) : FP492 := fp_invert (decr x).

(** src/math/fp509.rs:93-98 *)
Definition fp_iabs (x : FP492) : FP492 := if fp_is_sign_negative x then fp_ineg x else x.

(** src/math/fp509.rs:123-147 *)
Definition fp_imul_round (x rhs : FP492) : option FP492 :=
  let! sg := muls 32 (fp_signum x) (fp_signum rhs) in
  let x := fp_iabs x in
  let rhs := fp_iabs rhs in
  let! (l, h) := wmul x rhs in
  let lhh := val (hi (hi l)) in
  let carry := shrc lhh (128 - 20) in
  let rem_hi := shlc 128 lhh 20 in
  let tie := 2 ^ 127 in
  let up := (tie <? rem_hi)
            || ((rem_hi =? tie) && (Z.land carry 1 =? 1)
                || negb (val (lo (hi l)) =? 0)
                || negb (is_zero (lo l))) in
  let! carry := addu 128 carry (b2z up) in
  let! h := ushl h 20 in
  let '(hl, ovl) := oadd (lo h) (u256 0 carry) in
  let r := mk (incr_if (hi h) ovl) hl in
  Some (if sg <? 0 then fp_ineg r else r).

(** src/math/fp509.rs:165-179: [From<i32>] *)
Definition fp_of_i32 (i : Z) : option FP492 :=
  let! _ := dassert (Z.abs i <? 2 ^ 19) in
  let t := fp_new (shlc 128 (Z.abs i) FP_HI_FRACTION_BITS) 0 0 0 in
  Some (if i <? 0 then fp_ineg t else t).

(** src/math/fp509.rs:301-315, the order *)
Definition fp_cmp (x y : FP492) : comparison :=
  ucmp (mk (u256 (Z.lxor (val (hi (hi x))) (2 ^ 127)) (val (lo (hi x)))) (lo x))
       (mk (u256 (Z.lxor (val (hi (hi y))) (2 ^ 127)) (val (lo (hi y)))) (lo y)).

(** src/math/fp509.rs:317-324: [+=] *)
Definition fp_add (x y : FP492) : FP492 :=
  let '(l, carry) := oadd (lo x) (lo y) in
  let '(h, _) := carrying_add (hi x) (hi y) carry in
  mk h l.

(** src/math/fp509.rs:252-283: [From<&FP492> for f256] *)
Definition f256_of_fp (x : FP492) : option f256 :=
  let s := shrc (castu 32 (fp_signum x)) 31 in
  let a := if s =? 0 then x else fp_ineg x in
  let n := leading_zeros a in
  let! e := subs 32 FP_INT_BITS (casts 32 n) in
  if n <=? 274 then
    let! k := subu 32 275 n in
    let! a := rounding_div_pow2 a k in
    let! sh := subu 32 EXP_BITS (leading_zeros (lo a)) in
    let! l := ushr (lo a) sh in
    let! e := adds 32 e (casts 32 sh) in
    new s e l
  else if n =? 275 then new s e (lo a)
  else if n <=? 511 then
    let! k := subu 32 n 275 in
    let! a := ushl a k in
    new s e (lo a)
  else Some ZERO.

(** src/math/feynman.rs:7897-7920, the loop over the rest of the table *)
Fixpoint feynman_loop (lut : list ((Z * Z * Z * Z) * (Z * Z * Z * Z))) (x p ln : FP492) : option FP492 :=
  match lut with
  | [] => Some ln
  | (f, l) :: rest =>
    let! t := fp_imul_round p (fp_of f) in
    match fp_cmp t x with
    | Lt => feynman_loop rest x t (fp_add ln (fp_of l))
    | Eq => Some (fp_add ln (fp_of l))
    | Gt => feynman_loop rest x p ln
    end
  end.
Definition feynman (x : FP492) : option FP492 :=
  if ueqb x FP_ONE then Some FP_ZERO else feynman_loop LUT x FP_ONE FP_ZERO.

(** src/math/log.rs:17-22, 37-42, 47-52 *)
Definition LN_2 : FP492 :=
  fp_new 0x00000b17217f7d1cf79abc9e3b39803f 0x2f6af40f343267298b62d8a0d175b8ba
         0xafa2be7b876206debac98559552fb4af 0xa1b10ed2eae35c138214427573b29117.
Definition LOG2_E : FP492 :=
  fp_new 0x0000171547652b82fe1777d0ffda0d23 0xa7d11d6aef551bad2b4b1164a2cd9a34
         0x2648fbc3887eeaa2ed9ac49b25eeb82d 0x7c167d52173cc1895213f897f5e06a7c.
Definition LOG10_E : FP492 :=
  fp_new 0x000006f2dec549b9438ca9aadd557d69 0x9ee191f71a30122e4d1011d1f96a27bc
         0x7529e3aa1277d0a0179f94911aac9632 0x3250a8c671decfe9c6e5e37d15c69646.

(** src/lib.rs:1372-1378 *)
Definition unbiased_exp (a : U256) : option Z :=
  let! _ := dassert (negb (is_zero a)) in
  let e := casts 32 (shrc (xhi a) HI_FRACTION_BITS) in
  let! e' := adds 32 e (b2z (e =? 0)) in
  subs 32 e' EXP_BIAS.

(** src/math/log.rs:54-69 *)
Definition ln_fp (x : f256) : option FP492 :=
  let! _ := dassert (negb (is_special x) && is_sign_positive x) in
  let! (m, sh) := norm_signif x in
  let! e := unbiased_exp x in
  let! e := subs 32 e (casts 32 sh) in
  let! ln_m := feynman (fp_new (xhi m) (xlo m) 0 0) in
  let! k := fp_of_i32 e in
  let! t := fp_imul_round LN_2 k in
  Some (fp_add t ln_m).

(** src/math/log.rs:81-88 *)
Definition f_ln (x : f256) : option f256 :=
  if is_special x || is_sign_negative x then Some NAN
  else let! t := ln_fp x in f256_of_fp t.

(** src/math/log.rs:96-106 *)
Definition f_log2 (x : f256) : option f256 :=
  if is_special x || is_sign_negative x then Some NAN
  else
    let! t := ln_fp x in
    let! t := fp_imul_round t LOG2_E in
    f256_of_fp t.

(** src/math/log.rs:108-118 *)
Definition f_log10 (x : f256) : option f256 :=
  if is_special x || is_sign_negative x then Some NAN
  else
    let! t := ln_fp x in
    let! t := fp_imul_round t LOG10_E in
    f256_of_fp t.

End Log.

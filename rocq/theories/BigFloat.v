(** * BigFloat: model of src/math/big_float.rs

    A [bigfloat] stands for signum * signif * 2^-254 * 2^exp.  Methods that change [self] are
    functions returning the new value. *)

From Verif Require Import Base BigUInt F256.

(** src/math/big_float.rs:80-90; [Eq] is derived *)
Record bigfloat := BF { bf_signum : Z; bf_exp : Z; bf_signif : U256 }.

(** src/math/big_float.rs:92-96 *)
Definition BF_FRACTION_BITS : Z := 254.
Definition SIGNIF_ONE : U256 := u256 (2 ^ 126) 0.
Definition BF_TIE : U256 := u256 (2 ^ 127) 0.

(** src/math/big_float.rs:97-127 *)
Definition BF_ZERO : bigfloat := BF 0 0 (u256 0 0).
Definition BF_ONE : bigfloat := BF 1 0 SIGNIF_ONE.
Definition BF_NEG_ONE : bigfloat := BF (-1) 0 SIGNIF_ONE.
Definition BF_TWO : bigfloat := BF 1 1 SIGNIF_ONE.
Definition BF_ONE_HALF : bigfloat := BF 1 (-1) SIGNIF_ONE.
Definition BF_EPSILON : bigfloat := BF 1 (-254) SIGNIF_ONE.

(** src/math/big_float.rs:128-247, the arguments of [new] *)
Definition BF_PI := (1, 1, (0x6487ed5110b4611a62633145c06e0e68, 0x948127044533e63a0105df531d89cd91)).
Definition BF_FRAC_PI_2 := (1, 0, (0x6487ed5110b4611a62633145c06e0e68, 0x948127044533e63a0105df531d89cd91)).
Definition BF_FRAC_PI_4 := (1, -1, (0x6487ed5110b4611a62633145c06e0e68, 0x948127044533e63a0105df531d89cd91)).
Definition BF_FRAC_3_PI_2 := (1, 2, (0x4b65f1fccc8748d3c9ca64f450528ace, 0x6f60dd4333e6ecab80c4677e56275a2d)).
Definition BF_TAU := (1, 2, (0x6487ed5110b4611a62633145c06e0e68, 0x948127044533e63a0105df531d89cd91)).
Definition BF_FRAC_3_PI_4 := (1, 1, (0x4b65f1fccc8748d3c9ca64f450528ace, 0x6f60dd4333e6ecab80c4677e56275a2d)).
Definition BF_FRAC_5_PI_4 := (1, 1, (0x7da9e8a554e17960fafbfd9730899202, 0xb9a170c55680dfc881475727e4ec40f5)).
Definition BF_FRAC_7_PI_4 := (1, 2, (0x57f6efa6ee9dd4f71616cb1d08604c9b, 0x81f10223bc8d6972c0e52368b9d893df)).
Definition BF_FRAC_9_PI_4 := (1, 2, (0x7118eafb32caed3daeaf976e787bd035, 0xa7114be4cdda630141269b3d813b0743)).
Definition BF_SQRT_PI := (1, 0, (0x716fe246d3bdaa9e70ec1483576e4e0f, 0xf8e48551bd8ec94b728402f4fa851d1c)).
Definition BF_SQRT_2 := (1, 0, (0x5a827999fcef32422cbec4d9baa55f4f, 0x8eb7b05d449dd426768bd642c199cc8b)).
Definition BF_FRAC_1_SQRT_2 := (1, -1, (0x5a827999fcef32422cbec4d9baa55f4f, 0x8eb7b05d449dd426768bd642c199cc8b)).

(** src/math/big_float.rs:331-333 *)
Definition bf_is_zero (x : bigfloat) : bool := bf_signum x =? 0.

(** src/math/big_float.rs:841-851 *)
Definition bf_neg (x : bigfloat) : bigfloat := BF (- bf_signum x) (bf_exp x) (bf_signif x).

(** src/math/big_float.rs:346-352 *)
Definition bf_abs (x : bigfloat) : bigfloat := BF (Z.abs (bf_signum x)) (bf_exp x) (bf_signif x).

Section BigFloat.
Context `{profile}.

(** The derived [==] *)
Definition bf_eqb (x y : bigfloat) : bool :=
  (bf_signum x =? bf_signum y) && (bf_exp x =? bf_exp y) && ueqb (bf_signif x) (bf_signif y).

(** src/math/big_float.rs:853-862: the order of tuples *)
Definition bf_cmp (x y : bigfloat) : comparison :=
  match bf_signum x ?= bf_signum y with
  | Eq => match bf_exp x ?= bf_exp y with Eq => ucmp (bf_signif x) (bf_signif y) | c => c end
  | c => c
  end.

(** src/math/big_float.rs:251-262 *)
Definition bf_new (a : Z * Z * (Z * Z)) : option bigfloat :=
  let '(s, e, (h, l)) := a in
  let! _ := dassert (leading_zeros (mk128 h) =? 1) in
  Some (BF s e (u256 h l)).

(** src/math/big_float.rs:264-294.  The array index [1, -1][s] panics for [s] above 1. *)
Definition bf_from_sign_exp_signif (s t : Z) (c : Z * Z) : option bigfloat :=
  let! _ := dassert ((s =? 0) || (s =? 1)) in
  let '(h, l) := c in
  if (h =? 0) && (l =? 0) then Some BF_ZERO
  else
    let lz := nlz 128 h in
    let! (sig, e) :=
      (if lz =? 0 then
         let! m := ushr (u256 h l) 1 in
         let! e := adds 32 t 1 in Some (m, e)
       else if lz =? 1 then Some (u256 h l, t)
       else if lz <=? 127 then
         let! sh := subu 32 lz 1 in
         let! m := ushl (u256 h l) sh in
         let! e := subs 32 t (casts 32 sh) in Some (m, e)
       else
         let! sh := addu 32 127 (nlz 128 l) in
         let! m := ushl (u256 h l) sh in
         let! e := subs 32 t (casts 32 sh) in Some (m, e)) in
    let! _ := dassert (leading_zeros (hi sig) =? 1) in
    let! sg := (if s =? 0 then Some 1 else if s =? 1 then Some (-1) else None) in
    let! e := adds 32 e BF_FRACTION_BITS in
    Some (BF sg e sig).

(** src/math/big_float.rs:298-319 *)
Definition bf_from_f256 (f : f256) : option bigfloat :=
  if eq_zero f then Some BF_ZERO
  else
    let a := abs_bits f in
    let! _ := dassert (xhi a <? HI_EXP_MASK) in
    let! _ := dassert (negb (is_zero a)) in
    let m := signif a in
    let! shl := subu 32 (leading_zeros m) (256 - BF_FRACTION_BITS - 1) in
    let! e := adds 32 (casts 32 (exp_bits a)) 1 in
    let! e := subs 32 e (casts 32 (norm_bit a)) in
    let! e := subs 32 e EXP_BIAS in
    let! e := subs 32 e (casts 32 shl) in
    let! e := adds 32 e (BF_FRACTION_BITS - FRACTION_BITS) in
    let! m := shift_left m shl in
    Some (BF (if sign f =? 0 then 1 else -1) e m).

(** src/math/big_float.rs:354-361 *)
Definition bf_trunc (x : bigfloat) : option bigfloat :=
  let! d := subs 32 BF_FRACTION_BITS (bf_exp x) in
  let sh := Z.max d 0 in
  let! t := ushr (bf_signif x) sh in
  let! t := ushl t sh in
  Some (BF (bf_signum x) (bf_exp x) t).

(** src/math/big_float.rs:25-35 *)
Definition bf_add_signifs (x y : U256) : option (U256 * Z) :=
  let! _ := dassert ((leading_zeros (hi x) =? 1) || (leading_zeros (hi y) =? 1)) in
  let! s := uadd x y in
  if leading_zeros (hi s) =? 0 then
    let! s := ushr s 1 in Some (s, 1)
  else Some (s, 0).

(** src/math/big_float.rs:37-44 *)
Definition bf_sub_signifs (x y : U256) : option (U256 * Z) :=
  let! _ := dassert (uge x y) in
  let! _ := dassert (leading_zeros (hi x) =? 1) in
  let! d := usub x y in
  let! shl := subu 32 (leading_zeros d) 1 in
  let! d := ushl d shl in
  Some (d, - casts 32 shl).

(** src/math/big_float.rs:46-54 *)
Definition bf_mul_signifs (x y : U256) : option (U512 * Z) :=
  let! _ := dassert (leading_zeros (hi x) =? 1) in
  let! _ := dassert (leading_zeros (hi y) =? 1) in
  let! (l, h) := wmul x y in
  let n := leading_zeros h in
  let! sh := subu 32 n 1 in
  let! r := ushl (mk h l) sh in
  Some (r, b2z (n =? 2)).

(** src/math/big_float.rs:56-77 *)
Definition bf_div_signifs (x y : U256) : option (U256 * Z) :=
  let! _ := dassert (leading_zeros (hi x) =? 1) in
  let! _ := dassert (leading_zeros (hi y) =? 1) in
  let exp_adj := b2z (ult x y) in
  let quot := u256 (shlc 128 (b2z (exp_adj =? 0)) 126) 0 in
  let! _ := dassert ((leading_zeros (hi quot) =? 1) || is_zero quot) in
  let! r := urem x y in
  let! xh := ushl (mk uzero r : U512) BF_FRACTION_BITS in
  let! (q, r) := div_rem_special xh y in
  let! _ := dassert (ueqb (hi q) uzero) in
  let! _ := dassert (2 <=? leading_zeros (lo q)) in
  let! quot := uadd quot (lo q) in
  let! half := ushr y 1 in
  let quot := incr_if quot (ugt r half) in
  let n := leading_zeros (hi quot) in
  let! sh := subu 32 n 1 in
  let! quot := ushl quot sh in
  Some (quot, exp_adj).

(** src/math/big_float.rs:363-394.  [rem_self] and [rem_other] are not used by the code. *)
Definition bf_add (x y : bigfloat) : option bigfloat :=
  let exp := Z.max (bf_exp x) (bf_exp y) in
  let! dx := subs 32 exp (bf_exp x) in
  if bf_is_zero x || (BF_FRACTION_BITS <? dx) then Some y
  else
    let! dy := subs 32 exp (bf_exp y) in
    if bf_is_zero y || (BF_FRACTION_BITS <? dy) then Some x
    else
      let! (mx, _) := (if castu 32 dx =? 0 then Some (bf_signif x, uzero) else widening_shr (bf_signif x) (castu 32 dx)) in
      let! (my, _) := (if castu 32 dy =? 0 then Some (bf_signif y, uzero) else widening_shr (bf_signif y) (castu 32 dy)) in
      let same := bf_signum x =? bf_signum y in
      let '(a, b, sg) := (if ult mx my then (my, mx, bf_signum y) else (mx, my, bf_signum x)) in
      let! (m, adj) := (if same then bf_add_signifs a b else bf_sub_signifs a b) in
      if is_zero m then Some (BF 0 0 m)
      else
        let! e := adds 32 exp adj in
        Some (BF sg e m).

(** src/math/big_float.rs:396-402 *)
Definition bf_sub (x y : bigfloat) : option bigfloat :=
  if bf_eqb x y then Some BF_ZERO else bf_add x (bf_neg y).

(** src/math/big_float.rs:404-420 *)
Definition bf_mul (x y : bigfloat) : option bigfloat :=
  let! sg := muls 32 (bf_signum x) (bf_signum y) in
  if sg =? 0 then Some BF_ZERO
  else
    let! (p, adj) := bf_mul_signifs (bf_signif x) (bf_signif y) in
    let rnd := ugt (lo p) BF_TIE || (ueqb (lo p) BF_TIE && is_odd (hi p)) in
    let h := incr_if (hi p) rnd in
    let! h := ushr h (b2z (leading_zeros (hi h) =? 0)) in
    let! t := adds 32 (bf_exp y) adj in
    let! e := adds 32 (bf_exp x) t in
    Some (BF sg e h).

(** src/math/big_float.rs:422-432 *)
Definition bf_div (x y : bigfloat) : option bigfloat :=
  let! _ := assert (negb (bf_is_zero y)) in
  if bf_signum x =? 0 then Some x
  else
    let! sg := muls 32 (bf_signum x) (bf_signum y) in
    let! (q, adj) := bf_div_signifs (bf_signif x) (bf_signif y) in
    let! t := adds 32 (bf_exp y) adj in
    let! e := subs 32 (bf_exp x) t in
    Some (BF sg e q).

(** src/math/big_float.rs:434-438 *)
Definition bf_recip (x : bigfloat) : option bigfloat := bf_div BF_ONE x.

(** src/math/big_float.rs:440-553 *)
Definition bf_mul_add (x f a : bigfloat) : option bigfloat :=
  if bf_is_zero x || bf_is_zero f then Some a
  else if bf_is_zero a then bf_mul x f
  else
    let! prod_exp := adds 32 (bf_exp x) (bf_exp f) in
    let! exp_diff := subs 32 prod_exp (bf_exp a) in
    if exp_diff <=? -254 - 2 then Some a
    else if 2 * 254 + 3 <=? exp_diff then bf_mul x f
    else
      let! prod_sign := muls 32 (bf_signum x) (bf_signum f) in
      let! (prod, adj) := bf_mul_signifs (bf_signif x) (bf_signif f) in
      let! prod_exp := adds 32 prod_exp adj in
      let! exp_diff := adds 32 exp_diff adj in
      let addend := mk (bf_signif a) uzero : U512 in
      let! (sg, x, e, y) :=
        (match exp_diff ?= 0 with
         | Eq => Some (if uge prod addend then (prod_sign, prod, prod_exp, addend)
                       else (bf_signum a, addend, bf_exp a, prod))
         | Gt =>
           let! (q, r) := widening_shr addend exp_diff in
           Some (prod_sign, prod, prod_exp,
                 mk (hi q) (mk (hi (lo q)) (mk128 (Z.lor (val (lo (lo q))) (b2z (negb (is_zero r)))))))
         | Lt =>
           let! (q, r) := widening_shr prod (- exp_diff) in
           Some (bf_signum a, addend, bf_exp a,
                 mk (hi q) (mk (hi (lo q)) (mk128 (Z.lor (val (lo (lo q))) (b2z (negb (is_zero r)))))))
         end) in
      if prod_sign =? bf_signum a then
        let! x := uadd x y in
        let shr := b2z (leading_zeros x =? 0) in
        let! e := adds 32 e shr in
        let rnd := Z.land (val (lo (hi x))) shr =? 1 in
        let! h := ushr (hi x) shr in
        let l := lo x in
        let rnd := rnd && (negb (is_zero l) || (is_zero l && is_odd h)) in
        let rnd := rnd || (ugt l BF_TIE || (ueqb l BF_TIE && is_odd h)) in
        let h := incr_if h rnd in
        let shr := b2z (leading_zeros h =? 0) in
        let! e := adds 32 e shr in
        let! h := ushr h shr in
        Some (BF sg e h)
      else
        let! x := usub x y in
        let! shl := subu 32 (leading_zeros x) 1 in
        let! e := subs 32 e (casts 32 shl) in
        if shl <=? 256 then
          let! n := subu 32 256 shl in
          let! x := rounding_div_pow2 x n in
          Some (BF sg e (lo x))
        else if shl <=? 510 then
          let! m := ushl (lo x) (shl - 256) in
          Some (BF sg e m)
        else Some BF_ZERO.

(** src/math/big_float.rs:564-581 *)
Definition bf_sum_exact (x y : bigfloat) : option (bigfloat * bigfloat) :=
  let! s := bf_add x y in
  let! d := bf_sub s y in
  let! t1 := bf_sub x d in
  let! sd := bf_sub s d in
  let! t2 := bf_sub y sd in
  let! r := bf_add t1 t2 in
  Some (s, r).
Definition bf_mul_exact (x y : bigfloat) : option (bigfloat * bigfloat) :=
  let! p := bf_mul x y in
  let! r := bf_mul_add x y (bf_neg p) in
  Some (p, r).

(** src/math/big_float.rs:603-617; [n] is the number of iterations left *)
Fixpoint bf_sqrt_loop (n : nat) (q : U256) (r : U512) (s : U256) : option (U256 * U512) :=
  match n with
  | O => Some (q, r)
  | S n =>
    if is_zero r then Some (q, r)
    else
      let! s := ushr s 1 in
      let! t := ushl r 1 in
      let! q2 := ushl (mk uzero q : U512) 1 in
      let! u := uadd q2 (mk uzero s) in
      if ult t u then bf_sqrt_loop n q t s
      else
        let! q := uadd q s in
        let! r := usub t u in
        bf_sqrt_loop n q r s
  end.

(** src/math/big_float.rs:590-623; the division of the even i32 by 2 is exact *)
Definition bf_sqrt (x : bigfloat) : option bigfloat :=
  let! _ := dassert (0 <=? bf_signum x) in
  if bf_signum x =? 0 then Some x
  else
    let odd := (bf_exp x) mod 2 in
    let! e := subs 32 (bf_exp x) odd in
    let e := e / 2 in
    let! q := ushl SIGNIF_ONE 1 in
    let! r := ushl (mk uzero (bf_signif x) : U512) (1 + odd) in
    let! r := usub r (mk uzero q) in
    let! (q, r) := bf_sqrt_loop 255 q r q in
    let bits := Z.land (xlo q) 3 in
    let q := incr_if q ((bits =? 3) || (bits =? 1) && negb (is_zero r)) in
    let! q := ushr q 1 in
    bf_new (1, e, (xhi q, xlo q)).

(** src/math/big_float.rs:646-681; [saturating_add_signed] on u32 with results from 0 to 2^19 *)
Definition f256_of_bf (x : bigfloat) : option f256 :=
  if bf_is_zero x then Some ZERO
  else
    let prec_adj := BF_FRACTION_BITS - FRACTION_BITS in
    let! b :=
      (if bf_exp x <=? EMIN - SIGNIFICAND_BITS then Some uzero
       else if bf_exp x <=? EMIN - 1 then
         let! d := subs 32 EMIN (bf_exp x) in
         rounding_div_pow2 (bf_signif x) (prec_adj + d)
       else if bf_exp x <=? EMAX then
         let! (b, rem) := widening_shr (bf_signif x) prec_adj in
         let! d := subs 32 (bf_exp x) 1 in
         let eb := shlc 128 (EXP_BIAS + d) HI_FRACTION_BITS in
         let! h := addu 128 (xhi b) eb in
         let b := u256 h (xlo b) in
         Some (if ugt rem BF_TIE || (ueqb rem BF_TIE && is_odd (lo b)) then incr b else b)
       else Some INFINITY) in
    Some (u256 (Z.lor (xhi b) (shlc 128 (b2z (bf_signum x <? 0)) HI_SIGN_SHIFT)) (xlo b)).

End BigFloat.

(** * BigUInt: model of src/big_uint (U128, UInt<_>, U256, U512, U1024)

    The Rust trait [BigUInt + HiLo] becomes the type class [ops]; the generic
    struct [UInt<SubUInt>] becomes the record [uint T] with an instance
    [uint_ops] built from the instance of [T].  Methods which may panic return
    [option]. *)

From Verif Require Import Base.

Set Primitive Projections.
Set Implicit Arguments.

(** src/big_uint/mod.rs:27-39 (HiLo), 41-45 (DivRem), 47-234 (required items of
    BigUInt).  [uhi x], [ulo x] are [x.hi()], [x.lo()];
    [lolo a b] is [from_hi_lo(a.lo_t(), b.lo_t())] (the only way [from_hi_lo]
    is used generically).  [of_u128 x] is [From<&u128>], [as_vec] is
    [as_vec_u128], [of_vec] is [From<&[u128]>]. *)
Class ops (T : Type) := Ops {
  BITS : Z;
  uzero : T;
  uone : T;
  utwo : T;
  umax : T;
  ueqb : T -> T -> bool;
  ucmp : T -> T -> comparison;
  is_even : T -> bool;
  is_odd : T -> bool;
  leading_zeros : T -> Z;
  trailing_zeros : T -> Z;
  incr : T -> T;
  decr : T -> T;
  oadd : T -> T -> T * bool;
  wadd : T -> T -> T;
  osub : T -> T -> T * bool;
  wsub : T -> T -> T;
  omul : T -> T -> option (T * bool);
  wmul : T -> T -> option (T * T);
  uadd : T -> T -> option T;
  usub : T -> T -> option T;
  umul : T -> T -> option T;
  ushl : T -> Z -> option T;
  ushr : T -> Z -> option T;
  uand : T -> T -> T;
  uor : T -> T -> T;
  div_rem : T -> T -> option (T * T);
  of_u128 : Z -> T;
  uhi : T -> T;
  ulo : T -> T;
  lolo : T -> T -> T;
  as_vec : T -> list Z;
  of_vec : list Z -> option T
}.

Section Defaults.
Context `{profile} {T : Type} {OT : ops T}.

(** src/big_uint/mod.rs:93-95 *)
Definition is_zero (x : T) : bool := ueqb x uzero.

Definition ult (x y : T) : bool := is_lt (ucmp x y).
Definition ugt (x y : T) : bool := is_gt (ucmp x y).
Definition ule (x y : T) : bool := is_le (ucmp x y).
Definition uge (x y : T) : bool := is_ge (ucmp x y).

(** src/big_uint/mod.rs:113-116 *)
Definition msb (x : T) : option Z :=
  let! _ := dassert (negb (is_zero x)) in
  let! t := subu 32 BITS (leading_zeros x) in
  subu 32 t 1.

(** src/big_uint/mod.rs:123-125 *)
Definition incr_if (x : T) (cond : bool) : T := wadd x (of_u128 (b2z cond)).

(** src/big_uint/mod.rs:133-135 *)
Definition decr_if (x : T) (cond : bool) : T := wsub x (of_u128 (b2z cond)).

(** src/big_uint/mod.rs:143-147 *)
Definition carrying_add (x y : T) (carry : bool) : T * bool :=
  let '(t, o1) := oadd x y in
  let '(t, o2) := oadd t (of_u128 (b2z carry)) in
  (t, o1 || o2).

(** src/big_uint/mod.rs:159-163 *)
Definition borrowing_sub (x y : T) (borrow : bool) : T * bool :=
  let '(t, o1) := osub x y in
  let '(t, o2) := osub t (of_u128 (b2z borrow)) in
  (t, o1 || o2).

(** src/big_uint/mod.rs:177-182 *)
Definition carrying_mul (x y carry : T) : option (T * T) :=
  let! (rl, rh) := wmul x y in
  let '(rl, ovfl) := oadd rl carry in
  Some (rl, incr_if rh ovfl).

(** src/big_uint/mod.rs:185-187 *)
Definition truncating_mul (x y : T) : option T :=
  let! (_, h) := wmul x y in Some h.

(** src/big_uint/mod.rs:190-192 *)
Definition wrapping_mul (x y : T) : option T :=
  let! (l, _) := wmul x y in Some l.

(** src/big_uint/mod.rs:204-210 *)
Definition widening_shl (x : T) (shift : Z) : option (T * T) :=
  let! _ := dassert (shift <? BITS) in
  if shift =? 0 then Some (x, uzero)
  else
    let! l := ushl x shift in
    let! s := subu 32 BITS shift in
    let! h := ushr x s in
    Some (l, h).

(** src/big_uint/mod.rs:213-217.  The second [debug_assert!] evaluates
    [ONE << shift]. *)
Definition carrying_shl (x : T) (shift : Z) (carry : T) : option (T * T) :=
  let! _ := dassert (shift <? BITS) in
  let! _ := (if debug then
               let! t := ushl uone shift in dassert (ult carry t)
             else Some tt) in
  let! l := ushl x shift in
  let! s := subu 32 BITS shift in
  let! h := ushr x s in
  Some (uor l carry, h).

(** src/big_uint/mod.rs:220-226 *)
Definition widening_shr (x : T) (shift : Z) : option (T * T) :=
  let! _ := dassert (shift <? BITS) in
  if shift =? 0 then Some (x, uzero)
  else
    let! h := ushr x shift in
    let! s := subu 32 BITS shift in
    let! l := ushl x s in
    Some (h, l).

(** src/big_uint/mod.rs:229-233 *)
Definition carrying_shr (x : T) (shift : Z) (carry : T) : option (T * T) :=
  let! _ := dassert (shift <? BITS) in
  let! _ := (if debug then
               let! t := ushl carry shift in dassert (is_zero t)
             else Some tt) in
  let! h := ushr x shift in
  let! s := subu 32 BITS shift in
  let! l := ushl x s in
  Some (uor carry h, l).

(** The [/] and [%] operators are the components of [div_rem]:
    src/big_uint/uint_generic/binops/divrem.rs:154-164, 190-200; for U128 they
    are those of u128 (uint128.rs:221, 226), which agree. *)
Definition udiv (x y : T) : option T := let! (q, _) := div_rem x y in Some q.
Definition urem (x y : T) : option T := let! (_, r) := div_rem x y in Some r.

End Defaults.

(** ** U128 *)

(** src/big_uint/uint128.rs:32, the newtype [U128(u128)] *)
Record U128 := mk128 { val : Z }.

(** src/big_uint/uint128.rs:21-29 *)
Definition u128_hi (u : Z) : Z := u / 2 ^ 64.
Definition u128_lo (u : Z) : Z := u mod 2 ^ 64.

Section U128.
Context `{profile}.

(** src/big_uint/uint128.rs:143-157 *)
Definition u128_wmul (x y : Z) : option (Z * Z) :=
  let xh := u128_hi x in
  let xl := u128_lo x in
  let yh := u128_hi y in
  let yl := u128_lo y in
  let! rl := mulu 128 xl yl in
  let! t1 := mulu 128 xl yh in
  let! t2 := mulu 128 xh yl in
  let! rh := mulu 128 xh yh in
  let carry := 2 ^ 128 <=? t1 + t2 in
  let t1 := (t1 + t2) mod 2 ^ 128 in
  let! c := shlu 128 (b2z carry) 64 in
  let! c := addu 128 c (u128_hi t1) in
  let! rh := addu 128 rh c in
  let! s := shlu 128 (u128_lo t1) 64 in
  let carry := 2 ^ 128 <=? rl + s in
  let rl := (rl + s) mod 2 ^ 128 in
  let! rh := addu 128 rh (b2z carry) in
  Some (rl, rh).

Definition map128 (o : option Z) : option U128 := let! x := o in Some (mk128 x).

(** src/big_uint/uint128.rs:42-305; the operators +, -, *, /, <<, >> are those
    of the primitive type u128 (lines 182-264). *)
Instance U128_ops : ops U128 := {
  BITS := 128;
  uzero := mk128 0;
  uone := mk128 1;
  utwo := mk128 2;
  umax := mk128 (2 ^ 128 - 1);
  ueqb x y := val x =? val y;
  ucmp x y := val x ?= val y;
  is_even x := Z.land (val x) 1 =? 0;
  is_odd x := Z.land (val x) 1 =? 1;
  leading_zeros x := nlz 128 (val x);
  trailing_zeros x := ntz 128 (val x);
  incr x := mk128 ((val x + 1) mod 2 ^ 128);
  decr x := mk128 ((val x - 1) mod 2 ^ 128);
  oadd x y := (mk128 ((val x + val y) mod 2 ^ 128), 2 ^ 128 <=? val x + val y);
  wadd x y := mk128 ((val x + val y) mod 2 ^ 128);
  osub x y := (mk128 ((val x - val y) mod 2 ^ 128), val x <? val y);
  wsub x y := mk128 ((val x - val y) mod 2 ^ 128);
  omul x y := Some (mk128 ((val x * val y) mod 2 ^ 128), 2 ^ 128 <=? val x * val y);
  wmul x y := let! (l, h) := u128_wmul (val x) (val y) in Some (mk128 l, mk128 h);
  uadd x y := map128 (addu 128 (val x) (val y));
  usub x y := map128 (subu 128 (val x) (val y));
  umul x y := map128 (mulu 128 (val x) (val y));
  ushl x n := map128 (shlu 128 (val x) n);
  ushr x n := map128 (shru 128 (val x) n);
  uand x y := mk128 (Z.land (val x) (val y));
  uor x y := mk128 (Z.lor (val x) (val y));
  div_rem x y := let! q := divu (val x) (val y) in
                 let! r := remu (val x) (val y) in
                 Some (mk128 q, mk128 r);
  of_u128 v := mk128 v;
  uhi x := mk128 (u128_hi (val x));
  ulo x := mk128 (u128_lo (val x));
  lolo a b := mk128 (Z.lor (u128_lo (val a) * 2 ^ 64) (u128_lo (val b)));
  as_vec x := [val x];
  of_vec l := match l with [v] => Some (mk128 v) | _ => None end
}.

(** src/big_uint/uint128.rs:159-166 *)
Definition u128_rounding_div (x y : U128) : option U128 :=
  let! (quot, rem) := div_rem x y in
  let! tie := shru 128 (val y) 1 in
  Some (if (tie <? val rem)
           || ((val rem =? tie) && (Z.land (val quot) 1 =? 1))
        then incr quot else quot).

(** src/big_uint/uint128.rs:168-175 *)
Definition u128_rounding_div_pow2 (x : U128) (n : Z) : option U128 :=
  let! (quot, rem) := widening_shr x n in
  let tie := 2 ^ 127 in
  Some (if (tie <? val rem)
           || ((val rem =? tie) && (Z.land (val quot) 1 =? 1))
        then incr quot else quot).

(** src/big_uint/uint128.rs:177-179 *)
Definition u128_rem_pow2 (x : U128) (n : Z) : option U128 :=
  let! t := ushl x n in ushr t n.

End U128.
#[global] Existing Instance U128_ops.

(** ** UInt<SubUInt> *)

(** src/big_uint/uint_generic/mod.rs:18-25 *)
Record uint (T : Type) := mk { hi : T; lo : T }.
Arguments mk {T} hi lo.

Section UInt.
Context `{profile} {T : Type} {OT : ops T}.

(** src/big_uint/mod.rs:85 *)
Definition uint_bits : Z := 2 * BITS.

(** src/big_uint/uint_generic/mod.rs:147-162 *)
Definition uint_zero : uint T := mk uzero uzero.
Definition uint_one : uint T := mk uzero uone.
Definition uint_two : uint T := mk uzero utwo.
Definition uint_max : uint T := mk umax umax.

(** derived PartialEq / Ord on the struct (field order hi, lo):
    src/big_uint/uint_generic/mod.rs:18 *)
Definition uint_eqb (x y : uint T) : bool := ueqb (hi x) (hi y) && ueqb (lo x) (lo y).
Definition uint_cmp (x y : uint T) : comparison :=
  match ucmp (hi x) (hi y) with
  | Eq => ucmp (lo x) (lo y)
  | c => c
  end.

(** src/big_uint/uint_generic/mod.rs:165-172 *)
Definition uint_is_even (x : uint T) : bool := is_even (lo x).
Definition uint_is_odd (x : uint T) : bool := is_odd (lo x).

(** src/big_uint/uint_generic/mod.rs:176-186; the u32 sums are bounded by
    BITS + BITS and are not checked for overflow here. *)
Definition uint_leading_zeros (x : uint T) : Z :=
  leading_zeros (hi x) + b2z (is_zero (hi x)) * leading_zeros (lo x).
Definition uint_trailing_zeros (x : uint T) : Z :=
  trailing_zeros (lo x) + b2z (is_zero (lo x)) * trailing_zeros (hi x).

(** src/big_uint/uint_generic/mod.rs:189-192 *)
Definition uint_incr (x : uint T) : uint T :=
  let l := wadd (lo x) uone in
  mk (incr_if (hi x) (is_zero l)) l.

(** src/big_uint/uint_generic/mod.rs:196-199 *)
Definition uint_decr (x : uint T) : uint T :=
  mk (decr_if (hi x) (is_zero (lo x))) (wsub (lo x) uone).

(** src/big_uint/uint_generic/mod.rs:203-207 *)
Definition uint_oadd (x y : uint T) : uint T * bool :=
  let '(l, carry) := oadd (lo x) (lo y) in
  let '(h, carry) := carrying_add (hi x) (hi y) carry in
  (mk h l, carry).

(** src/big_uint/uint_generic/mod.rs:211-216 *)
Definition uint_wadd (x y : uint T) : uint T :=
  let '(l, carry) := oadd (lo x) (lo y) in
  let h := wadd (hi x) (hi y) in
  mk (incr_if h carry) l.

(** src/big_uint/uint_generic/mod.rs:220-224 *)
Definition uint_osub (x y : uint T) : uint T * bool :=
  let '(l, borrow) := osub (lo x) (lo y) in
  let '(h, borrow) := borrowing_sub (hi x) (hi y) borrow in
  (mk h l, borrow).

(** src/big_uint/uint_generic/mod.rs:228-233 *)
Definition uint_wsub (x y : uint T) : uint T :=
  let '(l, borrow) := osub (lo x) (lo y) in
  let h := wsub (hi x) (hi y) in
  mk (decr_if h borrow) l.

(** src/big_uint/uint_generic/mod.rs:237-245 *)
Definition uint_omul (x y : uint T) : option (uint T * bool) :=
  let! (l, carry) := wmul (lo x) (lo y) in
  let! (h, o1) := carrying_mul (lo x) (hi y) carry in
  let! (h, o2) := carrying_mul (hi x) (lo y) h in
  let ovl := negb (is_zero o1 && is_zero o2
                   && (is_zero (hi x) || is_zero (hi y))) in
  Some (mk h l, ovl).

(** src/big_uint/uint_generic/mod.rs:247-257 *)
Definition uint_wmul (x y : uint T) : option (uint T * uint T) :=
  let! (ll, carry) := wmul (lo x) (lo y) in
  let! (lh, hl) := carrying_mul (lo x) (hi y) carry in
  let! (lh, carry) := carrying_mul (hi x) (lo y) lh in
  let '(hl, ovfl) := oadd hl carry in
  let! (hl, hh) := carrying_mul (hi x) (hi y) hl in
  let hh := incr_if hh ovfl in
  Some (mk lh ll, mk hh hl).

(** src/big_uint/uint_generic/binops/add.rs:44-48 *)
Definition uint_add (x y : uint T) : option (uint T) :=
  let '(s, carry) := uint_oadd x y in
  let! _ := assert (negb carry) in
  Some s.

(** src/big_uint/uint_generic/binops/sub.rs:50-54 *)
Definition uint_sub (x y : uint T) : option (uint T) :=
  let '(d, borrow) := uint_osub x y in
  let! _ := assert (negb borrow) in
  Some d.

(** src/big_uint/uint_generic/binops/mul.rs:50-66 *)
Definition uint_mul (x y : uint T) : option (uint T) :=
  let! _ := assert (ueqb (hi x) uzero || ueqb (hi y) uzero) in
  let! (l, h) := wmul (lo x) (lo y) in
  let! (t, ovfl) := omul (lo x) (hi y) in
  let! _ := assert (negb ovfl) in
  let '(h, ovfl) := oadd h t in
  let! _ := assert (negb ovfl) in
  let! (t, ovfl) := omul (hi x) (lo y) in
  let! _ := assert (negb ovfl) in
  let '(h, ovfl) := oadd h t in
  let! _ := assert (negb ovfl) in
  Some (mk h l).

(** src/big_uint/uint_generic/binops/shl.rs:26-43 *)
Definition uint_shl (x : uint T) (shift : Z) : option (uint T) :=
  let! _ := dassert (shift <? uint_bits) in
  if (0 <? shift) && (shift <? BITS) then
    let! (l, carry) := widening_shl (lo x) shift in
    let! (h, _) := carrying_shl (hi x) shift carry in
    Some (mk h l)
  else if shift =? BITS then Some (mk (lo x) uzero)
  else if BITS <? shift then
    let! h := ushl (lo x) (shift - BITS) in
    Some (mk h uzero)
  else Some x.

(** src/big_uint/uint_generic/binops/shr.rs:27-44 *)
Definition uint_shr (x : uint T) (shift : Z) : option (uint T) :=
  let! _ := dassert (shift <? uint_bits) in
  if (0 <? shift) && (shift <? BITS) then
    let! (h, carry) := widening_shr (hi x) shift in
    let! (l, _) := carrying_shr (lo x) shift carry in
    Some (mk h l)
  else if shift =? BITS then Some (mk uzero (hi x))
  else if BITS <? shift then
    let! l := ushr (hi x) (shift - BITS) in
    Some (mk uzero l)
  else Some x.

(** src/big_uint/uint_generic/binops/bitand.rs:28-33, bitor.rs:27-32 *)
Definition uint_and (x y : uint T) : uint T := mk (uand (hi x) (hi y)) (uand (lo x) (lo y)).
Definition uint_or (x y : uint T) : uint T := mk (uor (hi x) (hi y)) (uor (lo x) (lo y)).

(** The quotient-digit correction loop,
    src/big_uint/uint_generic/mod.rs:101-107 (and 124-130).  [fuel] bounds the
    number of iterations; running out of it would be [None] (it never does:
    [BigUIntProofs.special_loop_ok]). *)
Fixpoint special_loop (fuel : nat) (q rhat y1 y0 two_pow_n xd : T) : option (T * T) :=
  match fuel with
  | O => None
  | S fuel =>
    let! cond :=
      (if uge q two_pow_n then Some true
       else
         let! a := umul q y0 in
         let! b := umul rhat two_pow_n in
         let! b := uadd b xd in
         Some (ugt a b)) in
    if cond then
      let q := decr q in
      let! rhat := uadd rhat y1 in
      if uge rhat two_pow_n then Some (q, rhat)
      else special_loop fuel q rhat y1 y0 two_pow_n xd
    else Some (q, rhat)
  end.

(** src/big_uint/uint_generic/mod.rs:78-138 (Knuth's algorithm D, two half-width
    digits).  [BITS / 2] is even in all instances. *)
Definition div_rem_special (x : uint T) (rhs : T) : option (uint T * T) :=
  let! _ := dassert (ult (hi x) rhs) in
  let n := BITS / 2 in
  let! two_pow_n := ushl uone n in
  let shift := leading_zeros rhs in
  let! xs := uint_shl x shift in
  let x32 := hi xs in
  let x1 := uhi (lo xs) in
  let x0 := ulo (lo xs) in
  let! y := ushl rhs shift in
  let y1 := uhi y in
  let y0 := ulo y in
  let! (q1, rhat) := div_rem x32 y1 in
  let! (q1, rhat) := special_loop 4 q1 rhat y1 y0 two_pow_n x1 in
  let t := lolo x32 x1 in
  let! m := wrapping_mul q1 y in
  let t := wsub t m in
  let! (q0, rhat) := div_rem t y1 in
  let! (q0, rhat) := special_loop 4 q0 rhat y1 y0 two_pow_n x0 in
  let! q := ushl q1 n in
  let! q := uadd q q0 in
  let r := lolo t x0 in
  let! m := wrapping_mul q0 y in
  let r := wsub r m in
  let! r := ushr r shift in
  Some (mk uzero q, r).

(** src/big_uint/uint_generic/binops/divrem.rs:70-84: division by the half-width
    type *)
Definition div_rem_sub (x : uint T) (rhs : T) : option (uint T * T) :=
  if is_zero (hi x) then
    let! (quot, rem) := div_rem (lo x) rhs in
    Some (mk uzero quot, rem)
  else if ult (hi x) rhs then div_rem_special x rhs
  else
    let! h := urem (hi x) rhs in
    let! (quot, rem) := div_rem_special (mk h (lo x)) rhs in
    let! (qh, _) := div_rem (hi x) rhs in
    Some (mk qh (lo quot), rem).

(** src/big_uint/uint_generic/binops/divrem.rs:105-151: division of two values
    of the same width.  The function is recursive; [fuel] bounds the depth of
    the recursion and running out of it is [None]. *)
Fixpoint uint_div_rem_fuel (fuel : nat) (x rhs : uint T) : option (uint T * uint T) :=
  match fuel with
  | O => None
  | S fuel =>
    let! _ := dassert (negb (uint_eqb rhs uint_zero)) in
    if is_zero (hi rhs) then
      let! (quot, rem) := div_rem_sub x (lo rhs) in
      Some (quot, mk uzero rem)
    else if ugt (hi rhs) (hi x) then Some (uint_zero, x)
    else
      let nlz := leading_zeros (hi x) in
      let! xs := uint_shl x nlz in
      let! ys := uint_shl rhs nlz in
      let! q := udiv (hi xs) (hi ys) in
      let quot := mk uzero q in
      let! t := uint_mul rhs quot in
      match uint_cmp t x with
      | Gt =>
        let! d := uint_sub t x in
        let! (n, _) := uint_div_rem_fuel fuel d rhs in
        let n := uint_incr n in
        let! _ := dassert (is_zero (hi n)) in
        let! quot := uint_sub quot n in
        let! d := uint_mul rhs n in
        let! t := uint_sub t d in
        let! rem := uint_sub x t in
        Some (quot, rem)
      | Lt =>
        let '(u, ovl) := uint_oadd t rhs in
        if ovl then
          let! d := uint_sub x t in
          let! (n, _) := uint_div_rem_fuel fuel d rhs in
          let! _ := dassert (is_zero (hi n)) in
          let! quot := uint_add quot n in
          let! d := uint_mul rhs n in
          let! t := uint_add t d in
          let! rem := uint_sub x t in
          Some (quot, rem)
        else
          let! rem := uint_sub x t in
          Some (quot, rem)
      | Eq => Some (quot, uint_zero)
      end
  end.
Definition uint_div_rem (x rhs : uint T) : option (uint T * uint T) :=
  uint_div_rem_fuel 64 x rhs.

(** src/big_uint/uint_generic/mod.rs:326-336 *)
Definition uint_of_u128 (v : Z) : uint T := mk uzero (of_u128 v).

(** src/big_uint/uint_generic/mod.rs:50-61 *)
Definition uint_hi (x : uint T) : uint T := mk uzero (hi x).
Definition uint_lo (x : uint T) : uint T := mk uzero (lo x).
Definition uint_lolo (a b : uint T) : uint T := mk (lo a) (lo b).
Definition uint_as_vec (x : uint T) : list Z := as_vec (hi x) ++ as_vec (lo x).

(** src/big_uint/uint_generic/mod.rs:343-349 *)
Definition uint_of_vec (l : list Z) : option (uint T) :=
  let n := Nat.div2 (length l) in
  let! h := of_vec (firstn n l) in
  let! l := of_vec (skipn n l) in
  Some (mk h l).

Instance uint_ops : ops (uint T) := {
  BITS := uint_bits;
  uzero := uint_zero;
  uone := uint_one;
  utwo := uint_two;
  umax := uint_max;
  ueqb := uint_eqb;
  ucmp := uint_cmp;
  is_even := uint_is_even;
  is_odd := uint_is_odd;
  leading_zeros := uint_leading_zeros;
  trailing_zeros := uint_trailing_zeros;
  incr := uint_incr;
  decr := uint_decr;
  oadd := uint_oadd;
  wadd := uint_wadd;
  osub := uint_osub;
  wsub := uint_wsub;
  omul := uint_omul;
  wmul := uint_wmul;
  uadd := uint_add;
  usub := uint_sub;
  umul := uint_mul;
  ushl := uint_shl;
  ushr := uint_shr;
  uand := uint_and;
  uor := uint_or;
  div_rem := uint_div_rem;
  of_u128 := uint_of_u128;
  uhi := uint_hi;
  ulo := uint_lo;
  lolo := uint_lolo;
  as_vec := uint_as_vec;
  of_vec := uint_of_vec
}.

(** src/big_uint/uint_generic/mod.rs:260-267 *)
Definition rounding_div (x rhs : uint T) : option (uint T) :=
  let! (quot, rem) := uint_div_rem x rhs in
  let! tie := uint_shr rhs 1 in
  Some (if ugt rem tie || (ueqb rem tie && is_odd (lo quot))
        then uint_incr quot else quot).

(** src/big_uint/uint_generic/mod.rs:270-280 *)
Definition rounding_div_pow2 (x : uint T) (n : Z) : option (uint T) :=
  let! s := subu 32 (@BITS T OT) 1 in
  let! h := ushl uone s in
  let tie := mk h uzero in
  let! (quot, rem) := widening_shr x n in
  Some (if ugt rem tie || (ueqb rem tie && is_odd (lo quot))
        then uint_incr quot else quot).

(** src/big_uint/uint_generic/mod.rs:283-299 *)
Definition rem_pow2 (x : uint T) (n : Z) : option (uint T) :=
  if n =? 0 then Some uint_zero
  else if n <? @BITS T OT then
    let sh := @BITS T OT - n in
    let! t := ushl (lo x) sh in
    let! t := ushr t sh in
    Some (mk uzero t)
  else if n =? @BITS T OT then Some (mk uzero (lo x))
  else if n <? uint_bits then
    let sh := uint_bits - n in
    let! t := ushl (hi x) sh in
    let! t := ushr t sh in
    Some (mk t (lo x))
  else Some x.

End UInt.
#[global] Existing Instance uint_ops.

(** src/big_uint/uint_generic/mod.rs:393, 458, 471 *)
Definition U256 := uint U128.
Definition U512 := uint U256.
Definition U1024 := uint U512.

Section DivU128.
Context `{profile} {T : Type} {OT : ops T}.

(** The loop of src/big_uint/uint_generic/binops/divrem.rs:42-47 *)
Fixpoint div_chunks (rem rhs : U128) (l : list Z) : option (list Z * U128) :=
  match l with
  | [] => Some ([], rem)
  | c :: l =>
    let! (t, rem) := div_rem_sub (mk rem (mk128 c)) rhs in
    let! _ := dassert (is_zero (hi t)) in
    let! (l, rem) := div_chunks rem rhs l in
    Some (val (lo t) :: l, rem)
  end.

(** src/big_uint/uint_generic/binops/divrem.rs:37-49: division by a u128 *)
Definition div_rem_u128 (x : uint T) (rhs : Z) : option (uint T * Z) :=
  match as_vec x with
  | [] => None
  | c :: l =>
    let! r := remu c rhs in
    let! q := divu c rhs in
    let! (l, rem) := div_chunks (mk128 r) (mk128 rhs) l in
    let! x := uint_of_vec (q :: l) in
    Some (x, val rem)
  end.

End DivU128.

Section U256.
Context `{profile}.

(** src/big_uint/uint_generic/mod.rs:401-406 *)
Definition u256 (h l : Z) : U256 := mk (mk128 h) (mk128 l).

(** src/big_uint/uint_generic/mod.rs:410-412 *)
Definition u256_is_zero (x : U256) : bool := (val (hi x) =? 0) && (val (lo x) =? 0).

(** src/big_uint/uint_generic/mod.rs:414-436 *)
Definition shift_left (x : U256) (shift : Z) : option U256 :=
  let! _ := dassert (shift <? 256) in
  if (1 <=? shift) && (shift <=? 127) then
    let! l := shlu 128 (val (lo x)) shift in
    let! carry := shru 128 (val (lo x)) (128 - shift) in
    let! h := shlu 128 (val (hi x)) shift in
    Some (u256 (Z.lor h carry) l)
  else if shift =? 128 then Some (u256 (val (lo x)) 0)
  else if (129 <=? shift) && (shift <=? 255) then
    let! h := shlu 128 (val (lo x)) (shift - 128) in
    Some (u256 h 0)
  else Some x.

(** src/big_uint/uint_generic/mod.rs:448-456: division of a U256 by a u64 *)
Definition div_rem_u64 (x : U256) (rhs : Z) : option (U256 * Z) :=
  let! (qh, rem) := div_rem (hi x) (mk128 rhs) in
  let! (t, rem) := div_rem_u128 (mk rem (lo x)) rhs in
  let! _ := dassert (is_zero (hi t)) in
  Some (mk qh (lo t), castu 64 rem).

(** src/big_uint/mod.rs:237-258 *)
Definition imul10_add (x : U256) (d : Z) : option U256 :=
  let! _ := dassert (ule x (u256 34028236692093846346337460743176821145
                              204169420152563078078024764459060926873)) in
  let! _ := dassert (d <? 10) in
  let ll := u128_lo (val (lo x)) in
  let lh := u128_hi (val (lo x)) in
  let hl := u128_lo (val (hi x)) in
  let hh := u128_hi (val (hi x)) in
  let! t := mulu 128 ll 10 in
  let! t := addu 128 t d in
  let l := u128_lo t in
  let! t' := mulu 128 lh 10 in
  let! t := addu 128 t' (u128_hi t) in
  let! s := shlu 128 t 64 in
  let! l := addu 128 l s in
  let! t' := mulu 128 hl 10 in
  let! t := addu 128 t' (u128_hi t) in
  let h := u128_lo t in
  let! t' := mulu 128 hh 10 in
  let! t := addu 128 t' (u128_hi t) in
  let! s := shlu 128 t 64 in
  let! h := addu 128 h s in
  Some (u256 h l).

(** The loop of src/big_uint/mod.rs:278-281 *)
Fixpoint div_pow10_chunks (k : nat) (q : U512) (allzero : bool) : option (U512 * bool) :=
  match k with
  | O => Some (q, allzero)
  | S k =>
    let! (q, r) := div_rem_u128 q (10 ^ 38) in
    div_pow10_chunks k q (allzero && (r =? 0))
  end.

(** src/big_uint/mod.rs:262-290 *)
Definition rounding_div_pow10 (x : U512) (n : Z) : option U512 :=
  let! _ := dassert (negb (n =? 0)) in
  if n <=? 38 then
    let d := 10 ^ n in
    let! (q, r) := div_rem_u128 x d in
    let tie := d / 2 in
    Some (if (tie <? r) || ((r =? tie) && is_odd q) then incr q else q)
  else
    let n_chunks := (n - 1) / 38 in
    let! (q, allzero) := div_pow10_chunks (Z.to_nat n_chunks) x true in
    let d := 10 ^ (n - n_chunks * 38) in
    let! (q, r) := div_rem_u128 q d in
    let tie := d / 2 in
    Some (if (tie <? r) || ((r =? tie) && (is_odd q || negb allzero)) then incr q else q).

End U256.

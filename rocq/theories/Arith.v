(** * Arith: model of src/binops/{add,mul,div,rem}.rs, src/fused_ops/{fma,sos}.rs,
    src/math/sqrt.rs and the functions of src/lib.rs built from them *)

From Verif Require Import Base BigUInt F256.

Section Arith.
Context `{profile}.

Definition or_hi (x : U256) (m : Z) : U256 := u256 (Z.lor (xhi x) m) (xlo x).

(** ** Addition and subtraction (src/binops/add.rs) *)

(** The operation selected by add.rs:82-86: [true] is [Add], [false] is [Sub];
    both are the panicking operators of UInt. *)
Definition op_add_sub (is_add : bool) (a b : U256) : option U256 :=
  if is_add then uadd a b else usub a b.

(** The common tail of [add_or_sub_normals_exact], src/binops/add.rs:159-162 *)
Definition exact_tail (e : Z) (z : U256) : option U256 :=
  let h := Z.land (xhi z) HI_FRACTION_MASK in
  Some (u256 (Z.lor h (shlc 128 e HI_FRACTION_BITS)) (xlo z)).

(** src/binops/add.rs:129-163 *)
Definition add_or_sub_normals_exact (e : Z) (sx sy : U256) (op : bool) : option U256 :=
  let! _ := dassert (0 <? e) in
  let! _ := dassert (uge sx sy) in
  let! z := op_add_sub op sx sy in
  if shlc 128 HI_FRACTION_BIAS 1 <=? xhi z then
    let! e := addu 32 e 1 in
    if EXP_MAX <=? e then Some (u256 INF_HI 0)
    else
      let l2bits := castu 32 (Z.land (xlo z) 3) in
      let! z := ushr z 1 in
      exact_tail e (incr_if z (l2bits =? 3))
  else if xhi z <? HI_FRACTION_BIAS then
    let! m := msb z in
    let! d := subu 32 FRACTION_BITS m in
    let adj := Z.min d e in
    let! e := subu 32 e adj in
    let! s := subu 32 adj (b2z (e =? 0)) in
    let! z := ushl z s in
    exact_tail e z
  else exact_tail e z.

(** The common tail of [add_or_sub_rounded], src/binops/add.rs:225-239 *)
Definition rounded_tail (e : Z) (z : U256) : option U256 :=
  let l3bits := castu 32 (Z.land (xlo z) 7) in
  let! z := ushr z 3 in
  let h := Z.land (xhi z) HI_FRACTION_MASK in
  let z := u256 (Z.lor h (shlc 128 e HI_FRACTION_BITS)) (xlo z) in
  Some (if (4 <? l3bits) || ((l3bits =? 4) && is_odd (lo z)) then incr z else z).

(** src/binops/add.rs:166-240 *)
Definition add_or_sub_rounded (ex ey : Z) (sx sy : U256) (op : bool) : option U256 :=
  let! _ := dassert (0 <? ex) in
  let! _ := dassert ((ey <? ex) || ((ex =? ey) && ugt sx sy)) in
  let! sx := ushl sx 3 in
  let! sy := ushl sy 3 in
  let! d := subu 32 ex ey in
  let! d := subu 32 d (b2z (ey =? 0)) in
  let adj := Z.min d (SIGNIFICAND_BITS + 2) in
  let! sticky_bit :=
    (if adj <=? 3 then Some 0
     else if SIGNIFICAND_BITS + 3 <=? adj then Some 1
     else
       let! s := subu 32 256 adj in
       let! t := ushl sy s in
       Some (b2z (negb (is_zero t)))) in
  let! sy := ushr sy adj in
  let sy := u256 (xhi sy) (Z.lor (xlo sy) sticky_bit) in
  let! z := op_add_sub op sx sy in
  if shlc 128 HI_FRACTION_BIAS 4 <=? xhi z then
    let! e := addu 32 ex 1 in
    if EXP_MAX <=? e then Some (u256 INF_HI 0)
    else
      let sticky_bit := Z.lor sticky_bit (Z.land (xlo z) 1) in
      let! z := ushr z 1 in
      rounded_tail e (u256 (xhi z) (Z.lor (xlo z) sticky_bit))
  else if xhi z <? shlc 128 HI_FRACTION_BIAS 3 then
    let! m := msb z in
    let! d := subu 32 (FRACTION_BITS + 3) m in
    let adj := Z.min d ex in
    let! e := subu 32 ex adj in
    let! s := subu 32 adj (b2z (e =? 0)) in
    let! z := ushl z s in
    rounded_tail e z
  else rounded_tail ex z.

(** src/binops/add.rs:23-112 *)
Definition add (x y : f256) : option f256 :=
  let ax := abs_bits x in
  let ay := abs_bits y in
  let sgx := sign_bits_hi x in
  let sgy := sign_bits_hi y in
  let tx := abs_bits_sticky ax in
  let ty := abs_bits_sticky ay in
  if any_special2 tx ty then
    let mx := Z.max tx ty in
    if mx =? 0 then Some (u256 (Z.land sgx sgy) 0)
    else if (HI_EXP_MASK <? mx)
            || ((tx =? INF_HI) && (ty =? INF_HI) && negb (sgx =? sgy)) then Some NAN
    else Some (if ty <? tx then x else y)
  else if ueqb ax ay && negb (sgx =? sgy) then Some ZERO
  else
    let '(ax, ay, sgx, sgy) :=
      if ult ax ay then (ay, ax, sgy, sgx) else (ax, ay, sgx, sgy) in
    let ex := exp_bits ax in
    let sx := signif ax in
    let ey := exp_bits ay in
    let sy := signif ay in
    let op := sgx =? sgy in
    let! z :=
      (if norm_bit ax =? 0 then op_add_sub op sx sy
       else if ex =? ey then add_or_sub_normals_exact ex sx sy op
       else add_or_sub_rounded ex ey sx sy op) in
    Some (or_hi z sgx).

(** src/binops/add.rs:255-262 *)
Definition sub (x y : f256) : option f256 := add x (negated y).

(** ** Multiplication (src/binops/mul.rs) *)

(** src/binops/mul.rs:25-37 *)
Definition mul_signifs (x y : U256) : option (U256 * Z * Z) :=
  let! _ := dassert (HI_SIGN_MASK <=? xhi x) in
  let! _ := dassert (HI_SIGN_MASK <=? xhi y) in
  let! (l, h) := wmul x y in
  let carry := b2z (HI_SIGN_MASK <=? xhi h) in
  let! shift := addu 32 (EXP_BITS - 1) carry in
  let! r := rem_pow2 h shift in
  let rem := xlo r in
  let! s2 := subu 32 shift 2 in
  let! s1 := subu 32 shift 1 in
  let! t := shru 128 rem s2 in
  let! tie := shlu 128 1 s1 in
  let rnd_bits := Z.lor (Z.lor (castu 32 t) (b2z (tie <? rem))) (b2z (negb (is_zero l))) in
  let! h := ushr h shift in
  Some (h, carry, rnd_bits).

(** The adjustment of the rounding bits before shifting a subnormal result,
    src/binops/mul.rs:81-105, which is textually the same as
    src/binops/div.rs:104-128. *)
Definition adjust_rnd_bits (signif_z : U256) (rnd_bits shift : Z) : option Z :=
  let nz := b2z (negb (rnd_bits =? 0)) in
  if shift =? 1 then
    Some (Z.lor (shlc 32 (castu 32 (Z.land (xlo signif_z) 1)) 1) nz)
  else if shift =? 2 then
    Some (Z.lor (castu 32 (Z.land (xlo signif_z) 3)) nz)
  else if (3 <=? shift) && (shift <=? 127) then
    let! r := rem_pow2 signif_z shift in
    let rem := xlo r in
    let! s2 := subu 32 shift 2 in
    let! s1 := subu 32 shift 1 in
    let! t := shru 128 rem s2 in
    let! tie := shlu 128 1 s1 in
    Some (Z.lor (Z.lor (castu 32 t) (b2z (tie <? rem))) nz)
  else
    let! rem := rem_pow2 signif_z shift in
    let! s2 := subu 32 shift 2 in
    let! s1 := subu 32 shift 1 in
    let! t := ushr rem s2 in
    let! tie := ushl uint_one s1 in
    Some (Z.lor (Z.lor (castu 32 (xlo t)) (b2z (ugt rem tie))) nz).

(** src/binops/mul.rs:39-115 *)
Definition mul_abs_finite (ax ay : U256) : option (U256 * Z) :=
  let ex := casts 32 (exp_bits ax) in
  let nx := casts 32 (norm_bit ax) in
  let! (sx, shx) := left_adj_signif ax in
  let ey := casts 32 (exp_bits ay) in
  let ny := casts 32 (norm_bit ay) in
  let! (sy, shy) := left_adj_signif ay in
  let! (zc, rnd_bits) := mul_signifs sx sy in
  let '(signif_z, carry) := zc in
  let! t1 := subs 32 ex nx in
  let! t2 := subs 32 ey ny in
  let! t := adds 32 t1 t2 in
  let! sh := addu 32 shx shy in
  let! t := subs 32 t (casts 32 sh) in
  let! t := adds 32 t (EMIN + 2 * EXP_BITS) in
  let! ez := adds 32 t (casts 32 carry) in
  if EXP_MAX - 1 <=? ez then Some (u256 INF_HI 0, 0)
  else
    let assemble (z : U256) (e rnd : Z) :=
      let! h := addu 128 (xhi z) (shlc 128 (castu 128 e) HI_FRACTION_BITS) in
      Some (u256 h (xlo z), rnd) in
    if ez <? 0 then
      let shift := - ez in
      if SIGNIFICAND_BITS + 1 <? shift then Some (u256 0 0, 0)
      else
        let! rnd_bits := adjust_rnd_bits signif_z rnd_bits shift in
        let! signif_z := ushr signif_z shift in
        assemble signif_z 0 rnd_bits
    else assemble signif_z ez rnd_bits.

(** Final rounding, src/binops/mul.rs:158-161, src/binops/div.rs:144-147 *)
Definition round2 (z : U256) (rnd_bits : Z) : U256 :=
  if (2 <? rnd_bits) || ((rnd_bits =? 2) && is_odd (lo z)) then incr z else z.

(** src/binops/mul.rs:117-163 *)
Definition mul (x y : f256) : option f256 :=
  let sgz := Z.land (Z.lxor (xhi x) (xhi y)) HI_SIGN_MASK in
  let ax := abs_bits x in
  let ay := abs_bits y in
  let tx := abs_bits_sticky ax in
  let ty := abs_bits_sticky ay in
  if any_special2 tx ty then
    let mx := Z.max tx ty in
    let mn := Z.min tx ty in
    if (mn =? 0) && (mx <? INF_HI) then Some (u256 sgz 0)
    else if (mn =? 0) && (mx =? INF_HI) then Some NAN
    else if INF_HI <? mx then Some NAN
    else Some (u256 (Z.lor sgz INF_HI) 0)
  else
    let! (z, rnd_bits) := mul_abs_finite ax ay in
    Some (round2 (or_hi z sgz) rnd_bits).

(** ** Division (src/binops/div.rs) *)

(** src/binops/div.rs:24-35 *)
Definition div_signifs (x y : U256) : option (U256 * Z) :=
  let! _ := dassert (leading_zeros (hi x) =? EXP_BITS) in
  let! _ := dassert (leading_zeros (hi y) =? EXP_BITS) in
  let t : U512 := mk uint_zero x in
  let! s := addu 32 SIGNIFICAND_BITS (b2z (ult x y)) in
  let! t := ushl t s in
  let! (q, r) := div_rem_sub t y in
  let c := Z.lor (shlc 32 (castu 32 (Z.land (xlo (lo q)) 1)) 1) (b2z (negb (is_zero r))) in
  let! q := ushr q 1 in
  let! _ := dassert (is_zero (hi q)) in
  Some (lo q, c).

(** src/binops/div.rs:41-149 *)
Definition div (x y : f256) : option f256 :=
  let sgz := Z.land (Z.lxor (xhi x) (xhi y)) HI_SIGN_MASK in
  let ax := abs_bits x in
  let ay := abs_bits y in
  let tx := abs_bits_sticky ax in
  let ty := abs_bits_sticky ay in
  if any_special2 tx ty then
    let mx := Z.max tx ty in
    if (HI_EXP_MASK <? mx) || (tx =? ty) then Some NAN
    else if tx <? ty then Some (u256 sgz 0)
    else Some (u256 (Z.lor sgz INF_HI) 0)
  else
    let ex := casts 32 (exp_bits ax) in
    let nx := casts 32 (norm_bit ax) in
    let! (sx, shx) := norm_signif ax in
    let ey := casts 32 (exp_bits ay) in
    let ny := casts 32 (norm_bit ay) in
    let! (sy, shy) := norm_signif ay in
    let! t1 := subs 32 ex nx in
    let! t2 := subs 32 ey ny in
    let! t := subs 32 t1 t2 in
    let! sh := subs 32 (casts 32 shx) (casts 32 shy) in
    let! t := subs 32 t sh in
    let! t := adds 32 t (- EMIN - 1) in
    let! ez := adds 32 t (b2z (uge sx sy)) in
    if EXP_MAX - 1 <=? ez then Some (u256 (Z.lor sgz INF_HI) 0)
    else
      let! (signif_z, rnd_bits) := div_signifs sx sy in
      let assemble (z : U256) (e rnd : Z) :=
        let! h := addu 128 (xhi z) (shlc 128 (castu 128 e) HI_FRACTION_BITS) in
        Some (round2 (or_hi (u256 h (xlo z)) sgz) rnd) in
      if ez <? 0 then
        let shift := - ez in
        if SIGNIFICAND_BITS + 1 <? shift then Some (u256 sgz 0)
        else
          let! rnd_bits := adjust_rnd_bits signif_z rnd_bits shift in
          let! signif_z := ushr signif_z shift in
          assemble signif_z 0 rnd_bits
      else assemble signif_z ez rnd_bits.

(** src/lib.rs:626-628 *)
Definition recip (x : f256) : option f256 := div ONE x.

(** ** Remainder (src/binops/rem.rs) *)

(** src/binops/rem.rs:73-79; [n] is the number of iterations *)
Fixpoint rem_loop (n : nat) (z y : U256) : option U256 :=
  match n with
  | O => Some z
  | S n =>
    let t : U512 := mk z uint_zero in
    let! (_, z) := div_rem_sub t y in
    if is_zero z then Some z else rem_loop n z y
  end.

(** src/binops/rem.rs:24-96 *)
Definition rem (x y : f256) : option f256 :=
  let ax := abs_bits x in
  let ay := abs_bits y in
  let tx := abs_bits_sticky ax in
  let ty := abs_bits_sticky ay in
  if any_special2 tx ty then
    let mx := Z.max tx ty in
    if (HI_EXP_MASK <? mx) || (ty =? 0) || (tx =? HI_EXP_MASK) then Some NAN
    else Some x
  else if ult ax ay then Some x
  else
    let ex := exp_bits ax in
    let nx := norm_bit ax in
    let sx := signif ax in
    let ey := exp_bits ay in
    let ny := norm_bit ay in
    let sy := signif ay in
    if ueqb sx sy then Some ZERO
    else
      let! t1 := addu 32 ex ny in
      let! t1 := subu 32 t1 ey in
      let! n_bits := subu 32 t1 nx in
      let sh := n_bits mod 256 in
      let t : U512 := mk uint_zero sx in
      let! t := ushl t sh in
      let! (_, z) := div_rem_sub t sy in
      let! z := rem_loop (Z.to_nat (n_bits / 2 ^ 8)) z sy in
      if is_zero z then Some ZERO
      else
        let! m := msb z in
        let! d := subu 32 FRACTION_BITS m in
        let shift_z := Z.min d (Z.max 0 (ey - 1)) in
        let! z := ushl z shift_z in
        let! t := subu 32 ey shift_z in
        let e1 := Z.max 0 (t - 1) in
        let! h := addu 128 (xhi z) (shlc 128 e1 HI_FRACTION_BITS) in
        Some (u256 (Z.lor (sign_bits_hi x) h) (xlo z)).

(** ** Square root (src/math/sqrt.rs) *)

(** src/math/sqrt.rs:61-74; [n] is the number of iterations left *)
Fixpoint sqrt_loop (n : nat) (q r s : U256) : option (U256 * U256) :=
  match n with
  | O => Some (q, r)
  | S n =>
    if is_zero r then Some (q, r)
    else
      let! s := ushr s 1 in
      let! t := ushl r 1 in
      let! q2 := ushl q 1 in
      let! u := uadd q2 s in
      if ult t u then sqrt_loop n q t s
      else
        let! q := uadd q s in
        let! r := usub t u in
        sqrt_loop n q r s
  end.

(** src/math/sqrt.rs:34-80; the division of the even i32 [exp - exp_is_odd] by 2
    truncates, which is exact here *)
Definition sqrt (x : f256) : option f256 :=
  if ugt x NEG_ZERO then Some NAN
  else if is_special_bits x then Some x
  else
    let biased_exp := exp_bits x in
    let hidden_bit := b2z (negb (biased_exp =? 0)) in
    let norm_shift := Z.max 0 (leading_zeros x - EXP_BITS) in
    let! e := adds 32 (casts 32 biased_exp) EMIN in
    let! e := subs 32 e hidden_bit in
    let! e := subs 32 e (casts 32 norm_shift) in
    let exp_is_odd := e mod 2 in
    let! e := subs 32 e exp_is_odd in
    let e := Z.quot e 2 in
    let! s := ushl (fraction_bits x) norm_shift in
    let s := or_hi s (shlc 128 hidden_bit HI_FRACTION_BITS) in
    let q := u256 (shlc 128 HI_FRACTION_BIAS 1) 0 in
    let! k := addu 32 1 exp_is_odd in
    let! r := ushl s k in
    let! r := usub r q in
    let! (q, r) := sqrt_loop 237 q r q in
    let rnd_bits := castu 32 (Z.land (xlo q) 3) in
    let q := incr_if q ((rnd_bits =? 3) || ((rnd_bits =? 1) && negb (is_zero r))) in
    let! q := ushr q 1 in
    new 0 e q.

(** ** Fused multiply-add (src/fused_ops/fma.rs) *)

(** src/fused_ops/fma.rs:27-31 *)
Record u768 := mk768 { h768 : U256; m768 : U256; l768 : U256 }.

(** src/fused_ops/fma.rs:49-72; [shr] is below 768 at every call *)
Definition from_u256_shifted (u : U256) (shr : Z) : option u768 :=
  let! _ := dassert (shr <? 768) in
  if shr =? 0 then Some (mk768 u uint_zero uint_zero)
  else if shr <=? 255 then
    let! a := ushr u shr in
    let! b := ushl u (256 - shr) in
    Some (mk768 a b uint_zero)
  else if shr =? 256 then Some (mk768 uint_zero u uint_zero)
  else if shr <=? 511 then
    let! a := ushr u (shr - 256) in
    let! b := ushl u (512 - shr) in
    Some (mk768 uint_zero a b)
  else if shr =? 512 then Some (mk768 uint_zero uint_zero u)
  else if shr <=? 768 then
    let shr := shr - 512 in
    let! t := ushl u (256 - shr) in
    let sticky := b2z (negb (is_zero t)) in
    let! l := ushr u shr in
    Some (mk768 uint_zero uint_zero (u256 (xhi l) (Z.lor (xlo l) sticky)))
  else None.

(** src/fused_ops/fma.rs:83-95 *)
Definition iadd768 (a b : u768) : u768 :=
  let '(l, c) := oadd (l768 a) (l768 b) in
  let '(m, c) := carrying_add (m768 a) (m768 b) c in
  let '(h, _) := carrying_add (h768 a) (h768 b) c in
  mk768 h m l.
Definition isub768 (a b : u768) : u768 :=
  let '(l, c) := osub (l768 a) (l768 b) in
  let '(m, c) := borrowing_sub (m768 a) (m768 b) c in
  let '(h, _) := borrowing_sub (h768 a) (h768 b) c in
  mk768 h m l.

(** src/fused_ops/fma.rs:97-103 *)
Definition lz768 (a : u768) : Z :=
  let hz := is_zero (h768 a) in
  let hmz := hz && is_zero (m768 a) in
  leading_zeros (h768 a) + b2z hz * leading_zeros (m768 a) + b2z hmz * leading_zeros (l768 a).

(** derived Ord of u768, src/fused_ops/fma.rs:26 *)
Definition ge768 (a b : u768) : bool :=
  match ucmp (h768 a) (h768 b) with
  | Lt => false | Gt => true
  | Eq => match ucmp (m768 a) (m768 b) with
          | Lt => false | Gt => true
          | Eq => uge (l768 a) (l768 b)
          end
  end.

(** src/fused_ops/fma.rs:122-158 *)
Definition shl768 (a : u768) (rhs : Z) : option u768 :=
  let! _ := assert (rhs <? 768) in
  if rhs =? 0 then Some a
  else if rhs <=? 255 then
    let! (l, c) := widening_shl (l768 a) rhs in
    let! (m, c) := carrying_shl (m768 a) rhs c in
    let! (h, _) := carrying_shl (h768 a) rhs c in
    Some (mk768 h m l)
  else if rhs =? 256 then Some (mk768 (m768 a) (l768 a) uint_zero)
  else if rhs <=? 511 then
    let rhs := rhs - 256 in
    let! (t, c) := widening_shl (l768 a) rhs in
    let! (h, _) := carrying_shl (m768 a) rhs c in
    Some (mk768 h t uint_zero)
  else if rhs =? 512 then Some (mk768 (l768 a) uint_zero uint_zero)
  else
    let! h := ushl (l768 a) (rhs - 512) in
    Some (mk768 h uint_zero uint_zero).

(** src/fused_ops/fma.rs:308-316: the constants of the case distinction *)
Definition ADDEND_TOO_SMALL : Z := -473.
Definition ADDEND_ANCHORED : Z := 239.
Definition REL_OFFSET : Z := 274.

(** src/fused_ops/fma.rs:263-395: all operands finite and non-zero *)
Definition fma_finite (ax ay aa : U256) (sgp sga : Z) : option f256 :=
  let ex := casts 32 (exp_bits ax) in
  let nx := casts 32 (norm_bit ax) in
  let sx := signif ax in
  let ey := casts 32 (exp_bits ay) in
  let ny := casts 32 (norm_bit ay) in
  let sy := signif ay in
  let ea := casts 32 (exp_bits aa) in
  let na := casts 32 (norm_bit aa) in
  let sa := signif aa in
  let! sy4 := ushl sy 2 in
  let! (l, h) := wmul sx sy4 in
  let p := mk768 uint_zero h l in
  let! t1 := subs 32 ex nx in
  let! t2 := subs 32 ey ny in
  let! t := adds 32 t1 t2 in
  let! ep := adds 32 t EMIN in
  let! t := subs 32 ea na in
  let! d := subs 32 t ep in
  let! (zt, sgz) :=
    (if d <=? ADDEND_TOO_SMALL then
       Some ((p, mk768 uint_zero uint_zero uint_one), sgp)
     else if d <=? -1 then
       let! a := from_u256_shifted sa (REL_OFFSET - d) in
       Some ((p, a), sgp)
     else if d <=? 1 then
       let! a := from_u256_shifted sa (REL_OFFSET - d) in
       Some (if ge768 p a then ((p, a), sgp) else ((a, p), sga))
     else if d <=? ADDEND_ANCHORED then
       let! a := from_u256_shifted sa (REL_OFFSET - d) in
       Some ((a, p), sga)
     else
       let! a := from_u256_shifted sa 0 in
       Some ((a, p), sga)) in
  let '(z, t) := zt in
  let z := if sgp =? sga then iadd768 z t else isub768 z t in
  let nlz := lz768 z in
  if nlz =? 768 then Some ZERO
  else
    let finish (e1 shl : Z) :=
      let! z := shl768 z shl in
      let! _ := dassert (EXP_BITS <=? leading_zeros (h768 z)) in
      let! (hb, c) := widening_shr (hi (m768 z)) 125 in
      let rnd_bits := Z.lor (castu 32 (val hb))
        (b2z (negb (val c =? 0) || negb (val (lo (m768 z)) =? 0) || negb (is_zero (l768 z)))) in
      let! bh := addu 128 (xhi (h768 z)) (shlc 128 (castu 128 e1) HI_FRACTION_BITS) in
      let bz := u256 bh (xlo (h768 z)) in
      let bz := if (4 <? rnd_bits) || ((rnd_bits =? 4) && is_odd (lo bz)) then incr bz else bz in
      Some (or_hi bz sgz) in
    if d <=? ADDEND_ANCHORED then
      let! n := subu 32 nlz EXP_BITS in
      let! carry := subs 32 REL_OFFSET (casts 32 n) in
      let! t := adds 32 ep carry in
      let! t := adds 32 t 1 in
      if EXP_MAX <=? t then Some (u256 (Z.lor sgz INF_HI) 0)
      else if 1 <=? t then finish (t - 1) n
      else finish 0 REL_OFFSET
    else
      let! e1 := subs 32 ea 1 in
      finish e1 0.

(** src/fused_ops/fma.rs:165-261; [f256::mul_add] (src/lib.rs:1178-1180) *)
Definition fma (x y a : f256) : option f256 :=
  let sgp := Z.land (Z.lxor (xhi x) (xhi y)) HI_SIGN_MASK in
  let sga := sign_bits_hi a in
  let ax := abs_bits x in
  let tx := abs_bits_sticky ax in
  let ay := abs_bits y in
  let ty := abs_bits_sticky ay in
  let aa := abs_bits a in
  let ta := abs_bits_sticky aa in
  let mx := Z.max tx ty in
  let mn := Z.min tx ty in
  let general :=
    let! _ := assert (negb (any_special3 tx ty ta)) in
    fma_finite ax ay aa sgp sga in
  if any_special3 tx ty ta then
    if (INF_HI <? mx) || (INF_HI <? ta) then Some NAN
    else if (ta =? 0) && (mn =? 0) && (mx <? INF_HI) then Some (u256 (Z.land sgp sga) 0)
    else if (ta =? 0) && (mn =? 0) && (mx =? INF_HI) then Some NAN
    else if (ta =? 0) && (mx <? INF_HI) then
      let! (z, rnd_bits) := mul_abs_finite ax ay in
      Some (round2 (or_hi z sgp) rnd_bits)
    else if ta =? INF_HI then
      if mx =? INF_HI then
        if mn =? 0 then Some NAN
        else if sgp =? sga then Some a else Some NAN
      else Some a
    else if (mn =? 0) && (mx <? INF_HI) then Some a
    else if (mn =? 0) && (mx =? INF_HI) then Some NAN
    else if mx =? INF_HI then Some (u256 (Z.lor sgp INF_HI) 0)
    else general
  else general.

(** ** Sum of squares (src/fused_ops/sos.rs) *)

(** src/lib.rs:1196-1198 *)
Definition square (x : f256) : option f256 := mul x x.

(** i32::clamp *)
Definition iclamp (x a b : Z) : Z := if x <? a then a else if b <? x then b else x.

(** src/fused_ops/sos.rs:22-129 *)
Definition sos (x y : f256) : option f256 :=
  let ax := abs_bits x in
  let ay := abs_bits y in
  let tx := abs_bits_sticky ax in
  let ty := abs_bits_sticky ay in
  if any_non_normal2 tx ty then
    let mx := Z.max tx ty in
    if mx <=? HI_FRACTION_MASK then Some ZERO
    else if HI_EXP_MASK <? mx then Some NAN
    else if tx <=? HI_FRACTION_MASK then square y
    else if ty <=? HI_FRACTION_MASK then square x
    else Some INFINITY
  else
    let '(ax, ay) := if ult ax ay then (ay, ax) else (ax, ay) in
    let ex := casts 32 (exp_bits ax) in
    let nx := casts 32 (norm_bit ax) in
    let sx := signif ax in
    let ey := casts 32 (exp_bits ay) in
    let ny := casts 32 (norm_bit ay) in
    let sy := signif ay in
    let! sx := ushl sx 10 in
    let! (l, h) := wmul sx sx in
    let z : U512 := mk h l in
    let! (l, h) := wmul sy sy in
    let y2 : U512 := mk h l in
    let! t1 := subs 32 ex nx in
    let! t1 := muls 32 2 t1 in
    let! t2 := subs 32 ey ny in
    let! t2 := muls 32 2 t2 in
    let! d := subs 32 t1 t2 in
    let d := castu 32 d in
    let! y2 :=
      (if d <=? 19 then ushl y2 (20 - d)
       else if d =? 20 then Some y2
       else if d <=? 494 then
         let! (q, t) := widening_shr y2 (d - 20) in
         Some (mk (hi q) (u256 (xhi (lo q)) (Z.lor (xlo (lo q)) (b2z (negb (is_zero t))))))
       else Some uint_one) in
    let! z := uadd z y2 in
    let nlz := casts 32 (leading_zeros z) in
    let! ez := adds 32 t1 EMIN in
    let shr := Z.max (- ez) (EXP_BITS - nlz) in
    let shl := iclamp (Z.max (ez - EXP_MAX) (nlz - EXP_BITS)) 0 236 in
    let! z := ushr z (iclamp shr 0 511) in
    let! z := ushl z shl in
    let! e := subs 32 shr shl in
    let! e := adds 32 e (b2z (HI_FRACTION_MASK <? xhi (hi z))) in
    let! ez := adds 32 ez e in
    if EXP_MAX <=? ez then Some INFINITY
    else
      let e1 := iclamp (ez - 1) 0 EXP_MAX in
      let rnd_bits := Z.lor (Z.lor (castu 32 (shrc (xhi (lo z)) 125))
                                   (b2z (negb (shlc 128 (xhi (lo z)) 3 =? 0))))
                            (b2z (negb (xlo (lo z) =? 0))) in
      let! bh := addu 128 (xhi (hi z)) (shlc 128 e1 HI_FRACTION_BITS) in
      let bz := u256 bh (xlo (hi z)) in
      Some (if (4 <? rnd_bits) || ((rnd_bits =? 4) && is_odd (lo bz)) then incr bz else bz).

(** src/lib.rs:1178-1208 *)
Definition mul_add (x f a : f256) : option f256 := fma x f a.
Definition sum_of_squares (x other : f256) : option f256 := sos x other.
Definition square_add (x a : f256) : option f256 := fma x x a.

(** src/lib.rs:967-983 *)
Definition fract (x : f256) : option f256 :=
  let! t := trunc x in sub x t.
Definition split (x : f256) : option (f256 * f256) :=
  let! t := trunc x in
  let! f := sub x t in
  Some (t, f).

(** src/lib.rs:1440-1463 *)
Definition fast_sum (a b : f256) : option (f256 * f256) :=
  let! _ := dassert (f_ge (abs a) (abs b)) in
  let! s := add a b in
  let! t := sub s a in
  let! r := sub b t in
  Some (s, r).
Definition sum (a b : f256) : option (f256 * f256) :=
  let! s := add a b in
  let! t := sub s b in
  let! ta := sub a t in
  let! t := sub s ta in
  let! tb := sub b t in
  let! r := add ta tb in
  Some (s, r).
Definition fast_mul (a b : f256) : option (f256 * f256) :=
  let! t := addu 32 (biased_exponent a) (biased_exponent b) in
  let! _ := dassert (EXP_BIAS <=? t) in
  let! p := mul a b in
  let! r := fma a b (negated p) in
  Some (p, r).

(** src/num_traits.rs:15-27, 43-56 *)
Definition nt_zero : f256 := ZERO.
Definition nt_is_zero (x : f256) : bool := eq_zero x.
Definition nt_one : f256 := ONE.
Definition nt_is_one (x : f256) : bool := f_eq x ONE.

End Arith.

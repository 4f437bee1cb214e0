(** * Print: src/conv/to_str (f256 to shortest decimal text)

    A text is the list of its bytes.  Positions and lengths ([usize]) are unbounded
    integers, as in Parse.v.  The two tables of the crates f256_pow2_div_pow5_lut and
    f256_pow5_div_pow2_lut are not part of the repository: every function that reads
    them takes a [luts]; an index outside a table is [None]. *)

From Verif Require Import Base BigUInt F256 PrintTable.

Record luts := Luts {
  pow2_div_pow5 : Z -> option (Z * Z * Z * Z);
  pow5_div_pow2 : Z -> option (Z * Z * Z * Z) }.

(** src/conv/to_str/common.rs:18-20 (the product of an i32 and a 48 bit constant fits
    an i128) *)
Definition floor_log10_pow2 (i : Z) : Z := casts 32 (i * 169464822037455 / 2 ^ 49).

Section Model.
Context `{P : profile}.

(** dec_repr.rs:27-31 *)
Definition floor_log10_pow5 (i : Z) : option Z :=
  let! _ := dassert (0 <=? i) in
  let! _ := dassert (i <=? 262380) in
  let! t := mulu 128 (castu 128 i) 24592820711491 in
  Some (casts 32 (t / 2 ^ 45)).

(** dec_repr.rs:36-40 *)
Definition floor_log2_pow5 (i : Z) : option Z :=
  let! _ := dassert (0 <=? i) in
  let! _ := dassert (i <=? 225798) in
  let! t := mulu 64 (castu 64 i) 81695582054029 in
  Some (casts 32 (t / 2 ^ 45)).

(** dec_repr.rs:44-46 *)
Definition ceil_log2_pow5 (i : Z) : option Z :=
  let! t := floor_log2_pow5 i in adds 32 t 1.

(** dec_repr.rs:49-64 *)
Definition u512_of_parts (t : Z * Z * Z * Z) : U512 :=
  let '(a, b, c, d) := t in mk (u256 a b) (u256 c d).

(** dec_repr.rs:67-87: the assignments in the order of the source *)
Definition u256_truncating_mul_u512 (x : U256) (y : U512) : option U256 :=
  let! (_, carry) := wmul (lo (lo y)) (lo x) in
  let! (l0, carry) := carrying_mul (hi (lo y)) (lo x) carry in
  let! (l1, carry) := carrying_mul (lo (hi y)) (lo x) carry in
  let! (l2, carry) := carrying_mul (hi (hi y)) (lo x) carry in
  let l3 := carry in
  let! (h0, carry) := wmul (lo (lo y)) (hi x) in
  let! (h1, carry) := carrying_mul (hi (lo y)) (hi x) carry in
  let! (h2, carry) := carrying_mul (lo (hi y)) (hi x) carry in
  let! (h3, carry) := carrying_mul (hi (hi y)) (hi x) carry in
  let hi := carry in
  let '(_, carry) := oadd l0 h0 in
  let '(_, carry) := carrying_add l1 h1 carry in
  let '(_, carry) := carrying_add l2 h2 carry in
  let '(lo, carry) := carrying_add l3 h3 carry in
  Some (mk (incr_if hi carry) lo).

(** powers_of_five.rs:14-18.  An index beyond the table panics. *)
Definition print_power_of_five (n : Z) : option U256 :=
  let! _ := dassert (n <=? 102) in
  let! (h, l) := nth_error PRINT_POWERS_OF_FIVE (Z.to_nat n) in
  Some (u256 h l).

(** powers_of_five.rs:21-34 *)
Definition is_multiple_of_pow5 (x : U256) (e : Z) : option bool :=
  if e =? 0 then Some true
  else if e =? 1 then
    let! (_, r) := div_rem_u128 x 5 in Some (r =? 0)
  else
    let! p := print_power_of_five e in
    if e <=? 55 then
      let! (_, r) := div_rem_sub x (lo p) in Some (is_zero r)
    else
      let! (_, r) := div_rem x p in Some (u256_is_zero r).

(** dec_repr.rs:144-224, steps 2 and 3: the interval converted to a decimal power base:
    (exp10, lower_signif10, signif10, upper_signif10, lower_rem_zero, rem_zero).
    [signif2] and [exp2] are already adjusted (dec_repr.rs:140-142). *)
Definition decimal_interval (t : luts) (accept_bounds : bool) (signif2 : U256) (exp2 : Z)
  : option (Z * U256 * U256 * U256 * bool * bool) :=
  let! n := subs 32 0 (casts 32 (trailing_zeros signif2)) in
  let is_non_integer := exp2 <? n in
  let! lower_signif2 := usub signif2 (of_u128 (1 + b2z is_non_integer)) in
  let! upper_signif2 := uadd signif2 utwo in
  let scaled sh luv x := let! y := ushl x sh in u256_truncating_mul_u512 y luv in
  if 0 <=? exp2 then
    let! g := subs 32 (floor_log10_pow2 exp2) (b2z (3 <? exp2)) in
    let! h := floor_log2_pow5 g in
    let! h := adds 32 h 501 in
    let! sh := subs 32 exp2 g in
    let! sh := subs 32 sh h in
    let! sh := adds 32 sh 510 in
    let sh := castu 32 sh in
    let! luv := pow2_div_pow5 t (castu 64 g) in
    let luv := u512_of_parts luv in
    let! lower_signif10 := scaled sh luv lower_signif2 in
    let! signif10 := scaled sh luv signif2 in
    let! upper_signif10 := scaled sh luv upper_signif2 in
    if g <=? 102 then
      let! (_, r) := div_rem_sub signif2 (mk128 5) in
      if is_zero r then
        let! rem_zero := is_multiple_of_pow5 signif2 (castu 32 g) in
        Some (g, lower_signif10, signif10, upper_signif10, false, rem_zero)
      else if accept_bounds then
        let! lower_rem_zero := is_multiple_of_pow5 lower_signif2 (castu 32 g) in
        Some (g, lower_signif10, signif10, upper_signif10, lower_rem_zero, false)
      else
        let! b := is_multiple_of_pow5 upper_signif2 (castu 32 g) in
        Some (g, lower_signif10, signif10, if b : bool then decr upper_signif10 else upper_signif10,
              false, false)
    else Some (g, lower_signif10, signif10, upper_signif10, false, false)
  else
    let! neg := subs 32 0 exp2 in
    let! g := floor_log10_pow5 neg in
    let! g := subs 32 g (b2z (negb (exp2 =? -1))) in
    let! exp10 := adds 32 exp2 g in
    let! i := subs 32 neg g in
    let! h := ceil_log2_pow5 i in
    let! h := subs 32 h 501 in
    let! sh := subs 32 510 g in
    let! sh := adds 32 sh h in
    let sh := castu 32 sh in
    let! luv := pow5_div_pow2 t (castu 64 i) in
    let luv := u512_of_parts luv in
    let! lower_signif10 := scaled sh luv lower_signif2 in
    let! signif10 := scaled sh luv signif2 in
    let! upper_signif10 := scaled sh luv upper_signif2 in
    if g <=? 1 then
      if accept_bounds then
        Some (exp10, lower_signif10, signif10, upper_signif10, is_non_integer, true)
      else
        Some (exp10, lower_signif10, decr signif10, upper_signif10, false, true)
    else if g <=? 238 then
      Some (exp10, lower_signif10, signif10, upper_signif10, false,
            castu 32 g <=? trailing_zeros signif2)
    else Some (exp10, lower_signif10, signif10, upper_signif10, false, false).

(** The loop of dec_repr.rs:236-246.  The quotients and remainders of the next step are
    computed at the top of the body instead of at the end of the previous one; the
    remainder of the upper bound is never read.  [fuel] bounds the number of rounds;
    running out of it is [None].
    Result: (lower_signif10, signif10, round_digit, lower_rem_zero, rem_zero, i). *)
Fixpoint shrink_exact (fuel : nat) (l s u : U256) (rd : Z) (lrz rz : bool) (i : Z)
  : option (U256 * U256 * Z * bool * bool * Z) :=
  match fuel with
  | O => None
  | S fuel =>
    let! (lq, lr) := div_rem_u64 l 10 in
    let! (uq, _) := div_rem_u64 u 10 in
    if ult lq uq then
      let! (s, rd) := div_rem_u64 s 10 in
      let! i := adds 32 i 1 in
      shrink_exact fuel lq s uq rd (lrz && (lr =? 0)) (rz && (rd =? 0)) i
    else Some (l, s, rd, lrz, rz, i)
  end.

(** The loop of dec_repr.rs:248-254. *)
Fixpoint shrink_lower (fuel : nat) (l s : U256) (rd : Z) (rz : bool) (i : Z)
  : option (U256 * Z * bool * Z) :=
  match fuel with
  | O => None
  | S fuel =>
    let! (lq, lr) := div_rem_u64 l 10 in
    if (lr =? 0) && negb (u256_is_zero l) then
      let! (s, rd) := div_rem_u64 s 10 in
      let! i := adds 32 i 1 in
      shrink_lower fuel lq s rd (rz && (rd =? 0)) i
    else Some (s, rd, rz, i)
  end.

(** The loop of dec_repr.rs:280-289. *)
Fixpoint shrink (fuel : nat) (l s u : U256) (ru : bool) (i : Z)
  : option (U256 * U256 * bool * Z) :=
  match fuel with
  | O => None
  | S fuel =>
    let! (lq, _) := div_rem_u64 l 10 in
    let! (uq, _) := div_rem_u64 u 10 in
    if ugt uq lq then
      let! (s, rd) := div_rem_u64 s 10 in
      let! i := adds 32 i 1 in
      shrink fuel lq s uq (5 <=? rd) i
    else Some (l, s, ru, i)
  end.

Definition FUEL : nat := 80.

(** dec_repr.rs:226-294, step 4: (signif10, number of removed digits) *)
Definition shortest_in (l s u : U256) (lrz rz : bool) : option (U256 * Z) :=
  if lrz || rz then
    let! (l, s, rd, lrz, rz, i) := shrink_exact FUEL l s u 0 lrz rz 0 in
    let! (s, rd, rz, i) :=
      (if lrz : bool then shrink_lower FUEL l s rd rz i else Some (s, rd, rz, i)) in
    Some (if (5 <? rd) || ((rd =? 5) && (negb rz || is_odd (lo s))) then incr s else s, i)
  else
    let! (lq, _) := div_rem_u64 l 100 in
    let! (uq, _) := div_rem_u64 u 100 in
    let! (l, s, u, ru, i) :=
      (if ugt uq lq then
         let! (quot, rem) := div_rem_u64 s 100 in
         Some (lq, quot, uq, 50 <=? rem, 2)
       else Some (l, s, u, false, 0)) in
    let! (l, s, ru, i) := shrink FUEL l s u ru i in
    Some (if ru || ueqb s l then incr s else s, i).

(** dec_repr.rs:124-300 *)
Definition shortest_from_bin_repr (t : luts) (signif2 : U256) (exp2 : Z) : option (U256 * Z) :=
  let accept_bounds := is_even signif2 in
  let! exp2 := subs 32 exp2 2 in
  let! signif2 := ushl signif2 2 in
  let! (exp10, l, s, u, lrz, rz) := decimal_interval t accept_bounds signif2 exp2 in
  let! (s, i) := shortest_in l s u lrz rz in
  let! exp10 := adds 32 exp10 i in
  Some (s, exp10).

(** dec_repr.rs:91-96 *)
Record dec_repr := DecRepr { p_sign : Z; p_exp10 : Z; p_signif10 : U256 }.

(** dec_repr.rs:101-118 *)
Definition shortest_from_f256 (t : luts) (f : f256) : option dec_repr :=
  let! _ := dassert (is_finite f && negb (eq_zero f)) in
  let! exp2 := quantum_exponent f in
  let! signif2 := integral_significand f in
  let! (signif10, exp10) := shortest_from_bin_repr t signif2 exp2 in
  Some (DecRepr (sign f) exp10 signif10).

(** ** Text *)

(** [{}] of a u128 (and of the absolute value of an i32): the decimal digits, at least
    one. *)
Fixpoint dec_digits_of (fuel : nat) (v : Z) (acc : list Z) : list Z :=
  match fuel with
  | O => acc
  | S fuel =>
    let acc := (48 + v mod 10) :: acc in
    if v / 10 =? 0 then acc else dec_digits_of fuel (v / 10) acc
  end.
Definition u128_text (v : Z) : list Z := dec_digits_of 39 v [].

(** [{:038}] of a u128 *)
Definition u128_text38 (v : Z) : list Z :=
  let s := u128_text v in repeat 48 (38 - length s) ++ s.

(** [{}] of an i32 *)
Definition i32_text (v : Z) : list Z :=
  if v <? 0 then 45 :: u128_text (- v) else u128_text v.

(** The loop of src/big_uint/uint_generic/mod.rs:379-382: the segments, last one first.
    A U256 has at most three of them. *)
Fixpoint segments (fuel : nat) (t : U256) (acc : list Z) : option (list Z) :=
  match fuel with
  | O => None
  | S fuel =>
    if u256_is_zero t then Some acc
    else
      let! (t, r) := div_rem_u128 t (10 ^ 38) in
      segments fuel t (r :: acc)
  end.

(** src/big_uint/uint_generic/mod.rs:366-391, uint128.rs:389-394: [to_string] *)
Definition u256_text (x : U256) : option (list Z) :=
  if is_zero (hi x) then Some (u128_text (val (lo x)))
  else
    let! segs := segments 4 x [] in
    match segs with
    | [] => None
    | s :: segs => Some (u128_text s ++ flat_map u128_text38 segs)
    end.

(** [&s\[n..\]] and [&s\[..n\]] *)
Definition slice_from (l : list Z) (n : Z) : option (list Z) :=
  if n <=? Z.of_nat (length l) then Some (skipn (Z.to_nat n) l) else None.
Definition slice_to (l : list Z) (n : Z) : option (list Z) :=
  if n <=? Z.of_nat (length l) then Some (firstn (Z.to_nat n) l) else None.

Definition zeroes (n : Z) : list Z := repeat 48 (Z.to_nat n).

(** dec_repr.rs:349-405: the parts of the text, without the sign, one after the other *)
Definition display_parts (d : dec_repr) : option (list Z) :=
  let! digits := u256_text (p_signif10 d) in
  let n_digits := Z.of_nat (length digits) in
  let! t := adds 32 (casts 32 n_digits) (p_exp10 d) in
  let n_int_digits := Z.max 0 t in
  let! t := subs 32 0 (p_exp10 d) in
  let n_frac_digits := Z.max 0 t in
  let! int_part :=
    (if n_digits <? n_int_digits then Some (digits ++ zeroes (n_int_digits - n_digits))
     else if 0 <? n_int_digits then slice_to digits n_int_digits
     else Some [48]) in
  let! frac_part :=
    (if 0 <? n_frac_digits then
       if n_digits <? n_frac_digits then Some (46 :: zeroes (n_frac_digits - n_digits) ++ digits)
       else let! r := slice_from digits n_int_digits in Some (46 :: r)
     else Some []) in
  Some (int_part ++ frac_part).

(** dec_repr.rs:305-341: likewise for the scientific format *)
Definition scientific_parts (exp_mark : Z) (d : dec_repr) : option (list Z) :=
  let! digits := u256_text (p_signif10 d) in
  let n_digits := Z.of_nat (length digits) in
  let! exp10 := adds 32 (p_exp10 d) (casts 32 n_digits) in
  let! exp10 := subs 32 exp10 1 in
  let exp := i32_text exp10 in
  let! first := slice_to digits 1 in
  let! rest :=
    (if 1 <? n_digits then let! r := slice_from digits 1 in Some (46 :: r) else Some []) in
  Some (first ++ rest ++ exp_mark :: exp).

(** formatted.rs:82-138 with a formatter without options: the width defaults to 1 and a
    part has at least one byte, so nothing is padded. *)
Definition pad_parts (negative : bool) (body : list Z) : list Z :=
  (if negative then [45] else []) ++ body.

(** mod.rs:47-57, 111-129 without options.  [format!("{:.*}", 0, 0.)] is "0" and
    [pad_integral] puts the sign in front. *)
Definition format_special (f : f256) (zero : list Z) : list Z :=
  if eq_zero f then pad_parts (negb (is_sign_positive f)) zero
  else if is_nan f then [78; 97; 78]
  else pad_parts (negb (is_sign_positive f)) [105; 110; 102].

(** mod.rs:81-97 without options: [format!("{}", f)] *)
Definition display (t : luts) (f : f256) : option (list Z) :=
  if is_special f then Some (format_special f [48])
  else
    let! d := shortest_from_f256 t f in
    let! body := display_parts d in
    Some (pad_parts (p_sign d =? 1) body).

(** mod.rs:132-145, 174-197: [format!("{:e}", f)] and [format!("{:E}", f)];
    [exp_mark] is 'e' or 'E' *)
Definition display_exp (t : luts) (exp_mark : Z) (f : f256) : option (list Z) :=
  if is_special f then Some (format_special f [48; exp_mark; 48])
  else
    let! d := shortest_from_f256 t f in
    let! body := scientific_parts exp_mark d in
    Some (pad_parts (p_sign d =? 1) body).

End Model.

(** The tables as the generator describes them
    (analysis/gen_ryu_helper_tables.py: GE is floor(2^h / 5^g) + 1 with
    h = floor(log2 5^g) + 501, LT is floor(5^i / 2^h) with h = ceil(log2 5^i) - 501),
    multiplied by 4 as the comments at dec_repr.rs:166-167 and 199-201 ask for. *)
Definition parts_of (v : Z) : Z * Z * Z * Z :=
  (v / 2 ^ 384, v / 2 ^ 256 mod 2 ^ 128, v / 2 ^ 128 mod 2 ^ 128, v mod 2 ^ 128).
Definition gen_pow2_div_pow5 (g : Z) : Z := 4 * (2 ^ (Z.log2 (5 ^ g) + 501) / 5 ^ g + 1).
Definition gen_pow5_div_pow2 (i : Z) : Z :=
  let h := Z.log2 (5 ^ i) + 1 - 501 in
  5 ^ i * 2 ^ Z.max 0 (2 - h) / 2 ^ Z.max 0 (h - 2).
Definition gen_luts : luts :=
  Luts (fun g => if (0 <=? g) && (g <=? 78913) then Some (parts_of (gen_pow2_div_pow5 g)) else None)
       (fun i => if (0 <=? i) && (i <=? 78985) then Some (parts_of (gen_pow5_div_pow2 i)) else None).

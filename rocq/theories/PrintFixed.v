(** * PrintFixed: src/conv/to_str/to_fixed_prec.rs:39-227 (positional format with a given
    precision)

    A text is the list of its bytes, as in Print.v.  The crate f256_pow10_div_pow2_lut with the table
    and the function that finds the segment of an exponent is not part of the
    repository: the functions take a [chunk_table].  The constants of the crate are those
    of the generator script (analysis/gen_ryu_print_helper_tables.py). *)

From Verif Require Import Base BigUInt F256 Arith Print.

(** [seg e] is (segment_idx, (n_zero_chunks, segment_shift)), [entry i j] an entry of
    three u128 *)
Record chunk_table := ChunkTable {
  seg : Z -> option (Z * (Z * Z));
  entry : Z -> Z -> option (Z * Z * Z) }.

Definition CHUNK_SIZE : Z := 19.
Definition CHUNK_BASE : Z := 10 ^ 19.
Definition CHUNK_CUTOFF : Z := 6.
(** mod.rs:31 *)
Definition MAX_PREC : Z := 75.

Inductive round := Up | ToEven | Down.

(** [{:01$}] of a u64: the digits, padded with zeros *)
Definition u64_text (v width : Z) : list Z :=
  let s := u128_text v in repeat 48 (Z.to_nat width - length s) ++ s.

(** to_fixed_prec.rs:145-166, from the last byte to the first.  Running over the first
    byte panics: [idx -= 1] overflows, or the access is out of bounds. *)
Fixpoint round_up_rev (bytes : list Z) : option (list Z) :=
  match bytes with
  | [] => None
  | b :: bytes =>
    if b =? 57 then let! r := round_up_rev bytes in Some (48 :: r)
    else if b =? 46 then let! r := round_up_rev bytes in Some (46 :: r)
    else Some (b + 1 :: bytes)
  end.
Definition round_up_fixed_point (num : list Z) : option (list Z) :=
  let! r := round_up_rev (rev num) in Some (rev r).

(** [res.ends_with(\['1', '3', '5', '7', '9'\])] *)
Definition ends_odd (s : list Z) : bool :=
  match rev s with
  | b :: _ => (b =? 49) || (b =? 51) || (b =? 53) || (b =? 55) || (b =? 57)
  | [] => false
  end.

Section Model.
Context `{P : profile}.

(** to_fixed_prec.rs:46-61 *)
Definition mul_shift_mod (x : U256) (y : U512) (k : Z) : option Z :=
  let! _ := dassert (256 <? k) in
  let! (l, h) := wmul x (hi y) in
  let! (_, h2) := wmul x (lo y) in
  let '(l, carry) := oadd l h2 in
  let res := mk (if carry : bool then incr h else h) l in
  let! s := subu 32 k 256 in
  let! res := ushr res s in
  let! (_, r) := div_rem_u128 res CHUNK_BASE in
  Some (castu 64 r).

(** to_fixed_prec.rs:69-73 *)
Definition pow10_div_pow2 (t : chunk_table) (segment_idx chunk_idx : Z) : option U512 :=
  let! (a, b, c) := entry t segment_idx chunk_idx in
  Some (mk (u256 0 a) (u256 b c)).

(** to_fixed_prec.rs:85-141.  The loop runs over [n] more chunks starting with
    [chunk_idx]; the last one is different. *)
Fixpoint fract_chunks (t : chunk_table) (signif2 : U256) (exp2 prec n_chunks segment_idx shift : Z)
  (n : nat) (chunk_idx : Z) (buf : list Z) : option (list Z * round) :=
  match n with
  | O => Some (buf, Down)
  | S n =>
    let! y := pow10_div_pow2 t segment_idx chunk_idx in
    let! chunk := mul_shift_mod signif2 y shift in
    match n with
    | S _ =>
      fract_chunks t signif2 exp2 prec n_chunks segment_idx shift n (chunk_idx + 1)
        (buf ++ u64_text chunk CHUNK_SIZE)
    | O =>
      let! m := subu 32 n_chunks 1 in
      let! m := mulu 32 m CHUNK_SIZE in
      let! n_digits := subu 32 (castu 32 prec) m in
      let! _ := dassert (n_digits <=? CHUNK_SIZE) in
      let! e := subu 32 CHUNK_SIZE n_digits in
      let d := 10 ^ e in
      let rem := chunk mod d in
      let chunk := chunk / d in
      let tie := d / 2 in
      let! round :=
        (if tie <? rem then Some Up
         else if rem =? tie then
           let! neg := subs 32 0 exp2 in
           let! m := subs 32 neg (casts 32 prec) in
           let! m := subs 32 m 1 in
           Some (if m <=? casts 32 (trailing_zeros signif2) then ToEven else Up)
         else Some Down) in
      Some (if 0 <? n_digits then buf ++ u64_text chunk n_digits else buf, round)
    end
  end.

(** to_fixed_prec.rs:75-142: what is appended to the buffer, and the rounding *)
Definition bin_fract_2_dec_str (t : chunk_table) (signif2 : U256) (exp2 prec : Z)
  : option (list Z * round) :=
  let n_chunks := castu 32 prec / CHUNK_SIZE + 1 in
  let! (segment_idx, (n_zero_chunks, segment_shift)) := seg t exp2 in
  let! _ := dassert (exp2 <? segment_shift) in
  let! shift := subs 32 segment_shift exp2 in
  let shift := castu 32 shift in
  if n_chunks <=? n_zero_chunks then Some (zeroes prec, Down)
  else
    let! z := mulu 32 n_zero_chunks CHUNK_SIZE in
    let! n_signif_chunks := subu 32 n_chunks n_zero_chunks in
    let! _ := dassert (n_signif_chunks <=? CHUNK_CUTOFF) in
    fract_chunks t signif2 exp2 prec n_chunks segment_idx shift (Z.to_nat n_signif_chunks) 0 (zeroes z).

(** to_fixed_prec.rs:174-227.  [buf_len] (188-192) is only a capacity, the computation
    cannot overflow, and is left out. *)
Definition bin_2_dec_fixed_point (lt : luts) (ct : chunk_table) (f : f256) (prec : Z) : option (list Z) :=
  let! _ := dassert (is_finite f) in
  let! _ := dassert (is_sign_positive f) in
  let! exp2 := quantum_exponent f in
  let! signif2 := integral_significand f in
  let! ntz := subs 32 0 (casts 32 (trailing_zeros signif2)) in
  let! (is_less_than_one, is_int, ip, fp) :=
    (if ntz <=? exp2 then Some (false, true, f, ZERO)
     else if exp2 <? -236 then Some (true, false, ZERO, f)
     else let! (ip, fp) := split f in Some (false, false, ip, fp)) in
  let! int_text := (if is_less_than_one : bool then Some [48] else display lt ip) in
  let res := 48 :: int_text ++ (if 0 <? prec then [46] else []) in
  let! (res, round) :=
    (if is_int : bool then Some (res ++ zeroes prec, Down)
     else
       let! exp2 := quantum_exponent fp in
       let! signif2 := integral_significand fp in
       let! (signif2, exp2) :=
         (if exp2 <? EMIN then
            let! m := msb signif2 in
            let! adj := subu 32 237 m in
            let! signif2 := ushl signif2 adj in
            let! exp2 := subs 32 exp2 (casts 32 adj) in
            Some (signif2, exp2)
          else Some (signif2, exp2)) in
       let! (s, round) := bin_fract_2_dec_str ct signif2 exp2 prec in
       Some (res ++ s, round)) in
  if (match round with Up => true | ToEven => ends_odd res | Down => false end)
  then round_up_fixed_point res else Some res.

(** mod.rs:59-72 with a formatter that has a precision and no other option *)
Definition format_exact (lt : luts) (ct : chunk_table) (f : f256) (prec : Z) : option (list Z) :=
  if prec <=? MAX_PREC then
    let! s := bin_2_dec_fixed_point lt ct (abs f) prec in
    let s := match s with 48 :: s => s | _ => s end in
    Some (pad_parts (negb (is_sign_positive f)) s)
  else None.

(** mod.rs:47-57, 81-97: [format!("{:.prec$}", f)].  [format!("{:.*}", prec, 0.)] is "0", with
    [prec] more zeros behind a point unless [prec] is 0. *)
Definition display_prec (lt : luts) (ct : chunk_table) (f : f256) (prec : Z) : option (list Z) :=
  if is_special f then
    let prec := Z.min prec MAX_PREC in
    Some (format_special f (48 :: if 0 <? prec then 46 :: zeroes prec else []))
  else format_exact lt ct f prec.

End Model.

(** The table as the generator describes it.  [calc_n_zero_chunks] works with a floating point
    logarithm; here the number of zero chunks of a segment is the number of times 10^19
    goes into its largest power of two. *)
Fixpoint count_chunks (fuel : nat) (n : Z) (acc : Z) : Z :=
  match fuel with
  | O => acc
  | S fuel => if n <? 10 ^ 19 then acc else count_chunks fuel (n / 10 ^ 19) (acc + 1)
  end.
Definition gen_zero_chunks (upper : Z) : Z :=
  if upper + 237 <? 0 then count_chunks (Z.to_nat (- upper)) (2 ^ (- (upper + 237))) 0 else 0.
Definition gen_entry (shift idx : Z) : Z :=
  (10 ^ (idx * 19) * 2 ^ Z.max 0 shift / 2 ^ Z.max 0 (- shift)) mod (10 ^ 19 * 2 ^ 304).
Definition gen_chunks : chunk_table :=
  let upper i := - (i + 7) * 32 in
  let shift i := 304 + upper i - 31 in
  ChunkTable
    (fun e => let i := - e / 32 - 7 in
       if (0 <=? i) && (i <=? 8199) then Some (i, (gen_zero_chunks (upper i), shift i)) else None)
    (fun i j =>
       if (0 <=? i) && (i <=? 8199) && (0 <=? j) && (j <? 6)
       then let v := gen_entry (shift i) (gen_zero_chunks (upper i) + 1 + j) in
            Some (v / 2 ^ 256, v / 2 ^ 128 mod 2 ^ 128, v mod 2 ^ 128)
       else None).

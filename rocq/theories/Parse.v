(** * Parse: src/conv/from_str (decimal literals to f256)

    A string is the list of its UTF-8 bytes.  Quantities of type [usize] are
    positions in that slice; a slice is never longer than [isize::MAX], so they are
    kept as unbounded integers.  The fields of [ParsingState] (common.rs:73-79) are
    threaded through the functions instead of being stored in a record. *)

From Verif Require Import Base BigUInt F256 Arith Conv PowersOfFive.

Definition len {A : Type} (l : list A) : Z := Z.of_nat (length l).

(** ** src/conv/from_str/common.rs *)

(** [u64::count_ones] *)
Fixpoint popcount_pos (p : positive) : Z :=
  match p with
  | xI p => 1 + popcount_pos p
  | xO p => popcount_pos p
  | xH => 1
  end.
Definition popcount (a : Z) : Z := match a with Zpos p => popcount_pos p | _ => 0 end.

(** common.rs:14-26 *)
Definition chunk_contains_8_digits (chunk : Z) : bool :=
  let x := (chunk - 0x3030303030303030) mod 2 ^ 64 in
  let y := (chunk + 0x4646464646464646) mod 2 ^ 64 in
  Z.land (Z.lor x y) 0x8080808080808080 =? 0.

Section Model.
Context `{P : profile}.

(** common.rs:32-53 *)
Definition chunk_contains_7_digits_and_a_dot_at (chunk : Z) : option (option Z) :=
  let x := Z.lxor chunk 0x2e2e2e2e2e2e2e2e in
  let y := (x - 0x0101010101010101) mod 2 ^ 64 in
  let z := Z.land y (Z.land (2 ^ 64 - 1 - x) 0x8080808080808080) in
  if popcount z =? 1 then
    let n := nlz 64 z in
    let! s := subu 32 (64 - 8) n in
    let! d := shlu 64 (48 - 46) s in
    let! chunk := addu 64 chunk d in
    Some (if chunk_contains_8_digits chunk then Some (n / 8) else None)
  else Some None.

(** common.rs:56-70 *)
Definition chunk_to_u64 (chunk : Z) : Z :=
  let c := Z.land chunk 0x0f0f0f0f0f0f0f0f in
  let c := (((Z.land c 0x000f000f000f000f) * 10) mod 2 ^ 64
            + Z.land (shrc c 8) 0x000f000f000f000f) mod 2 ^ 64 in
  let c := (((Z.land c 0x0000007f0000007f) * 100) mod 2 ^ 64
            + Z.land (shrc c 16) 0x0000007f0000007f) mod 2 ^ 64 in
  (((Z.land c 0x3fff) * 10000) mod 2 ^ 64 + Z.land (shrc c 32) 0x3fff) mod 2 ^ 64.

(** common.rs:132-134: [c.wrapping_sub(b'0') < 10] *)
Definition digit_of (c : Z) : Z := (c - 48) mod 256.
Definition is_digit (c : Z) : bool := digit_of c <? 10.

(** common.rs:160-177: eight bytes read as a little-endian u64 *)
Definition read8 (b0 b1 b2 b3 b4 b5 b6 b7 : Z) : Z :=
  of_le_bytes [b0; b1; b2; b3; b4; b5; b6; b7].

(** common.rs:143-158 *)
Definition get_sign (bs : list Z) : Z * list Z :=
  match bs with
  | c :: t => if c =? 45 then (1, t) else if c =? 43 then (0, t) else (0, bs)
  | [] => (0, bs)
  end.

(** common.rs:184-197: the loop over chunks of eight zeroes *)
Fixpoint skip_zero_chunks (bs : list Z) : list Z :=
  match bs with
  | b0 :: b1 :: b2 :: b3 :: b4 :: b5 :: b6 :: b7 :: t =>
    let k := read8 b0 b1 b2 b3 b4 b5 b6 b7 in
    if chunk_contains_8_digits k then
      if chunk_to_u64 k =? 0 then skip_zero_chunks t else bs
    else bs
  | _ => bs
  end.

(** common.rs:199-204 *)
Fixpoint skip_zeroes (bs : list Z) : list Z :=
  match bs with
  | c :: t => if c =? 48 then skip_zeroes t else bs
  | [] => bs
  end.

(** common.rs:183-221, called with [skip_radix_point = true] and no radix point seen:
    the remaining bytes, the position of the radix point and the [invalid] flag.  The
    recursive call with [false] is unfolded. *)
Definition skip_leading_zeroes (bs : list Z) : list Z * option Z * bool :=
  let bs := skip_zeroes (skip_zero_chunks bs) in
  match bs with
  | c :: t =>
    if c =? 46 then
      let rp := Some (len bs) in
      let bs := skip_zeroes (skip_zero_chunks t) in
      match bs with
      | c :: _ => (bs, rp, c =? 46)
      | [] => (bs, rp, false)
      end
    else (bs, None, false)
  | [] => (bs, None, false)
  end.

(** common.rs:255-267: the digits of the exponent, saturating at i32::MAX *)
Fixpoint exponent_digits (bs : list Z) (exponent : Z) : Z * list Z :=
  match bs with
  | c :: t =>
    let d := digit_of c in
    if d <? 10 then
      exponent_digits t (Z.min (Z.min (exponent * 10) (2 ^ 31 - 1) + d) (2 ^ 31 - 1))
    else (exponent, bs)
  | [] => (exponent, bs)
  end.

(** common.rs:224-279; [None] is the [None] of the code.  A sign at the very end of the
    input leaves the exponent 0 and is accepted. *)
Definition parse_exponent (bs : list Z) : option (Z * list Z) :=
  match bs with
  | c :: t =>
    if (c =? 101) || (c =? 69) then
      match t with
      | [] => None
      | c :: t' =>
        let '(neg, bs) :=
          if c =? 45 then (true, t') else if c =? 43 then (false, t') else (false, t) in
        match bs with
        | c :: t =>
          let d := digit_of c in
          if d <? 10 then
            let '(e, bs) := exponent_digits t d in
            Some (if neg then - e else e, bs)
          else None
        | [] => Some (0, [])
        end
      end
    else Some (0, bs)
  | [] => Some (0, [])
  end.

(** ** src/conv/from_str/float_repr.rs *)

(** float_repr.rs:22-33 *)
Definition eliminate_byte_from_chunk (k p : Z) : Z :=
  if p =? 0 then shrc (shlc 64 k 8) 8
  else if (1 <=? p) && (p <=? 6) then
    Z.lor (Z.land k (shrc (2 ^ 64 - 1) (8 * (p + 1))))
          (shrc (Z.land k (shlc 64 (2 ^ 64 - 1) (8 * (8 - p)))) 8)
  else shrc k 8.

(** float_repr.rs:39-45 *)
Record dec_num_repr := DecNumRepr {
  d_sign : Z; d_exponent : Z; d_significand : U256; d_truncated : bool }.

(** float_repr.rs:48-55 *)
Inductive float_repr :=
| Empty | Invalid | Nan | Inf (sign : Z) | Number (r : dec_num_repr).

(** float_repr.rs:60-66: [chunks\[0..n_chunks\]] is kept as a list, last chunk first. *)
Record partial_signif := PartialSignif {
  p_chunks : list Z; p_rem : Z; p_n_rem : Z }.

Definition MAX_N_DIGITS : Z := 77.

(** float_repr.rs:75-78: the array has nine elements *)
Definition add_chunk (p : partial_signif) (v : Z) : option partial_signif :=
  if len (p_chunks p) <? 9 then Some (PartialSignif (v :: p_chunks p) (p_rem p) (p_n_rem p))
  else None.

(** float_repr.rs:90-93 *)
Fixpoint drop_zero_chunks (l : list Z) (n : Z) : list Z * Z :=
  match l with
  | c :: (_ :: _) as t => if c =? 0 then drop_zero_chunks t (n + 8) else (l, n)
  | _ => (l, n)
  end.

(** float_repr.rs:98-102 *)
Fixpoint drop_zero_digits (fuel : nat) (r nr n : Z) : Z * Z * Z :=
  match fuel with
  | S f => if (0 <? nr) && (r mod 10 =? 0) then drop_zero_digits f (r / 10) (nr - 1) (n + 1)
           else (r, nr, n)
  | O => (r, nr, n)
  end.

(** float_repr.rs:84-102 *)
Definition normalize (p : partial_signif) : partial_signif * Z :=
  let '(p, n) :=
    match p_chunks p with
    | c :: t =>
      if p_rem p =? 0 then
        let '(l, n) := drop_zero_chunks (c :: t) (p_n_rem p) in
        match l with
        | c :: t => (PartialSignif t c 8, n)
        | [] => (p, n)
        end
      else (p, 0)
    | [] => (p, 0)
    end in
  let '(r, nr, n) := drop_zero_digits (Z.to_nat (p_n_rem p)) (p_rem p) (p_n_rem p) n in
  (PartialSignif (p_chunks p) r nr, n).

(** float_repr.rs:108-111 *)
Fixpoint chunks_value (l : list Z) : option U256 :=
  match l with
  | c :: t =>
    let! s := chunks_value t in
    let! s := uint_mul s (u256 0 100000000) in
    uint_add s (u256 0 c)
  | [] => Some (u256 0 0)
  end.

(** float_repr.rs:105-115 *)
Definition significand_of (p : partial_signif) : option U256 :=
  let! s := chunks_value (p_chunks p) in
  let! q := chku 128 (10 ^ p_n_rem p) in
  let! s := uint_mul s (u256 0 q) in
  uint_add s (u256 0 (p_rem p)).

(** What [read_significand] leaves behind: the bytes not consumed, the radix point, the
    [invalid] flag, the number of digits read and the partial significand. *)
Record rs_state := RsState {
  rs_bytes : list Z; rs_rp : option Z; rs_invalid : bool;
  rs_n : Z; rs_signif : partial_signif }.

(** float_repr.rs:130-184 *)
Fixpoint chunk_loop (bs : list Z) (rp : option Z) (n : Z) (ps : partial_signif)
  : option rs_state :=
  if n <=? MAX_N_DIGITS - 8 then
    match bs with
    | b0 :: b1 :: b2 :: b3 :: b4 :: b5 :: b6 :: b7 :: t =>
      let k := read8 b0 b1 b2 b3 b4 b5 b6 b7 in
      if chunk_contains_8_digits k then
        let! ps := add_chunk ps (chunk_to_u64 k) in
        chunk_loop t rp (n + 8) ps
      else
        let! o := chunk_contains_7_digits_and_a_dot_at k in
        match o with
        | Some p =>
          match rp with
          | Some _ => Some (RsState bs rp true n ps)
          | None =>
            let rp := Some (len bs - (7 - p)) in
            let last :=
              PartialSignif (p_chunks ps)
                (chunk_to_u64 (shlc 64 (eliminate_byte_from_chunk k p) 8)) 7 in
            match t with
            | d :: t' =>
              if is_digit d then
                let k := Z.lor (eliminate_byte_from_chunk k p) (shlc 64 d 56) in
                let! ps := add_chunk ps (chunk_to_u64 k) in
                chunk_loop t' rp (n + 8) ps
              else chunk_loop t rp (n + 7) last
            | [] => chunk_loop t rp (n + 7) last
            end
          end
        | None => Some (RsState bs rp false n ps)
        end
    | _ => Some (RsState bs rp false n ps)
    end
  else Some (RsState bs rp false n ps).

(** float_repr.rs:186-212 *)
Fixpoint single_loop (bs : list Z) (rp : option Z) (n : Z) (ps : partial_signif)
  : option rs_state :=
  match bs with
  | c :: t =>
    if n <? MAX_N_DIGITS then
      let d := digit_of c in
      if d <? 10 then
        let! r := mulu 64 (p_rem ps) 10 in
        let! r := addu 64 r d in
        single_loop t rp (n + 1) (PartialSignif (p_chunks ps) r (p_n_rem ps + 1))
      else if c =? 46 then
        match rp with
        | Some _ => Some (RsState bs rp true n ps)
        | None => single_loop t (Some (len bs)) n ps
        end
      else Some (RsState bs rp false n ps)
    else Some (RsState bs rp false n ps)
  | [] => Some (RsState bs rp false n ps)
  end.

(** float_repr.rs:215-235: digits beyond the 77th; the count of non-zero ones is kept as
    the flag "there is one" *)
Fixpoint rest_loop (bs : list Z) (rp : option Z) (nonzero : bool)
  : list Z * option Z * bool * bool :=
  match bs with
  | c :: t =>
    if (49 <=? c) && (c <=? 57) then rest_loop t rp true
    else if c =? 46 then
      match rp with
      | Some _ => (bs, rp, true, nonzero)
      | None => rest_loop t (Some (len bs)) nonzero
      end
    else if negb (c =? 48) then (bs, rp, false, nonzero)
    else rest_loop t rp nonzero
  | [] => (bs, rp, false, nonzero)
  end.

(** u8::eq_ignore_ascii_case on slices *)
Definition lower (c : Z) : Z := if (65 <=? c) && (c <=? 90) then c + 32 else c.
Fixpoint eq_ignore_case (a b : list Z) : bool :=
  match a, b with
  | x :: a, y :: b => (lower x =? lower y) && eq_ignore_case a b
  | [], [] => true
  | _, _ => false
  end.

(** float_repr.rs:242-252; b"nan", b"inf", b"infinity" *)
Definition parse_special (bs : list Z) (sign : Z) : float_repr :=
  if eq_ignore_case bs [110; 97; 110] then Nan
  else if eq_ignore_case bs [105; 110; 102]
          || eq_ignore_case bs [105; 110; 102; 105; 110; 105; 116; 121] then Inf sign
  else Invalid.

(** [usize::saturating_sub] *)
Definition ssub (a b : Z) : Z := Z.max 0 (a - b).

(** float_repr.rs:257-332 *)
Definition float_repr_from_str (s : list Z) : option float_repr :=
  match s with
  | [] => Some Empty
  | _ :: _ =>
    let '(sign, bs) := get_sign s in
    match bs with
    | [] => Some Invalid
    | _ :: _ =>
      let start := len bs in
      let '(bs, rp, inv) := skip_leading_zeroes bs in
      match bs with
      | [] => Some (Number (DecNumRepr 0 0 (u256 0 0) false))
      | _ :: _ =>
        let start_signif := len bs in
        let! st := chunk_loop bs rp 0 (PartialSignif [] 0 0) in
        if inv || rs_invalid st then Some Invalid
        else
        let! st := single_loop (rs_bytes st) (rs_rp st) (rs_n st) (rs_signif st) in
        if rs_invalid st then Some Invalid
        else
        let end_signif := len (rs_bytes st) in
        let '(bs, rp, inv, truncated) := rest_loop (rs_bytes st) (rs_rp st) false in
        if inv then Some Invalid
        else if start =? len bs then Some (parse_special bs sign)
        else
        let pos := match rp with Some p => p | None => len bs end in
        match parse_exponent bs with
        | None => Some Invalid
        | Some (e, bs) =>
          match bs with
          | _ :: _ => Some Invalid
          | [] =>
            let n_int := ssub start_signif pos in
            let n_trunc := ssub n_int MAX_N_DIGITS in
            let! e := adds 32 e (casts 32 n_trunc) in
            let n_frac := ssub pos (end_signif + 1) in
            let! e := subs 32 e (casts 32 n_frac) in
            let '(ps, nz) := normalize (rs_signif st) in
            let! e := adds 32 e (casts 32 nz) in
            let! c := significand_of ps in
            Some (Number (DecNumRepr sign e c truncated))
          end
        end
      end
    end
  end.

(** ** src/conv/big_decimal.rs

    [digits] is the prefix of the digit array that has been written to; the array
    behind it holds zeroes.  The functions shifting digits in place are written as
    traversals; whatever they do not overwrite stays in the list. *)

Definition MAX_DIGITS : Z := 183467.

(** big_decimal.rs:181-200 *)
Record decimal := Decimal {
  dc_sign : Z; dc_n : Z; dc_point : Z; dc_truncated : bool; dc_digits : list Z }.

(** [digits\[i\]] inside the array *)
Definition digit_at (l : list Z) (i : Z) : Z := nth (Z.to_nat i) l 0.

(** big_decimal.rs:305-312, on the digits collected so far (last digit first) *)
Definition add_digit (n : Z) (trunc : bool) (rds : list Z) (d : Z) : Z * bool * list Z :=
  if n <? MAX_DIGITS then (n + 1, trunc, d :: rds)
  else (n + 1, trunc || negb (d =? 0), rds).

(** big_decimal.rs:315-319: the number of digits left after removing trailing zeroes *)
Fixpoint trimmed (l : list Z) : Z :=
  match l with
  | d :: t => let n := trimmed t in if (n =? 0) && (d =? 0) then 0 else n + 1
  | [] => 0
  end.

Definition dec_ok (n : Z) (l : list Z) : bool :=
  (n =? 0) || (negb (digit_at l 0 =? 0) && negb (digit_at l (n - 1) =? 0)).

(** The first [n] digits of the array *)
Definition dtake (n : Z) (l : list Z) : list Z :=
  let k := Z.to_nat n in firstn k l ++ repeat 0 (k - length l).

(** big_decimal.rs:47-178 is the table of the digits of 5^n and of the number of new
    digits: generated by the Python program in the comment at 31-44 *)
Fixpoint digits_of (fuel : nat) (v : Z) : list Z :=
  match fuel with
  | S f => if v =? 0 then [] else digits_of f (v / 10) ++ [v mod 10]
  | O => []
  end.
Definition shift_digits (n : Z) : list Z :=
  let l := if n =? 0 then [] else digits_of 42 (5 ^ n) in
  l ++ repeat 0 (42 - length l).
Definition shift_new_digits (n : Z) : Z := if n =? 0 then 0 else Z.of_nat (length (digits_of 42 (2 ^ n))).

(** big_decimal.rs:230-250: [partial_cmp(..) == Less] *)
Fixpoint dec_less (l other : list Z) : bool :=
  match l, other with
  | d :: l, o :: other => if d =? o then dec_less l other else d <? o
  | [], other => existsb (fun d => negb (d =? 0)) other
  | _ :: _, [] => false
  end.

(** big_decimal.rs:352-380, on the digits read, last digit first: the digits written,
    first digit first, and the remaining accumulator *)
Fixpoint shl_digits (rds : list Z) (n acc : Z) (out : list Z) : option (Z * list Z) :=
  match rds with
  | d :: t =>
    let! s := shlu 64 d n in
    let! acc := addu 64 acc s in
    shl_digits t n (acc / 10) (acc mod 10 :: out)
  | [] => Some (acc, out)
  end.
Fixpoint flush_digits (fuel : nat) (acc : Z) (out : list Z) : list Z :=
  match fuel with
  | S f => if 0 <? acc then flush_digits f (acc / 10) (acc mod 10 :: out) else out
  | O => out
  end.

(** big_decimal.rs:324-390.  The code would write in front of the array if more digits
    came out than the table announces; this is [None] here. *)
Definition left_shift (x : decimal) (n : Z) : option decimal :=
  let! _ := dassert (n <=? 60) in
  if dc_n x =? 0 then Some x
  else
    let ds := dtake (dc_n x) (dc_digits x) in
    let! n_new := subu 32 (shift_new_digits n) (b2z (dec_less ds (shift_digits n))) in
    let! (acc, out) := shl_digits (rev ds) n 0 [] in
    let out := flush_digits 20 acc out in
    let total := dc_n x + n_new in
    if total <? len out then None
    else
      let out := dtake (total - len out) (dc_digits x) ++ out in
      let written := dtake (Z.min total MAX_DIGITS) out in
      let lost := skipn (Z.to_nat MAX_DIGITS) out in
      let trunc := dc_truncated x || existsb (fun d => negb (d =? 0)) lost in
      let! dp := adds 32 (dc_point x) (casts 32 n_new) in
      let ds := written ++ skipn (length written) (dc_digits x) in
      let nd := trimmed written in
      let! _ := dassert (dec_ok nd ds) in
      Some (Decimal (dc_sign x) nd dp trunc ds).

(** big_decimal.rs:404-420: digits read before the first one is written: [None] is the
    early return of the code, otherwise the accumulator, the number of digits read and
    the digits not read *)
Fixpoint shr_pad (fuel : nat) (acc n i : Z) : option (Z * Z) :=
  match fuel with
  | S f => if shrc acc n =? 0 then
             let! acc := mulu 64 acc 10 in shr_pad f acc n (i + 1)
           else Some (acc, i)
  | O => None
  end.
Fixpoint shr_start (ds : list Z) (acc n i : Z) : option (option (Z * Z * list Z)) :=
  if shrc acc n =? 0 then
    match ds with
    | d :: t =>
      let! a := mulu 64 10 acc in
      let! a := addu 64 a d in
      shr_start t a n (i + 1)
    | [] => if acc =? 0 then Some None
            else let! (a, i) := shr_pad 20 acc n i in Some (Some (a, i, []))
    end
  else Some (Some (acc, i, ds)).

(** big_decimal.rs:437-443; the digits written, last digit first *)
Fixpoint shr_digits (ds : list Z) (acc n mask : Z) (out : list Z) : option (Z * list Z) :=
  match ds with
  | d :: t =>
    let! a := mulu 64 10 (Z.land acc mask) in
    let! a := addu 64 a d in
    shr_digits t a n mask (castu 8 (shrc acc n) :: out)
  | [] => Some (acc, out)
  end.

(** big_decimal.rs:446-456: every step makes the accumulator divisible by one more power
    of two, so at most n + 1 steps are made *)
Fixpoint shr_flush (fuel : nat) (acc n mask w : Z) (trunc : bool) (out : list Z)
  : option (Z * bool * list Z) :=
  if 0 <? acc then
    match fuel with
    | S f =>
      let d := castu 8 (shrc acc n) in
      let! a := mulu 64 10 (Z.land acc mask) in
      if w <? MAX_DIGITS then shr_flush f a n mask (w + 1) trunc (d :: out)
      else shr_flush f a n mask w (trunc || (0 <? d)) out
    | O => None
    end
  else Some (w, trunc, out).

(** big_decimal.rs:395-465 *)
Definition right_shift (x : decimal) (n : Z) : option decimal :=
  let! _ := dassert (n <=? 60) in
  let ds := dtake (dc_n x) (dc_digits x) in
  let! st := shr_start ds 0 n 0 in
  match st with
  | None => Some x
  | Some (acc, i, ds) =>
    let! k := subs 32 (casts 32 i) 1 in
    let! dp := subs 32 (dc_point x) k in
    let! m := shlu 64 1 n in
    let! mask := subu 64 m 1 in
    let! (acc, out) := shr_digits ds acc n mask [] in
    let! (w, trunc, out) := shr_flush 70 acc n mask (len out) (dc_truncated x) out in
    let written := rev out in
    let l := written ++ skipn (length written) (dc_digits x) in
    let nd := trimmed written in
    let! _ := dassert (dec_ok nd l) in
    Some (Decimal (dc_sign x) nd dp trunc l)
  end.

(** big_decimal.rs:469-487 *)
Fixpoint take_int (k : nat) (i : Z) (l : list Z) (acc : U256) : option U256 :=
  match k with
  | S k => let! acc := imul10_add acc (digit_at l i) in take_int k (i + 1) l acc
  | O => Some acc
  end.
Definition dec_round (x : decimal) : option U256 :=
  if (dc_n x =? 0) || (dc_point x <? 0) then Some (u256 0 0)
  else if 77 <? dc_point x then Some umax
  else
    let dp := dc_point x in
    let! n := take_int (Z.to_nat dp) 0 (dc_digits x) (u256 0 0) in
    let d := digit_at (dc_digits x) dp in
    Some (if (5 <? d) || ((d =? 5) && ((dp <? dc_n x - 1) || dc_truncated x))
          then uint_incr n else n).

(** ** src/conv/from_str/slow_exact.rs *)

(** slow_exact.rs:38-50: the digits, the radix point (the last one wins), the rest *)
Fixpoint dec_digits (bs : list Z) (rp : option Z) (n : Z) (trunc : bool) (rds : list Z)
  : list Z * option Z * Z * bool * list Z :=
  match bs with
  | c :: t =>
    let d := digit_of c in
    if d <? 10 then
      let '(n, trunc, rds) := add_digit n trunc rds d in dec_digits t rp n trunc rds
    else if c =? 46 then dec_digits t (Some (len bs)) n trunc rds
    else (bs, rp, n, trunc, rds)
  | [] => (bs, rp, n, trunc, rds)
  end.

(** slow_exact.rs:26-88 *)
Definition parse_decimal (s : list Z) : option decimal :=
  let '(sign, bs) := get_sign s in
  let '(bs, rp, inv) := skip_leading_zeroes bs in
  let start := len bs in
  let '(bs, rp, n, trunc, rds) := dec_digits bs rp 0 false [] in
  let fin := len bs in
  let! _ := dassert (negb inv) in
  let! (n_digits, n_frac) :=
    match rp with
    | Some pos =>
      let! a := subu 64 start (b2z (pos <? start)) in
      let! a := subu 64 a fin in
      let! b := subu 64 pos 1 in
      let! b := subu 64 b fin in
      Some (a, b)
    | None => let! a := subu 64 start fin in Some (a, 0)
    end in
  let! _ := dassert (negb (n_digits =? 0)) in
  let! _ := dassert (n_digits =? n) in
  let! dp := subs 32 (casts 32 n_digits) (casts 32 n_frac) in
  let! e := match parse_exponent bs with Some (e, _) => Some e | None => None end in
  let! dp := adds 32 dp e in
  let ds := rev rds in
  let n := trimmed (dtake (Z.min n MAX_DIGITS) ds) in
  let! _ := dassert (dec_ok n ds) in
  Some (Decimal sign n dp trunc ds).

(** slow_exact.rs:94-119 *)
Definition DEC_TO_BIN_SHIFT : list Z :=
  [0; 3; 6; 9; 13; 16; 19; 23; 26; 29; 33; 36; 39; 43; 46; 49; 53; 56; 59; 60].
Definition dec_to_bin_shift (i : Z) : Z := nth (Z.to_nat (Z.min i 19)) DEC_TO_BIN_SHIFT 0.

(** slow_exact.rs:127-132.  The loops below are bounded by [fuel]; running out of it is
    [None].  *)
Fixpoint down_loop (fuel : nat) (x : decimal) (bin_exp : Z) : option (decimal * Z) :=
  if 0 <? dc_point x then
    match fuel with
    | S f =>
      let n := dec_to_bin_shift (dc_point x) in
      let! x := right_shift x n in
      let! bin_exp := adds 32 bin_exp n in
      down_loop f x bin_exp
    | O => None
    end
  else Some (x, bin_exp).

(** slow_exact.rs:133-146 *)
Fixpoint up_loop (fuel : nat) (x : decimal) (bin_exp : Z) : option (decimal * Z) :=
  if dc_point x <=? 0 then
    let step n f :=
      let! x := left_shift x n in
      let! bin_exp := subs 32 bin_exp n in
      up_loop f x bin_exp in
    match fuel with
    | S f =>
      if dc_point x =? 0 then
        let d := digit_at (dc_digits x) 0 in
        if d <=? 1 then step 2 f
        else if d <=? 4 then step 1 f
        else Some (x, bin_exp)
      else step (dec_to_bin_shift (- dc_point x)) f
    | O => None
    end
  else Some (x, bin_exp).

(** slow_exact.rs:151-155 *)
Fixpoint emin_loop (fuel : nat) (x : decimal) (bin_exp : Z) : option (decimal * Z) :=
  if bin_exp <? EMIN then
    match fuel with
    | S f =>
      let! d := subs 32 EMIN bin_exp in
      let n := Z.min d 60 in
      let! x := right_shift x n in
      let! bin_exp := adds 32 bin_exp n in
      emin_loop f x bin_exp
    | O => None
    end
  else Some (x, bin_exp).

(** slow_exact.rs:93-189; 165-170 shifts by 60 + 60 + 60 + 57 = SIGNIFICAND_BITS *)
Definition f256_exact (s : list Z) : option f256 :=
  let! dec := parse_decimal s in
  let fuel := Z.to_nat (Z.abs (dc_point dec) + 300000) in
  let! (dec, bin_exp) := down_loop fuel dec 0 in
  let! (dec, bin_exp) := up_loop fuel dec bin_exp in
  let! bin_exp := subs 32 bin_exp 1 in
  let! (dec, bin_exp) := emin_loop fuel dec bin_exp in
  if EMAX <? bin_exp then pick INFINITY NEG_INFINITY (dc_sign dec)
  else
    let! dec := left_shift dec 60 in
    let! dec := left_shift dec 60 in
    let! dec := left_shift dec 60 in
    let! dec := left_shift dec 57 in
    let! c := dec_round dec in
    let fin (c : U256) (bin_exp : Z) :=
      let! bin_exp := if xhi c <? HI_FRACTION_BIAS then subs 32 bin_exp 1 else Some bin_exp in
      if is_zero c then pick ZERO NEG_ZERO (dc_sign dec)
      else
        let! _ := dassert (- EMAX <=? bin_exp) in
        let! _ := dassert (bin_exp <=? EMAX) in
        new (dc_sign dec) bin_exp c in
    if 2 * HI_FRACTION_BIAS <=? xhi c then
      let! dec := right_shift dec 1 in
      let! bin_exp := adds 32 bin_exp 1 in
      if EMAX <? bin_exp then pick INFINITY NEG_INFINITY (dc_sign dec)
      else
        let! c := dec_round dec in
        fin c bin_exp
    else fin c bin_exp.

(** ** src/conv/from_str/fast_approx.rs *)

(** powers_of_five.rs:15-18 *)
Definition get_power_of_five (n : Z) : option (Z * Z * Z) :=
  let! _ := dassert (Z.abs n <=? 1024) in
  nth_error POWERS_OF_FIVE (Z.to_nat (n + 1024)).

(** fast_approx.rs:44-94: the rounded significand and exponent, or [None] if the answer
    is not certain *)
Definition approx (exp10 : Z) (signif10 : U256) : option (option (U256 * Z)) :=
  let signif10_nlz := leading_zeros signif10 in
  let! signif10 := ushl signif10 signif10_nlz in
  let! (p5hi, p5lo, exp2) := get_power_of_five exp10 in
  let! signif2 := truncating_mul signif10 (u256 p5hi p5lo) in
  let signif2_nlz := leading_zeros signif2 in
  let! shift := subu 32 EXP_BITS signif2_nlz in
  let! m := shlu 128 1 shift in
  let! mask := subu 128 m 1 in
  let! sh1 := subu 32 shift 1 in
  let! tie := shlu 128 1 sh1 in
  let fract := Z.land (xlo signif2) mask in
  let! signif2 := ushr signif2 shift in
  let! round_up :=
    match fract ?= tie with
    | Gt => Some (Some true)
    | Lt => let! t := subu 128 tie 1 in Some (if fract =? t then None else Some false)
    | Eq => Some (if (0 <=? exp10) && (exp10 <=? 110) then Some (Z.odd (xlo signif2))
                  else Some true)
    end in
  match round_up with
  | None => Some None
  | Some up =>
    let! (signif2, exp2) :=
      if up then
        let signif2 := incr signif2 in
        if 2 * HI_FRACTION_BIAS <=? xhi signif2 then
          let! signif2 := ushr signif2 1 in
          let! exp2 := adds 32 exp2 1 in
          Some (signif2, exp2)
        else Some (signif2, exp2)
      else Some (signif2, exp2) in
    let! a := subs 32 256 (casts 32 signif10_nlz) in
    let! a := subs 32 a (casts 32 signif2_nlz) in
    let! a := adds 32 a exp10 in
    let! exp2 := adds 32 exp2 a in
    Some (Some (signif2, exp2))
  end.

(** fast_approx.rs:95-99 *)
Definition approx_result (sign : Z) (signif2 : U256) (exp2 : Z) : option f256 :=
  if EMAX <? exp2 then pick INFINITY NEG_INFINITY sign else new sign exp2 signif2.

(** fast_approx.rs:26-121 for a significand that is not truncated *)
Definition fast_approx_full (lit : list Z) (sign exp10 : Z) (signif10 : U256) : option f256 :=
  if Z.abs exp10 <=? 1024 then
    let! o := approx exp10 signif10 in
    match o with
    | Some (c, e) => approx_result sign c e
    | None => f256_exact lit
    end
  else f256_exact lit.

(** fast_approx.rs:26-121.  [signif10_incr] is made from the significand that has already
    been shifted to the left. *)
Definition fast_approx (lit : list Z) (sign exp10 : Z) (signif10 : U256) (truncated : bool)
  : option f256 :=
  if negb truncated then fast_approx_full lit sign exp10 signif10
  else if Z.abs exp10 <=? 1024 then
    let! o := approx exp10 signif10 in
    match o with
    | Some (c, e) =>
      if EMAX <? e then pick INFINITY NEG_INFINITY sign
      else
        let! f := new sign e c in
        let! shifted := ushl signif10 (leading_zeros signif10) in
        let! g := fast_approx_full lit sign exp10 (incr shifted) in
        if f_eq f g then Some f else f256_exact lit
    | None => f256_exact lit
    end
  else f256_exact lit.

(** ** src/conv/from_str/fast_exact.rs *)

(** fast_exact.rs:16 *)
Definition MAX_SIGNIF_HI : Z := 2 ^ 108 + (2 ^ 108 - 1).

(** fast_exact.rs:43-57 *)
Definition exact (sign exp10 : Z) (signif10 : U256) : option f256 :=
  let! x := from_u256 signif10 in
  let a := Z.abs exp10 in
  let! row := nth_error POWERS_OF_FIVE_EXACT (Z.to_nat a) in
  let y := from_be_bytes row in
  let! f :=
    if exp10 <? 0 then
      let! f := div x y in
      let! h := subu 128 (xhi f) (shlc 128 a HI_FRACTION_BITS) in
      Some (u256 h (xlo f))
    else
      let! f := mul x y in
      let! h := addu 128 (xhi f) (shlc 128 a HI_FRACTION_BITS) in
      Some (u256 h (xlo f)) in
  Some (u256 (Z.lor (xhi f) (shlc 128 sign HI_SIGN_SHIFT)) (xlo f)).

(** fast_exact.rs:20-76 for a significand that is not truncated *)
Definition fast_exact_full (lit : list Z) (sign exp10 : Z) (signif10 : U256) : option f256 :=
  let! _ := dassert ((sign =? 0) || (sign =? 1)) in
  let! _ := dassert (negb (is_zero signif10)) in
  if (xhi signif10 <=? MAX_SIGNIF_HI) && (Z.abs exp10 <=? 102) then exact sign exp10 signif10
  else fast_approx lit sign exp10 signif10 false.

(** fast_exact.rs:20-76 *)
Definition fast_exact (lit : list Z) (sign exp10 : Z) (signif10 : U256) (truncated : bool)
  : option f256 :=
  let! _ := dassert ((sign =? 0) || (sign =? 1)) in
  let! _ := dassert (negb (is_zero signif10)) in
  if (xhi signif10 <=? MAX_SIGNIF_HI) && (Z.abs exp10 <=? 102) then
    let! f := exact sign exp10 signif10 in
    if truncated then
      let! g := fast_exact_full lit sign exp10 (incr signif10) in
      if f_eq f g then Some f else f256_exact lit
    else Some f
  else fast_approx lit sign exp10 signif10 truncated.

(** ** src/conv/from_str/mod.rs *)

(** mod.rs:28, lib.rs:131, lib.rs:217 *)
Definition MIN_10_EXP_CUTOFF : Z := -79056.
Definition MIN_GT_ZERO_10_EXP : Z := -78984.
Definition MAX_10_EXP : Z := 78913.

(** [Result<f256, ParseFloatError>] *)
Inductive parsed := ErrEmpty | ErrInvalid | Ok (x : f256).

(** mod.rs:59-110: [f256::from_str] *)
Definition from_str (s : list Z) : option parsed :=
  let! r := float_repr_from_str s in
  match r with
  | Empty => Some ErrEmpty
  | Invalid => Some ErrInvalid
  | Nan => Some (Ok NAN)
  | Inf sign => let! x := pick INFINITY NEG_INFINITY sign in Some (Ok x)
  | Number r =>
    let sign := d_sign r in
    let exp10 := d_exponent r in
    let signif10 := d_significand r in
    let! x :=
      if is_zero signif10 || (exp10 <? MIN_10_EXP_CUTOFF) then pick ZERO NEG_ZERO sign
      else if exp10 <? MIN_GT_ZERO_10_EXP then f256_exact s
      else if MAX_10_EXP <? exp10 then pick INFINITY NEG_INFINITY sign
      else fast_exact s sign exp10 signif10 (d_truncated r) in
    Some (Ok x)
  end.

End Model.

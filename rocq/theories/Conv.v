(** * Conv: model of the conversions from integers and from f32/f64
    Sources: src/conv/from_int.rs, src/conv/from_float.rs. *)

From Coq Require Import ZArith Bool List Lia.
From Verif Require Import Base BigUInt F256.
Open Scope Z_scope.

Section Conv.
Context {P : profile}.

(** ** From integers *)

(** src/conv/from_int.rs:17-31.  [i] is an i64; [(i as i128).unsigned_abs()] is |i|. *)
Definition from_i64 (i : Z) : option f256 :=
  if i =? 0 then Some ZERO
  else
    let j := Z.abs i in
    let! msb := subu 32 127 (nlz 128 j) in
    let! sh := subu 32 HI_FRACTION_BITS msb in
    let! h := shlu 128 j sh in
    new (b2z (i <? 0)) (casts 32 msb) (u256 h 0).

(** src/conv/from_int.rs:33-51.  [checked_abs] is [None] for i128::MIN only, and then
    [i as u128] is the two's complement pattern. *)
Definition from_i128 (i : Z) : option f256 :=
  if i =? 0 then Some ZERO
  else
    let j := if i =? - 2 ^ 127 then castu 128 i else Z.abs i in
    let! msb := subu 32 127 (nlz 128 j) in
    let! sh := subu 32 FRACTION_BITS msb in
    let! c := shift_left (u256 0 j) sh in
    new (b2z (i <? 0)) (casts 32 msb) c.

(** src/conv/from_int.rs:53-66 *)
Definition from_u64 (i : Z) : option f256 :=
  if i =? 0 then Some ZERO
  else
    let! msb := subu 32 127 (nlz 128 i) in
    let! sh := subu 32 HI_FRACTION_BITS msb in
    let! h := shlu 128 i sh in
    new 0 (casts 32 msb) (u256 h 0).

(** src/conv/from_int.rs:68-81 *)
Definition from_u128 (i : Z) : option f256 :=
  if i =? 0 then Some ZERO
  else
    let! msb := subu 32 127 (nlz 128 i) in
    let! sh := subu 32 FRACTION_BITS msb in
    let! c := shift_left (u256 0 i) sh in
    new 0 (casts 32 msb) c.

(** src/conv/from_int.rs:83-93 *)
Definition from_u256 (i : U256) : option f256 :=
  let! _ := dassert (EXP_BITS <=? nlz 128 (xhi i)) in
  if is_zero i then Some ZERO
  else
    let! m := msb i in
    let! sh := subu 32 FRACTION_BITS m in
    let! c := shift_left i sh in
    new 0 (casts 32 m) c.

(** src/conv/from_int.rs:96-120, 172-196: [From<t>] for the primitive types: a widening
    cast, which keeps the value, followed by one of the functions above. *)
Inductive prim := I8 | I16 | I32 | I64 | I128 | PU8 | PU16 | PU32 | PU64 | PU128.
Definition prim_range (t : prim) : Z * Z :=
  match t with
  | I8 => (- 2 ^ 7, 2 ^ 7) | I16 => (- 2 ^ 15, 2 ^ 15) | I32 => (- 2 ^ 31, 2 ^ 31) | I64 => (- 2 ^ 63, 2 ^ 63)
  | I128 => (- 2 ^ 127, 2 ^ 127)
  | PU8 => (0, 2 ^ 8) | PU16 => (0, 2 ^ 16) | PU32 => (0, 2 ^ 32) | PU64 => (0, 2 ^ 64) | PU128 => (0, 2 ^ 128)
  end.
Definition from_prim (t : prim) (i : Z) : option f256 :=
  match t with
  | I8 | I16 | I32 | I64 => from_i64 i
  | I128 => from_i128 i
  | PU8 | PU16 | PU32 | PU64 => from_u64 i
  | PU128 => from_u128 i
  end.

(** ** From f32 and f64: src/conv/from_float.rs *)

(** src/conv/from_float.rs:15-17; saturating_sub(a, b) = max 0 (a - b) *)
Definition fl_min (x y : Z) : Z := x - Z.max 0 (x - y).

(** The associated constants as functions of PREC_LEVEL (5 for f32, 6 for f64),
    src/conv/from_float.rs:19-47. *)
Section Float.
Variable prec_level : Z.
Definition fl_total_bits : Z := 2 ^ prec_level.
Definition fl_exp_bits : Z := 4 * prec_level - fl_min 6 prec_level - 7.
Definition fl_fraction_bits : Z := fl_total_bits - fl_exp_bits - 1.
Definition fl_biased_exp_max : Z := 2 ^ fl_exp_bits - 1.
Definition fl_exp_bias_adj : Z := Z.shiftr fl_biased_exp_max 1 + fl_fraction_bits.
Definition fl_fraction_mask : Z := 2 ^ fl_fraction_bits - 1.
Definition fl_fraction_bias : Z := 2 ^ fl_fraction_bits.
Definition fl_sign_shift : Z := fl_total_bits - 1.
Definition fl_sign_mask : Z := 2 ^ fl_sign_shift.
Definition fl_abs_mask : Z := (2 ^ 64 - 1) - fl_sign_mask.
Definition fl_inf : Z := fl_biased_exp_max * 2 ^ fl_fraction_bits.

(** src/conv/from_float.rs:69-105; [bits] is the u64 given by [to_bits]. *)
Definition from_float (bits : Z) : option f256 :=
  let abs_bits := Z.land bits fl_abs_mask in
  let! t := shru 64 bits fl_sign_shift in
  let sign := castu 32 t in
  if (fl_fraction_bias <=? abs_bits) && (abs_bits <? fl_inf) then
    let! e := shru 64 abs_bits fl_fraction_bits in
    let! exp := subs 32 (casts 32 e) (casts 32 fl_exp_bias_adj) in
    encode sign exp (u256 0 (Z.lor (Z.land bits fl_fraction_mask) fl_fraction_bias))
  else if abs_bits =? 0 then pick ZERO NEG_ZERO sign
  else if abs_bits <? fl_fraction_bias then
    let! exp := subs 32 1 (casts 32 fl_exp_bias_adj) in
    encode sign exp (u256 0 (Z.land bits fl_fraction_mask))
  else if abs_bits =? fl_inf then pick INFINITY NEG_INFINITY sign
  else pick NAN (negated NAN) sign.
End Float.

(** src/conv/from_float.rs:49-67 *)
Definition from_f32 (bits : Z) : option f256 := from_float 5 bits.
Definition from_f64 (bits : Z) : option f256 := from_float 6 bits.

End Conv.

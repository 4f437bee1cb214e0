(** * Trig: model of sine, cosine and tangent (src/math/circular_fns) for arguments below 8

    [reduce] for arguments from 8 on (fma_reduce and large_val_reduce, src/math/circular_fns/reduce.rs:125-277)
    is not modelled: it is the parameter [large], an arbitrary function of the exponent and the argument.  Every theorem
    holds for all such functions. *)

From Verif Require Import Base BigUInt F256 Arith Conv Log TrigTable.

(** src/math/fp509.rs:38-39 *)
Definition FP_TWO : FP492 := fp_new (2 ^ 109) 0 0 0.

(** src/math/circular_fns/reduce.rs:18-23 *)
Definition FP_FRAC_PI_4 : FP492 :=
  fp_new 0x00000c90fdaa22168c234c4c6628b80d 0xc1cd129024e088a67cc74020bbea63b1
         0x39b22514a08798e3404ddef9519b3cd3 0xa431b302b0a6df25f14374fe1356d6d5.
(** src/math/circular_fns/reduce.rs:24-29 *)
Definition FP_FRAC_PI_2 : FP492 :=
  fp_new 0x00001921fb54442d18469898cc51701b 0x839a252049c1114cf98e804177d4c762
         0x73644a29410f31c6809bbdf2a33679a7 0x48636605614dbe4be286e9fc26adadaa.
(** src/math/circular_fns/reduce.rs:30-35 *)
Definition FP_FRAC_3_PI_4 : FP492 :=
  fp_new 0x000025b2f8fe6643a469e4e5327a2829 0x456737b06ea199f37655c06233bf2b13
         0xad166f3de196caa9c0e99cebf4d1b67a 0xec95190811f49d71d3ca5efa3a04847f.
(** src/math/circular_fns/reduce.rs:36-41 *)
Definition FP_PI : FP492 :=
  fp_new 0x00003243f6a8885a308d313198a2e037 0x07344a4093822299f31d0082efa98ec4
         0xe6c89452821e638d01377be5466cf34e 0x90c6cc0ac29b7c97c50dd3f84d5b5b54.
(** src/math/circular_fns/reduce.rs:42-47 *)
Definition FP_FRAC_5_PI_4 : FP492 :=
  fp_new 0x00003ed4f452aa70bcb07d7dfecb9844 0xc9015cd0b862ab406fe440a3ab93f276
         0x207ab96722a5fc7041855ade98083022 0x34f87f0d73425bbdb65148f660b2322a.
(** src/math/circular_fns/reduce.rs:48-53 *)
Definition FP_FRAC_7_PI_4_M4 : FP492 :=
  fp_new 0x000017f6efa6ee9dd4f71616cb1d0860 0x4c9b81f10223bc8d6972c0e52368b9d8
         0x93df039063b52e36c22118d13b3ea9c9 0x7d5be512d4901a0998d832f2875fdfd4.
(** src/math/circular_fns/reduce.rs:54-59 *)
Definition FP_FRAC_9_PI_4_M4 : FP492 :=
  fp_new 0x00003118eafb32caed3daeaf976e787b 0xd035a7114be4cdda630141269b3d813b
         0x07434db9a4c45ffd42bcd6c3de752370 0xc5bf4b1835ddd8557b5f1ceeae0d8d7e.
(** src/math/circular_fns/approx_sin.rs:236-241 *)
Definition SIN_CUT_OFF : FP492 :=
  fp_new 0x00000000000000000000000000000000 0x005c4dd12448fbd973779fc5b15b8c99
         0xf02871b5584367dcb9d6fe24cc9ce800 0x00000000000000000000000000000000.
(** src/math/circular_fns/approx_cos.rs:249-254 *)
Definition COS_CUT_OFF : FP492 :=
  fp_new 0x00000000000000000000000000000000 0x002d413cccfe779921165f626cdd52af
         0xa7c75bd82ea24eea133b45eb2160cc00 0x00000000000000000000000000000000.

Section Trig.
Context `{profile}.

(** src/math/fp509.rs:232-250: [From<&f256>] *)
Definition fp_of_f256 (x : f256) : option FP492 :=
  let! lim := from_u64 (2 ^ FP_INT_BITS) in
  let! _ := dassert (f_lt x lim) in
  let! (se, m) := split_f256_enc x in
  let! e := adds 32 (snd se) FRACTION_BITS in
  let shl := castu 32 (Z.min (Z.max e 0) FP_INT_BITS) in
  let shr := Z.abs (Z.min (Z.max e (FP_INT_BITS + 1 - 512)) 0) in
  let! m := ushl m shl in
  let! r := ushr (mk m uzero : U512) shr in
  Some (if is_sign_negative x then fp_ineg r else r).

(** src/math/fp509.rs:326-331: [-=] *)
Definition fp_sub (x y : FP492) : FP492 := fp_add x (fp_ineg y).

(** The operator [<=] of a type with [cmp] *)
Definition fp_le (x y : FP492) : bool := match fp_cmp x y with Gt => false | _ => true end.

(** The loops of src/math/circular_fns/approx_sin.rs:253-256 and approx_cos.rs:266-269 *)
Fixpoint horner (cs : list (Z * Z * Z * Z)) (x2 s : FP492) : option FP492 :=
  match cs with
  | [] => Some s
  | c :: cs =>
    let! s := fp_imul_round s x2 in
    horner cs x2 (fp_add s (fp_of c))
  end.
Definition poly (cs : list (Z * Z * Z * Z)) (x2 : FP492) : option FP492 :=
  match cs with [] => None | c :: cs => horner cs x2 (fp_of c) end.

(** src/math/circular_fns/approx_sin.rs:243-259 *)
Definition approx_sin (x : FP492) : option FP492 :=
  let a := fp_iabs x in
  if fp_le a SIN_CUT_OFF then Some x
  else
    let! x2 := fp_imul_round a a in
    let! s := poly SIN_COEFFS x2 in
    fp_imul_round s x.

(** src/math/circular_fns/approx_cos.rs:256-271 *)
Definition approx_cos (x : FP492) : option FP492 :=
  let a := fp_iabs x in
  if fp_le a COS_CUT_OFF then Some FP_ONE
  else
    let! x2 := fp_imul_round a a in
    poly COS_COEFFS x2.

(** src/math/circular_fns/approx_sin_cos.rs:16-24 *)
Definition approx_sin_cos (x : FP492) : option (FP492 * FP492) :=
  if fp_le (fp_iabs x) COS_CUT_OFF then Some (x, FP_ONE)
  else
    let! s := approx_sin x in
    let! c := approx_cos x in
    Some (s, c).

Variable large : Z -> f256 -> option (Z * FP492).

(** src/math/circular_fns/reduce.rs:62-123 *)
Definition fp_reduce (exp : Z) (x : f256) : option (Z * FP492) :=
  let! _ := dassert (-1 <=? exp) in
  let! _ := dassert (is_sign_positive x) in
  if exp =? -1 then
    let! fx := fp_of_f256 x in
    if fp_le fx FP_FRAC_PI_4 then Some (0, fx)
    else Some (1, fp_sub fx FP_FRAC_PI_2)
  else if exp =? 0 then
    let! fx := fp_of_f256 x in
    Some (1, fp_sub fx FP_FRAC_PI_2)
  else if exp =? 1 then
    let! fx := fp_of_f256 x in
    if fp_le fx FP_FRAC_3_PI_4 then Some (1, fp_sub fx FP_FRAC_PI_2)
    else if fp_le fx FP_FRAC_5_PI_4 then Some (2, fp_sub fx FP_PI)
    else Some (3, fp_sub (fp_sub fx FP_PI) FP_FRAC_PI_2)
  else if exp =? 2 then
    let! four := from_u64 4 in
    let! y := sub x four in
    let! fx := fp_of_f256 y in
    if fp_le fx FP_FRAC_7_PI_4_M4 then
      Some (3, fp_sub (fp_add (fp_sub (fp_add fx FP_TWO) FP_PI) FP_TWO) FP_FRAC_PI_2)
    else if fp_le fx FP_FRAC_9_PI_4_M4 then
      Some (0, fp_add (fp_sub (fp_add (fp_sub fx FP_PI) FP_TWO) FP_PI) FP_TWO)
    else
      Some (1, fp_sub (fp_add (fp_sub (fp_add (fp_sub fx FP_PI) FP_TWO) FP_PI) FP_TWO) FP_FRAC_PI_2)
  else large exp x.

(** src/math/circular_fns/reduce.rs:280-288 *)
Definition reduce (x : f256) : option (Z * FP492) :=
  let! _ := dassert (is_finite x && is_sign_positive x) in
  let! e := exponent x in
  if e <=? -2 then
    let! fx := fp_of_f256 x in
    Some (0, fx)
  else fp_reduce e x.

(** src/math/circular_fns/sin.rs:19-42; [unreachable!()] panics *)
Definition f_sin (x : f256) : option f256 :=
  if is_special x then
    Some (if xhi MAX <? Z.land (xhi x) HI_ABS_MASK then NAN else ZERO)
  else
    let! (q, fx) := reduce (abs x) in
    let! r :=
      (if (q =? 0) || (q =? 2) then approx_sin fx
       else if (q =? 1) || (q =? 3) then approx_cos fx
       else None) in
    let! f := f256_of_fp r in
    Some (if Bool.eqb (sign x =? 0) (q <=? 1) then f else negated f).

(** src/math/circular_fns/cos.rs:19-38 *)
Definition f_cos (x : f256) : option f256 :=
  if is_special x then
    Some (if xhi MAX <? Z.land (xhi x) HI_ABS_MASK then NAN else ONE)
  else
    let! (q, fx) := reduce (abs x) in
    let! r :=
      (if (q =? 0) || (q =? 2) then approx_cos fx
       else if (q =? 1) || (q =? 3) then approx_sin fx
       else None) in
    let! f := f256_of_fp r in
    Some (if (q =? 1) || (q =? 2) then negated f else f).

(** src/math/circular_fns/sin_cos.rs:26-51 *)
Definition f_sin_cos (x : f256) : option (f256 * f256) :=
  if is_special x then
    Some (if xhi MAX <? Z.land (xhi x) HI_ABS_MASK then (NAN, NAN) else (ZERO, ONE))
  else
    let! (q, fx) := reduce (abs x) in
    let! (s, c) := approx_sin_cos fx in
    let! s := f256_of_fp s in
    let! c := f256_of_fp c in
    let pos := sign x =? 0 in
    if q =? 0 then Some (if pos then s else negated s, c)
    else if q =? 1 then Some (if pos then c else negated c, negated s)
    else if q =? 2 then Some (if pos then negated s else s, negated c)
    else if q =? 3 then Some (if pos then negated c else c, s)
    else None.

(** src/math/circular_fns/tan.rs:15-27 *)
Definition f_tan (x : f256) : option f256 :=
  if is_special x then
    Some (if xhi MAX <? Z.land (xhi x) HI_ABS_MASK then NAN else ZERO)
  else
    let! (s, c) := f_sin_cos x in
    div s c.

End Trig.

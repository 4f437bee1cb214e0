(** * Properties C09 - C16, C35, C36, C38, C39: arithmetic

    [returns m r]: the call does not panic and its result has bit pattern [r]. *)

From Coq Require Import ZArith Bool List Lia.
From Verif Require Import Base BigUInt BigExtra Spec SpecFns F256 Arith Interface LiftProofs LiftAlg BasicProofs SpecAlg
  SpecProps SpecLemmas MulProofs Compute.
Import ListNotations.
Open Scope Z_scope.

(** ** The specification's rounding is what it should be *)

(** No encoding is nearer to n / d than [rnd_mag n d] (in units of 2^-262378, the encoding
    of infinity standing for 2^262144), and if another is as near then the chosen one is even. *)
Theorem S_rounding_nearest : forall n d a, 0 <= n -> 0 < d -> 0 <= a <= INFm -> a <> rnd_mag n d ->
  let m := rnd_mag n d in
  Z.abs (n - d * mag_val m) < Z.abs (n - d * mag_val a)
  \/ (Z.abs (n - d * mag_val m) = Z.abs (n - d * mag_val a) /\ Z.odd m = false).
Proof. exact rnd_mag_nearest. Qed.
Print Assumptions S_rounding_nearest.

Theorem S_rounding_exact : forall a, 0 <= a <= INFm -> rnd_mag (mag_val a) 1 = a.
Proof. exact rnd_mag_exact. Qed.
Print Assumptions S_rounding_exact.

Theorem S_rounding_mono : forall n d n' d', 0 <= n -> 0 < d -> 0 <= n' -> 0 < d' -> n * d' <= n' * d ->
  rnd_mag n d <= rnd_mag n' d'.
Proof. exact rnd_mag_mono. Qed.
Print Assumptions S_rounding_mono.

Example S_ex : rnd_mag (2 ^ 237 + 1) 1 = 2 ^ 237 /\ rnd_mag (2 ^ 238 + 3) 2 = 2 ^ 237 + 1 /\ rnd_mag 7 2 = 4 /\ rnd_mag 5 2 = 2.
Proof. vm_compute. repeat split. Qed.

(** ** C09, C10 Addition and subtraction *)
Theorem C09_add : forall (P : profile) x y, wf256 x -> wf256 y -> returns (add x y) (spec_add (v256 x) (v256 y)).
Proof. exact (@L_add). Qed.
Print Assumptions C09_add.

(** 1 + 2^-237 is a tie and rounds to 1; 1 + 3*2^-237 rounds up; MAX + MAX overflows. *)
Example C09_ex : forall P : profile,
  add (bits ONEm) (bits (ONEm - 237 * 2 ^ 236)) = Some (bits ONEm)
  /\ add (bits (ONEm + 1)) (bits (ONEm - 237 * 2 ^ 236)) = Some (bits (ONEm + 2))
  /\ add (bits (INFm - 1)) (bits (INFm - 1)) = Some (bits INFm)
  /\ add (bits INFm) (bits (2 ^ 255 + INFm)) = Some (bits QNAN).
Proof. intros []; vm_compute; repeat split. Qed.

Theorem C10_sub : forall (P : profile) x y, wf256 x -> wf256 y -> returns (sub x y) (spec_sub (v256 x) (v256 y)).
Proof. exact (@L_sub). Qed.
Print Assumptions C10_sub.

Example C10_ex : forall P : profile,
  sub (bits ONEm) (bits (ONEm - 238 * 2 ^ 236)) = Some (bits ONEm)
  /\ sub (bits ONEm) (bits (ONEm - 237 * 2 ^ 236)) = Some (bits (ONEm - 1))
  /\ sub (bits 5) (bits 5) = Some (bits 0).
Proof. intros []; vm_compute; repeat split. Qed.

(** ** C11 Multiplication *)

(** Right unless the exact product is finite, non-zero and below the least normal number. *)
Theorem C11_mul_partial : forall (P : profile) x y, wf256 x -> wf256 y ->
  2 ^ 236 * 2 ^ UNITe <= mag_val (mag (v256 x)) * mag_val (mag (v256 y))
  \/ finb (v256 x) && finb (v256 y) = false \/ zerob (v256 x) || zerob (v256 y) = true ->
  returns (mul x y) (spec_mul (v256 x) (v256 y)).
Proof. exact (@L_mul). Qed.
Print Assumptions C11_mul_partial.

(** For all operands: no panic, and the specified product or, for a subnormal result whose
    exact value lies above a tie by less than 2^-238 of itself, the neighbour below. *)
Theorem C11_mul_any_partial : forall (P : profile) x y, wf256 x -> wf256 y ->
  returns_in (mul x y) (fun r => r = spec_mul (v256 x) (v256 y) \/
    exists m, mul_miss (mag_val (mag (v256 x)) * mag_val (mag (v256 y))) (2 ^ UNITe) m
      /\ r = mkf (xors (sgn (v256 x)) (sgn (v256 y))) m /\ spec_mul (v256 x) (v256 y) = r + 1).
Proof. exact (@L_mul_any). Qed.
Print Assumptions C11_mul_any_partial.

(** The full claim is false: a subnormal product that must round to 63 units is given as 62. *)
Theorem C11_refuted : forall P : profile, exists x y, wf256 x /\ wf256 y /\
  spec_mul (v256 x) (v256 y) = 63 /\ mul x y = Some (bits 62).
Proof.
  intros P. exists (bits 0x2004740000000000000000000100000000000000000000000000000000000000), (bits 0x1fed28fffffffffffffffffffec0000000000000000000100000000000000000).
  split; [apply wf_bits; lia|]. split; [apply wf_bits; lia|]. rewrite !v_bits. split; [|destruct P; vm_compute; reflexivity].
  set (X := 0x2004740000000000000000000100000000000000000000000000000000000000). set (Y := 0x1fed28fffffffffffffffffffec0000000000000000000100000000000000000).
  rewrite (spec_mul_fields X Y (X / 2 ^ 236 - 1) (2 ^ 236 + X mod 2 ^ 236) (Y / 2 ^ 236 - 1) (2 ^ 236 + Y mod 2 ^ 236))
    by (vm_compute; reflexivity).
  vm_compute. reflexivity.
Qed.
Print Assumptions C11_refuted.

Example C11_ex : forall P : profile,
  mul (bits (ONEm + 1)) (bits (ONEm + 2 ^ 235)) = Some (bits (ONEm + 2 ^ 235 + 2))
  /\ mul (bits (INFm - 1)) (bits (2 ^ 255 + INFm - 1)) = Some (bits (2 ^ 255 + INFm))
  /\ mul (bits 0) (bits INFm) = Some (bits QNAN).
Proof. intros []; vm_compute; repeat split. Qed.

(** ** C12 Division *)
Theorem C12_div : forall (P : profile) x y, wf256 x -> wf256 y -> returns (div x y) (spec_div (v256 x) (v256 y)).
Proof. exact (@L_div). Qed.
Print Assumptions C12_div.

Theorem C12_recip : forall (P : profile) x, wf256 x -> returns (recip x) (spec_div ONEm (v256 x)).
Proof. exact (@L_recip). Qed.
Print Assumptions C12_recip.

(** 1/3 = 0x1.5555...p-2, rounded down; 3 units / 2 is a tie to 2 units. *)
Example C12_ex : forall P : profile,
  div (bits ONEm) (bits (ONEm + 2 ^ 236 + 2 ^ 235)) = Some (bits (ONEm - 2 * 2 ^ 236 + (2 ^ 236 - 1) / 3))
  /\ div (bits 3) (bits (ONEm + 2 ^ 236)) = Some (bits 2) /\ div (bits 1) (bits (2 ^ 255)) = Some (bits (2 ^ 255 + INFm)).
Proof. intros []; vm_compute; repeat split. Qed.

(** ** C13 Remainder *)

(** NaN, infinities, zeros and |x| < |y|. *)
Theorem C13_rem_special : forall (P : profile) x y, wf256 x -> wf256 y ->
  (finb (v256 x) && finb (v256 y) && (mag (v256 y) <=? mag (v256 x)) && negb (zerob (v256 y))) = false ->
  returns (rem x y) (spec_rem (v256 x) (v256 y)).
Proof. exact (@L_rem_special). Qed.
Print Assumptions C13_rem_special.

(** Finite |x| >= |y| > 0: exact, for a normal [y] whose exponent differs from that of [x]
    by an amount not congruent to 19 modulo 256, and for |y| < 2^128 units.  Missing: the
    sign of a zero result (it is always +0), the excluded exponent differences (the call
    can panic, see below) and subnormal [y] of more than 128 bits. *)
Theorem C13_rem_partial : forall (P : profile) x y, wf256 x -> wf256 y -> finb (v256 x) = true -> finb (v256 y) = true ->
  0 < mag (v256 y) <= mag (v256 x) ->
  mag (v256 y) < 2 ^ 128 \/
  2 ^ 236 <= mag (v256 y) /\ (mag (v256 x) / 2 ^ 236 - mag (v256 y) / 2 ^ 236) mod 256 <> 19 ->
  returns_in (rem x y) (fun r => finb r = true /\ (sgn r = sgn (v256 x) \/ r = 0)
    /\ mag_val (mag r) = mag_val (mag (v256 x)) mod mag_val (mag (v256 y))).
Proof. exact (@L_rem). Qed.
Print Assumptions C13_rem_partial.

(** x % y panics for two ordinary numbers, and (-6) % 3 is +0 (in units). *)
Theorem C13_refuted : forall P : profile,
  (exists x y, wf256 x /\ wf256 y /\ finb (v256 x) = true /\ kind_normal (v256 y) = true /\ rem x y = None)
  /\ exists x y, wf256 x /\ wf256 y /\ spec_rem (v256 x) (v256 y) = 2 ^ 255 /\ rem x y = Some (bits 0).
Proof.
  intros P. split.
  - exists (bits ((262143 + 236 + 19) * 2 ^ 236 + (2 ^ 236 - 1))), (bits ((262143 + 236) * 2 ^ 236 + (2 ^ 238 / 3 + 1 - 2 ^ 236))).
    split; [apply wf_bits; split; vm_compute; congruence|]. split; [apply wf_bits; split; vm_compute; congruence|]. rewrite !v_bits.
    split; [|split]; destruct P; vm_compute; reflexivity.
  - exists (bits (2 ^ 255 + 6)), (bits 3).
    split; [apply wf_bits; lia|]. split; [apply wf_bits; lia|]. rewrite !v_bits.
    split; destruct P; vm_compute; reflexivity.
Qed.
Print Assumptions C13_refuted.

(** 17 modulo 5 units, and a number near 2^1000 modulo 1.5 *)
Example C13_ex : forall P : profile, rem (bits 17) (bits 5) = Some (bits 2)
  /\ rem (bits (ONEm + 1000 * 2 ^ 236 + 12345)) (bits (ONEm + 2 ^ 235)) = Some (bits ONEm).
Proof. intros []; vm_compute; repeat split. Qed.

(** ** C14 Square root *)
Theorem C14_sqrt : forall (P : profile) x, wf256 x -> returns_in (sqrt x) (spec_sqrt (v256 x)).
Proof. exact (@L_sqrt). Qed.
Print Assumptions C14_sqrt.

Example C14_ex : forall P : profile,
  sqrt (bits (ONEm + 2 * 2 ^ 236)) = Some (bits (ONEm + 2 ^ 236))
  /\ sqrt (bits (ONEm + 2 ^ 236)) = Some (bits (ONEm + (Z.sqrt (2 ^ 473) - 2 ^ 236) ))
  /\ sqrt (bits (2 ^ 255 + 1)) = Some (bits QNAN) /\ sqrt (bits (2 ^ 255)) = Some (bits (2 ^ 255)).
Proof. intros []; vm_compute; repeat split. Qed.

(** ** C15, C16: the full claims are false *)

(** MIN_POSITIVE * MIN_POSITIVE + 3 units must be 3 units. *)
Theorem C15_refuted : forall P : profile, exists x y a, wf256 x /\ wf256 y /\ wf256 a
  /\ kind_normal (v256 x) = true /\ kind_normal (v256 y) = true
  /\ spec_fma (v256 x) (v256 y) (v256 a) = 3
  /\ mul_add x y a = Some (bits 115791978809374646774550386052594111420862745447897009313272701407525548851203).
Proof.
  intros P. exists (bits (2 ^ 236)), (bits (2 ^ 236)), (bits 3).
  split; [apply wf_bits; lia|]. split; [apply wf_bits; lia|]. split; [apply wf_bits; lia|]. rewrite !v_bits.
  split; [reflexivity|]. split; [reflexivity|]. split; [|destruct P; vm_compute; reflexivity].
  apply (spec_fma_tiny _ _ _ 0 (2 ^ 236) 0 (2 ^ 236)); try (vm_compute; reflexivity). lia. unfold UNITe. lia.
Qed.
Print Assumptions C15_refuted.

(** x * x + y * y for x = 1.5 + 2^-118 and y = MIN_POSITIVE is one unit in the last place
    too small: x * x is a tie and the contribution of y is lost. *)
Theorem C16_refuted : forall P : profile, exists x y, wf256 x /\ wf256 y
  /\ kind_normal (v256 x) = true /\ kind_normal (v256 y) = true
  /\ spec_sos (v256 x) (v256 y) = 28948036112821742437020321121683701517368899529126504694089845254674335137793
  /\ sum_of_squares x y = Some (bits 28948036112821742437020321121683701517368899529126504694089845254674335137792).
Proof.
  intros P. exists (bits (ONEm + 2 ^ 235 + 2 ^ 118)), (bits (2 ^ 236)).
  split; [apply wf_bits; unfold ONEm; lia|]. split; [apply wf_bits; lia|]. rewrite !v_bits.
  split; [reflexivity|]. split; [reflexivity|]. split; [|destruct P; vm_compute; reflexivity].
  rewrite (spec_sos_fields _ _ 262142 (2 ^ 236 + 2 ^ 235 + 2 ^ 118) 0 (2 ^ 236)) by (lia || (vm_compute; reflexivity)).
  vm_compute. reflexivity.
Qed.
Print Assumptions C16_refuted.

(** ** C35 Algebraic laws *)
Theorem C35_add_comm : forall (P : profile) x y, wf256 x -> wf256 y -> add x y = add y x.
Proof. exact (@A_add_comm). Qed.
Print Assumptions C35_add_comm.

Theorem C35_mul_comm : forall (P : profile) x y, wf256 x -> wf256 y -> mul x y = mul y x.
Proof. exact (@A_mul_comm). Qed.
Print Assumptions C35_mul_comm.

Theorem C35_sub_self : forall (P : profile) x, wf256 x -> finb (v256 x) = true -> sub x x = Some ZERO.
Proof. exact (@A_sub_self). Qed.
Print Assumptions C35_sub_self.

Theorem C35_add_zero : forall (P : profile) x z, wf256 x -> wf256 z ->
  zerob (v256 z) = true -> zerob (v256 x) = false -> nanb (v256 x) = false -> add x z = Some x.
Proof. exact (@A_add_zero). Qed.
Print Assumptions C35_add_zero.

Theorem C35_mul_one : forall (P : profile) x, wf256 x -> nanb (v256 x) = false -> mul x ONE = Some x.
Proof. exact (@A_mul_one). Qed.
Print Assumptions C35_mul_one.

Theorem C35_div_one : forall (P : profile) x, wf256 x -> nanb (v256 x) = false -> div x ONE = Some x.
Proof. exact (@A_div_one). Qed.
Print Assumptions C35_div_one.

Theorem C35_mul_neg : forall (P : profile) x y, wf256 x -> wf256 y ->
  exists r, mul x y = Some r /\ wf256 r /\ mul (negated x) y = Some (if is_nan r then r else negated r).
Proof. exact (@A_mul_neg). Qed.
Print Assumptions C35_mul_neg.

Theorem C35_add_mono : forall (P : profile) x x' y, wf256 x -> wf256 x' -> wf256 y -> sval (v256 x) <= sval (v256 x') ->
  exists r r', add x y = Some r /\ add x' y = Some r' /\ wf256 r /\ wf256 r' /\
    (is_nan r = true \/ is_nan r' = true \/ sval (v256 r) <= sval (v256 r')).
Proof. exact (@A_add_mono_val). Qed.
Print Assumptions C35_add_mono.

(** Missing: products in the subnormal range and infinite operands. *)
Theorem C35_mul_mono_partial : forall (P : profile) x x' y, wf256 x -> wf256 x' -> wf256 y ->
  finb (v256 x) = true -> finb (v256 x') = true -> finb (v256 y) = true -> 0 <= sval (v256 y) ->
  normal_product (v256 x) (v256 y) -> normal_product (v256 x') (v256 y) ->
  sval (v256 x) <= sval (v256 x') ->
  exists r r', mul x y = Some r /\ mul x' y = Some r' /\ wf256 r /\ wf256 r' /\ sval (v256 r) <= sval (v256 r').
Proof. exact (@A_mul_mono). Qed.
Print Assumptions C35_mul_mono_partial.

Theorem C35_sterbenz : forall (P : profile) x y, wf256 x -> wf256 y -> finb (v256 x) = true -> finb (v256 y) = true ->
  0 <= sval (v256 y) <= 2 * sval (v256 x) -> sval (v256 x) <= 2 * sval (v256 y) ->
  returns_in (sub x y) (fun r => finb r = true /\ sval r = sval (v256 x) - sval (v256 y)).
Proof. exact (@A_sterbenz). Qed.
Print Assumptions C35_sterbenz.

Example C35_ex : forall P : profile,
  add (bits (ONEm + 7)) (bits (2 ^ 255)) = Some (bits (ONEm + 7)) /\ mul (bits 5) ONE = Some (bits 5)
  /\ sub (bits (ONEm + 7)) (bits (ONEm + 5)) = Some (bits (ONEm - 235 * 2 ^ 236)).
Proof. intros []; vm_compute; repeat split. Qed.

(** ** C36 NaN propagation *)
Theorem C36_arith : forall (P : profile) x y, wf256 x -> wf256 y -> is_nan x = true \/ is_nan y = true ->
  (exists r, add x y = Some r /\ is_nan r = true) /\ (exists r, sub x y = Some r /\ is_nan r = true)
  /\ (exists r, mul x y = Some r /\ is_nan r = true) /\ (exists r, div x y = Some r /\ is_nan r = true)
  /\ (exists r, rem x y = Some r /\ is_nan r = true).
Proof. exact (@N_arith). Qed.
Print Assumptions C36_arith.

Theorem C36_sqrt : forall (P : profile) x, wf256 x -> is_nan x = true -> exists r, sqrt x = Some r /\ is_nan r = true.
Proof. exact (@N_sqrt). Qed.
Print Assumptions C36_sqrt.

Theorem C36_comparisons : forall (P : profile) x y, wf256 x -> wf256 y -> is_nan x = true \/ is_nan y = true ->
  f_eq x y = false /\ f_lt x y = false /\ f_le x y = false /\ f_gt x y = false /\ f_ge x y = false.
Proof. exact (@N_cmp). Qed.
Print Assumptions C36_comparisons.

Example C36_ex : forall P : profile, is_nan (bits (2 ^ 255 + INFm + 1)) = true /\
  mul (bits (2 ^ 255 + INFm + 1)) (bits 0) = Some (bits QNAN).
Proof. intros []; vm_compute; split; reflexivity. Qed.

(** ** C38 Error-free transformations *)
Theorem C38_fast_sum : forall (P : profile) a b, wf256 a -> wf256 b -> finb (v256 a) = true -> finb (v256 b) = true ->
  mag (v256 b) <= mag (v256 a) -> finb (spec_add (v256 a) (v256 b)) = true ->
  exists s r, fast_sum a b = Some (s, r) /\ wf256 s /\ wf256 r /\ v256 s = spec_add (v256 a) (v256 b)
    /\ finb (v256 r) = true /\ sval (v256 s) + sval (v256 r) = sval (v256 a) + sval (v256 b).
Proof. exact (@L_fast_sum). Qed.
Print Assumptions C38_fast_sum.

(** 2^237 units + 1 unit + ... : the lost low part is returned. *)
Example C38_ex : forall P : profile,
  fast_sum (bits (2 ^ 237)) (bits 1) = Some (bits (2 ^ 237), bits 1) /\ sval (2 ^ 237) = 2 ^ 237.
Proof. intros []; vm_compute; split; reflexivity. Qed.

(** [sum] is wrong: for a = b = 3 units it returns s = 6 and r = -3. *)
Theorem C38_sum_refuted : forall P : profile, exists a b s r, wf256 a /\ wf256 b /\ wf256 s /\ wf256 r
  /\ sum a b = Some (s, r) /\ finb (v256 s) = true /\ finb (v256 r) = true
  /\ sval (v256 s) + sval (v256 r) <> sval (v256 a) + sval (v256 b).
Proof.
  intros P. exists (bits 3), (bits 3), (bits 6), (bits (2 ^ 255 + 3)).
  repeat (split; [apply wf_bits; lia|]). rewrite !v_bits.
  split; [destruct P; vm_compute; reflexivity|]. repeat split. vm_compute. discriminate.
Qed.
Print Assumptions C38_sum_refuted.

(** ** C39 num-traits *)
Theorem C39_is_zero : forall (P : profile) x, wf256 x -> nt_is_zero x = zerob (v256 x).
Proof. exact (@T_zero). Qed.
Print Assumptions C39_is_zero.

Theorem C39_is_one : forall (P : profile) x, wf256 x -> nt_is_one x = (v256 x =? ONEm).
Proof. exact (@T_one). Qed.
Print Assumptions C39_is_one.

Theorem C39_add_zero : forall (P : profile) x, wf256 x -> nanb (v256 x) = false -> zerob (v256 x) = false ->
  add x nt_zero = Some x.
Proof. exact (fun P x W N Z => A_add_zero x nt_zero W wf_ZERO eq_refl Z N). Qed.
Print Assumptions C39_add_zero.

Theorem C39_mul_one : forall (P : profile) x, wf256 x -> nanb (v256 x) = false -> mul x nt_one = Some x.
Proof. exact (@A_mul_one). Qed.
Print Assumptions C39_mul_one.

Example C39_ex : forall P : profile, nt_is_zero (bits (2 ^ 255)) = true /\ nt_is_one (bits ONEm) = true
  /\ nt_is_one (bits (2 ^ 255 + ONEm)) = false.
Proof. intros []; vm_compute; repeat split. Qed.

(** * Properties C01 - C08 and C17: representation, predicates, order, sign

    Every theorem is for every build profile [P] and all values of the type ([wf256]).
    [v256 x] is the bit pattern, [sval] the value in units of 2^-262378. *)

From Coq Require Import ZArith Bool List Lia.
From Verif Require Import Base BigUInt BigExtra Spec SpecFns F256 Arith Interface LiftProofs LiftAlg BasicProofs SpecAlg.
Import ListNotations.
Open Scope Z_scope.

(** ** C01 Bit and byte conversions are lossless *)
Theorem C01_bits : forall x, wf256 x ->
  from_bits (to_bits x) = x /\ fst (to_bits x) * 2 ^ 128 + snd (to_bits x) = v256 x.
Proof. exact (fun x W => conj (L_bits x W) eq_refl). Qed.
Print Assumptions C01_bits.

Theorem C01_bits_back : forall h l, to_bits (from_bits (h, l)) = (h, l).
Proof. exact L_bits_back. Qed.
Print Assumptions C01_bits_back.

Theorem C01_bytes : forall (P : profile) x, wf256 x ->
  from_le_bytes (to_le_bytes x) = x /\ from_be_bytes (to_be_bytes x) = x /\ from_ne_bytes (to_ne_bytes x) = x.
Proof. exact (fun P x W => conj (L_le x W) (conj (L_be x W) (L_ne x W))). Qed.
Print Assumptions C01_bytes.

Theorem C01_bytes_back : forall l, length l = 32%nat -> Forall (fun b => 0 <= b < 256) l ->
  to_le_bytes (from_le_bytes l) = l /\ to_be_bytes (from_be_bytes l) = l /\ to_ne_bytes (from_ne_bytes l) = l.
Proof. exact (fun l H F => conj (le_bytes_back l H F) (conj (be_bytes_back l H F) (ne_bytes_back l H F))). Qed.
Print Assumptions C01_bytes_back.

(** The i-th little-endian byte is the i-th base-256 digit of the bit pattern, and the
    big-endian bytes are the reversal. *)
Theorem C01_byte_order : forall (P : profile) x i, wf256 x -> (i < 32)%nat ->
  nth i (to_le_bytes x) 0 = (v256 x / 256 ^ Z.of_nat i) mod 256 /\ to_be_bytes x = rev (to_le_bytes x).
Proof. exact (fun P x i W H => conj (proj1 (L_le_digits x i W H)) (be_rev_le x)). Qed.
Print Assumptions C01_byte_order.

Example C01_ex : wf256 (bits (2 ^ 255 + 258)) /\
  firstn 3 (to_le_bytes (bits (2 ^ 255 + 258))) = [2; 1; 0] /\ nth 31 (to_le_bytes (bits (2 ^ 255 + 258))) 0 = 128.
Proof. repeat split; vm_compute; congruence. Qed.

(** ** C02 Classification *)
Theorem C02_predicates : forall (P : profile) x, wf256 x ->
  is_nan x = nanb (v256 x) /\ is_infinite x = infb (v256 x) /\ eq_zero x = zerob (v256 x)
  /\ is_subnormal x = kind_subnormal (v256 x) /\ is_normal x = kind_normal (v256 x)
  /\ is_finite x = finb (v256 x) /\ is_special x = zerob (v256 x) || negb (finb (v256 x))
  /\ is_sign_negative x = (sgn (v256 x) =? 1) /\ is_sign_positive x = (sgn (v256 x) =? 0).
Proof. exact (fun P => L_predicates). Qed.
Print Assumptions C02_predicates.

Theorem C02_exactly_one : forall (P : profile) x, wf256 x ->
  count [is_nan x; is_infinite x; eq_zero x; is_subnormal x; is_normal x] = 1%nat.
Proof. exact (fun P => L_one_kind). Qed.
Print Assumptions C02_exactly_one.

(** [classify] is right except for NaNs with other payloads than the canonical one. *)
Theorem C02_classify_partial : forall (P : profile) x, wf256 x ->
  (nanb (v256 x) = true -> mag (v256 x) = QNAN) -> classify x = spec_classify (v256 x).
Proof. exact (fun P => L_classify). Qed.
Print Assumptions C02_classify_partial.

Theorem C02_classify_refuted : exists x, wf256 x /\ is_nan x = true /\ classify x = FpNormal.
Proof. exists (bits (INFm + 1)). split; [apply (@wf_bits true); unfold INFm; lia|]. split; vm_compute; reflexivity. Qed.
Print Assumptions C02_classify_refuted.

Example C02_ex : classify (bits 1) = FpSubnormal /\ classify (bits (2 ^ 236)) = FpNormal /\ classify (bits (2 ^ 255)) = FpZero
  /\ classify (bits QNAN) = FpNan /\ classify (bits (2 ^ 255 + INFm)) = FpInfinite.
Proof. vm_compute. repeat split. Qed.

(** ** C03 Decoding is exact and reversible *)
Theorem C03_decode : forall (P : profile) x, wf256 x -> finb (v256 x) = true ->
  exists s t ch cl, as_sign_exp_signif x = Some (s, t, (ch, cl))
    /\ s = sgn (v256 x) /\ 0 <= ch < 2 ^ 128 /\ 0 <= cl < 2 ^ 128
    /\ (if zerob (v256 x) then t = 0 /\ ch = 0 /\ cl = 0
        else 0 <= t + UNITe /\ Z.odd cl = true /\ mag_val (mag (v256 x)) = (ch * 2 ^ 128 + cl) * 2 ^ (t + UNITe))
    /\ from_sign_exp_signif s t ch cl = Some x.
Proof. exact (@L_decode). Qed.
Print Assumptions C03_decode.

Example C03_ex : forall P : profile, as_sign_exp_signif (bits (2 ^ 255 + 12)) = Some (1, -262376, (0, 3)).
Proof. intros []; vm_compute; reflexivity. Qed.

(** ** C04 Encoding rounds to nearest, ties to even *)
Theorem C04_encode : forall (P : profile) s t ch cl, (s = 0 \/ s = 1) -> 0 <= ch < 2 ^ 128 -> 0 <= cl < 2 ^ 128 ->
  let c := ch * 2 ^ 128 + cl in
  c <> 0 -> rnd_scaled c t < INFm -> 0 <= t + UNITe \/ 2 ^ 236 * 2 ^ (- (t + UNITe)) <= c ->
  returns (from_sign_exp_signif s t ch cl) (mkf s (rnd_scaled c t)).
Proof. exact (@L_encode). Qed.
Print Assumptions C04_encode.

(** 2^237 + 1 is half way between 2^237 and 2^237 + 2. *)
Example C04_ex : forall P : profile,
  from_sign_exp_signif 0 0 (2 ^ 109) 1 = Some (bits ((262143 + 237) * 2 ^ 236))
  /\ from_sign_exp_signif 1 0 (2 ^ 109) 3 = Some (bits (2 ^ 255 + (262143 + 237) * 2 ^ 236 + 2)).
Proof. intros []; vm_compute; split; reflexivity. Qed.

(** ** C05 Equality *)
Theorem C05_eq : forall (P : profile) x y, wf256 x -> wf256 y -> f_eq x y = spec_eq (v256 x) (v256 y).
Proof. exact (fun P => L_eq). Qed.
Print Assumptions C05_eq.

Theorem C05_laws : forall (P : profile) x y z, wf256 x -> wf256 y -> wf256 z ->
  f_eq x x = negb (is_nan x) /\ f_eq x y = f_eq y x /\ (f_eq x y = true -> f_eq y z = true -> f_eq x z = true).
Proof. exact (fun P => E_laws). Qed.
Print Assumptions C05_laws.

Example C05_ex : forall P : profile, f_eq (bits 0) (bits (2 ^ 255)) = true /\ f_eq (bits 1) (bits (2 ^ 255 + 1)) = false
  /\ f_eq (bits QNAN) (bits QNAN) = false.
Proof. intros []; vm_compute; repeat split. Qed.

(** ** C06 Partial order *)
Theorem C06_partial_cmp_none : forall (P : profile) x y, wf256 x -> wf256 y ->
  (partial_cmp x y = None <-> nanb (v256 x) = true \/ nanb (v256 y) = true).
Proof. exact (fun P => L_partial_cmp_none). Qed.
Print Assumptions C06_partial_cmp_none.

(** Right when the operands are not both negative; two negative operands are compared
    in the wrong direction. *)
Theorem C06_partial_cmp_partial : forall (P : profile) x y, wf256 x -> wf256 y -> sgn (v256 x) * sgn (v256 y) = 0 ->
  partial_cmp x y = spec_cmp (v256 x) (v256 y).
Proof. exact (fun P => L_partial_cmp). Qed.
Print Assumptions C06_partial_cmp_partial.

Theorem C06_operators_partial : forall (P : profile) x y, wf256 x -> wf256 y ->
  ~ cmp_reversed (v256 x) (v256 y) -> nanb (v256 x) = false -> nanb (v256 y) = false ->
  f_lt x y = (sval (v256 x) <? sval (v256 y)) /\ f_le x y = (sval (v256 x) <=? sval (v256 y))
  /\ f_gt x y = (sval (v256 y) <? sval (v256 x)) /\ f_ge x y = (sval (v256 y) <=? sval (v256 x)).
Proof. exact (fun P => O_ops). Qed.
Print Assumptions C06_operators_partial.

Theorem C06_negatives_reversed : forall (P : profile) x y, wf256 x -> wf256 y -> sgn (v256 x) = 1 -> sgn (v256 y) = 1 ->
  partial_cmp x y = spec_cmp (v256 y) (v256 x).
Proof. exact (fun P => L_partial_cmp_neg). Qed.
Print Assumptions C06_negatives_reversed.

(** -2^-262378 is greater than -2^-262377. *)
Theorem C06_refuted : forall P : profile, exists x y, wf256 x /\ wf256 y /\ spec_cmp (v256 x) (v256 y) = Some Gt /\ partial_cmp x y = Some Lt.
Proof.
  intros P; exists (bits (2 ^ 255 + 1)), (bits (2 ^ 255 + 2)). split; [apply wf_bits; lia|]. split; [apply wf_bits; lia|].
  split; destruct P; vm_compute; reflexivity.
Qed.
Print Assumptions C06_refuted.

Example C06_ex : forall P : profile, partial_cmp (bits 1) (bits (2 ^ 255 + 5)) = Some Gt /\ partial_cmp (bits 1) (bits INFm) = Some Lt
  /\ partial_cmp (bits 0) (bits (2 ^ 255)) = Some Eq.
Proof. intros []; vm_compute; repeat split. Qed.

(** ** C07 Total order *)
Theorem C07_total_order_laws : forall (P : profile) x y z, wf256 x -> wf256 y -> wf256 z ->
  (total_cmp x y = Eq <-> x = y) /\ total_cmp y x = CompOpp (total_cmp x y)
  /\ (total_cmp x y = Lt -> total_cmp y z = Lt -> total_cmp x z = Lt).
Proof. exact (@L_total_order). Qed.
Print Assumptions C07_total_order_laws.

Theorem C07_total_cmp_partial : forall (P : profile) x y, wf256 x -> wf256 y -> sgn (v256 x) * sgn (v256 y) = 0 ->
  total_cmp x y = spec_total_cmp (v256 x) (v256 y).
Proof. exact (fun P => L_total_cmp). Qed.
Print Assumptions C07_total_cmp_partial.

Theorem C07_negatives_reversed : forall (P : profile) x y, wf256 x -> wf256 y -> sgn (v256 x) = 1 -> sgn (v256 y) = 1 ->
  total_cmp x y = CompOpp (spec_total_cmp (v256 x) (v256 y)).
Proof. exact (fun P => L_total_cmp_neg). Qed.
Print Assumptions C07_negatives_reversed.

Theorem C07_refuted : forall P : profile, exists x y, wf256 x /\ wf256 y /\ spec_total_cmp (v256 x) (v256 y) = Lt /\ total_cmp x y = Gt.
Proof.
  intros P; exists (bits (2 ^ 255 + 2)), (bits (2 ^ 255 + 1)). split; [apply wf_bits; lia|]. split; [apply wf_bits; lia|].
  split; destruct P; vm_compute; reflexivity.
Qed.
Print Assumptions C07_refuted.

Example C07_ex : forall P : profile, total_cmp (bits (2 ^ 255)) (bits 0) = Lt /\ total_cmp (bits (2 ^ 255 + QNAN)) (bits 1) = Lt
  /\ total_cmp (bits INFm) (bits (INFm + 1)) = Lt.
Proof. intros []; vm_compute; repeat split. Qed.

(** ** C08 max, min, clamp *)
Theorem C08_max_partial : forall (P : profile) x y, wf256 x -> wf256 y -> ~ cmp_reversed (v256 x) (v256 y) ->
  wf256 (fmax x y) /\ (fmax x y = x \/ fmax x y = y) /\
  if nanb (v256 x) then fmax x y = y else if nanb (v256 y) then fmax x y = x
  else sval (v256 (fmax x y)) = Z.max (sval (v256 x)) (sval (v256 y)).
Proof. exact (fun P => L_max). Qed.
Print Assumptions C08_max_partial.

Theorem C08_min_partial : forall (P : profile) x y, wf256 x -> wf256 y -> ~ cmp_reversed (v256 x) (v256 y) ->
  wf256 (fmin x y) /\ (fmin x y = x \/ fmin x y = y) /\
  if nanb (v256 x) then fmin x y = y else if nanb (v256 y) then fmin x y = x
  else sval (v256 (fmin x y)) = Z.min (sval (v256 x)) (sval (v256 y)).
Proof. exact (fun P => L_min). Qed.
Print Assumptions C08_min_partial.

Theorem C08_clamp_partial : forall (P : profile) x a b, wf256 x -> wf256 a -> wf256 b ->
  ~ cmp_reversed (v256 x) (v256 a) -> ~ cmp_reversed (v256 x) (v256 b) -> ~ cmp_reversed (v256 a) (v256 b) ->
  if spec_le (v256 a) (v256 b) then
    exists r, clamp x a b = Some r /\
      if nanb (v256 x) then r = x
      else if sval (v256 x) <? sval (v256 a) then r = a
      else if sval (v256 b) <? sval (v256 x) then r = b else r = x
  else clamp x a b = None.
Proof. exact (fun P => L_clamp). Qed.
Print Assumptions C08_clamp_partial.

Theorem C08_refuted : forall P : profile, exists x y, wf256 x /\ wf256 y /\ nanb (v256 x) = false /\ nanb (v256 y) = false
  /\ sval (v256 (fmax x y)) < sval (v256 y) /\ sval (v256 x) < sval (v256 (fmin x y)).
Proof.
  intros P; exists (bits (2 ^ 255 + 2)), (bits (2 ^ 255 + 1)). split; [apply wf_bits; lia|]. split; [apply wf_bits; lia|].
  repeat split; destruct P; vm_compute; reflexivity.
Qed.
Print Assumptions C08_refuted.

(** clamp(-2, -3, -1) panics, in units of the least positive number. *)
Theorem C08_clamp_refuted : forall P : profile, exists x a b, wf256 x /\ wf256 a /\ wf256 b /\ spec_le (v256 a) (v256 b) = true /\ clamp x a b = None.
Proof.
  intros P; exists (bits (2 ^ 255 + 2)), (bits (2 ^ 255 + 3)), (bits (2 ^ 255 + 1)).
  split; [apply wf_bits; lia|]. split; [apply wf_bits; lia|]. split; [apply wf_bits; lia|]. split; destruct P; vm_compute; reflexivity.
Qed.
Print Assumptions C08_clamp_refuted.

Example C08_ex : forall P : profile, fmax (bits (2 ^ 255 + 7)) (bits 3) = bits 3 /\ fmin (bits QNAN) (bits 3) = bits 3
  /\ clamp (bits 9) (bits (2 ^ 255 + 4)) (bits 7) = Some (bits 7).
Proof. intros []; vm_compute; repeat split. Qed.

(** ** C17 Negation and abs *)
Theorem C17_neg : forall (P : profile) x, wf256 x -> wf256 (negated x) /\ v256 (negated x) = spec_neg (v256 x).
Proof. exact (@L_neg). Qed.
Print Assumptions C17_neg.

Theorem C17_abs : forall (P : profile) x, wf256 x -> wf256 (abs x) /\ v256 (abs x) = mag (v256 x).
Proof. exact (@L_abs). Qed.
Print Assumptions C17_abs.

Theorem C17_laws : forall (P : profile) x, wf256 x ->
  negated (negated x) = x /\ abs (negated x) = abs x /\ abs (abs x) = abs x
  /\ sval (v256 (negated x)) = - sval (v256 x) /\ sval (v256 (abs x)) = Z.abs (sval (v256 x))
  /\ is_sign_negative (negated x) = is_sign_positive x /\ is_sign_negative (abs x) = false.
Proof. exact (@L_neg_laws). Qed.
Print Assumptions C17_laws.

Example C17_ex : forall P : profile, negated (bits 5) = bits (2 ^ 255 + 5) /\ abs (bits (2 ^ 255 + QNAN)) = bits QNAN.
Proof. intros []; vm_compute; repeat split. Qed.

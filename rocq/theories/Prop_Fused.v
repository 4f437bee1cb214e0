(** * Properties C15, C16, C36: the fused operations

    The full claim C15 is false ([C15_refuted] in Prop_Arith): operands, addends and results
    in the subnormal range are treated wrongly.  Proved here: everything involving a special
    operand or a zero factor, and every finite case whose exact result is zero or normal. *)

From Coq Require Import ZArith Bool List Lia.
From Verif Require Import Base BigUInt BigExtra Spec SpecFns F256 Arith Interface LiftProofs LiftAlg SosProofs LiftFused.
Import ListNotations.
Open Scope Z_scope.

(** A NaN or infinite operand, or a zero factor. *)
Theorem C15_fma_special_partial : forall (P : profile) x y a, wf256 x -> wf256 y -> wf256 a ->
  finb (v256 x) && finb (v256 y) && finb (v256 a) && negb (zerob (v256 x)) && negb (zerob (v256 y)) = false ->
  returns (mul_add x y a) (spec_fma (v256 x) (v256 y) (v256 a)).
Proof. exact (@L_fma_special). Qed.
Print Assumptions C15_fma_special_partial.

(** inf * 2 + (-inf) is NaN; 0 * (-1) + (-0) is -0; 0 * 5units + 7units is 7 units. *)
Example C15_special_ex : forall P : profile,
  mul_add (bits INFm) (bits (ONEm + 2 ^ 236)) (bits (2 ^ 255 + INFm)) = Some (bits QNAN)
  /\ mul_add (bits 0) (bits (2 ^ 255 + ONEm)) (bits (2 ^ 255)) = Some (bits (2 ^ 255))
  /\ mul_add (bits 0) (bits 5) (bits 7) = Some (bits 7).
Proof. intros []; vm_compute; repeat split. Qed.

(** x * y + a rounded once, if the exact result is zero or at least the least normal number
    and either both factors are normal and the addend is zero or normal or the product is at
    least twice the least normal number, or the addend is normal and the product is at most
    2^-238 of it.  Missing (false): subnormal operands otherwise, and subnormal results. *)
Theorem C15_fma_partial : forall (P : profile) x y a, wf256 x -> wf256 y -> wf256 a ->
  let xy := mag_val (mag (v256 x)) * mag_val (mag (v256 y)) in
  let n := (1 - 2 * xors (sgn (v256 x)) (sgn (v256 y))) * xy + sval (v256 a) * 2 ^ UNITe in
  (2 ^ 236 <= mag (v256 x) /\ 2 ^ 236 <= mag (v256 y)
     /\ (zerob (v256 a) = true \/ 2 ^ 236 <= mag (v256 a) \/ 2 ^ 237 * 2 ^ UNITe <= xy))
  \/ (2 ^ 236 <= mag (v256 a) /\ 2 ^ 238 * xy <= mag_val (mag (v256 a)) * 2 ^ UNITe) ->
  n = 0 \/ 2 ^ 236 * 2 ^ UNITe <= Z.abs n ->
  returns (mul_add x y a) (spec_fma (v256 x) (v256 y) (v256 a)).
Proof. exact (@L_fma). Qed.
Print Assumptions C15_fma_partial.

(** (1 + 2^-236) * (1 - 2^-236) - 1 = -2^-472: the product alone would round to 1.
    The hypotheses hold: normal operands, result -2^-472. *)
Example C15_fma_ex : forall P : profile,
  mul_add (bits (ONEm + 1)) (bits (ONEm - 2)) (bits (2 ^ 255 + ONEm)) = Some (bits (2 ^ 255 + (262143 - 472) * 2 ^ 236))
  /\ mul (bits (ONEm + 1)) (bits (ONEm - 2)) = Some (bits ONEm).
Proof. intros []; vm_compute; split; reflexivity. Qed.
Example C15_fma_hyp : let x := ONEm + 1 in let y := ONEm - 2 in let a := 2 ^ 255 + ONEm in
  (2 ^ 236 <=? mag x) && (2 ^ 236 <=? mag y) && (2 ^ 236 <=? mag a)
  && (2 ^ 236 * 2 ^ UNITe <=?
      Z.abs ((1 - 2 * xors (sgn x) (sgn y)) * (mag_val (mag x) * mag_val (mag y)) + sval a * 2 ^ UNITe)) = true.
Proof. vm_compute. reflexivity. Qed.

Theorem C36_fma : forall (P : profile) x y a, wf256 x -> wf256 y -> wf256 a ->
  is_nan x = true \/ is_nan y = true \/ is_nan a = true -> exists r, mul_add x y a = Some r /\ is_nan r = true.
Proof. exact (@N_fma). Qed.
Print Assumptions C36_fma.

Example C36_fma_ex : forall P : profile,
  mul_add (bits 0) (bits INFm) (bits (2 ^ 255 + INFm + 1)) = Some (bits QNAN).
Proof. intros []; vm_compute; reflexivity. Qed.

(** ** C16 Sum of squares *)

(** For all operands the result is the specified one, or the neighbour below it: then the
    exact sum lies above the midpoint of the two by less than a 2^-237th part of it ([sos_miss]).
    Missing: that this second case does not occur; it does ([C16_refuted]). *)
Theorem C16_sos_partial : forall (P : profile) x y, wf256 x -> wf256 y ->
  let n := mag_val (mag (v256 x)) * mag_val (mag (v256 x)) + mag_val (mag (v256 y)) * mag_val (mag (v256 y)) in
  returns_in (sum_of_squares x y) (fun r => r = spec_sos (v256 x) (v256 y)
    \/ (finb (v256 x) = true /\ finb (v256 y) = true /\ sos_miss n (2 ^ UNITe) r)).
Proof. exact (@L_sos). Qed.
Print Assumptions C16_sos_partial.

(** 3^2 + 4^2 = 25; infinity wins over a number, NaN over infinity. *)
Example C16_ex : forall P : profile,
  sum_of_squares (bits (ONEm + 2 ^ 236 + 2 ^ 235)) (bits (2 ^ 255 + ONEm + 2 * 2 ^ 236))
    = Some (bits (ONEm + 4 * 2 ^ 236 + 9 * 2 ^ 232))
  /\ sum_of_squares (bits 1) (bits (2 ^ 255 + INFm)) = Some (bits INFm)
  /\ sum_of_squares (bits INFm) (bits (INFm + 1)) = Some (bits QNAN).
Proof. intros []; vm_compute; repeat split. Qed.

Theorem C36_sos : forall (P : profile) x y, wf256 x -> wf256 y -> is_nan x = true \/ is_nan y = true ->
  exists r, sum_of_squares x y = Some r /\ is_nan r = true.
Proof. exact (@N_sos). Qed.
Print Assumptions C36_sos.

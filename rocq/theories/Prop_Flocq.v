(** * Property C40: the basic operations agree with Flocq's formalisation of IEEE 754

    [b256 v] is the element of Flocq's [binary_float 237 262144] that Flocq's own decoder
    of interchange formats (IEEE754.Bits) assigns to the bits [v]; [mode_NE] is rounding
    to nearest, ties to even.  NaNs are identified with each other. *)

From Coq Require Import ZArith Bool Lia Reals.
From Flocq Require Import Core IEEE754.BinarySingleNaN.
From Verif Require Import Base BigUInt BigExtra Spec F256 Arith Interface LiftProofs LiftAlg SpecFlocq FlocqOps Prop_Arith Prop_Fused.
Open Scope Z_scope.

(** ** The specification of Spec.v *)
Theorem C40_spec : forall x y, 0 <= x < 2 ^ 256 -> 0 <= y < 2 ^ 256 ->
  b256 (spec_add x y) = Bplus mode_NE (b256 x) (b256 y)
  /\ b256 (spec_sub x y) = Bminus mode_NE (b256 x) (b256 y)
  /\ b256 (spec_mul x y) = Bmult mode_NE (b256 x) (b256 y)
  /\ b256 (spec_div x y) = Bdiv mode_NE (b256 x) (b256 y).
Proof. exact (fun x y Hx Hy => conj (add_flocq x y Hx Hy) (conj (sub_flocq x y Hx Hy) (conj (mul_flocq x y Hx Hy) (div_flocq x y Hx Hy)))). Qed.
Print Assumptions C40_spec.

Theorem C40_spec_fma : forall x y a, 0 <= x < 2 ^ 256 -> 0 <= y < 2 ^ 256 -> 0 <= a < 2 ^ 256 ->
  b256 (spec_fma x y a) = Bfma mode_NE (b256 x) (b256 y) (b256 a).
Proof. exact fma_flocq. Qed.
Print Assumptions C40_spec_fma.

(** ** The model *)
Definition gives (m : option f256) (b : binary256) : Prop := exists z, m = Some z /\ wf256 z /\ b256 (v256 z) = b.

Lemma gives_of m r b : returns m r -> b256 r = b -> gives m b.
Proof. intros (z & E & W & V) H. exists z. rewrite V. auto. Qed.

Theorem C40_add : forall (P : profile) x y, wf256 x -> wf256 y ->
  gives (add x y) (Bplus mode_NE (b256 (v256 x)) (b256 (v256 y))).
Proof. exact (fun P x y Hx Hy => gives_of _ _ _ (C09_add P x y Hx Hy) (add_flocq _ _ (v256_bound x Hx) (v256_bound y Hy))). Qed.
Print Assumptions C40_add.

Theorem C40_sub : forall (P : profile) x y, wf256 x -> wf256 y ->
  gives (sub x y) (Bminus mode_NE (b256 (v256 x)) (b256 (v256 y))).
Proof. exact (fun P x y Hx Hy => gives_of _ _ _ (C10_sub P x y Hx Hy) (sub_flocq _ _ (v256_bound x Hx) (v256_bound y Hy))). Qed.
Print Assumptions C40_sub.

Theorem C40_div : forall (P : profile) x y, wf256 x -> wf256 y ->
  gives (div x y) (Bdiv mode_NE (b256 (v256 x)) (b256 (v256 y))).
Proof. exact (fun P x y Hx Hy => gives_of _ _ _ (C12_div P x y Hx Hy) (div_flocq _ _ (v256_bound x Hx) (v256_bound y Hy))). Qed.
Print Assumptions C40_div.

Theorem C40_sqrt : forall (P : profile) x, wf256 x -> gives (sqrt x) (Bsqrt mode_NE (b256 (v256 x))).
Proof.
  exact (fun P x Hx => match C14_sqrt P x Hx with
    | ex_intro _ z (conj E (conj W Q)) => ex_intro _ z (conj E (conj W (sqrt_flocq _ _ (v256_bound x Hx) (v256_bound z W) Q))) end).
Qed.
Print Assumptions C40_sqrt.

(** Missing: products that are not zero and below the least normal number. *)
Theorem C40_mul_partial : forall (P : profile) x y, wf256 x -> wf256 y ->
  2 ^ 236 * 2 ^ UNITe <= mag_val (mag (v256 x)) * mag_val (mag (v256 y))
  \/ finb (v256 x) && finb (v256 y) = false \/ zerob (v256 x) || zerob (v256 y) = true ->
  gives (mul x y) (Bmult mode_NE (b256 (v256 x)) (b256 (v256 y))).
Proof. exact (fun P x y Hx Hy H => gives_of _ _ _ (C11_mul_partial P x y Hx Hy H) (mul_flocq _ _ (v256_bound x Hx) (v256_bound y Hy))). Qed.
Print Assumptions C40_mul_partial.

(** Missing: see C15. *)
Theorem C40_fma_partial : forall (P : profile) x y a, wf256 x -> wf256 y -> wf256 a ->
  let xy := mag_val (mag (v256 x)) * mag_val (mag (v256 y)) in
  let n := (1 - 2 * xors (sgn (v256 x)) (sgn (v256 y))) * xy + sval (v256 a) * 2 ^ UNITe in
  (2 ^ 236 <= mag (v256 x) /\ 2 ^ 236 <= mag (v256 y)
     /\ (zerob (v256 a) = true \/ 2 ^ 236 <= mag (v256 a) \/ 2 ^ 237 * 2 ^ UNITe <= xy))
  \/ (2 ^ 236 <= mag (v256 a) /\ 2 ^ 238 * xy <= mag_val (mag (v256 a)) * 2 ^ UNITe) ->
  n = 0 \/ 2 ^ 236 * 2 ^ UNITe <= Z.abs n ->
  gives (mul_add x y a) (Bfma mode_NE (b256 (v256 x)) (b256 (v256 y)) (b256 (v256 a))).
Proof.
  exact (fun P x y a Hx Hy Ha H H' => gives_of _ _ _ (C15_fma_partial P x y a Hx Hy Ha H H')
    (fma_flocq _ _ _ (v256_bound x Hx) (v256_bound y Hy) (v256_bound a Ha))).
Qed.
Print Assumptions C40_fma_partial.

(** The product of C11_refuted: Flocq's result is 63 units, the code's 62. *)
Theorem C40_mul_refuted : forall P : profile, exists x y z, wf256 x /\ wf256 y /\ mul x y = Some z
  /\ b256 (v256 z) <> Bmult mode_NE (b256 (v256 x)) (b256 (v256 y)).
Proof.
  intros P. destruct (C11_refuted P) as (x & y & Hx & Hy & S & M). exists x, y, (bits 62). repeat (split; auto).
  rewrite <- mul_flocq by (apply v256_bound; auto). rewrite S, v_bits. apply b256_62_63.
Qed.
Print Assumptions C40_mul_refuted.

(** Flocq decodes our 1 as 2^236 * 2^-236; the sum of 1 and 1 + 2^-236 is a tie. *)
Example C40_ex : B2SF (b256 ONEm) = SpecFloat.S754_finite false (2 ^ 236) (-236)
  /\ B2SF (b256 (2 ^ 255)) = SpecFloat.S754_zero true /\ B2SF (b256 (INFm + 2 ^ 255)) = SpecFloat.S754_infinity true
  /\ B2SF (b256 QNAN) = SpecFloat.S754_nan /\ B2SF (b256 1) = SpecFloat.S754_finite false 1 (-262378)
  /\ B2SF (Bplus mode_NE (b256 ONEm) (b256 (ONEm + 1))) = SpecFloat.S754_finite false (2 ^ 236) (-235)
  /\ forall P : profile, add (bits ONEm) (bits (ONEm + 1)) = Some (bits (ONEm + 2 ^ 236)).
Proof. repeat split; try (intros []); vm_compute; reflexivity. Qed.

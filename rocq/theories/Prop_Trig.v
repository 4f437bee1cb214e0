(** * Properties C53 to C58: sine, cosine, tangent

    The functions of src/math/circular_fns, against the sine and cosine of the real numbers of the
    standard library.  [large] stands for the reduction of arguments of magnitude 8 or more
    (reduce.rs:125-277).  Every theorem holds whatever it returns, so those on arguments below 8
    say nothing about that code, and those without such a bound hold for any version of it. *)

From Coq Require Import ZArith Bool Reals Lra Lia.
From Verif Require Import Base BigUInt BigExtra Spec F256 Arith Interface SpecDeg SpecLog SpecTrig LogTable Log TrigTable Trig TrigSym TrigTan.
Open Scope Z_scope.

Definition reduction : Type := Z -> f256 -> option (Z * FP492).

(** ** C53: the sine.  Missing: arguments of magnitude 8 or more, and below 2^-256, where it fails *)
Theorem C53_sin_partial : forall (P : profile) (large : reduction) x, wf256 x -> finb (v256 x) = true ->
  (/ IZR (2 ^ 256) <= Rabs (rval (v256 x)) < 8)%R -> returns_in (f_sin large x) (near sin (v256 x)).
Proof. intros P large. exact (L_sin large). Qed.
Print Assumptions C53_sin_partial.

(** The sine of 2^-1000 is 2^-492. *)
Theorem C53_small_refuted : forall (P : profile) (large : reduction),
  ~ (forall x, wf256 x -> finb (v256 x) = true -> zerob (v256 x) = false -> (Rabs (rval (v256 x)) < 8)%R ->
     returns_in (f_sin large x) (within_ulp 65 64 (sin (rval (v256 x))))).
Proof. intros P large. exact (L_sin_small_refuted large). Qed.
Print Assumptions C53_small_refuted.

Example C53_one : @f_sin false (fun _ _ => None) (bits ONEm)
  = Some (bits 28947876869321853409877845424119818160836335127782049425353642552027683486425)
  /\ wf256 (bits ONEm) /\ finb ONEm = true.
Proof. (split; [|split]); vm_compute; repeat split; discriminate. Qed.
Example C53_small : forall P : profile, f_sin (fun _ _ => None) (bits (261143 * 2 ^ 236)) = Some (bits (261651 * 2 ^ 236)).
Proof. intros []; vm_compute; reflexivity. Qed.
Example C53_subnormal : forall P : profile, f_sin (fun _ _ => None) (bits 1) = Some (bits 0).
Proof. intros []; vm_compute; reflexivity. Qed.

(** ** C54: the cosine.  Missing: arguments of magnitude 8 or more *)
Theorem C54_cos_partial : forall (P : profile) (large : reduction) x, wf256 x -> finb (v256 x) = true ->
  (Rabs (rval (v256 x)) < 8)%R -> returns_in (f_cos large x) (near cos (v256 x)).
Proof. intros P large. exact (L_cos large). Qed.
Print Assumptions C54_cos_partial.

(** -3 * 2^-257 *)
Example C54_small : forall P : profile, f_cos (fun _ _ => None) (bits (mkf 1 (261887 * 2 ^ 236 + 2 ^ 235))) = Some (bits ONEm).
Proof. intros []; vm_compute; reflexivity. Qed.

(** ** C55: both functions at once return what each of them returns *)
Theorem C55_sin_cos : forall (P : profile) (large : reduction) x,
  f_sin_cos large x = match f_sin large x, f_cos large x with Some s, Some c => Some (s, c) | _, _ => None end.
Proof. intros P large x. rewrite L_sin_cos. destruct (f_sin large x); [destruct (f_cos large x)|]; reflexivity. Qed.
Print Assumptions C55_sin_cos.

(** 3 * 2^-257 *)
Example C55_small : forall P : profile, f_sin_cos (fun _ _ => None) (bits (261887 * 2 ^ 236 + 2 ^ 235)) = Some (bits (261887 * 2 ^ 236 + 2 ^ 235), bits ONEm).
Proof. intros []; vm_compute; reflexivity. Qed.

(** ** C56: the sine is odd, the cosine even.  The sine of zeros is the exception of C57. *)
Theorem C56_odd : forall (P : profile) (large : reduction) x, wf256 x -> finb (v256 x) = true -> zerob (v256 x) = false ->
  f_sin large (negated x) = match f_sin large x with Some r => Some (negated r) | None => None end.
Proof. intros P large. exact (L_sin_odd large). Qed.
Print Assumptions C56_odd.

Theorem C56_even : forall (P : profile) (large : reduction) x, f_cos large (negated x) = f_cos large x.
Proof. intros P large. exact (L_cos_even large). Qed.
Print Assumptions C56_even.

Example C56_small : forall P : profile, f_sin (fun _ _ => None) (negated (bits (261887 * 2 ^ 236 + 2 ^ 235))) = Some (bits (mkf 1 (261887 * 2 ^ 236 + 2 ^ 235))).
Proof. intros []; vm_compute; reflexivity. Qed.

(** ** C57: zeros, infinities and NaN *)
Theorem C57_special : forall (P : profile) (large : reduction) x, wf256 x -> finb (v256 x) = false \/ zerob (v256 x) = true ->
  returns (f_sin large x) (special_res (v256 x) 0)
  /\ returns (f_cos large x) (special_res (v256 x) ONEm)
  /\ returns (f_tan large x) (special_res (v256 x) 0)
  /\ (exists s c, f_sin_cos large x = Some (s, c) /\ returns (Some s) (special_res (v256 x) 0) /\ returns (Some c) (special_res (v256 x) ONEm)).
Proof. intros P large. exact (L_special large). Qed.
Print Assumptions C57_special.

(** IEEE 754 keeps the sign of a zero: sin (-0) = tan (-0) = -0; the code returns +0. *)
Theorem C57_zero_refuted : forall (P : profile) (large : reduction),
  ~ (forall x, wf256 x -> zerob (v256 x) = true -> returns (f_sin large x) (v256 x))
  /\ ~ (forall x, wf256 x -> zerob (v256 x) = true -> returns (f_tan large x) (v256 x)).
Proof. intros P large. exact (L_zero_refuted large). Qed.
Print Assumptions C57_zero_refuted.

Example C57_inf : forall P : profile, f_sin (fun _ _ => None) (bits (mkf 1 INFm)) = Some (bits QNAN)
  /\ wf256 (bits (mkf 1 INFm)) /\ finb (mkf 1 INFm) = false.
Proof. intros []; (split; [|split]); vm_compute; repeat split; discriminate. Qed.

(** ** C58: the tangent is the correctly rounded quotient of approximations to the sine and the
    cosine, and within 5 units in the last place of the tangent.  Missing: the cases missing in C53. *)
Theorem C58_tan_partial : forall (P : profile) (large : reduction) x, wf256 x -> finb (v256 x) = true ->
  (/ IZR (2 ^ 256) <= Rabs (rval (v256 x)) < 8)%R ->
  returns_in (f_tan large x) (fun r => exists s c, near sin (v256 x) s /\ near cos (v256 x) c /\ r = spec_div s c).
Proof. intros P large. exact (L_tan large). Qed.
Print Assumptions C58_tan_partial.

Theorem C58_ulp_partial : forall (P : profile) (large : reduction) x, wf256 x -> finb (v256 x) = true ->
  (/ IZR (2 ^ 256) <= Rabs (rval (v256 x)) < 8)%R -> returns_in (f_tan large x) (within_ulp 5 1 (tan (rval (v256 x)))).
Proof. intros P large. exact (L_tan_ulp large). Qed.
Print Assumptions C58_ulp_partial.

Example C58_small : forall P : profile, f_tan (fun _ _ => None) (bits (261887 * 2 ^ 236 + 2 ^ 235)) = Some (bits (261887 * 2 ^ 236 + 2 ^ 235)).
Proof. intros []; vm_compute; reflexivity. Qed.

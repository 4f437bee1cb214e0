(** * Property C37: degrees and radians

    The claim is false as it stands: zeros, infinities and NaN are not kept (a debug build
    panics on each of them), the result does not become infinite, small operands panic, and
    the constant of [to_degrees] is not 180 / pi to its last 18 bits, so that results are
    more than one unit in the last place off.  The partial theorems hold for all operands
    whose result is a normal number. *)

From Coq Require Import ZArith Bool Reals Lra Lia.
From Verif Require Import Base BigUInt BigExtra Spec F256 Arith Interface SpecDeg SpecLemmas F256Lemmas
  PiBound DegProofs DegReal.
Open Scope Z_scope.

(** Zero: a debug build panics, a release build returns 2^-233 and 2^-244. *)
Theorem C37_refuted : forall P : profile,
  ~ returns_in (to_degrees (bits 0)) (spec_scaled DEG 0)
  /\ ~ returns_in (to_radians (bits 0)) (spec_scaled RAD 0).
Proof. intros []; split; apply not_in; vm_compute; try exact I; discriminate. Qed.
Print Assumptions C37_refuted.

(** In a debug build every zero, infinity and NaN panics. *)
Theorem C37_special_refuted : forall x, wf256 x -> finb (v256 x) = false \/ zerob (v256 x) = true ->
  @to_degrees true x = None /\ @to_radians true x = None.
Proof. exact L_special_panics. Qed.
Print Assumptions C37_special_refuted.

(** In a release build infinity and NaN become finite numbers. *)
Theorem C37_release_refuted :
  ~ returns_in (@to_degrees false (bits INFm)) (spec_scaled DEG INFm)
  /\ ~ returns_in (@to_degrees false (bits QNAN)) (spec_scaled DEG QNAN)
  /\ ~ returns_in (@to_radians false (bits INFm)) (spec_scaled RAD INFm)
  /\ ~ returns_in (@to_radians false (bits QNAN)) (spec_scaled RAD QNAN).
Proof. repeat split; apply not_in; vm_compute; discriminate. Qed.
Print Assumptions C37_release_refuted.

(** The largest finite number does not become infinite, the least positive normal number is
    not converted to radians: panics, or numbers of the other sign. *)
Theorem C37_range_refuted : forall P : profile,
  ~ returns_in (to_degrees (bits (INFm - 1))) (fun r => sgn r = 0)
  /\ ~ returns_in (to_radians (bits (2 ^ 236))) (fun r => sgn r = 0).
Proof. intros []; split; apply not_in; vm_compute; try exact I; discriminate. Qed.
Print Assumptions C37_range_refuted.

(** 27 in degrees is off by more than 1.08 units in the last place,
    121 degrees in radians by more than 0.7. *)
Theorem C37_rounding_refuted : forall P : profile,
  returns_in (to_degrees (bits x27)) (fun r => ~ scaled_within DEG 108 100 x27 r)
  /\ returns_in (to_radians (bits x121)) (fun r => ~ scaled_within RAD 7 10 x121 r).
Proof.
  assert (D : forall P : profile, to_degrees (bits x27) = Some (bits r27)) by (intros []; vm_compute; reflexivity).
  assert (R : forall P : profile, to_radians (bits x121) = Some (bits r121)) by (intros []; vm_compute; reflexivity).
  intros P. rewrite (D P), (R P). split.
  - exists (bits r27). split; [reflexivity|]. split; [split; vm_compute; split; discriminate || reflexivity|].
    replace (v256 (bits r27)) with r27 by (vm_compute; reflexivity). exact deg27_off.
  - exists (bits r121). split; [reflexivity|]. split; [split; vm_compute; split; discriminate || reflexivity|].
    replace (v256 (bits r121)) with r121 by (vm_compute; reflexivity). exact rad121_off.
Qed.
Print Assumptions C37_rounding_refuted.

(** The constants: the one for degrees is too large by more than 2^18 units of its last
    place, i.e. by a relative error of 2^-238; the one for radians is cut off. *)
Theorem C37_degrees_constant_refuted :
  (IZR (MDEG - 269375) <= 180 / PI * IZR (2 ^ 250) <= IZR (MDEG - 269374))%R.
Proof. exact deg_const. Qed.
Print Assumptions C37_degrees_constant_refuted.

Theorem C37_radians_constant : (IZR MRAD <= PI / 180 * IZR (2 ^ 261) <= IZR (MRAD + 1))%R.
Proof. exact rad_const. Qed.
Print Assumptions C37_radians_constant.

(** Missing: operands below 2^-262147 and above 2^262138 in magnitude and the special values,
    on which the claim fails; the claim's bound of one unit in the last place. *)
Theorem C37_to_degrees_partial : forall (P : profile) x, wf256 x ->
  2 ^ 231 <= mag (v256 x) < INFm - 6 * 2 ^ 236 ->
  returns_in (to_degrees x) (scaled_within DEG 127 100 (v256 x)).
Proof. exact (@L_degrees). Qed.
Print Assumptions C37_to_degrees_partial.

(** Missing: operands below 2^-262136 in magnitude and the special values, on which the
    claim fails. *)
Theorem C37_to_radians_partial : forall (P : profile) x, wf256 x ->
  7 * 2 ^ 236 <= mag (v256 x) < INFm ->
  returns_in (to_radians x) (scaled_within RAD 751 1000 (v256 x)).
Proof. exact (@L_radians). Qed.
Print Assumptions C37_to_radians_partial.

Example C37_ex : wf256 (bits (mkf 1 x27)) /\ 2 ^ 231 <= mag (v256 (bits (mkf 1 x27))) < INFm - 6 * 2 ^ 236
  /\ 7 * 2 ^ 236 <= mag (v256 (bits (mkf 1 x27))) < INFm
  /\ forall P : profile, to_degrees (bits (mkf 1 x27)) = Some (bits (mkf 1 r27)).
Proof.
  split; [split; vm_compute; split; discriminate || reflexivity|].
  split; [vm_compute; split; discriminate || reflexivity|].
  split; [vm_compute; split; discriminate || reflexivity|].
  intros []; vm_compute; reflexivity.
Qed.

(** * Property C32: printing with a precision ("{:.p}")

    [chunks_ok t] says what the theorems need of the second table of the printer, which is generated
    and not part of the repository; [gen_chunks] is the table the generator
    script describes ([C32_table]).  The claim is false as it stands: see [C32_refuted] and
    [C32_fraction_refuted]. *)

From Coq Require Import ZArith Bool List Lia String.
From Verif Require Import Base BigUInt BigExtra Spec F256 Interface Parse SpecParse FromStrProofs
  Print SpecPrint PrintFixed SpecFixed FixedFinal.
Import ListNotations.
Open Scope Z_scope.
Open Scope list_scope.

Theorem C32_table : chunks_ok gen_chunks.
Proof. exact gen_chunks_ok. Qed.
Print Assumptions C32_table.

(** The integer part is printed like "{}", with the fewest digits that tell it from its
    neighbours: 29 * 2^252 comes out as another integer. *)
Theorem C32_refuted : exists x l, finb x = true /\ documented l /\ l_frac l = None /\ l_exp l = None
  /\ (forall P : profile, display_prec gen_luts gen_chunks (bits x) 0 = Some (text l))
  /\ lit_signif l <> rne_div (mag_val (mag x) * 10 ^ 0) (2 ^ UNITe).
Proof.
  exists ((20 + UNITe) * 2 ^ 236 + 29 * 2 ^ 232),
    (Literal NoSign (digits_of
      "209873161742635604205222410328246832984051847206473522321516871014342547500000"%string) None None).
  split; [vm_compute; reflexivity|]. split; [apply lit_check_ok; vm_compute; reflexivity|].
  split; [reflexivity|]. split; [reflexivity|]. split; [intros []; vm_compute; reflexivity|].
  replace (mag ((20 + UNITe) * 2 ^ 236 + 29 * 2 ^ 232)) with ((20 + UNITe) * 2 ^ 236 + 29 * 2 ^ 232) by (vm_compute; reflexivity).
  rewrite (rne_large (29 * 2 ^ 232) 20) by lia. vm_compute. discriminate.
Qed.
Print Assumptions C32_refuted.

(** A number x with 2^-84 <= x < 2^-83 whose 38 digits are wrong in the last place although x is far
    from any tie: the entries of the table are cut off from this segment on. *)
Theorem C32_fraction_refuted : exists x l, finb x = true /\ documented l /\ l_exp l = None
  /\ Z.of_nat (List.length (frac_digits l)) = 38
  /\ (forall P : profile, display_prec gen_luts gen_chunks (bits x) 38 = Some (text l))
  /\ lit_signif l + 1 = rne_div (mag_val (mag x) * 10 ^ 38) (2 ^ UNITe).
Proof.
  exists ((-320 + UNITe) * 2 ^ 236 + 187883406621906658231158447743146962190054603913177017209682759251918848),
    (Literal NoSign [0] (Some (digits_of "00000000000000000000000008796093022207"%string)) None).
  split; [vm_compute; reflexivity|]. split; [apply lit_check_ok; vm_compute; reflexivity|].
  split; [reflexivity|]. split; [reflexivity|]. split; [intros []; vm_compute; reflexivity|].
  match goal with |- context [mag ?v] => replace (mag v) with v by (vm_compute; reflexivity) end.
  rewrite rne_scaled by lia. vm_compute. reflexivity.
Qed.
Print Assumptions C32_fraction_refuted.

(** |x| < 2^237 whose fractional part is zero or at least 2^-83, and |x| < 2^-275: the text is the
    correctly rounded decimal with p fractional digits.  Missing: larger numbers,
    and fractional parts from 2^-275 to 2^-83. *)
Theorem C32_partial : forall (P : profile) lt ct x p, tables_ok lt -> chunks_ok ct -> 0 <= x < 2 ^ 256 ->
  finb x = true -> zerob x = false -> 0 <= p <= 75 -> mag_val (mag x) < 2 ^ (237 + UNITe) ->
  mag_val (mag x) mod 2 ^ UNITe = 0 \/ 2 ^ (UNITe - 83) <= mag_val (mag x) mod 2 ^ UNITe \/ mag_val (mag x) < 2 ^ (UNITe - 275) ->
  exists l, fixed_literal x p l /\ display_prec lt ct (bits x) p = Some (text l).
Proof. exact (@fixed_ok). Qed.
Print Assumptions C32_partial.

(** The sign of a zero is kept. *)
Theorem C32_zero : forall (P : profile) lt ct x p, 0 <= x < 2 ^ 256 -> zerob x = true -> 0 <= p <= 75 ->
  exists l, fixed_literal x p l /\ display_prec lt ct (bits x) p = Some (text l).
Proof. exact (@fixed_zero). Qed.
Print Assumptions C32_zero.

(** The precision does not matter for infinities and NaNs. *)
Theorem C32_special : forall (P : profile) lt ct x p, 0 <= x < 2 ^ 256 -> finb x = false ->
  display_prec lt ct (bits x) p = display lt (bits x).
Proof. exact (@fixed_special). Qed.
Print Assumptions C32_special.

(** A precision above 75 panics (unless the number is special). *)
Theorem C32_too_precise : forall (P : profile) lt ct x p, 0 <= x < 2 ^ 256 -> finb x = true -> zerob x = false -> 75 < p ->
  display_prec lt ct (bits x) p = None.
Proof. exact (@fixed_panics). Qed.
Print Assumptions C32_too_precise.

(** 1 - 2^-20, -1/2 (a tie) and 0.75 with two digits; a zero *)
Example C32_ex : forall P : profile,
  display_prec gen_luts gen_chunks (bits ((-237 + UNITe) * 2 ^ 236 + (2 ^ 237 - 2 ^ 217))) 2 = Some (bytes_of "1.00")
  /\ display_prec gen_luts gen_chunks (bits (2 ^ 255 + (-237 + UNITe) * 2 ^ 236 + 2 ^ 236)) 0 = Some (bytes_of "-0")
  /\ display_prec gen_luts gen_chunks (bits ((-237 + UNITe) * 2 ^ 236 + 3 * 2 ^ 235)) 1 = Some (bytes_of "0.8")
  /\ display_prec gen_luts gen_chunks (bits 0) 3 = Some (bytes_of "0.000").
Proof. intros []; vm_compute; repeat split. Qed.
Example C32_ex_range : let x := (-237 + UNITe) * 2 ^ 236 + (2 ^ 237 - 2 ^ 217) in
  finb x = true /\ zerob x = false /\ mag x = x
  /\ mag_val x < 2 ^ (237 + UNITe) /\ 2 ^ (UNITe - 83) <= mag_val x mod 2 ^ UNITe.
Proof.
  cbv zeta. split; [vm_compute; reflexivity|]. split; [vm_compute; reflexivity|]. split; [vm_compute; reflexivity|].
  apply (fixed_range_u UNITe _ (-237) eq_refl); lia.
Qed.

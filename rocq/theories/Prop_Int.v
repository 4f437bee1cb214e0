(** * Properties C18 - C24: integer rounding, scaling, ulp *)

From Coq Require Import ZArith Bool List Lia.
From Verif Require Import Base BigUInt BigExtra Spec SpecFns F256 Arith Interface LiftProofs LiftAlg SpecLemmas SpecAlg Compute IntExtra.
Import ListNotations.
Open Scope Z_scope.

(** ** C18 trunc, floor, ceil.  The sign of a zero result of a non-zero operand is not
    part of the claim (the code always gives +0). *)
Theorem C18_trunc : forall (P : profile) x, wf256 x -> returns_in (trunc x) (spec_int int_trunc (v256 x)).
Proof. exact (@L_trunc). Qed.
Print Assumptions C18_trunc.

Theorem C18_floor : forall (P : profile) x, wf256 x -> returns_in (floor x) (spec_int int_floor (v256 x)).
Proof. exact (@L_floor). Qed.
Print Assumptions C18_floor.

Theorem C18_ceil : forall (P : profile) x, wf256 x -> returns_in (ceil x) (spec_int int_ceil (v256 x)).
Proof. exact (@L_ceil). Qed.
Print Assumptions C18_ceil.

(** The rounding functions of the specification are the mathematical ones. *)
Theorem S_integers : forall n u, 0 < u ->
  (n / u) * u <= n < (n / u + 1) * u
  /\ (- ((- n) / u) - 1) * u < n <= (- ((- n) / u)) * u
  /\ Z.abs (Z.quot n u) * u <= Z.abs n < (Z.abs (Z.quot n u) + 1) * u
  /\ 2 * Z.abs (n - rne_div n u * u) <= u
  /\ (2 * Z.abs (n - rne_div n u * u) = u -> Z.odd (rne_div n u) = false)
  /\ (let r := Z.sgn n * ((2 * Z.abs n + u) / (2 * u)) in
      2 * Z.abs (n - r * u) <= u /\ (2 * Z.abs (n - r * u) = u -> Z.abs n < Z.abs r * u)).
Proof. exact int_fns_ok. Qed.
Print Assumptions S_integers.

(** 2.5, -2.5 and -0.5 *)
Example C18_ex : forall P : profile,
  trunc (bits (ONEm + 2 ^ 236 + 2 ^ 234)) = Some (bits (ONEm + 2 ^ 236))
  /\ ceil (bits (ONEm + 2 ^ 236 + 2 ^ 234)) = Some (bits (ONEm + 2 ^ 236 + 2 ^ 235))
  /\ floor (bits (2 ^ 255 + ONEm + 2 ^ 236 + 2 ^ 234)) = Some (bits (2 ^ 255 + ONEm + 2 ^ 236 + 2 ^ 235))
  /\ floor (bits (2 ^ 255 + ONEm - 2 ^ 236)) = Some (bits (2 ^ 255 + ONEm)).
Proof. intros []; vm_compute; repeat split. Qed.

(** ** C19 round *)
Theorem C19_round : forall (P : profile) x, wf256 x -> returns_in (round x) (spec_int int_round (v256 x)).
Proof. exact (@L_round). Qed.
Print Assumptions C19_round.

Example C19_ex : forall P : profile,
  round (bits (ONEm + 2 ^ 236 + 2 ^ 234)) = Some (bits (ONEm + 2 ^ 236 + 2 ^ 235))
  /\ round (bits (ONEm + 2 ^ 236 + 2 ^ 234 - 1)) = Some (bits (ONEm + 2 ^ 236)).
Proof. intros []; vm_compute; repeat split. Qed.

(** ** C20 round_tie_even: wrong for numbers just above one half *)
Theorem C20_round_tie_even_partial : forall (P : profile) x, wf256 x ->
  ~ 262142 * 2 ^ 236 < mag (v256 x) < 262142 * 2 ^ 236 + 2 ^ 128 ->
  returns_in (round_tie_even x) (spec_int int_rte (v256 x)).
Proof. exact (@L_rte). Qed.
Print Assumptions C20_round_tie_even_partial.

(** 0.5 + 2^-237 is rounded to 0. *)
Theorem C20_refuted : forall P : profile, exists x, wf256 x /\
  2 ^ UNITe < 2 * sval (v256 x) /\ int_rte (sval (v256 x)) = 1 /\ round_tie_even x = Some (bits 0).
Proof. exact rte_refuted. Qed.
Print Assumptions C20_refuted.

Example C20_ex : forall P : profile,
  round_tie_even (bits (ONEm + 2 ^ 236 + 2 ^ 234)) = Some (bits (ONEm + 2 ^ 236))
  /\ round_tie_even (bits (ONEm + 2 ^ 235)) = Some (bits (ONEm + 2 ^ 236)).
Proof. intros []; vm_compute; repeat split. Qed.

(** ** C21 fract and split *)
Theorem C21_split : forall (P : profile) x, wf256 x -> finb (v256 x) = true ->
  exists t f, trunc x = Some t /\ split x = Some (t, f) /\ fract x = Some f /\ wf256 t /\ wf256 f
    /\ finb (v256 t) = true /\ finb (v256 f) = true
    /\ sval (v256 t) = int_trunc (sval (v256 x)) * U1 /\ sval (v256 t) + sval (v256 f) = sval (v256 x)
    /\ Z.abs (sval (v256 f)) < U1.
Proof. exact (@L_split). Qed.
Print Assumptions C21_split.

Example C21_ex : forall P : profile,
  split (bits (2 ^ 255 + ONEm + 2 ^ 236 + 2 ^ 234)) = Some (bits (2 ^ 255 + ONEm + 2 ^ 236), bits (2 ^ 255 + ONEm - 2 ^ 236)).
Proof. intros []; vm_compute; repeat split. Qed.

(** ** C22 mul_pow2 *)
Theorem C22_mul_pow2_partial : forall (P : profile) x n, wf256 x -> 0 <= n < 2 ^ 32 ->
  2 ^ 236 <= mag (v256 x) \/ n < 524287 -> returns (mul_pow2 x n) (spec_mul_pow2 (v256 x) n).
Proof. exact (@L_mul_pow2). Qed.
Print Assumptions C22_mul_pow2_partial.

(** 2^-262378 * 2^524287 = 2^261909 is finite; the code returns infinity. *)
Theorem C22_refuted : forall P : profile, exists x n, wf256 x /\ 0 <= n < 2 ^ 32 /\
  finb (spec_mul_pow2 (v256 x) n) = true /\ mul_pow2 x n = Some (bits INFm).
Proof. exact mul_pow2_refuted. Qed.
Print Assumptions C22_refuted.

Example C22_ex : forall P : profile, mul_pow2 (bits 3) 240 = Some (bits (5 * 2 ^ 236 + 2 ^ 236 + 2 ^ 235))
  /\ mul_pow2 (bits (2 ^ 255 + ONEm)) 262144 = Some (bits (2 ^ 255 + INFm)).
Proof. intros []; vm_compute; repeat split. Qed.

(** ** C23 div_pow2 *)
Theorem C23_div_pow2_partial : forall (P : profile) x n, wf256 x -> 0 <= n < 2 ^ 32 -> div_pow2_safe (v256 x) n ->
  returns (div_pow2 x n) (spec_div_pow2 (v256 x) n).
Proof. exact (@L_div_pow2). Qed.
Print Assumptions C23_div_pow2_partial.

(** 3 units / 4 must round to 1 unit but gives 0 (and -1 unit for the negated operand);
    the least normal number divided by 2 must give 2^235 units but does not. *)
Theorem C23_refuted : forall P : profile,
  (exists x n, wf256 x /\ 0 <= n < 2 ^ 32 /\ spec_div_pow2 (v256 x) n = 1 /\ div_pow2 x n = Some (bits 0)
     /\ div_pow2 (negated x) n = Some (bits (2 ^ 255 + 1)))
  /\ exists x n, wf256 x /\ 0 <= n < 2 ^ 32 /\ spec_div_pow2 (v256 x) n = 2 ^ 235 /\ div_pow2 x n <> Some (bits (2 ^ 235)).
Proof.
  intros P. split.
  - exists (bits 3), 2. split; [apply wf_bits; lia|]. split; [lia|]. split; [|split]; destruct P; vm_compute; reflexivity.
  - exists (bits (2 ^ 236)), 1. split; [apply wf_bits; lia|]. split; [lia|]. split; [|destruct P; vm_compute; discriminate].
    rewrite v_bits. vm_compute. reflexivity.
Qed.
Print Assumptions C23_refuted.

Example C23_ex : forall P : profile, div_pow2 (bits (5 * 2 ^ 236 + 2 ^ 236 + 2 ^ 235)) 240 = Some (bits 3)
  /\ div_pow2 (bits (2 ^ 255 + ONEm)) 5 = Some (bits (2 ^ 255 + ONEm - 5 * 2 ^ 236))
  /\ div_pow2_safe ONEm 5.
Proof.
  intros P. split; [|split]; try (destruct P; vm_compute; reflexivity).
  split; vm_compute; intuition discriminate.
Qed.

(** ** C24 ulp *)
Theorem C24_ulp : forall (P : profile) x, wf256 x -> returns_in (ulp x) (spec_ulp (v256 x)).
Proof. exact (@L_ulp). Qed.
Print Assumptions C24_ulp.

Example C24_ex : forall P : profile, ulp (bits (ONEm + 5)) = Some (bits (ONEm - 236 * 2 ^ 236)) /\ ulp (bits (2 ^ 255 + 7)) = Some (bits 1).
Proof. intros []; vm_compute; repeat split. Qed.

(** * IntExtra: the integer functions of the specification, and counterexamples for rounding and scaling *)

From Coq Require Import ZArith Bool List Lia.
From Verif Require Import Base ZLemmas BigLaws BigUInt BigExtra Spec SpecFns F256 Arith Interface LiftProofs LiftAlg SpecLemmas SpecAlg Compute BasicProofs.
Open Scope Z_scope.

Lemma int_fns_ok n u : 0 < u ->
  (n / u) * u <= n < (n / u + 1) * u
  /\ (- ((- n) / u) - 1) * u < n <= (- ((- n) / u)) * u
  /\ Z.abs (Z.quot n u) * u <= Z.abs n < (Z.abs (Z.quot n u) + 1) * u
  /\ 2 * Z.abs (n - rne_div n u * u) <= u
  /\ (2 * Z.abs (n - rne_div n u * u) = u -> Z.odd (rne_div n u) = false)
  /\ (let r := Z.sgn n * ((2 * Z.abs n + u) / (2 * u)) in
      2 * Z.abs (n - r * u) <= u /\ (2 * Z.abs (n - r * u) = u -> Z.abs n < Z.abs r * u)).
Proof.
  intros Hu.
  pose proof (Z.div_mod n u ltac:(lia)) as D1. pose proof (Z.mod_pos_bound n u Hu) as M1.
  pose proof (Z.div_mod (- n) u ltac:(lia)) as D2. pose proof (Z.mod_pos_bound (- n) u Hu) as M2.
  split. clear - D1 M1; nia. split. clear - D2 M2; nia. split.
  { assert (Q : Z.abs (Z.quot n u) = Z.abs n / u).
    { rewrite <- Z.quot_abs, Z.quot_div_nonneg by lia. rewrite (Z.abs_eq u) by lia. reflexivity. }
    rewrite Q. pose proof (Z.div_mod (Z.abs n) u ltac:(lia)) as D. pose proof (Z.mod_pos_bound (Z.abs n) u Hu) as M. clear - D M. nia. }
  destruct (rne_div_spec n u Hu) as (R1 & R2 & R3). split. clear - R1; lia. split.
  { intros E. destruct (Z.le_gt_cases 0 (n - rne_div n u * u)). apply R2; lia. apply R3; lia. }
  cbv zeta. pose proof (Z.div_mod (2 * Z.abs n + u) (2 * u) ltac:(lia)) as D.
  pose proof (Z.mod_pos_bound (2 * Z.abs n + u) (2 * u) ltac:(lia)) as M.
  set (q := (2 * Z.abs n + u) / (2 * u)) in *. set (r := (2 * Z.abs n + u) mod (2 * u)) in *. clearbody q r. clear - D M Hu.
  assert (Q0 : 0 <= q) by nia.
  assert (E : Z.abs (n - Z.sgn n * q * u) = Z.abs (Z.abs n - q * u)).
  { destruct (Z.lt_trichotomy n 0) as [C|[-> | C]].
    rewrite Z.sgn_neg, (Z.abs_neq n) by lia. lia. cbn [Z.sgn Z.abs] in *. assert (q = 0) by nia. subst q. reflexivity.
    rewrite Z.sgn_pos, (Z.abs_eq n) by lia. lia. }
  rewrite E. split. nia. intros T.
  destruct (Z.eq_dec n 0) as [->|N]. cbn [Z.abs] in *. assert (q = 0) by nia. subst q. lia.
  assert (A : Z.abs (Z.sgn n * q) = q) by (destruct (Z.lt_trichotomy n 0) as [C|[C|C]]; [rewrite Z.sgn_neg by lia|lia|rewrite Z.sgn_pos by lia]; lia).
  rewrite A. nia.
Qed.

Lemma above_half k e : 0 <= k -> e = 237 + k ->
  2 ^ e < 2 * ((2 ^ 236 + 1) * 2 ^ k) /\ rne_div ((2 ^ 236 + 1) * 2 ^ k) (2 ^ e) = 1.
Proof.
  intros Hk ->. rewrite pow2_add by lia. pose proof (pow2_pos k Hk). split. nia.
  rewrite rne_div_mul by lia. vm_compute. reflexivity.
Qed.

Lemma rte_refuted : forall P : profile, exists x, wf256 x /\
  2 ^ UNITe < 2 * sval (v256 x) /\ int_rte (sval (v256 x)) = 1 /\ round_tie_even x = Some (bits 0).
Proof.
  intros P. exists (bits (262142 * 2 ^ 236 + 1)).
  split; [apply wf_bits; lia|]. rewrite v_bits.
  assert (V : forall k, k = 262141 -> sval (262142 * 2 ^ 236 + 1) = (2 ^ 236 + 1) * 2 ^ k).
  { intros k Hk. rewrite sval_pos by (vm_compute; reflexivity).
    assert (M : mag (262142 * 2 ^ 236 + 1) = k * 2 ^ 236 + (2 ^ 236 + 1)) by (subst k; vm_compute; reflexivity).
    rewrite M. apply mag_val_any; lia. }
  remember 262141 as k eqn:Hk in V. rewrite (V k eq_refl).
  unfold int_rte, U1. remember UNITe as e eqn:He.
  destruct (above_half k e) as (A & B). lia. unfold UNITe in He. lia.
  split. exact A. split. exact B. clear. destruct P; vm_compute; reflexivity.
Qed.

Lemma mul_pow2_refuted : forall P : profile, exists x n, wf256 x /\ 0 <= n < 2 ^ 32 /\
  finb (spec_mul_pow2 (v256 x) n) = true /\ mul_pow2 x n = Some (bits INFm).
Proof.
  intros P. exists (bits 1), 524287. split; [apply wf_bits; lia|]. split; [lia|]. rewrite v_bits.
  split; [|destruct P; vm_compute; reflexivity].
  unfold spec_mul_pow2. change (nanb 1 || infb 1 || zerob 1) with false. cbv iota. unfold finb.
  change (sgn 1) with 0. change (mag_val (mag 1)) with 1.
  pose proof (rnd_fast_ok 1 524287 0 ltac:(lia) ltac:(lia) ltac:(lia)) as E. change (2 ^ 0) with 1 in E. rewrite E.
  vm_compute. reflexivity.
Qed.

(** * Properties C25, C26: conversions from integers and from f32/f64 *)

From Coq Require Import ZArith Bool List Lia.
From Verif Require Import Base BigUInt BigExtra Spec SpecFns SpecConv F256 Interface LiftAlg Compute Conv ConvProofs.
Open Scope Z_scope.

(** ** C25: every primitive integer is converted exactly; 0 gives +0 *)
Theorem C25_from_int : forall (P : profile) t i, fst (prim_range t) <= i < snd (prim_range t) ->
  returns_in (from_prim t i) (fun r => finb r = true /\ sval r = i * U1 /\ (i = 0 -> r = 0)).
Proof. exact (@K_prim). Qed.
Print Assumptions C25_from_int.

Theorem C25_injective : forall (P : profile) t i j x,
  fst (prim_range t) <= i < snd (prim_range t) -> fst (prim_range t) <= j < snd (prim_range t) ->
  from_prim t i = Some x -> from_prim t j = Some x -> i = j.
Proof. exact (@K_inj). Qed.
Print Assumptions C25_injective.

(** The internal conversion from U256, for values of at most 237 bits. *)
Theorem C25_from_u256 : forall (P : profile) x, wf256 x -> v256 x < 2 ^ 237 ->
  returns_in (from_u256 x) (fun r => finb r = true /\ sval r = v256 x * U1 /\ (v256 x = 0 -> r = 0)).
Proof. exact (@K_u256). Qed.
Print Assumptions C25_from_u256.

Example C25_ex : forall P : profile,
  from_prim I128 (- 2 ^ 127) = Some (bits (2 ^ 255 + ONEm + 127 * 2 ^ 236))
  /\ from_prim I8 (-3) = Some (bits (2 ^ 255 + ONEm + 2 ^ 236 + 2 ^ 235))
  /\ from_prim PU128 (2 ^ 128 - 1) = Some (bits (ONEm + 127 * 2 ^ 236 + (2 ^ 127 - 1) * 2 ^ 109))
  /\ from_prim PU64 0 = Some (bits 0).
Proof. intros []; vm_compute; repeat split. Qed.

(** ** C26: f32 (8 exponent, 23 fraction bits) and f64 (11, 52) *)
Theorem C26_from_f32 : forall (P : profile) b, 0 <= b < 2 ^ 32 -> returns_in (from_f32 b) (same_float 8 23 b).
Proof. exact (@K_f32). Qed.
Print Assumptions C26_from_f32.

Theorem C26_from_f64 : forall (P : profile) b, 0 <= b < 2 ^ 64 -> returns_in (from_f64 b) (same_float 11 52 b).
Proof. exact (@K_f64). Qed.
Print Assumptions C26_from_f64.

(** 3.5, the least subnormal f64, -1.5f32, a NaN with the sign bit set *)
Example C26_ex : forall P : profile,
  from_f64 (0x400C * 2 ^ 48) = Some (bits (ONEm + 2 ^ 236 + 3 * 2 ^ 234))
  /\ from_f64 1 = Some (bits (ONEm - 1074 * 2 ^ 236))
  /\ from_f32 0xBFC00000 = Some (bits (2 ^ 255 + ONEm + 2 ^ 235))
  /\ from_f32 0xFFC00001 = Some (bits (2 ^ 255 + QNAN))
  /\ from_f64 (0xFFF * 2 ^ 52) = Some (bits (2 ^ 255 + INFm)).
Proof. intros []; vm_compute; repeat split. Qed.

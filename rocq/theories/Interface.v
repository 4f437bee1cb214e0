(** * Interface: vocabulary of the property theorems

    A value of the type is a [U256] whose halves are below 2^128 ([wf256]);
    [v256] is its bit pattern as an integer, the argument of the specification. *)

From Coq Require Import ZArith.
From Verif Require Import Base BigUInt BigExtra F256 Arith.
Open Scope Z_scope.

(** The call does not panic and returns the datum with bit pattern [r]. *)
Definition returns (m : option f256) (r : Z) : Prop :=
  exists z, m = Some z /\ wf256 z /\ v256 z = r.

(** The call does not panic and its result satisfies [Q]. *)
Definition returns_in (m : option f256) (Q : Z -> Prop) : Prop :=
  exists z, m = Some z /\ wf256 z /\ Q (v256 z).

(** The datum with bit pattern [v]; for examples. *)
Definition bits (v : Z) : f256 := u256 (v / 2 ^ 128) (v mod 2 ^ 128).

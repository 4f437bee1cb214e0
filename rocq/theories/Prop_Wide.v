(** * Properties C33, C34: the nested wide integers *)

From Coq Require Import ZArith Bool List Lia.
From Verif Require Import Base BigUInt BigExtra Spec F256 Interface LiftAlg WideTower.
Import ListNotations.
Open Scope Z_scope.

#[local] Existing Instance wide_ops.

(** [wide 0] is u128, [wide 1] U256, [wide 2] U512, ...; [wval] is the number a nested
    value stands for, [wok] says that all its u128 digits are in range.  The theorems
    hold up to depth 12 (2^19 bits; the code uses depth 3), the limit being that the bit count
    fits the u32 arithmetic of the code. *)

Theorem S_wide_values : forall n x, wok n x -> 0 <= wval n x < 2 ^ (128 * 2 ^ Z.of_nat n).
Proof. intros n x H. rewrite <- wbits_eq. exact (wval_bound n x H). Qed.
Print Assumptions S_wide_values.

Theorem C33_cmp : forall (P : profile) n x y, (n <= 12)%nat -> wok n x -> wok n y ->
  ucmp x y = (wval n x ?= wval n y) /\ ueqb x y = (wval n x =? wval n y).
Proof. exact (@W_cmp). Qed.
Print Assumptions C33_cmp.

Theorem C33_counts : forall (P : profile) n x, (n <= 12)%nat -> wok n x ->
  leading_zeros x = (if wval n x =? 0 then wbits n else wbits n - 1 - Z.log2 (wval n x))
  /\ is_odd x = Z.odd (wval n x) /\ is_even x = Z.even (wval n x).
Proof. exact (@W_counts). Qed.
Print Assumptions C33_counts.

Theorem C33_trailing_zeros : forall (P : profile) n x, (n <= 12)%nat -> wok n x ->
  if wval n x =? 0 then trailing_zeros x = wbits n
  else 0 <= trailing_zeros x < wbits n /\ wval n x mod 2 ^ trailing_zeros x = 0
       /\ Z.odd (wval n x / 2 ^ trailing_zeros x) = true.
Proof. exact (@W_tz). Qed.
Print Assumptions C33_trailing_zeros.

Theorem C33_wrapping : forall (P : profile) n x y, (n <= 12)%nat -> wok n x -> wok n y ->
  wval n (fst (oadd x y)) = (wval n x + wval n y) mod 2 ^ wbits n
  /\ snd (oadd x y) = (2 ^ wbits n <=? wval n x + wval n y)
  /\ wval n (wadd x y) = (wval n x + wval n y) mod 2 ^ wbits n
  /\ wval n (fst (osub x y)) = (wval n x - wval n y) mod 2 ^ wbits n
  /\ snd (osub x y) = (wval n x <? wval n y)
  /\ wval n (wsub x y) = (wval n x - wval n y) mod 2 ^ wbits n
  /\ wval n (incr x) = (wval n x + 1) mod 2 ^ wbits n
  /\ wval n (decr x) = (wval n x - 1) mod 2 ^ wbits n.
Proof. exact (@W_wrapping). Qed.
Print Assumptions C33_wrapping.

Theorem C33_add : forall (P : profile) n x y, (n <= 12)%nat -> wok n x -> wok n y -> wval n x + wval n y < 2 ^ wbits n ->
  wgives (uadd x y) (wval n x + wval n y).
Proof. exact (@W_add). Qed.
Print Assumptions C33_add.

Theorem C33_sub : forall (P : profile) n x y, (n <= 12)%nat -> wok n x -> wok n y -> wval n y <= wval n x ->
  wgives (usub x y) (wval n x - wval n y).
Proof. exact (@W_sub). Qed.
Print Assumptions C33_sub.

Theorem C33_mul : forall (P : profile) n x y, (n <= 12)%nat -> wok n x -> wok n y -> wval n x * wval n y < 2 ^ wbits n ->
  wgives (umul x y) (wval n x * wval n y).
Proof. exact (@W_mul). Qed.
Print Assumptions C33_mul.

(** The nested types panic on overflow, in every build profile. *)
Theorem C33_panics : forall (P : profile) n x y, (n <= 11)%nat -> wok (S n) x -> wok (S n) y ->
  (2 ^ wbits (S n) <= wval (S n) x + wval (S n) y -> @uadd _ (wide_ops (S n)) x y = None)
  /\ (wval (S n) x < wval (S n) y -> @usub _ (wide_ops (S n)) x y = None)
  /\ (2 ^ wbits (S n) <= wval (S n) x * wval (S n) y -> @umul _ (wide_ops (S n)) x y = None).
Proof. exact (@W_panics). Qed.
Print Assumptions C33_panics.

Theorem C33_widening_mul : forall (P : profile) n x y, (n <= 12)%nat -> wok n x -> wok n y ->
  exists l h o b, wmul x y = Some (l, h) /\ wok n l /\ wok n h
   /\ wval n h * 2 ^ wbits n + wval n l = wval n x * wval n y
   /\ omul x y = Some (o, b) /\ wval n o = (wval n x * wval n y) mod 2 ^ wbits n
   /\ b = (2 ^ wbits n <=? wval n x * wval n y).
Proof. exact (@W_widening). Qed.
Print Assumptions C33_widening_mul.

Theorem C33_shifts : forall (P : profile) n x k, (n <= 12)%nat -> wok n x -> 0 <= k < wbits n ->
  wgives (ushl x k) ((wval n x * 2 ^ k) mod 2 ^ wbits n) /\ wgives (ushr x k) (wval n x / 2 ^ k).
Proof. exact (@W_shifts). Qed.
Print Assumptions C33_shifts.

Theorem C33_bitwise : forall (P : profile) n x y, (n <= 12)%nat -> wok n x -> wok n y ->
  wval n (uand x y) = Z.land (wval n x) (wval n y) /\ wval n (uor x y) = Z.lor (wval n x) (wval n y).
Proof. exact (@W_bitwise). Qed.
Print Assumptions C33_bitwise.

Theorem C33_rem_pow2 : forall (P : profile) n x k, (n <= 11)%nat -> wok (S n) x -> 0 <= k ->
  wgives (n := S n) (rem_pow2 (T := wide n) x k) (wval (S n) x mod 2 ^ k).
Proof. exact (@W_rem_pow2). Qed.
Print Assumptions C33_rem_pow2.

Theorem C33_rounding_shift : forall (P : profile) n x k, (n <= 11)%nat -> wok (S n) x -> 0 <= k < wbits (S n) ->
  wgives (n := S n) (rounding_div_pow2 (T := wide n) x k) (rne_div (wval (S n) x) (2 ^ k)).
Proof. exact (@W_rounding_shift). Qed.
Print Assumptions C33_rounding_shift.

Theorem C33_div_u128 : forall (P : profile) n x d, (n <= 11)%nat -> wok (S n) x -> 0 < d < 2 ^ 128 ->
  exists q r, div_rem_u128 (T := wide n) x d = Some (q, r) /\ wok (S n) q
    /\ wval (S n) x = d * wval (S n) q + r /\ 0 <= r < d.
Proof. exact (@W_div_u128). Qed.
Print Assumptions C33_div_u128.

Theorem C33_div_half : forall (P : profile) x y, wok 1 x -> wok 0 y -> 0 < wval 0 y ->
  exists q r, div_rem_sub (T := wide 0) x y = Some (q, r) /\ wok 1 q /\ wok 0 r
    /\ wval 1 x = wval 0 y * wval 1 q + wval 0 r /\ 0 <= wval 0 r < wval 0 y.
Proof. exact (@W_div_256). Qed.
Print Assumptions C33_div_half.

(** At the level of u128 itself the remainder by a power of two is wrong: the code
    computes x mod 2^(128 - n). *)
Theorem C33_u128_rem_pow2_refuted : forall P : profile, exists x n, 0 <= n < 128 /\ wok 0 x /\
  u128_rem_pow2 x n <> Some (mk128 (wval 0 x mod 2 ^ n)).
Proof. intros P. exists (mk128 5), 2. split. lia. split. cbn [wok val]; lia. destruct P; vm_compute; discriminate. Qed.
Print Assumptions C33_u128_rem_pow2_refuted.

(** U256 and U512 operands near the boundaries *)
Example C33_ex : forall P : profile,
  @uadd _ (wide_ops 1) (mk (mk128 (2 ^ 128 - 2)) (mk128 (2 ^ 128 - 1))) (mk (mk128 0) (mk128 1)) = Some (mk (mk128 (2 ^ 128 - 1)) (mk128 0))
  /\ @umul _ (wide_ops 2) (wof 2 (2 ^ 255 + 3)) (wof 2 (2 ^ 255 - 3)) = Some (wof 2 (2 ^ 510 - 9))
  /\ @ushl _ (wide_ops 2) (wof 2 (2 ^ 300 + 1)) 200 = Some (wof 2 (2 ^ 500 + 2 ^ 200))
  /\ wok 2 (wof 2 (2 ^ 500 + 2 ^ 200)) /\ wval 2 (wof 2 (2 ^ 500 + 2 ^ 200)) = 2 ^ 500 + 2 ^ 200
  /\ rounding_div_pow2 (T := wide 1) (wof 2 (2 ^ 300 + 2 ^ 298)) 299 = Some (wof 2 2)
  /\ div_rem_u128 (T := wide 1) (wof 2 (2 ^ 500)) 10 = Some (wof 2 (2 ^ 500 / 10), 6).
Proof. intros []; vm_compute; repeat split; discriminate. Qed.

(** ** C34 division of two values of the same width: exact for three classes of divisors,
    wrong or panicking in general *)
Theorem C34_div_low_partial : forall (P : profile) x y, wok 1 x -> wok 1 y -> 0 < wval 1 y < 2 ^ 128 ->
  exists q r, @div_rem _ (wide_ops 1) x y = Some (q, r) /\ wok 1 q /\ wok 1 r
    /\ wval 1 x = wval 1 y * wval 1 q + wval 1 r /\ 0 <= wval 1 r < wval 1 y.
Proof. exact (@W_div_low). Qed.
Print Assumptions C34_div_low_partial.

Theorem C34_div_normalised_partial : forall (P : profile) n x y, (n <= 11)%nat -> wok (S n) x -> wok (S n) y ->
  2 ^ (wbits (S n) - 1) <= wval (S n) y \/ 2 ^ (wbits n - 1) <= wval (S n) y < 2 ^ wbits n ->
  exists q r, @div_rem _ (wide_ops (S n)) x y = Some (q, r) /\ wok (S n) q /\ wok (S n) r
    /\ wval (S n) x = wval (S n) y * wval (S n) q + wval (S n) r /\ 0 <= wval (S n) r < wval (S n) y.
Proof. exact (@W_div_norm). Qed.
Print Assumptions C34_div_normalised_partial.

Theorem C34_div_smaller_partial : forall (P : profile) n x y, (n <= 11)%nat -> wok (S n) x -> wok (S n) y ->
  2 ^ wbits n <= wval (S n) y -> wval (S n) x < wval (S n) y ->
  exists q, @div_rem _ (wide_ops (S n)) x y = Some (q, x) /\ wok (S n) q /\ wval (S n) q = 0.
Proof. exact (@W_div_less). Qed.
Print Assumptions C34_div_smaller_partial.

Theorem C34_rounding_div_partial : forall (P : profile) n x y q r, (n <= 11)%nat -> wok (S n) x -> wok (S n) y ->
  @div_rem _ (wide_ops (S n)) x y = Some (q, r) -> wok (S n) q -> wok (S n) r ->
  wval (S n) x = wval (S n) y * wval (S n) q + wval (S n) r -> 0 <= wval (S n) r < wval (S n) y ->
  Z.even (wval (S n) y) = true ->
  wgives (n := S n) (rounding_div (T := wide n) x y) (rne_div (wval (S n) x) (wval (S n) y)).
Proof. exact (@W_rounding_div). Qed.
Print Assumptions C34_rounding_div_partial.

(** A quotient one too small, a panic, and a rounding division of 4 by 3 that gives 2. *)
Theorem C34_refuted : forall P : profile,
  (exists x y q r, wok 1 x /\ wok 1 y /\ 0 < wval 1 y /\ @div_rem _ (wide_ops 1) x y = Some (q, r) /\ wval 1 y <= wval 1 r)
  /\ (exists x y, wok 1 x /\ wok 1 y /\ 0 < wval 1 y /\ @div_rem _ (wide_ops 1) x y = None)
  /\ (exists x y, wok 1 x /\ wok 1 y /\ wval 1 x = 4 /\ wval 1 y = 3 /\ rounding_div (T := wide 0) x y = Some (wof 1 2)).
Proof.
  intros P. split; [|split].
  - exists (wof 1 ((2 ^ 129 - 1) * 3 * 2 ^ 90)), (wof 1 (2 ^ 129 - 1)).
    destruct (@div_rem _ (wide_ops 1) (wof 1 ((2 ^ 129 - 1) * 3 * 2 ^ 90)) (wof 1 (2 ^ 129 - 1))) as [[q r]|] eqn:D.
    + exists q, r. split; [apply wok_of; vm_compute; intuition congruence|]. split; [apply wok_of; vm_compute; intuition congruence|].
      split. vm_compute; reflexivity. split. reflexivity.
      destruct P; vm_compute in D; inversion D; vm_compute; congruence.
    + exfalso. destruct P; vm_compute in D; discriminate D.
  - exists (wof 1 (2 ^ 255 + 2 ^ 254)), (wof 1 (2 ^ 129 - 1)).
    split; [apply wok_of; vm_compute; intuition congruence|]. split; [apply wok_of; vm_compute; intuition congruence|].
    split. vm_compute; reflexivity. destruct P; vm_compute; reflexivity.
  - exists (wof 1 4), (wof 1 3). split; [apply wok_of; vm_compute; intuition congruence|]. split; [apply wok_of; vm_compute; intuition congruence|].
    split. reflexivity. split. reflexivity. destruct P; vm_compute; reflexivity.
Qed.
Print Assumptions C34_refuted.

Example C34_ex : forall P : profile,
  @div_rem _ (wide_ops 2) (wof 2 (2 ^ 511 + 12345)) (wof 2 (2 ^ 255 + 1)) = Some (wof 2 (2 ^ 256 - 2), wof 2 12347)
  /\ rounding_div (T := wide 0) (wof 1 15) (wof 1 10) = Some (wof 1 2)
  /\ rounding_div (T := wide 0) (wof 1 25) (wof 1 10) = Some (wof 1 2).
Proof. intros []; vm_compute; repeat split. Qed.

(** * WideTower: the wide integers at every nesting depth

    [wide n] is U128 nested [n] times: [wide 1] = U256, [wide 2] = U512, ... *)

From Coq Require Import ZArith Lia Bool List.
From Verif Require Import Base BigUInt ZLemmas BigLaws BigUIntProofs BigExtra.
Open Scope Z_scope.

Section Tower.
Context {P : profile}.

Fixpoint wide (n : nat) : Type := match n with O => U128 | S n => uint (wide n) end.

Fixpoint wide_ops (n : nat) : ops (wide n) :=
  match n with
  | O => U128_ops
  | S n => @uint_ops P (wide n) (wide_ops n)
  end.
#[local] Existing Instance wide_ops.

(** Number of bits, value, and range of the components. *)
Fixpoint wbits (n : nat) : Z := match n with O => 128 | S n => 2 * wbits n end.
Fixpoint wval (n : nat) : wide n -> Z :=
  match n with
  | O => fun x => val x
  | S n => fun x => wval n (hi x) * 2 ^ wbits n + wval n (lo x)
  end.
Fixpoint wok (n : nat) : wide n -> Prop :=
  match n with
  | O => fun x => 0 <= val x < 2 ^ 128
  | S n => fun x => wok n (hi x) /\ wok n (lo x)
  end.
(** The representation of an integer, for the proofs. *)
Fixpoint wof (n : nat) : Z -> wide n :=
  match n with
  | O => mk128
  | S n => @of_uint (wide n) (wide_ops n) (wof n)
  end.

(** The result does not panic, is in range, and has value [z]. *)
Definition wgives {n : nat} (m : option (wide n)) (z : Z) : Prop :=
  exists r, m = Some r /\ wok n r /\ wval n r = z.

Lemma wbits_bits n : @BITS (wide n) (wide_ops n) = wbits n.
Proof. induction n. reflexivity. cbn [wide wbits]. rewrite <- IHn. reflexivity. Qed.
Lemma wbits_pos n : 128 <= wbits n.
Proof. induction n; cbn [wbits]; lia. Qed.
Lemma wbits_eq n : wbits n = 128 * 2 ^ Z.of_nat n.
Proof.
  induction n. reflexivity. cbn [wbits]. rewrite IHn, Nat2Z.inj_succ, Z.pow_succ_r by lia. ring.
Qed.
Lemma wbits_20 n : (n <= 12)%nat -> wbits n < 2 ^ 20.
Proof.
  intros H. rewrite wbits_eq. change (2 ^ 20) with (128 * 2 ^ 13). apply Z.mul_lt_mono_pos_l. lia.
  apply Z.pow_lt_mono_r; lia.
Qed.

Lemma wlaws n : (n <= 12)%nat -> laws (wof n).
Proof.
  induction n; intros H. exact L128. cbn [wof]. apply uint_laws. apply IHn; lia.
  change (2 * @BITS (wide n) (wide_ops n) < 2 ^ 20). rewrite (wbits_bits n). exact (wbits_20 (S n) H).
Qed.

Lemma wval_bound n x : wok n x -> 0 <= wval n x < 2 ^ wbits n.
Proof.
  revert x. induction n; intros x. auto. cbn [wok wval wbits]. intros [H1 H2]. apply IHn in H1, H2.
  pose proof (wbits_pos n). replace (2 * wbits n) with (wbits n + wbits n) by lia. rewrite pow2_add by lia. apply cat_bound; auto.
Qed.

Lemma wof_val n x : wok n x -> wof n (wval n x) = x.
Proof.
  revert x. induction n; intros x. destruct x. reflexivity. cbn [wok wval wof wide]. intros [H1 H2].
  pose proof (wval_bound n _ H2) as B2. unfold of_uint. rewrite wbits_bits.
  rewrite (div_eq _ (2 ^ wbits n) (wval n (hi x)) (wval n (lo x))), (mod_eq _ (2 ^ wbits n) (wval n (hi x)) (wval n (lo x))) by auto.
  rewrite !IHn by auto. destruct x. reflexivity.
Qed.

Lemma wval_of n : forall a, wval n (wof n a) = a.
Proof.
  induction n; intros a. reflexivity. cbn [wval wof wide]. unfold of_uint. cbn [hi lo]. rewrite !IHn, wbits_bits.
  rewrite Z.mul_comm. symmetry. apply Z.div_mod. pose proof (pow2_pos (wbits n) ltac:(pose proof (wbits_pos n); lia)). lia.
Qed.

Lemma wok_of n : forall a, 0 <= a < 2 ^ wbits n -> wok n (wof n a).
Proof.
  induction n; intros a. auto. cbn [wbits wof wok wide]. intros H. unfold of_uint; cbn [hi lo]. rewrite wbits_bits.
  pose proof (wbits_pos n). pose proof (pow2_pos (wbits n) ltac:(lia)). replace (2 * wbits n) with (wbits n + wbits n) in H by lia.
  rewrite pow2_add in H by lia. split; apply IHn. apply div_bound; lia. apply Z.mod_pos_bound; lia.
Qed.

Lemma wgives_of n m z : 0 <= z < 2 ^ wbits n -> m = Some (wof n z) -> wgives m z.
Proof. intros H ->. exists (wof n z). split; auto. split. apply wok_of; auto. apply wval_of. Qed.


(** The dictionary operations *)
Ltac start n Hn := pose proof (wlaws n Hn) as L; pose proof (wbits_bits n) as EB; pose proof (wbits_pos n) as HB;
  pose proof (pow2_pos (wbits n) ltac:(lia)) as PB.

Lemma W_cmp n x y : (n <= 12)%nat -> wok n x -> wok n y ->
  ucmp x y = (wval n x ?= wval n y) /\ ueqb x y = (wval n x =? wval n y).
Proof.
  intros Hn Wx Wy. start n Hn. pose proof (wval_bound _ x Wx). pose proof (wval_bound _ y Wy).
  rewrite <- (wof_val _ x Wx), <- (wof_val _ y Wy). rewrite !wval_of. rewrite (L_cmp _ L), (L_eqb _ L) by (rewrite EB; auto). auto.
Qed.

Lemma W_counts n x : (n <= 12)%nat -> wok n x ->
  leading_zeros x = (if wval n x =? 0 then wbits n else wbits n - 1 - Z.log2 (wval n x))
  /\ is_odd x = Z.odd (wval n x) /\ is_even x = Z.even (wval n x).
Proof.
  intros Hn Wx. start n Hn. pose proof (wval_bound _ x Wx).
  rewrite <- (wof_val _ x Wx). rewrite !wval_of. rewrite (L_lz _ L), (L_odd _ L), (L_even _ L) by (rewrite EB; auto).
  rewrite EB. auto.
Qed.

Lemma ntz_at k z : 0 <= k -> 0 < z < 2 ^ k -> 0 <= ntz k z < k /\ z mod 2 ^ ntz k z = 0 /\ Z.odd (z / 2 ^ ntz k z) = true.
Proof.
  intros Hk Hz. pose proof (ntz_lt k z Hz Hk) as B. destruct (ntz_spec k z ltac:(lia)) as (c & E & _ & _).
  pose proof (pow2_pos (ntz k z) ltac:(lia)) as Pn. split. auto. split.
  - rewrite E at 1. apply Z.mod_mul. lia.
  - rewrite E at 1. rewrite Z.div_mul by lia. rewrite Z.odd_add, Z.odd_mul. reflexivity.
Qed.
Lemma W_tz n x : (n <= 12)%nat -> wok n x ->
  if wval n x =? 0 then trailing_zeros x = wbits n
  else 0 <= trailing_zeros x < wbits n /\ wval n x mod 2 ^ trailing_zeros x = 0
       /\ Z.odd (wval n x / 2 ^ trailing_zeros x) = true.
Proof.
  intros Hn Wx. start n Hn. pose proof (wval_bound _ x Wx) as B.
  rewrite <- (wof_val _ x Wx). rewrite !wval_of. rewrite (L_tz _ L) by (rewrite EB; auto). rewrite EB.
  destruct (Z.eqb_spec (wval n x) 0) as [E|E].
  - rewrite E. reflexivity.
  - apply ntz_at; lia.
Qed.

Lemma W_wrapping n x y : (n <= 12)%nat -> wok n x -> wok n y ->
  wval n (fst (oadd x y)) = (wval n x + wval n y) mod 2 ^ wbits n
  /\ snd (oadd x y) = (2 ^ wbits n <=? wval n x + wval n y)
  /\ wval n (wadd x y) = (wval n x + wval n y) mod 2 ^ wbits n
  /\ wval n (fst (osub x y)) = (wval n x - wval n y) mod 2 ^ wbits n
  /\ snd (osub x y) = (wval n x <? wval n y)
  /\ wval n (wsub x y) = (wval n x - wval n y) mod 2 ^ wbits n
  /\ wval n (incr x) = (wval n x + 1) mod 2 ^ wbits n
  /\ wval n (decr x) = (wval n x - 1) mod 2 ^ wbits n.
Proof.
  intros Hn Wx Wy. start n Hn. pose proof (wval_bound _ x Wx). pose proof (wval_bound _ y Wy).
  rewrite <- (wof_val _ x Wx), <- (wof_val _ y Wy). rewrite !(wval_of n (wval n x)), !(wval_of n (wval n y)).
  rewrite (L_oadd _ L), (L_wadd _ L), (L_osub _ L), (L_wsub _ L), (L_incr _ L), (L_decr _ L) by (rewrite EB; auto).
  cbn [fst snd]. rewrite !wval_of, !EB. repeat split; reflexivity.
Qed.

Lemma W_add n x y : (n <= 12)%nat -> wok n x -> wok n y -> wval n x + wval n y < 2 ^ wbits n ->
  wgives (uadd x y) (wval n x + wval n y).
Proof.
  intros Hn Wx Wy. start n Hn. pose proof (wval_bound _ x Wx). pose proof (wval_bound _ y Wy). intros.
  apply wgives_of. lia. rewrite <- (wof_val _ x Wx), <- (wof_val _ y Wy) at 1. apply (L_add _ L); rewrite EB; auto.
Qed.
Lemma W_sub n x y : (n <= 12)%nat -> wok n x -> wok n y -> wval n y <= wval n x ->
  wgives (usub x y) (wval n x - wval n y).
Proof.
  intros Hn Wx Wy. start n Hn. pose proof (wval_bound _ x Wx). pose proof (wval_bound _ y Wy). intros.
  apply wgives_of. lia. rewrite <- (wof_val _ x Wx), <- (wof_val _ y Wy) at 1. apply (L_sub _ L); rewrite ?EB; auto.
Qed.
Lemma W_mul n x y : (n <= 12)%nat -> wok n x -> wok n y -> wval n x * wval n y < 2 ^ wbits n ->
  wgives (umul x y) (wval n x * wval n y).
Proof.
  intros Hn Wx Wy. start n Hn. pose proof (wval_bound _ x Wx). pose proof (wval_bound _ y Wy). intros.
  apply wgives_of. nia. rewrite <- (wof_val _ x Wx), <- (wof_val _ y Wy) at 1. apply (L_mul _ L); rewrite ?EB; auto.
Qed.
(** The overflow panics of the nested integers. *)
Lemma W_panics n x y : (n <= 11)%nat -> wok (S n) x -> wok (S n) y ->
  (2 ^ wbits (S n) <= wval (S n) x + wval (S n) y -> @uadd _ (wide_ops (S n)) x y = None)
  /\ (wval (S n) x < wval (S n) y -> @usub _ (wide_ops (S n)) x y = None)
  /\ (2 ^ wbits (S n) <= wval (S n) x * wval (S n) y -> @umul _ (wide_ops (S n)) x y = None).
Proof.
  intros Hn Wx Wy. pose proof (wlaws n ltac:(lia)) as L. pose proof (wval_bound _ x Wx) as Bx. pose proof (wval_bound _ y Wy) as By.
  pose proof (MM (wof n) L) as E. rewrite wbits_bits in E. change (wbits (S n)) with (2 * wbits n) in *.
  rewrite <- (wof_val _ x Wx), <- (wof_val _ y Wy). rewrite !wval_of.
  rewrite E in *. cbn [wide_ops uadd usub umul uint_ops wof wide].
  split; [|split]; intros.
  apply (H_add_panic _ L); rewrite ?wbits_bits; auto. apply (H_sub_panic _ L); rewrite ?wbits_bits; auto. apply (H_mul_panic _ L); rewrite ?wbits_bits; auto.
Qed.

Lemma W_widening n x y : (n <= 12)%nat -> wok n x -> wok n y ->
  exists l h o b, wmul x y = Some (l, h) /\ wok n l /\ wok n h
   /\ wval n h * 2 ^ wbits n + wval n l = wval n x * wval n y
   /\ omul x y = Some (o, b) /\ wval n o = (wval n x * wval n y) mod 2 ^ wbits n
   /\ b = (2 ^ wbits n <=? wval n x * wval n y).
Proof.
  intros Hn Wx Wy. start n Hn. pose proof (wval_bound _ x Wx). pose proof (wval_bound _ y Wy).
  exists (wof n ((wval n x * wval n y) mod 2 ^ wbits n)), (wof n ((wval n x * wval n y) / 2 ^ wbits n)),
    (wof n ((wval n x * wval n y) mod 2 ^ wbits n)), (2 ^ wbits n <=? wval n x * wval n y).
  rewrite <- (wof_val _ x Wx), <- (wof_val _ y Wy). rewrite !(wval_of n (wval n x)), !(wval_of n (wval n y)).
  rewrite (L_wmul _ L), (L_omul _ L) by (rewrite EB; auto). rewrite EB, !wval_of.
  split. auto. split. apply wok_of. apply Z.mod_pos_bound; auto. split. apply wok_of. apply div_bound; nia.
  split. rewrite Z.mul_comm. symmetry. apply Z.div_mod. lia. auto.
Qed.

Lemma W_shifts n x k : (n <= 12)%nat -> wok n x -> 0 <= k < wbits n ->
  wgives (ushl x k) ((wval n x * 2 ^ k) mod 2 ^ wbits n) /\ wgives (ushr x k) (wval n x / 2 ^ k).
Proof.
  intros Hn Wx Hk. start n Hn. pose proof (wval_bound _ x Wx). pose proof (pow2_pos k ltac:(lia)).
  split; apply wgives_of.
  - apply Z.mod_pos_bound; auto.
  - rewrite <- (wof_val _ x Wx) at 1. rewrite (L_shl _ L); rewrite EB; auto.
  - split. apply Z.div_pos; lia. apply Z.div_lt_upper_bound; nia.
  - rewrite <- (wof_val _ x Wx) at 1. rewrite (L_shr _ L); rewrite ?EB; auto.
Qed.

Lemma W_bitwise n x y : (n <= 12)%nat -> wok n x -> wok n y ->
  wval n (uand x y) = Z.land (wval n x) (wval n y) /\ wval n (uor x y) = Z.lor (wval n x) (wval n y).
Proof.
  intros Hn Wx Wy. start n Hn. pose proof (wval_bound _ x Wx). pose proof (wval_bound _ y Wy).
  rewrite <- (wof_val _ x Wx), <- (wof_val _ y Wy). rewrite !(wval_of n (wval n x)), !(wval_of n (wval n y)).
  rewrite (L_and _ L), (L_or _ L) by (rewrite EB; auto). rewrite !wval_of. auto.
Qed.

(** Operations of the nested types only. *)
Lemma W_rem_pow2 n x k : (n <= 11)%nat -> wok (S n) x -> 0 <= k ->
  wgives (n := S n) (rem_pow2 (T := wide n) x k) (wval (S n) x mod 2 ^ k).
Proof.
  intros Hn Wx Hk. pose proof (wlaws n ltac:(lia)) as L. pose proof (wval_bound _ x Wx). pose proof (pow2_pos k Hk).
  apply wgives_of.
  - pose proof (Z.mod_pos_bound (wval (S n) x) (2 ^ k) ltac:(lia)). pose proof (Z.mod_le (wval (S n) x) (2 ^ k) ltac:(lia) ltac:(lia)). lia.
  - rewrite <- (wof_val _ x Wx) at 1. apply (rem_pow2_ok _ L); auto. rewrite wbits_bits. auto.
Qed.

Lemma W_rounding_shift n x k : (n <= 11)%nat -> wok (S n) x -> 0 <= k < wbits (S n) ->
  wgives (n := S n) (rounding_div_pow2 (T := wide n) x k) (rne_div (wval (S n) x) (2 ^ k)).
Proof.
  intros Hn Wx Hk. pose proof (wlaws n ltac:(lia)) as L. pose proof (wval_bound _ x Wx) as B. pose proof (pow2_pos k ltac:(lia)) as Pk.
  apply wgives_of.
  - unfold rne_div. pose proof (Z.div_mod (wval (S n) x) (2 ^ k) ltac:(lia)) as D.
    pose proof (Z.mod_pos_bound (wval (S n) x) (2 ^ k) ltac:(lia)) as R.
    assert (Q0 : 0 <= wval (S n) x / 2 ^ k) by (apply Z.div_pos; lia).
    set (q := wval (S n) x / 2 ^ k) in *. set (r := wval (S n) x mod 2 ^ k) in *. clearbody q r.
    destruct (Z.eq_dec k 0) as [->|K].
    + change (2 ^ 0) with 1 in *. assert (r = 0) by lia. subst r. change ((1 <? 2 * 0) || ((2 * 0 =? 1) && Z.odd q)) with false. lia.
    + assert (2 <= 2 ^ k). { change 2 with (2 ^ 1) at 1. apply pow2_le. lia. }
      pose proof (wbits_pos (S n)). assert (2 <= 2 ^ wbits (S n)). { change 2 with (2 ^ 1) at 1. apply pow2_le. lia. }
      assert (2 * q <= wval (S n) x) by nia. destruct (_ || _); lia.
  - rewrite <- (wof_val _ x Wx) at 1. apply (rounding_div_pow2_ok _ L (wlaws (S n) ltac:(lia))); rewrite ?wbits_bits. exact B. exact Hk. clear - Hk; lia.
Qed.

Lemma W_div_u128 n x d : (n <= 11)%nat -> wok (S n) x -> 0 < d < 2 ^ 128 ->
  exists q r, div_rem_u128 (T := wide n) x d = Some (q, r) /\ wok (S n) q
    /\ wval (S n) x = d * wval (S n) q + r /\ 0 <= r < d.
Proof.
  intros Hn Wx Hd. pose proof (wlaws n ltac:(lia)) as L. pose proof (wval_bound _ x Wx) as B.
  exists (wof (S n) (wval (S n) x / d)), (wval (S n) x mod d).
  split. rewrite <- (wof_val _ x Wx) at 1. apply (div_rem_u128_ok _ L); auto. rewrite wbits_bits. auto.
  split. apply wok_of. split. apply Z.div_pos; lia. apply Z.div_lt_upper_bound; nia.
  rewrite wval_of. split. apply Z.div_mod. lia. apply Z.mod_pos_bound. lia.
Qed.

(** Division by a value of the half width, when the half-width division of the same
    operands is right (always so for [n = 0], that is for U256 by U128). *)
Lemma W_div_256 x y : wok 1 x -> wok 0 y -> 0 < wval 0 y ->
  exists q r, div_rem_sub (T := wide 0) x y = Some (q, r) /\ wok 1 q /\ wok 0 r
    /\ wval 1 x = wval 0 y * wval 1 q + wval 0 r /\ 0 <= wval 0 r < wval 0 y.
Proof.
  intros Wx Wy Hy. pose proof (wval_bound _ x Wx) as Bx. pose proof (wval_bound _ y Wy) as By.
  exists (wof 1 (wval 1 x / wval 0 y)), (wof 0 (wval 1 x mod wval 0 y)).
  split. rewrite <- (wof_val _ x Wx), <- (wof_val _ y Wy) at 1. apply div256_128; auto. split; [|apply By]. auto.
  pose proof (Z.mod_pos_bound (wval 1 x) (wval 0 y) ltac:(lia)) as R.
  split. apply wok_of. split. apply Z.div_pos; lia. apply Z.div_lt_upper_bound; nia.
  split. apply wok_of. lia. rewrite !wval_of. split. apply Z.div_mod. lia. auto.
Qed.

(** Division of two values of the same width by a normalised divisor (highest bit of the
    divisor or of its lower half set). *)
Lemma W_div_norm n x y : (n <= 11)%nat -> wok (S n) x -> wok (S n) y ->
  2 ^ (wbits (S n) - 1) <= wval (S n) y \/ 2 ^ (wbits n - 1) <= wval (S n) y < 2 ^ wbits n ->
  exists q r, @div_rem _ (wide_ops (S n)) x y = Some (q, r) /\ wok (S n) q /\ wok (S n) r
    /\ wval (S n) x = wval (S n) y * wval (S n) q + wval (S n) r /\ 0 <= wval (S n) r < wval (S n) y.
Proof.
  intros Hn Wx Wy C. assert (Hn1 : (S n <= 12)%nat) by lia. start (S n) Hn1. pose proof (wval_bound _ x Wx) as Bx. pose proof (wval_bound _ y Wy) as By.
  pose proof (wbits_pos n) as Hb.
  assert (Py : 0 < wval (S n) y).
  { pose proof (pow2_pos (wbits (S n) - 1) ltac:(lia)). pose proof (pow2_pos (wbits n - 1) ltac:(lia)). lia. }
  exists (wof (S n) (wval (S n) x / wval (S n) y)), (wof (S n) (wval (S n) x mod wval (S n) y)).
  pose proof (Z.mod_pos_bound (wval (S n) x) (wval (S n) y) Py) as R.
  split.
  { destruct C as [C|C].
    - pose proof (L_div_full _ L (wval (S n) x) (wval (S n) y)) as E. rewrite EB, (wof_val _ x Wx), (wof_val _ y Wy) in E.
      apply E; clear - C Bx By; lia.
    - pose proof (L_div_half _ L (wval (S n) x) (wval (S n) y)) as E. rewrite EB, (wof_val _ x Wx), (wof_val _ y Wy) in E.
      apply E. exact Bx. change (wbits (S n)) with (2 * wbits n).
      rewrite (Z.mul_comm 2), Z.div_mul by (clear; lia). exact C. }
  split. apply wok_of. split. apply Z.div_pos; lia. apply Z.div_lt_upper_bound; nia.
  split. apply wok_of. lia. rewrite !wval_of. split. apply Z.div_mod. lia. auto.
Qed.

(** U256 by U256 with a divisor below 2^128. *)
Lemma W_div_low x y : wok 1 x -> wok 1 y -> 0 < wval 1 y < 2 ^ 128 ->
  exists q r, @div_rem _ (wide_ops 1) x y = Some (q, r) /\ wok 1 q /\ wok 1 r
    /\ wval 1 x = wval 1 y * wval 1 q + wval 1 r /\ 0 <= wval 1 r < wval 1 y.
Proof.
  intros Wx Wy C. pose proof (wval_bound _ x Wx) as Bx. pose proof (wval_bound _ y Wy) as By.
  exists (wof 1 (wval 1 x / wval 1 y)), (wof 1 (wval 1 x mod wval 1 y)).
  pose proof (Z.mod_pos_bound (wval 1 x) (wval 1 y) ltac:(lia)) as R.
  split. pose proof (div256_256lo 63 (wval 1 x) (wval 1 y) Bx C) as E.
  change (of256) with (wof 1) in E. rewrite (wof_val 1 x Wx), (wof_val 1 y Wy) in E. exact E.
  split. apply wok_of. split. apply Z.div_pos; lia. apply Z.div_lt_upper_bound; nia.
  split. apply wok_of. lia. rewrite !wval_of. split. apply Z.div_mod. lia. auto.
Qed.

(** A smaller dividend. *)
Lemma W_div_less n x y : (n <= 11)%nat -> wok (S n) x -> wok (S n) y ->
  2 ^ wbits n <= wval (S n) y -> wval (S n) x < wval (S n) y ->
  exists q, @div_rem _ (wide_ops (S n)) x y = Some (q, x) /\ wok (S n) q /\ wval (S n) q = 0.
Proof.
  intros Hn Wx Wy C Lt. assert (Hn0 : (n <= 12)%nat) by lia. pose proof (wlaws n Hn0) as L. pose proof (wbits_bits n) as EB.
  pose proof (wval_bound _ x Wx) as Bx. pose proof (wval_bound _ y Wy) as By. pose proof (wbits_pos n) as Hb.
  exists (wof (S n) 0).
  split. pose proof (div_rem_lt (wof n) L 61 (wval (S n) x) (wval (S n) y)) as E.
  rewrite EB in E. change (of_uint (wof n)) with (wof (S n)) in E. rewrite (wof_val _ x Wx), (wof_val _ y Wy) in E.
  refine (E (proj1 Bx) Lt (conj C _)).
  destruct By as [_ By]. change (wbits (S n)) with (2 * wbits n) in By. replace (2 * wbits n) with (wbits n + wbits n) in By by (clear; lia).
  rewrite pow2_add in By by (clear - Hb; lia). exact By.
  split. apply wok_of. split. clear; lia. apply pow2_pos. cbn [wbits]. clear - Hb; lia. apply wval_of.
Qed.

Local Lemma bind_eq {A C} (m : option A) (a : A) (k : A -> option C) r : m = Some a -> k a = r -> bind m k = r.
Proof. intros ->. auto. Qed.

Lemma rne_even q r y : 0 < y -> Z.even y = true -> 0 <= r < y ->
  rne_div (y * q + r) y = if (y / 2 <? r) || ((r =? y / 2) && Z.odd q) then q + 1 else q.
Proof.
  intros Hy He Hr. unfold rne_div. rewrite (div_eq (y * q + r) y q r), (mod_eq (y * q + r) y q r) by lia.
  assert (E : y = 2 * (y / 2)) by (apply Z.even_spec in He; destruct He as [k ->]; rewrite Z.mul_comm, Z.div_mul by lia; lia).
  set (h := y / 2) in *. clearbody h. subst y.
  replace (2 * h <? 2 * r) with (h <? r) by (destruct (Z.ltb_spec h r), (Z.ltb_spec (2 * h) (2 * r)); lia || reflexivity).
  replace (2 * r =? 2 * h) with (r =? h) by (destruct (Z.eqb_spec r h), (Z.eqb_spec (2 * r) (2 * h)); lia || reflexivity).
  reflexivity.
Qed.

Local Opaque uint_div_rem.
(** The rounding division, provided the division is right, for even divisors. *)
Lemma W_rounding_div n x y q r : (n <= 11)%nat -> wok (S n) x -> wok (S n) y ->
  @div_rem _ (wide_ops (S n)) x y = Some (q, r) -> wok (S n) q -> wok (S n) r ->
  wval (S n) x = wval (S n) y * wval (S n) q + wval (S n) r -> 0 <= wval (S n) r < wval (S n) y ->
  Z.even (wval (S n) y) = true ->
  wgives (n := S n) (rounding_div (T := wide n) x y) (rne_div (wval (S n) x) (wval (S n) y)).
Proof.
  intros Hn Wx Wy D Wq Wr E R Ev. assert (Hn1 : (S n <= 12)%nat) by lia.
  pose proof (wval_bound _ x Wx) as Bx. pose proof (wval_bound _ y Wy) as By. pose proof (wval_bound _ q Wq) as Bq.
  pose proof (wbits_pos n) as Hb.
  pose proof (wlaws n ltac:(lia)) as L. pose proof (wlaws (S n) Hn1) as L'. pose proof (wbits_bits n) as EB.
  pose proof (wbits_bits (S n)) as EB'.
  set (a := wval (S n) x) in *. set (b := wval (S n) y) in *. set (qv := wval (S n) q) in *. set (rv := wval (S n) r) in *.
  assert (Gy : wof (S n) b = y) by (apply wof_val; exact Wy). assert (Gq : wof (S n) qv = q) by (apply wof_val; exact Wq).
  assert (Gr : wof (S n) rv = r) by (apply wof_val; exact Wr).
  assert (Hb2 : 0 <= b / 2 < 2 ^ wbits (S n)).
  { split. apply Z.div_pos; lia. apply Z.div_lt_upper_bound; lia. }
  assert (Q1 : qv + 1 < 2 ^ wbits (S n)).
  { assert (2 <= b) by (apply Z.even_spec in Ev; destruct Ev as [k Hk]; lia).
    assert (2 ^ 1 < 2 ^ wbits (S n)) by (apply Z.pow_lt_mono_r; cbn [wbits]; lia). change (2 ^ 1) with 2 in *. nia. }
  rewrite E. rewrite rne_even by (try exact Ev; lia).
  unfold rounding_div. apply wgives_of. destruct (_ || _); lia.
  assert (D' : @uint_div_rem P (wide n) (wide_ops n) x y = Some (q, r)) by exact D. clear D. rewrite D', bind_Some. clear D'. cbv beta iota.
  assert (T : @ushr _ (wide_ops (S n)) y 1 = Some (wof (S n) (b / 2))).
  { rewrite <- Gy. change (b / 2) with (b / 2 ^ 1). apply (L_shr _ L'); rewrite EB'. exact By. cbn [wbits]. clear - Hb; lia. }
  refine (bind_eq _ _ _ _ T _). f_equal.
  replace (is_odd (lo q)) with (Z.odd qv).
  2: { symmetry. change (is_odd (lo q)) with (@is_odd _ (wide_ops (S n)) q). rewrite <- Gq at 1. apply (L_odd _ L'). rewrite EB'. exact Bq. }
  rewrite <- Gr at 1. rewrite <- Gr at 1.
  pose proof (D_ugt _ L' rv (b / 2)) as G1. rewrite EB' in G1. specialize (G1 ltac:(lia) Hb2).
  pose proof (L_eqb _ L' rv (b / 2)) as G2. rewrite EB' in G2. specialize (G2 ltac:(lia) Hb2).
  change (@ugt (uint (wide n)) uint_ops) with (@ugt (wide (S n)) (wide_ops (S n))).
  change (@ueqb (uint (wide n)) uint_ops) with (@ueqb (wide (S n)) (wide_ops (S n))).
  rewrite G1, G2. destruct (_ || _).
  - rewrite <- Gq at 1. change (@uint_incr (wide n) (wide_ops n)) with (@incr (wide (S n)) (wide_ops (S n))).
    rewrite (L_incr _ L') by (rewrite EB'; exact Bq). rewrite EB', Z.mod_small by (clear - Q1 Bq; lia). reflexivity.
  - symmetry. exact Gq.
Qed.

End Tower.

(** * BigMulAdd: multiply and add of src/math/big_float.rs, for products and addends of the same exponent and
    different sign *)

From Coq Require Import ZArith Reals Lia Lra Bool.
From Flocq Require Import Core.
From Verif Require Import Base BigUInt BigLaws BigUIntProofs BigExtra ZLemmas SpecLemmas Spec SpecFlocq F256 F256Lemmas SpecBig BigFloat BigFloatProofs BigReal BigRefute BigExact BigMulExact.
Open Scope Z_scope.

Section MulAdd.
Context {P : profile}.

Lemma rnd255_0 : rnd255 0 = 0%R.
Proof. unfold rnd255. apply round_0. apply valid_rnd_N. Qed.

(** The last steps of [bf_mul_add], for any difference *)
Lemma tail_rnd sg e a : sg1 sg -> - 2 ^ 31 + 1000 <= e < 2 ^ 31 -> 0 <= a < 2 ^ 510 ->
  exists z, (let! shl := subu 32 (leading_zeros (of512 a)) 1 in
        let! e := subs 32 e (casts 32 shl) in
        if shl <=? 256 then
          let! n := subu 32 256 shl in
          let! x := rounding_div_pow2 (of512 a) n in
          Some (BF sg e (lo x))
        else if shl <=? 510 then
          let! m := ushl (lo (of512 a)) (shl - 256) in
          Some (BF sg e m)
        else Some BF_ZERO) = Some z /\ bfv z = rnd255 (IZR (sg * a) * bpow radix2 (e - 510)).
Proof.
  intros Hs He Ha. destruct (Z.eq_dec a 0) as [->|A0].
  { destruct (tail_ok sg e 0 Hs He ltac:(lia)) as (z & Z1 & _ & Z3). exists z. split; [exact Z1|].
    rewrite Z3, Z.mul_0_r, Rmult_0_l. symmetry. apply rnd255_0. }
  rewrite mult_IZR, Rmult_assoc, rnd_sign by auto.
  set (k := Z.log2 a). pose proof (Z.log2_spec a ltac:(lia)) as L. fold k in L. assert (K0 : 0 <= k) by apply Z.log2_nonneg.
  assert (K : k < 510) by (apply Z.log2_lt_pow2; lia).
  destruct (Z_lt_le_dec k 254) as [C|C].
  - destruct (tail_ok sg e a Hs He) as (z & Z1 & _ & Z3).
    { assert (2 ^ Z.succ k <= 2 ^ 255) by (apply Z.pow_le_mono_r; lia). lia. }
    exists z. split; [exact Z1|]. rewrite Z3, mult_IZR, Rmult_assoc. f_equal.
    set (j := 254 - k). assert (Pj : 0 < 2 ^ j) by (apply pow2_pos; lia).
    assert (N : 2 ^ 254 <= a * 2 ^ j < 2 ^ 255).
    { replace (2 ^ 254) with (2 ^ k * 2 ^ j) by (rewrite <- pow2_add by lia; f_equal; lia).
      replace (2 ^ 255) with (2 ^ Z.succ k * 2 ^ j) by (rewrite <- pow2_add by lia; f_equal; lia).
      split; [apply Z.mul_le_mono_nonneg_r; lia|apply Z.mul_lt_mono_pos_r; lia]. }
    assert (E : (IZR a * bpow radix2 (e - 510))%R = (IZR (a * 2 ^ j) / IZR 1 * bpow radix2 (e - 510 - j))%R).
    { unfold Rdiv. rewrite Rinv_1, Rmult_1_r, mult_IZR, IZR_pow2, Rmult_assoc, <- bpow_plus by lia. do 2 f_equal. lia. }
    rewrite E. rewrite rnd_at by lia. rewrite rne_div_1. unfold Rdiv. rewrite Rinv_1, Rmult_1_r. reflexivity.
  - rewrite (lz512_at a k) by lia. rewrite subu_ok by lia. rewrite bind_Some. rewrite casts_ok by lia. rewrite subs_ok by (change (32 - 1) with 31; lia). rewrite bind_Some.
    destruct (Z.leb_spec (511 - k - 1) 256) as [_|]; [|lia]. rewrite subu_ok by lia. rewrite bind_Some. change (of512 a) with (of_uint of256 a).
    rewrite (rounding_div_pow2_ok of256 L256 L512 a); [|change (2 * BITS) with 512; lia..]. rewrite bind_Some.
    replace (256 - (511 - k - 1)) with (k - 254) by lia. set (n := k - 254). assert (Pn : 0 < 2 ^ n) by (apply pow2_pos; lia).
    assert (N : 2 ^ 254 * 2 ^ n <= a < 2 ^ 255 * 2 ^ n).
    { rewrite <- !pow2_add by lia. replace (254 + n) with k by lia. replace (255 + n) with (Z.succ k) by lia. exact L. }
    assert (R : 0 <= rne_div a (2 ^ n) <= 2 ^ 255) by (split; [apply rne_div_nonneg; lia|apply rne_div_le_bound; lia]).
    eexists. split; [reflexivity|].
    change (lo (of_uint of256 (rne_div a (2 ^ n)))) with (of256 (rne_div a (2 ^ n) mod 2 ^ 256)). rewrite Z.mod_small by lia.
    rewrite bfv_BF, bval_sign. f_equal. replace (e - (511 - k - 1) - 254) with (e - 510 + n) by lia. rewrite <- rnd_at by (auto; lia).
    f_equal. rewrite bpow_plus, <- (IZR_pow2 n) by lia. assert (0 < IZR (2 ^ n))%R by (apply IZR_lt; auto). field. lra.
Qed.

Lemma mul_add_diff s t ex ey x y m : sg1 s -> sg1 t -> nrm x -> nrm y -> nrm m -> - 2 ^ 29 <= ex < 2 ^ 29 -> - 2 ^ 29 <= ey < 2 ^ 29 ->
  let e := ex + ey + (mk_k (x * y) - 254) in
  exists z, bf_mul_add (BF s ex (of256 x)) (BF t ey (of256 y)) (BF (- (s * t)) e (of256 m)) = Some z
    /\ bfv z = rnd255 (bval s ex x * bval t ey y + bval (- (s * t)) e m).
Proof.
  intros Hs Ht Hx Hy Hm Ex Ey e. pose proof (mul_range x y Hx Hy) as MR. pose proof (mul_signifs_ok x y Hx Hy) as MS.
  set (k := mk_k (x * y)) in *. assert (Hk : k = 254 /\ x * y < 2 ^ 509 \/ k = 255 /\ 2 ^ 509 <= x * y).
  { subst k. unfold mk_k. destruct (Z.ltb_spec (x * y) (2 ^ 509)); auto. }
  clearbody k.
  assert (ST : sg1 (s * t)) by (destruct Hs, Ht; subst; unfold sg1; lia).
  assert (W : exists w, w = x * y * 2 ^ (256 - k) /\ 2 ^ 510 <= w < 2 ^ 511).
  { eexists. split; [reflexivity|]. destruct Hk as [[-> ?]|[-> ?]]; change (2 ^ (256 - 254)) with 4; change (2 ^ (256 - 255)) with 2; lia. }
  destruct W as (w & W & WR). rewrite <- W in MS. assert (MB : 2 ^ 510 <= m * 2 ^ 256 < 2 ^ 511) by (unfold nrm in Hm; lia).
  assert (V : (bval s ex x * bval t ey y + bval (- (s * t)) e m)%R = (IZR (s * t * (w - m * 2 ^ 256)) * bpow radix2 (e - 510))%R).
  { rewrite mul_value. unfold bval. replace (ex + ey - 508) with ((256 - k) + (e - 510)) by lia. replace (e - 254) with (256 + (e - 510)) by lia.
    rewrite !bpow_plus, <- !IZR_pow2 by lia. rewrite W. rewrite (mult_IZR (s * t) (x * y * 2 ^ (256 - k) - m * 2 ^ 256)), minus_IZR, (mult_IZR (x * y)), (mult_IZR m), (mult_IZR (- (s * t))), opp_IZR. rewrite (IZR_pow2 256) by lia.
    generalize (bpow radix2 256) (bpow radix2 (e - 510)) (IZR (2 ^ (256 - k))). intros. ring. }
  rewrite V. clear V.
  assert (U : (mk (of256 m) uzero : U512) = of512 (m * 2 ^ 256)).
  { rewrite <- mk512. rewrite Z.div_mul, Z.mod_mul by lia. reflexivity. }
  unfold bf_mul_add, bf_is_zero. cbn [bf_signum bf_exp bf_signif].
  replace (s =? 0) with false by (destruct Hs; subst; reflexivity). replace (t =? 0) with false by (destruct Ht; subst; reflexivity).
  destruct (Z.eqb_spec (- (s * t)) 0) as [Z0|_]; [destruct ST; lia|]. cbn [orb].
  rewrite adds_ok by (change (32 - 1) with 31; lia). rewrite bind_Some. rewrite subs_ok by (change (32 - 1) with 31; lia). rewrite bind_Some.
  destruct (Z.leb_spec (ex + ey - e) (-254 - 2)); [lia|]. destruct (Z.leb_spec (2 * 254 + 3) (ex + ey - e)); [lia|].
  unfold muls. rewrite chks_ok by (change (32 - 1) with 31; destruct ST as [-> | ->]; lia). rewrite bind_Some. rewrite MS, bind_Some. cbv beta iota.
  rewrite adds_ok by (change (32 - 1) with 31; lia). rewrite bind_Some. rewrite adds_ok by (change (32 - 1) with 31; lia). rewrite bind_Some.
  replace (ex + ey - e + (k - 254)) with 0 by lia. change (0 ?= 0) with Eq. cbv iota zeta. fold e.
  match goal with |- context [uge (of512 w) ?u] => replace u with (of512 (m * 2 ^ 256)) by (symmetry; exact U) end.
  rewrite (D_uge _ L512) by (change (2 ^ BITS) with (2 ^ 512); lia).
  destruct (Z.eqb_spec (s * t) (- (s * t))) as [Z0|_]; [destruct ST; lia|].
  destruct (Z.leb_spec (m * 2 ^ 256) w).
  - rewrite bind_Some. cbv beta iota. rewrite sub512 by lia. rewrite bind_Some.
    exact (tail_rnd (s * t) e (w - m * 2 ^ 256) ST ltac:(lia) ltac:(lia)).
  - rewrite bind_Some. cbv beta iota. rewrite sub512 by lia. rewrite bind_Some.
    replace (s * t * (w - m * 2 ^ 256)) with (- (s * t) * (m * 2 ^ 256 - w)) by ring.
    apply (tail_rnd (- (s * t)) e (m * 2 ^ 256 - w)); [destruct ST; unfold sg1; lia|lia|lia].
Qed.

Lemma R_mul_add x f a : bf_normal x -> bf_normal f -> bf_normal a -> - 2 ^ 29 <= bf_exp x < 2 ^ 29 -> - 2 ^ 29 <= bf_exp f < 2 ^ 29 ->
  bf_signum a <> bf_signum x * bf_signum f ->
  bf_exp a = bf_exp x + bf_exp f + (if v256 (bf_signif x) * v256 (bf_signif f) <? 2 ^ 509 then 0 else 1) ->
  exists z, bf_mul_add x f a = Some z /\ bfv z = rnd255 (bfv x * bfv f + bfv a).
Proof.
  intros Nx Nf Na. destruct (normal_inv x Nx) as (s & ex & mx & -> & Hs & Hx). destruct (normal_inv f Nf) as (t & ey & my & -> & Ht & Hy).
  destruct (normal_inv a Na) as (g & e & m & -> & Hg & Hm). cbn [bf_signum bf_exp bf_signif]. rewrite !v256_of, !bfv_BF. intros Ex Ey NS Ea.
  assert (G : g = - (s * t)) by (destruct Hs, Ht, Hg; subst; lia). subst g.
  pose proof (mul_add_diff s t ex ey mx my m Hs Ht Hx Hy Hm Ex Ey) as H. cbv zeta in H.
  replace (ex + ey + (mk_k (mx * my) - 254)) with e in H; [exact H|]. rewrite Ea. unfold mk_k. destruct (_ <? _); lia.
Qed.

End MulAdd.

(** * BigMulExact: the remainder of the product of src/math/big_float.rs *)

From Coq Require Import ZArith Reals Lia Lra Bool.
From Flocq Require Import Core.
From Verif Require Import Base BigUInt BigLaws BigUIntProofs BigExtra ZLemmas SpecLemmas Spec SpecFlocq F256 F256Lemmas SpecBig BigFloat BigFloatProofs BigReal BigRefute BigExact.
Open Scope Z_scope.

Section MulExact.
Context {P : profile}.

Lemma lz512_at a k : 0 <= k < 512 -> 2 ^ k <= a < 2 ^ (k + 1) -> leading_zeros (of512 a) = 511 - k.
Proof.
  intros Hk H. assert (2 ^ (k + 1) <= 2 ^ 512) by (apply Z.pow_le_mono_r; lia). assert (0 < 2 ^ k) by (apply pow2_pos; lia).
  rewrite (L_lz _ L512) by (change (2 ^ BITS) with (2 ^ 512); lia). change BITS with 512. rewrite (nlz_at 512 a k); lia.
Qed.

(** The last steps of [bf_mul_add], for the difference [a] of two numbers that agree in the upper half *)
Lemma tail_ok sg e a : sg1 sg -> - 2 ^ 31 + 1000 <= e < 2 ^ 31 -> 0 <= a <= 2 ^ 255 ->
  exists z, (let! shl := subu 32 (leading_zeros (of512 a)) 1 in
        let! e := subs 32 e (casts 32 shl) in
        if shl <=? 256 then
          let! n := subu 32 256 shl in
          let! x := rounding_div_pow2 (of512 a) n in
          Some (BF sg e (lo x))
        else if shl <=? 510 then
          let! m := ushl (lo (of512 a)) (shl - 256) in
          Some (BF sg e m)
        else Some BF_ZERO) = Some z /\ bf_wf z /\ bfv z = (IZR (sg * a) * bpow radix2 (e - 510))%R.
Proof.
  intros Hs He Ha. destruct (Z.eq_dec a 0) as [->|A0].
  { exists BF_ZERO. split; [|split; [right; reflexivity|]].
    2:{ rewrite Z.mul_0_r, Rmult_0_l. unfold bfv, bval. cbn [bf_signum BF_ZERO]. rewrite Z.mul_0_l, Rmult_0_l. reflexivity. }
    replace (leading_zeros (of512 0)) with 512 by reflexivity. rewrite subu_ok by lia. rewrite bind_Some. change (512 - 1) with 511.
    rewrite casts_ok by lia. rewrite subs_ok by (change (32 - 1) with 31; lia). rewrite bind_Some. reflexivity. }
  set (k := Z.log2 a). pose proof (Z.log2_spec a ltac:(lia)) as L. fold k in L. assert (K0 : 0 <= k) by apply Z.log2_nonneg.
  assert (K : k <= 255). { change 255 with (Z.log2 (2 ^ 255)). apply Z.log2_le_mono. lia. }
  rewrite (lz512_at a k) by lia. rewrite subu_ok by lia. rewrite bind_Some. rewrite casts_ok by lia. rewrite subs_ok by (change (32 - 1) with 31; lia). rewrite bind_Some.
  destruct (Z.leb_spec (511 - k - 1) 256) as [C|C].
  - rewrite subu_ok by lia. rewrite bind_Some. change (of512 a) with (of_uint of256 a).
    rewrite (rounding_div_pow2_ok of256 L256 L512 a); [|change (2 * BITS) with 512; lia..]. rewrite bind_Some.
    assert (D : k = 254 /\ nrm a \/ k = 255 /\ a = 2 ^ 255).
    { assert (KK : k = 254 \/ k = 255) by lia. destruct KK as [KK|KK]; rewrite KK in L; unfold nrm; [left|right]; change (2 ^ Z.succ 254) with (2 ^ 255) in *; lia. }
    destruct D as [[-> D]|[-> ->]].
    + change (2 ^ (256 - (511 - 254 - 1))) with 1. rewrite rne_div_1. change (lo (of_uint of256 a)) with (of256 (a mod 2 ^ 256)).
      unfold nrm in D. rewrite Z.mod_small by lia. eexists. split; [reflexivity|]. split; [left; apply normal_BF; split; auto|].
      rewrite bfv_BF. unfold bval. do 2 f_equal. lia.
    + replace (rne_div (2 ^ 255) (2 ^ (256 - (511 - 255 - 1)))) with (2 ^ 254) by reflexivity.
      change (lo (of_uint of256 (2 ^ 254))) with (of256 (2 ^ 254)).
      eexists. split; [reflexivity|]. split; [left; apply normal_BF; split; auto; lia|].
      rewrite bfv_BF. rewrite bval_pow. rewrite mult_IZR, IZR_pow2, Rmult_assoc, <- bpow_plus by lia. do 2 f_equal. lia.
  - destruct (Z.leb_spec (511 - k - 1) 510) as [_|]; [|lia]. change (lo (of512 a)) with (of256 (a mod 2 ^ 256)). rewrite Z.mod_small by lia.
    set (j := 511 - k - 1 - 256). assert (Pj : 0 < 2 ^ j) by (apply pow2_pos; lia).
    assert (N : nrm (a * 2 ^ j)).
    { unfold nrm. replace (2 ^ 254) with (2 ^ k * 2 ^ j) by (rewrite <- pow2_add by lia; f_equal; lia).
      replace (2 ^ 255) with (2 ^ Z.succ k * 2 ^ j) by (rewrite <- pow2_add by lia; f_equal; lia).
      split; [apply Z.mul_le_mono_nonneg_r; lia|apply Z.mul_lt_mono_pos_r; lia]. }
    rewrite shl256s by (unfold nrm in N; lia). rewrite bind_Some. eexists. split; [reflexivity|]. split; [left; apply normal_BF; split; auto|].
    rewrite bfv_BF. replace (e - (511 - k - 1)) with (e - 510 - j + 254) by lia. rewrite bval_shift by lia. unfold bval. do 2 f_equal. lia.
Qed.

Lemma mul_exact_ok s t ex ey x y : sg1 s -> sg1 t -> nrm x -> nrm y -> - 2 ^ 29 <= ex < 2 ^ 29 -> - 2 ^ 29 <= ey < 2 ^ 29 ->
  rne_div (x * y) (2 ^ mk_k (x * y)) <> 2 ^ 255 ->
  exists p z, bf_mul (BF s ex (of256 x)) (BF t ey (of256 y)) = Some p
    /\ bf_mul_exact (BF s ex (of256 x)) (BF t ey (of256 y)) = Some (p, z) /\ bf_wf z
    /\ (bfv p + bfv z)%R = (IZR (s * t * (x * y)) * bpow radix2 (ex + ey - 508))%R.
Proof.
  intros Hs Ht Hx Hy Ex Ey NC. destruct (mul_ok s t ex ey x y Hs Ht Hx Hy) as [E R]; [unfold i30; lia|unfold i30; lia|].
  pose proof (mul_range x y Hx Hy) as MR. pose proof (mul_signifs_ok x y Hx Hy) as MS.
  set (k := mk_k (x * y)) in *. assert (Hk : k = 254 /\ x * y < 2 ^ 509 \/ k = 255 /\ 2 ^ 509 <= x * y).
  { subst k. unfold mk_k. destruct (Z.ltb_spec (x * y) (2 ^ 509)); auto. }
  clearbody k. set (r := rne_div (x * y) (2 ^ k)) in *.
  destruct (Z.eqb_spec r (2 ^ 255)) as [|_]; [contradiction|].
  assert (ST : sg1 (s * t)) by (destruct Hs, Ht; subst; unfold sg1; lia).
  assert (W : exists w, w = x * y * 2 ^ (256 - k) /\ - 2 ^ 255 <= w - r * 2 ^ 256 <= 2 ^ 255 /\ 0 <= w < 2 ^ 512).
  { eexists. split; [reflexivity|]. pose proof (rne_div_spec (x * y) (2 ^ k) ltac:(apply pow2_pos; lia)) as (A & _). fold r in A.
    split; [|destruct Hk as [[-> ?]|[-> ?]]; change (2 ^ (256 - 254)) with 4; change (2 ^ (256 - 255)) with 2; lia].
    destruct Hk as [[-> ?]|[-> ?]]; change (2 ^ (256 - 254)) with 4; change (2 ^ (256 - 255)) with 2; lia. }
  destruct W as (w & W & WB & WR). rewrite <- W in MS.
  set (e := ex + ey + (k - 254)). assert (Ee : ex + (ey + (k - 254)) = e) by lia. rewrite Ee in E.
  assert (TE : forall sg d, sg1 sg -> 0 <= d <= 2 ^ 255 -> sg * d = s * t * (w - r * 2 ^ 256) ->
    (bval (s * t) e r + IZR (sg * d) * bpow radix2 (e - 510))%R = (IZR (s * t * (x * y)) * bpow radix2 (ex + ey - 508))%R).
  { intros sg d _ _ ->. unfold bval. replace (e - 254) with (256 + (e - 510)) by lia. rewrite bpow_plus, <- Rmult_assoc, <- IZR_pow2, <- mult_IZR by lia.
    rewrite <- Rmult_plus_distr_r, <- plus_IZR. replace (s * t * r * 2 ^ 256 + s * t * (w - r * 2 ^ 256)) with (s * t * w) by ring.
    rewrite W, Z.mul_assoc, mult_IZR, IZR_pow2, Rmult_assoc, <- bpow_plus by lia. do 2 f_equal. lia. }
  assert (U : (mk (of256 r) uzero : U512) = of512 (r * 2 ^ 256)).
  { rewrite <- mk512. rewrite Z.div_mul, Z.mod_mul by lia. reflexivity. }
  assert (HH : exists z, bf_mul_add (BF s ex (of256 x)) (BF t ey (of256 y)) (bf_neg (BF (s * t) e (of256 r))) = Some z /\ bf_wf z
    /\ (bval (s * t) e r + bfv z)%R = (IZR (s * t * (x * y)) * bpow radix2 (ex + ey - 508))%R).
  { unfold bf_mul_add, bf_neg, bf_is_zero. cbn [bf_signum bf_exp bf_signif].
    replace (s =? 0) with false by (destruct Hs; subst; reflexivity). replace (t =? 0) with false by (destruct Ht; subst; reflexivity).
    destruct (Z.eqb_spec (- (s * t)) 0) as [Z0|_]; [destruct ST; lia|]. cbn [orb].
    rewrite adds_ok by (change (32 - 1) with 31; lia). rewrite bind_Some. rewrite subs_ok by (change (32 - 1) with 31; lia). rewrite bind_Some.
    destruct (Z.leb_spec (ex + ey - e) (-254 - 2)); [lia|]. destruct (Z.leb_spec (2 * 254 + 3) (ex + ey - e)); [lia|].
    unfold muls. rewrite chks_ok by (change (32 - 1) with 31; destruct ST as [-> | ->]; lia). rewrite bind_Some. rewrite MS, bind_Some. cbv beta iota.
    rewrite adds_ok by (change (32 - 1) with 31; lia). rewrite bind_Some. rewrite adds_ok by (change (32 - 1) with 31; lia). rewrite bind_Some.
    replace (ex + ey - e + (k - 254)) with 0 by lia. change (0 ?= 0) with Eq. cbv iota zeta. fold e.
    match goal with |- context [uge (of512 w) ?u] => replace u with (of512 (r * 2 ^ 256)) by (symmetry; exact U) end.
    rewrite (D_uge _ L512) by (change (2 ^ BITS) with (2 ^ 512); lia).
    destruct (Z.eqb_spec (s * t) (- (s * t))) as [Z0|_]; [destruct ST; lia|].
    destruct (Z.leb_spec (r * 2 ^ 256) w).
    - rewrite bind_Some. cbv beta iota. rewrite sub512 by lia. rewrite bind_Some.
      destruct (tail_ok (s * t) e (w - r * 2 ^ 256) ST) as (z & Z1 & Z2 & Z3); [lia|lia|].
      exists z. split; [exact Z1|]. split; [exact Z2|]. rewrite Z3. apply TE; auto. lia.
    - rewrite bind_Some. cbv beta iota. rewrite sub512 by lia. rewrite bind_Some.
      destruct (tail_ok (- (s * t)) e (r * 2 ^ 256 - w)) as (z & Z1 & Z2 & Z3); [destruct ST; unfold sg1; lia|lia|lia|].
      exists z. split; [exact Z1|]. split; [exact Z2|]. rewrite Z3. apply TE; [destruct ST; unfold sg1; lia|lia|ring]. }
  destruct HH as (z & Z1 & Z2 & Z3). exists (BF (s * t) e (of256 r)), z. split; [exact E|]. split; [|split; [exact Z2|]].
  - unfold bf_mul_exact. rewrite E, bind_Some. rewrite Z1, bind_Some. reflexivity.
  - rewrite bfv_BF. exact Z3.
Qed.

Lemma R_mul_exact x y : bf_normal x -> bf_normal y -> - 2 ^ 29 <= bf_exp x < 2 ^ 29 -> - 2 ^ 29 <= bf_exp y < 2 ^ 29 ->
  ~ 2 ^ 509 - 2 ^ 253 <= v256 (bf_signif x) * v256 (bf_signif y) < 2 ^ 509 ->
  exists p r, bf_mul_exact x y = Some (p, r) /\ bf_normal p /\ bf_wf r
    /\ bfv p = rnd255 (bfv x * bfv y) /\ (bfv p + bfv r)%R = (bfv x * bfv y)%R.
Proof.
  intros Nx Ny Ex Ey NC. destruct (R_mul x y Nx Ny) as (p & A & B & _ & _ & C & _); [unfold exp30; lia|unfold exp30; lia|].
  specialize (C NC). revert Ex Ey NC A B C.
  destruct (normal_inv x Nx) as (s & ex & mx & -> & Hs & Hx). destruct (normal_inv y Ny) as (t & ey & my & -> & Ht & Hy).
  cbn [bf_signum bf_exp bf_signif]. rewrite !v256_of. intros Ex Ey NC A B C. pose proof (mul_range mx my Hx Hy) as MR.
  destruct (mul_exact_ok s t ex ey mx my Hs Ht Hx Hy Ex Ey) as (p' & z & Z1 & Z2 & Z3 & Z4).
  { intros R. pose proof (rne_div_spec (mx * my) (2 ^ mk_k (mx * my)) ltac:(apply pow2_pos; unfold mk_k; destruct (_ <? _); lia)) as (D & D1 & _).
    rewrite R in D, D1. unfold mk_k in D, D1. destruct (Z.ltb_spec (mx * my) (2 ^ 509)); lia. }
  rewrite A in Z1. assert (p' = p) by congruence. subst p'. exists p, z. split; [exact Z2|]. split; [exact B|]. split; [exact Z3|]. split; [exact C|].
  rewrite Z4, !bfv_BF. unfold bval. replace (ex + ey - 508) with ((ex - 254) + (ey - 254)) by lia. rewrite bpow_plus, !mult_IZR. ring.
Qed.

End MulExact.

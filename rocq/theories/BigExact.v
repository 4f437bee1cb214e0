(** * BigExact: construction from parts, reciprocal, and the sums and products with remainder of
    src/math/big_float.rs *)

From Coq Require Import ZArith Reals Lia Lra Bool.
From Flocq Require Import Core.
From Verif Require Import Base BigUInt BigExtra ZLemmas Spec SpecFlocq F256 F256Lemmas SpecBig BigFloat BigFloatProofs BigReal BigRefute.
Open Scope Z_scope.

Lemma bval_shift s t c j : 0 <= j -> bval s (t - j + 254) (c * 2 ^ j) = bval s (t + 254) c.
Proof.
  intros. unfold bval. rewrite Z.mul_assoc, mult_IZR, IZR_pow2, Rmult_assoc, <- bpow_plus by lia. do 2 f_equal. lia.
Qed.

Section Exact.
Context {P : profile}.

Lemma nlz_bounds w a : 0 < w -> 0 < a < 2 ^ w ->
  0 <= nlz w a < w /\ 2 ^ (w - 1 - nlz w a) <= a < 2 ^ (w - nlz w a).
Proof.
  intros Hw H. unfold nlz. destruct (Z.eqb_spec a 0); [lia|]. pose proof (Z.log2_spec a ltac:(lia)) as L.
  pose proof (Z.log2_nonneg a). assert (Z.log2 a < w) by (apply Z.log2_lt_pow2; lia).
  replace (w - 1 - (w - 1 - Z.log2 a)) with (Z.log2 a) by lia. replace (w - (w - 1 - Z.log2 a)) with (Z.succ (Z.log2 a)) by lia. lia.
Qed.

Lemma parts_norm h l : 0 <= h < 2 ^ 128 -> 0 <= l < 2 ^ 128 -> h * 2 ^ 128 + l < 2 ^ 255 ->
  (nlz 128 h <= 127 -> 1 <= nlz 128 h /\ nrm ((h * 2 ^ 128 + l) * 2 ^ (nlz 128 h - 1)))
  /\ (127 < nlz 128 h -> 0 < h * 2 ^ 128 + l -> h = 0 /\ 0 <= nlz 128 l <= 127 /\ nrm (l * 2 ^ (127 + nlz 128 l))).
Proof.
  intros Hh Hl Hc. unfold nrm. split; intros L.
  - assert (h <> 0) by (intros ->; cbn in L; lia). destruct (nlz_bounds 128 h ltac:(lia) ltac:(lia)) as [A B]. set (z := nlz 128 h) in *. clearbody z.
    assert (1 <= z). { destruct (Z.eq_dec z 0); [|lia]. subst z. change (2 ^ (128 - 1 - 0)) with (2 ^ 127) in B. lia. }
    split; auto. set (j := z - 1). assert (Q : 0 < 2 ^ j) by (apply pow2_pos; lia).
    assert (E1 : 2 ^ (128 - 1 - z) * 2 ^ j = 2 ^ 126) by (rewrite <- pow2_add by lia; f_equal; lia).
    assert (E2 : 2 ^ (128 - z) * 2 ^ j = 2 ^ 127) by (rewrite <- pow2_add by lia; f_equal; lia). clearbody j.
    replace (2 ^ 254) with (2 ^ 126 * 2 ^ 128) by reflexivity. replace (2 ^ 255) with (2 ^ 127 * 2 ^ 128) by reflexivity.
    rewrite <- E1, <- E2. set (u := 2 ^ (128 - 1 - z)) in *. set (v := 2 ^ (128 - z)) in *. set (k := 2 ^ j) in *. set (T := 2 ^ 128) in *.
    assert (0 < T) by reflexivity. clearbody u v k T. split.
    + replace (u * k * T) with (u * T * k) by ring. apply Z.mul_le_mono_nonneg_r; nia.
    + replace (v * k * T) with (v * T * k) by ring. apply Z.mul_lt_mono_pos_r; nia.
  - intros Pl. assert (h = 0). { destruct (Z.eq_dec h 0); auto. destruct (nlz_bounds 128 h); lia. }
    split; auto. rewrite H in Pl. destruct (nlz_bounds 128 l ltac:(lia) ltac:(lia)) as [A B]. set (z := nlz 128 l) in *. clearbody z. split; [lia|].
    assert (Q : 0 < 2 ^ (127 + z)) by (apply pow2_pos; lia).
    assert (E1 : 2 ^ (128 - 1 - z) * 2 ^ (127 + z) = 2 ^ 254) by (rewrite <- pow2_add by lia; f_equal; lia).
    assert (E2 : 2 ^ (128 - z) * 2 ^ (127 + z) = 2 ^ 255) by (rewrite <- pow2_add by lia; f_equal; lia).
    rewrite <- E1, <- E2. split; [apply Z.mul_le_mono_nonneg_r; lia|apply Z.mul_lt_mono_pos_r; lia].
Qed.

Lemma R_parts s t h l : s = 0 \/ s = 1 -> - 2 ^ 30 <= t < 2 ^ 30 -> 0 <= h < 2 ^ 128 -> 0 <= l < 2 ^ 128 ->
  0 < h * 2 ^ 128 + l < 2 ^ 255 ->
  exists z, bf_from_sign_exp_signif s t (h, l) = Some z /\ bf_normal z
    /\ bfv z = (IZR ((1 - 2 * s) * (h * 2 ^ 128 + l)) * bpow radix2 t)%R.
Proof.
  intros Hs Ht Hh Hl Hc. destruct (parts_norm h l Hh Hl ltac:(lia)) as [A B].
  assert (N0 : 0 <= nlz 128 h <= 128).
  { destruct (Z.eq_dec h 0); [subst h; cbn; lia|]. destruct (nlz_bounds 128 h); lia. }
  assert (G : forall j, 0 <= j < 256 -> nrm ((h * 2 ^ 128 + l) * 2 ^ j) ->
    exists z, (let! _ := dassert (leading_zeros (hi (of256 ((h * 2 ^ 128 + l) * 2 ^ j))) =? 1) in
    let! sg := (if s =? 0 then Some 1 else if s =? 1 then Some (-1) else None) in
    let! e := adds 32 (t - j) BF_FRACTION_BITS in Some (BF sg e (of256 ((h * 2 ^ 128 + l) * 2 ^ j)))) = Some z /\ bf_normal z
    /\ bfv z = (IZR ((1 - 2 * s) * (h * 2 ^ 128 + l)) * bpow radix2 t)%R).
  { intros j Hj N. rewrite lzhi_nrm by auto. rewrite dassert_ok by reflexivity. rewrite bind_Some.
    change BF_FRACTION_BITS with 254. set (c := h * 2 ^ 128 + l) in *. clearbody c.
    assert (V : forall g, (IZR (g * c) * bpow radix2 t)%R = bval g (t + 254) c) by (intros; unfold bval; do 2 f_equal; lia).
    destruct Hs as [-> | ->]; cbn [Z.eqb Pos.eqb]; rewrite bind_Some; rewrite adds_ok by (change (32 - 1) with 31; lia); rewrite bind_Some;
      (eexists; split; [reflexivity|]; split; [apply normal_BF; split; auto|]; rewrite bfv_BF, V, bval_shift by lia; reflexivity). }
  unfold bf_from_sign_exp_signif. rewrite dassert_ok by (destruct Hs as [-> | ->]; reflexivity). rewrite bind_Some.
  replace ((h =? 0) && (l =? 0)) with false by (destruct (Z.eqb_spec h 0), (Z.eqb_spec l 0); auto; subst; lia).
  rewrite u256_lit by auto. cbv zeta.
  destruct (Z.eqb_spec (nlz 128 h) 0). { destruct A; lia. }
  destruct (Z.eqb_spec (nlz 128 h) 1) as [E|E].
  { rewrite bind_Some. cbv beta iota. destruct A as [_ A]; [lia|]. rewrite E in A. change (1 - 1) with 0 in A.
    destruct (G 0 ltac:(lia) A) as (z & Z1 & Z2). exists z. rewrite Z.sub_0_r, Z.pow_0_r, Z.mul_1_r in Z1. split; [exact Z1|exact Z2]. }
  destruct (Z.leb_spec (nlz 128 h) 127) as [L|L].
  - destruct (A L) as [A1 A2]. rewrite subu_ok by lia. rewrite bind_Some. rewrite shl256s by (unfold nrm in A2; lia). rewrite bind_Some.
    rewrite casts_ok by lia. rewrite subs_ok by (change (32 - 1) with 31; lia). rewrite !bind_Some. cbv beta iota. apply (G (nlz 128 h - 1)); [lia|exact A2].
  - destruct (B L) as (B0 & B1 & B2); [lia|]. rewrite addu_ok by lia. rewrite bind_Some.
    assert (C : h * 2 ^ 128 + l = l) by lia. rewrite C in *.
    rewrite shl256s by (unfold nrm in B2; lia). rewrite bind_Some. rewrite casts_ok by lia. rewrite subs_ok by (change (32 - 1) with 31; lia).
    rewrite !bind_Some. cbv beta iota. apply (G (127 + nlz 128 l)); [lia|exact B2].
Qed.

Lemma R_parts_big s t h l : s = 0 \/ s = 1 -> - 2 ^ 30 <= t < 2 ^ 30 -> 0 <= h < 2 ^ 128 -> 0 <= l < 2 ^ 128 ->
  2 ^ 255 <= h * 2 ^ 128 + l ->
  exists z, bf_from_sign_exp_signif s t (h, l) = Some z /\ bf_normal z
    /\ bfv z = (IZR ((1 - 2 * s) * (2 * ((h * 2 ^ 128 + l) / 2))) * bpow radix2 t)%R.
Proof.
  intros Hs Ht Hh Hl Hc. assert (Z0 : nlz 128 h = 0) by (rewrite (nlz_at _ _ 127); lia).
  unfold bf_from_sign_exp_signif. rewrite dassert_ok by (destruct Hs as [-> | ->]; reflexivity). rewrite bind_Some.
  replace ((h =? 0) && (l =? 0)) with false by (destruct (Z.eqb_spec h 0), (Z.eqb_spec l 0); auto; subst; lia).
  rewrite u256_lit by auto. cbv zeta. rewrite Z0. cbn [Z.eqb]. set (c := h * 2 ^ 128 + l) in *. assert (c < 2 ^ 256) by (unfold c; lia). clearbody c.
  rewrite shr256 by lia. rewrite bind_Some. rewrite adds_ok by (change (32 - 1) with 31; lia). rewrite !bind_Some. cbv beta iota. change (2 ^ 1) with 2.
  assert (N : nrm (c / 2)) by (unfold nrm; split; [apply Z.div_le_lower_bound|apply Z.div_lt_upper_bound]; lia). set (q := c / 2) in *. clearbody q.
  rewrite lzhi_nrm by auto. rewrite dassert_ok by reflexivity. rewrite bind_Some. change BF_FRACTION_BITS with 254.
  assert (V : forall g, (IZR (g * (2 * q)) * bpow radix2 t)%R = bval g (t + 1 + 254) q).
  { intros. unfold bval. replace (t + 1 + 254 - 254) with (1 + t) by lia. rewrite bpow_plus. change (bpow radix2 1) with 2%R. rewrite !mult_IZR. ring. }
  destruct Hs as [-> | ->]; cbn [Z.eqb Pos.eqb]; rewrite bind_Some; rewrite adds_ok by (change (32 - 1) with 31; lia); rewrite bind_Some;
    (eexists; split; [reflexivity|]; split; [apply normal_BF; split; auto|]; rewrite bfv_BF, V; reflexivity).
Qed.

Lemma R_parts_all s t h l : s = 0 \/ s = 1 -> - 2 ^ 30 <= t < 2 ^ 30 -> 0 <= h < 2 ^ 128 -> 0 <= l < 2 ^ 128 ->
  let c := h * 2 ^ 128 + l in
  (c = 0 -> bf_from_sign_exp_signif s t (h, l) = Some BF_ZERO)
  /\ (0 < c -> exists z, bf_from_sign_exp_signif s t (h, l) = Some z /\ bf_normal z
     /\ (c < 2 ^ 255 \/ Z.even c = true -> bfv z = (IZR ((1 - 2 * s) * c) * bpow radix2 t)%R)
     /\ (2 ^ 255 <= c -> Z.even c = false -> bfv z = (IZR ((1 - 2 * s) * (c - 1)) * bpow radix2 t)%R)).
Proof.
  intros Hs Ht Hh Hl c. split.
  - intros C. assert (h = 0) by (unfold c in C; lia). assert (l = 0) by (unfold c in C; lia). subst h l.
    unfold bf_from_sign_exp_signif. rewrite dassert_ok by (destruct Hs as [-> | ->]; reflexivity). reflexivity.
  - intros C. destruct (Z_lt_le_dec c (2 ^ 255)) as [L|L].
    + destruct (R_parts s t h l Hs Ht Hh Hl (conj C L)) as (z & A & B & D). exists z. fold c in D. repeat split; try apply B; auto. lia.
    + destruct (R_parts_big s t h l Hs Ht Hh Hl L) as (z & A & B & D). exists z. fold c in D. rewrite D. split; [exact A|]. split; [exact B|].
      pose proof (Z.div_mod c 2 ltac:(lia)) as M. rewrite Zmod_even in M. split.
      * intros [?|E]; [lia|]. rewrite E in M. do 3 f_equal. lia.
      * intros _ E. rewrite E in M. do 3 f_equal. lia.
Qed.

Lemma parts_refuted : exists z, bf_from_sign_exp_signif 0 0 (2 ^ 127, 1) = Some z
  /\ bfv z = IZR (2 ^ 127 * 2 ^ 128) /\ (bfv z < IZR (2 ^ 127 * 2 ^ 128 + 1))%R.
Proof.
  exists (BF 1 255 (of256 (2 ^ 254))). split; [destruct P; vm_compute; reflexivity|].
  assert (V : bfv (BF 1 255 (of256 (2 ^ 254))) = IZR (2 ^ 127 * 2 ^ 128)).
  { rewrite bfv_BF, bval_pow. change (2 ^ 127 * 2 ^ 128) with (2 ^ 255). rewrite IZR_pow2 by lia. ring. }
  split; [exact V|]. rewrite V. apply IZR_lt. lia.
Qed.

Lemma R_recip x : bf_normal x -> exp30 x ->
  exists z, bf_recip x = Some z /\ bf_normal z /\ bf_signum z = bf_signum x
    /\ (v256 (bf_signif x) = 2 ^ 254 -> bfv z = rnd255 (/ bfv x))
    /\ (Rabs (bfv z - / bfv x) <= bpow radix2 (bf_exp z - 254))%R.
Proof.
  intros N E. assert (O : BF_ONE = BF 1 0 (of256 (2 ^ 254))) by (unfold BF_ONE; rewrite ONE_of; reflexivity).
  assert (V : bfv BF_ONE = 1%R) by (rewrite O, bfv_BF, bval_pow; cbn [bpow]; ring).
  destruct (R_div BF_ONE x) as (z & A & B & C & D & F); auto.
  { rewrite O. apply n_BF; [auto|lia]. } { unfold exp30. cbn [bf_exp BF_ONE]. lia. }
  rewrite V in D, F. unfold Rdiv in D, F. rewrite Rmult_1_l in D, F.
  exists z. split; [exact A|]. split; [exact B|]. split. { rewrite C. cbn [bf_signum BF_ONE]. lia. }
  split; [|exact F]. intros H. apply D. rewrite H, O. cbn [bf_signif]. rewrite v256_of. lia.
Qed.

Lemma recip_refuted : exists x z, bf_normal x /\ bfv x = (3 / 2)%R /\ bf_recip x = Some z /\ bfv z <> rnd255 (/ bfv x).
Proof.
  exists (BF 1 0 (of256 (3 * 2 ^ 253))), (BF 1 (-1) (of256 ((2 ^ 256 - 1) / 3 + 1))). split; [apply n_BF; [auto|lia]|].
  assert (W : bfv (BF 1 0 (of256 (3 * 2 ^ 253))) = (3 / 2)%R).
  { rewrite bfv_BF. unfold bval. rewrite Z.mul_1_l, mult_IZR, IZR_pow2, Rmult_assoc, <- bpow_plus by lia. change (bpow radix2 (253 + (0 - 254))) with (/ 2)%R. lra. }
  split; [exact W|]. split; [destruct P; vm_compute; reflexivity|].
  rewrite W, bfv_BF. apply (rnd_neq _ (-1) ((2 ^ 256 - 1) / 3)); [split; reflexivity| |].
  2:{ intros E. vm_compute in E. discriminate E. }
  replace (255 - -1) with 256 by lia. rewrite <- IZR_pow2 by lia.
  assert (D : 2 ^ 256 = 3 * ((2 ^ 256 - 1) / 3) + 1) by reflexivity. set (q := (2 ^ 256 - 1) / 3) in *. clearbody q. rewrite D.
  rewrite minus_IZR, !plus_IZR, !mult_IZR. split; lra.
Qed.

Lemma sum_exact_refuted : exists x y s, bf_normal x /\ bf_normal y /\ bf_sum_exact x y = Some (s, BF_ZERO)
  /\ bfv s = 1%R /\ bfv x = 1%R /\ bfv y = bpow radix2 (-255).
Proof.
  exists (BF 1 0 (of256 (2 ^ 254))), (BF 1 (-255) (of256 (2 ^ 254))), (BF 1 0 (of256 (2 ^ 254))).
  split; [apply n_BF; [auto|lia]|]. split; [apply n_BF; [auto|lia]|]. split; [destruct P; vm_compute; reflexivity|].
  rewrite !bfv_BF, !bval_pow. cbn [bpow]. repeat split; ring.
Qed.

Lemma mul_exact_refuted : exists x y p r, bf_normal x /\ bf_normal y /\ bf_exp x = 0 /\ bf_exp y = 0
  /\ bf_mul_exact x y = Some (p, r) /\ bfv p = 1%R /\ bfv r = 1%R /\ (bfv x * bfv y < bfv p + bfv r)%R.
Proof.
  exists (BF 1 0 (of256 (2 ^ 254 + 1))), (BF 1 0 (of256 (2 ^ 255 - 2))), (BF 1 0 (of256 (2 ^ 254))), (BF 1 (-1) (of256 (2 ^ 255))).
  split; [apply n_BF; [auto|lia]|]. split; [apply n_BF; [auto|lia]|]. split; [reflexivity|]. split; [reflexivity|].
  split; [destruct P; vm_compute; reflexivity|].
  assert (V : bfv (BF 1 0 (of256 (2 ^ 254))) = 1%R) by (rewrite bfv_BF, bval_pow; cbn [bpow]; ring).
  assert (V' : bfv (BF 1 (-1) (of256 (2 ^ 255))) = 1%R).
  { rewrite bfv_BF. rewrite <- (bval_carry 1 (-1)). rewrite bval_pow. change (-1 + 1) with 0. cbn [bpow]. ring. }
  rewrite V, V'. split; auto. split; auto. rewrite !bfv_BF. unfold bval. rewrite !Z.mul_1_l. change (0 - 254) with (-254).
  replace (2 ^ 255 - 2) with (2 * (2 ^ 254 - 1)) by lia. rewrite mult_IZR, minus_IZR, plus_IZR.
  pose proof unit_eq as U. set (u := bpow radix2 (-254)) in *. assert (U0 : (0 < u)%R) by apply bpow_gt_0. clearbody u.
  set (T' := IZR (2 ^ 254)) in *. clearbody T'.
  replace ((T' + 1) * u * (2 * (T' - 1) * u))%R with (2 * ((T' * u) * (T' * u)) - 2 * (u * u))%R by ring. rewrite U.
  assert (0 < u * u)%R by (apply Rmult_lt_0_compat; auto). lra.
Qed.

End Exact.

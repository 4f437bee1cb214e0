(** * FieldProofs: significand, and the error-free product *)

From Coq Require Import ZArith Lia Bool.
From Verif Require Import Base BigUInt ZLemmas BigLaws BigUIntProofs Spec SpecFns BigExtra F256 Arith SpecLemmas SpecProps
  F256Lemmas RoundLemmas MulProofs BasicProofs CodecProofs SpecAlg MiscProofs Interface LiftProofs LiftFused.
Open Scope Z_scope.

Section Fields.
Context {P : profile}.

Lemma fraction_field v : fraction (of256 v) = of256 (v mod 2 ^ 236).
Proof. exact (fraction_of v). Qed.

Lemma exp_field h e : 0 <= h < 2 ^ 109 -> 0 <= e < 524287 ->
  addu 128 h (shlc 128 e 108) = Some (h + e * 2 ^ 108).
Proof. intros Hh He. unfold shlc. rewrite Z.mod_small by lia. apply addu_ok. lia. Qed.

(** The significand of a finite non-zero number is that of the number as an integer, with 236
    fraction bits. *)
Lemma significand_ok v : 0 <= v < 2 ^ 256 -> finb v = true -> zerob v = false ->
  exists w, significand (of256 v) = Some (of256 w) /\ 0 < w < INFm
    /\ forall k, k = 262142 -> mag_val w = sg (mag v) * 2 ^ k.
Proof.
  intros Hv Hf Hz. unfold significand. rewrite is_finite_of, Hf, dassert_ok, bind_Some by auto.
  rewrite eq_zero_of, Hz, biased_exponent_of.
  change (u256 (Z.land (xhi (of256 v)) HI_FRACTION_MASK) (xlo (of256 v))) with (fraction (of256 v)). rewrite fraction_field.
  pose proof (mag_bound v) as B. unfold finb in Hf. apply Z.ltb_lt in Hf. unfold zerob in Hz. apply Z.eqb_neq in Hz. unfold INFm in *.
  assert (Ef : v mod 2 ^ 236 = mag v mod 2 ^ 236) by (unfold mag; rewrite mod_mod_pow by lia; reflexivity).
  rewrite Ef. set (a := mag v) in *. clearbody a. clear Ef Hv v.
  pose proof (Z.div_mod a (2 ^ 236) ltac:(lia)) as D. pose proof (Z.mod_pos_bound a (2 ^ 236) ltac:(lia)) as M.
  unfold sg. destruct (Z.eqb_spec (a / 2 ^ 236) 0) as [E|E].
  - rewrite E in D. replace (a mod 2 ^ 236) with a by lia. rewrite (proj2 (Z.ltb_lt a (2 ^ 236))) by lia.
    rewrite lz_log2 by lia. pose proof (log2_bound a 236 ltac:(lia)) as L. unfold EXP_BITS, EXP_BIAS.
    pose proof (norm_shift_bound a 236 ltac:(lia) ltac:(lia)) as N. change (236 + 1) with 237 in N.
    rewrite subu_ok, bind_Some by lia. replace (255 - Z.log2 a - 19) with (236 - Z.log2 a) by lia.
    set (s := 236 - Z.log2 a) in *. assert (Hs : 0 < s <= 236) by lia. clearbody s. clear L.
    rewrite shift_left_ok, bind_Some by lia. rewrite Z.mod_small by lia.
    rewrite addu_ok, bind_Some by lia. rewrite subu_ok, bind_Some by lia. rewrite bind_Some. cbv beta iota.
    rewrite xhi_of, xlo_of. set (m := a * 2 ^ s) in *. unfold HI_FRACTION_BITS.
    pose proof (Z.div_mod m (2 ^ 128) ltac:(lia)) as Dm. pose proof (Z.mod_pos_bound m (2 ^ 128) ltac:(lia)) as Mm.
    rewrite exp_field, bind_Some by lia.
    exists ((262142 - s) * 2 ^ 236 + m). rewrite u256_of by lia. split; [|split].
    + apply f_equal. apply f_equal. lia.
    + lia.
    + intros k Hk. rewrite mag_val_signif by lia. unfold m. rewrite <- Z.mul_assoc, <- pow2_add by lia. f_equal. f_equal. lia.
  - rewrite (proj2 (Z.ltb_ge a (2 ^ 236))) by (assert (0 <= a / 2 ^ 236) by (apply Z.div_pos; lia); lia).
    rewrite bind_Some. cbv beta iota. rewrite xhi_of, xlo_of. set (f := a mod 2 ^ 236) in *. clearbody f. unfold HI_FRACTION_BITS, EXP_BIAS.
    pose proof (Z.div_mod f (2 ^ 128) ltac:(lia)) as Dm. pose proof (Z.mod_pos_bound f (2 ^ 128) ltac:(lia)) as Mm.
    rewrite exp_field, bind_Some by lia.
    exists (262142 * 2 ^ 236 + (2 ^ 236 + f)). rewrite u256_of by lia. split; [|split].
    + apply f_equal. apply f_equal. lia.
    + lia.
    + intros k ->. rewrite mag_val_signif by lia. reflexivity.
Qed.

Ltac wf x W := rewrite <- (of256_v256 x W) in *; pose proof (v256_bound x W); rewrite ?v256_of in *;
  let v := fresh "v" in set (v := v256 x) in *; clearbody v.

Lemma L_fields x : wf256 x -> let v := v256 x in
  sign x = sgn v /\ biased_exponent x = mag v / 2 ^ 236 /\ wf256 (fraction x) /\ v256 (fraction x) = v mod 2 ^ 236.
Proof.
  intros W. cbv zeta. wf x W. rewrite fraction_field, sign_of, biased_exponent_of, v256_of by auto.
  pose proof (Z.mod_pos_bound v (2 ^ 236) ltac:(lia)). split. reflexivity. split. reflexivity. split. apply wf256_of; lia. reflexivity.
Qed.

Lemma L_quantum x : wf256 x -> finb (v256 x) = true ->
  exists q c, quantum_exponent x = Some q /\ integral_significand x = Some c /\ wf256 c
    /\ mag_val (mag (v256 x)) = v256 c * 2 ^ (q + UNITe) /\ 0 <= v256 c < 2 ^ 237
    /\ (zerob (v256 x) = true -> q = 0) /\ - UNITe <= q <= 261907
    /\ (zerob (v256 x) = false -> q = - UNITe \/ 2 ^ 236 <= v256 c).
Proof.
  intros W. wf x W. intros Hf. pose proof (mag_bound v) as B.
  exists (if zerob v then 0 else qe (mag v) - 262378), (of256 (sg (mag v))).
  split. apply quantum_exponent_ok; auto. split. apply integral_significand_ok; auto.
  pose proof (sg_bound (mag v) ltac:(lia)) as SB. rewrite v256_of. split. apply wf256_of; lia.
  pose proof (sg_qe (mag v) ltac:(lia)) as [E C]. unfold finb in Hf. apply Z.ltb_lt in Hf. unfold INFm in Hf.
  assert (Q : 0 <= qe (mag v) <= 524285) by (pose proof (qe_nonneg (mag v)); lia).
  split; [|split; [exact SB|]].
  - destruct (zerob v) eqn:Z.
    + unfold zerob in Z. apply Z.eqb_eq in Z. rewrite Z. reflexivity.
    + rewrite (mag_val_sg (mag v)) by lia. f_equal. f_equal. unfold UNITe. lia.
  - unfold UNITe. destruct (zerob v). split; [auto|]. split; [lia|discriminate].
    split; [discriminate|]. split; [lia|]. intros _. destruct C; [left; lia|right; lia].
Qed.

Lemma pow_cmp k q s : s < 2 ^ 237 -> k = 262142 -> q = UNITe -> s * 2 ^ k < 2 * 2 ^ q /\ (2 ^ 236 <= s -> 2 ^ q <= s * 2 ^ k).
Proof.
  intros Hs Hk Hq. assert (E : 2 ^ q = 2 ^ 236 * 2 ^ k) by (rewrite <- pow2_add by lia; f_equal; unfold UNITe in Hq; lia).
  pose proof (pow2_pos k ltac:(lia)) as Pk. rewrite E. generalize dependent (2 ^ k). intros; nia.
Qed.

Lemma L_significand x k : wf256 x -> finb (v256 x) = true -> zerob (v256 x) = false -> k = 262142 ->
  exists e s, exponent x = Some e /\ significand x = Some s /\ wf256 s /\ sgn (v256 s) = 0
    /\ - k <= e <= 262143 /\ mag_val (mag (v256 x)) * 2 ^ k = mag_val (mag (v256 s)) * 2 ^ (e + k)
    /\ 0 < mag_val (mag (v256 s)) < 2 * 2 ^ UNITe
    /\ (e = - k \/ 2 ^ UNITe <= mag_val (mag (v256 s))).
Proof.
  intros W. wf x W. intros Hf Hz Hk. pose proof (mag_bound v) as B.
  destruct (significand_ok v ltac:(lia) Hf Hz) as (w & Ew & Bw & Vw). specialize (Vw k Hk). pose proof INFm_lt as HI.
  exists (qe (mag v) - 262142), (of256 w). rewrite exponent_ok, Hz, v256_of by auto.
  split. reflexivity. split. exact Ew. split. apply wf256_of; lia.
  assert (Mw : mag w = w) by (unfold mag; apply Z.mod_small; lia). rewrite Mw.
  split. unfold sgn. apply Z.div_small; lia.
  pose proof (sg_bound (mag v) ltac:(lia)) as SB. pose proof (sg_qe (mag v) ltac:(lia)) as [E C].
  assert (Q : 0 <= qe (mag v) <= 524285).
  { unfold finb in Hf. apply Z.ltb_lt in Hf. unfold INFm in Hf. pose proof (qe_nonneg (mag v)); lia. }
  split. lia. split; [|split].
  - rewrite Vw, (mag_val_sg (mag v)) by lia. replace (qe (mag v) - 262142 + k) with (qe (mag v)) by lia. ring.
  - split. apply mag_val_pos; lia. rewrite Vw. apply (pow_cmp k); auto. lia.
  - destruct C as [C|C]. left; lia. right. rewrite Vw. apply (pow_cmp k); auto. lia.
Qed.

(** ** The error-free product *)

Lemma abs_xors x y : 0 <= x < 2 ^ 256 -> 0 <= y < 2 ^ 256 ->
  (1 - 2 * xors (sgn x) (sgn y)) * (mag_val (mag x) * mag_val (mag y)) = sval x * sval y.
Proof.
  intros Hx Hy. unfold sval, xors. destruct (sgn01 x Hx) as [-> | ->], (sgn01 y Hy) as [-> | ->]; cbn [Z.eqb Pos.eqb]; ring.
Qed.

(** The rounding error of a product of normal numbers is a multiple of 2^D with at most 236 bits. *)
Lemma prod_err a b D N : 2 ^ 236 <= a < 2 ^ 237 -> 2 ^ 236 <= b < 2 ^ 237 -> 236 <= D -> N = a * b * 2 ^ D ->
  rnd_mag N 1 < INFm ->
  exists k, N - mag_val (rnd_mag N 1) = k * 2 ^ D /\ Z.abs k <= 2 ^ 237 /\ Z.abs (k * 2 ^ D) <= mag_val (rnd_mag N 1)
    /\ 2 ^ 236 <= rnd_mag N 1.
Proof.
  intros Ha Hb HD HN HF. pose proof (pow2_pos D ltac:(lia)) as PD.
  assert (AB : 2 ^ 472 <= a * b < 2 ^ 474) by (change (2 ^ 472) with (2 ^ 236 * 2 ^ 236); change (2 ^ 474) with (2 ^ 237 * 2 ^ 237); nia).
  assert (N0 : 0 < N) by (subst N; nia).
  assert (L1 : 472 + D <= Z.log2 N).
  { apply Z.log2_le_pow2; auto. rewrite pow2_add by lia. subst N. apply Z.mul_le_mono_nonneg_r; lia. }
  assert (L2 : Z.log2 N < 474 + D).
  { apply Z.log2_lt_pow2; auto. rewrite pow2_add by lia. subst N. apply Z.mul_lt_mono_pos_r; lia. }
  destruct (rnd_mag_err N ltac:(lia) HF) as (e & q & He & V & Q & Err & _).
  assert (He' : D + 236 <= e <= D + 237) by lia.
  assert (Pe : 2 ^ e = 2 ^ (e - D) * 2 ^ D) by (rewrite <- pow2_add by lia; f_equal; lia).
  assert (P2 : 2 ^ (e - D) <= 2 ^ 237) by (apply Z.pow_le_mono_r; lia). pose proof (pow2_pos (e - D) ltac:(lia)) as P3.
  assert (Nlow : 2 ^ 236 * 2 ^ e <= N).
  { rewrite <- pow2_add by lia. replace (236 + e) with (Z.log2 N) by lia. apply Z.log2_spec. auto. }
  assert (Q1 : 1 <= q).
  { destruct (Z.lt_ge_cases q 1) as [C|C]; auto. replace q with 0 in * by lia. pose proof (pow2_pos e ltac:(lia)). lia. }
  exists (a * b - q * 2 ^ (e - D)). rewrite V. 
  assert (K : N - q * 2 ^ e = (a * b - q * 2 ^ (e - D)) * 2 ^ D) by (rewrite HN, Pe; ring).
  split. exact K. rewrite <- K. split; [|split].
  - rewrite K, Z.abs_mul, (Z.abs_eq (2 ^ D)), Pe in Err by lia. generalize dependent (Z.abs (a * b - q * 2 ^ (e - D))). intros; nia.
  - pose proof (pow2_pos e ltac:(lia)). nia.
  - destruct (Z.lt_ge_cases (rnd_mag N 1) (2 ^ 236)) as [C|C]; auto. rewrite (mag_val_sub _ C) in V.
    assert (2 ^ 236 <= 2 ^ e) by (apply Z.pow_le_mono_r; lia). nia.
Qed.

Lemma rnd_signed_scale s n k : 0 < k -> rnd_signed s (n * k) k = rnd_signed s n 1.
Proof.
  intros Hk. unfold rnd_signed. replace (n * k =? 0) with (n =? 0). 2: { destruct (Z.eqb_spec n 0), (Z.eqb_spec (n * k) 0); auto; nia. }
  replace (n * k <? 0) with (n <? 0). 2: { destruct (Z.ltb_spec n 0), (Z.ltb_spec (n * k) 0); auto; nia. }
  rewrite Z.abs_mul, (Z.abs_eq k) by lia. replace k with (1 * k) at 2 by ring. rewrite rnd_mag_scale by lia. reflexivity.
Qed.

Lemma prod_low a b d : 2 ^ 236 <= a -> 2 ^ 236 <= b -> 0 < d -> 2 ^ 236 <= a * b * d.
Proof.
  intros Ha Hb Hd. apply Z.le_trans with (a * b). 2: { rewrite <- (Z.mul_1_r (a * b)) at 1. apply Z.mul_le_mono_nonneg_l; lia. }
  apply Z.le_trans with (a * 1). lia. apply Z.mul_le_mono_nonneg_l; lia.
Qed.

Lemma abs_low t k d : t = 1 \/ t = -1 -> k <> 0 -> 2 ^ 236 <= d -> 2 ^ 236 <= Z.abs t * (Z.abs k * d).
Proof.
  intros Ht Hk Hd. replace (Z.abs t) with 1 by lia. rewrite Z.mul_1_l. apply Z.le_trans with (1 * d). lia.
  apply Z.mul_le_mono_nonneg_r; lia.
Qed.

Lemma fast_mul_ok x y : wf256 x -> wf256 y -> let a := v256 x in let b := v256 y in
  finb a = true -> finb b = true -> 2 ^ 236 <= mag a -> 2 ^ 236 <= mag b ->
  262616 <= mag a / 2 ^ 236 + mag b / 2 ^ 236 -> finb (spec_mul a b) = true ->
  exists p r, fast_mul x y = Some (p, r) /\ wf256 p /\ wf256 r /\ v256 p = spec_mul a b /\ finb (v256 r) = true
    /\ (sval (v256 p) + sval (v256 r)) * 2 ^ UNITe = sval a * sval b.
Proof.
  intros Wx Wy a b Fa Fb Na Nb Hs Fp.
  pose proof (v256_bound x Wx) as Ba. pose proof (v256_bound y Wy) as Bb. fold a in Ba. fold b in Bb.
  pose proof (mag_bound a) as Ma. pose proof (mag_bound b) as Mb.
  pose proof (sg_qe (mag a) ltac:(lia)) as [Ea Ca]. pose proof (sg_qe (mag b) ltac:(lia)) as [Eb Cb].
  pose proof (sg_bound (mag a) ltac:(lia)) as Sa. pose proof (sg_bound (mag b) ltac:(lia)) as Sb.
  assert (Qa : qe (mag a) = mag a / 2 ^ 236 - 1) by (unfold qe; pose proof (Z.div_le_mono (2 ^ 236) (mag a) (2 ^ 236) ltac:(lia) Na); rewrite Z.div_same in * by lia; lia).
  assert (Qb : qe (mag b) = mag b / 2 ^ 236 - 1) by (unfold qe; pose proof (Z.div_le_mono (2 ^ 236) (mag b) (2 ^ 236) ltac:(lia) Nb); rewrite Z.div_same in * by lia; lia).
  pose proof (mag_val_sg (mag a) ltac:(lia)) as Va. pose proof (mag_val_sg (mag b) ltac:(lia)) as Vb.
  assert (S1 : 2 ^ 236 <= sg (mag a)) by lia. assert (S2 : 2 ^ 236 <= sg (mag b)) by lia. clear Ca Cb.
  assert (EU : exists U, U = UNITe) by (eexists; reflexivity). destruct EU as [U HU].
  assert (HU' : U = 262378) by (rewrite HU; reflexivity).
  set (D := qe (mag a) + qe (mag b) - U). assert (HD : 236 <= D) by lia.
  set (N := sg (mag a) * sg (mag b) * 2 ^ D).
  assert (EN : mag_val (mag a) * mag_val (mag b) = N * 2 ^ U).
  { assert (X : 2 ^ qe (mag a) * 2 ^ qe (mag b) = 2 ^ D * 2 ^ U).
    { rewrite <- pow2_add by apply qe_nonneg. rewrite <- pow2_add by lia. f_equal. unfold D. ring. }
    rewrite Va, Vb. unfold N. rewrite <- (Z.mul_assoc _ (2 ^ D)), <- X. ring. }
  pose proof (pow2_pos U ltac:(lia)) as PU. pose proof (pow2_pos D ltac:(lia)) as PD.
  assert (N0 : 0 <= N) by (unfold N; apply Z.mul_nonneg_nonneg; [apply Z.mul_nonneg_nonneg|]; lia).
  assert (ER : rnd_mag (mag_val (mag a) * mag_val (mag b)) (2 ^ UNITe) = rnd_mag N 1).
  { rewrite <- HU, EN. replace (2 ^ U) with (1 * 2 ^ U) at 2 by ring. apply rnd_mag_scale; lia. }
  assert (SP : spec_mul a b = mkf (xors (sgn a) (sgn b)) (rnd_mag N 1)).
  { unfold spec_mul. destruct (finb_kinds a Fa) as [-> ->], (finb_kinds b Fb) as [-> ->]. cbn [orb]. rewrite ER. reflexivity. }
  assert (RB : 0 <= rnd_mag N 1 < 2 ^ 255) by (apply rnd_mag_lt; lia).
  assert (HF : rnd_mag N 1 < INFm). { rewrite SP in Fp. unfold finb in Fp. rewrite mag_mkf in Fp by auto. apply Z.ltb_lt. auto. }
  destruct (prod_err (sg (mag a)) (sg (mag b)) D N ltac:(lia) ltac:(lia) HD eq_refl HF) as (k & K1 & K2 & K3 & K4).
  (* the product *)
  assert (Lo : 2 ^ 236 * 2 ^ U <= mag_val (mag a) * mag_val (mag b)).
  { rewrite EN. apply Z.mul_le_mono_nonneg_r; [lia|]. unfold N.
    apply (prod_low _ _ _ S1 S2 PD). }
  destruct (L_mul x y Wx Wy) as (p & Ep & Wp & Vp). { left. fold a b. rewrite <- HU. exact Lo. } fold a b in Vp.
  (* the remainder *)
  assert (Wn : wf256 (negated p)). { rewrite <- (of256_v256 p Wp), negated_of by (apply v256_bound; auto). apply wf256_of. apply spec_neg_bound. apply v256_bound; auto. }
  assert (Vn : v256 (negated p) = spec_neg (v256 p)). { rewrite <- (of256_v256 p Wp) at 1. rewrite negated_of by (apply v256_bound; auto). apply v256_of. }
  pose proof (spec_mul_bound a b) as Bp.
  assert (Svp : sval (spec_mul a b) = (1 - 2 * xors (sgn a) (sgn b)) * mag_val (rnd_mag N 1)) by (rewrite SP; apply sval_mkf; auto).
  assert (Mp : mag (spec_neg (spec_mul a b)) = rnd_mag N 1) by (rewrite mag_neg by auto; rewrite SP; apply mag_mkf; auto).
  set (t := 1 - 2 * xors (sgn a) (sgn b)) in *.
  assert (Ht : t = 1 \/ t = -1) by (unfold t; destruct (xors01 (sgn a) (sgn b)) as [-> | ->]; lia).
  assert (En : t * (mag_val (mag a) * mag_val (mag b)) + sval (spec_neg (spec_mul a b)) * 2 ^ U = t * (k * 2 ^ D) * 2 ^ U).
  { rewrite sval_neg_op, Svp, EN by auto. rewrite <- K1. ring. }
  destruct (L_fma x y (negated p) Wx Wy Wn) as (r & Er & Wr & Vr).
  { left. fold a b. split; [auto|]. split; [auto|]. right. left. rewrite Vn, Vp, Mp. exact K4. }
  { fold a b. rewrite Vn, Vp. fold t. rewrite <- HU, En.
    destruct (Z.eq_dec k 0) as [->|Nk]. left; ring. right.
    rewrite !Z.abs_mul, (Z.abs_eq (2 ^ D)), (Z.abs_eq (2 ^ U)) by lia. apply Z.mul_le_mono_nonneg_r; [lia|].
    assert (2 ^ 236 <= 2 ^ D) by (apply Z.pow_le_mono_r; lia). apply abs_low; auto. }
  fold a b in Vr. rewrite Vn, Vp in Vr.
  assert (SF : spec_fma a b (spec_neg (spec_mul a b)) = rnd_signed 0 (t * (k * 2 ^ D)) 1).
  { unfold spec_fma. destruct (finb_kinds a Fa) as [-> ->], (finb_kinds b Fb) as [-> ->].
    destruct (kinds_neg (spec_mul a b) Bp) as (Q1 & Q2 & Q3 & Q4). destruct (finb_kinds _ Fp) as [N1 N2].
    rewrite Q1, Q2, N1, N2. cbn [orb].
    assert (ZF : zerob (spec_neg (spec_mul a b)) = false) by (unfold zerob; rewrite Mp; apply Z.eqb_neq; lia).
    rewrite ZF. fold t. rewrite <- HU, En. apply rnd_signed_scale; auto. }
  rewrite SF in Vr.
  assert (R : rep (t * (k * 2 ^ D))).
  { apply (rep_intro (t * k) D _ (rnd_mag N 1)); [|lia|ring|split; [apply RB|exact HF]|].
    - clear - Ht K2. destruct Ht as [-> | ->]; lia.
    - clear - Ht K3. rewrite Z.abs_mul. destruct Ht as [-> | ->]; lia. }
  destruct (rnd_signed_rep 0 _ (or_introl eq_refl) R) as [Fr Sr]. rewrite <- Vr in Fr, Sr.
  exists p, r. split; [|split; [exact Wp|split; [exact Wr|split; [exact Vp|split; [exact Fr|]]]]].
  - unfold fast_mul. rewrite (proj1 (proj2 (L_fields x Wx))), (proj1 (proj2 (L_fields y Wy))). fold a b.
    assert (0 <= mag a / 2 ^ 236 < 524288) by (apply div_bound; lia). assert (0 <= mag b / 2 ^ 236 < 524288) by (apply div_bound; lia).
    rewrite addu_ok, bind_Some by lia. rewrite dassert_ok by (unfold EXP_BIAS; apply Z.leb_le; lia). rewrite bind_Some.
    rewrite Ep, bind_Some. unfold mul_add in Er. rewrite Er, bind_Some. reflexivity.
  - rewrite <- HU. rewrite Sr, Vp, Svp. rewrite <- (abs_xors a b), EN by auto. fold t. rewrite <- K1. ring.
Qed.

End Fields.

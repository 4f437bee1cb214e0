(** * F256Lemmas: the bit-level helpers of the model in terms of integers *)

From Coq Require Import ZArith Znumtheory Lia Bool.
From Verif Require Import Base BigUInt ZLemmas BigLaws BigUIntProofs BigExtra F256 Arith SpecLemmas.
Open Scope Z_scope.

(** [lia] with all powers and div/mod by literals spelled out. *)
Ltac dlia := Z.to_euclidean_division_equations; lia.

Section F256Lemmas.
Context {P : profile}.

Lemma xhi_of v : xhi (of256 v) = v / 2 ^ 128. Proof. reflexivity. Qed.
Lemma xlo_of v : xlo (of256 v) = v mod 2 ^ 128. Proof. reflexivity. Qed.

Lemma u256_of h l : 0 <= l < 2 ^ 128 -> u256 h l = of256 (h * 2 ^ 128 + l).
Proof. intros. symmetry. apply of256_eq; auto. Qed.

Lemma div_mod_pow v a b : 0 <= a -> 0 <= b -> (v mod 2 ^ (a + b)) / 2 ^ a = (v / 2 ^ a) mod 2 ^ b.
Proof.
  intros Ha Hb. rewrite pow2_add by lia. pose proof (pow2_pos a Ha). pose proof (pow2_pos b Hb).
  rewrite Z.rem_mul_r by lia.
  rewrite Z.mul_comm, Z.div_add by lia. rewrite Z.div_small by (apply Z.mod_pos_bound; lia). lia.
Qed.
Lemma mod_mod_pow v a b : 0 <= a <= b -> (v mod 2 ^ b) mod 2 ^ a = v mod 2 ^ a.
Proof.
  intros H. symmetry. apply Zmod_div_mod. apply pow2_pos; lia. apply pow2_pos; lia.
  exists (2 ^ (b - a)). rewrite <- pow2_add by lia. f_equal; lia.
Qed.

(** Replacing the high half. *)
Lemma u256_hi h v : u256 h (v mod 2 ^ 128) = of256 (h * 2 ^ 128 + v mod 2 ^ 128).
Proof. apply u256_of. apply Z.mod_pos_bound; lia. Qed.

Lemma u256_zero_lo h : u256 h 0 = of256 (h * 2 ^ 128).
Proof. rewrite u256_of by lia. f_equal. lia. Qed.

Lemma of256_ext a b : a = b -> of256 a = of256 b. Proof. congruence. Qed.

Lemma abs_bits_of v : abs_bits (of256 v) = of256 (v mod 2 ^ 255).
Proof.
  unfold abs_bits. rewrite xhi_of, xlo_of. unfold HI_ABS_MASK. rewrite land_pow2_ones by lia.
  rewrite u256_hi. apply of256_ext.
  rewrite <- (div_mod_pow v 128 127) by lia. change (128 + 127) with 255.
  rewrite <- (mod_mod_pow v 128 255) by lia.
  rewrite Z.mul_comm. symmetry. apply Z.div_mod. lia.
Qed.
Lemma abs_of v : abs (of256 v) = of256 (v mod 2 ^ 255).
Proof. exact (abs_bits_of v). Qed.

Lemma land_sign h : 0 <= h < 2 ^ 128 -> Z.land h (2 ^ 127) = (h / 2 ^ 127) * 2 ^ 127.
Proof.
  intros Hh.
  pose proof (Z.div_mod h (2 ^ 127) ltac:(lia)) as E. pose proof (Z.mod_pos_bound h (2 ^ 127) ltac:(lia)) as B.
  assert (0 <= h / 2 ^ 127 < 2) by (apply div_bound; lia).
  set (q := h / 2 ^ 127) in *. set (r := h mod 2 ^ 127) in *. clearbody q r.
  rewrite E, (Z.mul_comm (2 ^ 127) q). change (2 ^ 127) with (1 * 2 ^ 127 + 0) at 2.
  rewrite land_split by lia. rewrite Z.land_0_r.
  rewrite land_1. rewrite Z.mod_small by lia. lia.
Qed.

Lemma sign_bits_of v : 0 <= v < 2 ^ 256 -> sign_bits_hi (of256 v) = (v / 2 ^ 255) * 2 ^ 127.
Proof.
  intros Hv. unfold sign_bits_hi, HI_SIGN_MASK. rewrite xhi_of.
  rewrite land_sign. 2: { apply div_bound. lia. change (2 ^ 128 * 2 ^ 128) with (2 ^ 256). lia. }
  rewrite Z.div_div by lia. reflexivity.
Qed.

Lemma sign_of v : 0 <= v < 2 ^ 256 -> sign (of256 v) = v / 2 ^ 255.
Proof.
  intros Hv. unfold sign, shrc, HI_SIGN_SHIFT. rewrite xhi_of, Z.div_div by lia.
  change (2 ^ 128 * 2 ^ 127) with (2 ^ 255). apply castu_ok.
  assert (0 <= v / 2 ^ 255 < 2) by (apply div_bound; lia). lia.
Qed.

(** sticky representation of the absolute value in one u128 *)
Lemma lor_1 a : 0 <= a -> Z.lor a 1 = 2 * (a / 2) + 1.
Proof.
  intros Ha. pose proof (Z.div_mod a 2 ltac:(lia)) as E. pose proof (Z.mod_pos_bound a 2 ltac:(lia)) as B.
  set (q := a / 2) in *. set (r := a mod 2) in *. clearbody q r.
  rewrite E. rewrite (Z.mul_comm 2 q). change 2 with (2 ^ 1). change 1 with (0 * 2 ^ 1 + 1) at 2.
  rewrite lor_split by (change (2 ^ 1) with 2; lia). rewrite Z.lor_0_r.
  replace (Z.lor r 1) with 1; auto. destruct (Z.eq_dec r 0) as [->|]; auto. replace r with 1 by lia. reflexivity.
Qed.

Definition stk (a : Z) : Z := if a mod 2 ^ 128 =? 0 then a / 2 ^ 128 else 2 * (a / 2 ^ 128 / 2) + 1.

Lemma sticky_of a : 0 <= a -> abs_bits_sticky (of256 a) = stk a.
Proof.
  intros Ha. unfold abs_bits_sticky, stk. rewrite xhi_of, xlo_of.
  assert (0 <= a / 2 ^ 128) by (apply Z.div_pos; lia).
  destruct (Z.eqb_spec (a mod 2 ^ 128) 0); cbn [negb b2z]. apply Z.lor_0_r. apply lor_1; auto.
Qed.

Section Stk.
Variable a : Z.
Hypothesis Ha : 0 <= a < 2 ^ 255.

Ltac st := unfold stk, INF_HI, HI_EXP_MASK, HI_FRACTION_MASK, INFm;
  pose proof (Z.div_mod a (2 ^ 128) ltac:(lia)) as E;
  pose proof (Z.mod_pos_bound a (2 ^ 128) ltac:(lia)) as B;
  pose proof (Z.div_mod (a / 2 ^ 128) 2 ltac:(lia)) as E2;
  pose proof (Z.mod_pos_bound (a / 2 ^ 128) 2 ltac:(lia)) as B2;
  set (h := a / 2 ^ 128) in *; set (l := a mod 2 ^ 128) in *; set (q := h / 2) in *; set (b := h mod 2) in *;
  clearbody h l q b.

Lemma stk_bound : 0 <= stk a < 2 ^ 127.
Proof using Ha. st. destruct (Z.eqb_spec l 0); lia. Qed.
Lemma stk_zero : (stk a =? 0) = (a =? 0).
Proof using Ha. st. destruct (Z.eqb_spec l 0), (Z.eqb_spec a 0); try apply Z.eqb_eq; try apply Z.eqb_neq; lia. Qed.
Lemma stk_lt_inf : (stk a <? INF_HI) = (a <? INFm).
Proof using Ha. st. destruct (Z.eqb_spec l 0), (Z.ltb_spec a (524287 * 2 ^ 236)); try apply Z.ltb_lt; try apply Z.ltb_ge; lia. Qed.
Lemma stk_eq_inf : (stk a =? INF_HI) = (a =? INFm).
Proof using Ha. st. destruct (Z.eqb_spec l 0), (Z.eqb_spec a (524287 * 2 ^ 236)); try apply Z.eqb_eq; try apply Z.eqb_neq; lia. Qed.
Lemma stk_gt_inf : (INF_HI <? stk a) = (INFm <? a).
Proof using Ha. st. destruct (Z.eqb_spec l 0), (Z.ltb_spec (524287 * 2 ^ 236) a); try apply Z.ltb_lt; try apply Z.ltb_ge; lia. Qed.
Lemma stk_sub : (stk a <=? HI_FRACTION_MASK) = (a <? 2 ^ 236).
Proof using Ha. st. destruct (Z.eqb_spec l 0), (Z.ltb_spec a (2 ^ 236)); try apply Z.leb_le; try apply Z.leb_gt; lia. Qed.
Lemma stk_special : u128_is_special (stk a) = (a =? 0) || (INFm <=? a).
Proof.
  pose proof stk_bound as S0. pose proof stk_zero as S1. pose proof stk_lt_inf as S2.
  unfold u128_is_special, MAX_HI.
  destruct (Z.eqb_spec a 0) as [E|E]; cbn [orb].
  - apply Z.eqb_eq in S1. rewrite S1. reflexivity.
  - apply Z.eqb_neq in S1. rewrite Z.mod_small by lia.
    unfold INF_HI, HI_EXP_MASK in S2.
    destruct (Z.leb_spec INFm a), (Z.ltb_spec a INFm); try lia.
Qed.
End Stk.

Lemma stk_mono a b : 0 <= a <= b -> stk a <= stk b.
Proof.
  intros H. unfold stk.
  pose proof (Z.div_le_mono a b (2 ^ 128) ltac:(lia) ltac:(lia)).
  pose proof (Z.div_mod a (2 ^ 128) ltac:(lia)). pose proof (Z.mod_pos_bound a (2 ^ 128) ltac:(lia)).
  pose proof (Z.div_mod b (2 ^ 128) ltac:(lia)). pose proof (Z.mod_pos_bound b (2 ^ 128) ltac:(lia)).
  set (ha := a / 2 ^ 128) in *; set (la := a mod 2 ^ 128) in *.
  set (hb := b / 2 ^ 128) in *; set (lb := b mod 2 ^ 128) in *. clearbody ha la hb lb.
  pose proof (Z.div_mod ha 2 ltac:(lia)). pose proof (Z.mod_pos_bound ha 2 ltac:(lia)).
  pose proof (Z.div_mod hb 2 ltac:(lia)). pose proof (Z.mod_pos_bound hb 2 ltac:(lia)).
  destruct (Z.eqb_spec la 0), (Z.eqb_spec lb 0); lia.
Qed.

Lemma is_special_bits_of a : 0 <= a < 2 ^ 255 -> is_special_bits (of256 a) = (a =? 0) || (INFm <=? a).
Proof. intros. unfold is_special_bits. rewrite sticky_of by lia. apply stk_special; auto. Qed.

Lemma any_special2_of a b : 0 <= a < 2 ^ 255 -> 0 <= b < 2 ^ 255 ->
  any_special2 (stk a) (stk b) = ((a =? 0) || (INFm <=? a)) || ((b =? 0) || (INFm <=? b)).
Proof. intros. unfold any_special2. rewrite !stk_special by auto. reflexivity. Qed.

Lemma norm_bit_of a : 0 <= a -> norm_bit (of256 a) = b2z (2 ^ 236 <=? a).
Proof.
  intros Ha. unfold norm_bit, HI_FRACTION_BIAS. rewrite xhi_of. f_equal.
  pose proof (Z.div_mod a (2 ^ 128) ltac:(lia)). pose proof (Z.mod_pos_bound a (2 ^ 128) ltac:(lia)).
  destruct (Z.leb_spec (2 ^ 108) (a / 2 ^ 128)), (Z.leb_spec (2 ^ 236) a); auto; lia.
Qed.

Lemma exp_bits_of a : 0 <= a < 2 ^ 256 -> exp_bits (of256 a) = a / 2 ^ 236.
Proof.
  intros Ha. unfold exp_bits, shrc, HI_FRACTION_BITS. rewrite xhi_of, Z.div_div by lia.
  change (2 ^ 128 * 2 ^ 108) with (2 ^ 236). apply castu_ok.
  assert (0 <= a / 2 ^ 236 < 2 ^ 20) by (apply div_bound; lia). lia.
Qed.

Lemma fraction_of v : fraction_bits (of256 v) = of256 (v mod 2 ^ 236).
Proof.
  unfold fraction_bits, HI_FRACTION_MASK. rewrite xhi_of, xlo_of, land_pow2_ones by lia.
  rewrite u256_hi. apply of256_ext.
  rewrite <- (div_mod_pow v 128 108) by lia. change (128 + 108) with 236.
  rewrite <- (mod_mod_pow v 128 236) by lia.
  rewrite Z.mul_comm. symmetry. apply Z.div_mod. lia.
Qed.

(** significand of a magnitude *)
Definition sg (a : Z) : Z := if a <? 2 ^ 236 then a else 2 ^ 236 + a mod 2 ^ 236.

Lemma sg_bound a : 0 <= a -> 0 <= sg a < 2 ^ 237.
Proof.
  intros Ha. unfold sg. pose proof (Z.mod_pos_bound a (2 ^ 236) ltac:(lia)).
  destruct (Z.ltb_spec a (2 ^ 236)); lia.
Qed.
Lemma sg_norm a : 2 ^ 236 <= a -> 2 ^ 236 <= sg a.
Proof.
  intros Ha. unfold sg. pose proof (Z.mod_pos_bound a (2 ^ 236) ltac:(lia)).
  destruct (Z.ltb_spec a (2 ^ 236)); lia.
Qed.
Lemma sg_pos a : 0 < a -> 0 < sg a.
Proof.
  intros Ha. unfold sg. pose proof (Z.mod_pos_bound a (2 ^ 236) ltac:(lia)).
  destruct (Z.ltb_spec a (2 ^ 236)); lia.
Qed.

(** exponent of the quantum of a magnitude, relative to the least one *)
Definition qe (a : Z) : Z := Z.max 0 (a / 2 ^ 236 - 1).

Lemma qe_nonneg a : 0 <= qe a. Proof. unfold qe; lia. Qed.

Lemma sg_qe a : 0 <= a -> a = qe a * 2 ^ 236 + sg a /\ (qe a = 0 \/ 2 ^ 236 <= sg a).
Proof.
  intros Ha. unfold qe, sg.
  pose proof (Z.div_mod a (2 ^ 236) ltac:(lia)). pose proof (Z.mod_pos_bound a (2 ^ 236) ltac:(lia)).
  destruct (Z.ltb_spec a (2 ^ 236)).
  - rewrite (Z.div_small a (2 ^ 236)) by lia. lia.
  - assert (1 <= a / 2 ^ 236) by (apply Z.div_le_lower_bound; lia). lia.
Qed.

Lemma mag_val_sg a : 0 <= a -> mag_val a = sg a * 2 ^ qe a.
Proof.
  intros Ha. pose proof (sg_qe a Ha) as [E C]. rewrite E at 1.
  apply mag_val_any; auto. apply qe_nonneg. apply sg_bound; auto.
Qed.

Lemma signif_of a : 0 <= a < 2 ^ 255 -> signif (of256 a) = of256 (sg a).
Proof.
  intros Ha. unfold signif. rewrite xhi_of, xlo_of.
  unfold HI_FRACTION_MASK, HI_FRACTION_BIAS, HI_FRACTION_BITS. rewrite land_pow2_ones by lia.
  unfold shlc. unfold sg.
  pose proof (Z.div_mod a (2 ^ 128) ltac:(lia)) as E. pose proof (Z.mod_pos_bound a (2 ^ 128) ltac:(lia)) as B.
  assert (E2 : a mod 2 ^ 236 = (a / 2 ^ 128) mod 2 ^ 108 * 2 ^ 128 + a mod 2 ^ 128).
  { rewrite <- (div_mod_pow a 128 108) by lia. change (128 + 108) with 236.
    rewrite <- (mod_mod_pow a 128 236) by lia. rewrite Z.mul_comm. apply Z.div_mod. lia. }
  pose proof (Z.mod_pos_bound (a / 2 ^ 128) (2 ^ 108) ltac:(lia)) as B2.
  set (hm := (a / 2 ^ 128) mod 2 ^ 108) in *.
  assert (L : Z.lor ((b2z (2 ^ 108 <=? a / 2 ^ 128) * 2 ^ 108) mod 2 ^ 128) hm
     = b2z (2 ^ 108 <=? a / 2 ^ 128) * 2 ^ 108 + hm).
  { rewrite Z.mod_small by (destruct (2 ^ 108 <=? a / 2 ^ 128); cbn [b2z]; lia). apply lor_add; lia. }
  rewrite L. rewrite u256_hi. apply of256_ext.
  destruct (Z.leb_spec (2 ^ 108) (a / 2 ^ 128)); cbn [b2z].
  - destruct (Z.ltb_spec a (2 ^ 236)); lia.
  - destruct (Z.ltb_spec a (2 ^ 236)); [|lia]. rewrite (Z.mod_small a (2 ^ 236)) in E2 by lia. lia.
Qed.

(** ** Assembling results *)

Lemma land_fraction h l : 0 <= l < 2 ^ 128 ->
  (Z.land h HI_FRACTION_MASK) * 2 ^ 128 + l = (h * 2 ^ 128 + l) mod 2 ^ 236.
Proof.
  intros Hl. unfold HI_FRACTION_MASK. rewrite land_pow2_ones by lia.
  pose proof (Z.div_mod h (2 ^ 108) ltac:(lia)). pose proof (Z.mod_pos_bound h (2 ^ 108) ltac:(lia)).
  symmetry. apply mod_eq with (h / 2 ^ 108); lia.
Qed.

Lemma asm_fraction z e : 0 <= e < 2 ^ 20 ->
  u256 (Z.lor (Z.land (xhi (of256 z)) HI_FRACTION_MASK) (shlc 128 e HI_FRACTION_BITS)) (xlo (of256 z))
  = of256 (e * 2 ^ 236 + z mod 2 ^ 236).
Proof.
  intros He. rewrite xhi_of, xlo_of. unfold shlc, HI_FRACTION_BITS.
  rewrite Z.mod_small by (change (2 ^ 128) with (2 ^ 20 * 2 ^ 108); nia).
  rewrite lor_add'. 2: lia.
  2: { unfold HI_FRACTION_MASK. rewrite land_pow2_ones by lia. apply Z.mod_pos_bound; lia. }
  rewrite u256_hi. apply of256_ext.
  pose proof (land_fraction (z / 2 ^ 128) (z mod 2 ^ 128) ltac:(apply Z.mod_pos_bound; lia)) as E.
  rewrite (Z.mul_comm (z / 2 ^ 128)), <- Z.div_mod in E by lia. rewrite <- E.
  change (2 ^ 236) with (2 ^ 108 * 2 ^ 128). ring.
Qed.

Lemma or_hi_sign a s : 0 <= a < 2 ^ 255 -> or_hi (of256 a) (s * 2 ^ 127) = of256 (s * 2 ^ 255 + a).
Proof.
  intros Ha. unfold or_hi. rewrite xhi_of, xlo_of.
  assert (0 <= a / 2 ^ 128 < 2 ^ 127) by (apply div_bound; lia).
  rewrite lor_add' by lia. rewrite u256_hi. apply of256_ext.
  pose proof (Z.div_mod a (2 ^ 128) ltac:(lia)). change (2 ^ 255) with (2 ^ 127 * 2 ^ 128). lia.
Qed.

Lemma asm_add z e : 0 <= z -> 0 <= e -> z + e * 2 ^ 236 < 2 ^ 255 ->
  (let! h := addu 128 (xhi (of256 z)) (shlc 128 e HI_FRACTION_BITS) in Some (u256 h (xlo (of256 z))))
  = Some (of256 (e * 2 ^ 236 + z)).
Proof.
  intros Hz He H. rewrite xhi_of, xlo_of. unfold shlc, HI_FRACTION_BITS.
  pose proof (Z.div_mod z (2 ^ 128) ltac:(lia)) as E. pose proof (Z.mod_pos_bound z (2 ^ 128) ltac:(lia)) as B.
  assert (0 <= z / 2 ^ 128) by (apply Z.div_pos; lia).
  rewrite Z.mod_small by lia. rewrite addu_ok by lia. rewrite bind_Some.
  rewrite u256_hi. do 2 f_equal. change (2 ^ 236) with (2 ^ 108 * 2 ^ 128). lia.
Qed.

(** Short names for the operations on U256 in range. *)
Lemma W : (2 : Z) ^ @BITS U256 uint_ops = 2 ^ 256. Proof. reflexivity. Qed.
Lemma add256 a b : 0 <= a -> 0 <= b -> a + b < 2 ^ 256 -> uadd (of256 a) (of256 b) = Some (of256 (a + b)).
Proof. intros. apply (L_add _ L256); rewrite W; lia. Qed.
Lemma sub256 a b : 0 <= b <= a -> a < 2 ^ 256 -> usub (of256 a) (of256 b) = Some (of256 (a - b)).
Proof. intros. apply (L_sub _ L256); rewrite ?W; lia. Qed.
Lemma shl256 a n : 0 <= a < 2 ^ 256 -> 0 <= n < 256 -> ushl (of256 a) n = Some (of256 ((a * 2 ^ n) mod 2 ^ 256)).
Proof. intros. apply (L_shl _ L256); auto. Qed.
Lemma shl256s a n : 0 <= a -> 0 <= n < 256 -> a * 2 ^ n < 2 ^ 256 -> ushl (of256 a) n = Some (of256 (a * 2 ^ n)).
Proof.
  intros. pose proof (pow2_pos n ltac:(lia)). rewrite shl256 by nia. rewrite Z.mod_small by nia. reflexivity.
Qed.
Lemma shr256 a n : 0 <= a < 2 ^ 256 -> 0 <= n < 256 -> ushr (of256 a) n = Some (of256 (a / 2 ^ n)).
Proof. intros. apply (L_shr _ L256); auto. Qed.
Lemma msb256 a : 0 < a < 2 ^ 256 -> msb (of256 a) = Some (Z.log2 a).
Proof. intros. apply (D_msb _ L256); auto. Qed.
Lemma is_zero256 a : 0 <= a < 2 ^ 256 -> is_zero (of256 a) = (a =? 0).
Proof. intros. apply (D_is_zero _ L256); auto. Qed.
Lemma ult256 a b : 0 <= a < 2 ^ 256 -> 0 <= b < 2 ^ 256 -> ult (of256 a) (of256 b) = (a <? b).
Proof. intros. apply (D_ult _ L256); auto. Qed.
Lemma ugt256 a b : 0 <= a < 2 ^ 256 -> 0 <= b < 2 ^ 256 -> ugt (of256 a) (of256 b) = (b <? a).
Proof. intros. apply (D_ugt _ L256); auto. Qed.
Lemma uge256 a b : 0 <= a < 2 ^ 256 -> 0 <= b < 2 ^ 256 -> uge (of256 a) (of256 b) = (b <=? a).
Proof. intros. apply (D_uge _ L256); auto. Qed.
Lemma ueqb256 a b : 0 <= a < 2 ^ 256 -> 0 <= b < 2 ^ 256 -> ueqb (of256 a) (of256 b) = (a =? b).
Proof. intros. apply (L_eqb _ L256); auto. Qed.
Lemma ucmp256 a b : 0 <= a < 2 ^ 256 -> 0 <= b < 2 ^ 256 -> ucmp (of256 a) (of256 b) = (a ?= b).
Proof. intros. apply (L_cmp _ L256); auto. Qed.
Lemma incr256 a : 0 <= a -> a + 1 < 2 ^ 256 -> incr (of256 a) = of256 (a + 1).
Proof. intros. rewrite (L_incr _ L256), W by (rewrite W; lia). rewrite Z.mod_small by lia. reflexivity. Qed.
Lemma incr_if256 a b : 0 <= a -> a + 1 < 2 ^ 256 -> incr_if (of256 a) b = of256 (a + b2z b).
Proof.
  intros. rewrite (D_incr_if _ L256), W by (rewrite W; lia).
  rewrite Z.mod_small by (destruct b; cbn [b2z]; lia). reflexivity.
Qed.
Lemma lz256 a : 0 <= a < 2 ^ 256 -> leading_zeros (of256 a) = nlz 256 a.
Proof. intros. apply (L_lz _ L256); auto. Qed.
Lemma odd_lo a : 0 <= a -> is_odd (lo (of256 a)) = Z.odd a.
Proof.
  intros Ha. change (lo (of256 a)) with (of128 (a mod 2 ^ 128)).
  rewrite (L_odd _ L128). 2: { change (2 ^ BITS) with (2 ^ 128). apply Z.mod_pos_bound. lia. }
  rewrite !odd_mod. pose proof (mod_mod_pow a 1 128 ltac:(lia)) as E. change (2 ^ 1) with 2 in E. rewrite E. reflexivity.
Qed.
Lemma xlo_land a n : 0 <= n <= 128 -> Z.land (xlo (of256 a)) (2 ^ n - 1) = a mod 2 ^ n.
Proof. intros. rewrite land_pow2_ones by lia. rewrite xlo_of. apply mod_mod_pow; auto. Qed.

Lemma rem_pow2_256 a n : 0 <= a < 2 ^ 256 -> 0 <= n -> rem_pow2 (of256 a) n = Some (of256 (a mod 2 ^ n)).
Proof. intros. apply (rem_pow2_ok _ L128); auto. Qed.
Lemma rdp256 a n : 0 <= a < 2 ^ 256 -> 0 <= n < 256 ->
  rounding_div_pow2 (of256 a) n = Some (of256 (rne_div a (2 ^ n))).
Proof. intros. apply (rounding_div_pow2_ok _ L128 L256); auto. lia. Qed.

(** Comparisons of the high half with a constant decide comparisons of the whole. *)
Lemma xhi_ltb z k : 0 <= k -> (xhi (of256 z) <? k) = (z <? k * 2 ^ 128).
Proof.
  intros. rewrite xhi_of. pose proof (Z.div_mod z (2 ^ 128) ltac:(lia)). pose proof (Z.mod_pos_bound z (2 ^ 128) ltac:(lia)).
  destruct (Z.ltb_spec (z / 2 ^ 128) k), (Z.ltb_spec z (k * 2 ^ 128)); auto; lia.
Qed.
Lemma xhi_leb z k : 0 <= k -> (k <=? xhi (of256 z)) = (k * 2 ^ 128 <=? z).
Proof.
  intros. rewrite xhi_of. pose proof (Z.div_mod z (2 ^ 128) ltac:(lia)). pose proof (Z.mod_pos_bound z (2 ^ 128) ltac:(lia)).
  destruct (Z.leb_spec k (z / 2 ^ 128)), (Z.leb_spec (k * 2 ^ 128) z); auto; lia.
Qed.

Lemma bind_assoc {A B C} (m : option A) (k : A -> option B) (g : B -> option C) :
  bind (bind m k) g = bind m (fun a => bind (k a) g).
Proof. destruct m; reflexivity. Qed.

Lemma bind_eq {A B} (m : option A) (a : A) (k : A -> option B) r : m = Some a -> k a = r -> bind m k = r.
Proof. intros -> <-. reflexivity. Qed.

Lemma casts_ok r : - 2 ^ 31 <= r < 2 ^ 31 -> casts 32 r = r.
Proof. intros. unfold casts. apply wraps_ok. lia. exact H. Qed.

End F256Lemmas.

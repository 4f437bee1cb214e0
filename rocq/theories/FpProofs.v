(** * FpProofs: the fixed-point arithmetic of FP492 in terms of integers *)

From Coq Require Import ZArith Lia Bool.
From Verif Require Import Base BigUInt ZLemmas BigLaws BigUIntProofs BigExtra Spec SpecFns F256 Arith SpecLemmas
  F256Lemmas BasicProofs CodecProofs SosProofs Log.

(** The fixed-point number [V] in units of 2^-492 *)
Definition fpz {P : profile} (V : Z) : U512 := of512 (V mod 2 ^ 512).

(** The magnitude of a product: cut off at 2^-492, one more if the code rounds up *)
Definition mul_up (p : Z) : bool :=
  (2 ^ 491 <? p mod 2 ^ 492 - p mod 2 ^ 384)
  || ((p mod 2 ^ 492 - p mod 2 ^ 384 =? 2 ^ 491) && Z.odd (p / 2 ^ 492)
      || negb (p mod 2 ^ 384 =? 0)).
Definition mulr (p : Z) : Z := p / 2 ^ 492 + b2z (mul_up p).

Lemma mulr_spec p : 0 <= p -> 0 <= mulr p /\ 2 * (p - mulr p * 2 ^ 492) <= 2 ^ 492 /\ mulr p * 2 ^ 492 - p < 2 ^ 492.
Proof.
  intros Hp. unfold mulr, mul_up. pose proof (Z.mod_pos_bound p (2 ^ 384) ltac:(lia)).
  pose proof (Z.mod_pos_bound p (2 ^ 492) ltac:(lia)). pose proof (Z.div_mod p (2 ^ 492) ltac:(lia)).
  pose proof (Z.div_pos p (2 ^ 492) Hp ltac:(lia)).
  assert (p mod 2 ^ 384 <= p mod 2 ^ 492).
  { rewrite <- (mod_mod_pow p 384 492) by lia. apply Z.mod_le; lia. }
  change (2 ^ 491) with (2 ^ 492 / 2) in *.
  set (q := p / 2 ^ 492) in *. set (r := p mod 2 ^ 492) in *. set (t := p mod 2 ^ 384) in *.
  assert (HM : 2 ^ 492 = 2 * (2 ^ 492 / 2)) by reflexivity. set (m := 2 ^ 492 / 2) in *.
  assert (0 < m) by reflexivity. rewrite HM in *. clearbody q r t m. clear HM.
  destruct (Z.ltb_spec m (r - t)), (Z.eqb_spec t 0), (Z.eqb_spec (r - t) m); cbn [orb andb negb]; try destruct (Z.odd q);
    cbn [orb andb negb]; unfold b2z; lia.
Qed.

Lemma mulr_exact q : 0 <= q -> mulr (q * 2 ^ 492) = q.
Proof.
  intros Hq. unfold mulr, mul_up. rewrite Z.div_mul, Z.mod_mul by lia.
  assert ((q * 2 ^ 492) mod 2 ^ 384 = 0) as ->.
  { change (2 ^ 492) with (2 ^ 108 * 2 ^ 384). rewrite Z.mul_assoc. apply Z.mod_mul. lia. }
  change (0 - 0) with 0. change (2 ^ 491 <? 0) with false. change (0 =? 2 ^ 491) with false. change (0 =? 0) with true.
  cbn [andb orb negb b2z]. lia.
Qed.

Section Fp.
Context {P : profile}.

Lemma fpz_bound V : 0 <= V mod 2 ^ 512 < 2 ^ 512. Proof. apply Z.mod_pos_bound. lia. Qed.

Lemma fpz_pos V : 0 <= V < 2 ^ 512 -> fpz V = of512 V.
Proof. intros. unfold fpz. rewrite Z.mod_small by lia. reflexivity. Qed.

Lemma fpz_neg V : - 2 ^ 512 <= V < 0 -> fpz V = of512 (V + 2 ^ 512).
Proof. intros. unfold fpz. f_equal. apply (mod_eq _ _ (-1)); lia. Qed.

Lemma fp_signum_ok V : - 2 ^ 511 <= V < 2 ^ 511 -> fp_signum (fpz V) = Z.sgn V.
Proof.
  intros HV. unfold fp_signum. destruct (Z.lt_trichotomy V 0) as [C|[->|C]].
  - rewrite fpz_neg by lia. rewrite lz512 by lia. unfold nlz. destruct (Z.eqb_spec (V + 2 ^ 512) 0); [lia|].
    assert (Z.log2 (V + 2 ^ 512) = 511) as ->. { apply Z.log2_unique; [lia|]. change (2 ^ Z.succ 511) with (2 ^ 512). lia. }
    destruct V; try lia. reflexivity.
  - reflexivity.
  - rewrite fpz_pos by lia. rewrite lz512 by lia. unfold nlz. destruct (Z.eqb_spec V 0); [lia|].
    assert (Z.log2 V < 511) by (apply Z.log2_lt_pow2; lia). pose proof (Z.log2_nonneg V).
    destruct (Z.eqb_spec (512 - 1 - Z.log2 V) 0); [lia|]. destruct (Z.eqb_spec (512 - 1 - Z.log2 V) 512); [lia|].
    symmetry. apply Z.sgn_pos; lia.
Qed.

Lemma hihi a : val (hi (hi (of512 a))) = a / 2 ^ 384.
Proof. change (val (hi (hi (of512 a)))) with (a / 2 ^ 256 / 2 ^ 128). rewrite Z.div_div by lia. reflexivity. Qed.
Lemma lohi a : val (lo (hi (of512 a))) = (a / 2 ^ 256) mod 2 ^ 128.
Proof. reflexivity. Qed.
Lemma hilo a : val (hi (lo (of512 a))) = (a mod 2 ^ 256) / 2 ^ 128.
Proof. reflexivity. Qed.
Lemma lolo_ a : val (lo (lo (of512 a))) = (a mod 2 ^ 256) mod 2 ^ 128.
Proof. reflexivity. Qed.

Lemma fp_neg_ok V : - 2 ^ 511 <= V < 2 ^ 511 -> fp_is_sign_negative (fpz V) = (V <? 0).
Proof.
  intros HV. unfold fp_is_sign_negative, fpz. pose proof (fpz_bound V) as B. set (a := V mod 2 ^ 512) in *.
  assert (A : a = V \/ a = V + 2 ^ 512 /\ V < 0).
  { unfold a. destruct (Z.lt_ge_cases V 0); [right; split; auto; apply (mod_eq _ _ (-1)); lia|left; apply Z.mod_small; lia]. }
  clearbody a.
  assert (H : 0 <= a / 2 ^ 384 < 2 ^ 128). { apply div_bound; lia. }
  change (leading_zeros (hi (hi (of512 a)))) with (nlz 128 (val (hi (hi (of512 a))))). rewrite hihi.
  pose proof (Z.div_mod a (2 ^ 384) ltac:(lia)). pose proof (Z.mod_pos_bound a (2 ^ 384) ltac:(lia)).
  set (h := a / 2 ^ 384) in *. set (r := a mod 2 ^ 384) in *. clearbody h r.
  unfold nlz. destruct (Z.eqb_spec h 0).
  - symmetry. change (128 =? 0) with false. apply Z.ltb_ge. subst h. destruct A as [A|A]; lia.
  - pose proof (Z.log2_spec h ltac:(lia)) as [L1 L2]. rewrite <- Z.add_1_r in L2. pose proof (Z.log2_nonneg h).
    assert (Z.log2 h < 128) by (apply Z.log2_lt_pow2; lia).
    destruct (Z.eqb_spec (128 - 1 - Z.log2 h) 0); symmetry; [apply Z.ltb_lt|apply Z.ltb_ge].
    + replace (Z.log2 h) with 127 in * by lia. lia.
    + assert (2 ^ (Z.log2 h + 1) <= 2 ^ 127) by (apply pow2_le; lia). lia.
Qed.

Lemma lxor_ones x n : 0 <= n -> 0 <= x < 2 ^ n -> Z.lxor x (2 ^ n - 1) = 2 ^ n - 1 - x.
Proof.
  intros Hn Hx. symmetry. rewrite Z.sub_nocarry_ldiff.
  2: { apply Z.bits_inj'. intros k Hk. rewrite Z.ldiff_spec, Z.bits_0.
       destruct (Z.lt_ge_cases k n).
       - replace (2 ^ n - 1) with (Z.ones n) by (rewrite Z.ones_equiv; lia). rewrite Z.ones_spec_low by lia. rewrite andb_false_r. auto.
       - assert (Z.testbit x k = false) as ->; [|auto]. destruct (Z.eq_dec x 0) as [->|]; [apply Z.bits_0|].
         apply Z.bits_above_log2; [lia|]. apply Z.log2_lt_pow2. lia. apply Z.lt_le_trans with (2 ^ n); [lia|]. apply pow2_le; lia. }
  replace (2 ^ n - 1) with (Z.ones n) by (rewrite Z.ones_equiv; lia).
  apply Z.bits_inj'. intros k Hk. rewrite Z.ldiff_spec, Z.lxor_spec. destruct (Z.lt_ge_cases k n).
  - rewrite Z.ones_spec_low by lia. destruct (Z.testbit x k); reflexivity.
  - rewrite Z.ones_spec_high by lia. assert (Z.testbit x k = false) as ->; [|auto]. destruct (Z.eq_dec x 0) as [->|]; [apply Z.bits_0|].
    apply Z.bits_above_log2; [lia|]. apply Z.log2_lt_pow2. lia. apply Z.lt_le_trans with (2 ^ n); [lia|]. apply pow2_le; lia.
Qed.

Lemma fp_new_of a b c d : 0 <= b < 2 ^ 128 -> 0 <= c < 2 ^ 128 -> 0 <= d < 2 ^ 128 ->
  fp_new a b c d = of512 (a * 2 ^ 384 + b * 2 ^ 256 + c * 2 ^ 128 + d).
Proof.
  intros. unfold fp_new. rewrite !u256_of by lia. rewrite of512_join by lia. f_equal.
  change (2 ^ 384) with (2 ^ 128 * 2 ^ 256). lia.
Qed.

Lemma fp_invert_ok a : 0 <= a < 2 ^ 512 -> fp_invert (of512 a) = of512 (2 ^ 512 - 1 - a).
Proof.
  intros Ha. unfold fp_invert. rewrite hihi, lohi, hilo, lolo_.
  assert (0 <= a / 2 ^ 384 < 2 ^ 128) by (apply div_bound; lia).
  pose proof (Z.mod_pos_bound (a / 2 ^ 256) (2 ^ 128) ltac:(lia)).
  pose proof (Z.mod_pos_bound a (2 ^ 256) ltac:(lia)).
  pose proof (Z.mod_pos_bound (a mod 2 ^ 256) (2 ^ 128) ltac:(lia)).
  assert (0 <= a mod 2 ^ 256 / 2 ^ 128 < 2 ^ 128) by (apply div_bound; lia).
  rewrite !lxor_ones by lia. rewrite fp_new_of by lia. f_equal.
  pose proof (Z.div_mod a (2 ^ 256) ltac:(lia)). pose proof (Z.div_mod (a / 2 ^ 256) (2 ^ 128) ltac:(lia)).
  pose proof (Z.div_mod (a mod 2 ^ 256) (2 ^ 128) ltac:(lia)).
  rewrite Z.div_div in H5 by lia. change (2 ^ 256 * 2 ^ 128) with (2 ^ 384) in H5. lia.
Qed.

Lemma fp_ineg_ok V : fp_ineg (fpz V) = fpz (- V).
Proof.
  unfold fp_ineg, fpz. pose proof (fpz_bound V) as B. rewrite (L_decr _ L512) by (exact B). change (2 ^ BITS) with (2 ^ 512).
  rewrite fp_invert_ok by (apply Z.mod_pos_bound; lia). f_equal.
  rewrite Zminus_mod_idemp_l.
  pose proof (Z.div_mod (V - 1) (2 ^ 512) ltac:(lia)). pose proof (Z.mod_pos_bound (V - 1) (2 ^ 512) ltac:(lia)).
  symmetry. apply (mod_eq _ _ (- ((V - 1) / 2 ^ 512) - 1)); lia.
Qed.

Lemma fp_iabs_ok V : - 2 ^ 511 < V < 2 ^ 511 -> fp_iabs (fpz V) = of512 (Z.abs V).
Proof.
  intros. unfold fp_iabs. rewrite fp_neg_ok by lia. destruct (Z.ltb_spec V 0).
  - rewrite fp_ineg_ok. rewrite fpz_pos by lia. f_equal. lia.
  - rewrite fpz_pos by lia. f_equal. lia.
Qed.

Lemma fp_mul_ok a b : - 2 ^ 511 < a < 2 ^ 511 -> - 2 ^ 511 < b < 2 ^ 511 -> Z.abs (a * b) < 2 ^ 1003 ->
  fp_imul_round (fpz a) (fpz b) = Some (fpz (Z.sgn a * Z.sgn b * mulr (Z.abs (a * b)))).
Proof.
  intros Ha Hb Hab. unfold fp_imul_round. rewrite !fp_signum_ok by lia.
  rewrite muls_ok by (pose proof (Z.sgn_spec a); pose proof (Z.sgn_spec b); change (32 - 1) with 31; nia).
  rewrite bind_Some. rewrite !fp_iabs_ok by lia. rewrite Z.abs_mul in *.
  set (A := Z.abs a) in *. set (B := Z.abs b) in *. assert (HA : 0 <= A < 2 ^ 511) by lia. assert (HB : 0 <= B < 2 ^ 511) by lia.
  set (sg := Z.sgn a * Z.sgn b) in *.
  assert (Hsg : (sg = 0 -> A * B = 0) /\ (sg = 0 \/ sg = 1 \/ sg = -1)).
  { pose proof (Z.sgn_spec a). pose proof (Z.sgn_spec b). split; [|nia]. unfold A, B. intros. nia. }
  clearbody A B sg. clear a b Ha Hb.
  rewrite (L_wmul _ L512) by (change (2 ^ BITS) with (2 ^ 512); lia). change (2 ^ BITS) with (2 ^ 512). rewrite bind_Some.
  set (p := A * B) in *. assert (Hp : 0 <= p < 2 ^ 1003) by (unfold p in *; nia). clearbody p. clear A B HA HB Hab.
  change 1 with (2 ^ 1 - 1) at 1. rewrite land_pow2_ones by lia. change (2 ^ 1) with 2.
  pose proof (Z.mod_pos_bound p (2 ^ 512) ltac:(lia)) as HL.
  assert (HH : 0 <= p / 2 ^ 512 < 2 ^ 491) by (apply div_bound; lia).
  rewrite hihi, lohi. unfold shrc, shlc. change (128 - 20) with 108.
  change (lo (of512 (p mod 2 ^ 512))) with (of256 ((p mod 2 ^ 512) mod 2 ^ 256)).
  rewrite is_zero256 by (apply Z.mod_pos_bound; lia). rewrite mod_mod_pow by lia.
  rewrite Z.div_div by lia. change (2 ^ 384 * 2 ^ 108) with (2 ^ 492).
  set (c := (p mod 2 ^ 512) / 2 ^ 492). assert (Hc : 0 <= c < 2 ^ 20) by (apply div_bound; lia).
  assert (E1 : p / 2 ^ 492 = (p / 2 ^ 512) * 2 ^ 20 + c).
  { pose proof (Z.div_mod p (2 ^ 512) ltac:(lia)). pose proof (Z.div_mod (p mod 2 ^ 512) (2 ^ 492) ltac:(lia)).
    apply (div_eq _ _ _ ((p mod 2 ^ 512) mod 2 ^ 492)). unfold c. lia. apply Z.mod_pos_bound; lia. }
  assert (Em : (p mod 2 ^ 512) mod 2 ^ 492 = p mod 2 ^ 492) by (apply mod_mod_pow; lia).
  assert (E2 : (p mod 2 ^ 512 / 2 ^ 384 * 2 ^ 20) mod 2 ^ 128 * 2 ^ 364 = p mod 2 ^ 492 - p mod 2 ^ 384).
  { rewrite shl_mod by lia. change (128 - 20) with 108.
    rewrite <- (Z.mul_assoc _ (2 ^ 20)). change (2 ^ 20 * 2 ^ 364) with (2 ^ 384).
    rewrite <- (div_mod_pow _ 384 108) by lia. change (2 ^ (384 + 108)) with (2 ^ 492). rewrite Em.
    pose proof (Z.div_mod (p mod 2 ^ 492) (2 ^ 384) ltac:(lia)) as D. rewrite mod_mod_pow in D by lia. lia. }
  assert (E3 : (negb ((p mod 2 ^ 512 / 2 ^ 256) mod 2 ^ 128 =? 0) || negb (p mod 2 ^ 256 =? 0)) = negb (p mod 2 ^ 384 =? 0)).
  { rewrite <- (div_mod_pow _ 256 128) by lia. change (2 ^ (256 + 128)) with (2 ^ 384). rewrite mod_mod_pow by lia.
    pose proof (Z.div_mod (p mod 2 ^ 384) (2 ^ 256) ltac:(lia)) as D. rewrite mod_mod_pow in D by lia.
    pose proof (Z.mod_pos_bound p (2 ^ 384) ltac:(lia)). pose proof (Z.mod_pos_bound p (2 ^ 256) ltac:(lia)).
    pose proof (Z.div_pos (p mod 2 ^ 384) (2 ^ 256) ltac:(lia) ltac:(lia)).
    destruct (Z.eqb_spec (p mod 2 ^ 384 / 2 ^ 256) 0), (Z.eqb_spec (p mod 2 ^ 256) 0), (Z.eqb_spec (p mod 2 ^ 384) 0); cbn [negb orb]; lia. }
  set (rh := (p mod 2 ^ 512 / 2 ^ 384 * 2 ^ 20) mod 2 ^ 128) in *.
  assert (E4 : (c mod 2 =? 1) = Z.odd (p / 2 ^ 492)).
  { rewrite <- odd_mod, E1. change (2 ^ 20) with (2 * 2 ^ 19). rewrite Z.odd_add, Z.mul_assoc, (Z.mul_comm _ 2), <- Z.mul_assoc, Z.odd_mul.
    cbn [Z.odd andb xorb]. destruct (Z.odd c); reflexivity. }
  rewrite E4, <- orb_assoc, E3.
  replace (2 ^ 127 <? rh) with (2 ^ 491 <? p mod 2 ^ 492 - p mod 2 ^ 384) by (rewrite <- E2; clear - rh; destruct (Z.ltb_spec (2 ^ 127) rh); [apply Z.ltb_lt|apply Z.ltb_ge]; lia).
  replace (rh =? 2 ^ 127) with (p mod 2 ^ 492 - p mod 2 ^ 384 =? 2 ^ 491) by (rewrite <- E2; clear - rh; destruct (Z.eqb_spec rh (2 ^ 127)); [apply Z.eqb_eq|apply Z.eqb_neq]; lia).
  fold (mul_up p). pose proof (b2z_01 (mul_up p)) as Hb.
  rewrite addu_ok by lia. rewrite bind_Some.
  rewrite (L_shl _ L512) by (change (2 ^ BITS) with (2 ^ 512); change BITS with 512; lia). change (2 ^ BITS) with (2 ^ 512). rewrite bind_Some.
  rewrite (Z.mod_small (p / 2 ^ 512 * 2 ^ 20)) by lia. set (H20 := p / 2 ^ 512 * 2 ^ 20) in *.
  assert (HB : 0 <= H20 <= 2 ^ 511 - 2 ^ 20) by (unfold H20; lia).
  change (lo (of512 H20)) with (of256 (H20 mod 2 ^ 256)). change (hi (of512 H20)) with (of256 (H20 / 2 ^ 256)).
  rewrite u256_of by lia. rewrite Z.mul_0_l, Z.add_0_l.
  pose proof (Z.mod_pos_bound H20 (2 ^ 256) ltac:(lia)) as HM. assert (HD : 0 <= H20 / 2 ^ 256 < 2 ^ 255) by (apply div_bound; lia).
  pose proof (Z.div_mod H20 (2 ^ 256) ltac:(lia)) as DM.
  rewrite (L_oadd _ L256) by (change (2 ^ BITS) with (2 ^ 256); lia). change (2 ^ BITS) with (2 ^ 256).
  rewrite incr_if256 by lia.
  assert (R : mk (of256 (H20 / 2 ^ 256 + b2z (2 ^ 256 <=? H20 mod 2 ^ 256 + (c + b2z (mul_up p)))))
                 (of256 ((H20 mod 2 ^ 256 + (c + b2z (mul_up p))) mod 2 ^ 256)) = of512 (mulr p)).
  { rewrite of512_join by (apply Z.mod_pos_bound; lia). f_equal. unfold mulr. rewrite E1.
    set (s := H20 mod 2 ^ 256 + (c + b2z (mul_up p))) in *. assert (Hs : 0 <= s < 2 * 2 ^ 256) by (unfold s; lia).
    destruct (Z.leb_spec (2 ^ 256) s).
    - rewrite (mod_eq s _ 1 (s - 2 ^ 256)) by lia. unfold b2z at 1. unfold s in *. lia.
    - rewrite (Z.mod_small s) by lia. unfold b2z at 1. unfold s in *. lia. }
  transitivity (Some (if sg <? 0 then fp_ineg (of512 (mulr p)) else of512 (mulr p))). { rewrite <- R. reflexivity. }
  pose proof (mulr_spec p ltac:(lia)) as (M0 & _ & M1).
  assert (M2 : mulr p < 2 ^ 512) by (unfold mulr; lia).
  f_equal. destruct Hsg as [S0 [S|[S|S]]]; rewrite S; cbn [Z.ltb Z.compare].
  - rewrite (S0 S). change (mulr 0) with 0. reflexivity.
  - rewrite Z.mul_1_l, fpz_pos by lia. reflexivity.
  - rewrite <- (fpz_pos (mulr p)) by lia. rewrite fp_ineg_ok. f_equal.
Qed.

Lemma fp_add_ok a b : fp_add (fpz a) (fpz b) = fpz (a + b).
Proof.
  unfold fp_add, fpz. rewrite (Zplus_mod a b). pose proof (fpz_bound a) as Ha. pose proof (fpz_bound b) as Hb.
  set (x := a mod 2 ^ 512) in *. set (y := b mod 2 ^ 512) in *. clearbody x y.
  change (lo (of512 x)) with (of256 (x mod 2 ^ 256)). change (hi (of512 x)) with (of256 (x / 2 ^ 256)).
  change (lo (of512 y)) with (of256 (y mod 2 ^ 256)). change (hi (of512 y)) with (of256 (y / 2 ^ 256)).
  pose proof (Z.mod_pos_bound x (2 ^ 256) ltac:(lia)). pose proof (Z.mod_pos_bound y (2 ^ 256) ltac:(lia)).
  assert (0 <= x / 2 ^ 256 < 2 ^ 256) by (apply div_bound; lia). assert (0 <= y / 2 ^ 256 < 2 ^ 256) by (apply div_bound; lia).
  pose proof (Z.div_mod x (2 ^ 256) ltac:(lia)). pose proof (Z.div_mod y (2 ^ 256) ltac:(lia)).
  rewrite (L_oadd _ L256) by (change (2 ^ BITS) with (2 ^ 256); lia). change (2 ^ BITS) with (2 ^ 256).
  rewrite (D_carrying_add _ L256) by (change (2 ^ BITS) with (2 ^ 256); lia). change (2 ^ BITS) with (2 ^ 256).
  rewrite of512_join by (apply Z.mod_pos_bound; lia). f_equal.
  set (xl := x mod 2 ^ 256) in *. set (yl := y mod 2 ^ 256) in *. set (xh := x / 2 ^ 256) in *. set (yh := y / 2 ^ 256) in *.
  clearbody xl yl xh yh. subst x y.
  set (cc := b2z (2 ^ 256 <=? xl + yl)). assert (Hcc : (xl + yl) mod 2 ^ 256 = xl + yl - cc * 2 ^ 256).
  { unfold cc. destruct (Z.leb_spec (2 ^ 256) (xl + yl)); cbn [b2z].
    - apply (mod_eq _ _ 1); lia. - rewrite Z.mod_small by lia. lia. }
  assert (0 <= (xl + yl) mod 2 ^ 256 < 2 ^ 256) by (apply Z.mod_pos_bound; lia).
  pose proof (Z.div_mod (xh + yh + cc) (2 ^ 256) ltac:(lia)). pose proof (Z.mod_pos_bound (xh + yh + cc) (2 ^ 256) ltac:(lia)).
  set (q := (xh + yh + cc) / 2 ^ 256) in *. set (r := (xh + yh + cc) mod 2 ^ 256) in *. rewrite Hcc in *.
  change (2 ^ 512) with (2 ^ 256 * 2 ^ 256). clearbody q r cc. clear - H H0 H1 H2 H3 H4 H5. set (M := 2 ^ 256) in *.
  assert (0 < M) by reflexivity. clearbody M. symmetry. apply (mod_eq _ _ q); nia.
Qed.

Lemma lxor_top h : 0 <= h < 2 ^ 128 -> Z.lxor h (2 ^ 127) = (h + 2 ^ 127) mod 2 ^ 128.
Proof.
  intros Hh. destruct (Z.lt_ge_cases h (2 ^ 127)).
  - rewrite <- Z.add_nocarry_lxor. rewrite Z.mod_small by lia. reflexivity.
    rewrite Z.land_comm. change (2 ^ 127) with (1 * 2 ^ 127).
    replace h with (0 * 2 ^ 127 + h) by lia. rewrite (Z.land_comm).
    replace (1 * 2 ^ 127) with (1 * 2 ^ 127 + 0) by lia. rewrite land_split by lia. rewrite Z.land_0_l, Z.land_0_r. reflexivity.
  - replace h with ((h - 2 ^ 127) + 2 ^ 127) at 1 by lia. rewrite Z.add_nocarry_lxor.
    rewrite Z.lxor_assoc, Z.lxor_nilpotent, Z.lxor_0_r. symmetry. apply (mod_eq _ _ 1); lia.
    replace (h - 2 ^ 127) with (0 * 2 ^ 127 + (h - 2 ^ 127)) by lia. change (2 ^ 127) with (1 * 2 ^ 127 + 0) at 3.
    rewrite land_split by lia. rewrite Z.land_0_l, Z.land_0_r. reflexivity.
Qed.

Lemma flip_ok V : - 2 ^ 511 <= V < 2 ^ 511 ->
  mk (u256 (Z.lxor (val (hi (hi (fpz V)))) (2 ^ 127)) (val (lo (hi (fpz V))))) (lo (fpz V)) = of512 (V + 2 ^ 511).
Proof.
  intros HV. unfold fpz. pose proof (fpz_bound V) as B.
  assert (A : V mod 2 ^ 512 = V \/ V mod 2 ^ 512 = V + 2 ^ 512 /\ V < 0).
  { destruct (Z.lt_ge_cases V 0); [right; split; auto; apply (mod_eq _ _ (-1)); lia|left; apply Z.mod_small; lia]. }
  set (a := V mod 2 ^ 512) in *. clearbody a. rewrite hihi, lohi.
  assert (H : 0 <= a / 2 ^ 384 < 2 ^ 128) by (apply div_bound; lia).
  rewrite lxor_top by auto. pose proof (Z.mod_pos_bound (a / 2 ^ 256) (2 ^ 128) ltac:(lia)).
  rewrite u256_of by lia. change (lo (of512 a)) with (of256 (a mod 2 ^ 256)).
  pose proof (Z.mod_pos_bound a (2 ^ 256) ltac:(lia)). rewrite of512_join by lia. f_equal.
  pose proof (Z.div_mod a (2 ^ 256) ltac:(lia)). pose proof (Z.div_mod (a / 2 ^ 256) (2 ^ 128) ltac:(lia)) as D.
  rewrite Z.div_div in D by lia. change (2 ^ 256 * 2 ^ 128) with (2 ^ 384) in D.
  set (h := a / 2 ^ 384) in *. set (m := (a / 2 ^ 256) mod 2 ^ 128) in *. set (l := a mod 2 ^ 256) in *.
  rewrite D in H2. clear D. clearbody h m l.
  destruct A as [A|[A A']].
  - assert (h < 2 ^ 127) by lia. rewrite Z.mod_small by lia. lia.
  - assert (2 ^ 127 <= h) by lia. rewrite (mod_eq _ _ 1 (h - 2 ^ 127)) by lia. lia.
Qed.

Lemma fp_cmp_ok a b : - 2 ^ 511 <= a < 2 ^ 511 -> - 2 ^ 511 <= b < 2 ^ 511 -> fp_cmp (fpz a) (fpz b) = (a ?= b).
Proof.
  intros. unfold fp_cmp. rewrite !flip_ok by lia. rewrite (L_cmp _ L512) by (change (2 ^ BITS) with (2 ^ 512); lia).
  rewrite (Z.add_comm a), (Z.add_comm b). apply Zcompare_plus_compat.
Qed.

Lemma fp_of_i32_ok e : Z.abs e < 2 ^ 19 -> fp_of_i32 e = Some (fpz (e * 2 ^ 492)).
Proof.
  intros He. unfold fp_of_i32. rewrite dassert_ok by (apply Z.ltb_lt; lia). rewrite bind_Some. f_equal.
  unfold shlc, FP_HI_FRACTION_BITS. rewrite Z.mod_small by lia. rewrite fp_new_of by lia.
  replace (of512 (Z.abs e * 2 ^ 108 * 2 ^ 384 + 0 * 2 ^ 256 + 0 * 2 ^ 128 + 0)) with (fpz (Z.abs e * 2 ^ 492)).
  2: { rewrite fpz_pos by lia. f_equal. change (2 ^ 492) with (2 ^ 108 * 2 ^ 384). lia. }
  destruct (Z.ltb_spec e 0). rewrite fp_ineg_ok. f_equal. lia. f_equal. lia.
Qed.

(** ** The conversion to f256 *)

Lemma small512 a : 0 <= a < 2 ^ 256 -> lo (of512 a) = of256 a.
Proof. intros. change (lo (of512 a)) with (of256 (a mod 2 ^ 256)). rewrite Z.mod_small by lia. reflexivity. Qed.

Lemma fp_rnd k A L : k = 261886 -> 0 < A -> 2 ^ L <= A < 2 ^ (L + 1) -> 0 <= L ->
  rnd_mag (A * 2 ^ k) 1 = Z.min INFm ((L + 261650) * 2 ^ 236 +
    (if 236 <=? L then rne_div A (2 ^ (L - 236)) else A * 2 ^ (236 - L))).
Proof.
  intros Hk HA HL HL0.
  pose proof (rnd_scaled_at A k L (L + 261650) ltac:(lia) HL HL0 ltac:(lia) ltac:(lia)) as R.
  rewrite (Z.max_r 0 k), (Z.max_l 0 (- k)) in R by lia. change (2 ^ 0) with 1 in R. rewrite R. clear R.
  f_equal. f_equal. replace (k <=? L + 261650) with (236 <=? L) by (destruct (Z.leb_spec 236 L); symmetry; [apply Z.leb_le|apply Z.leb_gt]; lia).
  replace (L + 261650 - k) with (L - 236) by lia. replace (k - (L + 261650)) with (236 - L) by lia. reflexivity.
Qed.

Lemma f256_of_fp_ok V : - 2 ^ 511 < V < 2 ^ 511 ->
  f256_of_fp (fpz V) = Some (of256 (rnd_signed 0 (V * 2 ^ (UNITe - 492)) 1)).
Proof.
  intros HV. unfold f256_of_fp. rewrite fp_signum_ok by lia. unfold rnd_signed.
  destruct (Z.eq_dec V 0) as [->|HV0]. { rewrite Z.mul_0_l. reflexivity. }
  assert (Hs : shrc (castu 32 (Z.sgn V)) 31 = if V <? 0 then 1 else 0).
  { destruct V as [|v|v]; [lia|reflexivity|reflexivity]. }
  rewrite Hs. change (UNITe - 492) with 261886.
  set (s := if V <? 0 then 1 else 0). assert (Hs01 : s = 0 \/ s = 1) by (unfold s; destruct (V <? 0); lia).
  assert (HA : (if s =? 0 then fpz V else fp_ineg (fpz V)) = of512 (Z.abs V)).
  { unfold s. destruct (Z.ltb_spec V 0); cbn [Z.eqb].
    - rewrite fp_ineg_ok, fpz_pos by lia. f_equal. lia.
    - rewrite fpz_pos by lia. f_equal. lia. }
  rewrite HA. clear HA Hs.
  assert (HN : (V * 2 ^ 261886 =? 0) = false /\ (if V * 2 ^ 261886 <? 0 then 1 else 0) = s
               /\ Z.abs (V * 2 ^ 261886) = Z.abs V * 2 ^ 261886).
  { pose proof (pow2_pos 261886 ltac:(lia)) as PK. set (K := 2 ^ 261886) in *. clearbody K. unfold s. clear s Hs01.
    split; [apply Z.eqb_neq; nia|]. split; [|rewrite Z.abs_mul; f_equal; lia].
    destruct (Z.ltb_spec (V * K) 0), (Z.ltb_spec V 0); try reflexivity; nia. }
  destruct HN as (-> & -> & ->). set (A := Z.abs V). assert (HA : 0 < A < 2 ^ 511) by (unfold A; lia).
  clearbody A s. clear V HV HV0.
  pose proof (fun L => fp_rnd 261886 A L eq_refl (proj1 HA)) as HR0. set (R := rnd_mag (A * 2 ^ 261886) 1) in *. clearbody R.
  rewrite lz512 by lia. unfold nlz. destruct (Z.eqb_spec A 0); [lia|].
  pose proof (Z.log2_spec A ltac:(lia)) as HL. rewrite <- Z.add_1_r in HL. pose proof (Z.log2_nonneg A) as HL0.
  assert (HL1 : Z.log2 A < 511) by (apply Z.log2_lt_pow2; lia).
  set (L := Z.log2 A) in *. clearbody L. change (512 - 1) with 511.
  rewrite casts_ok by lia. unfold FP_INT_BITS. rewrite subs_ok by (change (32 - 1) with 31; lia). rewrite bind_Some.
  rewrite (HR0 L HL HL0). clear HR0 R. unfold EXP_BITS.
  assert (FIN : forall q, 2 ^ 236 <= q < 2 ^ 237 ->
    new s (L - 492) (of256 q) = Some (of256 (mkf s (Z.min INFm ((L + 261650) * 2 ^ 236 + q))))).
  { intros q Hq. rewrite new_ok by lia. f_equal. apply of256_ext. f_equal.
    rewrite (mod_eq q _ 1 (q - 2 ^ 236)) by lia. rewrite Z.min_r by (unfold INFm; lia). lia. }
  destruct (Z.leb_spec (511 - L) 274).
  - rewrite (leb_true 236 L) by lia. rewrite subu_ok by lia. rewrite bind_Some. replace (275 - (511 - L)) with (L - 236) by lia.
    rewrite (rounding_div_pow2_ok of256 L256 L512 A (L - 236)); [|change (2 * BITS) with 512; lia..].
    rewrite bind_Some. pose proof (pow2_pos (L - 236) ltac:(lia)) as PN.
    assert (Q1 : 2 ^ 236 <= rne_div A (2 ^ (L - 236))).
    { apply rne_div_ge_bound; auto. rewrite <- pow2_add by lia. replace (236 + (L - 236)) with L by lia. lia. }
    assert (Q2 : rne_div A (2 ^ (L - 236)) <= 2 ^ 237).
    { apply rne_div_le_bound; auto. rewrite <- pow2_add by lia. replace (237 + (L - 236)) with (L + 1) by lia. lia. }
    set (q := rne_div A (2 ^ (L - 236))) in *. clearbody q.
    rewrite small512 by lia. rewrite lz_log2 by lia.
    destruct (Z.eq_dec q (2 ^ 237)) as [->|Hq].
    + change (255 - Z.log2 (2 ^ 237)) with 18. rewrite subu_ok by lia. change (19 - 18) with 1. rewrite bind_Some.
      rewrite shr256 by lia. rewrite bind_Some. change (casts 32 1) with 1.
      rewrite adds_ok by (change (32 - 1) with 31; lia). rewrite bind_Some.
      change (2 ^ 237 / 2 ^ 1) with (2 ^ 236). rewrite new_ok by lia. f_equal. apply of256_ext. f_equal.
      rewrite Z.min_r by (unfold INFm; lia). rewrite Z.mod_same by lia. lia.
    + assert (Z.log2 q = 236) as ->. { apply Z.log2_unique; [lia|]. change (2 ^ Z.succ 236) with (2 ^ 237). lia. }
      change (255 - 236) with 19. rewrite subu_ok by lia. change (19 - 19) with 0. rewrite bind_Some.
      rewrite shr256 by lia. rewrite bind_Some. change (casts 32 0) with 0. change (2 ^ 0) with 1. rewrite Z.div_1_r.
      rewrite adds_ok by (change (32 - 1) with 31; lia). rewrite bind_Some.
      replace (19 - (511 - L) + 0) with (L - 492) by lia. apply FIN. lia.
  - replace (19 - (511 - L)) with (L - 492) by lia. destruct (Z.eqb_spec (511 - L) 275).
    + assert (L = 236) by lia. subst L. change (236 <=? 236) with true. cbn match. change (236 - 236) with 0. change (2 ^ 0) with 1.
      rewrite rne_div_1. change (2 ^ (236 + 1)) with (2 ^ 237) in HL. rewrite small512 by lia. apply FIN. lia.
    + rewrite (leb_true (511 - L) 511) by lia. rewrite (leb_false 236 L) by lia. rewrite subu_ok by lia. rewrite bind_Some.
      replace (511 - L - 275) with (236 - L) by lia. pose proof (pow2_pos (236 - L) ltac:(lia)).
      assert (HB : 2 ^ 236 <= A * 2 ^ (236 - L) < 2 ^ 237).
      { replace 236 with (L + (236 - L)) at 1 by lia. replace 237 with ((L + 1) + (236 - L)) by lia. rewrite (pow2_add L), (pow2_add (L + 1)) by lia.
        split; [apply Z.mul_le_mono_nonneg_r; lia|]. apply Z.mul_lt_mono_pos_r; lia. }
      rewrite (L_shl _ L512) by (change (2 ^ BITS) with (2 ^ 512); change BITS with 512; lia). change (2 ^ BITS) with (2 ^ 512).
      rewrite bind_Some, Z.mod_small by lia. rewrite small512 by lia. apply FIN. lia.
Qed.

End Fp.

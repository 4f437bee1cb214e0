(** * SpecFlocq: the specification agrees with Flocq's formalisation of IEEE 754 *)

From Coq Require Import ZArith Bool Lia Reals Lra.
From Flocq Require Import Core IEEE754.BinarySingleNaN.
From Flocq Require IEEE754.Binary IEEE754.Bits.
From Verif Require Import Base ZLemmas Spec SpecLemmas SpecProps F256Lemmas BasicProofs SqrtProofs.
Open Scope Z_scope.

#[global] Instance prec_pos : Prec_gt_0 237. Proof. reflexivity. Qed.
#[global] Instance prec_emax : Prec_lt_emax 237 262144. Proof. reflexivity. Qed.

Notation binary256 := (binary_float 237 262144).
Notation fexp256 := (SpecFloat.fexp 237 262144).

(** The datum with the bits [v], decoded by Flocq *)
Definition b256 (v : Z) : binary256 := Binary.B2BSN 237 262144 (Bits.binary_float_of_bits 236 19 eq_refl eq_refl eq_refl v).

(** The value of [n] units *)
Definition units (n : Z) : R := (IZR n * bpow radix2 (-262378))%R.

Lemma aux_of v : b256 v = Binary.B2BSN 237 262144 (Binary.FF2B 237 262144 (Bits.binary_float_of_bits_aux 236 19 v)
   (Bits.binary_float_of_bits_aux_correct 236 19 eq_refl eq_refl eq_refl v)).
Proof. reflexivity. Qed.

Lemma split_bits_v v : 0 <= v < 2 ^ 256 ->
  Bits.split_bits 236 19 v = (sgn v =? 1, mag v mod 2 ^ 236, mag v / 2 ^ 236).
Proof.
  intros Hv. unfold Bits.split_bits. cbv zeta.
  pose proof (sgn_bound v Hv) as S. pose proof (mag_bound v) as M. pose proof (sgn_mag v) as E.
  assert (D1 : (v / 2 ^ 236) mod 2 ^ 19 = mag v / 2 ^ 236).
  { unfold mag. change (2 ^ 255) with (2 ^ (236 + 19)). rewrite div_mod_pow by lia. reflexivity. }
  assert (D2 : v mod 2 ^ 236 = mag v mod 2 ^ 236).
  { unfold mag. apply Znumtheory.Zmod_div_mod; [lia|lia|]. exists (2 ^ 19). reflexivity. }
  rewrite D1, D2. f_equal. f_equal. change (2 ^ 236 * 2 ^ 19) with (2 ^ 255).
  destruct (Z.leb_spec (2 ^ 255) v), (Z.eqb_spec (sgn v) 1); auto; exfalso; unfold mkf in *; lia.
Qed.

Lemma b256_finite v : 0 <= v < 2 ^ 256 -> finb v = true ->
  is_finite (b256 v) = true /\ B2R (b256 v) = units (sval v) /\ Bsign (b256 v) = (sgn v =? 1).
Proof.
  intros Hv F. rewrite aux_of.
  rewrite Binary.is_finite_B2BSN, Binary.B2R_B2BSN, Binary.is_finite_FF2B, Binary.B2R_FF2B.
  assert (G : Binary.is_finite_FF (Bits.binary_float_of_bits_aux 236 19 v) = true
     /\ Binary.FF2R radix2 (Bits.binary_float_of_bits_aux 236 19 v) = units (sval v)
     /\ Binary.sign_FF (Bits.binary_float_of_bits_aux 236 19 v) = (sgn v =? 1)).
  { unfold Bits.binary_float_of_bits_aux. rewrite split_bits_v by auto.
    unfold finb in F. apply Z.ltb_lt in F. unfold INFm in F. pose proof (mag_bound v) as M.
    pose proof (sgn_bound v Hv) as S.
    pose proof (Z.div_mod (mag v) (2 ^ 236) ltac:(lia)) as D. pose proof (Z.mod_pos_bound (mag v) (2 ^ 236) ltac:(lia)) as B.
    assert (Q : 0 <= mag v / 2 ^ 236 < 524287) by (split; [apply Z.div_pos; lia|apply Z.div_lt_upper_bound; lia]).
    unfold sval. unfold mag_val. set (q := mag v / 2 ^ 236) in *. set (r := mag v mod 2 ^ 236) in *.
    assert (SG : forall m, 0 <= m -> IZR ((1 - 2 * sgn v) * m) = IZR (cond_Zopp (sgn v =? 1) m)).
    { intros m _. f_equal. unfold cond_Zopp. destruct (Z.eqb_spec (sgn v) 1) as [E|E]; [rewrite E; lia|].
      replace (sgn v) with 0 by lia. lia. }
    destruct (Zeq_bool q 0) eqn:E0.
    - apply Zeq_bool_eq in E0. assert (L : mag v <? 2 ^ 236 = true) by (apply Z.ltb_lt; lia). rewrite L.
      assert (Er : mag v = r) by lia. rewrite Er. clearbody r. destruct r as [|p|p]; [| |lia].
      + split; [reflexivity|]. split; [|reflexivity]. cbn [Binary.FF2R]. unfold units. rewrite Z.mul_0_r. lra.
      + split; [reflexivity|]. split; [|reflexivity]. cbn [Binary.FF2R]. unfold units. rewrite SG by lia. reflexivity.
    - apply Zeq_bool_neq in E0. destruct (Zeq_bool q (2 ^ 19 - 1)) eqn:E1; [apply Zeq_bool_eq in E1; lia|]. clear E1.
      assert (L : mag v <? 2 ^ 236 = false) by (apply Z.ltb_ge; lia). rewrite L.
      clearbody r. destruct (r + 2 ^ 236) as [|p|p] eqn:Ep; [lia| |lia].
      split; [reflexivity|]. split; [|reflexivity]. cbn [Binary.FF2R]. unfold units, F2R. cbn [Fnum Fexp].
      replace ((1 - 2 * sgn v) * ((2 ^ 236 + r) * 2 ^ (q - 1))) with ((1 - 2 * sgn v) * (Z.pos p) * 2 ^ (q - 1)) by (rewrite <- Ep; ring).
      rewrite mult_IZR, SG by lia.
      assert (PB : IZR (2 ^ (q - 1)) = bpow radix2 (q - 1)) by (apply (IZR_Zpower radix2); lia).
      rewrite PB, Rmult_assoc, <- bpow_plus.
      f_equal. f_equal. unfold SpecFloat.emin. lia. }
  destruct G as (G1 & G2 & G3). split; [exact G1|]. split; [exact G2|].
  rewrite Binary.Bsign_B2BSN. rewrite Binary.Bsign_FF2B. exact G3.
  rewrite Binary.is_nan_FF2B. destruct (Bits.binary_float_of_bits_aux 236 19 v); auto.
Qed.

Lemma b256_special v : 0 <= v < 2 ^ 256 -> finb v = false ->
  b256 v = if infb v then B754_infinity (sgn v =? 1) else B754_nan.
Proof.
  intros Hv F. apply B2SF_inj. rewrite aux_of.
  assert (G : Bits.binary_float_of_bits_aux 236 19 v = if infb v then Binary.F754_infinity (sgn v =? 1)
    else match mag v mod 2 ^ 236 with Zpos p => Binary.F754_nan (sgn v =? 1) p | _ => Binary.F754_nan false 1 end).
  { unfold Bits.binary_float_of_bits_aux. rewrite split_bits_v by auto.
    unfold finb, infb, INFm in *. apply Z.ltb_ge in F. pose proof (mag_bound v) as M.
    pose proof (Z.div_mod (mag v) (2 ^ 236) ltac:(lia)) as D. pose proof (Z.mod_pos_bound (mag v) (2 ^ 236) ltac:(lia)) as B.
    assert (Q : mag v / 2 ^ 236 = 524287) by (symmetry; apply Z.div_unique with (mag v - 524287 * 2 ^ 236); lia).
    rewrite Q in *. change (Zeq_bool 524287 0) with false. change (Zeq_bool 524287 (2 ^ 19 - 1)) with true. cbv iota.
    destruct (Z.eqb_spec (mag v) (524287 * 2 ^ 236)) as [E|E].
    - assert (Z0 : mag v mod 2 ^ 236 = 0) by lia. rewrite Z0. reflexivity.
    - destruct (mag v mod 2 ^ 236); [lia|reflexivity|lia]. }
  generalize (Bits.binary_float_of_bits_aux_correct 236 19 eq_refl eq_refl eq_refl v). rewrite G.
  destruct (infb v) eqn:I; [reflexivity|].
  assert (B : 0 < mag v mod 2 ^ 236).
  { unfold finb, infb, INFm in *. apply Z.ltb_ge in F. apply Z.eqb_neq in I. pose proof (mag_bound v) as M.
    rewrite (Z.mod_eq (mag v) (2 ^ 236)) by lia.
    assert (Q : mag v / 2 ^ 236 = 524287) by (symmetry; apply Z.div_unique with (mag v - 524287 * 2 ^ 236); lia). lia. }
  destruct (mag v mod 2 ^ 236); [lia|reflexivity|lia].
Qed.

(** ** Rounding *)

Lemma rne_div_ZnearestE a b : 0 < b -> ZnearestE (IZR a / IZR b) = rne_div a b.
Proof.
  intros Hb. unfold Znearest, rne_div. rewrite Zfloor_div by lia.
  pose proof (Z.div_mod a b ltac:(lia)) as D. pose proof (Z.mod_pos_bound a b Hb) as B.
  assert (Hb' : (0 < IZR b)%R) by (apply IZR_lt; auto).
  set (q := a / b) in *. set (r := a mod b) in *. clearbody q r.
  assert (X : (IZR a / IZR b - IZR q = IZR r / IZR b)%R).
  { rewrite D, plus_IZR, mult_IZR. field. lra. }
  assert (C : r <> 0 -> Zceil (IZR a / IZR b) = q + 1).
  { intros Hr. assert (Q : Zfloor (IZR a / IZR b) = q) by (rewrite Zfloor_div by lia; symmetry; apply Z.div_unique with r; lia).
    rewrite Zceil_floor_neq; rewrite Q; auto. intros E.
    assert (IZR r / IZR b = 0)%R by lra. assert (IZR r = 0)%R by (apply (Rmult_eq_reg_r (/ IZR b)); [unfold Rdiv in *; lra|apply Rinv_neq_0_compat; lra]).
    apply eq_IZR in H0. lia. }
  rewrite X.
  assert (K : Rcompare (IZR r / IZR b) (/ 2) = (2 * r ?= b)).
  { rewrite <- (Rcompare_mult_r (2 * IZR b)) by lra.
    replace (IZR r / IZR b * (2 * IZR b))%R with (IZR (2 * r)) by (rewrite mult_IZR; field; lra).
    replace (/ 2 * (2 * IZR b))%R with (IZR b) by field. apply Rcompare_IZR. }
  rewrite K. destruct (Z.compare_spec (2 * r) b) as [E|E|E].
  - replace (b <? 2 * r) with false by (symmetry; apply Z.ltb_ge; lia). replace (2 * r =? b) with true by (symmetry; apply Z.eqb_eq; lia).
    rewrite Z.negb_even. cbn [orb andb]. destruct (Z.odd q); [apply C; lia|reflexivity].
  - replace (b <? 2 * r) with false by (symmetry; apply Z.ltb_ge; lia). replace (2 * r =? b) with false by (symmetry; apply Z.eqb_neq; lia).
    reflexivity.
  - replace (b <? 2 * r) with true by (symmetry; apply Z.ltb_lt; lia). apply C; lia.
Qed.

Lemma IZR_pow2 e : 0 <= e -> IZR (2 ^ e) = bpow radix2 e.
Proof. intros. apply (IZR_Zpower radix2). auto. Qed.

Definition rexp (n d : Z) : Z := Z.max 0 (Z.log2 (n / d) - 236).

Lemma cexp_quot n d : 0 < n -> 0 < d ->
  cexp radix2 fexp256 (IZR n / IZR d * bpow radix2 (-262378)) = rexp n d - 262378.
Proof.
  intros Hn Hd. unfold cexp, rexp.
  assert (Hd' : (0 < IZR d)%R) by (apply IZR_lt; auto). assert (Hn' : (0 < IZR n)%R) by (apply IZR_lt; auto).
  pose proof (Z.div_mod n d ltac:(lia)) as D. pose proof (Z.mod_pos_bound n d Hd) as B.
  assert (Q : 0 <= n / d) by (apply Z.div_pos; lia).
  set (q := n / d) in *. set (r := n mod d) in *. clearbody q r.
  assert (X : (0 < IZR n / IZR d)%R) by (apply Rdiv_lt_0_compat; auto).
  pose proof (bpow_gt_0 radix2 (-262378)) as U.
  destruct (Z.eq_dec q 0) as [->|Hq].
  - change (Z.max 0 (Z.log2 0 - 236)) with 0.
    assert (L : (IZR n / IZR d < 1)%R).
    { apply (Rmult_lt_reg_r (IZR d)); auto. unfold Rdiv. rewrite Rmult_assoc, Rinv_l, Rmult_1_r, Rmult_1_l by lra. apply IZR_lt. lia. }
    assert (M : (Raux.mag radix2 (IZR n / IZR d * bpow radix2 (-262378)) <= -262378)).
    { apply mag_le_bpow. apply Rgt_not_eq. apply Rmult_lt_0_compat; auto.
      rewrite Rabs_pos_eq by (apply Rlt_le, Rmult_lt_0_compat; auto). generalize dependent (bpow radix2 (-262378)). intros. nra. }
    unfold SpecFloat.fexp, SpecFloat.emin. lia.
  - assert (L := Z.log2_spec q ltac:(lia)). assert (L0 := Z.log2_nonneg q). set (k := Z.log2 q) in *. clearbody k.
    assert (M : Raux.mag radix2 (IZR n / IZR d * bpow radix2 (-262378)) = (k + 1 - 262378) :> Z).
    { apply mag_unique_pos. replace (k + 1 - 262378 - 1) with (k + -262378) by lia. replace (k + 1 - 262378) with (Z.succ k + -262378) by lia.
      rewrite !bpow_plus. split.
      - apply Rmult_le_compat_r; [lra|]. rewrite <- IZR_pow2 by lia.
        apply (Rmult_le_reg_r (IZR d)); auto. unfold Rdiv. rewrite Rmult_assoc, Rinv_l, Rmult_1_r, <- mult_IZR by lra. apply IZR_le. nia.
      - apply Rmult_lt_compat_r; auto. rewrite <- IZR_pow2 by lia.
        apply (Rmult_lt_reg_r (IZR d)); auto. unfold Rdiv. rewrite Rmult_assoc, Rinv_l, Rmult_1_r, <- mult_IZR by lra. apply IZR_lt. nia. }
    rewrite M. unfold SpecFloat.fexp, SpecFloat.emin. lia.
Qed.

(** The encoding before overflow is taken into account *)
Definition raw (n d : Z) : Z := rexp n d * 2 ^ 236 + rne_div n (d * 2 ^ rexp n d).

Lemma rnd_mag_raw n d : rnd_mag n d = Z.min INFm (raw n d).
Proof. reflexivity. Qed.

Lemma raw_val n d : 0 <= n -> 0 < d -> 0 <= raw n d /\ mag_val (raw n d) = rne_div n (d * 2 ^ rexp n d) * 2 ^ rexp n d.
Proof.
  intros Hn Hd. unfold raw. assert (He : 0 <= rexp n d) by (unfold rexp; lia).
  pose proof (pow2_pos _ He) as P.
  assert (N : 0 <= rne_div n (d * 2 ^ rexp n d)) by (apply rne_div_nonneg; nia).
  split; [lia|]. apply mag_val_le_any; auto.
  - split; auto. apply rne_div_le_bound; [nia|].
    pose proof (Z.div_mod n d ltac:(lia)) as D. pose proof (Z.mod_pos_bound n d Hd) as B.
    assert (Q : 0 <= n / d) by (apply Z.div_pos; lia).
    assert (L : n / d < 2 ^ 237 * 2 ^ rexp n d).
    { rewrite <- Z.pow_add_r by lia. destruct (Z.eq_dec (n / d) 0) as [->|]; [apply pow2_pos; lia|].
      pose proof (Z.log2_spec (n / d) ltac:(lia)) as [_ L]. apply Z.lt_le_trans with (1 := L).
      apply Z.pow_le_mono_r; [lia|]. unfold rexp. lia. }
    generalize dependent (2 ^ rexp n d). intros. generalize dependent (2 ^ 237). intros. nia.
  - destruct (Z.eq_dec (rexp n d) 0) as [|E0]; [left; auto|right]. apply rne_div_ge_bound; [nia|].
    pose proof (Z.div_mod n d ltac:(lia)) as D. pose proof (Z.mod_pos_bound n d Hd) as B.
    assert (Q : 0 <= n / d) by (apply Z.div_pos; lia).
    assert (L : 2 ^ 236 * 2 ^ rexp n d <= n / d).
    { rewrite <- Z.pow_add_r by lia. unfold rexp in *.
      assert (Hp : n / d <> 0) by (intros E; rewrite E in E0; apply E0; reflexivity).
      pose proof (Z.log2_spec (n / d) ltac:(lia)) as [L _]. eapply Z.le_trans; [|exact L].
      apply Z.pow_le_mono_r; lia. }
    generalize dependent (2 ^ rexp n d). intros. generalize dependent (2 ^ 236). intros. nia.
Qed.

Notation rnd := (round radix2 fexp256 ZnearestE).

Lemma round_quot n d : 0 <= n -> 0 < d -> rnd (IZR n / IZR d * bpow radix2 (-262378)) = units (mag_val (raw n d)).
Proof.
  intros Hn Hd. destruct (raw_val n d Hn Hd) as [_ ->]. assert (He : 0 <= rexp n d) by (unfold rexp; lia).
  pose proof (pow2_pos _ He) as P. assert (Hd' : (0 < IZR d)%R) by (apply IZR_lt; auto).
  destruct (Z.eq_dec n 0) as [->|].
  - replace (rne_div 0 (d * 2 ^ rexp 0 d)) with 0 by (symmetry; apply rne_div_unique; intros; nia).
    unfold units. unfold Rdiv. rewrite !Rmult_0_l, round_0; auto with typeclass_instances.
  - unfold round, scaled_mantissa. rewrite cexp_quot by lia. set (e := rexp n d) in *. clearbody e.
    rewrite Rmult_assoc, <- bpow_plus. replace (-262378 + - (e - 262378)) with (- e) by lia.
    replace (IZR n / IZR d * bpow radix2 (- e))%R with (IZR n / IZR (d * 2 ^ e))%R.
    2:{ rewrite mult_IZR, IZR_pow2, bpow_opp by auto. pose proof (bpow_gt_0 radix2 e). field. lra. }
    rewrite rne_div_ZnearestE by nia. unfold F2R, units. cbn [Fnum Fexp].
    rewrite mult_IZR, IZR_pow2 by auto. rewrite Rmult_assoc, <- bpow_plus. f_equal.
Qed.

Lemma units_INFm : units (mag_val INFm) = bpow radix2 262144.
Proof.
  replace INFm with (524286 * 2 ^ 236 + 2 ^ 236) by reflexivity. rewrite mag_val_signif by lia.
  unfold units. rewrite mult_IZR, !IZR_pow2, <- !bpow_plus by lia. f_equal.
Qed.

Lemma units_lt a b : (units a < units b)%R <-> a < b.
Proof.
  unfold units. pose proof (bpow_gt_0 radix2 (-262378)) as U. split; intros H.
  - apply lt_IZR. apply (Rmult_lt_reg_r (bpow radix2 (-262378))); auto.
  - apply Rmult_lt_compat_r; auto. apply IZR_lt. auto.
Qed.
Lemma units_opp a : units (- a) = (- units a)%R.
Proof. unfold units. rewrite opp_IZR. ring. Qed.
Lemma units_nonneg a : 0 <= a -> (0 <= units a)%R.
Proof. intros. unfold units. apply Rmult_le_pos. apply IZR_le; auto. apply bpow_ge_0. Qed.

Lemma mkf_range s m : s = 0 \/ s = 1 -> 0 <= m < 2 ^ 255 -> 0 <= mkf s m < 2 ^ 256.
Proof. intros [->| ->] ?; unfold mkf; lia. Qed.

(** A magnitude rounded by the specification is the one rounded by Flocq, and
    overflows exactly when Flocq's does. *)
Lemma rnd_mag_round s n d : s = 0 \/ s = 1 -> 0 <= n -> 0 < d ->
  let z := b256 (mkf s (rnd_mag n d)) in
  let r := rnd (IZR ((1 - 2 * s) * n) / IZR d * bpow radix2 (-262378)) in
  if Rlt_bool (Rabs r) (bpow radix2 262144)
  then B2R z = r /\ is_finite z = true /\ Bsign z = (s =? 1)
  else z = B754_infinity (s =? 1).
Proof.
  intros Hs Hn Hd. cbv zeta.
  assert (R : rnd (IZR ((1 - 2 * s) * n) / IZR d * bpow radix2 (-262378)) = units ((1 - 2 * s) * mag_val (raw n d))).
  { assert (Hd' : (0 < IZR d)%R) by (apply IZR_lt; auto).
    destruct Hs as [->| ->].
    - replace ((1 - 2 * 0) * n) with n by ring. replace ((1 - 2 * 0) * mag_val (raw n d)) with (mag_val (raw n d)) by ring. apply round_quot; auto.
    - replace ((1 - 2 * 1) * n) with (- n) by ring. replace ((1 - 2 * 1) * mag_val (raw n d)) with (- mag_val (raw n d)) by ring.
      rewrite units_opp, opp_IZR. replace (- IZR n / IZR d * bpow radix2 (-262378))%R with (- (IZR n / IZR d * bpow radix2 (-262378)))%R by (field; lra).
      rewrite round_NE_opp, round_quot by auto. reflexivity. }
  rewrite R.
  destruct (raw_val n d Hn Hd) as [H0 _]. pose proof (rnd_mag_bounds n d Hn Hd) as B.
  assert (I : INFm < 2 ^ 255) by reflexivity.
  assert (A : Rabs (units ((1 - 2 * s) * mag_val (raw n d))) = units (mag_val (raw n d))).
  { pose proof (units_nonneg _ (mag_val_nonneg _ H0)) as U. destruct Hs as [->| ->].
    - replace ((1 - 2 * 0) * mag_val (raw n d)) with (mag_val (raw n d)) by ring. apply Rabs_pos_eq; auto.
    - replace ((1 - 2 * 1) * mag_val (raw n d)) with (- mag_val (raw n d)) by ring. rewrite units_opp, Rabs_Ropp. apply Rabs_pos_eq; auto. }
  rewrite A, <- units_INFm.
  assert (RG : 0 <= mkf s (rnd_mag n d) < 2 ^ 256) by (apply mkf_range; auto; lia).
  destruct (Z.lt_ge_cases (raw n d) INFm) as [L|L].
  - rewrite Rlt_bool_true by (apply units_lt, mag_val_lt; auto).
    assert (F : finb (mkf s (rnd_mag n d)) = true).
    { unfold finb. rewrite mag_mkf by lia. apply Z.ltb_lt. rewrite rnd_mag_raw. lia. }
    destruct (b256_finite _ RG F) as (F1 & F2 & F3). rewrite F1, F2, F3. unfold sval.
    rewrite sgn_mkf, mag_mkf by lia. rewrite rnd_mag_raw, Z.min_r by lia. auto.
  - rewrite Rlt_bool_false.
    2:{ apply Rnot_lt_le. rewrite units_lt. pose proof (mag_val_le INFm (raw n d) ltac:(lia) L). lia. }
    assert (E : rnd_mag n d = INFm) by (rewrite rnd_mag_raw; lia). rewrite E in *.
    assert (M : mag (mkf s INFm) = INFm) by (apply mag_mkf; lia).
    rewrite b256_special; auto; unfold finb, infb; rewrite M; [|reflexivity].
    rewrite sgn_mkf by lia. reflexivity.
Qed.

Definition below (r : R) : bool := Rlt_bool (Rabs (rnd r)) (bpow radix2 262144).

Lemma below_0 : below 0 = true.
Proof.
  unfold below. rewrite round_0 by auto with typeclass_instances. rewrite Rabs_R0. apply Rlt_bool_true, bpow_gt_0.
Qed.

Lemma rnd_signed_round s0 n d : s0 = 0 \/ s0 = 1 -> 0 < d ->
  let z := b256 (rnd_signed s0 n d) in
  let r := (IZR n / IZR d * bpow radix2 (-262378))%R in
  if below r
  then B2R z = rnd r /\ is_finite z = true
       /\ Bsign z = match Rcompare r 0 with Eq => s0 =? 1 | Lt => true | Gt => false end
  else z = B754_infinity (Rlt_bool r 0).
Proof.
  intros Hs Hd z r.
  assert (Hd' : (0 < IZR d)%R) by (apply IZR_lt; auto). pose proof (bpow_gt_0 radix2 (-262378)) as U.
  assert (K : (0 < / IZR d * bpow radix2 (-262378))%R) by (apply Rmult_lt_0_compat; auto; apply Rinv_0_lt_compat; auto).
  assert (Er : r = (IZR n * (/ IZR d * bpow radix2 (-262378)))%R) by (unfold r, Rdiv; ring).
  unfold z, rnd_signed. destruct (Z.eqb_spec n 0) as [->|Hn].
  - assert (r = 0%R) as -> by (rewrite Er; ring). rewrite below_0.
    rewrite round_0 by auto with typeclass_instances. rewrite Rcompare_Eq by auto.
    assert (F : finb (mkf s0 0) = true) by (destruct Hs as [->| ->]; reflexivity).
    destruct (b256_finite (mkf s0 0)) as (F1 & F2 & F3); auto. { destruct Hs as [->| ->]; unfold mkf; lia. }
    rewrite F1, F2, F3, sgn_mkf by lia. unfold sval. rewrite mag_mkf by lia. change (mag_val 0) with 0.
    rewrite Z.mul_0_r. unfold units. rewrite Rmult_0_l. auto.
  - destruct (Z.ltb_spec n 0) as [L|L].
    + pose proof (rnd_mag_round 1 (Z.abs n) d ltac:(auto) ltac:(lia) Hd) as H. cbv zeta in H.
      replace ((1 - 2 * 1) * Z.abs n) with n in H by lia. fold r in H. fold (below r) in H.
      assert (N : (r < 0)%R) by (rewrite Er; apply IZR_lt in L; generalize dependent (/ IZR d * bpow radix2 (-262378))%R; intros; nra).
      rewrite Rcompare_Lt, Rlt_bool_true by auto. exact H.
    + pose proof (rnd_mag_round 0 (Z.abs n) d ltac:(auto) ltac:(lia) Hd) as H. cbv zeta in H.
      replace ((1 - 2 * 0) * Z.abs n) with n in H by lia. fold r in H. fold (below r) in H.
      assert (L' : 0 < n) by lia.
      assert (N : (0 < r)%R) by (rewrite Er; apply IZR_lt in L'; generalize dependent (/ IZR d * bpow radix2 (-262378))%R; intros; nra).
      rewrite Rcompare_Gt, Rlt_bool_false by lra. exact H.
Qed.

(** ** Classes of data *)
Inductive bview (x : Z) : binary256 -> Prop :=
| V_nan : nanb x = true -> bview x B754_nan
| V_inf : nanb x = false -> infb x = true -> finb x = false -> zerob x = false -> mag x = INFm -> bview x (B754_infinity (sgn x =? 1))
| V_zero : nanb x = false -> infb x = false -> finb x = true -> zerob x = true -> mag x = 0 -> bview x (B754_zero (sgn x =? 1))
| V_fin m e H : nanb x = false -> infb x = false -> finb x = true -> zerob x = false -> bview x (B754_finite (sgn x =? 1) m e H).

Lemma bview_of x : 0 <= x < 2 ^ 256 -> bview x (b256 x).
Proof.
  intros Hx. destruct (finb x) eqn:F.
  - destruct (b256_finite x Hx F) as (F1 & F2 & F3).
    assert (N : nanb x = false) by (unfold nanb, finb in *; apply Z.ltb_lt in F; apply Z.ltb_ge; lia).
    assert (I : infb x = false) by (unfold infb, finb in *; apply Z.ltb_lt in F; apply Z.eqb_neq; lia).
    assert (Z0 : forall r, units (sval x) = r -> (r = 0%R -> mag x = 0)).
    { intros r E E0. rewrite E0 in E. clear E0 F2. unfold units in E.
      assert (V : sval x = 0).
      { apply eq_IZR. apply (Rmult_eq_reg_r (bpow radix2 (-262378))). lra. apply Rgt_not_eq, bpow_gt_0. }
      unfold sval in V. pose proof (sgn_bound x Hx). pose proof (mag_bound x) as M.
      destruct (Z.eq_dec (mag x) 0) as [|Hm]; auto. pose proof (mag_val_pos (mag x) ltac:(lia)) as MP.
      apply Z.mul_eq_0 in V. lia. }
    destruct (b256 x) as [s|s| |s m e H]; try discriminate; cbn [Bsign] in F3; subst s.
    + assert (mag x = 0) by (eapply Z0; [symmetry; exact F2|reflexivity]). constructor; auto. unfold zerob. apply Z.eqb_eq; auto.
    + constructor; auto. unfold zerob. apply Z.eqb_neq. intros E. cbn [B2R] in F2. unfold sval in F2. rewrite E in F2. change (mag_val 0) with 0 in F2.
      rewrite Z.mul_0_r in F2. unfold units in F2. rewrite Rmult_0_l in F2. destruct (sgn x =? 1); [apply (F2R_neq_0 radix2 (Float radix2 (Z.neg m) e)) in F2 | apply (F2R_neq_0 radix2 (Float radix2 (Z.pos m) e)) in F2]; auto; discriminate.
  - rewrite b256_special by auto. unfold finb in F. apply Z.ltb_ge in F. destruct (infb x) eqn:I.
    + unfold infb in I. apply Z.eqb_eq in I. constructor; auto; unfold nanb, infb, finb, zerob; rewrite I; reflexivity.
    + constructor. unfold infb in I. apply Z.eqb_neq in I. unfold nanb. apply Z.ltb_lt. lia.
Qed.

Lemma b256_QNAN : b256 QNAN = B754_nan.
Proof. rewrite b256_special; [reflexivity|unfold QNAN; lia|reflexivity]. Qed.
Lemma b256_INF s : s = 0 \/ s = 1 -> b256 (mkf s INFm) = B754_infinity (s =? 1).
Proof. intros [->| ->]; (rewrite b256_special; [reflexivity|unfold mkf, INFm; lia|reflexivity]). Qed.

(** * SqrtProofs: the f256 square root is the nearest one *)

From Coq Require Import ZArith Lia Bool.
From Verif Require Import Base BigUInt ZLemmas BigLaws BigUIntProofs BigExtra F256 Arith
  SpecLemmas F256Lemmas RoundLemmas AddProofs DivProofs.
Open Scope Z_scope.

Section Sqrt.
Context {P : profile}.

Lemma sqrt_loop_ok Y n : forall q r, (n <= 237)%nat ->
  r * 2 ^ 237 = 2 ^ (237 - Z.of_nat n) * (Y - q * q) -> 0 <= r < 2 * q + 2 ^ Z.of_nat n ->
  2 ^ 237 <= q -> q + 2 ^ Z.of_nat n <= 2 ^ 238 ->
  exists q' r', sqrt_loop n (of256 q) (of256 r) (of256 (2 ^ Z.of_nat n)) = Some (of256 q', of256 r')
    /\ q' * q' <= Y < (q' + 1) * (q' + 1) /\ 0 <= r' < 2 ^ 240 /\ (r' = 0 <-> Y = q' * q') /\ 2 ^ 237 <= q' < 2 ^ 238.
Proof.
  induction n; intros q r Hn E Hr Hq Hb.
  - change (Z.of_nat 0) with 0 in *. change (2 ^ 0) with 1 in *. rewrite Z.sub_0_r in E.
    cbn [sqrt_loop]. exists q, r. split; auto. 
    assert (r = Y - q * q) by (apply Z.mul_reg_r with (2 ^ 237); lia).
    split; [lia|]. split; lia.
  - cbn [sqrt_loop]. set (k := Z.of_nat n) in *.
    replace (Z.of_nat (S n)) with (k + 1) in * by lia.
    assert (Hk : 0 <= k < 237) by lia.
    assert (Ek : 2 ^ (k + 1) = 2 * 2 ^ k) by (rewrite pow2_S by lia; reflexivity).
    assert (E7 : 2 ^ (237 - k) = 2 * 2 ^ (237 - (k + 1))) by (rewrite <- pow2_S by lia; f_equal; lia).
    assert (Es : 2 ^ (237 - k) * 2 ^ k = 2 ^ 237) by (rewrite <- pow2_add by lia; f_equal; lia).
    pose proof (pow2_pos k ltac:(lia)) as Pk. pose proof (pow2_pos (237 - (k + 1)) ltac:(lia)) as P7.
    rewrite is_zero256 by lia.
    destruct (Z.eqb_spec r 0) as [->|R0].
    { exists q, 0. split; auto. rewrite Z.mul_0_l in E. symmetry in E. apply Z.eq_mul_0_r in E; [|lia].
      assert (Y = q * q) by lia. lia. }
    rewrite shr256 by lia. rewrite bind_Some. change (2 ^ 1) with 2.
    rewrite Ek, Z.mul_comm, Z.div_mul by lia.
    rewrite shl256s by lia. rewrite bind_Some. rewrite shl256s by lia. rewrite bind_Some. change (2 ^ 1) with 2.
    rewrite add256 by lia. rewrite bind_Some. rewrite ult256 by lia.
    destruct (Z.ltb_spec (r * 2) (q * 2 + 2 ^ k)).
    + apply IHn; try lia.
    + rewrite add256 by lia. rewrite bind_Some. rewrite sub256 by lia. rewrite bind_Some.
      apply IHn; try lia.
      transitivity (2 * (r * 2 ^ 237) - 2 ^ (237 - k) * 2 ^ k * (q * 2 + 2 ^ k)). rewrite Es. ring. rewrite E, E7. ring.
Qed.

Lemma mag_val_le_any E m : 0 <= E -> 0 <= m <= 2 ^ 237 -> (E = 0 \/ 2 ^ 236 <= m) ->
  mag_val (E * 2 ^ 236 + m) = m * 2 ^ E.
Proof.
  intros HE Hm H. destruct (Z.eq_dec m (2 ^ 237)) as [->|].
  - replace (E * 2 ^ 236 + 2 ^ 237) with ((E + 1) * 2 ^ 236 + 2 ^ 236) by ring.
    rewrite mag_val_any by lia. rewrite pow2_S by lia. ring.
  - apply mag_val_any; lia.
Qed.

(** Rounding the root: [q] is the integer square root of [Y], which is even. *)
Lemma sqrt_round Y q : q * q <= Y < (q + 1) * (q + 1) -> Z.even Y = true -> 2 ^ 237 <= q ->
  let m := (q + b2z (Z.odd q)) / 2 in
  (2 * m - 1) * (2 * m - 1) < Y < (2 * m + 1) * (2 * m + 1).
Proof.
  intros HY EY Hq m. pose proof (Zdiv2_odd_eqn q) as E. rewrite Z.div2_div in E.
  destruct (Z.odd q) eqn:O; cbn [b2z] in m; subst m.
  - assert (D : (q + 1) / 2 = q / 2 + 1) by (apply div_eq with 0; lia). rewrite D.
    set (k := q / 2) in *. clearbody k. subst q.
    assert (Y <> (2 * k + 1) * (2 * k + 1)).
    { intros ->. rewrite Z.even_mul, Z.even_add, Z.even_mul in EY. discriminate. }
    lia.
  - rewrite Z.add_0_r in *. set (k := q / 2) in *. clearbody k. subst q. lia.
Qed.

Lemma is_special_negzero : is_special_bits (of256 (2 ^ 255)) = true. Proof. reflexivity. Qed.

Lemma sqrt_finite v : 0 < v < INFm ->
  exists z, sqrt (of256 v) = Some (of256 z) /\ nearest_sqrt (mag_val v) z.
Proof.
  intros Hv. unfold sqrt.
  assert (Hv' : 0 < v < 524287 * 2 ^ 236) by exact Hv.
  change NEG_ZERO with (of256 (2 ^ 255)). rewrite ugt256 by lia. rewrite ltb_false by lia.
  rewrite is_special_bits_of by lia.
  rewrite (leb_false INFm v) by lia. replace (v =? 0) with false by (symmetry; apply Z.eqb_neq; lia). cbn [orb].
  destruct (exp_sub_norm v Hv) as (E1 & E2 & E3 & E4 & E5). rewrite E1. clear E1 E2.
  assert (HB : b2z (negb (v / 2 ^ 236 =? 0)) = b2z (2 ^ 236 <=? v)).
  { destruct (Z.eqb_spec (v / 2 ^ 236) 0), (Z.leb_spec (2 ^ 236) v); auto; exfalso;
    pose proof (Z.div_mod v (2 ^ 236) ltac:(lia)); pose proof (Z.mod_pos_bound v (2 ^ 236) ltac:(lia)); lia. }
  rewrite HB. clear HB.
  pose proof (sg_bound v ltac:(lia)) as SA. pose proof (sg_pos v ltac:(lia)) as PA.
  pose proof (log2_bound (sg v) 237 ltac:(lia)) as LA.
  assert (NS : Z.max 0 (leading_zeros (of256 v) - EXP_BITS) = 236 - Z.log2 (sg v)).
  { rewrite lz256 by lia. unfold nlz, EXP_BITS. replace (v =? 0) with false by (symmetry; apply Z.eqb_neq; lia).
    unfold sg in *. destruct (Z.ltb_spec v (2 ^ 236)).
    - pose proof (log2_bound v 236 ltac:(lia)). lia.
    - pose proof (Z.mod_pos_bound v (2 ^ 236) ltac:(lia)).
      replace (Z.log2 (2 ^ 236 + v mod 2 ^ 236)) with 236.
      2: { symmetry. apply Z.log2_unique; [lia|]. change (2 ^ Z.succ 236) with (2 * 2 ^ 236). lia. }
      assert (236 <= Z.log2 v). { apply Z.log2_le_pow2; lia. } lia. }
  rewrite NS. clear NS.
  pose proof (b2z_bound (2 ^ 236 <=? v)) as Bb.
  unfold EMIN. rewrite !casts_ok by lia. rewrite adds_ok by lia. rewrite bind_Some.
  rewrite subs_ok by lia. rewrite bind_Some. rewrite subs_ok by lia. rewrite bind_Some.
  pose proof (norm_shift_bound (sg v) 236 ltac:(lia) ltac:(lia)) as NA. change (236 + 1) with 237 in NA.
  set (ns := 236 - Z.log2 (sg v)) in *.
  assert (Hns0 : 0 <= ns <= 236) by (unfold ns; lia).
  replace (v / 2 ^ 236 + -262142 - b2z (2 ^ 236 <=? v) - ns) with (qe v - ns - 262142) by lia.
  set (e := qe v - ns - 262142) in *.
  pose proof (Z.div_mod e 2 ltac:(lia)) as De. pose proof (Z.mod_pos_bound e 2 ltac:(lia)) as Be.
  set (o := e mod 2) in *. set (e' := e / 2) in *.
  rewrite subs_ok by lia. rewrite bind_Some.
  replace (Z.quot (e - o) 2) with e'. 2: { replace (e - o) with (e' * 2) by lia. rewrite Z.quot_mul by lia. reflexivity. }
  (* normalised significand *)
  set (m := sg v * 2 ^ ns) in *.
  assert (Pns : 0 < 2 ^ ns) by (apply pow2_pos; lia).
  rewrite fraction_of.
  pose proof (Z.mod_pos_bound v (2 ^ 236) ltac:(lia)) as Bf.
  assert (SS : exists s1, ushl (of256 (v mod 2 ^ 236)) ns = Some (of256 s1) /\
     or_hi (of256 s1) (shlc 128 (b2z (2 ^ 236 <=? v)) HI_FRACTION_BITS) = of256 m).
  { destruct (Z.leb_spec (2 ^ 236) v) as [C|C]; cbn [b2z].
    - assert (sg v = 2 ^ 236 + v mod 2 ^ 236) as S1 by (unfold sg; destruct (Z.ltb_spec v (2 ^ 236)); lia).
      assert (Hns : ns = 0).
      { unfold ns. replace (Z.log2 (sg v)) with 236. reflexivity. symmetry. apply Z.log2_unique; [lia|].
        change (2 ^ Z.succ 236) with (2 * 2 ^ 236). lia. }
      exists (v mod 2 ^ 236). rewrite Hns. rewrite shl256s by (change (2 ^ 0) with 1; lia). change (2 ^ 0) with 1. rewrite Z.mul_1_r. split; auto.
      change (shlc 128 1 HI_FRACTION_BITS) with (2 ^ 108).
      unfold or_hi. rewrite xhi_of, xlo_of.
      assert (0 <= (v mod 2 ^ 236) / 2 ^ 128 < 2 ^ 108) by (apply div_bound; lia).
      rewrite Z.lor_comm. change (2 ^ 108) with (1 * 2 ^ 108). rewrite lor_add by lia.
      rewrite u256_hi. apply of256_ext. unfold m. rewrite Hns, S1. change (2 ^ 0) with 1.
      pose proof (Z.div_mod (v mod 2 ^ 236) (2 ^ 128) ltac:(lia)).
      lia.
    - assert (sg v = v) as S1 by (unfold sg; destruct (Z.ltb_spec v (2 ^ 236)); lia).
      exists m. clearbody ns. unfold m in *. rewrite S1 in *. rewrite Z.mod_small by lia. rewrite shl256s by lia. split; auto.
      change (shlc 128 0 HI_FRACTION_BITS) with 0. unfold or_hi. rewrite Z.lor_0_r, xhi_of, xlo_of.
      rewrite u256_hi. apply of256_ext. pose proof (Z.div_mod (v * 2 ^ ns) (2 ^ 128) ltac:(lia)). lia. }
  destruct SS as (s1 & -> & SS). rewrite bind_Some. rewrite SS. clear s1 SS.
  change (u256 (shlc 128 HI_FRACTION_BIAS 1) 0) with (of256 (2 ^ 237)).
  rewrite addu_ok by lia. rewrite bind_Some.
  set (X := m * 2 ^ (1 + o)).
  assert (HX : 2 ^ 237 <= X < 2 ^ 239).
  { unfold X. assert (O : o = 0 \/ o = 1) by lia. destruct O as [-> | ->].
    change (2 ^ (1 + 0)) with 2. lia. change (2 ^ (1 + 1)) with 4. lia. }
  rewrite shl256s by (fold X; lia). rewrite bind_Some. fold X.
  rewrite sub256 by lia. rewrite bind_Some.
  destruct (sqrt_loop_ok (X * 2 ^ 237) 237 (2 ^ 237) (X - 2 ^ 237)) as (q & r & EL & HQ & HR & HR0 & HQb).
  { lia. } { change (Z.of_nat 237) with 237. change (2 ^ (237 - 237)) with 1. lia. }
  { change (Z.of_nat 237) with 237. lia. } { lia. } { change (Z.of_nat 237) with 237. lia. }
  change (2 ^ Z.of_nat 237) with (2 ^ 237) in EL. rewrite EL. rewrite bind_Some. cbv beta iota. clear EL.
  (* rounding *)
  assert (EY : Z.even (X * 2 ^ 237) = true). { rewrite Z.even_mul. change (Z.even (2 ^ 237)) with true. apply orb_true_r. }
  change 3 with (2 ^ 2 - 1). rewrite xlo_land by lia. change (2 ^ 2) with 4. change (4 - 1) with 3.
  pose proof (Z.div_mod q 4 ltac:(lia)) as D4. pose proof (Z.mod_pos_bound q 4 ltac:(lia)) as B4.
  rewrite castu_ok by lia. rewrite is_zero256 by lia.
  assert (RB : ((q mod 4 =? 3) || ((q mod 4 =? 1) && negb (r =? 0))) = Z.odd q).
  { assert (OQ : Z.odd q = Z.odd (q mod 4)).
    { rewrite D4 at 1. rewrite Z.odd_add, Z.odd_mul. change (Z.odd 4) with false. cbn [andb]. destruct (Z.odd (q mod 4)); reflexivity. }
    rewrite OQ. assert (C : q mod 4 = 0 \/ q mod 4 = 1 \/ q mod 4 = 2 \/ q mod 4 = 3) by lia.
    destruct C as [C|[C|[C|C]]]; rewrite C in *; try reflexivity.
    destruct (Z.eqb_spec r 0) as [R0|R0]; [|reflexivity]. exfalso.
    apply HR0 in R0. rewrite R0 in EY. rewrite Z.even_mul in EY. rewrite <- Z.negb_odd, OQ in EY. discriminate. }
  rewrite RB. clear RB.
  rewrite incr_if256 by lia. pose proof (b2z_bound (Z.odd q)) as BO.
  rewrite shr256 by lia. rewrite bind_Some. change (2 ^ 1) with 2.
  pose proof (sqrt_round (X * 2 ^ 237) q HQ EY ltac:(lia)) as RN. cbv zeta in RN.
  set (w := (q + b2z (Z.odd q)) / 2) in *.
  assert (Hw : 2 ^ 236 <= w < 2 ^ 237).
  { unfold w. split. apply Z.div_le_lower_bound; lia.
    apply Z.div_lt_upper_bound. lia. 
    assert (q <> 2 ^ 238 - 1).
    { intros ->. assert (X * 2 ^ 237 <= (2 ^ 239 - 4) * 2 ^ 237).
      { apply Z.mul_le_mono_nonneg_r. lia. unfold X. assert (O : o = 0 \/ o = 1) by lia. destruct O as [-> | ->].
        change (2 ^ (1 + 0)) with 2. lia. change (2 ^ (1 + 1)) with 4. lia. }
      lia. }
    lia. }
  clearbody w. clear HQ HR HR0 HQb D4 B4 BO q r.
  (* assembly *)
  unfold new. unfold EMIN, EMAX, EXP_BIAS.
  assert (He' : -131200 <= e' <= 131100) by lia.
  rewrite (dassert_ok ((0 =? 0) || (0 =? 1))) by reflexivity. rewrite bind_Some.
  rewrite dassert_ok by (rewrite !leb_true by lia; reflexivity). rewrite bind_Some.
  rewrite is_zero256 by lia. rewrite dassert_ok by (destruct (Z.eqb_spec w 0); [lia|reflexivity]). rewrite bind_Some.
  unfold shrc, HI_FRACTION_BITS. rewrite xhi_of, Z.div_div by lia. change (2 ^ 128 * 2 ^ 108) with (2 ^ 236).
  rewrite (div_eq w (2 ^ 236) 1 (w - 2 ^ 236)) by lia. rewrite dassert_ok by reflexivity. rewrite bind_Some.
  rewrite adds_ok by lia. rewrite bind_Some. rewrite castu_ok by lia.
  change (shlc 128 0 HI_SIGN_SHIFT) with 0. rewrite Z.lor_0_r. rewrite <- xhi_of.
  change 108 with HI_FRACTION_BITS. rewrite asm_fraction by lia.
  rewrite (mod_eq w (2 ^ 236) 1 (w - 2 ^ 236)) by lia.
  eexists. split. reflexivity.
  set (K := e' + 262143 - 1).
  replace ((e' + 262143) * 2 ^ 236 + (w - 2 ^ 236)) with (K * 2 ^ 236 + w) by (unfold K; ring).
  assert (HK : 1 <= K < 2 ^ 19) by (unfold K; lia).
  split. { unfold INFm. lia. }
  replace (K * 2 ^ 236 + w + 1) with (K * 2 ^ 236 + (w + 1)) by ring.
  rewrite (mag_val_le_any K w), (mag_val_le_any K (w + 1)) by lia.
  pose proof (pow2_pos K ltac:(lia)) as PK.
  assert (EN : 4 * (mag_val v * 2 ^ UNITe) = X * 2 ^ 237 * (2 ^ K * 2 ^ K)).
  { rewrite mag_val_sg by lia. unfold X, m. assert (HU : UNITe = 262378) by reflexivity. revert HU. generalize UNITe. intros U HU.
    change 4 with (2 ^ 2).
    transitivity (sg v * (2 ^ 2 * 2 ^ qe v * 2 ^ U)). ring.
    transitivity (sg v * (2 ^ ns * 2 ^ (1 + o) * 2 ^ 237 * 2 ^ K * 2 ^ K)). 2: ring.
    f_equal. rewrite <- !pow2_add by lia. f_equal. unfold K. lia. }
  rewrite EN. clear EN. rewrite !Z.pow_2_r.
  assert (PKK : 0 < 2 ^ K * 2 ^ K) by (apply Z.mul_pos_pos; lia).
  assert (HM : mag_val (K * 2 ^ 236 + w - 1) * 2 = (2 * w - 2) * 2 ^ K /\ 2 ^ 236 < w
     \/ mag_val (K * 2 ^ 236 + w - 1) * 2 = (2 * w - 1) * 2 ^ K /\ w = 2 ^ 236).
  { destruct (Z.eq_dec w (2 ^ 236)) as [->|].
    - right. split; auto. replace (K * 2 ^ 236 + 2 ^ 236 - 1) with ((K - 1) * 2 ^ 236 + (2 ^ 237 - 1)) by ring.
      rewrite mag_val_any by lia. replace (2 ^ K) with (2 * 2 ^ (K - 1)) by (rewrite <- pow2_S by lia; f_equal; lia). ring.
    - left. split; [|lia]. replace (K * 2 ^ 236 + w - 1) with (K * 2 ^ 236 + (w - 1)) by ring.
      rewrite mag_val_any by lia. ring. }
  set (M1 := mag_val (K * 2 ^ 236 + w - 1)) in *. set (T := 2 ^ K) in *. clearbody M1 T.
  split.
  - destruct HM as [[HM _]|[HM HW]].
    + assert (M1 = (w - 1) * T) by lia. subst M1.
      replace (((w - 1) * T + w * T) * ((w - 1) * T + w * T)) with ((2 * w - 1) * (2 * w - 1) * (T * T)) by ring.
      apply Z.mul_lt_mono_pos_r; lia.
    + apply (proj2 (Z.mul_lt_mono_pos_r 4 _ _ ltac:(lia))).
      replace ((M1 + w * T) * (M1 + w * T) * 4) with ((M1 * 2 + 2 * w * T) * (M1 * 2 + 2 * w * T)) by ring.
      rewrite HM. replace (((2 * w - 1) * T + 2 * w * T) * ((2 * w - 1) * T + 2 * w * T)) with ((4 * w - 1) * (4 * w - 1) * (T * T)) by ring.
      replace (X * 2 ^ 237 * (T * T) * 4) with (X * 2 ^ 237 * 4 * (T * T)) by ring.
      apply Z.mul_lt_mono_pos_r. lia. subst w. lia.
  - replace ((w * T + (w + 1) * T) * (w * T + (w + 1) * T)) with ((2 * w + 1) * (2 * w + 1) * (T * T)) by ring.
    apply Z.mul_lt_mono_pos_r; lia.
Qed.

Theorem sqrt_ok v : 0 <= v < 2 ^ 256 ->
  exists r, sqrt (of256 v) = Some (of256 r) /\ 0 <= r < 2 ^ 256 /\ spec_sqrt v r.
Proof.
  intros Hv. destruct (mkf_split v Hv) as (Ev & Sv & Mv). unfold spec_sqrt, nanb, zerob, infb.
  destruct (Z.ltb_spec (2 ^ 255) v) as [N|N].
  - (* negative, not -0 *)
    unfold sqrt. change NEG_ZERO with (of256 (2 ^ 255)). rewrite ugt256 by lia. rewrite ltb_true by lia.
    exists QNAN. split. reflexivity. split. unfold QNAN; lia.
    assert (S1 : sgn v = 1) by (destruct Sv as [S0|]; auto; rewrite S0 in Ev; unfold mkf in Ev; lia).
    rewrite S1 in *. change (1 =? 1) with true. cbv iota.
    replace (mag v =? 0) with false by (symmetry; apply Z.eqb_neq; unfold mkf in Ev; lia).
    destruct (INFm <? mag v); reflexivity.
  - destruct (Z.eq_dec v (2 ^ 255)) as [->|N2].
    { exists (2 ^ 255). split. 2: { split. lia. replace (mag (2 ^ 255)) with 0 by reflexivity. pose proof INFm_pos. rewrite ltb_false by lia.
           rewrite Z.eqb_refl. reflexivity. }
      unfold sqrt. change NEG_ZERO with (of256 (2 ^ 255)). rewrite ugt256 by lia. rewrite ltb_false by lia.
      rewrite is_special_negzero. reflexivity. }
    assert (S0 : sgn v = 0) by (destruct Sv as [|S0]; auto; rewrite S0 in Ev; unfold mkf in Ev; lia).
    assert (M0 : mag v = v) by (rewrite S0 in Ev; unfold mkf in Ev; lia).
    rewrite S0, M0 in *. change (0 =? 1) with false. cbv iota.
    destruct (Z.eqb_spec v 0) as [->|V0].
    { exists 0. split. reflexivity. split. lia. reflexivity. }
    destruct (Z.ltb_spec v INFm) as [F|F].
    + destruct (sqrt_finite v ltac:(lia)) as (z & -> & HN). exists z. split; auto.
      assert (HN' := HN). destruct HN' as [HZ _]. unfold INFm in HZ. split. lia.
      rewrite ltb_false by lia. replace (v =? INFm) with false by (symmetry; apply Z.eqb_neq; lia).
      rewrite <- (Z.add_0_l z), <- (Z.mul_0_l (2 ^ 255)). fold (mkf 0 z).
      rewrite sgn_mkf, mag_mkf by lia. auto.
    + exists v. split.
      { unfold sqrt. change NEG_ZERO with (of256 (2 ^ 255)). rewrite ugt256 by lia. rewrite ltb_false by lia.
        rewrite is_special_bits_of by lia. rewrite (leb_true INFm) by lia. rewrite orb_true_r. reflexivity. }
      split. lia. destruct (Z.ltb_spec INFm v). { rewrite M0. apply Z.ltb_lt. lia. }
      replace (v =? INFm) with true by (symmetry; apply Z.eqb_eq; lia). reflexivity.
Qed.

End Sqrt.

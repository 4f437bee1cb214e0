(** * DivProofs: f256 division rounds correctly *)

From Coq Require Import ZArith Lia Bool.
From Verif Require Import Base BigUInt ZLemmas BigLaws BigUIntProofs BigExtra F256 Arith
  SpecLemmas F256Lemmas RoundLemmas AddProofs.
Open Scope Z_scope.

Section Div.
Context {P : profile}.

Lemma of512_lo a : 0 <= a < 2 ^ 256 -> mk (of256 0) (of256 a) = of512 a.
Proof. intros. symmetry. apply of_uint_eq. change (2 ^ BITS) with (2 ^ 256). lia. exact H. Qed.

Lemma shl512 a n : 0 <= a < 2 ^ 512 -> 0 <= n < 512 -> ushl (of512 a) n = Some (of512 ((a * 2 ^ n) mod 2 ^ 512)).
Proof. intros. apply (L_shl _ L512); auto. Qed.
Lemma shl512s a n : 0 <= a -> 0 <= n < 512 -> a * 2 ^ n < 2 ^ 512 -> ushl (of512 a) n = Some (of512 (a * 2 ^ n)).
Proof.
  intros. pose proof (pow2_pos n ltac:(lia)). rewrite shl512 by nia. rewrite Z.mod_small by nia. reflexivity.
Qed.
Lemma shr512 a n : 0 <= a < 2 ^ 512 -> 0 <= n < 512 -> ushr (of512 a) n = Some (of512 (a / 2 ^ n)).
Proof. intros. apply (L_shr _ L512); auto. Qed.

Lemma hi512 a : hi (of512 a) = of256 (a / 2 ^ 256). Proof. reflexivity. Qed.
Lemma lo512 a : lo (of512 a) = of256 (a mod 2 ^ 256). Proof. reflexivity. Qed.

Lemma lz_hi m : 2 ^ 236 <= m < 2 ^ 237 -> leading_zeros (hi (of256 m)) = 19.
Proof.
  intros. change (hi (of256 m)) with (of128 (m / 2 ^ 128)).
  assert (2 ^ 108 <= m / 2 ^ 128 < 2 ^ 109).
  { split. apply Z.div_le_lower_bound; lia. apply Z.div_lt_upper_bound; lia. }
  rewrite (L_lz _ L128). 2: { change (2 ^ BITS) with (2 ^ 128). lia. }
  change (@BITS U128 U128_ops) with 128. unfold nlz.
  destruct (Z.eqb_spec (m / 2 ^ 128) 0); [lia|].
  assert (Z.log2 (m / 2 ^ 128) = 108); [|lia]. apply Z.log2_unique; [lia|]. exact H0.
Qed.

Lemma div_signifs_ok mx my : 2 ^ 236 <= mx < 2 ^ 237 -> 2 ^ 236 <= my < 2 ^ 237 ->
  let t := mx * 2 ^ (237 + b2z (mx <? my)) in
  2 ^ 237 <= t / my < 2 ^ 238 /\
  div_signifs (of256 mx) (of256 my)
  = Some (of256 (t / my / 2), 2 * ((t / my) mod 2) + b2z (negb (t mod my =? 0))).
Proof.
  intros Hx Hy t.
  assert (Ht : 2 ^ 473 <= t < 2 ^ 475).
  { unfold t. destruct (Z.ltb_spec mx my); cbn [b2z].
    change (237 + 1) with 238. change (2 ^ 473) with (2 ^ 236 * 2 ^ 237). change (2 ^ 475) with (2 ^ 237 * 2 ^ 238).
    change (2 ^ 238) with (2 * 2 ^ 237). clear - Hx. nia.
    change (237 + 0) with 237. change (2 ^ 473) with (2 ^ 236 * 2 ^ 237). change (2 ^ 475) with (2 ^ 237 * 2 ^ 238).
    change (2 ^ 238) with (2 * 2 ^ 237). clear - Hx. nia. }
  assert (Hq : 2 ^ 237 <= t / my < 2 ^ 238).
  { split.
    - apply Z.div_le_lower_bound. lia. unfold t. destruct (Z.ltb_spec mx my); cbn [b2z].
      change (2 ^ (237 + 1)) with (2 * 2 ^ 237). clear - Hx Hy. change (2 ^ 237) with (2 * 2 ^ 236) in *. nia.
      change (2 ^ (237 + 0)) with (2 ^ 237). clear - Hx Hy H. nia.
    - apply Z.div_lt_upper_bound. lia. unfold t. destruct (Z.ltb_spec mx my); cbn [b2z].
      change (2 ^ (237 + 1)) with (2 ^ 238). clear - Hx Hy H. nia.
      change (2 ^ (237 + 0)) with (2 ^ 237). change (2 ^ 238) with (2 * 2 ^ 237). clear - Hx Hy.
      change (2 ^ 237) with (2 * 2 ^ 236) in *. nia. }
  split. exact Hq. unfold div_signifs. rewrite !lz_hi by auto. unfold EXP_BITS, SIGNIFICAND_BITS.
  rewrite dassert_ok by reflexivity. rewrite !bind_Some. cbv zeta.
  rewrite ult256 by lia. rewrite addu_ok by (destruct (mx <? my); cbn [b2z]; lia). rewrite bind_Some.
  change uint_zero with (of256 0). rewrite of512_lo by lia.
  rewrite shl512s. 2: lia. 2: { destruct (mx <? my); cbn [b2z]; lia. }
  2: { fold t. lia. }
  rewrite bind_Some. fold t. clearbody t.
  rewrite (div_rem_sub_ok _ L256).
  2: { change (2 ^ BITS * 2 ^ BITS) with (2 ^ 512). lia. }
  2: { change (2 ^ BITS) with (2 ^ 256). lia. }
  2: { change (2 ^ BITS) with (2 ^ 256). intros; exfalso; lia. }
  2: { change (2 ^ BITS) with (2 ^ 256). intros X; exfalso. 
       assert (t / 2 ^ 256 < 2 ^ 219) by (apply Z.div_lt_upper_bound; lia). lia. }
  rewrite bind_Some. rewrite lo512.
  change 1 with (2 ^ 1 - 1) at 2. rewrite xlo_land by lia. rewrite (mod_mod_pow _ 1 256) by lia.
  change (2 ^ 1) with 2.
  pose proof (Z.mod_pos_bound (t / my) 2 ltac:(lia)) as B2.
  pose proof (Z.mod_pos_bound t my ltac:(lia)) as Br.
  rewrite castu_ok by lia. rewrite is_zero256 by lia.
  unfold shlc. change (2 ^ 1) with 2. rewrite (Z.mod_small (_ * 2)) by lia.
  rewrite shr512 by lia. rewrite bind_Some. change (2 ^ 1) with 2.
  assert (0 <= t / my / 2 < 2 ^ 237) by (apply div_bound; lia).
  rewrite hi512, lo512. rewrite Z.div_small, Z.mod_small by lia.
  rewrite is_zero256 by lia. rewrite dassert_ok by reflexivity. rewrite bind_Some.
  do 2 f_equal. rewrite Z.mul_comm.
  assert (C : (t / my) mod 2 = 0 \/ (t / my) mod 2 = 1) by lia.
  destruct C as [-> | ->], (t mod my =? 0); reflexivity.
Qed.

(** 4 times the exact quotient as a sticky representation *)
Lemma quot_odd_rep t my : 0 < my -> odd_rep (2 * (t / my) + b2z (negb (t mod my =? 0))) (2 * t) my.
Proof.
  intros H. pose proof (Z.div_mod t my ltac:(lia)). pose proof (Z.mod_pos_bound t my H).
  destruct (Z.eqb_spec (t mod my) 0); cbn [negb b2z].
  - left. nia.
  - right. split. rewrite Z.odd_add, Z.odd_mul. reflexivity. nia.
Qed.

(** The quotient of two non-zero finite magnitudes. *)
Lemma exp_sub_norm a : 0 < a < INFm ->
  exp_bits (of256 a) = a / 2 ^ 236 /\ norm_bit (of256 a) = b2z (2 ^ 236 <=? a)
  /\ a / 2 ^ 236 - b2z (2 ^ 236 <=? a) = qe a /\ 0 <= qe a < 524286 /\ 0 <= a / 2 ^ 236 < 524287.
Proof.
  intros Ha. unfold INFm in Ha. rewrite exp_bits_of, norm_bit_of by lia. split; auto. split; auto.
  pose proof (Z.div_mod a (2 ^ 236) ltac:(lia)). pose proof (Z.mod_pos_bound a (2 ^ 236) ltac:(lia)).
  unfold qe. destruct (Z.leb_spec (2 ^ 236) a); cbn [b2z]; lia.
Qed.

Lemma b2z_leb_ltb a b : b2z (a <=? b) = 1 - b2z (b <? a).
Proof. destruct (Z.leb_spec a b), (Z.ltb_spec b a); cbn; lia. Qed.

Theorem div_ok vx vy : 0 <= vx < 2 ^ 256 -> 0 <= vy < 2 ^ 256 ->
  div (of256 vx) (of256 vy) = Some (of256 (spec_div vx vy)).
Proof.
  intros Hx Hy. unfold div.
  destruct (mkf_split vx Hx) as (Ex & Sx & Mx). destruct (mkf_split vy Hy) as (Ey & Sy & My).
  assert (SG : Z.land (Z.lxor (xhi (of256 vx)) (xhi (of256 vy))) HI_SIGN_MASK = xors (sgn vx) (sgn vy) * 2 ^ 127).
  { apply sign_xor; auto. }
  rewrite SG. clear SG.
  rewrite !abs_bits_of. fold (mag vx) (mag vy).
  rewrite !sticky_of by lia. rewrite any_special2_of by auto.
  unfold spec_div, nanb, infb, zerob.
  set (a := mag vx) in *. set (b := mag vy) in *. set (s := xors (sgn vx) (sgn vy)) in *.
  assert (Hs : s = 0 \/ s = 1) by (unfold s, xors; destruct (_ =? _); auto).
  clearbody a b s. clear Ex Ey Sx Sy.
  pose proof (stk_bound a Mx) as Ba. pose proof (stk_bound b My) as Bb.
  assert (Zres : u256 (s * 2 ^ 127) 0 = of256 (mkf s 0)).
  { rewrite u256_zero_lo. f_equal. unfold mkf. change (2 ^ 255) with (2 ^ 127 * 2 ^ 128). ring. }
  assert (Ires : u256 (Z.lor (s * 2 ^ 127) INF_HI) 0 = of256 (mkf s INFm)).
  { rewrite lor_add by (unfold INF_HI; lia). rewrite u256_zero_lo. f_equal. unfold mkf, INFm, INF_HI.
    change (2 ^ 255) with (2 ^ 127 * 2 ^ 128). change (2 ^ 236) with (2 ^ 108 * 2 ^ 128). ring. }
  destruct ((a =? 0) || (INFm <=? a) || ((b =? 0) || (INFm <=? b))) eqn:SP.
  - change HI_EXP_MASK with INF_HI.
    pose proof (stk_zero a Mx) as Za. pose proof (stk_zero b My) as Zb.
    pose proof (stk_gt_inf a Mx) as Ga. pose proof (stk_gt_inf b My) as Gb.
    pose proof (stk_lt_inf a Mx) as La. pose proof (stk_lt_inf b My) as Lb.
    pose proof (stk_eq_inf a Mx) as Qa. pose proof (stk_eq_inf b My) as Qb.
    set (ta := stk a) in *. set (tb := stk b) in *. clearbody ta tb.
    replace (INF_HI <? Z.max ta tb) with ((INFm <? a) || (INFm <? b)).
    2: { rewrite <- Ga, <- Gb. destruct (Z.ltb_spec INF_HI ta), (Z.ltb_spec INF_HI tb), (Z.ltb_spec INF_HI (Z.max ta tb)); auto; lia. }
    destruct ((INFm <? a) || (INFm <? b)) eqn:NN; cbn [orb]. { reflexivity. }
    apply orb_false_iff in NN as [Na Nb]. apply Z.ltb_ge in Na, Nb.
    pose proof INFm_pos.
    destruct (Z.eqb_spec a INFm) as [Ia|Ia].
    + apply Z.eqb_eq in Qa. destruct (Z.eqb_spec b INFm) as [Ib|Ib].
      * apply Z.eqb_eq in Qb. rewrite Qa, Qb, Z.eqb_refl. reflexivity.
      * assert (tb < INF_HI). { apply Z.ltb_lt. rewrite Lb. apply Z.ltb_lt. lia. }
        replace (ta =? tb) with false by (symmetry; apply Z.eqb_neq; lia).
        rewrite ltb_false by lia. rewrite Ires. reflexivity.
    + assert (ta < INF_HI). { apply Z.ltb_lt. rewrite La. apply Z.ltb_lt. lia. }
      destruct (Z.eqb_spec b INFm) as [Ib|Ib].
      * apply Z.eqb_eq in Qb.
        replace (ta =? tb) with false by (symmetry; apply Z.eqb_neq; lia).
        rewrite ltb_true by lia. rewrite Zres. reflexivity.
      * rewrite (leb_false INFm a), (leb_false INFm b), !orb_false_r in SP by lia.
        destruct (Z.eqb_spec b 0) as [B0|B0].
        -- apply Z.eqb_eq in Zb. destruct (Z.eqb_spec a 0) as [A0|A0].
           ++ apply Z.eqb_eq in Za. rewrite Za, Zb. reflexivity.
           ++ apply Z.eqb_neq in Za. replace (ta =? tb) with false by (symmetry; apply Z.eqb_neq; lia).
              rewrite ltb_false by lia. rewrite Ires. reflexivity.
        -- rewrite orb_false_r in SP. rewrite SP in Za. apply Z.eqb_eq in SP, Za. apply Z.eqb_neq in Zb.
           replace (ta =? tb) with false by (symmetry; apply Z.eqb_neq; lia).
           rewrite ltb_true by lia. rewrite Zres. do 2 f_equal. f_equal. subst a.
           rewrite (mag_val_sub 0) by lia. rewrite Z.mul_0_l.
           pose proof (mag_val_pos b ltac:(lia)).
           rewrite (rnd_mag_at 0 _ 0) by lia. rewrite Z.mul_1_r, <- (Z.mul_0_l (mag_val b)), rne_div_exact by lia. reflexivity.
  - apply orb_false_iff in SP as [SPa SPb]. apply orb_false_iff in SPa as [A0 AI]. apply orb_false_iff in SPb as [B0 BI].
    apply Z.eqb_neq in A0, B0. apply Z.leb_gt in AI, BI.
    rewrite !(ltb_false INFm) by lia. cbn [orb].
    replace (a =? INFm) with false by (symmetry; apply Z.eqb_neq; lia).
    replace (b =? INFm) with false by (symmetry; apply Z.eqb_neq; lia).
    replace (b =? 0) with false by (symmetry; apply Z.eqb_neq; lia).
    assert (HA : 0 < a < INFm) by lia. assert (HB : 0 < b < INFm) by lia.
    destruct (exp_sub_norm a HA) as (E1 & E2 & E3 & E4 & E5). destruct (exp_sub_norm b HB) as (F1 & F2 & F3 & F4 & F5).
    rewrite E1, E2, F1, F2. pose proof (b2z_bound (2 ^ 236 <=? a)). pose proof (b2z_bound (2 ^ 236 <=? b)).
    rewrite !casts_ok by lia.
    rewrite !norm_signif_ok by auto. rewrite !bind_Some.
    rewrite (subs_ok 32 (a / 2 ^ 236)) by lia. rewrite bind_Some.
    rewrite (subs_ok 32 (b / 2 ^ 236)) by lia. rewrite bind_Some. rewrite E3, F3.
    clear E1 E2 E3 E5 F1 F2 F3 F5 H H0.
    pose proof (sg_bound a ltac:(lia)) as SA. pose proof (sg_pos a ltac:(lia)) as PA.
    pose proof (sg_bound b ltac:(lia)) as SB. pose proof (sg_pos b ltac:(lia)) as PB.
    pose proof (log2_bound (sg a) 237 ltac:(lia)) as LA. pose proof (log2_bound (sg b) 237 ltac:(lia)) as LB.
    pose proof (norm_shift_bound (sg a) 236 ltac:(lia) ltac:(lia)) as NA.
    pose proof (norm_shift_bound (sg b) 236 ltac:(lia) ltac:(lia)) as NB. change (236 + 1) with 237 in NA, NB.
    rewrite !mag_val_sg by lia.
    set (shx := 236 - Z.log2 (sg a)) in *. set (shy := 236 - Z.log2 (sg b)) in *.
    set (mx := sg a * 2 ^ shx) in *. set (my := sg b * 2 ^ shy) in *.
    assert (Emx : mx = sg a * 2 ^ shx) by reflexivity. assert (Emy : my = sg b * 2 ^ shy) by reflexivity.
    assert (Hshx : 0 <= shx <= 236) by lia. assert (Hshy : 0 <= shy <= 236) by lia.
    clearbody mx my shx shy. clear LA LB.
    rewrite (subs_ok 32 (qe a)) by lia. rewrite bind_Some. rewrite !casts_ok by lia.
    rewrite (subs_ok 32 shx) by lia. rewrite bind_Some. rewrite subs_ok by lia. rewrite bind_Some.
    unfold EMIN. rewrite adds_ok by lia. rewrite bind_Some.
    rewrite uge256 by lia. rewrite (b2z_leb_ltb my mx).
    pose proof (b2z_bound (mx <? my)).
    rewrite adds_ok by lia. rewrite bind_Some.
    destruct (div_signifs_ok mx my NA NB) as [HQ HD].
    set (t := mx * 2 ^ (237 + b2z (mx <? my))) in *.
    set (l := b2z (mx <? my)) in *.
    replace (qe a - qe b - (shx - shy) + (- -262142 - 1) + (1 - l)) with (qe a - qe b - shx + shy + 262142 - l) by ring.
    set (ez := qe a - qe b - shx + shy + 262142 - l).
    (* the sticky quotient *)
    set (S := 2 * (t / my) + b2z (negb (t mod my =? 0))).
    assert (RS : odd_rep S (2 * t) my) by (apply quot_odd_rep; lia).
    pose proof (b2z_bound (negb (t mod my =? 0))) as HB1.
    assert (HS : 2 ^ 238 <= S < 2 ^ 239) by (unfold S; lia).
    pose proof (pow2_pos (qe a) ltac:(lia)) as P1. pose proof (pow2_pos (qe b) ltac:(lia)) as P2.
    pose proof (pow2_pos shx ltac:(lia)) as P3. pose proof (pow2_pos shy ltac:(lia)) as P4.
    assert (HU0 : UNITe = 262378) by reflexivity. revert HU0. generalize UNITe. intros U HU0.
    set (n := sg a * 2 ^ qe a * 2 ^ U). set (d := sg b * 2 ^ qe b).
    assert (Hn : 0 < n). { unfold n. apply Z.mul_pos_pos. nia. apply pow2_pos. lia. }
    assert (Hd : 0 < d) by (unfold d; nia).
    (* relation at a common scale: n 4 2^k1 vs d 2^k2 with k2 - k1 = ez *)
    assert (RR : forall k1 k2, 0 <= k1 -> 0 <= k2 -> k2 - k1 = ez -> odd_rep S (n * 4 * 2 ^ k1) (d * 2 ^ k2)).
    { intros k1 k2 K1 K2 K.
      pose proof (pow2_pos k1 K1) as Q1. pose proof (pow2_pos k2 K2) as Q2.
      apply odd_rep_unscale with (2 ^ (238 + l) * (2 ^ shx * 2 ^ shy)).
      { apply Z.mul_pos_pos. apply pow2_pos; lia. apply Z.mul_pos_pos; auto. }
      pose proof (odd_rep_scale S (2 * t) my (2 ^ qe b * 2 ^ shx * 2 ^ (238 + l) * 2 ^ k2)) as R.
      replace (d * 2 ^ k2 * (2 ^ (238 + l) * (2 ^ shx * 2 ^ shy))) with (my * (2 ^ qe b * 2 ^ shx * 2 ^ (238 + l) * 2 ^ k2)).
      2: { unfold d. rewrite Emy. ring. }
      replace (n * 4 * 2 ^ k1 * (2 ^ (238 + l) * (2 ^ shx * 2 ^ shy)))
        with (2 * t * (2 ^ qe b * 2 ^ shx * 2 ^ (238 + l) * 2 ^ k2)).
      { apply R; auto. repeat apply Z.mul_pos_pos; auto. apply pow2_pos; lia. }
      unfold t, n. rewrite Emx. change 4 with (2 ^ 2). change 2 with (2 ^ 1) at 1.
      transitivity (sg a * (2 ^ 1 * 2 ^ shx * 2 ^ (237 + l) * 2 ^ qe b * 2 ^ shx * 2 ^ (238 + l) * 2 ^ k2)). ring.
      transitivity (sg a * (2 ^ qe a * 2 ^ U * 2 ^ 2 * 2 ^ k1 * 2 ^ (238 + l) * 2 ^ shx * 2 ^ shy)). 2: ring.
      f_equal. rewrite <- !pow2_add by (lia). f_equal. unfold ez in *. lia. }
    assert (Hez : - 2 ^ 20 < ez < 2 ^ 20) by (unfold ez; lia).
    clearbody ez n d.
    unfold EXP_MAX. destruct (Z.leb_spec (524287 - 1) ez) as [C|C].
    + (* overflow *)
      rewrite Ires. do 2 f_equal. f_equal.
      specialize (RR 0 ez ltac:(lia) ltac:(lia) ltac:(lia)). change (2 ^ 0) with 1 in RR. rewrite Z.mul_1_r in RR.
      change 4 with (2 ^ 2) in RR.
      rewrite (fun A B D => rnd_mag_sticky _ n d ez 2 A B D ltac:(lia) RR) by (change (237 + 2) with 239; change (236 + 2) with 238; lia).
      assert (2 ^ 236 <= rne_div S (2 ^ 2)) by (apply rne_div_ge_bound; lia).
      rewrite Z.min_l; auto. unfold INFm. lia.
    + rewrite HD. rewrite bind_Some. cbv beta iota.
      set (z := t / my / 2) in *. set (c := 2 * ((t / my) mod 2) + b2z (negb (t mod my =? 0))) in *.
      assert (Hz : 2 ^ 236 <= z < 2 ^ 237).
      { unfold z. split. apply Z.div_le_lower_bound; lia. apply Z.div_lt_upper_bound; lia. }
      assert (Hc : 0 <= c < 4). { unfold c. pose proof (Z.mod_pos_bound (t / my) 2 ltac:(lia)). lia. }
      assert (ES : S = 4 * z + c). { unfold S, z, c. pose proof (Z.div_mod (t / my) 2 ltac:(lia)). lia. }
      clearbody z c S. subst S.
      destruct (Z.ltb_spec ez 0) as [N|N].
      * (* subnormal *)
        set (sh := - ez) in *.
        specialize (RR sh 0 ltac:(lia) ltac:(lia) ltac:(lia)). change (2 ^ 0) with 1 in RR. rewrite Z.mul_1_r in RR.
        pose proof (pow2_pos sh ltac:(lia)) as Psh.
        apply odd_rep_shr with (k := sh) in RR; try lia.
        apply odd_rep_unscale in RR; try lia. change 4 with (2 ^ 2) in RR at 2.
        assert (HU : shr_sticky (4 * z + c) sh < 2 ^ 239).
        { destruct (shr_sticky_4 z c sh ltac:(lia) Hc ltac:(lia)) as [D4 _].
          assert (z / 2 ^ sh < 2 ^ 237). { apply Z.div_lt_upper_bound. lia. nia. }
          pose proof (Z.div_mod (shr_sticky (4 * z + c) sh) 4 ltac:(lia)).
          pose proof (Z.mod_pos_bound (shr_sticky (4 * z + c) sh) 4 ltac:(lia)). lia. }
        rewrite (fun A B D => rnd_mag_sticky (shr_sticky (4 * z + c) sh) n d 0 2 A B D ltac:(lia)).
        2-4: lia. 2: { rewrite Z.mul_1_r. exact RR. } 2: exact HU. 2: auto.
        destruct (shr_sticky_4 z c sh ltac:(lia) Hc ltac:(lia)) as [D4 _].
        assert (HZ2 : 0 <= z / 2 ^ sh <= 2 ^ 236).
        { split. apply Z.div_pos; lia. apply Z.div_le_upper_bound. lia.
          assert (2 ^ 1 <= 2 ^ sh) by (apply pow2_le; lia). change (2 ^ 237) with (2 ^ 236 * 2) in *. clear - Hz H0. nia. }
        unfold SIGNIFICAND_BITS. destruct (Z.ltb_spec (237 + 1) sh) as [G|G].
        -- rewrite Zres. do 2 f_equal. f_equal.
           assert (Z0 : z / 2 ^ sh = 0). { apply Z.div_small. assert (2 ^ 237 <= 2 ^ sh) by (apply pow2_le; lia). lia. }
           assert (X : 2 * z + 1 < 2 ^ sh). { assert (2 ^ 239 <= 2 ^ sh) by (apply pow2_le; lia). lia. }
           assert (rne_div (shr_sticky (4 * z + c) sh) (2 ^ 2) = 0).
           { rewrite rne_div4, D4, Z0. destruct (shr_sticky_4 z c sh ltac:(lia) Hc ltac:(lia)) as [_ ->].
             assert (E2 : 2 ^ sh = 2 * 2 ^ (sh - 1)) by (rewrite <- pow2_S by lia; f_equal; lia).
             rewrite (Z.mod_small z) by lia. rewrite leb_false, ltb_false by lia. cbn [orb].
             destruct (c =? 0); reflexivity. }
           rewrite H0. rewrite Z.min_r; auto. pose proof INFm_pos; lia.
        -- destruct (adjust_ok z c sh ltac:(lia) Hc ltac:(lia)) as (r & -> & HR).
           rewrite bind_Some. rewrite shr256 by lia. rewrite bind_Some.
           rewrite (castu_ok 128 0) by lia.
           rewrite assemble_ok by lia.
           do 2 f_equal. unfold mkf. f_equal. rewrite rne_div4, D4, HR.
           rewrite Z.add_0_l. pose proof (b2z_bound (rup (shr_sticky (4 * z + c) sh mod 4) (Z.odd (z / 2 ^ sh)))).
           unfold INFm. lia.
      * specialize (RR 0 ez ltac:(lia) ltac:(lia) ltac:(lia)). change (2 ^ 0) with 1 in RR. rewrite Z.mul_1_r in RR.
        change (n * 4) with (n * 2 ^ 2) in RR.
        rewrite (fun A B D => rnd_mag_sticky _ n d ez 2 A B D ltac:(lia) RR) by (change (237 + 2) with 239; change (236 + 2) with 238; lia).
        rewrite (castu_ok 128 ez) by lia.
        rewrite assemble_ok by lia.
        do 2 f_equal. unfold mkf. f_equal. rewrite rne_div4.
        rewrite (div_eq (4 * z + c) 4 z c), (mod_eq (4 * z + c) 4 z c) by lia.
        pose proof (b2z_bound (rup c (Z.odd z))). unfold INFm. lia.
Qed.

End Div.

(** * MulProofs: f256 multiplication *)

From Coq Require Import ZArith Lia Bool.
From Verif Require Import Base BigUInt ZLemmas BigLaws BigUIntProofs BigExtra F256 Arith
  SpecLemmas F256Lemmas RoundLemmas AddProofs DivProofs.
Open Scope Z_scope.

Section Mul.
Context {P : profile}.

Lemma wmul256 a b : 0 <= a < 2 ^ 256 -> 0 <= b < 2 ^ 256 ->
  wmul (of256 a) (of256 b) = Some (of256 ((a * b) mod 2 ^ 256), of256 ((a * b) / 2 ^ 256)).
Proof. intros. apply (L_wmul _ L256); auto. Qed.

(** The product of two left-adjusted significands: upper half [h], lower half
    [l]; the result keeps 237 bits of [h]. *)
Lemma mul_signifs_ok mx my : 2 ^ 255 <= mx < 2 ^ 256 -> 2 ^ 255 <= my < 2 ^ 256 ->
  let h := mx * my / 2 ^ 256 in
  let l := (mx * my) mod 2 ^ 256 in
  let cy := b2z (2 ^ 255 <=? h) in
  let z := h / 2 ^ (18 + cy) in
  let rm := h mod 2 ^ (18 + cy) in
  exists r, mul_signifs (of256 mx) (of256 my) = Some (of256 z, cy, r)
    /\ 2 ^ 236 <= z < 2 ^ 237 /\ 0 <= r < 4
    /\ (forall o, rup r o = rup (2 * b2z (2 ^ (17 + cy) <=? rm)
           + b2z ((2 ^ (17 + cy) <? rm) || negb (l =? 0))) o)
    /\ (r = 0 <-> rm < 2 ^ (16 + cy) /\ l = 0).
Proof.
  intros Hx Hy h l cy z rm.
  assert (HP : 2 ^ 510 <= mx * my < 2 ^ 512).
  { change (2 ^ 510) with (2 ^ 255 * 2 ^ 255). change (2 ^ 512) with (2 ^ 256 * 2 ^ 256). clear - Hx Hy. nia. }
  assert (Hh : 2 ^ 254 <= h < 2 ^ 256).
  { unfold h. split. apply Z.div_le_lower_bound; lia. apply Z.div_lt_upper_bound; lia. }
  assert (Hl : 0 <= l < 2 ^ 256) by (apply Z.mod_pos_bound; lia).
  pose proof (b2z_bound (2 ^ 255 <=? h)) as Bc. fold cy in Bc.
  assert (Pk : 0 < 2 ^ (18 + cy)) by (apply pow2_pos; lia).
  assert (Hz : 2 ^ 236 <= z < 2 ^ 237).
  { unfold z, cy. destruct (Z.leb_spec (2 ^ 255) h); cbn [b2z].
    change (2 ^ (18 + 1)) with (2 ^ 19). split. apply Z.div_le_lower_bound; lia. apply Z.div_lt_upper_bound; lia.
    change (2 ^ (18 + 0)) with (2 ^ 18). split. apply Z.div_le_lower_bound; lia. apply Z.div_lt_upper_bound; lia. }
  assert (Hr : 0 <= rm < 2 ^ (18 + cy)) by (apply Z.mod_pos_bound; lia).
  unfold mul_signifs, HI_SIGN_MASK. rewrite !xhi_leb by lia.
  change (2 ^ 127 * 2 ^ 128) with (2 ^ 255).
  rewrite !dassert_ok by (apply Z.leb_le; lia). rewrite !bind_Some.
  rewrite wmul256 by lia. rewrite bind_Some. cbv beta iota zeta. fold h l.
  rewrite xhi_leb by lia. change (2 ^ 127 * 2 ^ 128) with (2 ^ 255). fold cy.
  unfold EXP_BITS. change (19 - 1) with 18. rewrite addu_ok by lia. rewrite bind_Some.
  rewrite rem_pow2_256 by lia. fold rm. rewrite bind_Some. rewrite xlo_of.
  assert (2 ^ (18 + cy) <= 2 ^ 19) by (apply pow2_le; lia).
  rewrite (Z.mod_small rm) by lia.
  rewrite !subu_ok by lia. rewrite !bind_Some. rewrite shru_ok, shlu_ok by lia. rewrite !bind_Some.
  assert (E1 : 2 ^ (18 + cy) = 2 * 2 ^ (17 + cy)) by (rewrite <- pow2_S by lia; f_equal; lia).
  assert (E2 : 2 ^ (17 + cy) = 2 * 2 ^ (16 + cy)) by (rewrite <- pow2_S by lia; f_equal; lia).
  assert (Pk2 : 0 < 2 ^ (16 + cy)) by (apply pow2_pos; lia).
  rewrite Z.mul_1_l. replace (18 + cy - 2) with (16 + cy) by ring. replace (18 + cy - 1) with (17 + cy) by ring.
  rewrite (Z.mod_small (2 ^ (17 + cy))) by lia.
  assert (Hq : 0 <= rm / 2 ^ (16 + cy) < 4) by (split; [apply Z.div_pos|apply Z.div_lt_upper_bound]; lia).
  rewrite castu_ok by lia. rewrite is_zero256 by lia.
  rewrite shr256 by lia. rewrite bind_Some. fold z.
  eexists. split. reflexivity. split. exact Hz.
  rewrite (lor_small (rm / 2 ^ (16 + cy))) by (first [apply b2z_bound | lia]).
  assert (Y : 0 <= (if b2z (2 ^ (17 + cy) <? rm) =? 0 then rm / 2 ^ (16 + cy) else 2 * (rm / 2 ^ (16 + cy) / 2) + 1) < 4).
  { destruct (_ =? 0). lia. pose proof (Z.div_mod (rm / 2 ^ (16 + cy)) 2 ltac:(lia)).
    pose proof (Z.mod_pos_bound (rm / 2 ^ (16 + cy)) 2 ltac:(lia)). lia. }
  split.
  { rewrite lor_small by (first [apply b2z_bound | lia]). destruct (b2z (negb _) =? 0). lia.
    match type of Y with 0 <= ?e < 4 => set (q := e) in * end. pose proof (Z.div_mod q 2 ltac:(lia)).
    pose proof (Z.mod_pos_bound q 2 ltac:(lia)). lia. }
  split.
  { intros o. rewrite <- (lor_small (rm / 2 ^ (16 + cy))) by (first [apply b2z_bound | lia]). apply rnd_bits_or; lia. }
  { rewrite lor_small by (first [apply b2z_bound | lia]).
    pose proof (Z.div_mod rm (2 ^ (16 + cy)) ltac:(lia)). pose proof (Z.mod_pos_bound rm (2 ^ (16 + cy)) ltac:(lia)).
    set (q := rm / 2 ^ (16 + cy)) in *. clearbody q.
    pose proof (Z.div_mod q 2 ltac:(lia)). pose proof (Z.mod_pos_bound q 2 ltac:(lia)).
    assert (0 <= q / 2) by (apply Z.div_pos; lia).
    assert (Q0 : q = 0 <-> rm < 2 ^ (16 + cy)) by (clear - H0 H1 Hq; set (T := 2 ^ (16 + cy)) in *; clearbody T; split; nia).
    pose proof (Z.div_mod (2 * (q / 2) + 1) 2 ltac:(lia)). pose proof (Z.mod_pos_bound (2 * (q / 2) + 1) 2 ltac:(lia)).
    destruct (Z.ltb_spec (2 ^ (17 + cy)) rm), (Z.eqb_spec l 0); cbn [b2z negb Z.eqb] in *; try tauto; lia. }
Qed.

(** The one way multiplication can go wrong: the exact product n / d (in units of
    2^-262378) is subnormal, and exceeds the midpoint between the
    neighbours [m] and [m + 1] by less than a 2^-238th part of it; the result
    is then [m] though [m + 1] is nearer. *)
Definition mul_miss (n d m : Z) : Prop :=
  n < 2 ^ 236 * d /\ rnd_mag n d = m + 1 /\ Z.odd m = false
  /\ (2 * m + 1) * d < 2 * n /\ (2 * n - (2 * m + 1) * d) * 2 ^ 238 < (2 * m + 1) * d.

Lemma mul_abs_ok a b : 0 < a < INFm -> 0 < b < INFm ->
  exists w r, mul_abs_finite (of256 a) (of256 b) = Some (of256 w, r)
   /\ 0 <= w <= INFm /\ (w = INFm -> r = 0) /\
   let m := w + b2z (rup r (Z.odd w)) in
   let n := mag_val a * mag_val b in
   m = rnd_mag n (2 ^ UNITe) \/ mul_miss n (2 ^ UNITe) m.
Proof.
  intros HA HB. unfold mul_abs_finite.
  destruct (exp_sub_norm a HA) as (E1 & E2 & E3 & E4 & E5). destruct (exp_sub_norm b HB) as (F1 & F2 & F3 & F4 & F5).
  rewrite E1, E2, F1, F2. pose proof (b2z_bound (2 ^ 236 <=? a)). pose proof (b2z_bound (2 ^ 236 <=? b)).
  rewrite !casts_ok by lia.
  rewrite !left_adj_ok by auto. rewrite !bind_Some. cbv beta iota.
  unfold INFm in HA, HB.
  pose proof (sg_bound a ltac:(lia)) as SA. pose proof (sg_pos a ltac:(lia)) as PA.
  pose proof (sg_bound b ltac:(lia)) as SB. pose proof (sg_pos b ltac:(lia)) as PB.
  pose proof (log2_bound (sg a) 237 ltac:(lia)) as LA. pose proof (log2_bound (sg b) 237 ltac:(lia)) as LB.
  pose proof (norm_shift_bound (sg a) 255 ltac:(lia) ltac:(lia)) as NA.
  pose proof (norm_shift_bound (sg b) 255 ltac:(lia) ltac:(lia)) as NB. change (255 + 1) with 256 in NA, NB.
  rewrite !mag_val_sg by lia.
  set (shx := 255 - Z.log2 (sg a)) in *. set (shy := 255 - Z.log2 (sg b)) in *.
  set (mx := sg a * 2 ^ shx) in *. set (my := sg b * 2 ^ shy) in *.
  assert (Emx : mx = sg a * 2 ^ shx) by reflexivity. assert (Emy : my = sg b * 2 ^ shy) by reflexivity.
  assert (Hshx : 0 <= shx <= 255) by lia. assert (Hshy : 0 <= shy <= 255) by lia.
  clearbody mx my shx shy. clear LA LB.
  destruct (mul_signifs_ok mx my NA NB) as (r & -> & Hz & Hr4 & Hrup & Hr0).
  rewrite bind_Some. cbv beta iota.
  set (h := mx * my / 2 ^ 256) in *. set (l := (mx * my) mod 2 ^ 256) in *.
  set (cy := b2z (2 ^ 255 <=? h)) in *.
  assert (Bcy : 0 <= cy <= 1) by apply b2z_bound.
  set (z := h / 2 ^ (18 + cy)) in *. set (rm := h mod 2 ^ (18 + cy)) in *.
  assert (Ph : mx * my = h * 2 ^ 256 + l).
  { unfold h, l. pose proof (Z.div_mod (mx * my) (2 ^ 256) ltac:(lia)). lia. }
  assert (Pk : 0 < 2 ^ (18 + cy)) by (apply pow2_pos; lia).
  assert (Pz : h = z * 2 ^ (18 + cy) + rm).
  { unfold z, rm. pose proof (Z.div_mod h (2 ^ (18 + cy)) ltac:(lia)). lia. }
  assert (Hl : 0 <= l < 2 ^ 256) by (apply Z.mod_pos_bound; lia).
  assert (Hrm : 0 <= rm < 2 ^ (18 + cy)) by (apply Z.mod_pos_bound; lia).
  clearbody z rm h l cy.
  rewrite (subs_ok 32 (a / 2 ^ 236)) by lia. rewrite bind_Some.
  rewrite (subs_ok 32 (b / 2 ^ 236)) by lia. rewrite bind_Some. rewrite E3, F3.
  clear E1 E2 E3 E5 F1 F2 F3 F5 H H0.
  rewrite adds_ok by lia. rewrite bind_Some. rewrite addu_ok by lia. rewrite bind_Some.
  rewrite !casts_ok by lia. rewrite subs_ok by lia. rewrite bind_Some.
  unfold EMIN, EXP_BITS. rewrite adds_ok by lia. rewrite bind_Some. rewrite adds_ok by lia. rewrite bind_Some.
  set (ez := qe a + qe b - (shx + shy) + (-262142 + 2 * 19) + cy).
  assert (E16 : 2 ^ (17 + cy) = 2 * 2 ^ (16 + cy)) by (rewrite <- pow2_S by lia; f_equal; lia).
  assert (E17 : 2 ^ (18 + cy) = 2 * 2 ^ (17 + cy)) by (rewrite <- pow2_S by lia; f_equal; lia).
  assert (P16 : 0 < 2 ^ (16 + cy)) by (apply pow2_pos; lia).
  (* exact sticky representation *)
  set (c := 2 * b2z (2 ^ (17 + cy) <=? rm)
    + b2z (negb ((rm =? 0) || (rm =? 2 ^ (17 + cy))) || negb (l =? 0))).
  pose proof (b2z_bound (2 ^ (17 + cy) <=? rm)) as B1.
  pose proof (b2z_bound (negb ((rm =? 0) || (rm =? 2 ^ (17 + cy))) || negb (l =? 0))) as B2.
  assert (Hc : 0 <= c < 4) by (unfold c; lia).
  assert (Rc : forall o, rup r o = rup c o).
  { intros o. rewrite Hrup. unfold c.
    destruct (Z.leb_spec (2 ^ (17 + cy)) rm), (Z.ltb_spec (2 ^ (17 + cy)) rm), (Z.eqb_spec rm 0),
      (Z.eqb_spec rm (2 ^ (17 + cy))), (Z.eqb_spec l 0); try (exfalso; lia); reflexivity. }
  assert (C0 : c = 0 <-> rm = 0 /\ l = 0).
  { unfold c. destruct (Z.leb_spec (2 ^ (17 + cy)) rm), (Z.eqb_spec rm 0),
      (Z.eqb_spec rm (2 ^ (17 + cy))), (Z.eqb_spec l 0); cbn [b2z negb orb]; lia. }
  assert (RS : odd_rep (4 * z + c) (mx * my) (2 ^ 256 * 2 ^ (16 + cy))).
  { rewrite Ph, Pz, E17, E16.
    assert (HO : Z.odd (4 * z + c) = Z.odd c).
    { rewrite Z.odd_add, Z.odd_mul. change (Z.odd 4) with false. cbn [andb]. destruct (Z.odd c); reflexivity. }
    unfold odd_rep. rewrite HO. unfold c. rewrite E17 in Hrm. rewrite E16 in *. clear - Hrm Hl P16.
    set (T := 2 ^ (16 + cy)) in *. clearbody T.
    destruct (Z.leb_spec (2 * T) rm), (Z.eqb_spec rm 0), (Z.eqb_spec rm (2 * T)), (Z.eqb_spec l 0);
      cbn [b2z negb orb]; try (exfalso; lia); try (left; subst; lia); right; (split; [reflexivity|]); nia. }
  clearbody c.
  set (S := 4 * z + c) in *.
  assert (HS : 2 ^ 238 <= S < 2 ^ 239) by (unfold S; lia).
  pose proof (pow2_pos (qe a) ltac:(lia)) as P1. pose proof (pow2_pos (qe b) ltac:(lia)) as P2.
  pose proof (pow2_pos shx ltac:(lia)) as P3. pose proof (pow2_pos shy ltac:(lia)) as P4.
  assert (HU0 : UNITe = 262378) by reflexivity. revert HU0. generalize UNITe. intros U HU0.
  set (n := sg a * 2 ^ qe a * (sg b * 2 ^ qe b)).
  assert (Hn : 0 < n) by (unfold n; repeat apply Z.mul_pos_pos; lia).
  assert (Hd : 0 < 2 ^ U) by (apply pow2_pos; lia).
  assert (Hez : - 2 ^ 20 < ez < 2 ^ 20) by (unfold ez; lia).
  (* n * 4 * 2^k1 / (d * 2^k2) is the product of the significands *)
  assert (EQ : forall k1 k2, 0 <= k1 -> 0 <= k2 -> k2 - k1 = ez ->
     n * 4 * 2 ^ k1 * (2 ^ 256 * 2 ^ (16 + cy)) = mx * my * (2 ^ U * 2 ^ k2)).
  { intros k1 k2 K1 K2 K. unfold n. rewrite Emx, Emy. change 4 with (2 ^ 2).
    transitivity (sg a * sg b * (2 ^ qe a * 2 ^ qe b * 2 ^ 2 * 2 ^ k1 * 2 ^ 256 * 2 ^ (16 + cy))). ring.
    transitivity (sg a * sg b * (2 ^ shx * 2 ^ shy * 2 ^ U * 2 ^ k2)). 2: ring.
    f_equal. rewrite <- !pow2_add by lia. f_equal. unfold ez in *. lia. }
  assert (RR : forall k1 k2, 0 <= k1 -> 0 <= k2 -> k2 - k1 = ez -> odd_rep S (n * 4 * 2 ^ k1) (2 ^ U * 2 ^ k2)).
  { intros k1 k2 K1 K2 K. pose proof (pow2_pos k2 K2) as Q2.
    apply odd_rep_unscale with (2 ^ 256 * 2 ^ (16 + cy)). { apply Z.mul_pos_pos; lia. }
    rewrite (EQ k1 k2 K1 K2 K). rewrite (Z.mul_comm (2 ^ U * 2 ^ k2)).
    apply odd_rep_scale. { apply Z.mul_pos_pos; lia. } exact RS. }
  clearbody ez n. revert EQ RR Hd. generalize (2 ^ U). clear HU0 U. intros d EQ RR Hd.
  unfold EXP_MAX. destruct (Z.leb_spec (524287 - 1) ez) as [C|C].
  - exists INFm, 0. split. { reflexivity. } split. { unfold INFm; lia. } split; auto. left.
    specialize (RR 0 ez ltac:(lia) ltac:(lia) ltac:(lia)). change (2 ^ 0) with 1 in RR. rewrite Z.mul_1_r in RR.
    change 4 with (2 ^ 2) in RR.
    rewrite (fun A B D => rnd_mag_sticky S n d ez 2 A B D ltac:(lia) RR) by (change (237 + 2) with 239; change (236 + 2) with 238; lia).
    assert (2 ^ 236 <= rne_div S (2 ^ 2)) by (apply rne_div_ge_bound; lia).
    rewrite Z.min_l; [|unfold INFm; lia]. change (b2z (rup 0 (Z.odd INFm))) with 0. lia.
  - destruct (Z.ltb_spec ez 0) as [N|N].
    + set (sh := - ez) in *.
      pose proof (pow2_pos sh ltac:(lia)) as Psh.
      specialize (EQ sh 0 ltac:(lia) ltac:(lia) ltac:(lia)).
      specialize (RR sh 0 ltac:(lia) ltac:(lia) ltac:(lia)). change (2 ^ 0) with 1 in RR, EQ. rewrite Z.mul_1_r in RR, EQ.
      apply odd_rep_shr with (k := sh) in RR; try lia.
      apply odd_rep_unscale in RR; try lia. change (n * 4) with (n * 2 ^ 2) in RR.
      assert (HZ2 : 0 <= z / 2 ^ sh <= 2 ^ 236).
      { split. apply Z.div_pos; lia. apply Z.div_le_upper_bound. lia.
        assert (X : 2 ^ 1 <= 2 ^ sh) by (apply pow2_le; lia). change (2 ^ 237) with (2 ^ 236 * 2) in *. clear - Hz X. nia. }
      destruct (shr_sticky_4 z c sh ltac:(lia) Hc ltac:(lia)) as [D4 R4]. fold S in D4, R4.
      assert (HU : shr_sticky S sh < 2 ^ 239).
      { pose proof (Z.div_mod (shr_sticky S sh) 4 ltac:(lia)).
        pose proof (Z.mod_pos_bound (shr_sticky S sh) 4 ltac:(lia)). lia. }
      assert (RES : rnd_mag n d = z / 2 ^ sh + b2z (rup (shr_sticky S sh mod 4) (Z.odd (z / 2 ^ sh)))).
      { rewrite (fun A B D => rnd_mag_sticky (shr_sticky S sh) n d 0 2 A B D ltac:(lia)).
        2-4: lia. 2: { rewrite Z.mul_1_r. exact RR. } 2: exact HU. 2: auto.
        rewrite rne_div4, D4. 
        pose proof (b2z_bound (rup (shr_sticky S sh mod 4) (Z.odd (z / 2 ^ sh)))). unfold INFm. lia. }
      unfold SIGNIFICAND_BITS. destruct (Z.ltb_spec (237 + 1) sh) as [G|G].
      * exists 0, 0. split. { reflexivity. } split. { unfold INFm; lia. } split; auto. left. rewrite RES.
        assert (X : 2 * z + 1 < 2 ^ sh). { assert (2 ^ 239 <= 2 ^ sh) by (apply pow2_le; lia). lia. }
        assert (E2 : 2 ^ sh = 2 * 2 ^ (sh - 1)) by (rewrite <- pow2_S by lia; f_equal; lia).
        rewrite R4. rewrite (Z.div_small z), (Z.mod_small z) by lia. rewrite leb_false, ltb_false by lia. cbn [orb].
        destruct (c =? 0); reflexivity.
      * destruct (adjust_ok z r sh ltac:(lia) Hr4 ltac:(lia)) as (r' & -> & HR).
        rewrite bind_Some. rewrite shr256 by lia. rewrite bind_Some.
        rewrite (castu_ok 128 0) by lia.
        pose proof (asm_add (z / 2 ^ sh) 0 ltac:(lia) ltac:(lia) ltac:(lia)) as AA. 
        rewrite Z.mul_0_l, Z.add_0_l in AA.
        exists (z / 2 ^ sh), r'. split.
        { destruct (addu _ _ _) as [hh|]; cbn [bind] in *; [|discriminate].
          apply (f_equal (fun o => match o with Some x => x | None => of256 0 end)) in AA. rewrite AA. reflexivity. }
        split. { unfold INFm; lia. } split. { unfold INFm; lia. }
        destruct (shr_sticky_4 z r sh ltac:(lia) Hr4 ltac:(lia)) as [_ R4'].
        rewrite RES. rewrite HR, R4, R4'.
        destruct (Z.eqb_spec c 0) as [Hc0|Hc0]; destruct (Z.eqb_spec r 0) as [Hr00|Hr00].
        -- left. reflexivity.
        -- exfalso. apply Hr00, Hr0. destruct C0 as [C0 _]. destruct (C0 Hc0). lia.
        -- cbn [negb]. rewrite orb_true_r, orb_false_r.
           destruct (Z.ltb_spec (2 ^ (sh - 1)) (z mod 2 ^ sh)). { left; reflexivity. }
           destruct (Z.leb_spec (2 ^ (sh - 1)) (z mod 2 ^ sh)). 2: { left; reflexivity. }
           destruct (Z.odd (z / 2 ^ sh)) eqn:OO. { left; reflexivity. }
           right. cbn [b2z rup Z.ltb Z.compare Z.eqb orb andb Z.mul Z.add].
           change (b2z (rup 2 false)) with 0. rewrite Z.add_0_r.
           assert (E2 : 2 ^ sh = 2 * 2 ^ (sh - 1)) by (rewrite <- pow2_S by lia; f_equal; lia).
           pose proof (Z.div_mod z (2 ^ sh) ltac:(lia)) as Dz.
           assert (Ez : z mod 2 ^ sh = 2 ^ (sh - 1)) by lia. rewrite Ez in Dz.
           destruct Hr0 as [Hr0 _]. destruct (Hr0 Hr00) as [Hrm2 Hl0].
           assert (Hrm0 : 0 < rm). { destruct (Z.eq_dec rm 0); [|lia]. exfalso. apply Hc0, C0. auto. }
           assert (EQ2 : n * 2 ^ sh * 2 ^ (18 + cy) = (z * 2 ^ (18 + cy) + rm) * d).
           { rewrite Ph, Hl0, Z.add_0_r, Pz in EQ. rewrite E17, E16 in *. clear - EQ.
             apply Z.mul_reg_r with (2 ^ 256). lia. lia. }
           set (q := z / 2 ^ sh) in *. set (t := 2 ^ (sh - 1)) in *. set (T := 2 ^ (18 + cy)) in *.
           assert (HT : 4 * rm < T) by lia.
           assert (Pt : 0 < t) by lia. clearbody q t T.
           assert (EQ3 : (2 * n - (2 * q + 1) * d) * (2 * t * T) = 2 * rm * d).
           { rewrite E2 in *. clear - EQ2 Dz. subst z. lia. }
           assert (PT : 0 < 2 * t * T) by (apply Z.mul_pos_pos; lia).
           assert (X1 : (2 * q + 1) * d < 2 * n).
           { apply Z.lt_0_sub. apply (proj1 (Z.mul_pos_cancel_r _ (2 * t * T) ltac:(lia))). rewrite EQ3. apply Z.mul_pos_pos; lia. }
           split; [|split; [|split; [|split]]]; auto.
           ++ assert (z < 2 ^ 237) by lia. apply Z.nle_gt. intros Q.
              assert (2 ^ 236 * 2 ^ sh * T < z * T + T).
              { apply (proj2 (Z.mul_lt_mono_pos_r d _ _ ltac:(lia))).
                assert (n * 2 ^ sh * T < (z * T + T) * d) by (rewrite EQ2; apply Z.mul_lt_mono_pos_r; lia).
                assert (2 ^ 236 * d * (2 ^ sh * T) <= n * (2 ^ sh * T)) by (apply Z.mul_le_mono_nonneg_r; [apply Z.mul_nonneg_nonneg|]; lia).
                lia. }
              assert (Y : 2 ^ 236 * 2 ^ sh <= z). { clear - H2 Pk. nia. }
              assert (2 ^ 1 <= 2 ^ sh) by (apply pow2_le; lia).
              change (2 ^ 1) with 2 in *. lia.
           ++ rewrite RES, R4, ?OO. reflexivity.
           ++ apply (proj2 (Z.mul_lt_mono_pos_r (2 * t * T) _ _ ltac:(lia))).
              replace ((2 * n - (2 * q + 1) * d) * 2 ^ 238 * (2 * t * T))
                with (2 ^ 238 * ((2 * n - (2 * q + 1) * d) * (2 * t * T))) by ring.
              rewrite EQ3.
              replace ((2 * q + 1) * d * (2 * t * T)) with (2 * z * (d * T)). 2: { rewrite E2 in Dz. subst z. ring. }
              apply Z.lt_le_trans with (2 ^ 237 * (d * T)).
              { replace (2 ^ 238 * (2 * rm * d)) with (2 ^ 237 * (d * (4 * rm))) by ring.
                apply Z.mul_lt_mono_pos_l. lia. apply Z.mul_lt_mono_pos_l; lia. }
              apply Z.mul_le_mono_nonneg_r. apply Z.mul_nonneg_nonneg; lia. lia.
        -- left. reflexivity.
    + specialize (RR 0 ez ltac:(lia) ltac:(lia) ltac:(lia)). change (2 ^ 0) with 1 in RR. rewrite Z.mul_1_r in RR.
      change (n * 4) with (n * 2 ^ 2) in RR.
      rewrite (castu_ok 128 ez) by lia.
      pose proof (asm_add z ez ltac:(lia) ltac:(lia) ltac:(lia)) as AA.
      exists (ez * 2 ^ 236 + z), r. split.
      { destruct (addu _ _ _) as [hh|]; cbn [bind] in *; [|discriminate].
        apply (f_equal (fun o => match o with Some x => x | None => of256 0 end)) in AA. rewrite AA. reflexivity. }
      split. { unfold INFm; lia. } split. { unfold INFm; lia. }
      left.
      rewrite (fun A B D => rnd_mag_sticky _ n d ez 2 A B D ltac:(lia) RR) by (change (237 + 2) with 239; change (236 + 2) with 238; lia).
      rewrite rne_div4. unfold S.
      rewrite (div_eq (4 * z + c) 4 z c), (mod_eq (4 * z + c) 4 z c) by lia. rewrite Rc.
      replace (Z.odd (ez * 2 ^ 236 + z)) with (Z.odd z).
      2: { rewrite Z.odd_add, Z.odd_mul. change (Z.odd (2 ^ 236)) with false. rewrite andb_false_r. destruct (Z.odd z); reflexivity. }
      pose proof (b2z_bound (rup c (Z.odd z))). unfold INFm. lia.
Qed.

Lemma mul_zero_mag b : rnd_mag (mag_val 0 * b) (2 ^ UNITe) = 0.
Proof.
  rewrite (mag_val_sub 0) by lia. rewrite Z.mul_0_l.
  assert (HU0 : 0 < 2 ^ UNITe) by (apply pow2_pos; unfold UNITe; lia). revert HU0. generalize (2 ^ UNITe). intros d Hd.
  rewrite (rnd_mag_at 0 _ 0) by lia. rewrite Z.mul_1_r, <- (Z.mul_0_l d), rne_div_exact by lia. reflexivity.
Qed.

Theorem mul_ok vx vy : 0 <= vx < 2 ^ 256 -> 0 <= vy < 2 ^ 256 ->
  mul (of256 vx) (of256 vy) = Some (of256 (spec_mul vx vy))
  \/ finb vx = true /\ finb vy = true /\ exists m,
     mul_miss (mag_val (mag vx) * mag_val (mag vy)) (2 ^ UNITe) m
     /\ mul (of256 vx) (of256 vy) = Some (of256 (mkf (xors (sgn vx) (sgn vy)) m)).
Proof.
  intros Hx Hy. unfold mul.
  destruct (mkf_split vx Hx) as (Ex & Sx & Mx). destruct (mkf_split vy Hy) as (Ey & Sy & My).
  rewrite sign_xor by auto.
  rewrite !abs_bits_of. fold (mag vx) (mag vy).
  rewrite !sticky_of by lia. rewrite any_special2_of by auto.
  unfold spec_mul, nanb, infb, zerob, finb.
  set (a := mag vx) in *. set (b := mag vy) in *. set (s := xors (sgn vx) (sgn vy)) in *.
  assert (Hs : s = 0 \/ s = 1) by (unfold s, xors; destruct (_ =? _); auto).
  clearbody a b s. clear Ex Ey Sx Sy.
  pose proof (stk_bound a Mx) as Ba. pose proof (stk_bound b My) as Bb.
  assert (Zres : u256 (s * 2 ^ 127) 0 = of256 (mkf s 0)).
  { rewrite u256_zero_lo. f_equal. unfold mkf. change (2 ^ 255) with (2 ^ 127 * 2 ^ 128). ring. }
  assert (Ires : u256 (Z.lor (s * 2 ^ 127) INF_HI) 0 = of256 (mkf s INFm)).
  { rewrite lor_add by (unfold INF_HI; lia). rewrite u256_zero_lo. f_equal. unfold mkf, INFm, INF_HI.
    change (2 ^ 255) with (2 ^ 127 * 2 ^ 128). change (2 ^ 236) with (2 ^ 108 * 2 ^ 128). ring. }
  destruct ((a =? 0) || (INFm <=? a) || ((b =? 0) || (INFm <=? b))) eqn:SP.
  - left.
    pose proof (stk_zero a Mx) as Za. pose proof (stk_zero b My) as Zb.
    pose proof (stk_gt_inf a Mx) as Ga. pose proof (stk_gt_inf b My) as Gb.
    pose proof (stk_lt_inf a Mx) as La. pose proof (stk_lt_inf b My) as Lb.
    pose proof (stk_eq_inf a Mx) as Qa. pose proof (stk_eq_inf b My) as Qb.
    set (ta := stk a) in *. set (tb := stk b) in *. clearbody ta tb.
    assert (IP : 0 < INF_HI) by reflexivity. pose proof INFm_pos as IM.
    assert (MN : (Z.min ta tb =? 0) = (a =? 0) || (b =? 0)).
    { rewrite <- Za, <- Zb. destruct (Z.eqb_spec ta 0), (Z.eqb_spec tb 0), (Z.eqb_spec (Z.min ta tb) 0); auto; lia. }
    assert (MG : (INF_HI <? Z.max ta tb) = (INFm <? a) || (INFm <? b)).
    { rewrite <- Ga, <- Gb. destruct (Z.ltb_spec INF_HI ta), (Z.ltb_spec INF_HI tb), (Z.ltb_spec INF_HI (Z.max ta tb)); auto; lia. }
    assert (ML : (Z.max ta tb <? INF_HI) = (a <? INFm) && (b <? INFm)).
    { rewrite <- La, <- Lb. destruct (Z.ltb_spec ta INF_HI), (Z.ltb_spec tb INF_HI), (Z.ltb_spec (Z.max ta tb) INF_HI); auto; lia. }
    assert (ME : (Z.max ta tb =? INF_HI) = negb ((INFm <? a) || (INFm <? b)) && ((a =? INFm) || (b =? INFm))).
    { rewrite <- Ga, <- Gb, <- Qa, <- Qb.
      destruct (Z.ltb_spec INF_HI ta), (Z.ltb_spec INF_HI tb), (Z.eqb_spec ta INF_HI), (Z.eqb_spec tb INF_HI),
        (Z.eqb_spec (Z.max ta tb) INF_HI); auto; lia. }
    rewrite MN, MG, ML, ME. rewrite Zres, Ires. clear - SP IM.
    destruct (Z.eqb_spec a 0) as [->|A0].
    + rewrite mul_zero_mag. revert SP.
      destruct (Z.ltb_spec INFm b), (Z.ltb_spec b INFm), (Z.eqb_spec b INFm), (Z.eqb_spec b 0), (Z.leb_spec INFm b); try (exfalso; lia); reflexivity.
    + destruct (Z.eqb_spec b 0) as [->|B0].
      * rewrite (Z.mul_comm (mag_val a)), mul_zero_mag. revert SP.
        destruct (Z.ltb_spec INFm a), (Z.ltb_spec a INFm), (Z.eqb_spec a INFm), (Z.leb_spec INFm a); try (exfalso; lia); reflexivity.
      * cbn [orb andb] in *.
        destruct (Z.ltb_spec INFm a), (Z.eqb_spec a INFm), (Z.ltb_spec INFm b), (Z.eqb_spec b INFm),
          (Z.leb_spec INFm a), (Z.leb_spec INFm b); try (exfalso; lia); try reflexivity; discriminate.
  - apply orb_false_iff in SP as [SPa SPb]. apply orb_false_iff in SPa as [A0 AI]. apply orb_false_iff in SPb as [B0 BI].
    apply Z.eqb_neq in A0, B0. apply Z.leb_gt in AI, BI.
    rewrite !(ltb_false INFm) by lia. rewrite !(ltb_true _ INFm) by lia. cbn [orb].
    replace (a =? INFm) with false by (symmetry; apply Z.eqb_neq; lia).
    replace (b =? INFm) with false by (symmetry; apply Z.eqb_neq; lia). cbn [orb].
    destruct (mul_abs_ok a b ltac:(lia) ltac:(lia)) as (w & r & -> & Hw & Hr & HM). cbv zeta in HM.
    rewrite bind_Some. unfold INFm in Hw. rewrite round2_ok by lia.
    destruct HM as [HM|HM].
    + left. unfold mkf. rewrite HM. reflexivity.
    + right. split; [reflexivity|]. split; [reflexivity|]. eexists. split. exact HM. reflexivity.
Qed.

(** When the exact product is at least the least normal number, the result is
    the correctly rounded one. *)
Corollary mul_normal vx vy : 0 <= vx < 2 ^ 256 -> 0 <= vy < 2 ^ 256 ->
  2 ^ 236 * 2 ^ UNITe <= mag_val (mag vx) * mag_val (mag vy) ->
  mul (of256 vx) (of256 vy) = Some (of256 (spec_mul vx vy)).
Proof.
  intros Hx Hy Hn. destruct (mul_ok vx vy Hx Hy) as [H|(_ & _ & m & (M & _) & _)]; auto.
  exfalso. apply (Z.lt_irrefl (2 ^ 236 * 2 ^ UNITe)). eapply Z.le_lt_trans; eassumption.
Qed.

End Mul.

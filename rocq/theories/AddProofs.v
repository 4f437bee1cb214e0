(** * AddProofs: f256 addition and subtraction round correctly *)

From Coq Require Import ZArith Lia Bool.
From Verif Require Import Base BigUInt ZLemmas BigLaws BigUIntProofs BigExtra F256 Arith
  SpecLemmas F256Lemmas.
Open Scope Z_scope.

Section Add.
Context {P : profile}.

Lemma or_lo_bit z b : 0 <= z -> 0 <= b <= 1 ->
  u256 (xhi (of256 z)) (Z.lor (xlo (of256 z)) b) = of256 (if b =? 0 then z else 2 * (z / 2) + 1).
Proof.
  intros Hz Hb. rewrite xhi_of, xlo_of.
  pose proof (Z.div_mod z (2 ^ 128) ltac:(lia)) as E. pose proof (Z.mod_pos_bound z (2 ^ 128) ltac:(lia)) as B.
  destruct (Z.eqb_spec b 0) as [->|].
  - rewrite Z.lor_0_r, u256_hi. apply of256_ext. lia.
  - replace b with 1 by lia. rewrite lor_1 by lia.
    assert (0 <= 2 * (z mod 2 ^ 128 / 2) + 1 < 2 ^ 128) by dlia.
    rewrite u256_of by lia. apply of256_ext. dlia.
Qed.

Lemma shr_sticky1_bound z : 2 ^ 240 <= z < 2 ^ 241 -> 2 ^ 239 <= shr_sticky z 1 < 2 ^ 240.
Proof.
  intros. unfold shr_sticky. change (2 ^ 1) with 2.
  pose proof (Z.div_mod z 2 ltac:(lia)). pose proof (Z.mod_pos_bound z 2 ltac:(lia)).
  pose proof (Z.div_mod (z / 2) 2 ltac:(lia)). pose proof (Z.mod_pos_bound (z / 2) 2 ltac:(lia)).
  destruct (z mod 2 =? 0); lia.
Qed.

Lemma exact_tail_ok e z : 0 <= e < 2 ^ 19 -> 0 <= z < 2 ^ 237 -> (e = 0 /\ z < 2 ^ 236 \/ 1 <= e /\ 2 ^ 236 <= z) ->
  exact_tail e (of256 z) = Some (of256 (Z.max 0 (e - 1) * 2 ^ 236 + z)).
Proof.
  intros He Hz C. unfold exact_tail. rewrite asm_fraction by lia. do 2 f_equal.
  destruct C as [[-> C]|[C1 C2]].
  - rewrite Z.mod_small by lia. lia.
  - rewrite (mod_eq z (2 ^ 236) 1 (z - 2 ^ 236)) by lia. lia.
Qed.

Lemma add_exact_ok e m1 m2 op : 1 <= e < 524287 -> 2 ^ 236 <= m2 -> m2 <= m1 -> m1 < 2 ^ 237 ->
  (op = false -> m2 < m1) ->
  add_or_sub_normals_exact e (of256 m1) (of256 m2) op
  = Some (of256 (rnd_mag ((if op then m1 + m2 else m1 - m2) * 2 ^ (e - 1)) 1)).
Proof.
  intros He H2 H12 H1 Hop. unfold add_or_sub_normals_exact, op_add_sub.
  rewrite dassert_ok by (apply ltb_true; lia). rewrite bind_Some.
  rewrite uge256, dassert_ok by (try apply leb_true; lia). rewrite bind_Some.
  assert (PE : 0 < 2 ^ (e - 1)) by (apply pow2_pos; lia).
  change (shlc 128 HI_FRACTION_BIAS 1) with (2 ^ 109). unfold HI_FRACTION_BIAS.
  destruct op.
  - rewrite add256 by lia. rewrite bind_Some.
    set (s := m1 + m2) in *. assert (Hs : 2 ^ 237 <= s <= 2 ^ 238 - 2) by lia. clearbody s.
    rewrite xhi_leb, leb_true by lia. rewrite addu_ok by lia. rewrite bind_Some. unfold EXP_MAX.
    rewrite (rnd_mag_at _ 1 e); try lia.
    2: { change 237 with (236 + 1). rewrite <- Z.add_assoc, (pow2_add 236) by lia.
         replace (1 + e) with (2 + (e - 1)) by lia. rewrite (pow2_add 2) by lia. nia. }
    2: { right. replace (236 + e) with (237 + (e - 1)) by lia. rewrite (pow2_add 237) by lia. nia. }
    replace (1 * 2 ^ e) with (2 * 2 ^ (e - 1)) by (rewrite <- pow2_S by lia; rewrite Z.mul_1_l; f_equal; lia).
    rewrite rne_div_mul by lia.
    assert (HR : 2 ^ 236 <= rne_div s 2) by (apply rne_div_ge_bound; lia).
    destruct (Z.leb_spec 524287 (e + 1)).
    + rewrite Z.min_l by (unfold INFm; lia). rewrite u256_zero_lo. do 2 f_equal.
    + change 3 with (2 ^ 2 - 1) at 1. rewrite xlo_land by lia.
      pose proof (Z.mod_pos_bound s (2 ^ 2) ltac:(lia)).
      rewrite castu_ok by lia. rewrite shr256 by lia. rewrite bind_Some.
      assert (0 <= s / 2 ^ 1 < 2 ^ 237) by (apply div_bound; lia).
      rewrite incr_if256 by lia.
      assert (ER : s / 2 ^ 1 + b2z (s mod 2 ^ 2 =? 3) = rne_div s 2).
      { unfold rne_div. rewrite odd_mod. change (2 ^ 1) with 2. change (2 ^ 2) with 4.
        destruct (Z.ltb_spec 2 (2 * (s mod 2))), (Z.eqb_spec (2 * (s mod 2)) 2),
          (Z.eqb_spec (s / 2 mod 2) 1), (Z.eqb_spec (s mod 4) 3); cbn [orb andb b2z]; dlia. }
      rewrite ER.
      assert (HR2 : rne_div s 2 < 2 ^ 237).
      { cut (rne_div s 2 <= 2 ^ 237 - 1). lia. apply rne_div_le_bound; lia. }
      rewrite exact_tail_ok by lia. do 2 f_equal. unfold INFm. lia.
  - specialize (Hop eq_refl). rewrite sub256 by lia. rewrite bind_Some.
    set (s := m1 - m2) in *. assert (Hs : 0 < s < 2 ^ 236) by lia. clearbody s.
    rewrite xhi_leb, leb_false by lia. rewrite xhi_ltb, ltb_true by lia.
    rewrite msb256 by lia. rewrite bind_Some.
    assert (HL : 0 <= Z.log2 s < 236). { split. apply Z.log2_nonneg. apply Z.log2_lt_pow2; lia. }
    pose proof (Z.log2_spec s ltac:(lia)) as [A B]. rewrite Z.pow_succ_r in B by lia.
    unfold FRACTION_BITS. rewrite subu_ok by lia. rewrite bind_Some.
    set (j := Z.log2 s) in *. clearbody j.
    destruct (Z.le_gt_cases (236 - j) (e - 1)).
    + rewrite Z.min_l by lia. rewrite subu_ok by lia. rewrite bind_Some.
      replace (e - (236 - j) =? 0) with false by (symmetry; apply Z.eqb_neq; lia). cbn [b2z].
      rewrite subu_ok by lia. rewrite bind_Some. rewrite Z.sub_0_r.
      assert (E1 : 2 ^ 236 = 2 ^ j * 2 ^ (236 - j)) by (apply pow2_split; lia).
      assert (0 < 2 ^ (236 - j)) by (apply pow2_pos; lia).
      assert (Hz : 2 ^ 236 <= s * 2 ^ (236 - j) < 2 ^ 237) by (change (2 ^ 237) with (2 * 2 ^ 236); nia).
      rewrite shl256s by lia. rewrite bind_Some. rewrite exact_tail_ok by lia. do 2 f_equal.
      rewrite Z.max_r by lia.
      rewrite <- (rnd_mag_exact ((e - (236 - j) - 1) * 2 ^ 236 + s * 2 ^ (236 - j))) at 1 by (unfold INFm; lia).
      f_equal. rewrite mag_val_any by lia. rewrite <- Z.mul_assoc, <- pow2_add by lia. f_equal. f_equal. lia.
    + assert (EM : Z.min (236 - j) e = e \/ Z.min (236 - j) e = e - 1 /\ False) by lia.
      destruct EM as [EM|[_ []]]. rewrite EM. rewrite subu_ok by lia. rewrite bind_Some.
      rewrite Z.sub_diag. cbn [Z.eqb b2z]. rewrite subu_ok by lia. rewrite bind_Some.
      assert (E1 : 2 ^ 236 = 2 ^ (j + 1) * 2 ^ (236 - (j + 1))) by (apply pow2_split; lia).
      assert (2 ^ (e - 1) <= 2 ^ (236 - (j + 1))) by (apply pow2_le; lia).
      rewrite pow2_S in E1 by lia.
      assert (Hz : 0 <= s * 2 ^ (e - 1) < 2 ^ 236) by nia.
      rewrite shl256s by lia. rewrite bind_Some. rewrite exact_tail_ok by lia. do 2 f_equal.
      change (Z.max 0 (0 - 1)) with 0.
      rewrite <- (rnd_mag_exact (0 * 2 ^ 236 + s * 2 ^ (e - 1))) at 1 by (unfold INFm; lia).
      f_equal. rewrite mag_val_any by lia. change (2 ^ 0) with 1. lia.
Qed.

Lemma rounded_tail_ok e z : 0 <= e < 2 ^ 19 -> 0 <= z < 2 ^ 240 ->
  (e = 0 /\ z < 2 ^ 239 \/ 1 <= e /\ 2 ^ 239 <= z) ->
  rounded_tail e (of256 z) = Some (of256 (Z.max 0 (e - 1) * 2 ^ 236 + rne_div z (2 ^ 3))).
Proof.
  intros He Hz C. unfold rounded_tail. change 7 with (2 ^ 3 - 1). rewrite xlo_land by lia.
  pose proof (Z.mod_pos_bound z (2 ^ 3) ltac:(lia)) as B.
  pose proof (Z.div_mod z (2 ^ 3) ltac:(lia)) as E.
  rewrite castu_ok by lia. rewrite shr256 by lia. rewrite bind_Some.
  rewrite asm_fraction by lia. rewrite odd_lo by (pose proof (Z.mod_pos_bound (z / 2 ^ 3) (2 ^ 236)); lia).
  set (q := z / 2 ^ 3) in *. set (r := z mod 2 ^ 3) in *. clearbody q r.
  rewrite (rne_div_pow2_bits z 3 q r) by lia. change (2 ^ (3 - 1)) with 4.
  assert (EV : e * 2 ^ 236 + q mod 2 ^ 236 = Z.max 0 (e - 1) * 2 ^ 236 + q).
  { destruct C as [[-> C]|[C1 C2]]. rewrite Z.mod_small by lia. lia.
    rewrite (mod_eq q (2 ^ 236) 1 (q - 2 ^ 236)) by lia. lia. }
  rewrite EV.
  replace (Z.odd (Z.max 0 (e - 1) * 2 ^ 236 + q)) with (Z.odd q).
  2: { rewrite Z.odd_add, Z.odd_mul. change (Z.odd (2 ^ 236)) with false. rewrite andb_false_r.
       destruct (Z.odd q); reflexivity. }
  destruct ((4 <? r) || (r =? 4) && Z.odd q).
  - rewrite incr256 by lia. do 2 f_equal. lia.
  - reflexivity.
Qed.

Lemma add_rounded_ok ex ey m1 m2 (op : bool) :
  0 <= ey < ex -> ex < 524287 -> 2 ^ 236 <= m1 < 2 ^ 237 -> 0 < m2 < 2 ^ 237 ->
  (ey = 0 -> m2 < 2 ^ 236) ->
  add_or_sub_rounded ex ey (of256 m1) (of256 m2) op
  = Some (of256 (rnd_mag (if op then m1 * 2 ^ (ex - 1) + m2 * 2 ^ (Z.max 0 (ey - 1))
                          else m1 * 2 ^ (ex - 1) - m2 * 2 ^ (Z.max 0 (ey - 1))) 1)).
Proof.
  intros Hey Hex H1 H2 Hsub. unfold add_or_sub_rounded. cbv zeta.
  rewrite dassert_ok by (apply ltb_true; lia). rewrite bind_Some.
  rewrite dassert_ok by (rewrite ltb_true by lia; reflexivity). rewrite bind_Some.
  rewrite !shl256s by lia. rewrite !bind_Some.
  rewrite subu_ok by lia. rewrite bind_Some.
  rewrite subu_ok by (destruct (Z.eqb_spec ey 0); cbn [b2z]; lia). rewrite bind_Some.
  set (E0 := Z.max 0 (ey - 1)). set (d := ex - ey - b2z (ey =? 0)).
  assert (Hd : 0 <= d < 524287) by (unfold d; destruct (Z.eqb_spec ey 0); cbn [b2z]; lia).
  assert (Ed : ex - 1 = d + E0) by (unfold d, E0; destruct (Z.eqb_spec ey 0); cbn [b2z]; lia).
  assert (Hd0 : d = 0 -> m2 < 2 ^ 236).
  { unfold d. destruct (Z.eqb_spec ey 0); cbn [b2z]; intros; [auto|lia]. }
  assert (HE0 : 0 <= E0) by (unfold E0; lia).
  clearbody E0 d. change (2 ^ 3) with 8.
  set (adj := Z.min d (SIGNIFICAND_BITS + 2)).
  assert (Hadj : 0 <= adj <= 239 /\ adj <= d /\ (adj = d \/ adj = 239)) by (unfold adj, SIGNIFICAND_BITS; lia).
  clearbody adj.
  assert (Padj : 0 < 2 ^ adj) by (apply pow2_pos; lia).
  (* the sticky bit *)
  assert (ST : (if adj <=? 3 then Some 0
     else if SIGNIFICAND_BITS + 3 <=? adj then Some 1
     else
       let! s := subu 32 256 adj in
       let! t := ushl (of256 (m2 * 8)) s in
       Some (b2z (negb (is_zero t)))) = Some (b2z (negb ((m2 * 8) mod 2 ^ adj =? 0)))).
  { unfold SIGNIFICAND_BITS. destruct (Z.leb_spec adj 3).
    - replace ((m2 * 8) mod 2 ^ adj) with 0. reflexivity.
      change 8 with (2 ^ 3). rewrite (pow2_split adj 3) by lia.
      rewrite (Z.mul_comm (2 ^ adj)), Z.mul_assoc, Z.mod_mul by lia. reflexivity.
    - rewrite leb_false by lia. rewrite subu_ok by lia. rewrite bind_Some.
      rewrite shl256 by lia. rewrite bind_Some. rewrite is_zero256 by (apply Z.mod_pos_bound; lia).
      rewrite shl_mod by lia. replace (256 - (256 - adj)) with adj by lia.
      assert (0 < 2 ^ (256 - adj)) by (apply pow2_pos; lia).
      do 3 f_equal. pose proof (Z.mod_pos_bound (m2 * 8) (2 ^ adj) Padj).
      destruct (Z.eqb_spec ((m2 * 8) mod 2 ^ adj * 2 ^ (256 - adj)) 0), (Z.eqb_spec ((m2 * 8) mod 2 ^ adj) 0); auto; nia. }
  refine (bind_eq _ _ _ _ ST _). clear ST. cbv beta.
  rewrite shr256 by lia. rewrite bind_Some.
  assert (HQ : 0 <= m2 * 8 / 2 ^ adj <= m2 * 8).
  { split. apply Z.div_pos; lia. apply Z.div_le_upper_bound; nia. }
  rewrite or_lo_bit.
  2: lia. 2: { destruct (negb ((m2 * 8) mod 2 ^ adj =? 0)); cbn; lia. }
  replace (if b2z (negb ((m2 * 8) mod 2 ^ adj =? 0)) =? 0 then m2 * 8 / 2 ^ adj
      else 2 * (m2 * 8 / 2 ^ adj / 2) + 1) with (shr_sticky (m2 * 8) adj).
  2: { unfold shr_sticky. destruct ((m2 * 8) mod 2 ^ adj =? 0); reflexivity. }
  set (Y := shr_sticky (m2 * 8) adj).
  (* Y represents 8 m2 / 2^d *)
  assert (Pd : 0 < 2 ^ d) by (apply pow2_pos; lia).
  assert (RY : odd_rep Y (m2 * 8) (2 ^ d)).
  { destruct Hadj as (A & B & [->|C]).
    - unfold Y. rewrite <- (Z.mul_1_l (2 ^ d)). apply odd_rep_shr; try lia. left; lia.
    - destruct (Z.eq_dec adj d) as [->|]. { unfold Y. rewrite <- (Z.mul_1_l (2 ^ d)). apply odd_rep_shr; try lia. left; lia. }
      (* d > 239 : Y = 1 *)
      assert (D2 : 2 ^ 240 <= 2 ^ d) by (apply pow2_le; lia).
      assert (Y = 1).
      { unfold Y, shr_sticky. rewrite C.
        pose proof (Z.div_mod (m2 * 8) (2 ^ 239) ltac:(lia)).
        pose proof (Z.mod_pos_bound (m2 * 8) (2 ^ 239) ltac:(lia)).
        assert (0 <= m2 * 8 / 2 ^ 239 < 2) by (apply div_bound; lia).
        destruct (Z.eqb_spec ((m2 * 8) mod 2 ^ 239) 0). lia.
        rewrite (Z.div_small (m2 * 8 / 2 ^ 239) 2) by lia. reflexivity. }
      rewrite H. right. split. reflexivity. lia. }
  assert (HY : 0 <= Y < 2 ^ 240 /\ (d = 0 -> Y < 2 ^ 239) /\ (4 <= d -> Y <= 2 ^ 237) /\ (adj <= 3 -> Y * 2 ^ d = m2 * 8)
      /\ (1 <= d -> Y <= 2 ^ 239)).
  { clear Ed. pose proof (odd_rep_bound _ _ _ Pd RY) as W1.
    assert (0 <= Y). { apply odd_rep_nonneg with (m2 * 8) (2 ^ d); auto; lia. }
    assert (X4 : 4 <= d -> Y <= 2 ^ 237).
    { intros. assert (2 ^ 4 <= 2 ^ d) by (apply pow2_le; lia). change (2 ^ 4) with 16 in *. nia. }
    assert (X3 : adj <= 3 -> Y * 2 ^ d = m2 * 8).
    { intros. assert (adj = d) by lia. unfold Y, shr_sticky. subst d.
      assert (X : (m2 * 8) mod 2 ^ adj = 0).
      { change 8 with (2 ^ 3). rewrite (pow2_split adj 3) by lia.
        rewrite (Z.mul_comm (2 ^ adj)), Z.mul_assoc, Z.mod_mul by lia. reflexivity. }
      rewrite X. cbn [Z.eqb]. pose proof (Z.div_mod (m2 * 8) (2 ^ adj) ltac:(lia)). lia. }
    assert (X1 : 1 <= d -> Y <= 2 ^ 239).
    { intros. assert (2 ^ 1 <= 2 ^ d) by (apply pow2_le; lia). change (2 ^ 1) with 2 in *. nia. }
    assert (X0 : d = 0 -> Y < 2 ^ 239).
    { intros. subst d. change (2 ^ 0) with 1 in *. specialize (Hd0 eq_refl). lia. }
    split; [|auto]. split. auto. destruct (Z.eq_dec d 0); [specialize (X0 e)|specialize (X1 ltac:(lia))]; lia. }
  destruct HY as (HY & HYd0 & HY4 & HYex & HY1).
  clear HQ. clearbody Y.
  change (shlc 128 HI_FRACTION_BIAS 4) with (2 ^ 112). change (shlc 128 HI_FRACTION_BIAS 3) with (2 ^ 111).
  assert (PE0 : 0 < 2 ^ E0) by (apply pow2_pos; lia).
  set (N := if op then m1 * 2 ^ d + m2 else m1 * 2 ^ d - m2).
  replace (if op then _ else _) with (N * 2 ^ E0).
  2: { unfold N. rewrite Ed, pow2_add by lia. destruct op; ring. }
  assert (HN : 0 < N). {
    unfold N. destruct op. nia.
    destruct (Z.eq_dec d 0) as [D0|]. specialize (Hd0 D0). subst d. change (2 ^ 0) with 1. lia.
    assert (2 ^ 1 <= 2 ^ d) by (apply pow2_le; lia). change (2 ^ 1) with 2 in *. nia. }
  set (z := if op then m1 * 8 + Y else m1 * 8 - Y).
  assert (OP : op_add_sub op (of256 (m1 * 8)) (of256 Y) = Some (of256 z)).
  { unfold op_add_sub, z. destruct op. apply add256; lia. apply sub256; [|lia].
    destruct (Z.eq_dec d 0) as [D0|]. specialize (HYd0 D0). lia. specialize (HY1 ltac:(lia)). lia. }
  rewrite OP, bind_Some. clear OP.
  assert (EvX : Z.even (m1 * 8) = true). { rewrite Z.even_mul. apply orb_true_r. }
  assert (RZ : odd_rep z (N * 8) (2 ^ d)).
  { unfold z, N. destruct op.
    replace ((m1 * 2 ^ d + m2) * 8) with (m1 * 8 * 2 ^ d + m2 * 8) by ring. apply odd_rep_add; auto.
    replace ((m1 * 2 ^ d - m2) * 8) with (m1 * 8 * 2 ^ d - m2 * 8) by ring. apply odd_rep_sub; auto. }
  assert (Hz : 0 < z < 2 ^ 241).
  { unfold z. destruct op; [lia|].
    destruct (Z.eq_dec d 0) as [D0|]. specialize (HYd0 D0). lia.
    destruct (Z.eq_dec Y (2 ^ 239)); [|specialize (HY1 ltac:(lia)); lia].
    exfalso. assert (Y * 2 ^ d = m2 * 8).
    { apply HYex. destruct (Z.le_gt_cases 4 d). specialize (HY4 H). lia. lia. }
    assert (2 ^ 1 <= 2 ^ d) by (apply pow2_le; lia). change (2 ^ 1) with 2 in *. nia. }
  assert (Hz4 : 4 <= d -> 2 ^ 238 <= z). { intros. specialize (HY4 H). unfold z. destruct op; lia. }
  assert (Hex' : adj <= 3 -> N * 8 = z * 2 ^ d).
  { intros X. specialize (HYex X). unfold N, z. destruct op; nia. }
  (* the value in terms of z *)
  assert (RN : forall k, odd_rep z (N * 8 * k) (2 ^ d * k) \/ k <= 0).
  { intros k. destruct (Z.le_gt_cases k 0); auto. left. apply odd_rep_scale; auto. }
  assert (HNE : 0 <= N * 2 ^ E0) by (apply Z.mul_nonneg_nonneg; lia).
  clearbody z. clear HYd0 HY4 HYex HY1.
  rewrite xhi_leb by lia. change (2 ^ 112 * 2 ^ 128) with (2 ^ 240).
  rewrite xhi_ltb by lia. change (2 ^ 111 * 2 ^ 128) with (2 ^ 239).
  destruct (Z.leb_spec (2 ^ 240) z) as [C|C].
  - (* carry *)
    rewrite addu_ok by lia. rewrite bind_Some. unfold EXP_MAX.
    assert (R1 : odd_rep (shr_sticky z 1) (N * 2 ^ E0 * 2 ^ 3) (1 * 2 ^ ex)).
    { change (2 ^ 3) with 8. replace (N * 2 ^ E0 * 8) with (N * 8 * 2 ^ E0) by ring.
      replace (1 * 2 ^ ex) with (2 ^ d * 2 ^ E0 * 2 ^ 1).
      2: { rewrite <- pow2_add, <- pow2_add by lia. rewrite Z.mul_1_l. f_equal. lia. }
      apply odd_rep_shr; [apply Z.mul_pos_pos; auto|lia|apply odd_rep_scale; auto]. }
    assert (Z1 : 2 ^ 239 <= shr_sticky z 1 < 2 ^ 240).
    { apply shr_sticky1_bound. lia. }
    rewrite (fun A B C => rnd_mag_sticky _ _ _ _ _ A HNE B C R1) by (change (237 + 3) with 240; change (236 + 3) with 239; lia).
    assert (2 ^ 236 <= rne_div (shr_sticky z 1) (2 ^ 3)) by (apply rne_div_ge_bound; lia).
    destruct (Z.leb_spec 524287 (ex + 1)).
    + rewrite Z.min_l by (unfold INFm; lia). rewrite u256_zero_lo. reflexivity.
    + rewrite shr256 by lia. rewrite bind_Some.
      change (Z.land (xlo (of256 z)) 1) with (Z.land (xlo (of256 z)) (2 ^ 1 - 1)). rewrite xlo_land by lia.
      assert (Hz2 : 0 <= z / 2 ^ 1 < 2 ^ 240) by (apply div_bound; lia).
      set (b := b2z (negb ((m2 * 8) mod 2 ^ adj =? 0))).
      assert (SB : b = 1 -> z mod 2 = 1).
      { unfold b. destruct (Z.eqb_spec ((m2 * 8) mod 2 ^ adj) 0); cbn [negb b2z]; [lia|]. intros _.
        destruct RZ as [RZ|[RZ _]]. 2: { rewrite odd_mod in RZ. apply Z.eqb_eq in RZ. auto. }
        (* exact: then 8 m2 is divisible by 2^d, contradiction *)
        exfalso. apply n.
        assert (X : m2 * 8 = (if op then z - m1 * 8 else m1 * 8 - z) * 2 ^ d).
        { unfold N in RZ. destruct op; nia. }
        rewrite X, (pow2_split adj d) by lia.
        rewrite (Z.mul_comm (2 ^ adj)), Z.mul_assoc, Z.mod_mul by lia. reflexivity. }
      assert (Hb : b = 0 \/ b = 1) by (unfold b; destruct (negb _); cbn; auto).
      assert (EB : Z.lor b (z mod 2 ^ 1) = z mod 2 ^ 1).
      { change (2 ^ 1) with 2. destruct Hb as [->| ->]. apply Z.lor_0_l. rewrite SB by auto. reflexivity. }
      rewrite EB. change (2 ^ 1) with 2 in *. pose proof (Z.mod_pos_bound z 2 ltac:(lia)).
      rewrite or_lo_bit by lia.
      replace (if z mod 2 =? 0 then z / 2 else 2 * (z / 2 / 2) + 1) with (shr_sticky z 1) by reflexivity.
      rewrite rounded_tail_ok by lia. do 2 f_equal. unfold INFm.
      assert (rne_div (shr_sticky z 1) (2 ^ 3) <= 2 ^ 237) by (apply rne_div_le_bound; lia). lia.
  - destruct (Z.ltb_spec z (2 ^ 239)) as [C2|C2].
    + (* cancellation *)
      rewrite msb256 by lia. rewrite bind_Some.
      assert (HL : 0 <= Z.log2 z < 239). { split. apply Z.log2_nonneg. apply Z.log2_lt_pow2; lia. }
      pose proof (Z.log2_spec z ltac:(lia)) as [A B]. rewrite Z.pow_succ_r in B by lia.
      unfold FRACTION_BITS. rewrite subu_ok by lia. rewrite bind_Some.
      set (j := Z.log2 z) in *.
      assert (Hj4 : 4 <= d -> j = 238).
      { intros. specialize (Hz4 H). assert (238 <= j); [|lia]. apply Z.log2_le_pow2; lia. }
      clearbody j. change (236 + 3) with 239.
      destruct (Z.le_gt_cases (239 - j) (ex - 1)) as [D|D].
      * rewrite Z.min_l by lia. rewrite subu_ok by lia. rewrite bind_Some.
        replace (ex - (239 - j) =? 0) with false by (symmetry; apply Z.eqb_neq; lia). cbn [b2z].
        rewrite subu_ok by lia. rewrite bind_Some. rewrite Z.sub_0_r.
        assert (E1 : 2 ^ 239 = 2 ^ j * 2 ^ (239 - j)) by (apply pow2_split; lia).
        assert (PJ : 0 < 2 ^ (239 - j)) by (apply pow2_pos; lia).
        assert (Hzz : 2 ^ 239 <= z * 2 ^ (239 - j) < 2 ^ 240) by (change (2 ^ 240) with (2 * 2 ^ 239); clear - A B E1 PJ; nia).
        rewrite shl256s by lia. rewrite bind_Some. rewrite rounded_tail_ok by lia. do 2 f_equal.
        rewrite Z.max_r by lia.
        assert (rne_div (z * 2 ^ (239 - j)) (2 ^ 3) <= 2 ^ 237) by (apply rne_div_le_bound; lia).
        destruct (Z.le_gt_cases adj 3) as [A3|A3].
        -- (* exact *)
           specialize (Hex' A3).
           assert (R1 : odd_rep (z * 2 ^ (239 - j)) (N * 2 ^ E0 * 2 ^ 3) (1 * 2 ^ (ex - (239 - j) - 1))).
           { left. change (2 ^ 3) with 8.
             replace (N * 2 ^ E0 * 8) with (z * (2 ^ d * 2 ^ E0)) by (rewrite Z.mul_assoc, <- Hex'; ring).
             rewrite <- pow2_add by lia. rewrite <- Ed. rewrite Z.mul_1_l, <- Z.mul_assoc, <- pow2_add by lia.
             f_equal. f_equal. lia. }
           rewrite (fun A B C => rnd_mag_sticky _ _ _ _ _ A HNE B C R1) by (change (237 + 3) with 240; change (236 + 3) with 239; lia).
           unfold INFm. lia.
        -- assert (j = 238) by (apply Hj4; lia). subst j. change (239 - 238) with 1 in *. change (2 ^ 1) with 2 in *.
           assert (R1 : odd_rep z (N * 2 ^ E0 * 2 ^ 2) (1 * 2 ^ (ex - 1 - 1))).
           { apply odd_rep_unscale with 2. lia. change (2 ^ 2) with 4.
             replace (N * 2 ^ E0 * 4 * 2) with (N * 8 * 2 ^ E0) by ring.
             replace (1 * 2 ^ (ex - 1 - 1) * 2) with (2 ^ d * 2 ^ E0).
             2: { rewrite <- pow2_add by lia. rewrite <- Ed. rewrite Z.mul_1_l, Z.mul_comm, <- pow2_S by lia. f_equal; lia. }
             apply odd_rep_scale; auto. }
           rewrite (fun A B C => rnd_mag_sticky _ _ _ _ _ A HNE B C R1) by (change (237 + 2) with 239; change (236 + 2) with 238; lia).
           replace (rne_div z (2 ^ 2)) with (rne_div (z * 2) (2 ^ 3)).
           2: { change (2 ^ 3) with (2 ^ 2 * 2). apply rne_div_mul; lia. }
           unfold INFm. lia.
      * (* subnormal result *)
        replace (Z.min (239 - j) ex) with ex by lia.
        rewrite subu_ok by lia. rewrite bind_Some. rewrite Z.sub_diag. cbn [Z.eqb b2z].
        rewrite subu_ok by lia. rewrite bind_Some.
        assert (E1 : 2 ^ 239 = 2 ^ (j + 1) * 2 ^ (239 - (j + 1))) by (apply pow2_split; lia).
        assert (PJ : 2 ^ (ex - 1) <= 2 ^ (239 - (j + 1))) by (apply pow2_le; lia).
        assert (PX : 0 < 2 ^ (ex - 1)) by (apply pow2_pos; lia).
        rewrite pow2_S in E1 by lia.
        assert (Hzz : 0 <= z * 2 ^ (ex - 1) < 2 ^ 239) by (clear - B E1 PJ PX Hz; nia).
        rewrite shl256s by lia. rewrite bind_Some. rewrite rounded_tail_ok by lia. do 2 f_equal.
        change (Z.max 0 (0 - 1)) with 0.
        assert (A3 : adj <= 3). { destruct (Z.le_gt_cases adj 3); auto. specialize (Hj4 ltac:(lia)). lia. }
        specialize (Hex' A3).
        assert (R1 : odd_rep (z * 2 ^ (ex - 1)) (N * 2 ^ E0 * 2 ^ 3) (1 * 2 ^ 0)).
        { left. change (2 ^ 3) with 8. change (2 ^ 0) with 1.
          replace (N * 2 ^ E0 * 8) with (z * (2 ^ d * 2 ^ E0)) by (rewrite Z.mul_assoc, <- Hex'; ring).
          rewrite <- pow2_add by lia. rewrite <- Ed. ring. }
        rewrite (fun A B C => rnd_mag_sticky _ _ _ _ _ A HNE B C R1) by (change (237 + 3) with 240; change (236 + 3) with 239; lia).
        assert (rne_div (z * 2 ^ (ex - 1)) (2 ^ 3) <= 2 ^ 236) by (apply rne_div_le_bound; lia).
        unfold INFm. lia.
    + (* no adjustment *)
      rewrite rounded_tail_ok by lia. do 2 f_equal.
      assert (R1 : odd_rep z (N * 2 ^ E0 * 2 ^ 3) (1 * 2 ^ (ex - 1))).
      { change (2 ^ 3) with 8. replace (N * 2 ^ E0 * 8) with (N * 8 * 2 ^ E0) by ring.
        replace (1 * 2 ^ (ex - 1)) with (2 ^ d * 2 ^ E0).
        2: { rewrite <- pow2_add by lia. rewrite <- Ed. lia. }
        apply odd_rep_scale; auto. }
      rewrite (fun A B C => rnd_mag_sticky _ _ _ _ _ A HNE B C R1) by (change (237 + 3) with 240; change (236 + 3) with 239; lia).
      assert (rne_div z (2 ^ 3) <= 2 ^ 237) by (apply rne_div_le_bound; lia).
      unfold INFm. lia.
Qed.

(** The three ways to add or subtract magnitudes, dispatched as in [add]. *)
Definition add_mags (ax ay : U256) (op : bool) : option U256 :=
  let ex := exp_bits ax in
  let sx := signif ax in
  let ey := exp_bits ay in
  let sy := signif ay in
  if norm_bit ax =? 0 then op_add_sub op sx sy
  else if ex =? ey then add_or_sub_normals_exact ex sx sy op
  else add_or_sub_rounded ex ey sx sy op.

Lemma add_mags_ok a b op : 0 < b -> b <= a -> a < INFm -> (op = false -> b < a) ->
  add_mags (of256 a) (of256 b) op
  = Some (of256 (rnd_mag (if op then mag_val a + mag_val b else mag_val a - mag_val b) 1)).
Proof.
  intros Hb Hba Ha Hop. unfold INFm in Ha. unfold add_mags.
  rewrite !exp_bits_of, !signif_of, norm_bit_of by lia.
  destruct (Z.leb_spec (2 ^ 236) a) as [C|C]; cbn [b2z Z.eqb].
  - (* a normal *)
    assert (HE : 1 <= a / 2 ^ 236 < 524287).
    { split. apply Z.div_le_lower_bound; lia. apply Z.div_lt_upper_bound; lia. }
    assert (HL : b / 2 ^ 236 <= a / 2 ^ 236) by (apply Z.div_le_mono; lia).
    assert (HB0 : 0 <= b / 2 ^ 236) by (apply Z.div_pos; lia).
    pose proof (sg_norm a C). pose proof (sg_bound a ltac:(lia)). pose proof (sg_bound b ltac:(lia)). pose proof (sg_pos b Hb).
    rewrite !mag_val_sg by lia. unfold qe.
    destruct (Z.eqb_spec (a / 2 ^ 236) (b / 2 ^ 236)) as [E|E].
    + assert (Nb : 2 ^ 236 <= b).
      { rewrite E in HE. pose proof (Z.div_mod b (2 ^ 236) ltac:(lia)). pose proof (Z.mod_pos_bound b (2 ^ 236) ltac:(lia)). lia. }
      pose proof (sg_norm b Nb).
      assert (EA : sg a = a - (a / 2 ^ 236 - 1) * 2 ^ 236).
      { pose proof (sg_qe a ltac:(lia)) as [X _]. unfold qe in X. lia. }
      assert (EB : sg b = b - (b / 2 ^ 236 - 1) * 2 ^ 236).
      { pose proof (sg_qe b ltac:(lia)) as [X _]. unfold qe in X. lia. }
      rewrite <- E in *.
      rewrite add_exact_ok; try lia. rewrite Z.max_r by lia. do 3 f_equal. destruct op; ring.
      intros X. specialize (Hop X). lia.
    + rewrite add_rounded_ok; try lia.
      * rewrite (Z.max_r 0 (a / 2 ^ 236 - 1)) by lia. reflexivity.
      * intros X. unfold sg. destruct (Z.ltb_spec b (2 ^ 236)); auto.
        pose proof (Z.div_mod b (2 ^ 236) ltac:(lia)). pose proof (Z.mod_pos_bound b (2 ^ 236) ltac:(lia)). lia.
  - (* both subnormal *)
    unfold sg. rewrite !ltb_true by lia. rewrite !mag_val_sub by lia.
    unfold op_add_sub. destruct op.
    + rewrite add256 by lia. do 2 f_equal.
      rewrite (rnd_mag_at _ 1 0) by (try change (2 ^ (237 + 0)) with (2 ^ 237); lia).
      rewrite rne_div_1. unfold INFm. lia.
    + specialize (Hop eq_refl). rewrite sub256 by lia. do 2 f_equal.
      rewrite (rnd_mag_at _ 1 0) by (try change (2 ^ (237 + 0)) with (2 ^ 237); lia).
      rewrite rne_div_1. unfold INFm. lia.
Qed.

Lemma sgn_eqb s t : (s * 2 ^ 127 =? t * 2 ^ 127) = (s =? t).
Proof. destruct (Z.eqb_spec (s * 2 ^ 127) (t * 2 ^ 127)), (Z.eqb_spec s t); auto; lia. Qed.

Lemma of_QNAN : NAN = of256 QNAN. Proof. reflexivity. Qed.

Theorem add_ok vx vy : 0 <= vx < 2 ^ 256 -> 0 <= vy < 2 ^ 256 ->
  add (of256 vx) (of256 vy) = Some (of256 (spec_add vx vy)).
Proof.
  intros Hx Hy. unfold add.
  rewrite !abs_bits_of, !sign_bits_of by auto. fold (mag vx) (mag vy) (sgn vx) (sgn vy).
  destruct (mkf_split vx Hx) as (Ex & Sx & Mx). destruct (mkf_split vy Hy) as (Ey & Sy & My).
  rewrite !sticky_of by lia. rewrite any_special2_of by auto.
  unfold spec_add, nanb, infb, zerob, sval.
  set (a := mag vx) in *. set (b := mag vy) in *. set (sx := sgn vx) in *. set (sy := sgn vy) in *.
  clearbody a b sx sy.
  pose proof (stk_bound a Mx) as Ba. pose proof (stk_bound b My) as Bb.
  destruct ((a =? 0) || (INFm <=? a) || ((b =? 0) || (INFm <=? b))) eqn:SP.
  - (* some special operand *)
    change HI_EXP_MASK with INF_HI.
    pose proof (stk_zero a Mx) as Za. pose proof (stk_zero b My) as Zb.
    pose proof (stk_gt_inf a Mx) as Ga. pose proof (stk_gt_inf b My) as Gb.
    pose proof (stk_lt_inf a Mx) as La. pose proof (stk_lt_inf b My) as Lb.
    pose proof (stk_eq_inf a Mx) as Qa. pose proof (stk_eq_inf b My) as Qb.
    set (ta := stk a) in *. set (tb := stk b) in *. clearbody ta tb.
    rewrite sgn_eqb. rewrite Qa, Qb.
    destruct (Z.eqb_spec (Z.max ta tb) 0) as [M0|M0].
    + assert (ta = 0 /\ tb = 0) as [-> ->] by lia. cbn [Z.eqb] in Za, Zb.
      symmetry in Za, Zb. apply Z.eqb_eq in Za, Zb. subst a b. cbn [orb andb].
      rewrite !ltb_false by (pose proof INFm_pos; lia).
      replace (0 =? INFm) with false by reflexivity. cbn [orb andb negb].
      rewrite !mag_val_sub by lia. rewrite !Z.mul_0_r. cbn [Z.add].
      unfold rnd_signed. cbn [Z.eqb]. unfold mkf. rewrite Z.add_0_r.
      replace (Z.land (sx * 2 ^ 127) (sy * 2 ^ 127)) with (sx * sy * 2 ^ 127).
      2: { destruct Sx as [->| ->], Sy as [->| ->]; reflexivity. }
      rewrite u256_zero_lo. do 2 f_equal. change (2 ^ 255) with (2 ^ 127 * 2 ^ 128). ring.
    + replace (INF_HI <? Z.max ta tb) with ((INFm <? a) || (INFm <? b)).
      2: { rewrite <- Ga, <- Gb. destruct (Z.ltb_spec INF_HI ta), (Z.ltb_spec INF_HI tb), (Z.ltb_spec INF_HI (Z.max ta tb)); auto; lia. }
      destruct ((INFm <? a) || (INFm <? b)) eqn:NN; cbn [orb]. { reflexivity. }
      apply orb_false_iff in NN as [Na Nb]. apply Z.ltb_ge in Na, Nb.
      destruct (Z.eqb_spec a INFm) as [Ia|Ia]; cbn [andb].
      * destruct (Z.eqb_spec b INFm) as [Ib|Ib]; cbn [andb].
        -- destruct (Z.eqb_spec sx sy); cbn [negb]; [|reflexivity].
           apply Z.eqb_eq in Qa, Qb. rewrite Qa, Qb, Z.ltb_irrefl. do 2 f_equal.
           rewrite Ex, Ey. congruence.
        -- apply Z.eqb_eq in Qa.
           assert (tb < INF_HI). { destruct (Z.ltb_spec b INFm); [|lia]. apply Z.ltb_lt; congruence. }
           rewrite ltb_true by lia. reflexivity.
      * assert (ta < INF_HI). { destruct (Z.ltb_spec a INFm); [|lia]. apply Z.ltb_lt; congruence. }
        destruct (Z.eqb_spec b INFm) as [Ib|Ib].
        -- apply Z.eqb_eq in Qb. rewrite ltb_false by lia. reflexivity.
        -- (* one operand zero, the other finite *)
           assert (tb < INF_HI). { destruct (Z.ltb_spec b INFm); [|lia]. apply Z.ltb_lt; congruence. }
           rewrite (leb_false INFm a), (leb_false INFm b), !orb_false_r in SP by lia.
           destruct (Z.eqb_spec a 0) as [A0|A0].
           ++ subst a. apply Z.eqb_eq in Za. subst ta.
              assert (b <> 0). { intros ->. apply Z.eqb_eq in Zb. lia. }
              rewrite ltb_false by lia. do 2 f_equal.
              rewrite mag_val_sub by lia. rewrite Z.mul_0_r, Z.add_0_l. unfold rnd_signed.
              assert (0 < mag_val b) by (apply mag_val_pos; lia).
              rewrite Ey. destruct Sy as [->| ->].
              ** replace ((1 - 2 * 0) * mag_val b) with (mag_val b) by ring.
                 replace (mag_val b =? 0) with false by (symmetry; apply Z.eqb_neq; lia).
                 rewrite ltb_false, Z.abs_eq by lia. rewrite rnd_mag_exact by lia. reflexivity.
              ** replace ((1 - 2 * 1) * mag_val b) with (- mag_val b) by ring.
                 replace (- mag_val b =? 0) with false by (symmetry; apply Z.eqb_neq; lia).
                 rewrite ltb_true, Z.abs_opp, Z.abs_eq by lia. rewrite rnd_mag_exact by lia. reflexivity.
           ++ cbn [orb] in SP. apply Z.eqb_eq in SP. subst b. apply Z.eqb_eq in Zb. subst tb.
              apply Z.eqb_neq in Za.
              rewrite ltb_true by lia. do 2 f_equal.
              rewrite (mag_val_sub 0) by lia. rewrite Z.mul_0_r, Z.add_0_r. unfold rnd_signed.
              assert (0 < mag_val a) by (apply mag_val_pos; lia).
              rewrite Ex. destruct Sx as [->| ->].
              ** replace ((1 - 2 * 0) * mag_val a) with (mag_val a) by ring.
                 replace (mag_val a =? 0) with false by (symmetry; apply Z.eqb_neq; lia).
                 rewrite ltb_false, Z.abs_eq by lia. rewrite rnd_mag_exact by lia. reflexivity.
              ** replace ((1 - 2 * 1) * mag_val a) with (- mag_val a) by ring.
                 replace (- mag_val a =? 0) with false by (symmetry; apply Z.eqb_neq; lia).
                 rewrite ltb_true, Z.abs_opp, Z.abs_eq by lia. rewrite rnd_mag_exact by lia. reflexivity.
  - (* both finite and non-zero *)
    apply orb_false_iff in SP as [SPa SPb]. apply orb_false_iff in SPa as [A0 AI]. apply orb_false_iff in SPb as [B0 BI].
    apply Z.eqb_neq in A0, B0. apply Z.leb_gt in AI, BI.
    rewrite !(ltb_false INFm) by lia. cbn [orb].
    replace (a =? INFm) with false by (symmetry; apply Z.eqb_neq; lia).
    replace (b =? INFm) with false by (symmetry; apply Z.eqb_neq; lia).
    rewrite ueqb256, ult256, sgn_eqb by lia.
    assert (Pa : 0 < mag_val a) by (apply mag_val_pos; lia).
    assert (Pb : 0 < mag_val b) by (apply mag_val_pos; lia).
    unfold rnd_signed.
    destruct (Z.eqb_spec a b) as [Eab|Eab]; cbn [andb].
    + subst b. destruct (Z.eqb_spec sx sy) as [Es|Es]; cbn [negb].
      * subst sy. rewrite Z.ltb_irrefl. rewrite Z.eqb_refl.
        fold (add_mags (of256 a) (of256 a) true). rewrite add_mags_ok by (try lia; discriminate).
        rewrite bind_Some.
        pose proof (rnd_mag_bounds (mag_val a + mag_val a) 1 ltac:(lia) ltac:(lia)).
        unfold INFm in H. rewrite or_hi_sign by lia. do 2 f_equal.
        destruct Sx as [->| ->].
        -- replace ((1 - 2 * 0) * mag_val a + (1 - 2 * 0) * mag_val a) with (mag_val a + mag_val a) by ring.
           replace (mag_val a + mag_val a =? 0) with false by (symmetry; apply Z.eqb_neq; lia).
           rewrite ltb_false, Z.abs_eq by lia. reflexivity.
        -- replace ((1 - 2 * 1) * mag_val a + (1 - 2 * 1) * mag_val a) with (- (mag_val a + mag_val a)) by ring.
           replace (- (mag_val a + mag_val a) =? 0) with false by (symmetry; apply Z.eqb_neq; lia).
           rewrite ltb_true, Z.abs_opp, Z.abs_eq by lia. reflexivity.
      * replace ((1 - 2 * sx) * mag_val a + (1 - 2 * sy) * mag_val a) with 0 by nia.
        cbn [Z.eqb]. replace (sx * sy) with 0 by nia. reflexivity.
    + destruct (Z.ltb_spec a b) as [Lab|Lab].
      * fold (add_mags (of256 b) (of256 a) (sy * 2 ^ 127 =? sx * 2 ^ 127)). rewrite sgn_eqb.
        rewrite add_mags_ok by lia. rewrite bind_Some.
        assert (mag_val a < mag_val b) by (apply mag_val_lt; lia).
        set (n := if sy =? sx then mag_val b + mag_val a else mag_val b - mag_val a).
        assert (Hn : 0 < n) by (unfold n; destruct (sy =? sx); lia).
        pose proof (rnd_mag_bounds n 1 ltac:(lia) ltac:(lia)) as HR.
        unfold INFm in HR. rewrite or_hi_sign by lia. do 2 f_equal.
        replace ((1 - 2 * sx) * mag_val a + (1 - 2 * sy) * mag_val b) with ((1 - 2 * sy) * n).
        2: { unfold n. destruct Sx as [->| ->], Sy as [->| ->]; cbn [Z.eqb Pos.eqb]; ring. }
        clearbody n. destruct Sy as [->| ->].
        -- replace ((1 - 2 * 0) * n) with n by ring.
           replace (n =? 0) with false by (symmetry; apply Z.eqb_neq; lia).
           rewrite ltb_false, Z.abs_eq by lia. reflexivity.
        -- replace ((1 - 2 * 1) * n) with (- n) by ring.
           replace (- n =? 0) with false by (symmetry; apply Z.eqb_neq; lia).
           rewrite ltb_true, Z.abs_opp, Z.abs_eq by lia. reflexivity.
      * fold (add_mags (of256 a) (of256 b) (sx * 2 ^ 127 =? sy * 2 ^ 127)). rewrite sgn_eqb.
        rewrite add_mags_ok by lia. rewrite bind_Some.
        assert (mag_val b < mag_val a) by (apply mag_val_lt; lia).
        set (n := if sx =? sy then mag_val a + mag_val b else mag_val a - mag_val b).
        assert (Hn : 0 < n) by (unfold n; destruct (sx =? sy); lia).
        pose proof (rnd_mag_bounds n 1 ltac:(lia) ltac:(lia)) as HR.
        unfold INFm in HR. rewrite or_hi_sign by lia. do 2 f_equal.
        replace ((1 - 2 * sx) * mag_val a + (1 - 2 * sy) * mag_val b) with ((1 - 2 * sx) * n).
        2: { unfold n. destruct Sx as [->| ->], Sy as [->| ->]; cbn [Z.eqb Pos.eqb]; ring. }
        clearbody n. destruct Sx as [->| ->].
        -- replace ((1 - 2 * 0) * n) with n by ring.
           replace (n =? 0) with false by (symmetry; apply Z.eqb_neq; lia).
           rewrite ltb_false, Z.abs_eq by lia. reflexivity.
        -- replace ((1 - 2 * 1) * n) with (- n) by ring.
           replace (- n =? 0) with false by (symmetry; apply Z.eqb_neq; lia).
           rewrite ltb_true, Z.abs_opp, Z.abs_eq by lia. reflexivity.
Qed.

Lemma negated_of v : 0 <= v < 2 ^ 256 -> negated (of256 v) = of256 (spec_neg v).
Proof.
  intros Hv. unfold negated. rewrite xhi_of, xlo_of, u256_hi. apply of256_ext.
  destruct (mkf_split v Hv) as (E & S & M). unfold spec_neg, mkf.
  assert (Eh : v / 2 ^ 128 = sgn v * 2 ^ 127 + mag v / 2 ^ 128).
  { rewrite E at 1. unfold mkf. change (2 ^ 255) with (2 ^ 127 * 2 ^ 128).
    rewrite Z.mul_assoc, Z.add_comm, Z.div_add by lia. lia. }
  assert (El : v mod 2 ^ 128 = mag v mod 2 ^ 128).
  { unfold mag. rewrite mod_mod_pow by lia. reflexivity. }
  rewrite Eh, El. set (s := sgn v) in *. set (m := mag v) in *. clearbody s m.
  assert (Hm : 0 <= m / 2 ^ 128 < 2 ^ 127) by (apply div_bound; lia).
  pose proof (Z.div_mod m (2 ^ 128) ltac:(lia)).
  replace (Z.lxor (s * 2 ^ 127 + m / 2 ^ 128) HI_SIGN_MASK) with ((1 - s) * 2 ^ 127 + m / 2 ^ 128).
  { change (2 ^ 255) with (2 ^ 127 * 2 ^ 128). lia. }
  unfold HI_SIGN_MASK. set (h := m / 2 ^ 128) in *. clearbody h.
  rewrite <- !lor_add by lia.
  apply Z.bits_inj'. intros k Hk. rewrite Z.lxor_spec, !Z.lor_spec.
  destruct (Z.lt_ge_cases k 127).
  - rewrite !Z.mul_pow2_bits_low by lia. rewrite Z.pow2_bits_false by lia. rewrite xorb_false_r. reflexivity.
  - assert (Hb : Z.testbit h k = false).
    { destruct (Z.eq_dec h 0) as [->|]. apply Z.bits_0. apply Z.bits_above_log2. lia.
      apply Z.lt_le_trans with 127; auto. apply Z.log2_lt_pow2; lia. }
    rewrite Hb, !orb_false_r. rewrite !Z.mul_pow2_bits by lia.
    destruct (Z.eq_dec k 127) as [->|].
    + rewrite Z.sub_diag, Z.pow2_bits_true by lia. destruct S as [->| ->]; reflexivity.
    + rewrite Z.pow2_bits_false by lia. rewrite xorb_false_r.
      destruct S as [->| ->]; [change (1 - 0) with 1|change (1 - 1) with 0]; rewrite Z.bits_0;
        (rewrite Z.bits_above_log2; [reflexivity|lia|cbn; lia]).
Qed.

Lemma spec_neg_bound v : 0 <= v < 2 ^ 256 -> 0 <= spec_neg v < 2 ^ 256.
Proof. intros Hv. destruct (mkf_split v Hv) as (E & S & M). unfold spec_neg, mkf. lia. Qed.

Theorem sub_ok vx vy : 0 <= vx < 2 ^ 256 -> 0 <= vy < 2 ^ 256 ->
  sub (of256 vx) (of256 vy) = Some (of256 (spec_sub vx vy)).
Proof.
  intros Hx Hy. unfold sub. rewrite negated_of by auto. apply add_ok; auto. apply spec_neg_bound; auto.
Qed.

End Add.

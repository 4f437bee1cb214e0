(** * ReadProofs: the decimal representation read by [FloatRepr::from_str] *)

From Coq Require Import ZArith List Bool Lia.
From Verif Require Import Base ZLemmas BigUInt BigLaws BigExtra F256 F256Lemmas Arith Parse SpecParse ChunkLemmas ParseProofs.
Import ListNotations.
Open Scope Z_scope.

Section Loops.
Context `{P : profile}.

(** ** The remaining digits, one by one *)

Lemma single_loop_ok bs : forall rp n ps ds rest rp' inv, Forall byte bs -> rp_ok bs rp ->
  8 * len (p_chunks ps) + p_n_rem ps = n -> pwf ps -> n <= 77 ->
  scan bs rp = (ds, rest, rp', inv) ->
  p_n_rem ps + Z.min (len ds) (77 - n) <= 18 ->
  exists st, single_loop bs rp n ps = Some st
    /\ progress bs rp n (pval ps) st ds rest rp' inv
    /\ (rs_invalid st = false -> p_n_rem (rs_signif st) <= 18 /\
         (rs_n st = 77 \/ (rs_bytes st = rest /\ rs_rp st = rp' /\ inv = false))).
Proof.
  induction bs as [|c t IH]; intros rp n ps ds rest rp' inv Hb Hr Hn Hw H77 Es Hm.
  - cbn [single_loop]. eexists. split; [reflexivity|]. split; [apply progress_stop; auto|].
    intros _. cbn [rs_signif rs_n rs_bytes rs_rp]. cbn [scan] in Es. injection Es as <- <- <- <-.
    change (len (@nil Z)) with 0 in Hm. split; [lia|right; auto].
  - pose proof (len_nonneg ds) as Hd0.
    cbn [single_loop]. destruct (Z.ltb_spec n MAX_N_DIGITS) as [Hlt|Hlt]; unfold MAX_N_DIGITS in Hlt.
    2:{ eexists. split; [reflexivity|]. split; [apply progress_stop; auto|].
        intros _. cbn [rs_signif rs_n rs_bytes rs_rp]. split; [lia|left; lia]. }
    change (digit_of c <? 10) with (is_digit c).
    assert (Bc : byte c) by (inversion_clear Hb; auto).
    assert (Bt : Forall byte t) by (inversion_clear Hb; auto).
    assert (Es' := Es). cbn [scan] in Es'. destruct (is_digit c) eqn:Ed.
    + apply is_digit_true in Ed; auto. rewrite digit_of_ok by auto. unfold digc in Ed.
      destruct (scan t rp) as [[[ds0 r0] q0] i0] eqn:Et. injection Es' as <- <- <- <-.
      rewrite len_cons in Hm. destruct Hw as (W1 & W2 & W3 & W4).
      assert (10 ^ p_n_rem ps <= 10 ^ 17) by (apply Z.pow_le_mono_r; pose proof (len_nonneg ds0); lia).
      assert (E19 : 10 * 10 ^ 17 < 2 ^ 64) by reflexivity.
      rewrite mulu_ok by lia. cbn [bind]. rewrite addu_ok by lia. cbn [bind].
      destruct (IH rp (n + 1) (PartialSignif (p_chunks ps) (p_rem ps * 10 + (c - 48)) (p_n_rem ps + 1)) ds0 r0 q0 i0)
        as (st & E1 & E2 & E3); auto.
      * unfold rp_ok in *. destruct rp; auto. rewrite len_cons in Hr. lia.
      * cbn [p_chunks p_n_rem]. lia.
      * unfold pwf. cbn [p_chunks p_n_rem p_rem]. rewrite Z.pow_add_r by lia. change (10 ^ 1) with 10.
        repeat split; auto; lia.
      * lia.
      * cbn [p_n_rem]. lia.
      * exists st. split; [exact E1|]. split; [|auto].
        eapply progress_step with (da := [c - 48]) (bs2 := t) (rp2 := rp); [reflexivity| | |].
        -- change (len [c - 48]) with 1.
           replace (pval ps * 10 ^ 1 + dval [c - 48]) with
             (pval (PartialSignif (p_chunks ps) (p_rem ps * 10 + (c - 48)) (p_n_rem ps + 1))).
           ++ exact E2.
           ++ unfold pval. cbn [p_chunks p_n_rem p_rem]. rewrite Z.pow_add_r by lia. change (10 ^ 1) with 10.
              change (dval [c - 48]) with (10 * 0 + (c - 48)). ring.
        -- rewrite len_cons. change (len [c - 48]) with 1. destruct rp; cbn [dots]; lia.
        -- destruct rp; auto.
    + destruct (Z.eqb_spec c 46) as [->|Hc].
      * destruct rp as [p|].
        -- injection Es' as <- <- <- <-. eexists. split; [reflexivity|]. split; [reflexivity|discriminate].
        -- destruct (IH (Some (len (46 :: t))) n ps ds rest rp' inv) as (st & E1 & E2 & E3); auto.
           ++ cbn [rp_ok]. rewrite len_cons. lia.
           ++ exists st. split; [exact E1|]. split; [|auto].
              eapply progress_step with (da := []) (bs2 := t) (rp2 := Some (len (46 :: t))); [reflexivity| | |exact I].
              ** change (len (@nil Z)) with 0. change (10 ^ 0) with 1. change (dval []) with 0.
                 rewrite Z.add_0_r, Z.mul_1_r, Z.add_0_r. exact E2.
              ** rewrite len_cons. change (len (@nil Z)) with 0. cbn [dots]. lia.
      * injection Es' as <- <- <- <-. eexists. split; [reflexivity|].
        split; [apply progress_stop; auto|]. intros _. cbn [rs_signif rs_n rs_bytes rs_rp].
        change (len (@nil Z)) with 0 in Hm. split; [lia|right; auto].
Qed.

Lemma dval_cons d ds : dval (d :: ds) = d * 10 ^ len ds + dval ds.
Proof. change (d :: ds) with ([d] ++ ds). rewrite dval_app. change (dval [d]) with (10 * 0 + d). ring. Qed.

(** Digits beyond the 77th only matter for the [truncated] flag *)
Lemma rest_loop_ok bs : forall rp nz ds rest rp' inv, Forall byte bs ->
  scan bs rp = (ds, rest, rp', inv) ->
  rest_loop bs rp nz = (rest, rp', inv, nz || negb (dval ds =? 0)).
Proof.
  induction bs as [|c t IH]; intros rp nz ds rest rp' inv Hb Es.
  - cbn [scan] in Es. injection Es as <- <- <- <-. cbn. rewrite orb_false_r. reflexivity.
  - assert (Bc : byte c) by (inversion_clear Hb; auto).
    assert (Bt : Forall byte t) by (inversion_clear Hb; auto).
    cbn [scan] in Es. cbn [rest_loop]. destruct (is_digit c) eqn:Ed.
    + apply is_digit_true in Ed; auto. unfold digc in Ed.
      destruct (scan t rp) as [[[ds0 r0] q0] i0] eqn:Et. injection Es as <- <- <- <-.
      assert (D0 : is_dec ds0) by (eapply (scan_shape t rp); eauto).
      pose proof (dval_bound ds0 D0) as B0. rewrite dval_cons.
      assert (0 < 10 ^ len ds0) by (apply Z.pow_pos_nonneg; [lia|apply len_nonneg]).
      destruct (Z.leb_spec 49 c) as [Hc|Hc]; cbn [andb].
      * rewrite (proj2 (Z.leb_le c 57)) by lia. cbn [andb].
        rewrite (IH rp true ds0 r0 q0 i0) by auto.
        rewrite (proj2 (Z.eqb_neq ((c - 48) * 10 ^ len ds0 + dval ds0) 0)) by nia. cbn [negb orb]. rewrite orb_true_r. reflexivity.
      * replace c with 48 in * by lia. change (48 =? 46) with false. change (48 =? 48) with true.
        cbn [negb]. rewrite (IH rp nz ds0 r0 q0 i0) by auto. rewrite Z.sub_diag, Z.mul_0_l, Z.add_0_l. reflexivity.
    + apply is_digit_false in Ed; auto. unfold digc in Ed.
      assert (Ec : (49 <=? c) && (c <=? 57) = false).
      { destruct (Z.leb_spec 49 c); destruct (Z.leb_spec c 57); auto; lia. }
      rewrite Ec. destruct (Z.eqb_spec c 46) as [->|Hc].
      * destruct rp as [p|].
        -- injection Es as <- <- <- <-. cbn. rewrite orb_false_r. reflexivity.
        -- apply IH; auto.
      * injection Es as <- <- <- <-. rewrite (proj2 (Z.eqb_neq c 48)) by lia. cbn.
        rewrite orb_false_r. reflexivity.
Qed.

(** ** Leading zeroes *)

Definition hd_not (x : Z) (l : list Z) : Prop := match l with c :: _ => c <> x | [] => True end.

Lemma skip_zeroes_ok bs : exists k, bs = repeat 48 k ++ skip_zeroes bs /\ hd_not 48 (skip_zeroes bs).
Proof.
  induction bs as [|c t IH]; [exists O; cbn; auto|]. cbn [skip_zeroes].
  destruct (Z.eqb_spec c 48) as [->|Hc].
  - destruct IH as (k & E & H). exists (S k). cbn [repeat app]. split; [congruence|auto].
  - exists O. cbn. auto.
Qed.

Lemma skip_zero_chunks_ok m : forall bs, (length bs <= m)%nat -> Forall byte bs ->
  exists k, bs = repeat 48 k ++ skip_zero_chunks bs.
Proof.
  induction m as [|m IH]; intros bs Hm Hb.
  - destruct bs; [exists O; reflexivity|cbn [length] in Hm; lia].
  - do 8 (destruct bs as [|? bs]; [exists O; reflexivity|]).
    cbn [skip_zero_chunks]. set (l := [z; z0; z1; z2; z3; z4; z5; z6]).
    change (read8 z z0 z1 z2 z3 z4 z5 z6) with (of_le_bytes l).
    change (z :: z0 :: z1 :: z2 :: z3 :: z4 :: z5 :: z6 :: bs) with (l ++ bs) in *.
    apply Forall_split in Hb. destruct Hb as [Hl Hb].
    rewrite cc8_ok by auto. destruct (forallb is_digit l) eqn:Ef; [|exists O; reflexivity].
    apply digc_forallb in Ef; auto. rewrite c2u_digits by auto.
    destruct (Z.eqb_spec (dval (digits_of_bytes l)) 0) as [E0|E0]; [|exists O; reflexivity].
    apply dval_zero in E0; [|apply digits_dec; auto].
    assert (El : l = repeat 48 8).
    { unfold digits_of_bytes in E0. rewrite Forall_map in E0. subst l. repeat match goal with H : Forall _ (_ :: _) |- _ => inversion_clear H end.
      cbn [repeat]. repeat f_equal; lia. }
    destruct (IH bs) as (k & E); auto.
    { rewrite app_length in Hm. cbn [length l] in Hm. lia. }
    exists (8 + k)%nat. rewrite El. rewrite E at 1. rewrite repeat_app, app_assoc. reflexivity.
Qed.

Lemma skip_ok bs : Forall byte bs -> exists k r, skip_zeroes (skip_zero_chunks bs) = r
  /\ bs = repeat 48 k ++ r /\ hd_not 48 r.
Proof.
  intros Hb. destruct (skip_zero_chunks_ok (length bs) bs (le_n _) Hb) as (k & E).
  destruct (skip_zeroes_ok (skip_zero_chunks bs)) as (j & E2 & H).
  exists (k + j)%nat, (skip_zeroes (skip_zero_chunks bs)). split; [reflexivity|]. split; [|auto].
  rewrite repeat_app, <- app_assoc, <- E2. exact E.
Qed.

Lemma digc_48 k : Forall digc (repeat 48 k).
Proof. induction k; cbn [repeat]; constructor; auto. unfold digc; lia. Qed.

Lemma digits_48 k : digits_of_bytes (repeat 48 k) = repeat 0 k.
Proof. unfold digits_of_bytes. induction k as [|k IH]; cbn [repeat map]; [reflexivity|]. rewrite IH. reflexivity. Qed.

Lemma dval_repeat0 k ds : dval (repeat 0 k ++ ds) = dval ds.
Proof.
  rewrite dval_app. rewrite dval_zeros; [lia|]. apply Forall_forall. intros x Hx.
  apply repeat_spec in Hx. auto.
Qed.

Lemma len_repeat {A} (x : A) k : len (repeat x k) = Z.of_nat k.
Proof. unfold len. rewrite repeat_length. reflexivity. Qed.

Lemma skip_leading_ok bs ds rest rp' inv : Forall byte bs -> scan bs None = (ds, rest, rp', inv) ->
  exists bs1 rp1 inv1 k ds1, skip_leading_zeroes bs = (bs1, rp1, inv1)
    /\ ds = repeat 0 k ++ ds1
    /\ scan bs1 rp1 = (ds1, rest, rp', inv)
    /\ (inv1 = true -> inv = true)
    /\ Forall byte bs1 /\ rp_ok bs1 rp1 /\ hd_not 48 bs1
    /\ len bs = Z.of_nat k + len bs1 + dots None rp1
    /\ (rp1 = None -> hd_not 46 bs1)
    /\ (bs1 = [] -> ds1 = [] /\ rest = []).
Proof.
  intros Hb Es. unfold skip_leading_zeroes. destruct (skip_ok bs Hb) as (k & r & E & Ebs & H48).
  rewrite E. clear E. assert (Hr : Forall byte r). { rewrite Ebs in Hb. apply Forall_split in Hb. tauto. }
  assert (SC : scan bs None = let '(d, x, q, i) := scan r None in (repeat 0 k ++ d, x, q, i)).
  { rewrite Ebs. rewrite scan_digits by apply digc_48. rewrite digits_48. reflexivity. }
  assert (EMPTY : forall rp x y z w, scan [] rp = (x, y, z, w) -> x = [] /\ y = []).
  { intros rp x y z w H. cbn in H. injection H as <- <- _ _. auto. }
  assert (DEFAULT : hd_not 46 r -> exists bs1 rp1 inv1 k ds1, (r, None : option Z, false) = (bs1, rp1, inv1)
    /\ ds = repeat 0 k ++ ds1
    /\ scan bs1 rp1 = (ds1, rest, rp', inv)
    /\ (inv1 = true -> inv = true)
    /\ Forall byte bs1 /\ rp_ok bs1 rp1 /\ hd_not 48 bs1
    /\ len bs = Z.of_nat k + len bs1 + dots None rp1
    /\ (rp1 = None -> hd_not 46 bs1)
    /\ (bs1 = [] -> ds1 = [] /\ rest = [])).
  { intros H46. rewrite SC in Es. destruct (scan r None) as [[[d x] q] i] eqn:Er. injection Es as <- <- <- <-.
    exists r, None, false, k, d. repeat split; auto; try discriminate.
    - rewrite Ebs, len_app, len_repeat. cbn [dots]. lia.
    - subst r. apply (EMPTY _ _ _ _ _ Er).
    - subst r. apply (EMPTY _ _ _ _ _ Er). }
  destruct r as [|c t]; [apply DEFAULT; exact I|].
  destruct (Z.eqb_spec c 46) as [->|Hc]; [|apply DEFAULT; exact Hc].
  clear DEFAULT. assert (Ht : Forall byte t) by (inversion_clear Hr; auto).
  destruct (skip_ok t Ht) as (j & u & E2 & Et & H48u). rewrite E2. clear E2.
  assert (Hu : Forall byte u). { rewrite Et in Ht. apply Forall_split in Ht. tauto. }
  set (q := len (46 :: t)) in *.
  assert (SU : scan t (Some q) = let '(d, x, q, i) := scan u (Some q) in (repeat 0 j ++ d, x, q, i)).
  { rewrite Et. rewrite scan_digits by apply digc_48. rewrite digits_48. reflexivity. }
  rewrite SC, scan_dot in Es. fold q in Es. rewrite SU in Es.
  destruct (scan u (Some q)) as [[[d x] q0] i] eqn:Eu. injection Es as <- <- <- <-.
  assert (Lq : q = Z.of_nat j + len u + 1).
  { unfold q. rewrite len_cons, Et, len_app, len_repeat. reflexivity. }
  assert (COMMON : forall inv1, (inv1 = true -> i = true) -> exists bs1 rp1 inv1' k0 ds1, (u, Some q, inv1) = (bs1, rp1, inv1')
    /\ repeat 0 k ++ repeat 0 j ++ d = repeat 0 k0 ++ ds1
    /\ scan bs1 rp1 = (ds1, x, q0, i)
    /\ (inv1' = true -> i = true)
    /\ Forall byte bs1 /\ rp_ok bs1 rp1 /\ hd_not 48 bs1
    /\ len bs = Z.of_nat k0 + len bs1 + dots None rp1
    /\ (rp1 = None -> hd_not 46 bs1)
    /\ (bs1 = [] -> ds1 = [] /\ x = [])).
  { intros inv1 Hi. exists u, (Some q), inv1, (k + j)%nat, d. repeat split; auto; try discriminate.
    - rewrite repeat_app, app_assoc. reflexivity.
    - cbn [rp_ok]. lia.
    - rewrite Ebs, len_app, len_repeat. fold q. cbn [dots]. lia.
    - subst u. apply (EMPTY _ _ _ _ _ Eu).
    - subst u. apply (EMPTY _ _ _ _ _ Eu). }
  destruct u as [|c u]; [apply COMMON; discriminate|]. apply COMMON.
  intros Ec. apply Z.eqb_eq in Ec. subst c. cbn in Eu. injection Eu as _ _ _ <-. reflexivity.
Qed.

(** ** The normalised significand *)

Lemma drop_zero_chunks_ok l : forall n, Forall chunk_ok l -> l <> [] ->
  exists l' j, drop_zero_chunks l n = (l', n + 8 * j) /\ 0 <= j /\ l' <> [] /\ Forall chunk_ok l'
    /\ len l = len l' + j /\ cval l = cval l' * 10 ^ (8 * j)
    /\ (forall c t, l' = c :: t -> c = 0 -> t = []).
Proof.
  induction l as [|c [|c2 t] IH]; intros n Hl Hne; [congruence| |].
  - exists [c], 0. cbn [drop_zero_chunks]. replace (n + 8 * 0) with n by lia.
    repeat split; auto; try lia; try discriminate. congruence.
  - cbn [drop_zero_chunks]. destruct (Z.eqb_spec c 0) as [->|Hc].
    + destruct (IH (n + 8)) as (l' & j & E & Hj & Hn & Hf & El & Ev & Hz); [inversion_clear Hl; auto|discriminate|].
      exists l', (j + 1). cbn [drop_zero_chunks] in E. rewrite E. replace (n + 8 + 8 * j) with (n + 8 * (j + 1)) by lia.
      repeat split; auto; try lia.
      * rewrite len_cons. lia.
      * cbn [cval]. cbn [cval] in Ev. rewrite Ev. replace (8 * (j + 1)) with (8 * j + 8) by lia.
        rewrite Z.pow_add_r by lia. ring.
    + exists (c :: c2 :: t), 0. replace (n + 8 * 0) with n by lia.
      repeat split; auto; try lia; try discriminate; try (change (10 ^ (8 * 0)) with 1; lia). congruence.
Qed.

Lemma drop_zero_digits_ok fuel : forall r nr n, 0 <= r < 10 ^ nr -> 0 <= nr ->
  exists r' j, drop_zero_digits fuel r nr n = (r', nr - j, n + j) /\ 0 <= j <= nr
    /\ 0 <= r' < 10 ^ (nr - j) /\ r = r' * 10 ^ j
    /\ (nr <= Z.of_nat fuel -> r' = 0 \/ r' mod 10 <> 0).
Proof.
  induction fuel as [|f IH]; intros r nr n Hr Hnr.
  - exists r, 0. cbn [drop_zero_digits]. rewrite Z.sub_0_r, Z.add_0_r. repeat split; try lia.
    intros Hf. replace nr with 0 in Hr by lia. change (10 ^ 0) with 1 in Hr. lia.
  - cbn [drop_zero_digits]. destruct (Z.ltb_spec 0 nr) as [H0|H0]; cbn [andb];
      [destruct (Z.eqb_spec (r mod 10) 0) as [Hm|Hm]|].
    2: exists r, 0; rewrite Z.sub_0_r, Z.add_0_r; repeat split; lia.
    2:{ exists r, 0; rewrite Z.sub_0_r, Z.add_0_r; repeat split; try lia.
        intros Hf. replace nr with 0 in Hr by lia. change (10 ^ 0) with 1 in Hr. lia. }
    assert (Er : r = 10 * (r / 10)) by (pose proof (Z.div_mod r 10); lia).
    destruct (IH (r / 10) (nr - 1) (n + 1)) as (r' & j & E & Hj & Hb & Ev & Hmx).
    + replace nr with (nr - 1 + 1) in Hr by lia. rewrite Z.pow_add_r in Hr by lia. change (10 ^ 1) with 10 in Hr. lia.
    + lia.
    + exists r', (j + 1). rewrite E. replace (nr - 1 - j) with (nr - (j + 1)) in * by lia.
      replace (n + 1 + j) with (n + (j + 1)) by lia. repeat split; try lia.
      * rewrite Er, Ev, Z.pow_add_r by lia. change (10 ^ 1) with 10. ring.
Qed.

Lemma normalize_ok ps : pwf ps -> p_n_rem ps <= 18 ->
  exists ps' nz, normalize ps = (ps', nz) /\ pwf ps' /\ 0 <= nz /\ p_n_rem ps' <= 18
    /\ pval ps = pval ps' * 10 ^ nz
    /\ 8 * len (p_chunks ps') + p_n_rem ps' + nz = 8 * len (p_chunks ps) + p_n_rem ps
    /\ (pval ps' = 0 \/ pval ps' mod 10 <> 0).
Proof.
  intros (H1 & H2 & H3 & H4) H18. unfold normalize.
  assert (D : forall q n, pwf q -> 0 <= n -> p_n_rem q <= 18 ->
     pval ps = pval q * 10 ^ n -> 8 * len (p_chunks q) + p_n_rem q + n = 8 * len (p_chunks ps) + p_n_rem ps ->
     (p_rem q = 0 -> pval q = 0) ->
     exists ps' nz,
      (let '(r, nr, n) := drop_zero_digits (Z.to_nat (p_n_rem q)) (p_rem q) (p_n_rem q) n in
       (PartialSignif (p_chunks q) r nr, n)) = (ps', nz) /\ pwf ps' /\ 0 <= nz /\ p_n_rem ps' <= 18
    /\ pval ps = pval ps' * 10 ^ nz
    /\ 8 * len (p_chunks ps') + p_n_rem ps' + nz = 8 * len (p_chunks ps) + p_n_rem ps
    /\ (pval ps' = 0 \/ pval ps' mod 10 <> 0)).
  { intros q n (Q1 & Q2 & Q3 & Q4) Hn HQ Ev El Hz.
    destruct (drop_zero_digits_ok (Z.to_nat (p_n_rem q)) (p_rem q) (p_n_rem q) n Q4 Q3) as (r' & j & E & Hj & Hb & Er & Hmx).
    rewrite E. eexists _, _. split; [reflexivity|]. unfold pwf. cbn [p_chunks p_n_rem p_rem].
    repeat split; auto; try lia.
    - rewrite Ev. unfold pval. cbn [p_chunks p_n_rem p_rem].
      rewrite Er, Z.pow_add_r by lia. replace (p_n_rem q) with (p_n_rem q - j + j) at 1 by lia.
      rewrite (Z.pow_add_r 10 (p_n_rem q - j) j) by lia. ring.
    - unfold pval. cbn [p_chunks p_n_rem p_rem]. destruct (Z.eq_dec r' 0) as [->|Hr0].
      + left. rewrite Z.mul_0_l in Er. specialize (Hz Er). unfold pval in Hz.
        pose proof (cval_bound _ Q1). assert (0 < 10 ^ p_n_rem q) by (apply Z.pow_pos_nonneg; lia).
        assert (cval (p_chunks q) = 0) by nia. nia.
      + right. destruct (Hmx ltac:(lia)) as [|Hm]; [contradiction|].
        assert (p_n_rem q - j <> 0) by (intros E0; rewrite E0 in Hb; change (10 ^ 0) with 1 in Hb; lia).
        replace (p_n_rem q - j) with (1 + (p_n_rem q - j - 1)) by lia.
        rewrite Z.pow_add_r by lia. change (10 ^ 1) with 10.
        replace (cval (p_chunks q) * (10 * 10 ^ (p_n_rem q - j - 1)) + r')
          with (r' + (cval (p_chunks q) * 10 ^ (p_n_rem q - j - 1)) * 10) by ring.
        rewrite Z.mod_add by lia. exact Hm. }
  destruct (p_chunks ps) as [|c t] eqn:Ec.
  - apply D; unfold pwf; rewrite ?Ec; repeat split; auto; try lia; try (change (10 ^ 0) with 1; lia).
    intros E0. unfold pval. rewrite Ec, E0. reflexivity.
  - destruct (Z.eqb_spec (p_rem ps) 0) as [E0|E0].
    2:{ apply D; unfold pwf; rewrite ?Ec; repeat split; auto; try lia; try (change (10 ^ 0) with 1; lia). }
    destruct (drop_zero_chunks_ok (c :: t) (p_n_rem ps) H1 ltac:(discriminate)) as (l' & j & E & Hj & Hne & Hf & El & Ev & Hz0).
    rewrite E. destruct l' as [|c' t']; [congruence|]. rewrite !len_cons in El. rewrite len_cons in H2.
    apply D; cbn [p_chunks p_n_rem p_rem]; try lia.
    + unfold pwf. cbn [p_chunks p_n_rem p_rem]. inversion_clear Hf. pose proof (len_nonneg t').
      repeat split; auto; try lia; match goal with K : chunk_ok _ |- _ => apply K end.
    + unfold pval. cbn [p_chunks p_n_rem p_rem]. rewrite Ec, Ev, E0. cbn [cval].
      rewrite (Z.pow_add_r 10 (p_n_rem ps)) by lia. ring.
    + rewrite len_cons. lia.
    + intros ->. rewrite (Hz0 0 t' eq_refl eq_refl). reflexivity.
Qed.

Lemma mul256 a b : 0 <= a < 2 ^ 256 -> 0 <= b < 2 ^ 256 -> a * b < 2 ^ 256 ->
  uint_mul (of256 a) (of256 b) = Some (of256 (a * b)).
Proof. intros. apply (L_mul _ L256); rewrite W; lia. Qed.

Lemma u256_small v : 0 <= v < 2 ^ 128 -> u256 0 v = of256 v.
Proof. intros. rewrite u256_of by auto. rewrite Z.mul_0_l, Z.add_0_l. reflexivity. Qed.

Lemma chunks_value_ok l : Forall chunk_ok l -> len l <= 9 -> chunks_value l = Some (of256 (cval l)).
Proof.
  induction 1 as [|c l Hc Hl IH]; intros Hn.
  - reflexivity.
  - rewrite len_cons in Hn. cbn [chunks_value cval]. rewrite IH by lia. cbn [bind].
    pose proof (cval_bound l Hl) as B. unfold chunk_ok in Hc. pose proof (len_nonneg l).
    assert (10 ^ (8 * len l) <= 10 ^ 64) by (apply Z.pow_le_mono_r; lia).
    assert (K1 : 10 ^ 64 * 10 ^ 8 + 10 ^ 8 < 2 ^ 256) by reflexivity.
    assert (K2 : 10 ^ 8 < 2 ^ 128) by reflexivity.
    assert (0 <= cval l * 10 ^ 8 <= 10 ^ 64 * 10 ^ 8) by nia.
    rewrite !u256_small by lia. change 100000000 with (10 ^ 8).
    rewrite mul256 by lia. cbn [bind]. apply add256; lia.
Qed.

Lemma significand_ok ps : pwf ps -> p_n_rem ps <= 18 -> 8 * len (p_chunks ps) + p_n_rem ps <= 77 ->
  significand_of ps = Some (of256 (pval ps)) /\ 0 <= pval ps < 10 ^ 77.
Proof.
  intros Hw H18 H77. pose proof (pval_bound ps Hw) as B.
  assert (10 ^ (8 * len (p_chunks ps) + p_n_rem ps) <= 10 ^ 77) by (apply Z.pow_le_mono_r; lia).
  split; [|lia]. destruct Hw as (H1 & H2 & H3 & H4). unfold significand_of.
  rewrite chunks_value_ok by auto. cbn [bind].
  assert (10 ^ p_n_rem ps <= 10 ^ 18) by (apply Z.pow_le_mono_r; lia).
  assert (K0 : 10 ^ 18 < 2 ^ 128) by reflexivity.
  assert (0 < 10 ^ p_n_rem ps) by (apply Z.pow_pos_nonneg; lia).
  rewrite chku_ok by lia. cbn [bind].
  pose proof (cval_bound _ H1) as C.
  assert (10 ^ (8 * len (p_chunks ps)) <= 10 ^ 72) by (apply Z.pow_le_mono_r; lia).
  assert (K1 : 10 ^ 77 < 2 ^ 256) by reflexivity. assert (K2 : 10 ^ 72 < 10 ^ 77) by reflexivity.
  unfold pval in *. rewrite !u256_small by lia.
  rewrite mul256 by lia. cbn [bind]. apply add256; lia.
Qed.


(** ** [FloatRepr::from_str] *)

(** The number of fractional digits, from the position of the radix point *)
Definition frac_len (rp : option Z) (rest : list Z) : Z :=
  match rp with Some q => q - 1 - len rest | None => 0 end.

(** The exponent bookkeeping at the end, in the arithmetic of i32 *)
Definition repr_of (sg e nt nf nz w : Z) (tr : bool) : option float_repr :=
  let! e := adds 32 e (casts 32 nt) in
  let! e := subs 32 e (casts 32 nf) in
  let! e := adds 32 e (casts 32 nz) in
  Some (Number (DecNumRepr sg e (of256 w) tr)).

(** [w] and a power of ten [j] describe the first digits of [v]; [tr]: something is lost. *)
Definition decimal_prefix (v w j : Z) (tr : bool) : Prop :=
  0 <= j /\ 0 <= w < 10 ^ 77 /\ w * 10 ^ j <= v < (w + 1) * 10 ^ j
  /\ (tr = false <-> w * 10 ^ j = v)
  /\ (w = 0 \/ w mod 10 <> 0)
  /\ (tr = true -> exists i, 0 <= i <= j /\ 10 ^ 76 <= w * 10 ^ i /\ v < (w * 10 ^ i + 1) * 10 ^ (j - i)).

Lemma trunc_count (ds1 ds2 rest bs0 : list Z) st (rp0 rp' : option Z) :
  scan (rs_bytes st) (rs_rp st) = (ds2, rest, rp', false) -> Forall byte (rs_bytes st) ->
  len bs0 = len (rs_bytes st) + len ds1 + dots rp0 (rs_rp st) ->
  match rs_rp st with Some p => len (rs_bytes st) < p | None => True end ->
  match rp0, rs_rp st with Some p, Some q => p = q | Some _, None => False | None, _ => True end ->
  rp_ok bs0 rp0 -> rs_n st = len ds1 -> rs_n st <= 77 ->
  (rs_n st = 77 \/ (rs_bytes st = rest /\ rs_rp st = rp' /\ false = false)) ->
  let pos := match rp' with Some p => p | None => len rest end in
  let nt := ssub (ssub (len bs0) pos) 77 in
  let nf := ssub pos (len (rs_bytes st) + 1) in
  nt - nf = len ds2 - frac_len rp' rest /\ 0 <= nt <= len bs0
  /\ 0 <= nf <= match rp' with Some p => p | None => len rest end.
Proof.
  intros Es Hb Hl Hp Hrr Hr0 Hn H77 Hend. cbv zeta.
  pose proof (len_nonneg ds1). pose proof (len_nonneg ds2). pose proof (len_nonneg rest).
  destruct (scan_shape _ _ _ _ _ _ Hb Es) as (Hd & _ & _ & Hm).
  unfold ssub, frac_len. destruct (rs_rp st) as [q|] eqn:Eq; destruct rp' as [q'|].
  - destruct Hm as [-> Eb]. assert (Lb : len (rs_bytes st) = len ds2 + len rest).
    { rewrite Eb, len_app, len_ascii. reflexivity. }
    destruct rp0 as [p|]; cbn [dots rp_ok] in *; [subst p|]; lia.
  - contradiction.
  - destruct rp0 as [p|]; [contradiction|]. destruct Hm as (a & b & -> & Eb & ->).
    assert (Lb : len (rs_bytes st) = len a + 1 + len b + len rest).
    { rewrite Eb, len_app, len_cons, len_app, !len_ascii. lia. }
    rewrite len_app in *. pose proof (len_nonneg a). pose proof (len_nonneg b). cbn [dots] in *.
    destruct Hend as [Hend|(_ & Hend & _)]; [|discriminate]. lia.
  - destruct rp0 as [p|]; [contradiction|]. destruct Hm as [Eb _].
    assert (Lb : len (rs_bytes st) = len ds2 + len rest).
    { rewrite Eb, len_app, len_ascii. reflexivity. }
    cbn [dots] in *. destruct Hend as [Hend|(Hend & _ & _)]; [lia|].
    rewrite Hend in *. lia.
Qed.

Lemma scan_rp_le bs rp ds rest rp' inv : scan bs rp = (ds, rest, rp', inv) ->
  match rp' with
  | Some q => match rp with Some p => q = p | None => q <= len bs end
  | None => True
  end.
Proof.
  revert rp ds rest rp' inv. induction bs as [|c t IH]; intros rp ds rest rp' inv E; cbn [scan] in E.
  - injection E as <- <- <- <-. destruct rp; auto.
  - destruct (is_digit c).
    + destruct (scan t rp) as [[[ds0 r0] q0] i0] eqn:Es. injection E as <- <- <- <-.
      apply IH in Es. rewrite len_cons. destruct q0, rp; auto. lia.
    + destruct (c =? 46).
      * destruct rp; [injection E as <- <- <- <-; reflexivity|].
        apply IH in E. destruct rp'; auto. lia.
      * injection E as <- <- <- <-. destruct rp; auto.
Qed.

Lemma frs_core s sg bs ds rest rp' inv : Forall byte s -> get_sign s = (sg, bs) -> bs <> [] ->
  scan bs None = (ds, rest, rp', inv) ->
  if inv then float_repr_from_str s = Some Invalid
  else if len rest =? len bs then float_repr_from_str s = Some (parse_special bs sg)
  else (rest = [] /\ dval ds = 0
        /\ float_repr_from_str s = Some (Number (DecNumRepr 0 0 (of256 0) false)))
    \/ (~ (rest = [] /\ dval ds = 0) /\
        match parse_exponent rest with
        | Some (e, []) => exists nt nf nz w tr,
            float_repr_from_str s = repr_of sg e nt nf nz w tr
            /\ 0 <= nt <= len bs /\ 0 <= nf <= len bs /\ 0 <= nz <= 77
            /\ decimal_prefix (dval ds) w (nt - nf + nz + frac_len rp' rest) tr
        | _ => float_repr_from_str s = Some Invalid
        end).
Proof.
  intros Hs Hg Hne Es.
  assert (Hsne : s <> []). { intros ->. cbn in Hg. congruence. }
  assert (Hb : Forall byte bs).
  { unfold get_sign in Hg. destruct s as [|c t]; [congruence|]. inversion_clear Hs.
    destruct (c =? 45); [injection Hg as _ <-; auto|]. destruct (c =? 43); injection Hg as _ <-; auto. }
  destruct (skip_leading_ok bs ds rest rp' inv Hb Es)
    as (bs1 & rp1 & inv1 & k & ds1 & Esk & Eds & Es1 & Hinv & Hb1 & Hrp1 & H48 & Hlen & H46 & Hnil).
  assert (EV : dval ds = dval ds1) by (rewrite Eds; apply dval_repeat0).
  assert (EF : float_repr_from_str s =
     match bs1 with
      | [] => Some (Number (DecNumRepr 0 0 (u256 0 0) false))
      | _ :: _ =>
        let! st := chunk_loop bs1 rp1 0 (PartialSignif [] 0 0) in
        if inv1 || rs_invalid st then Some Invalid
        else
        let! st := single_loop (rs_bytes st) (rs_rp st) (rs_n st) (rs_signif st) in
        if rs_invalid st then Some Invalid
        else
        let end_signif := len (rs_bytes st) in
        let '(b, rp, inv, truncated) := rest_loop (rs_bytes st) (rs_rp st) false in
        if inv then Some Invalid
        else if len bs =? len b then Some (parse_special b sg)
        else
        let pos := match rp with Some p => p | None => len b end in
        match parse_exponent b with
        | None => Some Invalid
        | Some (e, b) =>
          match b with
          | _ :: _ => Some Invalid
          | [] =>
            let n_int := ssub (len bs1) pos in
            let n_trunc := ssub n_int MAX_N_DIGITS in
            let! e := adds 32 e (casts 32 n_trunc) in
            let n_frac := ssub pos (end_signif + 1) in
            let! e := subs 32 e (casts 32 n_frac) in
            let '(ps, nz) := normalize (rs_signif st) in
            let! e := adds 32 e (casts 32 nz) in
            let! c := significand_of ps in
            Some (Number (DecNumRepr sg e c truncated))
          end
        end
      end).
  { unfold float_repr_from_str. destruct s as [|s0 s']; [congruence|]. rewrite Hg.
    destruct bs as [|b0 b']; [congruence|]. rewrite Esk. destruct bs1; reflexivity. }
  rewrite EF. clear EF.
  destruct (list_eq_dec Z.eq_dec bs1 []) as [E0|Hne1].
  - (* nothing left *)
    destruct (Hnil E0) as [-> ->]. subst bs1. cbn in Es1. injection Es1 as <- <-.
    rewrite (proj2 (Z.eqb_neq _ _)).
    2:{ destruct bs; [congruence|]. rewrite len_cons. change (len (@nil Z)) with 0. pose proof (len_nonneg bs). lia. }
    left. rewrite EV. repeat split; auto.
  - destruct bs1 as [|c1 t1] eqn:Eb1; [congruence|]. rewrite <- Eb1 in *. clear Hne1 Hnil.
    destruct (chunk_loop_ok (length bs1) bs1 rp1 [] ds1 rest rp' inv) as (st1 & E1 & P1 & T1); auto.
    { cbn. lia. }
    change (8 * len []) with 0 in E1, P1. change (8 * len (@nil Z)) with 0 in E1, P1. rewrite E1. cbn [bind].
    destruct inv1; cbn [orb].
    { rewrite (Hinv eq_refl). reflexivity. }
    destruct (rs_invalid st1) eqn:Ei1.
    { unfold progress in P1. rewrite Ei1 in P1. rewrite P1. reflexivity. }
    unfold progress in P1. rewrite Ei1 in P1.
    destruct P1 as (da & db & Ed1 & Es2 & Hb2 & Hn2 & Hc2 & Hv2 & Hw2 & H772 & Hl2 & Hr2 & Hrr2).
    destruct (T1 eq_refl) as [T7 Tshort].
    destruct (single_loop_ok (rs_bytes st1) (rs_rp st1) (rs_n st1) (rs_signif st1) db rest rp' inv)
      as (st & E2 & P2 & T2); auto.
    { destruct Tshort as [H70|Hsh]; [pose proof (len_nonneg db); lia|].
      pose proof (Hsh _ _ _ _ Es2). lia. }
    rewrite E2. cbn [bind]. destruct (rs_invalid st) eqn:Ei2.
    { unfold progress in P2. rewrite Ei2 in P2. rewrite P2. reflexivity. }
    assert (PP : progress bs1 rp1 0 0 st ds1 rest rp' inv).
    { eapply progress_step with (da := da) (ds2 := db) (bs2 := rs_bytes st1) (rp2 := rs_rp st1); auto.
      replace (0 + len da) with (rs_n st1) by lia.
      change (0 * 10 ^ len da) with (cval [] * 10 ^ len da). rewrite <- Hv2. exact P2. }
    clear P2 E1 E2 T1 Hn2 Hc2 Hv2 Hw2 H772 Hl2 Hr2 Hrr2 T7 Tshort Es2 Hb2 Ed1 db da.
    unfold progress in PP. rewrite Ei2 in PP.
    destruct PP as (da & db & Ed1 & Es2 & Hb2 & Hn2 & Hc2 & Hv2 & Hw2 & H772 & Hl2 & Hr2 & Hrr2).
    destruct (T2 eq_refl) as [H18 Tend].
    rewrite (rest_loop_ok (rs_bytes st) (rs_rp st) false db rest rp' inv) by auto. cbn [orb].
    destruct inv; [reflexivity|]. cbv beta iota zeta.
    rewrite (Z.eqb_sym (len bs)).
    destruct (Z.eqb_spec (len rest) (len bs)) as [El|El].
    { assert (SH := scan_shape _ _ _ _ _ _ Hb Es). destruct SH as (_ & _ & _ & SH).
      assert (bs = rest) as ->; [|reflexivity].
      destruct rp' as [q|].
      - destruct SH as (a & b & _ & Eb & _). exfalso. apply (f_equal len) in Eb.
        rewrite len_app, len_cons, len_app in Eb. pose proof (len_nonneg (ascii a)). pose proof (len_nonneg (ascii b)). lia.
      - destruct SH as [Eb _]. assert (L := f_equal len Eb). rewrite len_app, len_ascii in L.
        destruct ds; [exact Eb|]. rewrite len_cons in L. pose proof (len_nonneg ds). lia. }
    right. split.
    { intros [Er E0]. rewrite EV in E0. subst rest.
      rewrite Eb1 in Es1, H48, H46. cbn [hd_not] in H48. cbn [scan] in Es1.
      rewrite Eb1 in Hb1. assert (Hbt1 : Forall byte t1) by (inversion_clear Hb1; auto).
      assert (Hbc1 : byte c1) by (inversion_clear Hb1; auto).
      destruct (is_digit c1) eqn:Edc.
      - destruct (scan t1 rp1) as [[[d0 r0] q0] i0] eqn:Et1. injection Es1 as <- -> -> ->.
        assert (D0 : is_dec d0) by (eapply (scan_shape t1 rp1); eauto).
        apply is_digit_true in Edc; auto. unfold digc in Edc.
        rewrite dval_cons in E0. pose proof (dval_bound d0 D0).
        assert (0 < 10 ^ len d0) by (apply Z.pow_pos_nonneg; [lia|apply len_nonneg]). nia.
      - destruct (Z.eqb_spec c1 46) as [->|].
        + destruct rp1; [discriminate|]. apply (H46 eq_refl). reflexivity.
        + discriminate. }
    destruct (parse_exponent rest) as [[e [|x y]]|]; [|reflexivity|reflexivity].
    destruct (trunc_count da db rest bs1 st rp1 rp') as (TC & TN & TF); auto.
    unfold MAX_N_DIGITS. revert TC TN TF. cbv zeta.
    set (pos := match rp' with Some p => p | None => len rest end).
    set (nt := ssub (ssub (len bs1) pos) 77). set (nf := ssub pos (len (rs_bytes st) + 1)).
    intros TC TN TF.
    destruct (normalize_ok (rs_signif st) Hw2 H18) as (ps' & nz & EN & Hw3 & Hnz & H183 & Hv3 & Hl3 & Hmx).
    destruct (significand_ok ps' Hw3 H183 ltac:(lia)) as [ES HB].
    exists nt, nf, nz, (pval ps'), (negb (dval db =? 0)). split.
    { unfold repr_of. destruct (adds 32 e (casts 32 nt)) as [e1|]; cbn [bind]; [|reflexivity].
      destruct (subs 32 e1 (casts 32 nf)) as [e2|]; cbn [bind]; [|reflexivity]. rewrite EN.
      destruct (adds 32 e2 (casts 32 nz)) as [e3|]; cbn [bind]; [|reflexivity]. rewrite ES. reflexivity. }
    assert (Hdots : 0 <= dots None rp1) by (destruct rp1; cbn [dots]; lia).
    assert (Hlb : len bs1 <= len bs) by lia.
    split; [lia|]. split.
    { pose proof (scan_rp_le _ _ _ _ _ _ Es) as HH. pose proof (scan_len _ _ _ _ _ _ Es) as HL.
      pose proof (len_nonneg ds). destruct rp' as [q|]; lia. }
    pose proof (len_nonneg (p_chunks ps')) as G3. destruct Hw3 as (_ & _ & G4 & _).
    split; [lia|].
    replace (nt - nf + nz + frac_len rp' rest) with (len db + nz) by lia.
    assert (D1 : is_dec ds1) by (eapply (scan_shape bs1 rp1); eauto).
    rewrite Ed1 in D1. apply Forall_split in D1. destruct D1 as [Da Db].
    pose proof (dval_bound db Db) as Bb. pose proof (len_nonneg db) as G5.
    assert (Ev : dval ds = pval ps' * 10 ^ (len db + nz) + dval db).
    { rewrite EV, Ed1, dval_app. rewrite Z.mul_0_l, Z.add_0_l in Hv2. rewrite <- Hv2, Hv3, Z.pow_add_r by lia. ring. }
    assert (10 ^ len db <= 10 ^ (len db + nz)) by (apply Z.pow_le_mono_r; lia).
    unfold decimal_prefix. split; [lia|]. split; [lia|]. split; [lia|].
    rewrite negb_false_iff, Z.eqb_eq. split; [split; intros; lia|]. split; [exact Hmx|].
    intros Ht. apply negb_true_iff, Z.eqb_neq in Ht. exists nz. split; [lia|].
    cut (10 ^ 76 <= pval ps' * 10 ^ nz).
    { intros H76. split; [exact H76|]. replace (len db + nz - nz) with (len db) by lia.
      rewrite Ev, Z.pow_add_r by lia. lia. }
    assert (Hdb : db <> []) by (intros ->; apply Ht; reflexivity).
    destruct Tend as [H77|(Eb & Er & _)].
    2:{ exfalso. rewrite Eb, Er in Es2. pose proof (scan_len _ _ _ _ _ _ Es2).
        destruct db; [congruence|]. rewrite len_cons in *. pose proof (len_nonneg db). lia. }
    rewrite <- Hv3, Hv2, Z.mul_0_l, Z.add_0_l.
    assert (L77 : len da = 77) by lia.
    (* the first digit is not zero *)
    destruct da as [|d0 da]; [change (len (@nil Z)) with 0 in L77; lia|].
    rewrite len_cons in L77. rewrite dval_cons. replace (len da) with 76 by lia.
    assert (Hd0 : d0 <> 0).
    { rewrite Ed1, Eb1 in Es1. rewrite Eb1 in H48, H46. cbn [hd_not] in H48. cbn [scan app] in Es1.
      destruct (is_digit c1) eqn:Edc.
      - destruct (scan t1 rp1) as [[[x0 r0] q0] i0] eqn:Et1. injection Es1 as <- _ _ _ _. lia.
      - destruct (Z.eqb_spec c1 46) as [->|].
        + destruct rp1; [discriminate|]. exfalso. apply (H46 eq_refl). reflexivity.
        + discriminate. }
    inversion_clear Da. pose proof (dval_bound da ltac:(auto)).
    assert (0 < 10 ^ 76) by (apply Z.pow_pos_nonneg; lia). nia.
Qed.

End Loops.

(** * FromStrProofs: [f256::from_str] on literals and names *)

From Coq Require Import ZArith List Bool Lia.
From Verif Require Import Base ZLemmas BigUInt BigLaws BigExtra Spec SpecFns SpecLemmas SpecAlg F256 F256Lemmas
  Arith Interface LiftProofs Compute Parse SpecParse ChunkLemmas ParseProofs ReadProofs LitProofs ExactProofs.
Import ListNotations.
Open Scope Z_scope.

(** ** The rounding of decimal values *)

Lemma rnd_mag_ratio n1 d1 n2 d2 : 0 < d1 -> 0 < d2 -> 0 <= n1 -> 0 <= n2 -> n1 * d2 = n2 * d1 ->
  rnd_mag n1 d1 = rnd_mag n2 d2.
Proof.
  intros. rewrite <- (rnd_mag_scale n1 d1 d2), <- (rnd_mag_scale n2 d2 d1) by auto.
  rewrite (Z.mul_comm d2 d1). congruence.
Qed.

Lemma pow10_pos k : 0 <= k -> 0 < 10 ^ k.
Proof. intros. apply Z.pow_pos_nonneg; lia. Qed.

Lemma dec_rnd_shift s w k j : 0 <= w -> 0 <= j -> dec_rnd s (w * 10 ^ j) (k - j) = dec_rnd s w k.
Proof.
  intros Hw Hj. unfold dec_rnd. f_equal. pose proof unit_pos as PU. revert PU. generalize (2 ^ UNITe). intros u PU.
  pose proof (pow10_pos (Z.max 0 (k - j)) ltac:(lia)). pose proof (pow10_pos (Z.max 0 k) ltac:(lia)).
  pose proof (pow10_pos (Z.max 0 (- (k - j))) ltac:(lia)). pose proof (pow10_pos (Z.max 0 (- k)) ltac:(lia)).
  pose proof (pow10_pos j Hj).
  apply rnd_mag_ratio; auto.
  - repeat (apply Z.mul_nonneg_nonneg; try lia).
  - repeat (apply Z.mul_nonneg_nonneg; try lia).
  - replace (w * 10 ^ j * 10 ^ Z.max 0 (k - j) * u * 10 ^ Z.max 0 (- k))
      with (w * u * (10 ^ j * 10 ^ Z.max 0 (k - j) * 10 ^ Z.max 0 (- k))) by ring.
    replace (w * 10 ^ Z.max 0 k * u * 10 ^ Z.max 0 (- (k - j)))
      with (w * u * (10 ^ Z.max 0 k * 10 ^ Z.max 0 (- (k - j)))) by ring.
    rewrite <- !Z.pow_add_r by lia. do 2 f_equal. lia.
Qed.

Lemma rnd_mag_zero d : 0 < d -> rnd_mag 0 d = 0.
Proof.
  intros. unfold rnd_mag. rewrite Z.div_0_l by lia. change (Z.max 0 (Z.log2 0 - 236)) with 0.
  change (2 ^ 0) with 1. rewrite Z.mul_1_r. pose proof (rne_div_exact 0 d ltac:(auto)) as E. rewrite Z.mul_0_l in E. rewrite E. reflexivity.
Qed.

Lemma dec_rnd_zero s k : dec_rnd s 0 k = mkf s 0.
Proof. unfold dec_rnd. rewrite !Z.mul_0_l. rewrite rnd_mag_zero; auto. apply pow10_pos. lia. Qed.

Lemma rnd_mag_ge_pow n d e : 0 < d -> 0 <= e -> 2 ^ (236 + e) * d <= n ->
  Z.min INFm ((e + 1) * 2 ^ 236) <= rnd_mag n d.
Proof.
  intros Hd He Hn. unfold rnd_mag. apply Z.min_le_compat_l.
  pose proof (pow2_pos (236 + e) ltac:(lia)) as PE.
  assert (L : 236 + e <= Z.log2 (n / d)).
  { apply Z.log2_le_pow2; [|apply Z.div_le_lower_bound; lia]. apply Z.div_str_pos. nia. }
  set (e' := Z.max 0 (Z.log2 (n / d) - 236)). assert (e <= e') by lia.
  pose proof (pow2_pos e' ltac:(lia)) as PE'.
  assert (Hn0 : 0 <= n) by nia.
  destruct (Z.eq_dec e' e) as [E|E].
  - rewrite E. assert (2 ^ 236 <= rne_div n (d * 2 ^ e)); [|lia].
    apply rne_div_ge_bound; rewrite E in PE'; [nia|]. rewrite Z.pow_add_r in Hn by lia. lia.
  - assert (0 <= rne_div n (d * 2 ^ e')) by (apply rne_div_nonneg; nia).
    clearbody e'. clear - H H0 E. lia.
Qed.

Lemma rnd_mag_tiny n d : 0 <= n -> 2 * n < d -> rnd_mag n d = 0.
Proof.
  intros Hn Hd. unfold rnd_mag. rewrite Z.div_small by lia. change (Z.max 0 (Z.log2 0 - 236)) with 0.
  change (2 ^ 0) with 1. rewrite Z.mul_1_r, Z.mul_0_l, Z.add_0_l.
  rewrite (rne_div_unique n d 0) by lia. reflexivity.
Qed.

(** ** Powers of ten and of two; the exponents are kept abstract *)

Lemma pow5_lower t r a b p : 0 <= t -> 0 <= r -> 0 <= b -> 2 ^ b <= 5 ^ r -> a = 146 * t + r ->
  p <= 339 * t + b -> 2 ^ p <= 5 ^ a.
Proof.
  intros Ht Hr Hb H -> Hp. apply Z.le_trans with (2 ^ (339 * t + b)); [apply Z.pow_le_mono_r; lia|].
  rewrite !Z.pow_add_r, !Z.pow_mul_r by lia.
  apply Z.mul_le_mono_nonneg; [apply Z.pow_nonneg; lia| |apply Z.pow_nonneg; lia|exact H].
  apply Z.pow_le_mono_l. split; [apply Z.pow_nonneg; lia|]. vm_compute. discriminate.
Qed.

Lemma pow5_upper t r a b p : 0 <= t -> 0 <= r -> 0 <= b -> 5 ^ r <= 2 ^ b -> a = 59 * t + r ->
  137 * t + b <= p -> 5 ^ a <= 2 ^ p.
Proof.
  intros Ht Hr Hb H -> Hp. apply Z.le_trans with (2 ^ (137 * t + b)); [|apply Z.pow_le_mono_r; lia].
  rewrite !Z.pow_add_r, !Z.pow_mul_r by lia.
  apply Z.mul_le_mono_nonneg; [apply Z.pow_nonneg; lia| |apply Z.pow_nonneg; lia|exact H].
  apply Z.pow_le_mono_l. split; [apply Z.pow_nonneg; lia|]. vm_compute. discriminate.
Qed.

Lemma pow10_split k : 10 ^ k = 2 ^ k * 5 ^ k.
Proof. change 10 with (2 * 5). apply Z.pow_mul_l. Qed.

(** 10^78914 is above every finite value *)
Lemma ten_big k e : k = 78914 -> e = 262144 -> 2 ^ e <= 10 ^ k.
Proof.
  intros Hk He. rewrite pow10_split.
  pose proof (pow5_lower 540 74 k 171 (e - k) ltac:(lia) ltac:(lia) ltac:(lia) ltac:(vm_compute; discriminate)
    ltac:(lia) ltac:(lia)) as L.
  replace e with (k + (e - k)) at 1 by lia. rewrite Z.pow_add_r by lia.
  apply Z.mul_le_mono_nonneg_l; [apply Z.pow_nonneg; lia|exact L].
Qed.

(** 10^-79056 is below half of the least positive value *)
Lemma ten_small k u : k = 79056 -> u = 262378 -> 2 * 2 ^ u < 10 ^ k.
Proof.
  intros Hk Hu. rewrite pow10_split.
  pose proof (pow5_lower 541 70 k 162 (u + 2 - k) ltac:(lia) ltac:(lia) ltac:(lia) ltac:(vm_compute; discriminate)
    ltac:(lia) ltac:(lia)) as L.
  apply Z.lt_le_trans with (2 ^ k * 2 ^ (u + 2 - k)).
  - rewrite <- Z.pow_add_r by lia. replace (k + (u + 2 - k)) with (2 + u) by lia. rewrite Z.pow_add_r by lia.
    change (2 ^ 2) with 4. assert (P := pow2_pos u ltac:(lia)). clear - P. lia.
  - apply Z.mul_le_mono_nonneg_l; [apply Z.pow_nonneg; lia|exact L].
Qed.

(** 10^-78981 is above the least positive value *)
Lemma ten_min k u : k = 78981 -> u = 262378 -> 10 ^ k <= 2 ^ u.
Proof.
  intros Hk Hu. rewrite pow10_split.
  pose proof (pow5_upper 1338 39 k 91 (u - k) ltac:(lia) ltac:(lia) ltac:(lia) ltac:(vm_compute; discriminate)
    ltac:(lia) ltac:(lia)) as L.
  replace u with (k + (u - k)) by lia. rewrite Z.pow_add_r by lia.
  apply Z.mul_le_mono_nonneg_l; [apply Z.pow_nonneg; lia|exact L].
Qed.

Lemma dec_rnd_big_u u m s w k : u = 262378 -> m = 78914 -> 0 < w -> m <= k ->
  mkf s (rnd_mag (w * 10 ^ Z.max 0 k * 2 ^ u) (10 ^ Z.max 0 (- k))) = mkf s INFm.
Proof.
  intros Hu Hm Hw Hk. f_equal. rewrite Z.max_r, Z.max_l by lia. rewrite Z.pow_0_r.
  assert (exists e, e = 262144) as [e He] by eauto.
  pose proof (ten_big m e Hm He) as T.
  assert (10 ^ m <= 10 ^ k) by (apply Z.pow_le_mono_r; lia).
  pose proof (pow2_pos u ltac:(lia)) as PU.
  assert (B : 2 ^ (236 + (e + u - 236)) * 1 <= w * 10 ^ k * 2 ^ u).
  { replace (236 + (e + u - 236)) with (e + u) by lia. rewrite Z.pow_add_r by lia.
    rewrite Z.mul_1_r. apply Z.mul_le_mono_nonneg_r; [lia|].
    apply Z.le_trans with (10 ^ k); [lia|]. pose proof (pow10_pos k ltac:(lia)). nia. }
  apply rnd_mag_ge_pow in B; [|lia|lia].
  assert (N : 0 <= w * 10 ^ k * 2 ^ u).
  { apply Z.mul_nonneg_nonneg; [|lia]. apply Z.mul_nonneg_nonneg; [lia|]. apply Z.pow_nonneg; lia. }
  pose proof (rnd_mag_bounds _ 1 N ltac:(lia)) as B2.
  replace (e + u - 236 + 1) with 524287 in B by lia.
  change (524287 * 2 ^ 236) with INFm in B. lia.
Qed.

Lemma dec_rnd_big s w k : 0 < w -> 78914 <= k -> dec_rnd s w k = mkf s INFm.
Proof. exact (dec_rnd_big_u UNITe 78914 s w k eq_refl eq_refl). Qed.

Lemma dec_rnd_tiny_u u m s w k : u = 262378 -> m = 79056 -> 0 <= w -> k <= - m -> w < 10 ^ (- m - k) ->
  mkf s (rnd_mag (w * 10 ^ Z.max 0 k * 2 ^ u) (10 ^ Z.max 0 (- k))) = mkf s 0.
Proof.
  intros Hu Hm Hw Hk HW. f_equal. rewrite Z.max_l, Z.max_r by lia. rewrite Z.pow_0_r, Z.mul_1_r.
  pose proof (ten_small m u Hm Hu) as T. pose proof (pow2_pos u ltac:(lia)) as PU.
  apply rnd_mag_tiny; [nia|].
  replace (- k) with ((- m - k) + m) by lia. rewrite Z.pow_add_r by lia.
  assert (0 < 10 ^ m) by (apply pow10_pos; lia).
  generalize dependent (10 ^ (- m - k)). generalize dependent (2 ^ u). generalize dependent (10 ^ m).
  intros. nia.
Qed.

Lemma dec_rnd_tiny s w k : 0 <= w -> k <= -79056 -> w < 10 ^ (-79056 - k) -> dec_rnd s w k = mkf s 0.
Proof. exact (dec_rnd_tiny_u UNITe 79056 s w k eq_refl eq_refl). Qed.

Lemma dec_rnd_nonzero_u u m w k : u = 262378 -> m = 78981 -> 0 < w -> k <= - m -> 10 ^ (- m - k) <= w ->
  1 <= rnd_mag (w * 10 ^ Z.max 0 k * 2 ^ u) (10 ^ Z.max 0 (- k)).
Proof.
  intros Hu Hm Hw Hk HW. rewrite Z.max_l, Z.max_r by lia. rewrite Z.pow_0_r, Z.mul_1_r.
  pose proof (ten_min m u Hm Hu) as T. pose proof (pow2_pos u ltac:(lia)) as PU.
  assert (P10 : 0 < 10 ^ (- k)) by (apply pow10_pos; lia).
  assert (B : 10 ^ (- k) <= w * 2 ^ u).
  { replace (- k) with ((- m - k) + m) by lia. rewrite Z.pow_add_r by lia.
    assert (0 < 10 ^ m) by (apply pow10_pos; lia).
    assert (0 < 10 ^ (- m - k)) by (apply pow10_pos; lia).
    apply Z.mul_le_mono_nonneg; lia. }
  clear - P10 B PU Hw. revert B P10. generalize (10 ^ (- k)) (w * 2 ^ u). intros d n B P. clear - B P.
  unfold rnd_mag. apply Z.min_glb; [unfold INFm; lia|].
  set (e := Z.max 0 (Z.log2 (n / d) - 236)).
  destruct (Z.eq_dec e 0) as [->|He].
  - rewrite Z.mul_0_l, Z.add_0_l. apply rne_div_ge_bound; change (2 ^ 0) with 1; lia.
  - pose proof (pow2_pos e ltac:(lia)).
    assert (0 <= rne_div n (d * 2 ^ e)) by (apply rne_div_nonneg; nia). nia.
Qed.

Lemma dec_rnd_nonzero w k : 0 < w -> k <= -78981 -> 10 ^ (-78981 - k) <= w -> 1 <= dec_rnd 0 w k.
Proof. intros. unfold dec_rnd, mkf. rewrite Z.mul_0_l, Z.add_0_l. exact (dec_rnd_nonzero_u UNITe 78981 w k eq_refl eq_refl H H0 H1). Qed.

(** ** Reading the significand without loss *)

Lemma prefix_exact v w j tr : decimal_prefix v w j tr -> tr = false -> v = w * 10 ^ j.
Proof. intros (_ & _ & _ & H & _) E. symmetry. apply H. exact E. Qed.

Lemma pow10_divides_eq w1 j1 w2 j2 : 0 <= j1 -> 0 <= j2 -> w1 mod 10 <> 0 -> w2 mod 10 <> 0 ->
  w1 * 10 ^ j1 = w2 * 10 ^ j2 -> w1 = w2 /\ j1 = j2.
Proof.
  assert (K : forall a b j i, 0 <= i < j -> a mod 10 <> 0 -> a * 10 ^ i = b * 10 ^ j -> False).
  { intros a b j i Hij Ha E. apply Ha. replace j with (1 + (j - i - 1) + i) in E by lia.
    rewrite !Z.pow_add_r in E by lia. pose proof (pow10_pos i ltac:(lia)).
    assert (a = b * 10 ^ (j - i - 1) * 10).
    { apply (Z.mul_reg_r _ _ (10 ^ i)); [lia|]. rewrite E. change (10 ^ 1) with 10. ring. }
    subst a. apply Z.mod_mul. lia. }
  intros H1 H2 M1 M2 E. destruct (Z.lt_trichotomy j1 j2) as [L|[->|L]].
  - exfalso. apply (K w1 w2 j2 j1); auto.
  - split; auto. pose proof (pow10_pos j2 H2). apply Z.mul_reg_r in E; lia.
  - exfalso. apply (K w2 w1 j1 j2); auto.
Qed.

(** A significand with at most 77 digits is not truncated. *)
Lemma prefix_unique v w j w' j' tr : decimal_prefix v w' j' tr ->
  v = w * 10 ^ j -> 0 <= j -> 0 < w < 10 ^ 77 -> w mod 10 <> 0 -> tr = false /\ w' = w /\ j' = j.
Proof.
  intros (Hj' & Hw' & HB & HT & HM & HX) Ev Hj Hw Hm.
  pose proof (pow10_pos j Hj) as Pj. pose proof (pow10_pos j' Hj') as Pj'.
  assert (T : tr = false).
  { destruct tr; auto. destruct (HX eq_refl) as (i & Hi & H76 & HV). apply HT.
    set (t := j' - i) in *. pose proof (pow10_pos t ltac:(lia)) as Pt.
    assert (EW : w' * 10 ^ j' = w' * 10 ^ i * 10 ^ t).
    { rewrite <- Z.mul_assoc, <- Z.pow_add_r by lia. do 2 f_equal. lia. }
    assert (L : t <= j).
    { destruct (Z_lt_le_dec j t) as [L|L]; [exfalso|exact L].
      assert (10 * 10 ^ j <= 10 ^ t).
      { replace (10 * 10 ^ j) with (10 ^ (1 + j)) by (rewrite Z.pow_add_r by lia; reflexivity).
        apply Z.pow_le_mono_r; lia. }
      change (10 ^ 77) with (10 ^ 76 * 10) in Hw. nia. }
    rewrite EW in *. rewrite Ev in *. replace j with (j - t + t) in * by lia. rewrite Z.pow_add_r in * by lia.
    rewrite Z.mul_assoc in *. f_equal. nia. }
  subst tr. assert (E : v = w' * 10 ^ j') by (symmetry; apply HT; auto).
  assert (w' mod 10 <> 0).
  { destruct HM as [->|]; auto. rewrite Z.mul_0_l in E. nia. }
  destruct (pow10_divides_eq w' j' w j) as [-> ->]; auto. congruence.
Qed.

Lemma prefix_zero w j tr : decimal_prefix 0 w j tr -> w = 0.
Proof. intros (Hj & Hw & HB & _). pose proof (pow10_pos j Hj). nia. Qed.

Lemma prefix_pos v w j tr : 0 < v -> decimal_prefix v w j tr -> 0 < w.
Proof.
  intros Hv (Hj & Hw & HB & HT & _ & HX). destruct (Z.eq_dec w 0) as [->|]; [exfalso|lia].
  destruct tr; [destruct (HX eq_refl) as (i & _ & H & _); rewrite Z.mul_0_l in H; revert H; apply Z.lt_nge; reflexivity|].
  rewrite Z.mul_0_l in HT. destruct HT as [HT _]. specialize (HT eq_refl). lia.
Qed.

Lemma lit_neg01 l : lit_negative l = 0 \/ lit_negative l = 1.
Proof. unfold lit_negative. destruct (l_sign l); auto. Qed.

Lemma dval_nonneg ds : is_dec ds -> 0 <= dval ds.
Proof. intros D. pose proof (dval_bound ds D). lia. Qed.

Lemma signif_nonneg l : all_decimal l -> 0 <= lit_signif l.
Proof.
  intros (D1 & D2 & _). unfold lit_signif. apply dval_nonneg. apply Forall_app. split; auto.
Qed.

Section FromStr.
Context `{P : profile}.

Lemma pick_inf s : s = 0 \/ s = 1 -> pick INFINITY NEG_INFINITY s = Some (of256 (mkf s INFm)).
Proof. intros [->| ->]; vm_compute; reflexivity. Qed.

Lemma pick_zero s : s = 0 \/ s = 1 -> pick ZERO NEG_ZERO s = Some (of256 (mkf s 0)).
Proof. intros [->| ->]; vm_compute; reflexivity. Qed.

Lemma p77_256 w : 0 <= w < 10 ^ 77 -> 0 <= w < 2 ^ 256.
Proof. assert (10 ^ 77 < 2 ^ 256) by reflexivity. lia. Qed.

(** Zero: without an exponent the sign is lost. *)
Lemma from_str_zero l : loose l -> small l -> lit_signif l = 0 ->
  from_str (text l) = Some (Ok (of256 (match l_exp l with None => 0 | Some _ => mkf (lit_negative l) 0 end))).
Proof.
  intros HL HS HZ. destruct (read_small l HL HS) as (r & w & E & Ew & Es & Hp).
  rewrite HZ in Es, Hp. apply prefix_zero in Hp. subst w. unfold from_str. rewrite E. cbn [bind].
  rewrite Ew, is_zero256 by lia. cbn [Z.eqb orb]. rewrite Es. change (0 =? 0) with true. cbv iota.
  destruct (l_exp l); [rewrite (pick_zero _ (lit_neg01 l))|rewrite (pick_zero 0 (or_introl eq_refl))]; reflexivity.
Qed.

Lemma from_str_big l : loose l -> small l -> 0 < lit_signif l -> 78914 <= lit_exp10 l ->
  from_str (text l) = Some (Ok (of256 (spec_parse l))).
Proof.
  intros HL HS HV HE. destruct (read_small l HL HS) as (r & w & E & Ew & Es & Hp).
  pose proof (prefix_pos _ _ _ _ HV Hp) as Hw. destruct Hp as (Hj & Hw7 & _).
  unfold from_str. rewrite E. cbn [bind].
  rewrite Ew, is_zero256 by (apply p77_256; lia). rewrite (proj2 (Z.eqb_neq w 0)) by lia.
  unfold MIN_10_EXP_CUTOFF, MIN_GT_ZERO_10_EXP, MAX_10_EXP. cbn [orb].
  rewrite (proj2 (Z.ltb_ge (d_exponent r) (-79056))) by lia.
  rewrite (proj2 (Z.ltb_ge (d_exponent r) (-78984))) by lia.
  rewrite (proj2 (Z.ltb_lt 78913 (d_exponent r))) by lia.
  replace (d_sign r) with (lit_negative l).
  2:{ rewrite Es. rewrite (proj2 (Z.eqb_neq (lit_signif l) 0)) by lia. destruct (l_exp l); reflexivity. }
  rewrite (pick_inf _ (lit_neg01 l)). cbn [bind]. unfold spec_parse. rewrite dec_rnd_big by auto. reflexivity.
Qed.

Lemma from_str_tiny l : loose l -> small l -> 0 < lit_signif l -> lit_exp10 l <= -79056 ->
  lit_signif l < 10 ^ (-79056 - lit_exp10 l) ->
  from_str (text l) = Some (Ok (of256 (spec_parse l))).
Proof.
  intros HL HS HV HE HT. destruct (read_small l HL HS) as (r & w & E & Ew & Es & Hp).
  pose proof (prefix_pos _ _ _ _ HV Hp) as Hw. destruct Hp as (Hj & Hw7 & HB & _).
  assert (Hlt : d_exponent r < -79056).
  { destruct (Z_lt_le_dec (d_exponent r) (-79056)) as [H|H]; [exact H|exfalso].
    assert (10 ^ (-79056 - lit_exp10 l) <= 10 ^ (d_exponent r - lit_exp10 l)) by (apply Z.pow_le_mono_r; lia).
    pose proof (pow10_pos _ Hj). clear - H0 HB HT Hw H1. nia. }
  unfold from_str. rewrite E. cbn [bind].
  rewrite Ew, is_zero256 by (apply p77_256; lia). rewrite (proj2 (Z.eqb_neq w 0)) by lia.
  unfold MIN_10_EXP_CUTOFF. cbn [orb]. rewrite (proj2 (Z.ltb_lt (d_exponent r) (-79056))) by lia.
  replace (d_sign r) with (lit_negative l).
  2:{ rewrite Es. rewrite (proj2 (Z.eqb_neq (lit_signif l) 0)) by lia. destruct (l_exp l); reflexivity. }
  rewrite (pick_zero _ (lit_neg01 l)). cbn [bind]. unfold spec_parse. rewrite dec_rnd_tiny by (auto; lia). reflexivity.
Qed.

(** The exact path *)
Lemma from_str_exact l w k : loose l -> small l -> lit_exp10 l <= k ->
  lit_signif l = w * 10 ^ (k - lit_exp10 l) -> 0 < w < 2 ^ 237 -> w mod 10 <> 0 -> Z.abs k <= 102 ->
  from_str (text l) = Some (Ok (of256 (spec_parse l))).
Proof.
  intros HL HS Hk HV Hw Hm Ha. destruct (read_small l HL HS) as (r & w' & E & Ew & Es & Hp).
  assert (2 ^ 237 < 10 ^ 77) by reflexivity.
  destruct (prefix_unique _ w (k - lit_exp10 l) _ _ _ Hp HV ltac:(lia) ltac:(lia) Hm) as (Et & -> & Ej).
  assert (Ek : d_exponent r = k) by lia.
  pose proof (pow10_pos (k - lit_exp10 l) ltac:(lia)) as P10.
  assert (Esg : d_sign r = lit_negative l).
  { rewrite Es. rewrite (proj2 (Z.eqb_neq (lit_signif l) 0)) by nia. destruct (l_exp l); reflexivity. }
  unfold from_str. rewrite E. cbn [bind].
  assert (H256 : 2 ^ 237 < 2 ^ 256) by reflexivity.
  rewrite Ew, is_zero256 by lia. rewrite (proj2 (Z.eqb_neq w 0)) by lia.
  unfold MIN_10_EXP_CUTOFF, MIN_GT_ZERO_10_EXP, MAX_10_EXP. cbn [orb]. rewrite Ek.
  rewrite (proj2 (Z.ltb_ge k (-79056))), (proj2 (Z.ltb_ge k (-78984))), (proj2 (Z.ltb_ge 78913 k)) by lia.
  rewrite Et, Esg. unfold fast_exact. rewrite dassert_ok.
  2:{ destruct (lit_neg01 l) as [->| ->]; reflexivity. }
  cbn [bind]. rewrite dassert_ok by (rewrite is_zero256 by lia; rewrite (proj2 (Z.eqb_neq w 0)) by lia; reflexivity).
  cbn [bind]. rewrite xhi_of. rewrite (proj2 (Z.leb_le (Z.abs k) 102)) by lia.
  rewrite (proj2 (Z.leb_le (w / 2 ^ 128) MAX_SIGNIF_HI)).
  2:{ unfold MAX_SIGNIF_HI. assert (w / 2 ^ 128 < 2 ^ 109); [apply Z.div_lt_upper_bound; [lia|]|].
      change (2 ^ 128 * 2 ^ 109) with (2 ^ 237). lia. change (2 ^ 109) with (2 * 2 ^ 108) in H0. lia. }
  cbn [andb]. rewrite exact_ok by (auto using lit_neg01). cbn [bind].
  unfold spec_parse. rewrite HV. replace (lit_exp10 l) with (k - (k - lit_exp10 l)) at 2 by lia.
  rewrite dec_rnd_shift by lia. reflexivity.
Qed.

(** Names *)
Lemma upcase_letter c d : upcase c = d -> 65 <= d <= 90 -> is_digit c = false /\ c <> 46 /\ c <> 45 /\ c <> 43.
Proof.
  unfold upcase, is_digit, digit_of. intros E Hd.
  destruct (Z.leb_spec 97 c); destruct (Z.leb_spec c 122); cbn [andb] in E;
   (split; [|lia]); apply Z.ltb_ge; rewrite ?Z.mod_small by lia; lia.
Qed.

Lemma special_repr s t sg : Forall byte s -> special_text s t sg ->
  t = NAN_TEXT \/ t = INF_TEXT \/ t = INFINITY_TEXT ->
  exists bs, map upcase bs = t /\ Forall byte bs
    /\ float_repr_from_str s = Some (parse_special bs (match sg with Minus => 1 | _ => 0 end)).
Proof.
  intros Hs (bs & Es & Et) Ht. exists bs. split; [exact Et|].
  assert (Hb : Forall byte bs). { rewrite Es in Hs. apply Forall_app in Hs. tauto. }
  split; [exact Hb|].
  assert (exists c u, bs = c :: u /\ is_digit c = false /\ c <> 46 /\ c <> 45 /\ c <> 43) as (c & u & Ebs & K1 & K2 & K3 & K4).
  { destruct bs as [|c u]; [destruct Ht as [->|[->| ->]]; discriminate|]. exists c, u. split; [reflexivity|].
    destruct Ht as [->|[->| ->]]; cbn [map] in Et;
      [apply (upcase_letter c 78)|apply (upcase_letter c 73)|apply (upcase_letter c 73)];
      try lia; injection Et as E _; exact E. }
  assert (Eg : get_sign s = (match sg with Minus => 1 | _ => 0 end, bs)).
  { rewrite Es, Ebs. destruct sg; cbn [sign_text app get_sign]; [|reflexivity|reflexivity].
    rewrite (proj2 (Z.eqb_neq c 45)), (proj2 (Z.eqb_neq c 43)) by lia. reflexivity. }
  assert (Esc : scan bs None = ([], bs, None, false)).
  { rewrite Ebs. cbn [scan]. rewrite K1, (proj2 (Z.eqb_neq c 46)) by lia. reflexivity. }
  pose proof (frs_core s _ bs [] bs None false Hs Eg ltac:(rewrite Ebs; discriminate) Esc) as F.
  cbv iota in F. rewrite Z.eqb_refl in F. exact F.
Qed.

Lemma from_str_nan s : Forall byte s -> nan_text s -> from_str s = Some (Ok (of256 QNAN)).
Proof.
  intros Hs (sg & H). destruct (special_repr s NAN_TEXT sg Hs H ltac:(auto)) as (bs & E1 & Hb & E2).
  unfold from_str. rewrite E2. cbn [bind].
  destruct (parse_special_ok bs (match sg with Minus => 1 | _ => 0 end) Hb) as [[-> _]|[[-> [K|K]]|(_ & K & _)]];
    [vm_compute; reflexivity| | |]; exfalso; rewrite E1 in K; try discriminate K; apply K; reflexivity.
Qed.

Lemma from_str_inf s sg : Forall byte s -> inf_text s sg ->
  from_str s = Some (Ok (of256 (mkf (match sg with Minus => 1 | _ => 0 end) INFm))).
Proof.
  intros Hs H.
  assert (exists t, special_text s t sg /\ (t = INF_TEXT \/ t = INFINITY_TEXT)) as (t & H1 & H2).
  { destruct H; eauto. }
  destruct (special_repr s t sg Hs H1 ltac:(tauto)) as (bs & E1 & Hb & E2).
  unfold from_str. rewrite E2. cbn [bind].
  destruct (parse_special_ok bs (match sg with Minus => 1 | _ => 0 end) Hb) as [[_ K]|[[-> _]|(_ & _ & K1 & K2)]].
  - exfalso. rewrite E1 in K. destruct H2; subst t; discriminate.
  - rewrite pick_inf by (destruct sg; auto). reflexivity.
  - exfalso. rewrite E1 in *. destruct H2; subst t; congruence.
Qed.

(** A literal of the wider grammar never leads to an error value. *)
Lemma from_str_loose l : loose l -> from_str (text l) = None \/ exists x, from_str (text l) = Some (Ok x).
Proof.
  intros HL. assert (forall m, m = float_repr_from_str (text l) -> (m = None \/ exists r, m = Some (Number r)) ->
    from_str (text l) = None \/ exists x, from_str (text l) = Some (Ok x)) as K.
  { intros m Em H. unfold from_str. rewrite <- Em. destruct H as [->|[r ->]]; [left; reflexivity|]. cbn [bind].
    destruct (if is_zero (d_significand r) || (d_exponent r <? MIN_10_EXP_CUTOFF) then pick ZERO NEG_ZERO (d_sign r)
      else _) as [x|]; cbn [bind]; [right; eauto|left; reflexivity]. }
  apply (K _ eq_refl).
  destruct (read_literal l HL) as [(_ & _ & ->)|(nt & nf & nz & w & tr & -> & _)]; [right; eauto|].
  unfold repr_of. repeat match goal with |- context [bind ?m _] => destruct m; cbn [bind]; [|left; reflexivity] end.
  right; eauto.
Qed.

Lemma from_str_class s : Forall byte s ->
  (s = [] /\ from_str s = Some ErrEmpty)
  \/ (loose_text s /\ (from_str s = None \/ exists x, from_str s = Some (Ok x)))
  \/ (s <> [] /\ ~ loose_text s /\ from_str s = Some ErrInvalid).
Proof.
  intros Hs. destruct (kind_ok s Hs) as [-> _|l HL ->|sg H _|sg H _|Hne E].
  - left. split; reflexivity.
  - right. left. split; [left; eauto|]. apply from_str_loose; auto.
  - right. left. split; [right; left; exists sg; auto|]. right. eexists. apply from_str_nan; auto. exists sg. auto.
  - right. left. split; [right; right; exists sg; auto|]. right. eexists. apply (from_str_inf s sg); auto.
  - right. right. assert (E' : from_str s = Some ErrInvalid) by (unfold from_str; rewrite E; reflexivity).
    split; [auto|]. split; [|exact E'].
    intros [(l & HL & ->)|[H|(sg & H)]].
    + destruct (from_str_loose l HL) as [K|(x & K)]; rewrite K in E'; discriminate.
    + rewrite (from_str_nan s Hs H) in E'. discriminate.
    + rewrite (from_str_inf s sg Hs H) in E'. discriminate.
Qed.

Lemma not_loose_empty : ~ loose_text [].
Proof.
  intros [(l & (_ & H & _) & E)|[(sg & w & E1 & E2)|(sg & [(w & E1 & E2)|(w & E1 & E2)])]].
  - unfold text in E. symmetry in E. apply app_eq_nil in E. destruct E as [_ E].
    apply app_eq_nil in E. destruct E as [E1 E2]. apply app_eq_nil in E2. destruct E2 as [E2 _].
    unfold ascii in E1. apply map_eq_nil in E1. destruct (l_frac l); [discriminate|]. destruct H; congruence.
  - symmetry in E1. apply app_eq_nil in E1. destruct E1 as [_ ->]. discriminate.
  - symmetry in E1. apply app_eq_nil in E1. destruct E1 as [_ ->]. discriminate.
  - symmetry in E1. apply app_eq_nil in E1. destruct E1 as [_ ->]. discriminate.
Qed.

(** The call does not panic and returns the datum with bit pattern [r]. *)
Definition parses (m : option parsed) (r : Z) : Prop :=
  exists z, m = Some (Ok z) /\ wf256 z /\ v256 z = r.

Lemma parses_of m r : 0 <= r < 2 ^ 256 -> m = Some (Ok (of256 r)) -> parses m r.
Proof. intros H ->. exists (of256 r). split; [reflexivity|]. split; [apply wf256_of; auto|apply v256_of; auto]. Qed.

Lemma mkf_range s m : s = 0 \/ s = 1 -> 0 <= m <= INFm -> 0 <= mkf s m < 2 ^ 256.
Proof. pose proof INFm_lt. unfold mkf. change (2 ^ 256) with (2 ^ 255 + 2 ^ 255). intros [->| ->]; lia. Qed.

Lemma spec_parse_range l : all_decimal l -> 0 <= spec_parse l < 2 ^ 256.
Proof.
  intros D. unfold spec_parse, dec_rnd. apply mkf_range; [apply lit_neg01|].
  pose proof (signif_nonneg l D).
  pose proof (pow10_pos (Z.max 0 (lit_exp10 l)) ltac:(lia)).
  apply rnd_mag_bounds; [|apply pow10_pos; lia].
  apply Z.mul_nonneg_nonneg; [apply Z.mul_nonneg_nonneg; lia|apply Z.lt_le_incl, unit_pos].
Qed.

Lemma L_zero l : loose l -> small l -> lit_signif l = 0 -> l_exp l <> None \/ l_sign l <> Minus ->
  parses (from_str (text l)) (spec_parse l).
Proof.
  intros HL HS HZ HN. apply parses_of; [apply spec_parse_range; apply HL|].
  rewrite from_str_zero by auto. unfold spec_parse. rewrite HZ, dec_rnd_zero.
  destruct (l_exp l); [reflexivity|]. destruct HN as [HN|HN]; [congruence|].
  unfold lit_negative. destruct (l_sign l); [reflexivity|reflexivity|congruence].
Qed.
Lemma L_zero_magnitude l : loose l -> small l -> lit_signif l = 0 ->
  exists z, from_str (text l) = Some (Ok z) /\ wf256 z /\ zerob (v256 z) = true.
Proof.
  intros HL HS HZ. rewrite from_str_zero by auto. eexists. split; [reflexivity|].
  destruct (l_exp l); [destruct (lit_neg01 l) as [->| ->]|]; (split; [apply wf256_of; vm_compute; split; congruence|vm_compute; reflexivity]).
Qed.
Lemma L_big l : loose l -> small l -> 0 < lit_signif l -> 78914 <= lit_exp10 l ->
  parses (from_str (text l)) (spec_parse l).
Proof. intros. apply parses_of; [apply spec_parse_range; apply H|apply from_str_big; auto]. Qed.
Lemma L_tiny l : loose l -> small l -> 0 < lit_signif l -> lit_exp10 l <= -79056 ->
  lit_signif l < 10 ^ (-79056 - lit_exp10 l) -> parses (from_str (text l)) (spec_parse l).
Proof. intros. apply parses_of; [apply spec_parse_range; apply H|apply from_str_tiny; auto]. Qed.
Lemma L_exact l w k : loose l -> small l -> lit_exp10 l <= k ->
  lit_signif l = w * 10 ^ (k - lit_exp10 l) -> 0 < w < 2 ^ 237 -> w mod 10 <> 0 -> Z.abs k <= 102 ->
  parses (from_str (text l)) (spec_parse l).
Proof. intros. apply parses_of; [apply spec_parse_range; apply H|eapply from_str_exact; eauto]. Qed.
Lemma L_nan s : Forall byte s -> nan_text s -> parses (from_str s) QNAN.
Proof. intros. apply parses_of; [vm_compute; split; congruence|apply from_str_nan; auto]. Qed.
Lemma L_inf s sg : Forall byte s -> inf_text s sg ->
  parses (from_str s) (mkf (match sg with Minus => 1 | _ => 0 end) INFm).
Proof. intros. apply parses_of; [destruct sg; vm_compute; split; congruence|apply from_str_inf; auto]. Qed.

Lemma L_grammar s : Forall byte s ->
  (from_str s = Some ErrEmpty <-> s = [])
  /\ (from_str s = Some ErrInvalid <-> s <> [] /\ ~ loose_text s)
  /\ (forall x, from_str s = Some (Ok x) -> loose_text s)
  /\ (from_str s = None -> loose_text s).
Proof.
  intros Hs. destruct (from_str_class s Hs) as [(-> & E)|[(HL & [E|(x & E)])|(Hn & HL & E)]]; rewrite E.
  - split; [tauto|]. split; [split; [discriminate|intros [H _]; congruence]|]. split; [discriminate|discriminate].
  - split; [split; [discriminate|intros ->; destruct (not_loose_empty HL)]|].
    split; [split; [discriminate|tauto]|]. split; [discriminate|auto].
  - split; [split; [discriminate|intros ->; destruct (not_loose_empty HL)]|].
    split; [split; [discriminate|tauto]|]. split; [auto|discriminate].
  - split; [split; [discriminate|congruence]|]. split; [tauto|]. split; discriminate.
Qed.

Lemma documented_text_loose s : documented_text s -> loose_text s.
Proof. intros [(l & H & E)|H]; [left; exists l; split; auto using documented_loose|right; exact H]. Qed.

Lemma L_documented s : Forall byte s -> documented_text s ->
  from_str s <> Some ErrEmpty /\ from_str s <> Some ErrInvalid.
Proof.
  intros Hs HD. apply documented_text_loose in HD. destruct (L_grammar s Hs) as (G1 & G2 & _).
  split; intros E; [apply G1 in E; subst s; exact (not_loose_empty HD)|apply G2 in E; tauto].
Qed.

Lemma L_no_literal s : Forall byte s -> ~ (exists l, loose l /\ s = text l) -> from_str s <> None.
Proof.
  intros Hs HN E. destruct (L_grammar s Hs) as (_ & _ & _ & G). destruct (G E) as [H|[H|(sg & H)]]; [tauto| |].
  - rewrite (from_str_nan s Hs H) in E. discriminate.
  - rewrite (from_str_inf s sg Hs H) in E. discriminate.
Qed.

End FromStr.

(** ** Texts the documentation does not allow *)

Lemma point_not_documented : ~ documented_text [46].
Proof.
  intros [(l & (D & HN & _) & E)|[(sg & w & E1 & E2)|(sg & [(w & E1 & E2)|(w & E1 & E2)])]].
  - destruct D as (D1 & D2 & _). unfold text in E. destruct (l_sign l); [|discriminate|discriminate].
    cbn [sign_text app] in E. unfold frac_digits in *. destruct (l_int l) as [|d ds].
    + cbn [ascii map app] in *. destruct (l_frac l) as [f|].
      * cbn [frac_text app] in E. destruct f; [congruence|discriminate].
      * cbn [frac_text app] in E. destruct (l_exp l) as [[[[] ?] ?]|]; discriminate.
    + inversion_clear D1. cbn [ascii map app] in E. apply (f_equal (hd 0)) in E. cbn [hd] in E. lia.
  - destruct sg; [|discriminate|discriminate]. cbn [sign_text app] in E1. subst w. discriminate.
  - destruct sg; [|discriminate|discriminate]. cbn [sign_text app] in E1. subst w. discriminate.
  - destruct sg; [|discriminate|discriminate]. cbn [sign_text app] in E1. subst w. discriminate.
Qed.

(** ** Evaluating the specification on integers *)

Lemma spec_parse_eq l s w k : lit_negative l = s -> lit_signif l = w -> lit_exp10 l = k ->
  spec_parse l = dec_rnd s w k.
Proof. intros <- <- <-. reflexivity. Qed.

Lemma dec_rnd_int s w : 0 < w -> dec_rnd s w 0 = mkf s (rnd_fast w UNITe).
Proof.
  intros Hw. unfold dec_rnd. f_equal. change (10 ^ Z.max 0 0) with 1. change (10 ^ Z.max 0 (- 0)) with (2 ^ 0).
  rewrite Z.mul_1_r. rewrite rnd_fast_ok by (try lia; unfold UNITe; lia). reflexivity.
Qed.

Definition lit_check (l : literal) : bool :=
  let dec := forallb (fun d => (0 <=? d) && (d <? 10)) in
  dec (l_int l) && dec (frac_digits l) && dec (exp_digits l)
  && negb (Z.of_nat (length (l_int l ++ frac_digits l)) =? 0)
  && match l_exp l with Some (_, _, ds) => negb (Z.of_nat (length ds) =? 0) | None => true end.

Lemma lit_check_ok l : lit_check l = true -> documented l.
Proof.
  unfold lit_check. rewrite !andb_true_iff. intros ((((A & B) & C) & D) & E).
  assert (K : forall ds, forallb (fun d => (0 <=? d) && (d <? 10)) ds = true -> is_dec ds).
  { intros ds H. apply Forall_forall. intros d Hd. rewrite forallb_forall in H. specialize (H d Hd).
    rewrite andb_true_iff, Z.leb_le, Z.ltb_lt in H. exact H. }
  split; [split; [auto|split; auto]|]. split.
  - intros H. rewrite H in D. discriminate.
  - destruct (l_exp l) as [[[up s] ds]|]; [|exact I]. intros ->. discriminate.
Qed.

Lemma loose_check l : lit_check l = true -> loose l.
Proof. intros H. apply documented_loose, lit_check_ok, H. Qed.

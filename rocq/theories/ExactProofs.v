(** * ExactProofs: the exact path of the parser, fast_exact.rs *)

From Coq Require Import ZArith List Bool Lia.
From Verif Require Import Base ZLemmas BigUInt BigLaws BigExtra Spec SpecFns SpecLemmas SpecAlg F256 F256Lemmas
  Arith DivProofs MulProofs Interface Conv ConvProofs PowersOfFive Parse SpecParse.
Import ListNotations.
Open Scope Z_scope.

(** ** Scaling a normal number by a power of two *)

Lemma log2_quot_scale n d a : 0 < d -> d <= n -> 0 <= a ->
  Z.log2 (n * 2 ^ a / d) = Z.log2 (n / d) + a.
Proof.
  intros Hd Hn Ha. assert (Hq : 1 <= n / d) by (apply Z.div_le_lower_bound; lia).
  pose proof (pow2_pos a Ha) as Pa. apply Z.log2_unique; [pose proof (Z.log2_nonneg (n / d)); lia|].
  pose proof (Z.log2_spec (n / d) ltac:(lia)) as [L1 L2]. pose proof (Z.log2_nonneg (n / d)) as L0.
  set (l := Z.log2 (n / d)) in *. rewrite Z.pow_add_r by lia.
  replace (Z.succ (l + a)) with (Z.succ l + a) by lia. rewrite (Z.pow_add_r 2 (Z.succ l) a) by lia.
  split.
  - apply Z.div_le_lower_bound; [lia|]. assert (d * (n / d) <= n) by (apply Z.mul_div_le; lia).
    assert (d * 2 ^ l <= n) by nia. rewrite Z.mul_assoc. apply Z.mul_le_mono_nonneg_r; lia.
  - apply Z.div_lt_upper_bound; [lia|].
    assert (n < d * 2 ^ Z.succ l).
    { pose proof (Z.mul_succ_div_gt n d Hd). nia. }
    rewrite Z.mul_assoc. apply Z.mul_lt_mono_pos_r; lia.
Qed.

Lemma rnd_mag_shift n d a : 0 < d -> 2 ^ 236 * d <= n -> 0 <= a -> rnd_mag n d + a * 2 ^ 236 < INFm ->
  rnd_mag (n * 2 ^ a) d = rnd_mag n d + a * 2 ^ 236.
Proof.
  intros Hd Hn Ha. pose proof (pow2_pos a Ha) as Pa. unfold rnd_mag.
  rewrite log2_quot_scale by (auto; nia).
  assert (L : 236 <= Z.log2 (n / d)).
  { apply Z.log2_le_pow2; [|apply Z.div_le_lower_bound; lia]. apply Z.div_str_pos. lia. }
  rewrite !Z.max_r by lia. set (e := Z.log2 (n / d) - 236) in *.
  replace (Z.log2 (n / d) + a - 236) with (e + a) by lia.
  rewrite (Z.pow_add_r 2 e a) by lia. rewrite Z.mul_assoc.
  pose proof (pow2_pos e ltac:(lia)) as Pe.
  rewrite rne_div_mul by nia. set (r := rne_div n (d * 2 ^ e)).
  clearbody r e. rewrite Z.mul_add_distr_r.
  assert (0 <= a * 2 ^ 236) by (clear - Ha; lia). generalize dependent (a * 2 ^ 236). intros. lia.
Qed.

Lemma rnd_mag_upper n d k : 0 <= n -> 0 < d -> 237 <= k -> n < 2 ^ k * d -> rnd_mag n d <= (k - 235) * 2 ^ 236.
Proof.
  intros Hn Hd Hk Hlt. unfold rnd_mag. etransitivity; [apply Z.le_min_r|].
  set (e := Z.max 0 (Z.log2 (n / d) - 236)).
  assert (He : 0 <= e <= k - 237).
  { unfold e. destruct (Z.eq_dec (n / d) 0) as [->|Hq]; [cbn; lia|].
    assert (0 < n / d) by (pose proof (Z.div_pos n d); lia).
    assert (Z.log2 (n / d) < k); [|lia].
    apply Z.log2_lt_pow2; auto. apply Z.div_lt_upper_bound; lia. }
  assert (HR : rne_div n (d * 2 ^ e) <= 2 ^ 237).
  { pose proof (pow2_pos e ltac:(lia)). apply rne_div_le_bound; [nia|].
    assert (n / d < 2 ^ (e + 237)).
    { destruct (Z.eq_dec (n / d) 0) as [->|Hq]; [apply pow2_pos; lia|].
      assert (0 < n / d) by (pose proof (Z.div_pos n d); lia).
      pose proof (Z.log2_spec (n / d) ltac:(auto)) as [_ L].
      eapply Z.lt_le_trans; [exact L|]. apply Z.pow_le_mono_r; unfold e; lia. }
    rewrite Z.pow_add_r in * by lia. pose proof (Z.mul_succ_div_gt n d Hd). nia. }
  change (2 ^ 237) with (2 * 2 ^ 236) in HR. nia.
Qed.

Lemma rnd_mag_lower n d : 0 < d -> 2 ^ 236 * d <= n -> 2 ^ 236 <= rnd_mag n d.
Proof.
  intros Hd Hn. unfold rnd_mag. apply Z.min_glb; [unfold INFm; lia|].
  set (e := Z.max 0 (Z.log2 (n / d) - 236)).
  destruct (Z.eq_dec e 0) as [->|He].
  - rewrite Z.mul_0_l, Z.add_0_l. apply rne_div_ge_bound; change (2 ^ 0) with 1; nia.
  - assert (1 <= e) by lia. pose proof (pow2_pos e ltac:(lia)).
    assert (0 <= rne_div n (d * 2 ^ e)) by (apply rne_div_nonneg; nia). nia.
Qed.

(** ** The table *)

Definition exact_row_ok (a : nat) : bool :=
  match nth_error POWERS_OF_FIVE_EXACT a with
  | Some row =>
    let h := of_be_bytes (firstn 16 row) in
    let l := of_be_bytes (skipn 16 row) in
    let v := h * 2 ^ 128 + l in
    let e := 262379 - v / 2 ^ 236 in
    (0 <=? l) && (l <? 2 ^ 128) && (0 <=? v) && (v <? INFm)
    && (0 <=? e) && (e <=? 236) && (2 ^ 236 + v mod 2 ^ 236 =? 5 ^ Z.of_nat a * 2 ^ e)
  | None => false
  end.

Lemma exact_table : forallb exact_row_ok (seq 0 103) = true.
Proof. vm_compute. reflexivity. Qed.

Section Exact.
Context `{P : profile}.

Lemma exact_row_u u a : u = 262378 -> 0 <= a <= 102 ->
  exists row vy, nth_error POWERS_OF_FIVE_EXACT (Z.to_nat a) = Some row
    /\ from_be_bytes row = of256 vy /\ 0 <= vy < INFm /\ mag_val vy = 5 ^ a * 2 ^ u.
Proof.
  intros Hu Ha. pose proof exact_table as T. rewrite forallb_forall in T.
  specialize (T (Z.to_nat a)). assert (In (Z.to_nat a) (seq 0 103)) as HI by (apply in_seq; lia).
  specialize (T HI). unfold exact_row_ok in T.
  destruct (nth_error POWERS_OF_FIVE_EXACT (Z.to_nat a)) as [row|]; [|discriminate].
  rewrite !andb_true_iff, !Z.leb_le, !Z.ltb_lt, Z.eqb_eq in T.
  rewrite Z2Nat.id in T by lia.
  exists row. unfold from_be_bytes. revert T.
  set (h := of_be_bytes (firstn 16 row)). set (l := of_be_bytes (skipn 16 row)).
  clearbody h l. intros T. exists (h * 2 ^ 128 + l). split; [reflexivity|].
  split; [apply u256_of; lia|]. split; [lia|].
  set (v := h * 2 ^ 128 + l) in *. clearbody v. destruct T as (((((_ & T2) & T3) & T4) & T5) & T1).
  assert (Hv : 2 ^ 236 <= v).
  { clear T1. destruct (Z_lt_le_dec v (2 ^ 236)) as [Hl|Hl]; [|exact Hl].
    rewrite (Z.div_small v (2 ^ 236)) in T5 by lia. lia. }
  unfold mag_val. rewrite (proj2 (Z.ltb_ge _ _)) by exact Hv.
  rewrite T1. clear T1.
  assert (1 <= v / 2 ^ 236) by (apply Z.div_le_lower_bound; lia).
  rewrite <- Z.mul_assoc, <- Z.pow_add_r by lia. f_equal. f_equal. lia.
Qed.

Lemma add_exp m a : 0 <= m -> 0 <= a <= 102 -> m + a * 2 ^ 236 < 2 ^ 255 ->
  (let! h := addu 128 (xhi (of256 m)) (shlc 128 a HI_FRACTION_BITS) in Some (u256 h (xlo (of256 m))))
  = Some (of256 (m + a * 2 ^ 236)).
Proof.
  intros Hm Ha Hb. rewrite xhi_of, xlo_of. unfold shlc, HI_FRACTION_BITS.
  assert (a * 2 ^ 108 < 2 ^ 128) by (change (2 ^ 128) with (2 ^ 20 * 2 ^ 108); nia).
  rewrite Z.mod_small by lia.
  assert (0 <= m / 2 ^ 128) by (apply Z.div_pos; lia).
  assert (m / 2 ^ 128 < 2 ^ 127).
  { apply Z.div_lt_upper_bound; [lia|]. change (2 ^ 128 * 2 ^ 127) with (2 ^ 255). nia. }
  rewrite addu_ok by lia. cbn [bind]. f_equal. rewrite u256_of by (apply Z.mod_pos_bound; lia). apply of256_ext.
  change (2 ^ 236) with (2 ^ 108 * 2 ^ 128). pose proof (Z.div_mod m (2 ^ 128)). lia.
Qed.

Lemma sub_exp m a : 0 <= a <= 102 -> a * 2 ^ 236 <= m -> m < 2 ^ 255 ->
  (let! h := subu 128 (xhi (of256 m)) (shlc 128 a HI_FRACTION_BITS) in Some (u256 h (xlo (of256 m))))
  = Some (of256 (m - a * 2 ^ 236)).
Proof.
  intros Ha Hm Hb. rewrite xhi_of, xlo_of. unfold shlc, HI_FRACTION_BITS.
  assert (a * 2 ^ 108 < 2 ^ 128) by (change (2 ^ 128) with (2 ^ 20 * 2 ^ 108); nia).
  rewrite Z.mod_small by lia.
  assert (a * 2 ^ 108 <= m / 2 ^ 128).
  { apply Z.div_le_lower_bound; [lia|]. change (2 ^ 236) with (2 ^ 108 * 2 ^ 128) in Hm. lia. }
  assert (m / 2 ^ 128 < 2 ^ 127).
  { apply Z.div_lt_upper_bound; [lia|]. change (2 ^ 128 * 2 ^ 127) with (2 ^ 255). lia. }
  rewrite subu_ok by lia. cbn [bind]. f_equal. rewrite u256_of by (apply Z.mod_pos_bound; lia). apply of256_ext.
  change (2 ^ 236) with (2 ^ 108 * 2 ^ 128). pose proof (Z.div_mod m (2 ^ 128)). lia.
Qed.

Lemma put_sign m s : (s = 0 \/ s = 1) -> 0 <= m < 2 ^ 255 ->
  u256 (Z.lor (xhi (of256 m)) (shlc 128 s HI_SIGN_SHIFT)) (xlo (of256 m)) = of256 (mkf s m).
Proof.
  intros Hs Hm. unfold mkf. rewrite <- or_hi_sign by auto. unfold or_hi. f_equal.
  f_equal. unfold shlc, HI_SIGN_SHIFT. apply Z.mod_small. destruct Hs; subst; lia.
Qed.

(** The arithmetic core, over an abstract unit *)
Lemma mul_core_u u a w : u = 262378 -> 0 <= a <= 102 -> 0 < w < 2 ^ 237 ->
  2 ^ 236 * 2 ^ u <= (w * 2 ^ u) * (5 ^ a * 2 ^ u) /\
  let m := rnd_mag ((w * 2 ^ u) * (5 ^ a * 2 ^ u)) (2 ^ u) in
  0 <= m /\ m + a * 2 ^ 236 < INFm /\
  m + a * 2 ^ 236 = rnd_mag (w * 10 ^ a * 2 ^ u) 1.
Proof.
  intros Hu Ha Hw. pose proof (pow2_pos u ltac:(lia)) as PU.
  assert (P5 : 1 <= 5 ^ a) by (change 1 with (5 ^ 0); apply Z.pow_le_mono_r; lia).
  assert (P5u : 5 ^ a <= 5 ^ 102) by (apply Z.pow_le_mono_r; lia).
  assert (K : 5 ^ 102 < 2 ^ 237) by reflexivity.
  assert (B236 : 2 ^ 236 <= 2 ^ u) by (apply Z.pow_le_mono_r; lia).
  assert (E : rnd_mag ((w * 2 ^ u) * (5 ^ a * 2 ^ u)) (2 ^ u) = rnd_mag (w * 5 ^ a * 2 ^ u) 1).
  { replace ((w * 2 ^ u) * (5 ^ a * 2 ^ u)) with ((w * 5 ^ a * 2 ^ u) * 2 ^ u) by ring.
    rewrite <- (Z.mul_1_l (2 ^ u)) at 3. apply rnd_mag_scale; [lia| |lia]. nia. }
  assert (1 <= w * 5 ^ a) by nia.
  split. { generalize dependent (2 ^ u). intros. nia. }
  cbv zeta. rewrite E. set (n := w * 5 ^ a * 2 ^ u).
  assert (Hn : 2 ^ 236 * 1 <= n) by (unfold n; nia).
  assert (Hup : n < 2 ^ (474 + u) * 1).
  { unfold n. rewrite Z.pow_add_r by lia. rewrite Z.mul_1_r. apply Z.mul_lt_mono_pos_r; [lia|].
    change (2 ^ 474) with (2 ^ 237 * 2 ^ 237). nia. }
  pose proof (rnd_mag_upper n 1 (474 + u) ltac:(lia) ltac:(lia) ltac:(lia) Hup) as U.
  pose proof (rnd_mag_bounds n 1 ltac:(lia) ltac:(lia)) as B.
  assert (LT : rnd_mag n 1 + a * 2 ^ 236 < INFm) by (clearbody n; clear - U Hu Ha; unfold INFm; lia).
  split; [apply B|]. split; [exact LT|].
  rewrite <- rnd_mag_shift by (auto; lia). f_equal. unfold n.
  change 10 with (5 * 2). rewrite Z.pow_mul_l. ring.
Qed.

Lemma div_core_u u a w : u = 262378 -> 0 <= a <= 102 -> 0 < w < 2 ^ 237 ->
  let m := rnd_mag ((w * 2 ^ u) * 2 ^ u) (5 ^ a * 2 ^ u) in
  m < INFm /\ a * 2 ^ 236 <= m /\
  m - a * 2 ^ 236 = rnd_mag (w * 2 ^ u) (10 ^ a).
Proof.
  intros Hu Ha Hw. pose proof (pow2_pos u ltac:(lia)) as PU.
  assert (P5 : 1 <= 5 ^ a) by (change 1 with (5 ^ 0); apply Z.pow_le_mono_r; lia).
  assert (P5u : 5 ^ a <= 5 ^ 102) by (apply Z.pow_le_mono_r; lia).
  pose proof (pow2_pos a ltac:(lia)) as Pa.
  assert (P2u : 2 ^ a <= 2 ^ 102) by (apply Z.pow_le_mono_r; lia).
  assert (K : 2 ^ 236 * (5 ^ 102 * 2 ^ 102) < 2 ^ 600) by reflexivity.
  assert (B600 : 2 ^ 600 <= 2 ^ u) by (apply Z.pow_le_mono_r; lia).
  cbv zeta. rewrite rnd_mag_scale by (try lia; nia).
  set (n := w * 2 ^ u).
  assert (Hn : 2 ^ 236 * (5 ^ a * 2 ^ a) <= n).
  { unfold n. assert (5 ^ a * 2 ^ a <= 5 ^ 102 * 2 ^ 102) by nia. nia. }
  assert (Hup : n < 2 ^ (237 + u) * (5 ^ a)).
  { unfold n. rewrite Z.pow_add_r by lia. nia. }
  pose proof (rnd_mag_upper n (5 ^ a) (237 + u) ltac:(nia) ltac:(lia) ltac:(lia) Hup) as U.
  assert (U2 : rnd_mag n (5 ^ a * 2 ^ a) <= (237 + u - 235) * 2 ^ 236).
  { apply rnd_mag_upper; try lia; try nia. }
  assert (E : rnd_mag n (5 ^ a) = rnd_mag n (5 ^ a * 2 ^ a) + a * 2 ^ 236).
  { rewrite <- (rnd_mag_scale n (5 ^ a) (2 ^ a)) by lia. apply rnd_mag_shift; [clear - P5 Pa; nia|exact Hn|lia|].
    clearbody n. clear - U2 Hu Ha. unfold INFm. lia. }
  assert (0 <= rnd_mag n (5 ^ a * 2 ^ a)) by (apply rnd_mag_bounds; nia).
  split; [clearbody n; clear - U Hu Ha; unfold INFm; lia|]. split; [clearbody n; lia|]. rewrite E.
  change 10 with (5 * 2). rewrite Z.pow_mul_l. lia.
Qed.

Lemma sgn_small v : 0 <= v < INFm -> sgn v = 0 /\ mag v = v /\ finb v = true.
Proof.
  intros Hv. pose proof INFm_lt as HI. unfold sgn, finb, mag. rewrite Z.div_small, Z.mod_small by lia.
  repeat split. apply Z.ltb_lt. lia.
Qed.

Lemma spec_mul_fin x y : finb x = true -> finb y = true -> sgn x = 0 -> sgn y = 0 ->
  spec_mul x y = rnd_mag (mag_val (mag x) * mag_val (mag y)) (2 ^ UNITe).
Proof.
  intros Hx Hy Sx Sy. unfold spec_mul. destruct (finb_kinds x Hx) as [-> ->]. destruct (finb_kinds y Hy) as [-> ->].
  cbn [orb]. rewrite Sx, Sy. reflexivity.
Qed.

Lemma spec_div_fin x y : finb x = true -> finb y = true -> sgn x = 0 -> sgn y = 0 -> zerob y = false ->
  spec_div x y = rnd_mag (mag_val (mag x) * 2 ^ UNITe) (mag_val (mag y)).
Proof.
  intros Hx Hy Sx Sy Hz. unfold spec_div. destruct (finb_kinds x Hx) as [-> ->]. destruct (finb_kinds y Hy) as [-> ->].
  cbn [orb]. rewrite Sx, Sy, Hz. reflexivity.
Qed.

Lemma pos_datum u v w : 0 < u -> 0 < w -> 0 <= v < 2 ^ 256 -> finb v = true -> sval v = w * u ->
  0 <= v < INFm /\ mag_val v = w * u.
Proof.
  intros Hu Hw B Hf Hs. destruct (mkf_split v B) as (Ev & Hsg & Hm).
  pose proof (mag_val_nonneg (mag v) ltac:(lia)) as N.
  assert (S0 : sgn v = 0).
  { destruct Hsg as [|S1]; auto. exfalso. unfold sval in Hs. rewrite S1 in Hs. nia. }
  unfold sval in Hs. rewrite S0 in Hs. unfold mkf in Ev. rewrite S0 in Ev.
  unfold finb in Hf. apply Z.ltb_lt in Hf.
  assert (Em : mag v = v) by lia. rewrite Em in *. lia.
Qed.

Lemma U1_eq : U1 = 2 ^ UNITe.
Proof. unfold U1. reflexivity. Qed.

Lemma from_u256_val w : 0 < w < 2 ^ 237 ->
  exists vx, from_u256 (of256 w) = Some (of256 vx) /\ 0 <= vx < INFm /\ mag_val vx = w * 2 ^ UNITe.
Proof.
  intros Hw. assert (W : wf256 (of256 w)) by (apply wf256_of; lia).
  pose proof (K_u256 (of256 w) W ltac:(rewrite v256_of; lia)) as (x & E & Wx & Hf & Hs & _).
  rewrite v256_of in Hs by lia. rewrite <- U1_eq. exists (v256 x). rewrite of256_v256 by auto. split; [exact E|].
  assert (PU : 0 < U1) by (rewrite U1_eq; exact unit_pos).
  exact (pos_datum U1 (v256 x) w PU (proj1 Hw) (v256_bound x Wx) Hf Hs).
Qed.

(** fast_exact.rs:43-57: the literal w * 10^k with a significand that fits and a power of
    ten up to 10^102 is correctly rounded. *)
Lemma exact_ok s k w : (s = 0 \/ s = 1) -> Z.abs k <= 102 -> 0 < w < 2 ^ 237 ->
  exact s k (of256 w) = Some (of256 (dec_rnd s w k)).
Proof.
  intros Hs Hk Hw. unfold exact.
  destruct (from_u256_val w Hw) as (vx & -> & Bx & Vx). cbn [bind].
  destruct (exact_row_u UNITe (Z.abs k) eq_refl ltac:(lia)) as (row & vy & -> & Ey & By & Vy). cbn [bind].
  rewrite Ey. destruct (sgn_small vx Bx) as (Sx & Mx & Fx). destruct (sgn_small vy By) as (Sy & My & Fy).
  pose proof INFm_lt as HI. unfold dec_rnd.
  destruct (Z.ltb_spec k 0) as [Hn|Hn].
  - assert (Zy : zerob vy = false).
    { unfold zerob. rewrite My. apply Z.eqb_neq. intros ->. change (mag_val 0) with 0 in Vy.
      pose proof unit_pos as PU. assert (0 < 5 ^ Z.abs k) by (apply Z.pow_pos_nonneg; lia).
      revert Vy PU. generalize (2 ^ UNITe). intros. nia. }
    rewrite div_ok by lia. cbn [bind]. rewrite spec_div_fin by auto. rewrite Mx, My, Vx, Vy.
    destruct (div_core_u UNITe (Z.abs k) w eq_refl ltac:(lia) Hw) as (D1 & D2 & D3).
    revert D1 D2 D3. generalize (rnd_mag (w * 2 ^ UNITe * 2 ^ UNITe) (5 ^ Z.abs k * 2 ^ UNITe)) as m.
    intros m D1 D2 D3. rewrite sub_exp by lia. cbn [bind].
    rewrite put_sign by (auto; lia). rewrite D3. do 4 f_equal.
    + rewrite Z.max_l by lia. rewrite Z.mul_1_r. reflexivity.
    + rewrite Z.max_r by lia. f_equal. lia.
  - assert (K := mul_core_u UNITe (Z.abs k) w eq_refl ltac:(lia) Hw). destruct K as (K0 & K1 & K2 & K3).
    destruct (mul_ok vx vy ltac:(lia) ltac:(lia)) as [->|(_ & _ & m & (ML & _) & _)].
    2:{ exfalso. rewrite Mx, My, Vx, Vy in ML. revert ML K0.
        generalize (w * 2 ^ UNITe * (5 ^ Z.abs k * 2 ^ UNITe)) as a.
        generalize (2 ^ 236 * 2 ^ UNITe) as b. intros. lia. }
    cbn [bind]. rewrite spec_mul_fin by auto. rewrite Mx, My, Vx, Vy. revert K1 K2 K3.
    generalize (rnd_mag (w * 2 ^ UNITe * (5 ^ Z.abs k * 2 ^ UNITe)) (2 ^ UNITe)) as m.
    intros m K1 K2 K3. rewrite add_exp by lia. cbn [bind].
    rewrite put_sign by (auto; lia). rewrite K3. do 4 f_equal.
    + rewrite Z.max_r by lia. do 2 f_equal. f_equal. lia.
    + rewrite Z.max_l by lia. reflexivity.
Qed.

End Exact.

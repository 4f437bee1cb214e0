(** * CodecProofs: construction and decomposition of values (src/lib.rs):
    new, encode, decode, ulp, exponents and significands *)

From Coq Require Import ZArith Lia Bool.
From Verif Require Import Base BigUInt ZLemmas BigLaws BigUIntProofs Spec SpecFns BigExtra F256 Arith SpecLemmas
  F256Lemmas BasicProofs.
Open Scope Z_scope.

(** Every number with at most 237 significant bits in range is representable. *)
Lemma representable m E K : 0 <= m <= 2 ^ 237 -> 0 <= E -> 0 <= K -> m * 2 ^ E < 2 ^ (237 + K) ->
  exists a, 0 <= a < (K + 2) * 2 ^ 236 /\ mag_val a = m * 2 ^ E.
Proof.
  intros Hm HE HK HB. pose proof (pow2_pos E HE) as PE.
  destruct (Z.eq_dec m 0) as [->|N].
  { exists 0. split. lia. reflexivity. }
  pose proof (Z.log2_spec m ltac:(lia)) as L.
  destruct (Z.eq_dec m (2 ^ 237)) as [->|Nm].
  { assert (E < K).
    { destruct (Z.lt_ge_cases E K); auto. exfalso. rewrite <- pow2_add in HB by lia.
      pose proof (pow2_le (237 + K) (237 + E) ltac:(lia)). lia. }
    exists ((E + 1) * 2 ^ 236 + 2 ^ 236). split. lia.
    rewrite mag_val_any by lia. rewrite pow2_S by lia. change (2 ^ 237) with (2 * 2 ^ 236).
    set (p := 2 ^ 236). ring. }
  assert (Z.log2 m <= 236).
  { assert (Z.log2 m < 237); [|lia]. apply Z.log2_lt_pow2; lia. }
  pose proof (Z.log2_nonneg m).
  set (l := Z.log2 m) in *. clearbody l. rewrite <- Z.add_1_r in L.
  (* shift the significand up as far as the exponent allows *)
  set (k := Z.min E (236 - l)). assert (Hk : 0 <= k <= E /\ k <= 236 - l) by lia.
  assert (Ck : k = E \/ k = 236 - l) by lia. clearbody k.
  pose proof (pow2_pos k ltac:(lia)) as Pk.
  assert (Bm : m * 2 ^ k < 2 ^ 237).
  { apply Z.lt_le_trans with (2 ^ (l + 1) * 2 ^ k). apply (proj1 (Z.mul_lt_mono_pos_r (2 ^ k) _ _ Pk)). lia.
    rewrite <- pow2_add by lia. apply pow2_le; lia. }
  assert (Eq : m * 2 ^ E = (m * 2 ^ k) * 2 ^ (E - k)).
  { rewrite <- Z.mul_assoc, <- pow2_add by lia. f_equal. f_equal. lia. }
  assert (Cn : E - k = 0 \/ 2 ^ 236 <= m * 2 ^ k).
  { destruct Ck as [->|Ek]; [left; lia|right]. rewrite Ek.
    apply Z.le_trans with (2 ^ l * 2 ^ (236 - l)). rewrite <- pow2_add by lia. apply pow2_le; lia.
    apply Z.mul_le_mono_nonneg_r; [apply Z.lt_le_incl, pow2_pos; lia|lia]. }
  exists ((E - k) * 2 ^ 236 + m * 2 ^ k).
  assert (0 <= m * 2 ^ k) by (apply Z.mul_nonneg_nonneg; lia).
  rewrite mag_val_any; auto; try lia.
  split; [|symmetry; exact Eq].
  assert (E - k <= K).
  { destruct Cn as [->|Cn]; [lia|]. rewrite Eq in HB.
    destruct (Z.le_gt_cases (E - k) K); auto. exfalso.
    assert (2 ^ 236 * 2 ^ (K + 1) <= m * 2 ^ k * 2 ^ (E - k)).
    { apply Z.mul_le_mono_nonneg; try lia. apply pow2_le; lia. }
    rewrite <- pow2_add in H3 by lia. replace (236 + (K + 1)) with (237 + K) in H3 by lia. lia. }
  change (2 ^ 237) with (2 * 2 ^ 236) in Bm. lia.
Qed.

Section CodecProofs.
Context {P : profile}.

Lemma new_ok s t c : (s = 0 \/ s = 1) -> -262143 <= t <= 262143 -> 0 < c < 2 ^ 237 ->
  new s t (of256 c) = Some (of256 (mkf s ((t + 262143) * 2 ^ 236 + c mod 2 ^ 236))).
Proof.
  intros Hs Ht Hc. unfold new.
  rewrite dassert_ok by (destruct Hs as [-> | ->]; reflexivity). rewrite bind_Some.
  rewrite dassert_ok. 2: { unfold EMIN, EMAX. apply andb_true_iff; split; apply Z.leb_le; lia. }
  rewrite bind_Some, is_zero256 by lia.
  rewrite dassert_ok. 2: { apply negb_true_iff, Z.eqb_neq. lia. }
  rewrite bind_Some. rewrite dassert_ok.
  2: { apply Z.leb_le. unfold shrc, HI_FRACTION_BITS. rewrite xhi_of, Z.div_div by lia.
       change (2 ^ 128 * 2 ^ 108) with (2 ^ 236). assert (c / 2 ^ 236 < 2); [|lia]. apply Z.div_lt_upper_bound; lia. }
  rewrite bind_Some. unfold EXP_BIAS. rewrite adds_ok by (change (32 - 1) with 31; lia). rewrite bind_Some.
  rewrite castu_ok by lia. f_equal.
  assert (Hm : 0 <= (t + 262143) * 2 ^ 236 + c mod 2 ^ 236 < 2 ^ 255).
  { pose proof (Z.mod_pos_bound c (2 ^ 236) ltac:(lia)). lia. }
  pose proof (asm_fraction c (t + 262143) ltac:(lia)) as A.
  pose proof (or_hi_sign _ s Hm) as O. unfold mkf. rewrite <- O, <- A. unfold or_hi.
  unfold xhi at 3, xlo at 2, u256. cbn [hi lo val]. f_equal. f_equal. f_equal.
  unfold shlc, HI_SIGN_SHIFT. destruct Hs as [-> | ->]; reflexivity.
Qed.

Lemma lz_log2 c : 0 < c < 2 ^ 256 -> leading_zeros (of256 c) = 255 - Z.log2 c.
Proof.
  intros. rewrite lz256 by lia. unfold nlz. destruct (Z.eqb_spec c 0); lia.
Qed.

Lemma log2_bounds c : 0 < c < 2 ^ 256 -> 0 <= Z.log2 c <= 255 /\ 2 ^ Z.log2 c <= c < 2 ^ (Z.log2 c + 1).
Proof.
  intros. pose proof (Z.log2_spec c ltac:(lia)). pose proof (Z.log2_nonneg c).
  assert (Z.log2 c < 256) by (apply Z.log2_lt_pow2; lia).
  split. lia. rewrite <- Z.add_1_r in H0. exact H0.
Qed.

(** Rounding in the specification of [encode]: the scaled number at its own exponent. *)
Lemma rnd_scaled_at c k L E : 0 < c -> 2 ^ L <= c < 2 ^ (L + 1) -> 0 <= L -> 0 <= k \/ 236 - k <= L ->
  E = Z.max 0 (L + k - 236) ->
  rnd_mag (c * 2 ^ Z.max 0 k) (2 ^ Z.max 0 (- k)) = Z.min INFm (E * 2 ^ 236 +
    (if k <=? E then rne_div c (2 ^ (E - k)) else c * 2 ^ (k - E))).
Proof.
  intros Hc HL L0 Hk HE.
  destruct (Z.le_gt_cases 0 k) as [K|K].
  - rewrite (Z.max_r 0 k), (Z.max_l 0 (- k)) by lia. change (2 ^ 0) with 1.
    pose proof (pow2_pos k K) as Pk.
    rewrite (fun A B C D F => rnd_mag_at (c * 2 ^ k) 1 E A B C D F).
    + f_equal. f_equal. rewrite Z.mul_1_l. destruct (Z.leb_spec k E).
      * rewrite (pow2_split k E), (Z.mul_comm (2 ^ k)) by lia. apply rne_div_mul; auto. apply pow2_pos; lia.
      * rewrite (pow2_split E k) by lia. rewrite (Z.mul_comm (2 ^ E)), Z.mul_assoc. apply rne_div_exact.
        apply pow2_pos; lia.
    + lia.
    + apply Z.mul_nonneg_nonneg; lia.
    + lia.
    + rewrite Z.mul_1_r. apply Z.le_trans with (2 ^ (L + 1) * 2 ^ k).
      apply Z.mul_le_mono_nonneg_r; lia. rewrite <- pow2_add by lia. apply pow2_le; lia.
    + destruct (Z.eq_dec E 0); [left; auto|right]. rewrite Z.mul_1_r.
      replace (236 + E) with (L + k) by lia. rewrite pow2_add by lia. apply Z.mul_le_mono_nonneg_r; lia.
  - assert (236 - k <= L) by lia.
    rewrite (Z.max_l 0 k), (Z.max_r 0 (- k)) by lia. change (2 ^ 0) with 1. rewrite Z.mul_1_r.
    pose proof (pow2_pos (- k) ltac:(lia)) as Pk.
    rewrite (fun A B C D F => rnd_mag_at c (2 ^ (- k)) E A B C D F).
    + f_equal. f_equal. destruct (Z.leb_spec k E); [|lia]. rewrite <- pow2_add by lia. f_equal. f_equal. lia.
    + lia.
    + lia.
    + lia.
    + rewrite <- pow2_add by lia. apply Z.lt_le_incl. eapply Z.lt_le_trans. apply HL. apply pow2_le; lia.
    + right. rewrite <- pow2_add by lia. eapply Z.le_trans; [|apply HL]. apply pow2_le; lia.
Qed.

(** [encode] rounds correctly when the result is finite and the value is normal or a
    multiple of the least positive number. *)
Lemma encode_ok s t c : (s = 0 \/ s = 1) -> 0 < c < 2 ^ 256 ->
  rnd_scaled c t < INFm ->
  0 <= t + UNITe \/ 2 ^ 236 * 2 ^ (- (t + UNITe)) <= c ->
  encode s t (of256 c) = Some (of256 (mkf s (rnd_scaled c t))).
Proof.
  intros Hs Hc. unfold rnd_scaled. pose proof (log2_bounds c Hc) as [L1 L2].
  assert (Ht : t = t + UNITe - 262378) by (unfold UNITe; lia).
  set (k := t + UNITe) in *. clearbody k. subst t.
  intros HI Hk. pose proof (lz_log2 c Hc) as HLZ. set (L := Z.log2 c) in *. clearbody L.
  assert (Hk' : 0 <= k \/ 236 - k <= L).
  { destruct (Z.le_gt_cases 0 k); [left; auto|right]. destruct Hk as [|Hk]; [lia|].
    rewrite <- pow2_add in Hk by lia. assert (236 - k < L + 1); [|lia].
    apply (Z.pow_lt_mono_r_iff 2); try lia. replace (236 + - k) with (236 - k) in Hk by lia. lia. }
  revert HI. rewrite (rnd_scaled_at c k L _ ltac:(lia) L2 ltac:(lia) Hk' eq_refl).
  set (E := Z.max 0 (L + k - 236)). intros HI.
  assert (HE : E = Z.max 0 (L + k - 236)) by reflexivity. clearbody E.
  set (M := if k <=? E then rne_div c (2 ^ (E - k)) else c * 2 ^ (k - E)) in *.
  assert (HM : M = if k <=? E then rne_div c (2 ^ (E - k)) else c * 2 ^ (k - E)) by reflexivity. clearbody M.
  assert (HML : 2 ^ (L + k - E) <= M).
  { destruct (Z.leb_spec k E).
    - rewrite HM. apply rne_div_ge_bound. apply pow2_pos; lia. rewrite <- pow2_add by lia.
      replace (L + k - E + (E - k)) with L by lia. lia.
    - rewrite HM. replace (L + k - E) with (L + (k - E)) by lia. rewrite pow2_add by lia.
      apply Z.mul_le_mono_nonneg_r; [apply Z.lt_le_incl, pow2_pos; lia|lia]. }
  assert (HMU : M <= 2 ^ (L + k - E + 1)).
  { destruct (Z.leb_spec k E).
    - rewrite HM. apply rne_div_le_bound. apply pow2_pos; lia. rewrite <- pow2_add by lia.
      replace (L + k - E + 1 + (E - k)) with (L + 1) by lia. lia.
    - rewrite HM. replace (L + k - E + 1) with (L + 1 + (k - E)) by lia. rewrite pow2_add by lia.
      apply Z.mul_le_mono_nonneg_r; [apply Z.lt_le_incl, pow2_pos; lia|lia]. }
  pose proof (pow2_pos (L + k - E) ltac:(lia)) as PM.
  assert (HI' : E * 2 ^ 236 + M < INFm) by lia. rewrite Z.min_r by lia. clear HI.
  assert (EB : E < 524287) by (unfold INFm in HI'; lia).
  unfold encode. rewrite is_zero256 by lia.
  rewrite dassert_ok. 2: { apply negb_true_iff, Z.eqb_neq. lia. }
  rewrite bind_Some. unfold FRACTION_BITS, EXP_BITS, EMIN, EMAX.
  rewrite adds_ok by (change (32 - 1) with 31; lia). rewrite bind_Some, HLZ.
  destruct (Z.compare_spec (255 - L) 19) as [C|C|C].
  - (* the significand has the right width *)
    rewrite bind_Some. assert (HL : L = 236) by lia. rewrite HL in *. replace (236 + k - E) with 236 in * by lia.
    unfold INFm in HI'.
    rewrite dassert_ok by (apply andb_true_iff; split; apply Z.leb_le; lia). rewrite bind_Some.
    rewrite new_ok; [|auto|lia|change (2 ^ 237) with (2 ^ (236 + 1)); lia].
    apply f_equal, of256_ext. unfold mkf. f_equal.
    assert (E = k) by lia. destruct (Z.leb_spec k E); [|lia].
    rewrite HM. replace (E - k) with 0 by lia. change (2 ^ 0) with 1. rewrite rne_div_1.
    rewrite (mod_eq c (2 ^ 236) 1 (c - 2 ^ 236)) by (change (2 ^ (236 + 1)) with (2 * 2 ^ 236) in *; lia). lia.
  - (* rounding *)
    rewrite subu_ok by lia. rewrite bind_Some, casts_ok by lia.
    rewrite adds_ok by (change (32 - 1) with 31; lia). rewrite bind_Some.
    rewrite rdp256 by lia. rewrite bind_Some.
    assert (E = L + k - 236) by lia. destruct (Z.leb_spec k E); [|lia].
    replace (19 - (255 - L)) with (L - 236) by lia. replace (E - k) with (L - 236) in HM by lia. rewrite <- HM.
    replace (L + k - E) with 236 in * by lia. change (236 + 1) with 237 in *.
    assert (Hsh : shrc (xhi (of256 M)) (HI_FRACTION_BITS + 1) = M / 2 ^ 237).
    { unfold shrc, HI_FRACTION_BITS. rewrite xhi_of, Z.div_div by lia. reflexivity. }
    rewrite Hsh.
    destruct (Z.eq_dec M (2 ^ 237)) as [EM|NM].
    + rewrite EM. rewrite Z.div_same by lia. cbn [Z.eqb negb].
      rewrite adds_ok by (change (32 - 1) with 31; lia). rewrite bind_Some, shr256 by lia. rewrite bind_Some.
      rewrite EM in HI'. rewrite bind_Some.
      change (2 ^ 237 / 2 ^ 1) with (2 ^ 236).
      rewrite dassert_ok by (apply andb_true_iff; split; apply Z.leb_le; unfold INFm in HI'; lia). rewrite bind_Some.
      rewrite new_ok; [|auto|unfold INFm in HI'; lia|lia]. apply f_equal, of256_ext. unfold mkf.
      change (2 ^ 236 mod 2 ^ 236) with 0. lia.
    + rewrite Z.div_small by lia. cbn [Z.eqb negb]. rewrite bind_Some.
      rewrite dassert_ok by (apply andb_true_iff; split; apply Z.leb_le; unfold INFm in HI'; lia). rewrite bind_Some.
      rewrite new_ok; [|auto|unfold INFm in HI'; lia|lia]. apply f_equal, of256_ext. unfold mkf.
      rewrite (mod_eq M (2 ^ 236) 1 (M - 2 ^ 236)) by (change (2 ^ 237) with (2 * 2 ^ 236) in *; lia). lia.
  - (* exact *)
    rewrite subu_ok by lia. rewrite bind_Some, casts_ok by lia.
    rewrite adds_ok by (change (32 - 1) with 31; lia). rewrite bind_Some.
    destruct (Z.leb_spec (-262142 + (255 - L - 19)) (k - 262378 + 236)) as [D|D].
    + replace (255 - L - 19) with (236 - L) by lia.
      assert (B : 2 ^ 236 <= c * 2 ^ (236 - L) < 2 ^ 237).
      { pose proof (pow2_pos (236 - L) ltac:(lia)). split.
        - rewrite (pow2_split (236 - L) 236) by lia. replace (236 - (236 - L)) with L by lia.
          rewrite Z.mul_comm. apply Z.mul_le_mono_nonneg_r; lia.
        - rewrite (pow2_split (236 - L) 237) by lia. replace (237 - (236 - L)) with (L + 1) by lia.
          rewrite (Z.mul_comm (2 ^ (236 - L))). apply Z.mul_lt_mono_pos_r; lia. }
      rewrite shl256s by lia. rewrite bind_Some, subs_ok by (change (32 - 1) with 31; lia). rewrite !bind_Some.
      assert (E = L + k - 236) by lia. destruct (Z.leb_spec k E); [lia|].
      replace (k - E) with (236 - L) in HM by lia. rewrite <- HM in *.
      rewrite dassert_ok by (apply andb_true_iff; split; apply Z.leb_le; unfold INFm in HI'; lia). rewrite bind_Some.
      rewrite new_ok; [|auto|unfold INFm in HI'; lia|lia]. apply f_equal, of256_ext. unfold mkf.
      rewrite (mod_eq M (2 ^ 236) 1 (M - 2 ^ 236)) by (change (2 ^ 237) with (2 * 2 ^ 236) in *; lia). lia.
    + assert (E0 : E = 0) by lia. clear HE. subst E. assert (0 <= k) by lia.
      rewrite subs_ok by (change (32 - 1) with 31; lia). rewrite bind_Some, castu_ok by lia.
      replace (k - 262378 + 236 - -262142) with k by lia.
      assert (B : 0 < c * 2 ^ k < 2 ^ 236).
      { pose proof (pow2_pos k ltac:(lia)). split. apply Z.mul_pos_pos; lia.
        apply Z.lt_le_trans with (2 ^ (L + 1) * 2 ^ k). apply Z.mul_lt_mono_pos_r; lia.
        rewrite <- pow2_add by lia. apply pow2_le; lia. }
      rewrite shl256s by lia. rewrite !bind_Some.
      change (-262142 - 1) with (-262143).
      rewrite dassert_ok by reflexivity. rewrite bind_Some, new_ok; [|auto|lia|lia].
      apply f_equal, of256_ext. unfold mkf. rewrite Z.mod_small by lia.
      rewrite HM. destruct (Z.leb_spec k 0).
      * assert (k = 0) by lia. subst k. change (2 ^ (0 - 0)) with 1. change (2 ^ 0) with 1. rewrite rne_div_1. lia.
      * rewrite Z.sub_0_r. lia.
Qed.

Lemma pick_ok a b s : (s = 0 \/ s = 1) -> pick (of256 a) (of256 b) s = Some (of256 (if s =? 0 then a else b)).
Proof. intros [-> | ->]; reflexivity. Qed.

Lemma from_ok s t ch cl : (s = 0 \/ s = 1) -> 0 <= ch < 2 ^ 128 -> 0 <= cl < 2 ^ 128 -> 
  let c := ch * 2 ^ 128 + cl in
  c <> 0 -> rnd_scaled c t < INFm ->
  0 <= t + UNITe \/ 2 ^ 236 * 2 ^ (- (t + UNITe)) <= c ->
  from_sign_exp_signif s t ch cl = Some (of256 (mkf s (rnd_scaled c t))).
Proof.
  intros Hs Hh Hl c Nc HI Hk. unfold from_sign_exp_signif.
  rewrite dassert_ok by (destruct Hs as [-> | ->]; reflexivity). rewrite bind_Some.
  rewrite u256_of by lia. fold c. assert (Hc : 0 < c < 2 ^ 256).
  { assert (0 <= c < 2 ^ 256); [|lia]. unfold c. lia. }
  rewrite is_zero256 by lia. destruct (Z.eqb_spec c 0); [lia|]. apply encode_ok; auto.
Qed.

(** [decode] *)
Lemma split_enc_ok v : 0 <= v < 2 ^ 256 -> finb v = true ->
  split_f256_enc (of256 v) =
    Some (sgn v, if mag v =? 0 then 0 else qe (mag v) - 262378, of256 (sg (mag v))).
Proof.
  intros Hv Hf. unfold split_f256_enc. rewrite sign_of by auto. fold (sgn v).
  rewrite abs_bits_of. fold (mag v). unfold finb in Hf. apply Z.ltb_lt in Hf. unfold INFm in Hf.
  pose proof (mag_bound v) as B. set (a := mag v) in *. clearbody a.
  rewrite exp_bits_of, fraction_of by lia.
  pose proof (Z.div_mod a (2 ^ 236) ltac:(lia)) as D. pose proof (Z.mod_pos_bound a (2 ^ 236) ltac:(lia)) as M.
  unfold qe, sg.
  destruct (Z.eqb_spec (a / 2 ^ 236) 0) as [e|e].
  - assert (a mod 2 ^ 236 = a) as -> by lia. change uint_zero with (of256 0). rewrite ueqb256 by lia.
    destruct (Z.ltb_spec a (2 ^ 236)); [|lia].
    destruct (Z.eqb_spec a 0) as [->|]. reflexivity.
    unfold EXP_BIAS, FRACTION_BITS. rewrite subs_ok by (change (32 - 1) with 31; lia). rewrite bind_Some, e. reflexivity.
  - destruct (Z.eqb_spec (a / 2 ^ 236) EXP_MAX) as [X|X]; unfold EXP_MAX in X. lia.
    rewrite casts_ok by lia. unfold EXP_BIAS, FRACTION_BITS.
    rewrite subs_ok by (change (32 - 1) with 31; lia). rewrite bind_Some.
    destruct (Z.eqb_spec a 0); [lia|]. destruct (Z.ltb_spec a (2 ^ 236)); [lia|].
    apply f_equal. f_equal. f_equal. lia.
    rewrite xhi_of, xlo_of. unfold HI_FRACTION_BIAS.
    assert (0 <= a mod 2 ^ 236 / 2 ^ 128 < 2 ^ 108) by (apply div_bound; lia).
    pose proof (lor_add' 1 (a mod 2 ^ 236 / 2 ^ 128) 108 ltac:(lia) ltac:(lia)) as LA. rewrite Z.mul_1_l in LA. rewrite LA.
    rewrite u256_hi. apply of256_ext. pose proof (Z.div_mod (a mod 2 ^ 236) (2 ^ 128) ltac:(lia)). lia.
Qed.

Lemma decode_zero v : 0 <= v < 2 ^ 256 -> zerob v = true -> decode (of256 v) = Some (sgn v, 0, of256 0).
Proof.
  intros Hv Hz. unfold zerob in Hz. unfold decode. rewrite is_finite_of.
  assert (finb v = true). { unfold finb. apply Z.eqb_eq in Hz. rewrite Hz. reflexivity. }
  rewrite H, dassert_ok, bind_Some, split_enc_ok by auto. rewrite bind_Some. rewrite Hz.
  apply Z.eqb_eq in Hz. rewrite Hz. reflexivity.
Qed.

Lemma decode_ok v : 0 <= v < 2 ^ 256 -> finb v = true -> zerob v = false ->
  exists t c, decode (of256 v) = Some (sgn v, t, of256 c)
    /\ 0 < c < 2 ^ 237 /\ Z.odd c = true /\ 0 <= t + UNITe /\ mag_val (mag v) = c * 2 ^ (t + UNITe).
Proof.
  intros Hv Hf Hz. unfold zerob in Hz. unfold decode. rewrite is_finite_of, Hf.
  rewrite dassert_ok, bind_Some, split_enc_ok by auto. rewrite bind_Some, Hz.
  unfold finb, INFm in Hf. apply Z.ltb_lt in Hf. apply Z.eqb_neq in Hz.
  pose proof (mag_bound v) as B. rewrite mag_val_sg by lia. set (a := mag v) in *. clearbody a.
  pose proof (sg_pos a ltac:(lia)) as S1. pose proof (sg_bound a ltac:(lia)) as S2. pose proof (qe_nonneg a) as Q.
  assert (Q2 : qe a <= 524286).
  { unfold qe. assert (a / 2 ^ 236 <= 524287); [|lia]. apply Z.lt_succ_r, Z.div_lt_upper_bound; lia. }
  set (sa := sg a) in *. set (q := qe a) in *. clearbody sa q.
  rewrite is_zero256 by lia. destruct (Z.eqb_spec sa 0); [lia|].
  assert (TZ : trailing_zeros (of256 sa) = ntz 256 sa) by (apply (L_tz _ L256); change (2 ^ BITS) with (2 ^ 256); lia).
  rewrite TZ. destruct (ntz_spec 256 sa ltac:(lia)) as (m & Em & Hm & Hn).
  pose proof (ntz_lt 256 sa ltac:(lia) ltac:(lia)) as Hn2. set (n0 := ntz 256 sa) in *. clearbody n0.
  pose proof (pow2_pos n0 Hn) as Pn.
  rewrite shr256 by lia. rewrite bind_Some, casts_ok by lia.
  rewrite adds_ok by (change (32 - 1) with 31; lia). rewrite bind_Some.
  assert (D : sa / 2 ^ n0 = 2 * m + 1) by (rewrite Em; apply Z.div_mul; lia). rewrite D.
  exists (q - 262378 + n0), (2 * m + 1). split. reflexivity.
  assert (1 * (2 * m + 1) <= 2 ^ n0 * (2 * m + 1)) by (apply Z.mul_le_mono_nonneg_r; lia).
  split. lia. split. rewrite Z.odd_add_mul_2, Z.add_comm || idtac. rewrite Z.add_comm, Z.odd_add_mul_2. reflexivity.
  unfold UNITe. split. lia. replace (q - 262378 + n0 + 262378) with (n0 + q) by lia.
  rewrite pow2_add by lia. rewrite Em at 1. ring.
Qed.

Lemma rnd_scaled_exact c t a : 0 <= a < INFm -> 0 <= t + UNITe -> mag_val a = c * 2 ^ (t + UNITe) -> rnd_scaled c t = a.
Proof.
  intros Ha Ht E. unfold rnd_scaled. rewrite Z.max_r, Z.max_l by lia. rewrite <- E. change (2 ^ 0) with 1.
  apply rnd_mag_exact. lia.
Qed.

(** Decoding and encoding are inverse. *)
Lemma decode_encode v : 0 <= v < 2 ^ 256 -> finb v = true ->
  exists s t ch cl, as_sign_exp_signif (of256 v) = Some (s, t, (ch, cl))
    /\ from_sign_exp_signif s t ch cl = Some (of256 v).
Proof.
  intros Hv Hf. pose proof (sgn01 v Hv) as Hs. unfold as_sign_exp_signif.
  destruct (zerob v) eqn:Hz.
  - rewrite decode_zero by auto. rewrite bind_Some. exists (sgn v), 0, 0, 0. split. reflexivity.
    unfold zerob in Hz. apply Z.eqb_eq in Hz. rewrite <- (mkf_sgn_mag v) at 2. rewrite Hz.
    unfold from_sign_exp_signif. rewrite dassert_ok by (destruct Hs as [-> | ->]; reflexivity).
    destruct Hs as [-> | ->]; reflexivity.
  - destruct (decode_ok v Hv Hf Hz) as (t & c & D & Hc & _ & Ht & Ev). rewrite D, bind_Some.
    exists (sgn v), t, (xhi (of256 c)), (xlo (of256 c)). split. reflexivity.
    unfold finb in Hf. apply Z.ltb_lt in Hf. pose proof (mag_bound v) as B.
    rewrite xhi_of, xlo_of. pose proof (Z.mod_pos_bound c (2 ^ 128) ltac:(lia)).
    assert (0 <= c / 2 ^ 128 < 2 ^ 128) by (apply div_bound; lia).
    assert (Ec : c / 2 ^ 128 * 2 ^ 128 + c mod 2 ^ 128 = c) by (pose proof (Z.div_mod c (2 ^ 128) ltac:(lia)); lia).
    assert (R : rnd_scaled c t = mag v) by (apply rnd_scaled_exact; auto; lia).
    rewrite from_ok; rewrite ?Ec, ?R; auto; try lia. rewrite mkf_sgn_mag. reflexivity.
Qed.

(** ** ulp *)
Lemma ulp_ok v : 0 <= v < 2 ^ 256 -> finb v = true ->
  exists r, ulp (of256 v) = Some (of256 r) /\ 0 <= r < INFm /\ mag_val r = 2 ^ qe (mag v).
Proof.
  intros Hv Hf. unfold ulp. rewrite abs_bits_of. fold (mag v). pose proof (mag_bound v) as B.
  unfold finb, INFm in Hf. apply Z.ltb_lt in Hf. set (a := mag v) in *. clearbody a.
  rewrite exp_bits_of, norm_bit_of by lia. unfold EXP_MAX, FRACTION_BITS.
  pose proof (Z.div_mod a (2 ^ 236) ltac:(lia)) as D. pose proof (Z.mod_pos_bound a (2 ^ 236) ltac:(lia)) as M.
  destruct (Z.ltb_spec (a / 2 ^ 236) 524287) as [X|X]; [|lia].
  assert (Q : a / 2 ^ 236 - b2z (2 ^ 236 <=? a) = qe a).
  { unfold qe. destruct (Z.leb_spec (2 ^ 236) a); cbn [b2z]; lia. }
  rewrite subu_ok by (rewrite Q; pose proof (qe_nonneg a); unfold qe; lia). rewrite bind_Some, Q.
  assert (Q2 : qe a <= 524285 /\ 0 <= qe a) by (unfold qe; lia).
  assert (Q3 : Z.max 0 (a / 2 ^ 236 - (236 + 1)) = Z.max 0 (qe a - 236)) by (unfold qe; lia). rewrite Q3.
  set (q := qe a) in *. clearbody q.
  unfold HI_FRACTION_BIAS. rewrite u256_zero_lo. change (2 ^ 108 * 2 ^ 128) with (2 ^ 236).
  rewrite shr256 by lia. rewrite bind_Some.
  destruct (Z.le_gt_cases q 236) as [C|C].
  - rewrite (Z.max_r 0 (236 - q)), (Z.max_l 0 (q - 236)) by lia.
    assert (E : 2 ^ 236 / 2 ^ (236 - q) = 2 ^ q).
    { rewrite (pow2_split (236 - q) 236) by lia. replace (236 - (236 - q)) with q by lia.
      rewrite Z.mul_comm. apply Z.div_mul. apply Z.pow_nonzero; lia. }
    rewrite E. pose proof (pow2_pos q ltac:(lia)). pose proof (pow2_le q 236 ltac:(lia)).
    rewrite asm_add by lia. exists (2 ^ q). rewrite Z.mul_0_l, Z.add_0_l. split. reflexivity.
    unfold INFm. split. lia. rewrite <- (Z.add_0_l (2 ^ q)), <- (Z.mul_0_l (2 ^ 236)).
    rewrite mag_val_any by lia. change (2 ^ 0) with 1. lia.
  - rewrite (Z.max_l 0 (236 - q)), (Z.max_r 0 (q - 236)) by lia.
    change (2 ^ 236 / 2 ^ 0) with (2 ^ 236).
    rewrite asm_add by lia. eexists. split. reflexivity.
    unfold INFm. split. lia. rewrite mag_val_any by lia. rewrite <- pow2_add by lia. f_equal. lia.
Qed.

Lemma ulp_nonfinite v : 0 <= v < 2 ^ 256 -> finb v = false -> ulp (of256 v) = Some (of256 QNAN).
Proof.
  intros Hv Hf. unfold ulp. rewrite abs_bits_of. fold (mag v). pose proof (mag_bound v) as B.
  unfold finb, INFm in Hf. apply Z.ltb_ge in Hf. rewrite exp_bits_of by lia.
  unfold EXP_MAX. destruct (Z.ltb_spec (mag v / 2 ^ 236) 524287) as [X|X]; [|reflexivity].
  assert (524287 <= mag v / 2 ^ 236); [|lia]. apply Z.div_le_lower_bound; lia.
Qed.

Lemma ulp_spec v : 0 <= v < 2 ^ 256 -> exists r, ulp (of256 v) = Some (of256 r) /\ 0 <= r < 2 ^ 256 /\ spec_ulp v r.
Proof.
  intros Hv. unfold spec_ulp. destruct (finb v) eqn:Hf.
  - destruct (ulp_ok v Hv Hf) as (r & E & Hr & Ev). exists r. split; auto. unfold INFm in Hr.
    assert (M : mag r = r) by (apply Z.mod_small; lia). split. lia.
    split. apply Z.div_small; lia. rewrite M.
    pose proof (mag_bound v). exists (qe (mag v)), (sg (mag v)).
    split. apply qe_nonneg. split. exact Ev. split. apply mag_val_sg; lia.
    split. apply sg_bound; lia. apply sg_qe; lia.
  - exists QNAN. split. apply ulp_nonfinite; auto. split. unfold QNAN; lia. reflexivity.
Qed.

(** ** Exponent and significand *)
Lemma quantum_exponent_ok v : 0 <= v < 2 ^ 256 -> finb v = true ->
  quantum_exponent (of256 v) = Some (if zerob v then 0 else qe (mag v) - 262378).
Proof.
  intros Hv Hf. unfold quantum_exponent. rewrite is_finite_of, Hf, dassert_ok, bind_Some by auto.
  rewrite biased_exponent_of, eq_zero_of. unfold zerob. pose proof (mag_bound v) as B.
  unfold finb, INFm in Hf. apply Z.ltb_lt in Hf.
  assert (0 <= mag v / 2 ^ 236 < 524287) by (apply div_bound; lia).
  rewrite casts_ok by lia. unfold EXP_BIAS, FRACTION_BITS. unfold qe.
  set (e := mag v / 2 ^ 236) in *. clearbody e.
  rewrite adds_ok by (change (32 - 1) with 31; destruct (e =? 0); cbn [b2z]; lia). rewrite bind_Some.
  rewrite subs_ok by (change (32 - 1) with 31; destruct (e =? 0); cbn [b2z]; lia). rewrite bind_Some.
  rewrite muls_ok by (change (32 - 1) with 31; destruct (e =? 0), (mag v =? 0); cbn [b2z negb]; lia).
  apply f_equal. destruct (Z.eqb_spec (mag v) 0), (Z.eqb_spec e 0); cbn [b2z negb]; lia.
Qed.

Lemma integral_significand_ok v : 0 <= v < 2 ^ 256 -> finb v = true ->
  integral_significand (of256 v) = Some (of256 (sg (mag v))).
Proof.
  intros Hv Hf. unfold integral_significand. rewrite is_finite_of, Hf, dassert_ok, bind_Some by auto.
  rewrite biased_exponent_of. apply f_equal. pose proof (mag_bound v) as B.
  rewrite <- signif_of by lia. unfold mag. rewrite <- abs_bits_of. fold (mag v).
  unfold signif, abs_bits, xhi, xlo, u256. cbn [hi lo val].
  fold (xhi (of256 v)) (xlo (of256 v)). f_equal. f_equal. rewrite Z.lor_comm.
  assert (A : Z.land (xhi (of256 v)) HI_ABS_MASK = mag v / 2 ^ 128).
  { unfold HI_ABS_MASK. rewrite land_pow2_ones, xhi_of by lia. unfold mag. change 255 with (128 + 127).
    rewrite div_mod_pow by lia. reflexivity. }
  rewrite A. f_equal.
  - f_equal. f_equal. unfold HI_FRACTION_BIAS.
    pose proof (Z.div_mod (mag v) (2 ^ 128) ltac:(lia)). pose proof (Z.mod_pos_bound (mag v) (2 ^ 128) ltac:(lia)).
    pose proof (Z.div_mod (mag v) (2 ^ 236) ltac:(lia)). pose proof (Z.mod_pos_bound (mag v) (2 ^ 236) ltac:(lia)).
    destruct (Z.leb_spec (2 ^ 108) (mag v / 2 ^ 128)), (Z.eqb_spec (mag v / 2 ^ 236) 0); auto; cbn [negb]; lia.
  - unfold HI_FRACTION_MASK. rewrite !land_pow2_ones by lia. rewrite xhi_of. unfold mag.
    change 255 with (128 + 127). rewrite div_mod_pow by lia. rewrite mod_mod_pow by lia. reflexivity.
Qed.

Lemma exponent_ok v : 0 <= v < 2 ^ 256 -> finb v = true ->
  exponent (of256 v) = Some (if zerob v then 0 else qe (mag v) - 262142).
Proof.
  intros Hv Hf. unfold exponent. rewrite is_finite_of, Hf, dassert_ok, bind_Some by auto.
  rewrite biased_exponent_of, eq_zero_of. unfold zerob. pose proof (mag_bound v) as B.
  unfold finb, INFm in Hf. apply Z.ltb_lt in Hf.
  assert (0 <= mag v / 2 ^ 236 < 524287) by (apply div_bound; lia).
  rewrite casts_ok by lia. unfold EXP_BIAS. unfold qe.
  set (e := mag v / 2 ^ 236) in *. clearbody e.
  rewrite adds_ok by (change (32 - 1) with 31; destruct (e =? 0); cbn [b2z]; lia). rewrite bind_Some.
  rewrite subs_ok by (change (32 - 1) with 31; destruct (e =? 0); cbn [b2z]; lia). rewrite bind_Some.
  rewrite muls_ok by (change (32 - 1) with 31; destruct (e =? 0), (mag v =? 0); cbn [b2z negb]; lia).
  apply f_equal. destruct (Z.eqb_spec (mag v) 0), (Z.eqb_spec e 0); cbn [b2z negb]; lia.
Qed.

End CodecProofs.

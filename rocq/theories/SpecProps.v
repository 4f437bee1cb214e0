(** * SpecProps: the rounding function of the specification is round to nearest,
    ties to even *)

From Coq Require Import ZArith Lia Bool.
From Verif Require Import ZLemmas Spec SpecLemmas.
Open Scope Z_scope.

(** Gap between neighbouring encodings. *)
Lemma mag_val_gap_up E m a : 0 <= E -> 0 <= m <= 2 ^ 237 -> (E = 0 \/ 2 ^ 236 <= m) ->
  E * 2 ^ 236 + m < a -> m * 2 ^ E + 2 ^ E <= mag_val a.
Proof.
  intros HE Hm HC Ha.
  assert (NX : mag_val (E * 2 ^ 236 + m + 1) >= m * 2 ^ E + 2 ^ E).
  { pose proof (pow2_pos E HE) as PE. destruct (Z.lt_trichotomy m (2 ^ 237 - 1)) as [L|[L|L]].
    - rewrite <- Z.add_assoc, mag_val_any by lia. lia.
    - rewrite L. replace (E * 2 ^ 236 + (2 ^ 237 - 1) + 1) with ((E + 1) * 2 ^ 236 + 2 ^ 236) by ring.
      rewrite mag_val_any by lia. rewrite pow2_S by lia. change (2 ^ 237) with (2 * 2 ^ 236). lia.
    - assert (m = 2 ^ 237) by lia. subst m.
      replace (E * 2 ^ 236 + 2 ^ 237 + 1) with ((E + 1) * 2 ^ 236 + (2 ^ 236 + 1)) by ring.
      rewrite mag_val_any by lia. rewrite pow2_S by lia. change (2 ^ 237) with (2 * 2 ^ 236). lia. }
  pose proof (mag_val_le (E * 2 ^ 236 + m + 1) a ltac:(lia) ltac:(lia)). lia.
Qed.

Lemma mag_val_gap_down E m a : 0 <= E -> 0 <= m <= 2 ^ 237 -> (E = 0 \/ 2 ^ 236 < m) ->
  0 <= a < E * 2 ^ 236 + m -> mag_val a <= m * 2 ^ E - 2 ^ E.
Proof.
  intros HE Hm HC Ha.
  assert (NX : mag_val (E * 2 ^ 236 + (m - 1)) = m * 2 ^ E - 2 ^ E).
  { rewrite mag_val_any by lia. ring. }
  pose proof (mag_val_le a (E * 2 ^ 236 + (m - 1)) ltac:(lia) ltac:(lia)). lia.
Qed.

Lemma even_code E m : Z.odd m = false -> Z.odd (E * 2 ^ 236 + m) = false.
Proof. intros H. rewrite Z.odd_add, H, Z.odd_mul. change (Z.odd (2 ^ 236)) with false. rewrite andb_false_r. reflexivity. Qed.

(** The nearest encoding, an exact tie going to the even one; the encoding of
    infinity stands for 2^262144, so that overflow happens exactly from the midpoint
    between the largest number and 2^262144 on. *)
Lemma rnd_mag_nearest n d a : 0 <= n -> 0 < d -> 0 <= a <= INFm -> a <> rnd_mag n d ->
  let m := rnd_mag n d in
  Z.abs (n - d * mag_val m) < Z.abs (n - d * mag_val a)
  \/ (Z.abs (n - d * mag_val m) = Z.abs (n - d * mag_val a) /\ Z.odd m = false).
Proof.
  intros Hn Hd Ha Hne m. unfold rnd_mag in m, Hne.
  set (e := Z.max 0 (Z.log2 (n / d) - 236)) in *.
  assert (He : 0 <= e) by lia.
  assert (HeN : e = 0 \/ 2 ^ (236 + e) * d <= n).
  { destruct (Z.eq_dec e 0); [left; auto|right]. assert (EL : 236 + e = Z.log2 (n / d)) by lia. rewrite EL.
    assert (0 < n / d). { destruct (Z.le_gt_cases (n / d) 0); auto. rewrite Z.log2_nonpos in EL by lia. lia. }
    pose proof (Z.log2_spec (n / d) H). pose proof (Z.mul_div_le n d Hd).
    apply Z.le_trans with (n / d * d); [|lia]. apply Z.mul_le_mono_nonneg_r; lia. }
  assert (HeU : n < 2 ^ (237 + e) * d).
  { destruct (Z.le_gt_cases (n / d) 0) as [L|L].
    - assert (n < d). { apply Z.nle_gt. intros X. assert (1 <= n / d) by (apply Z.div_le_lower_bound; lia). lia. }
      pose proof (pow2_pos (237 + e) ltac:(lia)). nia.
    - pose proof (Z.log2_spec (n / d) L) as LS.
      pose proof (Z.div_mod n d ltac:(lia)). pose proof (Z.mod_pos_bound n d Hd).
      assert (n / d + 1 <= 2 ^ (237 + e)).
      { apply Z.le_trans with (2 ^ Z.succ (Z.log2 (n / d))). lia. apply pow2_le. pose proof (Z.log2_nonneg (n / d)). lia. }
      assert ((n / d + 1) * d <= 2 ^ (237 + e) * d) by (apply Z.mul_le_mono_nonneg_r; lia). lia. }
  clearbody e. pose proof (pow2_pos e He) as Pe.
  pose proof (Z.mul_pos_pos d (2 ^ e) Hd Pe) as PD.
  pose proof (rne_div_spec n (d * 2 ^ e) PD) as (R1 & R2 & R3).
  assert (QU : rne_div n (d * 2 ^ e) <= 2 ^ 237).
  { apply rne_div_le_bound; auto. rewrite pow2_add in HeU by lia. lia. }
  assert (Q0 : 0 <= rne_div n (d * 2 ^ e)) by (apply rne_div_nonneg; auto).
  assert (QL : e = 0 \/ 2 ^ 236 <= rne_div n (d * 2 ^ e)).
  { destruct HeN as [|L]; [left; auto|right]. apply rne_div_ge_bound; auto. rewrite pow2_add in L by lia. lia. }
  set (q := rne_div n (d * 2 ^ e)) in *. clearbody q.
  assert (MV : mag_val (e * 2 ^ 236 + q) = q * 2 ^ e).
  { destruct (Z.eq_dec q (2 ^ 237)) as [->|].
    - replace (e * 2 ^ 236 + 2 ^ 237) with ((e + 1) * 2 ^ 236 + 2 ^ 236) by ring.
      rewrite mag_val_any by lia. rewrite pow2_S by lia. change (2 ^ 237) with (2 * 2 ^ 236). set (p := 2 ^ 236). ring.
    - apply mag_val_any; lia. }
  destruct (Z.le_gt_cases (e * 2 ^ 236 + q) INFm) as [C|C].
  - assert (Em : m = e * 2 ^ 236 + q) by (apply Z.min_r; lia). rewrite Z.min_r in Hne by lia.
    rewrite Em, MV. clear Em. clearbody m. clear m.
    destruct (Z.le_gt_cases (d * (q * 2 ^ e)) n) as [G|G].
    + destruct (Z.lt_ge_cases a (e * 2 ^ 236 + q)) as [La|La].
      * left. pose proof (mag_val_lt a (e * 2 ^ 236 + q) ltac:(lia) La) as V. rewrite MV in V.
        assert (d * mag_val a < d * (q * 2 ^ e)) by (apply Z.mul_lt_mono_pos_l; lia). lia.
      * pose proof (mag_val_gap_up e q a He ltac:(lia) QL ltac:(lia)) as V.
        assert (V2 : d * (q * 2 ^ e + 2 ^ e) <= d * mag_val a) by (apply Z.mul_le_mono_nonneg_l; lia).
        rewrite Z.mul_add_distr_l in V2.
        replace (2 * (d * 2 ^ e) * q) with (2 * (d * (q * 2 ^ e))) in * by ring.
        set (X := d * (q * 2 ^ e)) in *. set (D := d * 2 ^ e) in *. set (Y := d * mag_val a) in *. clearbody X D Y.
        destruct (Z.eq_dec (2 * n - 2 * X) D) as [T|T].
        -- destruct (Z.eq_dec Y (X + D)); [right|left; lia]. split. lia. apply even_code. auto.
        -- left. lia.
    + assert (QL2 : e = 0 \/ 2 ^ 236 < q).
      { destruct HeN as [|L]; [left; auto|]. destruct (Z.eq_dec q (2 ^ 236)) as [->|]; [exfalso|lia].
        rewrite pow2_add in L by lia. lia. }
      destruct (Z.lt_ge_cases a (e * 2 ^ 236 + q)) as [La|La].
      * pose proof (mag_val_gap_down e q a He ltac:(lia) QL2 ltac:(lia)) as V.
        assert (V2 : d * mag_val a <= d * (q * 2 ^ e - 2 ^ e)) by (apply Z.mul_le_mono_nonneg_l; lia).
        rewrite Z.mul_sub_distr_l in V2.
        replace (2 * (d * 2 ^ e) * q) with (2 * (d * (q * 2 ^ e))) in * by ring.
        set (X := d * (q * 2 ^ e)) in *. set (D := d * 2 ^ e) in *. set (Y := d * mag_val a) in *. clearbody X D Y.
        destruct (Z.eq_dec (2 * n - 2 * X) (- D)) as [T|T].
        -- destruct (Z.eq_dec Y (X - D)); [right|left; lia]. split. lia. apply even_code. auto.
        -- left. lia.
      * left. pose proof (mag_val_lt (e * 2 ^ 236 + q) a ltac:(lia) ltac:(lia)) as V. rewrite MV in V.
        assert (d * (q * 2 ^ e) < d * mag_val a) by (apply Z.mul_lt_mono_pos_l; lia). lia.
  - (* overflow *)
    assert (Em : m = INFm) by (apply Z.min_l; lia). rewrite Z.min_l in Hne by lia. rewrite Em.
    pose proof (mag_val_lt a INFm ltac:(lia) ltac:(lia)) as V.
    left. assert (BB : d * mag_val INFm <= n).
    { unfold INFm in C. clear V Em Hne m.
      assert (EB : 524286 <= e) by lia.
      assert (GK : forall K, 0 <= K <= e -> d * (2 ^ 236 * 2 ^ K) <= n).
      { intros K HK. destruct HeN as [|L]; [lia|]. rewrite Z.mul_comm.
        apply Z.le_trans with (2 ^ (236 + e) * d); auto.
        apply Z.mul_le_mono_nonneg_r. lia. rewrite pow2_add by lia.
        apply Z.mul_le_mono_nonneg_l. lia. apply pow2_le. lia. }
      replace INFm with (524286 * 2 ^ 236 + 2 ^ 236) by (unfold INFm; ring).
      rewrite mag_val_any by lia. apply (GK 524286). lia. }
    assert (d * mag_val a < d * mag_val INFm) by (apply Z.mul_lt_mono_pos_l; lia). lia.
Qed.

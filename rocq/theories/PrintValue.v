(** * PrintValue: the rounding interval and the rounded value *)

From Coq Require Import ZArith List Bool Lia.
From Verif Require Import Base ZLemmas BigUInt BigLaws BigExtra F256 F256Lemmas Spec SpecLemmas SpecParse Print SpecPrint
  PrintArith PrintProofs PrintRound.
Import ListNotations.
Open Scope Z_scope.

Lemma half_pow e : 0 <= e -> 1 <= e -> 2 ^ e = 2 * 2 ^ (e - 1).
Proof. intros. rewrite <- pow2_S by lia. f_equal. lia. Qed.

(** [n / d] rounds to [c * 2^e] exactly if it lies in the interval. *)
Lemma round_inside n d e c : 0 < d -> 0 <= n -> 1 <= e -> 2 ^ 236 < c < 2 ^ 237 -> e * 2 ^ 236 + c < INFm ->
  (2 * c - 1) * 2 ^ (e - 1) * d <= n <= (2 * c + 1) * 2 ^ (e - 1) * d ->
  (Z.odd c = true -> (2 * c - 1) * 2 ^ (e - 1) * d < n < (2 * c + 1) * 2 ^ (e - 1) * d) ->
  rnd_mag n d = e * 2 ^ 236 + c.
Proof.
  intros Hd Hn He Hc Hi I1 I2. pose proof (half_pow e ltac:(lia) He) as H2.
  assert (PQ : 0 < 2 ^ (e - 1)) by (apply pow2_pos; lia). set (Q := 2 ^ (e - 1)) in *.
  rewrite (rnd_mag_at n d e); auto; try lia.
  - rewrite Z.min_r.
    + f_equal. rewrite H2. assert (PQd : 0 < Q * d) by nia. set (D := Q * d) in *.
      replace (d * (2 * Q)) with (2 * D) by (unfold D; ring).
      replace ((2 * c - 1) * Q * d) with ((2 * c - 1) * D) in * by (unfold D; ring).
      replace ((2 * c + 1) * Q * d) with ((2 * c + 1) * D) in * by (unfold D; ring).
      clearbody D. apply rne_div_unique; [lia|lia| |]; intros E; destruct (Z.odd c); auto; specialize (I2 eq_refl); lia.
    + replace (rne_div n (d * 2 ^ e)) with c; [lia|]. rewrite H2. assert (PQd : 0 < Q * d) by nia. set (D := Q * d) in *.
      replace (d * (2 * Q)) with (2 * D) by (unfold D; ring).
      replace ((2 * c - 1) * Q * d) with ((2 * c - 1) * D) in * by (unfold D; ring).
      replace ((2 * c + 1) * Q * d) with ((2 * c + 1) * D) in * by (unfold D; ring).
      clearbody D. symmetry.
      apply rne_div_unique; [lia|lia| |]; intros E; destruct (Z.odd c); auto; specialize (I2 eq_refl); lia.
  - rewrite Z.pow_add_r by lia. rewrite H2. assert (0 < Q * d) by nia.
    apply Z.le_trans with ((2 * c + 1) * (Q * d)); [lia|].
    replace (2 ^ 237 * (2 * Q) * d) with (2 ^ 237 * 2 * (Q * d)) by ring.
    apply Z.mul_le_mono_nonneg_r; lia.
  - right. rewrite Z.pow_add_r by lia. rewrite H2. assert (0 < Q * d) by nia.
    apply Z.le_trans with ((2 * c - 1) * (Q * d)); [|lia].
    replace (2 ^ 236 * (2 * Q) * d) with (2 ^ 236 * 2 * (Q * d)) by ring.
    apply Z.mul_le_mono_nonneg_r; lia.
Qed.

Lemma inside_round n d e c : 0 < d -> 0 <= n -> 1 <= e -> 2 ^ 236 < c < 2 ^ 237 -> e * 2 ^ 236 + c < INFm ->
  rnd_mag n d = e * 2 ^ 236 + c ->
  (2 * c - 1) * 2 ^ (e - 1) * d <= n <= (2 * c + 1) * 2 ^ (e - 1) * d
  /\ (Z.odd c = true -> (2 * c - 1) * 2 ^ (e - 1) * d < n < (2 * c + 1) * 2 ^ (e - 1) * d).
Proof.
  intros Hd Hn He Hc Hi E. unfold rnd_mag in E.
  set (f := Z.max 0 (Z.log2 (n / d) - 236)) in *. assert (Hf : 0 <= f) by (unfold f; lia).
  assert (Hp : 0 <= n / d) by (apply Z.div_pos; lia).
  pose proof (Z.div_mod n d ltac:(lia)) as Ed. pose proof (Z.mod_pos_bound n d Hd) as Rd.
  assert (PF : 0 < 2 ^ f) by (apply pow2_pos; lia).
  assert (HE : f * 2 ^ 236 + rne_div n (d * 2 ^ f) = e * 2 ^ 236 + c) by lia. clear E.
  assert (Up : rne_div n (d * 2 ^ f) <= 2 ^ 237).
  { apply rne_div_le_bound. nia.
    assert (n / d < 2 ^ (237 + f)).
    { destruct (Z.eq_dec (n / d) 0) as [->|]. apply pow2_pos; lia.
      destruct (Z.log2_spec (n / d) ltac:(lia)) as [_ HL]. eapply Z.lt_le_trans; [exact HL|].
      apply Z.pow_le_mono_r; unfold f; lia. }
    rewrite Z.pow_add_r in H by lia.
    replace (2 ^ 237 * (d * 2 ^ f)) with (d * (2 ^ 237 * 2 ^ f)) by ring.
    assert (n / d + 1 <= 2 ^ 237 * 2 ^ f) by lia. clear - H0 Ed Rd Hd. set (q := n / d) in *. clearbody q.
    assert (d * (q + 1) <= d * (2 ^ 237 * 2 ^ f)) by (apply Z.mul_le_mono_nonneg_l; lia). lia. }
  assert (Nn : 0 <= rne_div n (d * 2 ^ f)) by (apply rne_div_nonneg; [lia|nia]).
  assert (Lo : f = 0 \/ 2 ^ 236 <= rne_div n (d * 2 ^ f)).
  { destruct (Z.eq_dec f 0) as [->|Nf]; [left; auto|right]. apply rne_div_ge_bound. nia.
    assert (2 ^ (236 + f) <= n / d).
    { assert (0 < n / d). { destruct (Z.eq_dec (n / d) 0) as [E0|]; [|lia]. unfold f in Nf. rewrite E0 in Nf. cbn in Nf. lia. }
      destruct (Z.log2_spec (n / d) H) as [HL _]. eapply Z.le_trans; [|exact HL]. apply Z.pow_le_mono_r; unfold f; lia. }
    rewrite Z.pow_add_r in H by lia.
    replace (2 ^ 236 * (d * 2 ^ f)) with (d * (2 ^ 236 * 2 ^ f)) by ring.
    assert (d * (2 ^ 236 * 2 ^ f) <= d * (n / d)) by (apply Z.mul_le_mono_nonneg_l; lia). lia. }
  assert (Ef : f = e) by (clear - Up Nn Lo HE Hc He Hf; lia).
  rewrite Ef in *. assert (Ec : rne_div n (d * 2 ^ e) = c) by lia.
  destruct (rne_div_spec n (d * 2 ^ e) ltac:(nia)) as (S1 & S2 & S3). rewrite Ec in *.
  rewrite (half_pow e ltac:(lia) He) in *. set (Q := 2 ^ (e - 1)) in *.
  replace (d * (2 * Q)) with (2 * (Q * d)) in * by ring.
  replace ((2 * c - 1) * Q * d) with ((2 * c - 1) * (Q * d)) by ring.
  replace ((2 * c + 1) * Q * d) with ((2 * c + 1) * (Q * d)) by ring.
  set (D := Q * d) in *. clearbody D. clear - S1 S2 S3. split; [lia|]. intros O. rewrite O in *.
  assert (2 * n - 2 * (2 * D) * c <> 2 * D) by (intros X; specialize (S2 X); discriminate).
  assert (2 * n - 2 * (2 * D) * c <> - (2 * D)) by (intros X; specialize (S3 X); discriminate). lia.
Qed.

(** The smallest significand: the lower half of the interval is half as wide. *)
Lemma round_pow2 n d e : 0 < d -> 0 <= n -> 2 <= e -> (e + 1) * 2 ^ 236 < INFm ->
  (2 ^ 238 - 1) * 2 ^ (e - 2) * d <= n <= (2 * 2 ^ 236 + 1) * 2 ^ (e - 1) * d ->
  rnd_mag n d = (e + 1) * 2 ^ 236.
Proof.
  intros Hd Hn He Hi I1.
  pose proof (half_pow e ltac:(lia) ltac:(lia)) as H2.
  pose proof (half_pow (e - 1) ltac:(lia) ltac:(lia)) as H1. replace (e - 1 - 1) with (e - 2) in H1 by lia.
  assert (PQ : 0 < 2 ^ (e - 2)) by (apply pow2_pos; lia). rewrite H1 in H2, I1.
  set (Q := 2 ^ (e - 2)) in *. assert (PQd : 0 < Q * d) by nia.
  replace ((2 ^ 238 - 1) * Q * d) with ((2 ^ 238 - 1) * (Q * d)) in I1 by ring.
  replace ((2 * 2 ^ 236 + 1) * (2 * Q) * d) with ((2 ^ 238 + 2) * (Q * d)) in I1 by ring.
  destruct (Z.lt_ge_cases n (2 ^ 238 * (Q * d))) as [L|G].
  - rewrite (rnd_mag_at n d (e - 1)); auto; try lia.
    + assert (ER : rne_div n (d * 2 ^ (e - 1)) = 2 ^ 237).
      { rewrite H1. replace (d * (2 * Q)) with (2 * (Q * d)) by ring. set (D := Q * d) in *. clearbody D.
        apply rne_div_unique; [lia|lia|intros; reflexivity|intros; reflexivity]. }
      rewrite ER. lia.
    + rewrite Z.pow_add_r by lia. rewrite H1. replace (2 ^ 237 * (2 * Q) * d) with (2 ^ 238 * (Q * d)) by ring. lia.
    + right. rewrite Z.pow_add_r by lia. rewrite H1. replace (2 ^ 236 * (2 * Q) * d) with (2 ^ 237 * (Q * d)) by ring. nia.
  - rewrite (rnd_mag_at n d e); auto; try lia.
    + assert (ER : rne_div n (d * 2 ^ e) = 2 ^ 236).
      { rewrite H2. replace (d * (2 * (2 * Q))) with (4 * (Q * d)) by ring. set (D := Q * d) in *. clearbody D.
        apply rne_div_unique; [lia|lia|intros; reflexivity|intros; reflexivity]. }
      rewrite ER. lia.
    + rewrite Z.pow_add_r by lia. rewrite H2. replace (2 ^ 237 * (2 * (2 * Q)) * d) with (2 ^ 239 * (Q * d)) by ring. nia.
    + right. rewrite Z.pow_add_r by lia. rewrite H2. replace (2 ^ 236 * (2 * (2 * Q)) * d) with (2 ^ 238 * (Q * d)) by ring. lia.
Qed.

(** ** Every datum of the range *)

Section Print.
Context {P : profile}.

Lemma pow10_ge0 k : 0 < 10 ^ Z.max 0 k.
Proof. apply Z.pow_pos_nonneg; lia. Qed.

(** [U] stands for UNITe, which must not be computed with. *)
Lemma value_of_U U t c e : U = UNITe -> tables_ok t -> -710 <= e <= 191 -> 2 ^ 236 <= c < 2 ^ 237 ->
  exists w k, shortest_from_bin_repr t (of256 c) e = Some (of256 w, k)
    /\ 0 < w < 2 ^ 256 /\ -1000 <= k <= 1000
    /\ (2 ^ 236 < c \/ 9 <= e ->
        rnd_mag (w * 10 ^ Z.max 0 k * 2 ^ U) (10 ^ Z.max 0 (- k)) = (e + U) * 2 ^ 236 + c)
    /\ (nonint c (e - 2) = true -> 2 ^ 236 < c -> forall n q, 0 <= n ->
        rnd_mag (n * 10 ^ Z.max 0 q * 2 ^ U) (10 ^ Z.max 0 (- q)) = (e + U) * 2 ^ 236 + c ->
        forall d, 0 <= d -> n < 10 ^ d -> w < 10 ^ d).
Proof.
  intros EU T He Hc. assert (HU : 712 <= U) by (rewrite EU; unfold UNITe; lia).
  assert (HI : (e + U) * 2 ^ 236 + c < INFm) by (rewrite EU; unfold UNITe, INFm; lia).
  assert (HI2 : (e + U + 1) * 2 ^ 236 < INFm) by lia. clear EU.
  destruct (search t c e U T He ltac:(lia) HU) as (w & k & E & Hw & Hk & [I1 I2] & Few & Pow).
  assert (PU : 0 < 2 ^ U) by (apply pow2_pos; lia).
  exists w, k. split; [exact E|]. split; [exact Hw|]. split; [exact Hk|]. split.
  - intros Hp. pose proof (pow10_ge0 (- k)) as P1. pose proof (pow10_ge0 k) as P2.
    assert (Hn : 0 <= w * 10 ^ Z.max 0 k * 2 ^ U) by (repeat apply Z.mul_nonneg_nonneg; lia).
    replace (e - 1 + U) with (e + U - 1) in * by lia. replace (e - 2 + U) with (e + U - 2) in * by lia.
    destruct (Z.eq_dec c (2 ^ 236)) as [Ec|Nc].
    + assert (H9 : 9 <= e) by (destruct Hp; lia). specialize (Pow Ec H9). rewrite Ec in *.
      rewrite (round_pow2 _ _ (e + U)); auto; [ring|lia|].
      split; [|apply I1]. replace (2 ^ 238 - 1) with (4 * 2 ^ 236 - 1) by reflexivity. apply Z.lt_le_incl. exact Pow.
    + apply round_inside; auto; lia.
  - intros Ni Hc2 n q Hn Rn d Hd Hnd. apply (Few Ni n q); auto.
    pose proof (pow10_ge0 (- q)) as P1. pose proof (pow10_ge0 q) as P2.
    apply inside_round in Rn; auto; try lia.
    + unfold dec_inside. replace (e - 1 + U) with (e + U - 1) by lia. exact Rn.
Qed.

Lemma value_of t s c e : tables_ok t -> -710 <= e <= 191 -> 2 ^ 236 <= c < 2 ^ 237 ->
  exists w k, shortest_from_bin_repr t (of256 c) e = Some (of256 w, k)
    /\ 0 < w < 2 ^ 256 /\ -1000 <= k <= 1000
    /\ (2 ^ 236 < c \/ 9 <= e -> dec_rnd s w k = mkf s ((e + UNITe) * 2 ^ 236 + c))
    /\ (nonint c (e - 2) = true -> 2 ^ 236 < c -> forall n q, 0 <= n ->
        dec_rnd s n q = mkf s ((e + UNITe) * 2 ^ 236 + c) -> forall d, 0 <= d -> n < 10 ^ d -> w < 10 ^ d).
Proof.
  intros T He Hc. destruct (value_of_U UNITe t c e eq_refl T He Hc) as (w & k & E & Hw & Hk & V & F).
  exists w, k. split; [exact E|]. split; [exact Hw|]. split; [exact Hk|]. unfold dec_rnd. split.
  - intros H. f_equal. apply V. exact H.
  - intros Ni Hc2 n q Hn Rn. apply (F Ni Hc2 n q Hn). unfold mkf in Rn. apply Z.add_cancel_l in Rn. exact Rn.
Qed.

End Print.

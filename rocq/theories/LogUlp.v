(** * LogUlp: error bounds of the logarithms in units in the last place *)

From Coq Require Import ZArith Lia Bool Reals Lra List.
From Verif Require Import Base BigUInt ZLemmas BigLaws BigUIntProofs BigExtra Spec SpecFns F256 Arith SpecLemmas
  F256Lemmas BasicProofs CodecProofs SosProofs SpecDeg SpecLog LogTable Log FpProofs LogProofs LnBound LogReal.
Open Scope R_scope.

(** ** The constants *)
Lemma W520_SR : IZR W520 = SR * 268435456.
Proof. unfold SR. change 268435456 with (IZR (2 ^ 28)). rewrite <- mult_IZR. reflexivity. Qed.

Lemma LN2Z_check : (Z.abs (LN2S - LN2Z * 2 ^ 28) + 922 <= 3 * 2 ^ 26)%Z.
Proof. apply Z.leb_le. vm_compute. reflexivity. Qed.

Lemma LN2_real : Rabs (IZR LN2Z - SR * ln 2) <= 3 / 4.
Proof.
  pose proof ln2_bound as B. pose proof LN2Z_check as C. rewrite W520_SR in B.
  assert (D : Rabs (IZR (LN2S - LN2Z * 2 ^ 28)) <= IZR (3 * 2 ^ 26 - 922)) by (apply Rabs_IZR_le; lia).
  rewrite minus_IZR, mult_IZR in D. replace (IZR (2 ^ 28)) with 268435456 in D by reflexivity.
  replace (IZR (3 * 2 ^ 26 - 922)) with (3 * 67108864 - 922) in D by (rewrite minus_IZR, mult_IZR; reflexivity).
  set (a := IZR LN2S) in *. set (b := IZR LN2Z) in *. clearbody a b. clear C.
  apply rabs_inv in B. apply rabs_inv in D. apply Rabs_le. lra.
Qed.

(** c * S / W520 <= bound, by integers *)
Lemma const_real c s l e b : (0 <= c)%Z -> Rabs (IZR W520 * l - IZR s) <= IZR e ->
  (b * (Z.abs (c * s - 2 ^ 492 * W520) + c * e) <= W520)%Z -> (0 < b)%Z ->
  Rabs (IZR c * l - SR) <= / IZR b.
Proof.
  intros Hc H HZ Hb.
  assert (HW : 0 < IZR W520) by (apply (IZR_lt 0); reflexivity).
  assert (D : Rabs (IZR (c * s - 2 ^ 492 * W520)) <= IZR (Z.abs (c * s - 2 ^ 492 * W520))) by (apply Rabs_IZR_le; lia).
  set (z := Z.abs (c * s - 2 ^ 492 * W520)) in *. clearbody z.
  rewrite minus_IZR, !mult_IZR in D. fold SR in D.
  apply IZR_le in HZ, Hc. apply IZR_lt in Hb. rewrite mult_IZR, plus_IZR, mult_IZR in HZ.
  set (W := IZR W520) in *. clearbody W. set (C := IZR c) in *. set (s' := IZR s) in *. set (e' := IZR e) in *.
  set (z' := IZR z) in *. set (b' := IZR b) in *. set (T := SR) in *. clearbody C s' e' z' b' T.
  assert (G : Rabs (W * (C * l - T)) <= z' + C * e').
  { replace (W * (C * l - T)) with (C * (W * l - s') + (C * s' - T * W)) by ring.
    eapply Rle_trans; [apply Rabs_triang|]. rewrite Rabs_mult, (Rabs_pos_eq C) by auto.
    apply (Rmult_le_compat_l C) in H; auto. lra. }
  rewrite Rabs_mult, (Rabs_pos_eq W) in G by lra.
  apply Rmult_le_reg_l with (W * b'); [nra|].
  replace (W * b' * / b') with W by (field; lra).
  apply (Rmult_le_compat_l b') in G; [|lra]. lra.
Qed.

Lemma L2E_real : Rabs (IZR L2EZ * ln 2 - SR) <= / 4.
Proof.
  apply (const_real L2EZ LN2S (ln 2) 922 4).
  - apply Z.leb_le. vm_compute. reflexivity.
  - exact ln2_bound.
  - apply Z.leb_le. vm_compute. reflexivity.
  - reflexivity.
Qed.
Lemma L10E_real : Rabs (IZR L10EZ * ln 10 - SR) <= / 1.
Proof.
  apply (const_real L10EZ LN10S (ln 10) 3027 1).
  - apply Z.leb_le. vm_compute. reflexivity.
  - exact ln10_bound.
  - apply Z.leb_le. vm_compute. reflexivity.
  - reflexivity.
Qed.

Lemma ln2_num : 693 / 1000 < ln 2 < 694 / 1000.
Proof.
  pose proof ln2_bound as B. assert (HW : 0 < IZR W520) by (apply (IZR_lt 0); reflexivity).
  assert (C1 : (693 * W520 + 1000 * 922 < 1000 * LN2S)%Z) by (apply Z.ltb_lt; vm_compute; reflexivity).
  assert (C2 : (1000 * LN2S + 1000 * 922 < 694 * W520)%Z) by (apply Z.ltb_lt; vm_compute; reflexivity).
  apply IZR_lt in C1, C2. rewrite !plus_IZR, !mult_IZR in C1, C2.
  set (W := IZR W520) in *. set (s := IZR LN2S) in *. clearbody W s. apply rabs_inv in B. split; nra.
Qed.
Lemma ln10_num : 2302 / 1000 < ln 10 < 2303 / 1000.
Proof.
  pose proof ln10_bound as B. assert (HW : 0 < IZR W520) by (apply (IZR_lt 0); reflexivity).
  assert (C1 : (2302 * W520 + 1000 * 3027 < 1000 * LN10S)%Z) by (apply Z.ltb_lt; vm_compute; reflexivity).
  assert (C2 : (1000 * LN10S + 1000 * 3027 < 2303 * W520)%Z) by (apply Z.ltb_lt; vm_compute; reflexivity).
  apply IZR_lt in C1, C2. rewrite !plus_IZR, !mult_IZR in C1, C2.
  set (W := IZR W520) in *. set (s := IZR LN10S) in *. clearbody W s. apply rabs_inv in B. split; nra.
Qed.

(** ** The exact logarithm of an operand *)
Lemma ln_rval v : (0 <= v)%Z -> finb v = true -> zerob v = false -> sgn v = 0%Z ->
  0 < rval v /\ ln (rval v) = lnr (nm (mag v) * 2 ^ 256) + IZR (ne (mag v)) * ln 2.
Proof.
  intros Hv Hf Hz Hs. apply Z.ltb_lt in Hf. apply Z.eqb_neq in Hz.
  assert (Ha : (0 < mag v < INFm)%Z) by (unfold mag in *; pose proof (Z.mod_pos_bound v (2 ^ 255) ltac:(lia)); lia).
  destruct (sg_log _ Ha) as (L & N & Q & _). pose proof (sg_pos _ (proj1 Ha)) as Sp.
  assert (EU : IZR UNITe = 262378) by reflexivity. assert (U0 : (0 <= UNITe)%Z) by (unfold UNITe; lia).
  unfold rval, sval. rewrite Hs. rewrite mag_val_sg by lia. unfold nm, ne.
  set (a := sg (mag v)) in *. set (q := qe (mag v)) in *. set (U := UNITe) in *. set (l := Z.log2 a) in *. clearbody a q U l.
  replace ((1 - 2 * 0) * (a * 2 ^ q))%Z with (a * 2 ^ q)%Z by ring.
  assert (PU : 0 < IZR (2 ^ U)) by (apply (IZR_lt 0), pow2_pos; auto).
  assert (Pq : 0 < IZR (2 ^ q)) by (apply (IZR_lt 0), pow2_pos; lia).
  assert (Pa : 0 < IZR a) by (apply (IZR_lt 0); auto).
  assert (Pn : 0 < IZR (2 ^ (236 - l))) by (apply (IZR_lt 0), pow2_pos; lia).
  assert (P256 : 0 < IZR (2 ^ 256)) by (apply (IZR_lt 0), pow2_pos; lia).
  rewrite lnr_eq by lia. rewrite !mult_IZR. unfold Rdiv.
  split. { repeat apply Rmult_lt_0_compat; auto. apply Rinv_0_lt_compat; auto. }
  rewrite ln_mult, ln_Rinv, !ln_mult; auto; try (repeat apply Rmult_lt_0_compat; auto; fail).
  2: { apply Rinv_0_lt_compat; auto. }
  unfold SR. rewrite !ln_pow2 by lia. rewrite EU. rewrite !minus_IZR. ring.
Qed.

(** The value computed for ln, against 2^492 ln x *)
Lemma lnZ_real v : (0 <= v)%Z -> finb v = true -> zerob v = false -> sgn v = 0%Z ->
  Rabs (IZR (lnZ (mag v)) - SR * ln (rval v)) <= 1232 + 3 / 4 * Rabs (IZR (ne (mag v))).
Proof.
  intros Hv Hf Hz Hs. destruct (ln_rval v Hv Hf Hz Hs) as [_ ->].
  apply Z.ltb_lt in Hf. apply Z.eqb_neq in Hz.
  assert (Ha : (0 < mag v < INFm)%Z) by (unfold mag in *; pose proof (Z.mod_pos_bound v (2 ^ 255) ltac:(lia)); lia).
  destruct (sg_log _ Ha) as (L & N & Q & _).
  pose proof (feyn_real (nm (mag v) * 2 ^ 256) ltac:(lia)) as F. pose proof LN2_real as C.
  unfold lnZ. rewrite plus_IZR, mult_IZR. set (e := IZR (ne (mag v))) in *. set (b := IZR LN2Z) in *.
  set (f := IZR (feynZ _)) in *. set (g := lnr _) in *. clearbody e b f g. pose proof SR_pos. set (S := SR) in *. clearbody S.
  replace (e * b + f - S * (g + e * ln 2)) with ((f - S * g) + e * (b - S * ln 2)) by ring.
  eapply Rle_trans; [apply Rabs_triang|]. rewrite (Rabs_mult e). pose proof (Rabs_pos e). nra.
Qed.

(** The exact logarithm is zero for 1 only, and not small for others *)
Lemma lnr_range x : (2 ^ 492 <= x < 2 ^ 493)%Z -> 0 <= lnr x <= ln 2.
Proof.
  intros Hx. pose proof SR_pos as HS. rewrite lnr_eq by lia.
  assert (A : 0 < IZR x) by (apply (IZR_lt 0); lia). assert (B : SR <= IZR x) by (unfold SR; apply IZR_le; lia).
  assert (C : IZR x <= 2 * SR). { unfold SR. change 2 with (IZR 2). rewrite <- mult_IZR. apply IZR_le. lia. }
  split.
  - destruct B as [B| <-]; [apply ln_increasing in B; lra|lra].
  - replace (ln 2) with (ln (2 * SR) - ln SR) by (rewrite ln_mult; lra).
    destruct C as [C| ->]; [apply ln_increasing in C; lra|lra].
Qed.

Lemma T_lower v : (0 <= v)%Z -> finb v = true -> zerob v = false -> sgn v = 0%Z -> mag v <> ONEm ->
  (Z.abs (ne (mag v)) <= 1)%Z /\ IZR (2 ^ 255) <= Rabs (SR * ln (rval v))
  \/ SR / 2 <= Rabs (SR * ln (rval v)).
Proof.
  intros Hv Hf Hz Hs H1. destruct (ln_rval v Hv Hf Hz Hs) as [_ ->].
  apply Z.ltb_lt in Hf. apply Z.eqb_neq in Hz.
  assert (Ha : (0 < mag v < INFm)%Z) by (unfold mag in *; pose proof (Z.mod_pos_bound v (2 ^ 255) ltac:(lia)); lia).
  destruct (sg_log _ Ha) as (L & N & Q & _). pose proof (sg_qe (mag v) ltac:(lia)) as [EQ QC].
  assert (N0 : ne (mag v) = 0%Z -> nm (mag v) <> (2 ^ 236)%Z).
  { unfold ne, nm. intros E1 E2. apply H1. destruct QC as [QC|QC]; [lia|].
    pose proof (sg_bound (mag v) ltac:(lia)) as B.
    assert (E : Z.log2 (sg (mag v)) = 236%Z) by (apply Z.log2_unique; lia).
    rewrite E in *. change (236 - 236)%Z with 0%Z in *. change (2 ^ 0)%Z with 1%Z in *. rewrite EQ. unfold ONEm.
    replace (qe (mag v)) with 262142%Z by lia. lia. }
  set (e := ne (mag v)) in *. set (m := nm (mag v)) in *. clearbody e m. clear Ha Hz Hf Hs Hv H1 EQ QC L Q v.
  pose proof (lnr_range (m * 2 ^ 256) ltac:(lia)) as G. pose proof ln2_num as L2. pose proof SR_pos as HS.
  destruct (Z.lt_trichotomy e 0) as [He|[->|He]].
  - destruct (Z.eq_dec e (-1)) as [->|He1].
    + left. split; [lia|]. rewrite lnr_eq by lia.
      assert (Hx : (m * 2 ^ 256 + 2 ^ 256 <= 2 * 2 ^ 492)%Z) by lia.
      assert (A : 0 < IZR (m * 2 ^ 256)) by (apply (IZR_lt 0); lia).
      pose proof (ln_sub_le (2 * SR) (IZR (m * 2 ^ 256)) ltac:(lra) A) as U.
      apply IZR_le in Hx. rewrite plus_IZR, (mult_IZR 2) in Hx. fold SR in Hx.
      assert (E255 : IZR (2 ^ 256) = 2 * IZR (2 ^ 255)) by (rewrite <- mult_IZR; reflexivity).
      rewrite ln_mult in U by lra. rewrite E255 in Hx. set (x := IZR (m * 2 ^ 256)) in *. clearbody x.
      set (b := IZR (2 ^ 255)) in *. clearbody b. set (S := SR) in *. clearbody S.
      assert (U2 : S * ((x - 2 * S) / (2 * S)) <= - b) by (apply rdiv_le; nra).
      apply (Rmult_le_compat_l S) in U; [|lra].
      replace (S * (ln x - ln S + -1 * ln 2)) with (S * (ln x - (ln 2 + ln S))) by ring.
      rewrite <- Rabs_Ropp. eapply Rle_trans; [|apply Rle_abs]. lra.
    + right. assert (He2 : (e <= -2)%Z) by lia. apply IZR_le in He2.
      rewrite <- Rabs_Ropp. eapply Rle_trans; [|apply Rle_abs].
      assert (lnr (m * 2 ^ 256) + IZR e * ln 2 <= - (1 / 2)) by nra. nra.
  - left. split; [lia|]. rewrite lnr_eq by lia. specialize (N0 eq_refl).
    assert (Hx : (2 ^ 492 + 2 ^ 256 <= m * 2 ^ 256)%Z) by lia.
    assert (Hx2 : (m * 2 ^ 256 <= 2 * 2 ^ 492)%Z) by lia.
    assert (A : 0 < IZR (m * 2 ^ 256)) by (apply (IZR_lt 0); lia).
    pose proof (ln_sub_le (IZR (m * 2 ^ 256)) SR A ltac:(lra)) as U.
    apply IZR_le in Hx, Hx2. rewrite plus_IZR in Hx. rewrite (mult_IZR 2) in Hx2. fold SR in Hx, Hx2.
    assert (E255 : IZR (2 ^ 256) = 2 * IZR (2 ^ 255)) by (rewrite <- mult_IZR; reflexivity).
    assert (P255 : 0 < IZR (2 ^ 255)) by (apply (IZR_lt 0), pow2_pos; lia).
    rewrite E255 in Hx. set (x := IZR (m * 2 ^ 256)) in *. clearbody x.
    set (b := IZR (2 ^ 255)) in *. clearbody b. set (S := SR) in *. clearbody S.
    assert (U2 : S * ((S - x) / x) <= - b) by (apply rdiv_le; auto; nra).
    apply (Rmult_le_compat_l S) in U; [|lra].
    eapply Rle_trans; [|apply Rle_abs]. lra.
  - right. assert (He2 : (1 <= e)%Z) by lia. apply IZR_le in He2.
    eapply Rle_trans; [|apply Rle_abs]. assert (1 / 2 <= lnr (m * 2 ^ 256) + IZR e * ln 2) by nra. nra.
Qed.

Lemma ln_upper v : (0 <= v)%Z -> finb v = true -> zerob v = false -> sgn v = 0%Z ->
  Rabs (ln (rval v)) <= 694 / 1000 * (Rabs (IZR (ne (mag v))) + 1) /\ Rabs (IZR (ne (mag v))) <= 262378.
Proof.
  intros Hv Hf Hz Hs. destruct (ln_rval v Hv Hf Hz Hs) as [_ ->].
  apply Z.ltb_lt in Hf. apply Z.eqb_neq in Hz.
  assert (Ha : (0 < mag v < INFm)%Z) by (unfold mag in *; pose proof (Z.mod_pos_bound v (2 ^ 255) ltac:(lia)); lia).
  destruct (sg_log _ Ha) as (L & N & Q & E). split; [|apply Rabs_IZR_le; lia].
  pose proof (lnr_range (nm (mag v) * 2 ^ 256) ltac:(lia)) as G. pose proof ln2_num as L2.
  set (g := lnr _) in *. set (e := IZR (ne _)) in *. clearbody g e.
  eapply Rle_trans; [apply Rabs_triang|]. rewrite Rabs_mult, (Rabs_pos_eq g), (Rabs_pos_eq (ln 2)) by lra.
  pose proof (Rabs_pos e). nra.
Qed.

Lemma lnZ_range v : (0 <= v)%Z -> finb v = true -> zerob v = false -> sgn v = 0%Z -> (Z.abs (lnZ (mag v)) <= 200000 * 2 ^ 492)%Z.
Proof.
  intros Hv Hf Hz Hs. pose proof (lnZ_real v Hv Hf Hz Hs) as A. destruct (ln_upper v Hv Hf Hz Hs) as [B C].
  apply le_IZR. rewrite abs_IZR, mult_IZR. fold SR. pose proof (Rabs_triang_inv (IZR (lnZ (mag v))) (SR * ln (rval v))) as D.
  assert (HS : 1000000 <= SR) by (unfold SR; apply IZR_le; apply Z.leb_le; reflexivity).
  rewrite (Rabs_mult SR), (Rabs_pos_eq SR) in D by lra. nra.
Qed.

(** Multiplication by 1 / ln b *)
Lemma scale_real c V T lb k e err : (0 < c)%Z -> 0 < lb ->
  Rabs (IZR c * lb - SR) <= k -> Rabs (IZR V - SR * T) <= e -> IZR c * e <= err * SR ->
  Rabs (IZR (scaleZ c V) - SR * (T / lb)) <= 1 + err + Rabs T * (k / lb).
Proof.
  intros Hc Hlb Hk HV Herr. pose proof SR_pos as HS. apply IZR_lt in Hc.
  destruct (mulr_spec (Z.abs V * c)) as (M0 & M1 & M2). { apply Z.mul_nonneg_nonneg; [lia|]. apply Z.lt_le_incl, lt_IZR, Hc. }
  assert (A : Rabs (SR * IZR (scaleZ c V) - IZR V * IZR c) <= SR).
  { unfold SR. rewrite <- !mult_IZR, <- minus_IZR. apply Rabs_IZR_le. unfold scaleZ. clear - M1 M2.
    assert (E : (V * c = Z.sgn V * (Z.abs V * c))%Z) by (rewrite Z.mul_assoc, (Z.mul_comm (Z.sgn V)), Z.abs_sgn; reflexivity).
    rewrite E. set (p := (Z.abs V * c)%Z) in *. set (q := mulr p) in *. clearbody p q. clear E.
    destruct (Z.sgn_spec V) as [[H ->]|[[H ->]|[H ->]]]; lia. }
  set (r := IZR (scaleZ c V)) in *. clearbody r. set (w := IZR V) in *. clearbody w. set (C := IZR c) in *. clearbody C.
  clear M0 M1 M2.
  apply Rmult_le_reg_l with SR; [lra|]. rewrite <- (Rabs_pos_eq SR) at 1 by lra. rewrite <- Rabs_mult.
  replace (SR * (r - SR * (T / lb))) with ((SR * r - w * C) + C * (w - SR * T) + SR * (T / lb * (C * lb - SR))) by (field; lra).
  eapply Rle_trans; [apply Rabs_triang|]. eapply Rle_trans; [apply Rplus_le_compat_r, Rabs_triang|].
  rewrite (Rabs_mult C), (Rabs_pos_eq C), (Rabs_mult SR), (Rabs_pos_eq SR), (Rabs_mult (T / lb)) by lra.
  replace (Rabs (T / lb)) with (Rabs T / lb) by (unfold Rdiv; rewrite Rabs_mult, (Rabs_pos_eq (/ lb)); auto; left; apply Rinv_0_lt_compat; auto).
  assert (B1 : C * Rabs (w - SR * T) <= err * SR) by (apply (Rmult_le_compat_l C) in HV; lra).
  assert (B2 : Rabs T / lb * Rabs (C * lb - SR) <= Rabs T * (k / lb)).
  { replace (Rabs T * (k / lb)) with (Rabs T / lb * k) by (field; lra). apply Rmult_le_compat_l; auto.
    apply Rmult_le_pos; [apply Rabs_pos|left; apply Rinv_0_lt_compat; auto]. }
  apply (Rmult_le_compat_l SR) in B2; lra.
Qed.

Lemma log2_err v : (0 <= v)%Z -> finb v = true -> zerob v = false -> sgn v = 0%Z ->
  Rabs (IZR (scaleZ L2EZ (lnZ (mag v))) - SR * log_b 2 (rval v)) <= 1780 + 2 * Rabs (IZR (ne (mag v))).
Proof.
  intros Hv Hf Hz Hs. pose proof (lnZ_real v Hv Hf Hz Hs) as A. destruct (ln_upper v Hv Hf Hz Hs) as [B C].
  pose proof ln2_num as L2. unfold log_b. set (T := ln (rval v)) in *. clearbody T. set (n := Rabs (IZR (ne _))) in *. assert (0 <= n) by apply Rabs_pos. clearbody n.
  eapply Rle_trans.
  - apply (scale_real L2EZ (lnZ (mag v)) T (ln 2) (/ 4) (1232 + 3 / 4 * n) (14427 / 10000 * (1232 + 3 / 4 * n))); try exact A; try exact L2E_real; [reflexivity|lra|].
    assert (D : (10000 * L2EZ <= 14427 * 2 ^ 492)%Z) by (apply Z.leb_le; vm_compute; reflexivity).
    apply IZR_le in D. rewrite !mult_IZR in D. fold SR in D. set (c := IZR L2EZ) in *. clearbody c. nra.
  - assert (/ 4 / ln 2 <= 37 / 100). { apply Rmult_le_reg_r with (ln 2); [lra|]. replace (/ 4 / ln 2 * ln 2) with (/ 4) by (field; lra). lra. }
    assert (Rabs T * (/ 4 / ln 2) <= Rabs T * (37 / 100)) by (apply Rmult_le_compat_l; auto; apply Rabs_pos). lra.
Qed.

Lemma log10_err v : (0 <= v)%Z -> finb v = true -> zerob v = false -> sgn v = 0%Z ->
  Rabs (IZR (scaleZ L10EZ (lnZ (mag v))) - SR * log_b 10 (rval v)) <= 537 + Rabs (IZR (ne (mag v))).
Proof.
  intros Hv Hf Hz Hs. pose proof (lnZ_real v Hv Hf Hz Hs) as A. destruct (ln_upper v Hv Hf Hz Hs) as [B C].
  pose proof ln10_num as L2. unfold log_b. set (T := ln (rval v)) in *. clearbody T. set (n := Rabs (IZR (ne _))) in *. assert (0 <= n) by apply Rabs_pos. clearbody n.
  eapply Rle_trans.
  - apply (scale_real L10EZ (lnZ (mag v)) T (ln 10) (/ 1) (1232 + 3 / 4 * n) (4343 / 10000 * (1232 + 3 / 4 * n))); try exact A; try exact L10E_real; [reflexivity|lra|].
    assert (D : (10000 * L10EZ <= 4343 * 2 ^ 492)%Z) by (apply Z.leb_le; vm_compute; reflexivity).
    apply IZR_le in D. rewrite !mult_IZR in D. fold SR in D. set (c := IZR L10EZ) in *. clearbody c. nra.
  - assert (/ 1 / ln 10 <= 44 / 100). { apply Rmult_le_reg_r with (ln 10); [lra|]. replace (/ 1 / ln 10 * ln 10) with 1 by (field; lra). lra. }
    assert (Rabs T * (/ 1 / ln 10) <= Rabs T * (44 / 100)) by (apply Rmult_le_compat_l; auto; apply Rabs_pos). lra.
Qed.

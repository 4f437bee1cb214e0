(** * LogRound: rounding of fixed point numbers to binary256 *)

From Coq Require Import ZArith Lia Bool Reals Lra List.
From Verif Require Import Base BigUInt ZLemmas BigLaws BigUIntProofs BigExtra Spec SpecFns F256 Arith SpecLemmas
  F256Lemmas BasicProofs CodecProofs SosProofs SpecDeg SpecLog LogTable Log FpProofs LogProofs LnBound LogReal LogUlp.
Open Scope Z_scope.

Lemma conv k A L : k = 261886 -> 2 ^ L <= A < 2 ^ (L + 1) -> 236 <= L < 511 ->
  exists m, 2 ^ 236 <= m <= 2 ^ 237 /\ 0 < rnd_mag (A * 2 ^ k) 1 < INFm
    /\ mag_val (rnd_mag (A * 2 ^ k) 1) = m * (2 ^ (L - 236) * 2 ^ k)
    /\ 2 ^ (L - 236) * 2 ^ k <= ulp_units (rnd_mag (A * 2 ^ k) 1)
    /\ - 2 ^ (L - 236) <= 2 * A - 2 * 2 ^ (L - 236) * m <= 2 ^ (L - 236).
Proof.
  intros Hk HA HL. assert (HA0 : 0 < A) by (pose proof (pow2_pos L ltac:(lia)); lia).
  rewrite (fp_rnd k A L Hk HA0 HA ltac:(lia)). rewrite (leb_true 236 L) by lia.
  pose proof (pow2_pos (L - 236) ltac:(lia)) as PD.
  pose proof (rne_div_spec A (2 ^ (L - 236)) PD) as (B & _ & _).
  assert (P1 : 2 ^ L = 2 ^ 236 * 2 ^ (L - 236)) by (rewrite <- pow2_add by lia; f_equal; lia).
  assert (P2 : 2 ^ (L + 1) = 2 ^ 237 * 2 ^ (L - 236)) by (rewrite <- pow2_add by lia; f_equal; lia).
  assert (M1 : 2 ^ 236 <= rne_div A (2 ^ (L - 236))) by (apply rne_div_ge_bound; lia).
  assert (M2 : rne_div A (2 ^ (L - 236)) <= 2 ^ 237) by (apply rne_div_le_bound; lia).
  assert (PE : 2 ^ (L - 236) * 2 ^ k = 2 ^ (L + 261650)) by (rewrite <- pow2_add by lia; f_equal; lia).
  rewrite PE. clear PE. set (m := rne_div A (2 ^ (L - 236))) in *. clearbody m. set (D := 2 ^ (L - 236)) in *. clearbody D.
  clear P1 P2 HA HA0. exists m. rewrite Z.min_r by (unfold INFm; lia).
  assert (HE : 0 <= L + 261650) by lia. assert (HE2 : L + 261650 < 262161) by lia. set (E := L + 261650) in *. clearbody E. clear HL L Hk k.
  split; [lia|]. split; [unfold INFm; lia|].
  assert (PS : 2 ^ (E + 1) = 2 * 2 ^ E) by (rewrite pow2_S by lia; reflexivity).
  pose proof (pow2_pos E HE) as PE.
  assert (V : forall m, 2 ^ 236 <= m <= 2 ^ 237 -> mag_val (E * 2 ^ 236 + m) = m * 2 ^ E).
  { clear - HE PS. intros m Hm. destruct (Z.eq_dec m (2 ^ 237)) as [->|N]; [|apply mag_val_signif; lia].
    replace (E * 2 ^ 236 + 2 ^ 237) with ((E + 1) * 2 ^ 236 + 2 ^ 236) by lia. rewrite mag_val_signif by lia. rewrite PS.
    change (2 ^ 237) with (2 ^ 236 * 2). ring. }
  rewrite V by lia. split; [ring|]. split; [|lia]. unfold ulp_units. rewrite (V m) by lia.
  destruct (Z.eq_dec m (2 ^ 237)) as [->|N].
  - replace (E * 2 ^ 236 + 2 ^ 237 + 1) with ((E + 1) * 2 ^ 236 + (2 ^ 236 + 1)) by lia. rewrite mag_val_signif by lia.
    rewrite PS. set (p := 2 ^ E) in *. clearbody p. lia.
  - rewrite <- Z.add_assoc. rewrite (V (m + 1)) by lia. set (p := 2 ^ E) in *. clearbody p. lia.
Qed.

(** The conversion of a signed fixed point number *)
Lemma conv_signed V U : U = UNITe -> 2 ^ 236 <= Z.abs V < 2 ^ 511 ->
  exists L m, 236 <= L < 511 /\ 2 ^ L <= Z.abs V < 2 ^ (L + 1) /\ 2 ^ 236 <= m <= 2 ^ 237
    /\ let r := rnd_signed 0 (V * 2 ^ (U - 492)) 1 in
       finb r = true /\ sgn r = (if V <? 0 then 1 else 0)
       /\ sval r = Z.sgn V * (m * (2 ^ (L - 236) * 2 ^ (U - 492)))
       /\ 2 ^ (L - 236) * 2 ^ (U - 492) <= ulp_units (mag r)
       /\ - 2 ^ (L - 236) <= 2 * Z.abs V - 2 * 2 ^ (L - 236) * m <= 2 ^ (L - 236).
Proof.
  intros HU HV. assert (Hk : U - 492 = 261886) by (rewrite HU; unfold UNITe; lia). set (k := U - 492) in *. clearbody k. clear HU U.
  assert (HV0 : 0 < Z.abs V) by lia. pose proof (Z.log2_spec _ HV0) as HL. rewrite <- Z.add_1_r in HL.
  assert (HL1 : Z.log2 (Z.abs V) < 511) by (apply Z.log2_lt_pow2; lia).
  assert (HL2 : 236 <= Z.log2 (Z.abs V)) by (apply Z.log2_le_pow2; lia).
  set (L := Z.log2 (Z.abs V)) in *. clearbody L. destruct (conv k _ L Hk HL ltac:(lia)) as (m & Hm & R1 & R2 & R3 & R4).
  exists L, m. split; [lia|]. split; [auto|]. split; [auto|]. cbv zeta. unfold rnd_signed.
  pose proof (pow2_pos k ltac:(lia)) as PK.
  assert (EA : Z.abs (V * 2 ^ k) = Z.abs V * 2 ^ k) by (rewrite Z.abs_mul, (Z.abs_eq (2 ^ k)) by lia; reflexivity).
  rewrite EA. assert (N0 : (V * 2 ^ k =? 0) = false). { apply Z.eqb_neq. intros E. apply Z.mul_eq_0 in E. lia. }
  rewrite N0. assert (EL : (V * 2 ^ k <? 0) = (V <? 0)).
  { destruct (Z.ltb_spec V 0) as [N|N]; [apply Z.ltb_lt; apply Z.mul_neg_pos; lia|apply Z.ltb_ge; apply Z.mul_nonneg_nonneg; lia]. }
  rewrite EL. set (a := rnd_mag (Z.abs V * 2 ^ k) 1) in *. clearbody a. assert (HI : INFm < 2 ^ 255) by reflexivity.
  unfold finb, sval. rewrite mag_mkf, sgn_mkf by lia. rewrite R2.
  split; [apply Z.ltb_lt; lia|]. split; [auto|]. split; [|auto].
  set (w := m * (2 ^ (L - 236) * 2 ^ k)) in *. clearbody w.
  destruct (Z.ltb_spec V 0); [rewrite Z.sgn_neg by lia|rewrite Z.sgn_pos by lia]; ring.
Qed.

Open Scope R_scope.

Lemma within_intro U n d y r : U = UNITe -> finb r = true ->
  Rabs (IZR (sval r) / IZR (2 ^ U) - y) <= IZR n / IZR d * (IZR (ulp_units (mag r)) / IZR (2 ^ U)) -> within_ulp n d y r.
Proof. intros -> F H. split; [exact F|exact H]. Qed.

Lemma unit_split U : (492 <= U)%Z -> IZR (2 ^ U) = IZR (2 ^ (U - 492)) * SR.
Proof.
  intros H. unfold SR. rewrite <- mult_IZR, <- pow2_add by lia. f_equal. f_equal. lia.
Qed.

Lemma abs_sgn_R V : IZR V = IZR (Z.sgn V) * IZR (Z.abs V).
Proof. rewrite <- mult_IZR. f_equal. rewrite Z.mul_comm. symmetry. apply Z.abs_sgn. Qed.

Lemma final V T m U : U = UNITe -> (0 <= m)%Z -> (2 ^ (m + 236) <= Z.abs V < 2 ^ 511)%Z -> Rabs (IZR V - SR * T) * 128 <= IZR (2 ^ m) ->
  within_ulp 65 128 T (rnd_signed 0 (V * 2 ^ (U - 492)) 1).
Proof.
  intros HU Hm HV HT.
  assert (H236 : (2 ^ 236 <= 2 ^ (m + 236))%Z) by (apply pow2_le; lia).
  destruct (conv_signed V U HU ltac:(lia)) as (L & q & HL & HA & Hq & F & _ & SV & UL & ER). cbv zeta in *.
  assert (HmL : (2 ^ m <= 2 ^ (L - 236))%Z).
  { apply pow2_le. assert (m + 236 < L + 1)%Z; [|lia]. apply (Z.pow_lt_mono_r_iff 2); lia. }
  apply (within_intro U); auto. rewrite SV. clear SV F H236.
  set (r := rnd_signed _ _ _) in *. clearbody r. assert (HU0 : (492 <= U)%Z) by (rewrite HU; unfold UNITe; lia). clear HU.
  rewrite (unit_split U HU0).
  assert (HU : (0 <= U - 492)%Z) by lia. set (k := (U - 492)%Z) in *. clearbody k.
  assert (PK : 0 < IZR (2 ^ k)) by (apply (IZR_lt 0), pow2_pos; auto).
  assert (PD : 0 < IZR (2 ^ (L - 236))) by (apply (IZR_lt 0), pow2_pos; lia).
  pose proof SR_pos as HS. rewrite (abs_sgn_R V) in HT.
  destruct ER as [ER1 ER2]. apply IZR_le in ER1, ER2, UL, HmL. rewrite opp_IZR, minus_IZR, !mult_IZR in ER1. rewrite minus_IZR, !mult_IZR in ER2.
  rewrite mult_IZR in UL. rewrite !mult_IZR.
  assert (SG : IZR (Z.sgn V) = 1 \/ IZR (Z.sgn V) = -1).
  { destruct (Z.sgn_spec V) as [[H ->]|[[H ->]|[H ->]]]; auto. exfalso. subst V. cbn [Z.abs] in HV. pose proof (pow2_pos (m + 236) ltac:(lia)). lia. }
  set (K := IZR (2 ^ k)) in *. set (D := IZR (2 ^ (L - 236))) in *. set (A := IZR (Z.abs V)) in *. set (s := IZR (Z.sgn V)) in *.
  set (Q := IZR q) in *. set (u := IZR (ulp_units (mag r))) in *. set (Mm := IZR (2 ^ m)) in *. set (S := SR) in *. clearbody K D A s Q u Mm S.
  clear - PK PD HS SG HT ER1 ER2 UL HmL.
  replace (s * (Q * (D * K)) / (K * S) - T) with ((s * (Q * D) - S * T) * / S) by (field; lra).
  rewrite Rabs_mult, (Rabs_pos_eq (/ S)) by (left; apply Rinv_0_lt_compat; lra).
  replace (65 / 128 * (u / (K * S))) with (65 / 128 * (u * / K) * / S) by (field; lra).
  apply Rmult_le_compat_r; [left; apply Rinv_0_lt_compat; lra|].
  assert (UD : D <= u * / K). { apply Rmult_le_reg_r with K; auto. rewrite Rmult_assoc, Rinv_l by lra. lra. }
  assert (X : Rabs (s * (Q * D) - S * T) <= 65 / 128 * D); [|lra].
  assert (HT' : Rabs (s * A - S * T) <= D / 128) by lra. apply rabs_inv in HT'. apply Rabs_le. destruct SG as [-> | ->]; lra.
Qed.

(** Integral logarithms are exact. *)
Lemma final_exact V j U : U = UNITe -> (Z.abs V < 2 ^ 511)%Z -> j <> 0%Z -> Rabs (IZR V - SR * IZR j) <= IZR (2 ^ 20) ->
  finb (rnd_signed 0 (V * 2 ^ (U - 492)) 1) = true /\ sval (rnd_signed 0 (V * 2 ^ (U - 492)) 1) = (j * 2 ^ U)%Z.
Proof.
  intros HU0 HV Hj H. unfold SR in H. rewrite <- mult_IZR, <- minus_IZR, <- abs_IZR in H. apply le_IZR in H.
  destruct (conv_signed V U HU0 ltac:(lia)) as (L & q & HL & HA & Hq & F & _ & SV & _ & ER). cbv zeta in *.
  split; auto. rewrite SV. clear SV F.
  assert (HU : (492 <= U)%Z) by (rewrite HU0; unfold UNITe; lia). clear HU0.
  assert (PU : (2 ^ U = 2 ^ 492 * 2 ^ (U - 492))%Z) by (rewrite <- pow2_add by lia; f_equal; lia).
  rewrite PU. set (K := (2 ^ (U - 492))%Z) in *. clearbody K.
  assert (HL1 : (491 <= L)%Z). { destruct (Z.le_gt_cases 491 L); auto. assert (2 ^ (L + 1) <= 2 ^ 491)%Z by (apply pow2_le; lia). lia. }
  assert (PD : (2 ^ 255 <= 2 ^ (L - 236))%Z) by (apply pow2_le; lia).
  assert (PS : (2 ^ 492 = 2 ^ (728 - L) * 2 ^ (L - 236))%Z) by (rewrite <- pow2_add by lia; f_equal; lia).
  pose proof (pow2_pos (728 - L) ltac:(lia)) as PC.
  assert (EQ : (Z.sgn V * (q * 2 ^ (L - 236)) = j * 2 ^ 492)%Z).
  { rewrite PS in *. set (C := (2 ^ (728 - L))%Z) in *. set (D := (2 ^ (L - 236))%Z) in *. clearbody C D.
    assert (S1 : (Z.abs (Z.sgn V * q * D - j * C * D) < D)%Z).
    { replace (Z.sgn V * q * D - j * C * D)%Z with (Z.sgn V * (q * D - Z.abs V) + (V - C * D * j))%Z.
      2: { rewrite Z.mul_sub_distr_l, (Z.mul_comm (Z.sgn V) (Z.abs V)), Z.abs_sgn. ring. }
      eapply Z.le_lt_trans; [apply Z.abs_triangle|]. rewrite Z.abs_mul.
      assert (Z.abs (Z.sgn V) <= 1)%Z by lia. set (X := Z.abs (q * D - Z.abs V)) in *.
      assert (2 * X <= D)%Z by lia. assert (0 <= X)%Z by lia. clearbody X. nia. }
    rewrite <- Z.mul_sub_distr_r in S1. rewrite Z.abs_mul, (Z.abs_eq D) in S1 by lia.
    assert (Z.abs (Z.sgn V * q - j * C) < 1)%Z by (apply (Z.mul_lt_mono_pos_r D); lia). assert (Z.sgn V * q = j * C)%Z by lia.
    rewrite !Z.mul_assoc. congruence. }
  transitivity (Z.sgn V * (q * 2 ^ (L - 236)) * K)%Z; [ring|]. rewrite EQ. ring.
Qed.

Lemma feyn_one : lnZ ONEm = 0%Z. Proof. vm_compute. reflexivity. Qed.
Lemma pow_255 : IZR (2 ^ 255) = 2 * IZR (2 ^ 254). Proof. rewrite <- mult_IZR. reflexivity. Qed.
Lemma pow_490 : SR = 4 * IZR (2 ^ 490). Proof. unfold SR. rewrite <- mult_IZR. reflexivity. Qed.

Section Results.
Variables (v : Z) (Hv : (0 <= v)%Z) (Hf : finb v = true) (Hz : zerob v = false) (Hs : sgn v = 0%Z).
Let e := Rabs (IZR (ne (mag v))).

Lemma rval_one : mag v = ONEm -> ln (rval v) = 0.
Proof.
  intros E. destruct (ln_rval v Hv Hf Hz Hs) as [_ ->]. rewrite E.
  replace (ne ONEm) with 0%Z by (vm_compute; reflexivity).
  replace (nm ONEm * 2 ^ 256)%Z with (2 ^ 492)%Z by (vm_compute; reflexivity).
  unfold lnr. fold SR. pose proof SR_pos. replace (SR / SR) with 1 by (field; lra). rewrite ln_1. ring.
Qed.


(** Multiples of ln x *)
Lemma ulp_case V T h : (mag v = ONEm -> V = 0%Z) -> T = ln (rval v) * h -> 1 / 4 <= h <= 3 / 2 ->
  Rabs (IZR V - SR * T) <= 1780 + 2 * e -> (h < 1 -> 2 / 5 <= h /\ Rabs (IZR V - SR * T) <= 537 + e) ->
  within_ulp 65 128 T (rnd_signed 0 (V * 2 ^ (UNITe - 492)) 1)
  /\ (forall j, T = IZR j -> finb (rnd_signed 0 (V * 2 ^ (UNITe - 492)) 1) = true
       /\ sval (rnd_signed 0 (V * 2 ^ (UNITe - 492)) 1) = (j * 2 ^ UNITe)%Z)
  /\ (mag v = ONEm -> rnd_signed 0 (V * 2 ^ (UNITe - 492)) 1 = 0%Z).
Proof.
  intros HV HT Hh HE HE2. destruct (Z.eq_dec (mag v) ONEm) as [E|N].
  - rewrite (HV E). rewrite Z.mul_0_l. replace (rnd_signed 0 0 1) with 0%Z by reflexivity.
    rewrite (rval_one E), Rmult_0_l in HT. subst T. split; [|split; [|reflexivity]].
    + split; [reflexivity|]. unfold rval. replace (sval 0) with 0%Z by reflexivity. unfold rulp.
      replace (ulp_units (mag 0)) with 1%Z by reflexivity. unfold Rdiv at 1. rewrite Rmult_0_l, Rminus_0_r, Rabs_R0.
      assert (P : 0 < IZR (2 ^ UNITe)). { apply (IZR_lt 0). assert (0 <= UNITe)%Z by (unfold UNITe; lia). set (u := UNITe) in *. clearbody u. apply pow2_pos; auto. }
      set (u := IZR (2 ^ UNITe)) in *. clearbody u. assert (0 < 1 / u) by (apply Rdiv_lt_0_compat; lra). lra.
    + intros j Hj. apply eq_IZR in Hj. subst j. split; reflexivity.
  - remember UNITe as U eqn:HU.
    destruct (ln_upper v Hv Hf Hz Hs) as [U1 U2]. fold e in U1, U2. pose proof (T_lower v Hv Hf Hz Hs N) as TL.
    pose proof SR_pos as HS. pose proof pow_255 as P255. pose proof pow_490 as P490.
    assert (PB : IZR (2 ^ 490) >= IZR (2 ^ 300)) by (apply Rle_ge, IZR_le; apply Z.leb_le; reflexivity).
    assert (P300 : IZR (2 ^ 300) = 137438953472 * IZR (2 ^ 263)) by (rewrite <- mult_IZR; reflexivity).
    assert (P263 : IZR (2 ^ 263) = 512 * IZR (2 ^ 254)) by (rewrite <- mult_IZR; reflexivity).
    assert (P254 : IZR (2 ^ 254) = 2 * IZR (2 ^ 253)) by (rewrite <- mult_IZR; reflexivity).
    assert (P253 : 10000000 <= IZR (2 ^ 253)) by (apply IZR_le; apply Z.leb_le; reflexivity).
    assert (EP : 0 <= e) by apply Rabs_pos.
    assert (ET : Rabs (SR * T) = Rabs (SR * ln (rval v)) * h).
    { rewrite HT, <- Rmult_assoc, Rabs_mult, (Rabs_pos_eq h) by lra. reflexivity. }
    pose proof (Rabs_triang_inv (IZR V) (SR * T)) as D1. pose proof (Rabs_triang_inv (SR * T) (IZR V)) as D2.
    rewrite (Rabs_minus_sym (SR * T)) in D2.
    assert (VB : (Z.abs V < 2 ^ 511)%Z).
    { apply lt_IZR. rewrite abs_IZR.
      assert (P511 : IZR (2 ^ 511) = 524288 * SR) by (unfold SR; rewrite <- mult_IZR; reflexivity). rewrite P511.
      rewrite (Rabs_mult SR (ln _)), (Rabs_pos_eq SR) in ET by lra. 
      assert (Rabs (ln (rval v)) * h <= 694 / 1000 * (e + 1) * (3 / 2)) by (apply Rmult_le_compat; try lra; apply Rabs_pos).
      assert (Rabs (SR * T) <= SR * 280000) by (rewrite ET, Rmult_assoc; apply Rmult_le_compat_l; lra). lra. }
    split; [|split; [|intros; contradiction]].
    + destruct TL as [[TL1 TL2]|TL].
      * assert (EE : e <= 1) by (unfold e; apply (Rabs_IZR_le _ 1); auto).
        destruct (Rlt_le_dec h 1) as [Hh1|Hh1].
        -- destruct (HE2 Hh1) as [H25 HE3]. apply (final V T 17 U HU); [lia| |].
           ++ split; auto. apply le_IZR. rewrite abs_IZR. change (17 + 236)%Z with 253%Z.
              assert (IZR (2 ^ 255) * (2 / 5) <= Rabs (SR * ln (rval v)) * h) by (apply Rmult_le_compat; lra). lra.
           ++ replace (IZR (2 ^ 17)) with 131072 by reflexivity. lra.
        -- apply (final V T 18 U HU); [lia| |].
           ++ split; auto. apply le_IZR. rewrite abs_IZR. change (18 + 236)%Z with 254%Z.
              assert (IZR (2 ^ 255) * 1 <= Rabs (SR * ln (rval v)) * h) by (apply Rmult_le_compat; lra). lra.
           ++ replace (IZR (2 ^ 18)) with 262144 by reflexivity. lra.
      * apply (final V T 27 U HU); [lia| |].
        -- split; auto. apply le_IZR. rewrite abs_IZR. change (27 + 236)%Z with 263%Z.
           assert (SR / 2 * (1 / 4) <= Rabs (SR * ln (rval v)) * h) by (apply Rmult_le_compat; lra). lra.
        -- replace (IZR (2 ^ 27)) with 134217728 by reflexivity. lra.
    + intros j Hj. destruct (Z.eq_dec j 0) as [->|Nj].
      * exfalso. rewrite Hj, Rmult_0_r, Rabs_R0 in ET. assert (TP : 0 < Rabs (SR * ln (rval v))) by (destruct TL as [[_ TL]|TL]; lra).
        apply (Rmult_lt_compat_r h) in TP; lra.
      * apply final_exact; auto. rewrite <- Hj. replace (IZR (2 ^ 20)) with 1048576 by reflexivity. lra.
Qed.

Lemma lnZ_one : mag v = ONEm -> lnZ (mag v) = 0%Z.
Proof. intros ->. exact feyn_one. Qed.

Definition log_result (f : R -> R) (r : Z) : Prop :=
  within_ulp 65 128 (f (rval v)) r
  /\ (forall j, f (rval v) = IZR j -> finb r = true /\ sval r = (j * 2 ^ UNITe)%Z)
  /\ (mag v = ONEm -> r = 0%Z).

Lemma ln_result : log_result ln (rnd_signed 0 (lnZ (mag v) * 2 ^ (UNITe - 492)) 1).
Proof.
  apply (ulp_case _ _ 1); try lra; [exact lnZ_one|].
  pose proof (lnZ_real v Hv Hf Hz Hs) as H. fold e in H. assert (0 <= e) by apply Rabs_pos. lra.
Qed.

Lemma inv_num x a b : 0 < a -> 0 < b -> a < x < b -> / b <= 1 / x <= / a.
Proof.
  intros Ha Hb Hx. unfold Rdiv. rewrite Rmult_1_l. split; apply Rinv_le_contravar; lra.
Qed.

Lemma log2_result : log_result (log_b 2) (rnd_signed 0 (scaleZ L2EZ (lnZ (mag v)) * 2 ^ (UNITe - 492)) 1).
Proof.
  pose proof ln2_num as L2. pose proof (inv_num (ln 2) (693 / 1000) (694 / 1000) ltac:(lra) ltac:(lra) L2) as I2.
  apply (ulp_case _ _ (1 / ln 2)).
  - intros E. rewrite (lnZ_one E). reflexivity.
  - unfold log_b. field. lra.
  - lra.
  - exact (log2_err v Hv Hf Hz Hs).
  - intros. exfalso. lra.
Qed.

Lemma log10_result : log_result (log_b 10) (rnd_signed 0 (scaleZ L10EZ (lnZ (mag v)) * 2 ^ (UNITe - 492)) 1).
Proof.
  pose proof ln10_num as L2. pose proof (inv_num (ln 10) (2302 / 1000) (2303 / 1000) ltac:(lra) ltac:(lra) L2) as I2.
  pose proof (log10_err v Hv Hf Hz Hs) as H. fold e in H. assert (0 <= e) by apply Rabs_pos.
  apply (ulp_case _ _ (1 / ln 10)).
  - intros E. rewrite (lnZ_one E). reflexivity.
  - unfold log_b. field. lra.
  - lra.
  - lra.
  - intros. split; [lra|exact H].
Qed.
End Results.

(** * TrigFinal: sine, cosine and tangent as functions of data *)

From Coq Require Import ZArith Lia Bool Reals Lra List.
From Verif Require Import Base BigUInt ZLemmas BigLaws BigUIntProofs BigExtra Spec SpecFns F256 Arith Conv SpecLemmas SpecAlg
  F256Lemmas BasicProofs CodecProofs AddProofs IntProofs DivProofs SosProofs MiscProofs SpecDeg SpecLog LogTable Log FpProofs LogProofs LnBound LogReal LogUlp LogRound
  Interface LiftProofs LogFinal TrigTable Trig TrigPi TrigApprox TrigReduce TrigReal.
Import ListNotations.
Open Scope R_scope.

(** ** The multiples of pi / 2 *)
Lemma PIu_real : Rabs (IZR PIu - SR * PI) <= 1.
Proof.
  pose proof TrigPi.pi_bounds as [A B]. assert (E : IZR (2 ^ 518) = IZR (2 ^ 26) * SR) by (unfold SR; rewrite <- mult_IZR; reflexivity). rewrite E in *.
  assert (C1 : IZR (2 ^ 26) * (IZR PIu - 1) <= IZR TrigPi.PILO) by (rewrite <- minus_IZR, <- mult_IZR; apply IZR_le, Z.leb_le; vm_compute; reflexivity).
  assert (C2 : IZR TrigPi.PIHI <= IZR (2 ^ 26) * (IZR PIu + 1)) by (rewrite <- plus_IZR, <- mult_IZR; apply IZR_le, Z.leb_le; vm_compute; reflexivity).
  assert (PK : 0 < IZR (2 ^ 26)) by (apply IZR_lt; reflexivity). set (K := IZR (2 ^ 26)) in *. set (p := IZR PIu) in *. set (l := IZR TrigPi.PILO) in *. set (h := IZR TrigPi.PIHI) in *.
  clearbody K p l h. set (S := SR * PI). assert (A' : K * (p - 1) <= K * S) by (unfold S; lra). assert (B' : K * S <= K * (p + 1)) by (unfold S; lra).
  apply Rmult_le_reg_l in A', B'; auto. apply Rabs_le. lra.
Qed.
Lemma PI2u_real : Rabs (IZR PI2u - SR * (PI / 2)) <= 1.
Proof.
  assert (E : (PIu = 2 * PI2u)%Z) by (vm_compute; reflexivity). pose proof PIu_real as H. rewrite E, mult_IZR in H. apply rabs_inv in H. apply Rabs_le. lra.
Qed.

Lemma redc_real j : (0 <= j <= 5)%Z -> Rabs (IZR (redc j) - SR * (IZR j * (PI / 2))) <= 3 /\ (j = 0%Z -> redc j = 0%Z).
Proof.
  intros H. pose proof PIu_real as A. pose proof PI2u_real as B. apply rabs_inv in A, B.
  assert (HC : (j = 0 \/ j = 1 \/ j = 2 \/ j = 3 \/ j = 4 \/ j = 5)%Z) by lia.
  split; [|intros ->; reflexivity].
  destruct HC as [->|[->|[->|[->|[->| ->]]]]]; [change (redc 0) with 0%Z|change (redc 1) with PI2u|change (redc 2) with PIu|
    change (redc 3) with (PIu + PI2u)%Z|change (redc 4) with (2 * PIu)%Z|change (redc 5) with (2 * PIu + PI2u)%Z];
    rewrite ?plus_IZR, ?mult_IZR; apply Rabs_le; lra.
Qed.

(** The quadrants *)
Lemma quadrant j t : (0 <= j <= 5)%Z ->
  sin (t + IZR j * (PI / 2)) = (if (j mod 4 =? 0)%Z then sin t else if (j mod 4 =? 1)%Z then cos t else if (j mod 4 =? 2)%Z then - sin t else - cos t)
  /\ cos (t + IZR j * (PI / 2)) = (if (j mod 4 =? 0)%Z then cos t else if (j mod 4 =? 1)%Z then - sin t else if (j mod 4 =? 2)%Z then - cos t else sin t).
Proof.
  intros H. rewrite sin_plus, cos_plus.
  assert (HC : (j = 0 \/ j = 1 \/ j = 2 \/ j = 3 \/ j = 4 \/ j = 5)%Z) by lia.
  destruct HC as [->|[->|[->|[->|[->| ->]]]]].
  - rewrite Rmult_0_l, sin_0, cos_0. cbn [Z.modulo Z.div_eucl Z.eqb]. split; ring.
  - rewrite Rmult_1_l, sin_PI2, cos_PI2. change (1 mod 4)%Z with 1%Z. cbn [Z.eqb Pos.eqb]. split; ring.
  - replace (2 * (PI / 2)) with PI by field. rewrite sin_PI, cos_PI. change (2 mod 4)%Z with 2%Z. cbn [Z.eqb Pos.eqb]. split; ring.
  - rewrite sin_3PI2, cos_3PI2. change (3 mod 4)%Z with 3%Z. cbn [Z.eqb Pos.eqb]. split; ring.
  - replace (4 * (PI / 2)) with (2 * PI) by field. rewrite sin_2PI, cos_2PI. change (4 mod 4)%Z with 0%Z. cbn [Z.eqb Pos.eqb]. split; ring.
  - replace (5 * (PI / 2)) with (2 * PI + PI / 2) by field. rewrite (sin_plus (2 * PI)), (cos_plus (2 * PI)), sin_2PI, cos_2PI, sin_PI2, cos_PI2.
    change (5 mod 4)%Z with 1%Z. cbn [Z.eqb Pos.eqb]. split; ring.
Qed.

Section Fin.
Context {P : profile}.
Variable large : Z -> f256 -> option (Z * FP492).

(** What the code returns for a positive argument, before the sign is set *)
Definition good (T : R) (n : Z) (W : Z) : Prop := (Z.abs W < 2 ^ 493)%Z /\ within_ulp n 128 T (rnd_signed 0 (W * 2 ^ (UNITe - 492)) 1).

Lemma good_weak T n m W : (n <= m)%Z -> good T n W -> good T m W.
Proof. intros H [A B]. split; auto. apply (within_weak n); auto; [|lia]. apply rnd_signed_bound; auto. lia. Qed.

Lemma exact_rep a X k U : k = (U - 492)%Z -> (0 <= a < INFm)%Z -> mag_val a = (X * 2 ^ k)%Z -> sval (rnd_signed 0 (X * 2 ^ (U - 492)) 1) = (X * 2 ^ (U - 492))%Z.
Proof. intros <- Ha E. apply rnd_signed_rep; auto. exists a. split; auto. pose proof (mag_val_nonneg a ltac:(lia)). lia. Qed.

Lemma pos_case a X k : k = 261886%Z -> (0 < a < INFm)%Z -> mag_val a = (X * 2 ^ k)%Z -> (X < 2 ^ 495)%Z -> (2 ^ 236 <= X)%Z ->
  let x := IZR X / SR in
  exists q V, reduce large (of256 a) = Some (q, fpz V) /\ (0 <= q < 4)%Z /\ (Z.abs V <= BND)%Z /\ ((X < 2 ^ 491)%Z -> q = 0%Z) /\
  exists Ws Wc n, approx_sin (fpz V) = Some (fpz Ws) /\ approx_cos (fpz V) = Some (fpz Wc) /\
  (n <= 130)%Z /\ ((X < 2 ^ 491)%Z -> n = 65%Z) /\
  (if (q =? 0)%Z then good (sin x) n Ws /\ good (cos x) 65 Wc
   else if (q =? 1)%Z then good (sin x) 65 Wc /\ good (- cos x) n Ws
   else if (q =? 2)%Z then good (- sin x) n Ws /\ good (- cos x) 65 Wc
   else good (- sin x) 65 Wc /\ good (cos x) n Ws).
Proof.
  intros Hk Ha HX HB H236 x.
  destruct (reduce_ok large a X k Hk Ha HX HB) as (j & V & ER & Hj & HV & HVB & HJ). exists (j mod 4)%Z, V. split; [exact ER|].
  split; [apply Z.mod_pos_bound; lia|]. split; [exact HVB|]. split. { intros L. assert (j = 0)%Z as -> by lia. reflexivity. }
  pose proof SR_pos as HS. destruct (redc_real j Hj) as [RC RC0].
  set (t := x - IZR j * (PI / 2)). assert (Et : Rabs (IZR V - SR * t) <= 3).
  { rewrite HV, minus_IZR. unfold t, x. replace (IZR X - IZR (redc j) - SR * (IZR X / SR - IZR j * (PI / 2))) with (- (IZR (redc j) - SR * (IZR j * (PI / 2)))) by (field; lra).
    rewrite Rabs_Ropp. exact RC. }
  assert (Ex : x = t + IZR j * (PI / 2)) by (unfold t; ring).
  assert (HU : UNITe = UNITe) by reflexivity.
  assert (exists Ws n, approx_sin (fpz V) = Some (fpz Ws) /\ (n <= 130)%Z /\ ((X < 2 ^ 491)%Z -> n = 65%Z) /\ good (sin t) n Ws) as (Ws & n & Es & Hn & Hn2 & Gs).
  { destruct (Z.eq_dec j 0) as [J|J].
    - rewrite (RC0 J), Z.sub_0_r in HV. subst j V. unfold t. rewrite Rmult_0_l, Rminus_0_r.
      destruct (sin_exact X UNITe HU HVB ltac:(lia)) as (W & E1 & E2 & E3). { apply (exact_rep a X k); [rewrite Hk; reflexivity|lia|exact HX]. }
      exists W, 65%Z. split; [auto|]. split; [lia|]. split; [auto|]. split; auto.
    - destruct (HJ ltac:(lia)) as [HJ1 HJ2]. destruct (sin_gen V t UNITe HU HVB HJ2 Et) as (W & E1 & E2 & E3).
      exists W, 130%Z. split; [auto|]. split; [lia|]. split; [lia|]. split; auto. }
  destruct (cos_gen V t UNITe HU HVB Et) as (Wc & Ec & Bc & Gc0). assert (Gc : good (cos t) 65 Wc) by (split; auto). clear Gc0 Bc.
  exists Ws, Wc, n. do 4 (split; [assumption|]). destruct (quadrant j t Hj) as [QS QC]. rewrite Ex, QS, QC.
  destruct (j mod 4 =? 0)%Z; [split; auto|]. destruct (j mod 4 =? 1)%Z; [rewrite Ropp_involutive; split; auto|].
  destruct (j mod 4 =? 2)%Z; rewrite !Ropp_involutive; split; auto.
Qed.

(** Arguments whose significand does not end above 2^-492 *)
Lemma fp_of_small a : (0 < a < INFm)%Z -> (qe a < 261886)%Z -> exists V, fp_of_f256 (of256 a) = Some (fpz V) /\ (0 <= V < 2 ^ 236)%Z.
Proof.
  intros Ha HQ. assert (Ha1 : (0 <= a < INFm)%Z) by lia. assert (Ha2 : (0 <= a < 2 ^ 256)%Z) by (unfold INFm in Ha; lia).
  unfold fp_of_f256. rewrite lim_ok, bind_Some.
  pose proof (sg_bound a ltac:(lia)) as BS. destruct (sg_qe a ltac:(lia)) as [EA C]. pose proof (qe_nonneg a) as Q0.
  assert (HL : f_lt (of256 a) (of256 LIMv) = true).
  { unfold f_lt. rewrite partial_cmp_of by (auto; unfold LIMv; lia). unfold code_cmp.
    assert (HLv : (0 <= LIMv < INFm)%Z) by (unfold LIMv, INFm; lia).
    destruct (pos_fin a Ha1) as [_ ->]. destruct (pos_fin _ HLv) as [_ ->]. destruct (pos_mag a Ha1) as [_ ->]. cbn [orb Z.eqb andb].
    rewrite !pos_sval by auto. pose proof (mag_val_lt a LIMv ltac:(lia) ltac:(unfold LIMv; lia)) as ML.
    destruct (Z.compare_spec (mag_val a) (mag_val LIMv)) as [E|E|E]; auto; exfalso; lia. }
  rewrite HL, dassert_ok, bind_Some by auto. clear HL.
  rewrite split_enc_ok by (auto; apply pos_fin; auto). rewrite bind_Some. cbv beta iota. cbn [snd].
  destruct (pos_mag a Ha1) as [EM ES]. rewrite EM. rewrite is_sign_negative_of, ES by auto. change (0 =? 1)%Z with false. cbv iota.
  unfold FRACTION_BITS, FP_INT_BITS. change (19 + 1 - 512)%Z with (-492)%Z.
  replace (a =? 0)%Z with false by (symmetry; apply Z.eqb_neq; lia).
  set (s := sg a) in *. set (q := qe a) in *. clearbody s q.
  rewrite adds_ok by (change (32 - 1)%Z with 31%Z; lia). rewrite bind_Some. set (e := (q - 262378 + 236)%Z). assert (He : (e < -256)%Z) by (unfold e; lia). clearbody e.
  rewrite (Z.max_r e 0) by lia. change (castu 32 (Z.min 0 19)) with 0%Z.
  rewrite shl256s by lia. rewrite bind_Some. change uzero with (of256 0). rewrite of512_join by lia.
  set (sh := Z.abs (Z.min (Z.max e (-492)) 0)). assert (Hsh : (257 <= sh < 512)%Z) by (unfold sh; lia). clearbody sh.
  rewrite shr512 by lia. rewrite bind_Some. exists ((s * 2 ^ 0 * 2 ^ 256 + 0) / 2 ^ sh)%Z.
  assert (B : (0 <= (s * 2 ^ 0 * 2 ^ 256 + 0) / 2 ^ sh < 2 ^ 236)%Z).
  { apply div_bound; [apply pow2_pos; lia|]. split; [lia|]. apply Z.lt_le_trans with (2 ^ 236 * 2 ^ 257)%Z; [lia|].
    apply Z.mul_le_mono_nonneg_l; [lia|]. apply pow2_le; lia. }
  split; [|exact B]. rewrite fpz_pos by lia. reflexivity.
Qed.

Lemma tiny_reduce a : (0 < a < INFm)%Z -> (qe a < 261886)%Z -> exists V, reduce large (of256 a) = Some (0%Z, fpz V) /\ (0 <= V < 2 ^ 236)%Z.
Proof.
  intros Ha HQ. assert (Ha1 : (0 <= a < INFm)%Z) by lia. assert (Ha2 : (0 <= a < 2 ^ 256)%Z) by (unfold INFm in Ha; lia).
  destruct (fp_of_small a Ha HQ) as (V & E & B). exists V. split; [|exact B].
  unfold reduce. destruct (pos_fin a Ha1) as [Fa _]. destruct (pos_mag a Ha1) as [EM ES].
  rewrite is_finite_of, Fa, is_sign_positive_of, ES by auto. change (0 =? 0)%Z with true. rewrite dassert_ok, bind_Some by reflexivity.
  rewrite exponent_ok by auto. unfold zerob. rewrite EM. replace (a =? 0)%Z with false by (symmetry; apply Z.eqb_neq; lia). rewrite bind_Some.
  replace (qe a - 262142 <=? -2)%Z with true by (symmetry; apply Z.leb_le; lia). rewrite E. reflexivity.
Qed.

(** ** The real value of the argument *)
Lemma units_of v k : k = 261886%Z -> (0 <= v < 2 ^ 256)%Z -> finb v = true -> zerob v = false -> (k <= qe (mag v))%Z ->
  exists X, mag_val (mag v) = (X * 2 ^ k)%Z /\ (0 < mag v < INFm)%Z /\ rval v = (1 - 2 * IZR (sgn v)) * (IZR X / SR).
Proof.
  intros Hk Hv Hf Hz HQ. pose proof (mag_bound v) as B. unfold finb in Hf. apply Z.ltb_lt in Hf. unfold zerob in Hz. apply Z.eqb_neq in Hz.
  assert (Hk0 : (0 <= k)%Z) by lia. assert (HU : (UNITe - 492 = k)%Z) by (rewrite Hk; reflexivity). clear Hk.
  exists (sg (mag v) * 2 ^ (qe (mag v) - k))%Z. assert (Ha : (0 < mag v < INFm)%Z) by lia.
  assert (E : mag_val (mag v) = (sg (mag v) * 2 ^ (qe (mag v) - k) * 2 ^ k)%Z).
  { rewrite mag_val_sg by lia. rewrite <- Z.mul_assoc, <- pow2_add by lia. do 2 f_equal. lia. }
  split; [exact E|]. split; [exact Ha|]. clear Ha. unfold rval, sval. rewrite E. set (X := (sg (mag v) * _)%Z). clearbody X. clear E.
  rewrite (unit_split UNITe) by (unfold UNITe; lia). rewrite HU. 
  rewrite !mult_IZR, minus_IZR, (mult_IZR 2). assert (0 < IZR (2 ^ k)) by (apply (IZR_lt 0), pow2_pos; auto). pose proof SR_pos. field. lra.
Qed.

Lemma rval_abs v : (0 <= v < 2 ^ 256)%Z -> Rabs (rval v) = IZR (mag_val (mag v)) / IZR (2 ^ UNITe).
Proof.
  intros Hv. unfold rval, Rdiv. assert (0 < IZR (2 ^ UNITe)) by (apply (IZR_lt 0), unit_pos).
  rewrite Rabs_mult, (Rabs_pos_eq (/ _)) by (left; apply Rinv_0_lt_compat; auto). rewrite <- abs_IZR, sval_abs by auto. reflexivity.
Qed.

Lemma sg01 v : (0 <= v < 2 ^ 256)%Z -> (sgn v = 0 \/ sgn v = 1)%Z. Proof. apply sgn01. Qed.

Lemma not_tiny v k : k = 261886%Z -> (0 <= v < 2 ^ 256)%Z -> / IZR (2 ^ 256) <= Rabs (rval v) -> (k <= qe (mag v))%Z.
Proof.
  intros EK Hv H. destruct (Z.le_gt_cases k (qe (mag v))) as [|N]; auto. exfalso. rewrite rval_abs in H by auto.
  pose proof (mag_bound v) as B. pose proof (sg_bound (mag v) ltac:(lia)) as BS. pose proof (qe_nonneg (mag v)) as Q0.
  rewrite mag_val_sg in H by lia. assert (HU : (UNITe - 492 = k)%Z) by (rewrite EK; reflexivity).
  rewrite (unit_split UNITe), HU in H by (unfold UNITe; lia). clear HU. set (s := sg (mag v)) in *. set (q := qe (mag v)) in *. clearbody s q.
  assert (L : (s * 2 ^ q * 2 ^ 256 < 2 ^ k * 2 ^ 492)%Z).
  { assert (PB : (2 ^ q <= 2 ^ (k - 1))%Z) by (apply pow2_le; lia). assert (E : (2 ^ k = 2 * 2 ^ (k - 1))%Z) by (rewrite <- (pow2_add 1) by lia; f_equal; lia).
    rewrite E. pose proof (pow2_pos q Q0). set (a := (2 ^ q)%Z) in *. set (b := (2 ^ (k - 1))%Z) in *. clearbody a b.
    assert (s * a <= (2 ^ 237 - 1) * b)%Z by (apply Z.mul_le_mono_nonneg; lia). lia. }
  apply IZR_lt in L. rewrite !mult_IZR in L. fold SR in L. rewrite mult_IZR in H.
  assert (P1 : 0 < IZR (2 ^ 256)) by (apply IZR_lt; reflexivity). assert (P2 : 0 < IZR (2 ^ k)) by (apply (IZR_lt 0), pow2_pos; lia). pose proof SR_pos as HS.
  set (A := IZR s * IZR (2 ^ q)) in *. set (b := IZR (2 ^ 256)) in *. set (K := IZR (2 ^ k)) in *. clearbody A b K.
  apply (Rmult_le_compat_r (b * (K * SR))) in H; [|apply Rmult_le_pos; [lra|apply Rmult_le_pos; lra]].
  replace (/ b * (b * (K * SR))) with (K * SR) in H by (field; lra). replace (A / (K * SR) * (b * (K * SR))) with (A * b) in H by (field; lra). lra.
Qed.

Lemma units_bound v X : (0 <= v < 2 ^ 256)%Z -> (0 <= X)%Z -> rval v = (1 - 2 * IZR (sgn v)) * (IZR X / SR) -> Rabs (rval v) = IZR X / SR.
Proof.
  intros Hv HX E. rewrite E, Rabs_mult. pose proof SR_pos. assert (0 <= IZR X / SR) by (apply Rmult_le_pos; [apply (IZR_le 0); auto|left; apply Rinv_0_lt_compat; lra]).
  rewrite (Rabs_pos_eq (IZR X / SR)) by auto. destruct (sg01 v Hv) as [-> | ->]; [replace (1 - 2 * 0) with 1 by ring; rewrite Rabs_R1|replace (1 - 2 * 1) with (- (1)) by ring; rewrite Rabs_Ropp, Rabs_R1]; ring.
Qed.

Lemma SR_scale X c n : c = n -> IZR X / SR < IZR c -> (X < n * 2 ^ 492)%Z.
Proof.
  intros -> H. pose proof SR_pos. apply lt_IZR. rewrite mult_IZR. fold SR. apply (Rmult_lt_compat_r SR) in H; [|lra].
  unfold Rdiv in H. rewrite Rmult_assoc, Rinv_l in H by lra. lra.
Qed.

Lemma X_ge a X k : k = 261886%Z -> (0 < a < INFm)%Z -> (k <= qe a)%Z -> mag_val a = (X * 2 ^ k)%Z -> (2 ^ 236 <= X)%Z.
Proof.
  intros EK Ha HQ E. rewrite mag_val_sg in E by lia. destruct (sg_qe a ltac:(lia)) as [_ [C|C]]; [lia|].
  apply (Z.mul_le_mono_pos_r _ _ (2 ^ k)); [apply pow2_pos; lia|]. rewrite <- E. apply Z.mul_le_mono_nonneg; try lia. apply pow2_le; lia.
Qed.

Lemma conv_W W : (Z.abs W < 2 ^ 493)%Z -> f256_of_fp (fpz W) = Some (of256 (rnd_signed 0 (W * 2 ^ (UNITe - 492)) 1)).
Proof. intros H. apply f256_of_fp_ok. lia. Qed.

Definition fin_res (m : option f256) (T : R) (n : Z) : Prop := exists r, m = Some (of256 r) /\ (0 <= r < 2 ^ 256)%Z /\ within_ulp n 128 T r.

Lemma fin_pos W T n : good T n W -> fin_res (f256_of_fp (fpz W)) T n.
Proof. intros [A B]. exists (rnd_signed 0 (W * 2 ^ (UNITe - 492)) 1). split; [apply conv_W; auto|]. split; [apply rnd_signed_bound; auto; lia|auto]. Qed.
Lemma fin_neg r T n : (0 <= r < 2 ^ 256)%Z -> within_ulp n 128 T r -> fin_res (Some (negated (of256 r))) (- T) n.
Proof. intros A B. exists (spec_neg r). rewrite negated_of by auto. split; [auto|]. split; [apply spec_neg_bound; auto|apply within_neg; auto]. Qed.

Lemma one_within : within_ulp 65 128 1 ONEm.
Proof.
  split; [reflexivity|]. assert (E : rval ONEm = 1).
  { unfold rval. rewrite pos_sval by (unfold ONEm, INFm; lia). rewrite mag_val_one. unfold U1. unfold Rdiv. rewrite Rinv_r; auto.
    assert (0 < IZR (2 ^ UNITe)) by (apply (IZR_lt 0), unit_pos). lra. }
  rewrite E, Rminus_diag_eq, Rabs_R0 by reflexivity. apply Rmult_le_pos; [lra|apply rulp_nonneg; unfold ONEm; lia].
Qed.

Lemma sin_fin v : (0 <= v < 2 ^ 256)%Z -> finb v = true -> / IZR (2 ^ 256) <= Rabs (rval v) < 8 ->
  exists n, fin_res (f_sin large (of256 v)) (sin (rval v)) n /\ (n <= 130)%Z /\ (Rabs (rval v) < / 2 -> n = 65%Z).
Proof.
  intros Hv Hf [H1 H2].
  assert (Hz : zerob v = false).
  { destruct (zerob v) eqn:Z; auto. exfalso. unfold rval in H1. rewrite sval_zerob in H1 by auto. unfold Rdiv in H1. rewrite Rmult_0_l, Rabs_R0 in H1.
    assert (0 < / IZR (2 ^ 256)) by (apply Rinv_0_lt_compat, IZR_lt; reflexivity). lra. }
  assert (EK : exists k, k = 261886%Z) by eauto. destruct EK as [k EK].
  pose proof (not_tiny v k EK Hv H1) as HQ. destruct (units_of v k EK Hv Hf Hz HQ) as (X & EX & Ha & ER).
  pose proof (X_ge _ _ k EK Ha HQ EX) as X236. pose proof (units_bound v X Hv ltac:(lia) ER) as EA. rewrite EA in *.
  pose proof (SR_scale X 8 8 eq_refl H2) as X8.
  destruct (pos_case (mag v) X k EK Ha EX ltac:(lia) X236) as (q & V & Ered & Hq & _ & _ & Ws & Wc & n & Es & Ec & Hn & Hn2 & G).
  unfold f_sin. rewrite is_special_of, Hz, Hf. cbn [orb negb]. rewrite abs_ok, Ered, bind_Some. cbv beta iota.
  rewrite sign_of by auto. fold (sgn v).
  assert (X491 : IZR X / SR < / 2 -> (X < 2 ^ 491)%Z).
  { intros L. pose proof SR_pos. apply lt_IZR. assert (E : SR = 2 * IZR (2 ^ 491)) by (unfold SR; rewrite <- mult_IZR; reflexivity).
    apply (Rmult_lt_compat_r SR) in L; [|lra]. unfold Rdiv in L. rewrite Rmult_assoc, Rinv_l in L by lra. lra. }
  exists (if (q =? 0)%Z || (q =? 2)%Z then n else 65%Z).
  split.
  2: { split; [destruct (_ || _); lia|]. intros L. destruct (_ || _); auto. }
  rewrite Es, Ec. assert (QC : (q = 0 \/ q = 1 \/ q = 2 \/ q = 3)%Z) by lia. set (x := IZR X / SR) in *.
  assert (SG : exists b : bool, (sgn v =? 0)%Z = b /\ sin (rval v) = if b then sin x else - sin x).
  { rewrite ER. destruct (sg01 v Hv) as [-> | ->]; [exists true; split; [reflexivity|]; f_equal; ring|exists false; split; [reflexivity|]; rewrite <- sin_neg; f_equal; ring]. }
  destruct SG as (b & -> & ->).
  destruct QC as [->|[->|[->| ->]]]; cbn [Z.eqb Pos.eqb orb Z.leb Z.compare Pos.compare Pos.compare_cont] in *; cbv iota in *; rewrite bind_Some;
    destruct G as [G _]; destruct (fin_pos _ _ _ G) as (r & -> & Br & Gr); rewrite bind_Some; destruct b; cbn [Bool.eqb]; cbv iota;
    try (exists r; split; [reflexivity|split; [exact Br|exact Gr]]); try (apply fin_neg; assumption).
  - rewrite <- (Ropp_involutive (sin x)). apply fin_neg; assumption.
  - rewrite <- (Ropp_involutive (sin x)). apply fin_neg; assumption.
Qed.

Lemma cos_fin v : (0 <= v < 2 ^ 256)%Z -> finb v = true -> Rabs (rval v) < 8 ->
  exists n, fin_res (f_cos large (of256 v)) (cos (rval v)) n /\ (n <= 130)%Z /\ (Rabs (rval v) < / 2 -> n = 65%Z).
Proof.
  intros Hv Hf H2. destruct (zerob v) eqn:Hz.
  { exists 65%Z. split; [|split; [lia|auto]]. unfold f_cos. rewrite is_special_of, Hz. cbn [orb].
    assert (EM : (xhi MAX <? Z.land (xhi (of256 v)) HI_ABS_MASK)%Z = false).
    { unfold zerob in Hz. apply Z.eqb_eq in Hz. apply Z.ltb_ge. unfold HI_ABS_MASK. rewrite land_pow2_ones, xhi_of by lia.
      assert (v / 2 ^ 128 mod 2 ^ 127 = 0)%Z as ->; [|vm_compute; discriminate]. rewrite <- (div_mod_pow v 128 127) by lia. change (128 + 127)%Z with 255%Z. fold (mag v). rewrite Hz. reflexivity. }
    rewrite EM. exists ONEm. split; [reflexivity|]. split; [unfold ONEm; lia|]. assert (RV0 : rval v = 0) by (unfold rval; rewrite sval_zerob by auto; unfold Rdiv; ring). rewrite RV0.
    rewrite cos_0. apply one_within. }
  unfold f_cos. rewrite is_special_of, Hz, Hf. cbn [orb negb]. rewrite abs_ok.
  assert (EK : exists k, k = 261886%Z) by eauto. destruct EK as [k EK]. destruct (Z.le_gt_cases k (qe (mag v))) as [HQ|HQ].
  - destruct (units_of v k EK Hv Hf Hz HQ) as (X & EX & Ha & ER).
    pose proof (X_ge _ _ k EK Ha HQ EX) as X236. pose proof (units_bound v X Hv ltac:(lia) ER) as EA. rewrite EA in *.
    pose proof (SR_scale X 8 8 eq_refl H2) as X8.
    destruct (pos_case (mag v) X k EK Ha EX ltac:(lia) X236) as (q & V & Ered & Hq & _ & _ & Ws & Wc & n & Es & Ec & Hn & Hn2 & G).
    rewrite Ered, bind_Some. cbv beta iota.
    assert (X491 : IZR X / SR < / 2 -> (X < 2 ^ 491)%Z).
    { intros L. pose proof SR_pos. apply lt_IZR. assert (E : SR = 2 * IZR (2 ^ 491)) by (unfold SR; rewrite <- mult_IZR; reflexivity).
      apply (Rmult_lt_compat_r SR) in L; [|lra]. unfold Rdiv in L. rewrite Rmult_assoc, Rinv_l in L by lra. lra. }
    exists (if (q =? 0)%Z || (q =? 2)%Z then 65%Z else n).
    split.
    2: { split; [destruct (_ || _); lia|]. intros L. destruct (_ || _); auto. }
    rewrite Es, Ec. assert (QC : (q = 0 \/ q = 1 \/ q = 2 \/ q = 3)%Z) by lia. set (x := IZR X / SR) in *.
    assert (SG : cos (rval v) = cos x).
    { rewrite ER. destruct (sg01 v Hv) as [-> | ->]; [f_equal; ring|rewrite <- cos_neg; f_equal; ring]. }
    rewrite SG.
    destruct QC as [->|[->|[->| ->]]]; cbn [Z.eqb Pos.eqb orb] in *; cbv iota in *; rewrite bind_Some;
      destruct G as [_ G]; destruct (fin_pos _ _ _ G) as (r & -> & Br & Gr); rewrite bind_Some;
      try (exists r; split; [reflexivity|split; [exact Br|exact Gr]]); rewrite <- (Ropp_involutive (cos x)); apply fin_neg; assumption.
  - assert (Ha : (0 < mag v < INFm)%Z).
    { pose proof (mag_bound v). unfold finb in Hf. apply Z.ltb_lt in Hf. unfold zerob in Hz. apply Z.eqb_neq in Hz. lia. }
    destruct (tiny_reduce (mag v) Ha ltac:(lia)) as (V & -> & BV). rewrite bind_Some. cbv beta iota. cbn [Z.eqb orb].
    destruct (approx_cos_ok V) as (W & -> & E1 & _); [unfold BND; lia|]. destruct E1 as [-> _]; [unfold CCUT; lia|]. rewrite bind_Some.
    exists 65%Z. split; [|split; [lia|auto]].
    assert (T : Rabs (rval v) < / IZR (2 ^ 256)).
    { apply Rnot_le_lt. intros L. pose proof (not_tiny v k EK Hv L). lia. }
    assert (G : good (cos (rval v)) 65 (2 ^ 492)).
    { split; [lia|]. apply cos_one; auto. pose proof (cos_small (rval v)) as C. pose proof SR_pos as HS.
      rewrite <- (Rmult_1_r SR) at 1. rewrite <- Rmult_minus_distr_l, Rabs_mult, (Rabs_pos_eq SR) by lra.
      assert (I1 : 0 < / IZR (2 ^ 256)) by (apply Rinv_0_lt_compat, IZR_lt; reflexivity).
      assert (XX : rval v * rval v <= / IZR (2 ^ 256) * / IZR (2 ^ 256)).
      { replace (rval v * rval v) with (Rabs (rval v) * Rabs (rval v)) by (rewrite <- Rabs_mult; apply Rabs_pos_eq; nra).
        apply Rmult_le_compat; try apply Rabs_pos; lra. }
      assert (SS : SR * (/ IZR (2 ^ 256) * / IZR (2 ^ 256)) <= 1).
      { rewrite <- Rinv_mult, <- mult_IZR. apply Rmult_le_reg_r with (IZR (2 ^ 256 * 2 ^ 256)); [apply IZR_lt; reflexivity|].
        rewrite Rmult_assoc, Rinv_l, Rmult_1_r, Rmult_1_l by (apply IZR_neq; discriminate). apply IZR_le, Z.leb_le. reflexivity. }
      assert (0 < IZR (2 ^ 255)) by (apply IZR_lt; reflexivity).
      assert (SR * (rval v * rval v) <= SR * (/ IZR (2 ^ 256) * / IZR (2 ^ 256))) by (apply Rmult_le_compat_l; lra).
      assert (SR * Rabs (1 - cos (rval v)) <= SR * (rval v * rval v / 2)) by (apply Rmult_le_compat_l; lra). lra. }
    destruct (fin_pos _ _ _ G) as (r & -> & Br & Gr). rewrite bind_Some. exists r. split; [reflexivity|]. split; [exact Br|exact Gr].
Qed.

End Fin.

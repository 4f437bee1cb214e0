(** * TrigReal: the errors of sine and cosine below 8 *)

From Coq Require Import ZArith Lia Bool Reals Lra List.
From Verif Require Import Base BigUInt ZLemmas BigLaws BigUIntProofs BigExtra Spec SpecFns F256 Arith Conv SpecLemmas SpecAlg
  F256Lemmas BasicProofs CodecProofs AddProofs DivProofs SosProofs MiscProofs SpecDeg SpecLog LogTable Log FpProofs LogProofs LnBound LogReal LogUlp LogRound
  TrigTable Trig TrigPi TrigApprox TrigReduce.
Import ListNotations.
Open Scope R_scope.

(** ** Rounding *)
Lemma core V T r L q n U : U = UNITe -> (236 <= L)%Z -> (V <> 0)%Z -> finb r = true ->
  sval r = (Z.sgn V * (q * (2 ^ (L - 236) * 2 ^ (U - 492))))%Z -> (2 ^ (L - 236) * 2 ^ (U - 492) <= ulp_units (mag r))%Z -> (0 <= n)%Z ->
  Rabs (IZR (Z.sgn V) * (IZR q * IZR (2 ^ (L - 236))) - SR * T) * 128 <= IZR n * IZR (2 ^ (L - 236)) ->
  within_ulp n 128 T r.
Proof.
  intros HU HL HV F SV UL Hn HT. apply (within_intro U); auto. rewrite SV. clear SV F.
  assert (HU0 : (492 <= U)%Z) by (rewrite HU; unfold UNITe; lia). clear HU. rewrite (unit_split U HU0).
  assert (HU : (0 <= U - 492)%Z) by lia. set (k := (U - 492)%Z) in *. clearbody k.
  assert (PK : 0 < IZR (2 ^ k)) by (apply (IZR_lt 0), pow2_pos; auto).
  assert (PD : 0 < IZR (2 ^ (L - 236))) by (apply (IZR_lt 0), pow2_pos; lia).
  pose proof SR_pos as HS. apply IZR_le in UL, Hn. rewrite mult_IZR in UL. rewrite !mult_IZR.
  set (K := IZR (2 ^ k)) in *. set (D := IZR (2 ^ (L - 236))) in *. set (s := IZR (Z.sgn V)) in *.
  set (Q := IZR q) in *. set (u := IZR (ulp_units (mag r))) in *. set (S := SR) in *. set (N := IZR n) in *. clearbody K D s Q u S N.
  clear - PK PD HS HT UL Hn.
  replace (s * (Q * (D * K)) / (K * S) - T) with ((s * (Q * D) - S * T) * / S) by (field; lra).
  rewrite Rabs_mult, (Rabs_pos_eq (/ S)) by (left; apply Rinv_0_lt_compat; lra).
  replace (N / 128 * (u / (K * S))) with (N / 128 * (u * / K) * / S) by (field; lra).
  apply Rmult_le_compat_r; [left; apply Rinv_0_lt_compat; lra|].
  assert (UD : D <= u * / K). { apply Rmult_le_reg_r with K; auto. rewrite Rmult_assoc, Rinv_l by lra. lra. }
  assert (N * D <= N * (u * / K)) by (apply Rmult_le_compat_l; lra). lra.
Qed.

Lemma finalg V T n U : U = UNITe -> (0 <= n)%Z -> (2 ^ 236 <= Z.abs V < 2 ^ 511)%Z ->
  (forall L, (236 <= L)%Z -> (2 ^ L <= Z.abs V < 2 ^ (L + 1))%Z -> Rabs (IZR V - SR * T) * 128 <= IZR n * IZR (2 ^ (L - 236))) ->
  within_ulp (64 + n) 128 T (rnd_signed 0 (V * 2 ^ (U - 492)) 1).
Proof.
  intros HU Hn HV HT. destruct (conv_signed V U HU HV) as (L & q & HL & HA & Hq & F & _ & SV & UL & ER). cbv zeta in *.
  specialize (HT L ltac:(lia) HA). apply (core V T _ L q _ U); auto; [lia|lia|lia|]. clear F SV UL HU.
  rewrite (abs_sgn_R V) in HT. destruct ER as [ER1 ER2]. apply IZR_le in ER1, ER2. rewrite opp_IZR, minus_IZR, !mult_IZR in ER1. rewrite minus_IZR, !mult_IZR in ER2.
  assert (PD : 0 < IZR (2 ^ (L - 236))) by (apply (IZR_lt 0), pow2_pos; lia). rewrite plus_IZR.
  assert (SG : IZR (Z.sgn V) = 1 \/ IZR (Z.sgn V) = -1).
  { destruct (Z.sgn_spec V) as [[H ->]|[[H ->]|[H ->]]]; auto. lia. }
  set (D := IZR (2 ^ (L - 236))) in *. set (A := IZR (Z.abs V)) in *. set (s := IZR (Z.sgn V)) in *. set (Q := IZR q) in *. set (N := IZR n) in *. set (Y := SR * T) in *.
  clearbody D A s Q N Y. clear - PD SG HT ER1 ER2. 
  assert (HT' : Rabs (s * A - Y) <= N * D / 128) by lra. apply rabs_inv in HT'.
  assert (X : Rabs (s * (Q * D) - Y) <= (64 + N) * D / 128); [|lra]. apply Rabs_le. destruct SG as [-> | ->]; lra.
Qed.

Lemma finale V T n U : U = UNITe -> (0 <= n)%Z -> (2 ^ 236 <= Z.abs V < 2 ^ 511)%Z -> sval (rnd_signed 0 (V * 2 ^ (U - 492)) 1) = (V * 2 ^ (U - 492))%Z ->
  (forall L, (236 <= L)%Z -> (2 ^ L <= Z.abs V < 2 ^ (L + 1))%Z -> Rabs (IZR V - SR * T) * 128 <= IZR n * IZR (2 ^ (L - 236))) ->
  within_ulp n 128 T (rnd_signed 0 (V * 2 ^ (U - 492)) 1).
Proof.
  intros HU Hn HV EX HT. destruct (conv_signed V U HU HV) as (L & q & HL & HA & Hq & F & _ & SV & UL & ER). cbv zeta in *.
  specialize (HT L ltac:(lia) HA). apply (core V T _ L q _ U); auto; [lia|lia|].
  assert (EV : V = (Z.sgn V * (q * 2 ^ (L - 236)))%Z).
  { rewrite SV in EX. assert (HU0 : (0 <= U - 492)%Z) by (rewrite HU; unfold UNITe; lia). pose proof (pow2_pos _ HU0) as PK.
    apply (Z.mul_cancel_r _ _ (2 ^ (U - 492))); [lia|]. rewrite <- EX. ring. }
  rewrite <- (mult_IZR q), <- (mult_IZR (Z.sgn V)), <- EV. exact HT.
Qed.

Lemma pow_lt_inv a b : (0 <= b)%Z -> (2 ^ a < 2 ^ b)%Z -> (a < b)%Z.
Proof. intros Hb H. destruct (Z.lt_ge_cases a b); auto. pose proof (pow2_le b a ltac:(lia)). lia. Qed.

Lemma within_neg n d T r : (0 <= r < 2 ^ 256)%Z -> within_ulp n d T r -> within_ulp n d (- T) (spec_neg r).
Proof.
  intros Hr [F H]. destruct (kinds_neg r Hr) as (_ & _ & EF & _). split; [congruence|].
  unfold rval, rulp in *. rewrite sval_neg_op by auto. rewrite mag_neg by auto. rewrite opp_IZR.
  replace (- IZR (sval r) / IZR (2 ^ UNITe) - - T) with (- (IZR (sval r) / IZR (2 ^ UNITe) - T)) by (unfold Rdiv; ring). rewrite Rabs_Ropp. exact H.
Qed.

Lemma rulp_nonneg r : (0 <= r < 2 ^ 256)%Z -> 0 <= rulp r.
Proof.
  intros Hr. unfold rulp, ulp_units. pose proof (mag_bound r) as B. pose proof (mag_val_lt (mag r) (mag r + 1) ltac:(lia) ltac:(lia)).
  apply Rmult_le_pos; [apply (IZR_le 0); lia|]. left. apply Rinv_0_lt_compat. apply (IZR_lt 0). exact unit_pos.
Qed.

Lemma within_weak n m d T r : (0 <= r < 2 ^ 256)%Z -> (0 < d)%Z -> (n <= m)%Z -> within_ulp n d T r -> within_ulp m d T r.
Proof.
  intros Hr Hd Hn [F H]. split; auto. eapply Rle_trans; [exact H|]. apply Rmult_le_compat_r; [apply rulp_nonneg; auto|].
  apply Rmult_le_compat_r; [left; apply Rinv_0_lt_compat; apply (IZR_lt 0); auto|apply IZR_le; auto].
Qed.

(** ** Sine and cosine of a reduced argument *)
Lemma tri a b c e f : Rabs (a - b) <= e -> Rabs (b - c) <= f -> Rabs (a - c) <= e + f.
Proof. intros H1 H2. apply rabs_inv in H1, H2. apply Rabs_le. lra. Qed.

Lemma scale_lip (g : R -> R) V t : (forall a b, Rabs (g a - g b) <= Rabs (a - b)) -> Rabs (IZR V - SR * t) <= 3 -> Rabs (SR * g (IZR V / SR) - SR * g t) <= 3.
Proof.
  intros Hg H. pose proof SR_pos as HS. rewrite <- Rmult_minus_distr_l, Rabs_mult, (Rabs_pos_eq SR) by lra.
  eapply Rle_trans; [apply Rmult_le_compat_l; [lra|apply Hg]|]. rewrite <- (Rabs_pos_eq SR) at 1 by lra. rewrite <- Rabs_mult.
  replace (SR * (IZR V / SR - t)) with (IZR V - SR * t) by (field; lra). exact H.
Qed.

(** Below the cut-off the third power is at most 65 / 128 of a unit in the last place. *)
Lemma cube_ok A L : (0 <= A <= SCUT)%Z -> (236 <= L)%Z -> (2 ^ L <= A < 2 ^ (L + 1))%Z -> (64 * (A * (A * A)) <= 195 * (2 ^ 492 * 2 ^ 492) * 2 ^ (L - 236))%Z.
Proof.
  intros HA HL HB.
  assert (L1 : (L < 375)%Z) by (apply pow_lt_inv; [lia|]; apply Z.le_lt_trans with SCUT; [lia|reflexivity]).
  destruct (Z.eq_dec L 374) as [->|N].
  - apply Z.le_trans with (64 * (SCUT * (SCUT * SCUT)))%Z; [|apply Z.leb_le; vm_compute; reflexivity]. apply Z.mul_le_mono_nonneg_l; [lia|].
    apply Z.mul_le_mono_nonneg; try lia. apply Z.mul_le_mono_nonneg; lia.
  - assert (B2 : (A <= 2 ^ 374)%Z) by (pose proof (pow2_le (L + 1) 374 ltac:(lia)); lia).
    assert (B3 : (A * A <= 2 ^ 374 * 2 ^ 374)%Z) by (apply Z.mul_le_mono_nonneg; lia).
    assert (E : (2 ^ (L + 1) = 2 ^ 237 * 2 ^ (L - 236))%Z) by (rewrite <- pow2_add by lia; f_equal; lia).
    pose proof (pow2_pos (L - 236) ltac:(lia)) as PD. set (D := (2 ^ (L - 236))%Z) in *. clearbody D.
    apply Z.le_trans with (64 * (2 ^ 237 * D * (2 ^ 374 * 2 ^ 374)))%Z; [apply Z.mul_le_mono_nonneg_l; [lia|]; apply Z.mul_le_mono_nonneg; try lia|].
    lia.
Qed.

Lemma cut_err V : (Z.abs V <= SCUT)%Z -> forall L, (236 <= L)%Z -> (2 ^ L <= Z.abs V < 2 ^ (L + 1))%Z ->
  Rabs (IZR V - SR * sin (IZR V / SR)) * 128 <= 65 * IZR (2 ^ (L - 236)).
Proof.
  intros HV L HL HB. pose proof SR_pos as HS. pose proof (cube_ok (Z.abs V) L ltac:(lia) HL HB) as C.
  destruct (arg_ok V) as [Hx Ex]; [unfold BND; unfold SCUT in HV; lia|]. set (x := IZR V / SR) in *.
  pose proof (sin_small x ltac:(lra)) as B. rewrite Ex. rewrite <- Rmult_minus_distr_l, Rabs_mult, (Rabs_pos_eq SR) by lra.
  apply IZR_le in C. rewrite !mult_IZR, abs_IZR in C. fold SR in C. rewrite Ex in C. rewrite Rabs_mult, (Rabs_pos_eq SR) in C by lra.
  set (D := IZR (2 ^ (L - 236))) in *. clearbody D x. clear - HS B C.
  assert (E : Rabs x * (x * x) * (SR * SR * SR) <= 195 / 64 * D * (SR * SR)).
  { replace (x * x) with (Rabs x * Rabs x) by (rewrite <- Rabs_mult; apply Rabs_pos_eq; nra). lra. }
  assert (E2 : Rabs x * (x * x) * SR <= 195 / 64 * D). { apply Rmult_le_reg_r with (SR * SR); [nra|]. lra. }
  assert (SR * Rabs (x - sin x) <= SR * (Rabs x * (x * x) / 6)) by (apply Rmult_le_compat_l; lra). lra.
Qed.

Section Ap.
Context {P : profile}.

(** Above the cut-off *)
Lemma sin_big V W t U : U = UNITe -> (Z.abs V <= BND)%Z -> (SCUT < Z.abs V)%Z -> (Z.abs W < 2 ^ 493)%Z -> Rabs (IZR V - SR * t) <= 3 ->
  Rabs (IZR W - SR * sin (IZR V / SR)) <= 15 + IZR (Z.abs V) * / IZR (2 ^ 278) ->
  within_ulp (64 + 1) 128 (sin t) (rnd_signed 0 (W * 2 ^ (U - 492)) 1).
Proof.
  intros HU HV HC HW Ht HE. pose proof (scale_lip sin V t sin_lip Ht) as HL. pose proof (tri _ _ _ _ _ HE HL) as HT. clear HL Ht.
  pose proof SR_pos as HS. destruct (arg_ok V HV) as [Hx Ex]. set (x := IZR V / SR) in *. pose proof (sin_small x ltac:(lra)) as B.
  rewrite abs_IZR in *. assert (HC2 : IZR (2 ^ 374) <= Rabs (IZR V)).
  { rewrite <- abs_IZR. apply IZR_le. apply Z.le_trans with SCUT; [apply Z.leb_le; vm_compute; reflexivity|lia]. }
  assert (A0 : IZR (2 ^ 278) = 2 * IZR (2 ^ 277)) by (rewrite <- mult_IZR; reflexivity).
  assert (A1 : 0 < IZR (2 ^ 237)) by (apply IZR_lt; reflexivity).
  assert (A2 : IZR (2 ^ 374) = 2 * (IZR (2 ^ 237) * IZR (2 ^ 136))) by (rewrite <- !mult_IZR; reflexivity).
  assert (A3 : IZR (2 ^ 278) = 2048 * (IZR (2 ^ 237) * IZR (2 ^ 30))) by (rewrite <- !mult_IZR; reflexivity).
  assert (A4 : 1048576 <= IZR (2 ^ 136)) by (apply IZR_le; apply Z.leb_le; reflexivity).
  assert (A5 : 1048576 <= IZR (2 ^ 30)) by (apply IZR_le; apply Z.leb_le; reflexivity).
  set (v := Rabs (IZR V)) in *.
  assert (HI : v * / IZR (2 ^ 278) <= v / 1048576 / 2048).
  { unfold Rdiv. rewrite Rmult_assoc. apply Rmult_le_compat_l; [unfold v; apply Rabs_pos|]. rewrite <- Rinv_mult. apply Rinv_le_contravar; [lra|].
    rewrite A3. assert (1 <= IZR (2 ^ 237)) by (apply IZR_le; apply Z.leb_le; reflexivity). nra. }
  assert (HI2 : v * / IZR (2 ^ 278) * IZR (2 ^ 237) <= v / 1048576 / 2048).
  { rewrite A3. replace (v * / (2048 * (IZR (2 ^ 237) * IZR (2 ^ 30))) * IZR (2 ^ 237)) with (v * / (2048 * IZR (2 ^ 30))) by (field; lra).
    unfold Rdiv. rewrite Rmult_assoc. apply Rmult_le_compat_l; [unfold v; apply Rabs_pos|]. rewrite <- Rinv_mult. apply Rinv_le_contravar; lra. }
  assert (SL : v / 2 <= Rabs (IZR W)).
  { assert (Ev : v = SR * Rabs x) by (unfold v; rewrite Ex, Rabs_mult, (Rabs_pos_eq SR) by lra; reflexivity).
    assert (X2 : x * x <= 1). { apply rabs_inv in Hx. nra. }
    assert (Y : Rabs x * (5 / 6) <= Rabs (sin x)).
    { assert (Rabs x <= Rabs (x - sin x) + Rabs (sin x)). { replace x with ((x - sin x) + sin x) at 1 by ring. apply Rabs_triang. }
      assert (Rabs x * (x * x) <= Rabs x * 1) by (apply Rmult_le_compat_l; [apply Rabs_pos|lra]). lra. }
    assert (Y2 : SR * Rabs (sin x) <= Rabs (IZR W) + Rabs (IZR W - SR * sin x)).
    { rewrite <- (Rabs_pos_eq SR) at 1 by lra. rewrite <- Rabs_mult. replace (SR * sin x) with (IZR W - (IZR W - SR * sin x)) at 1 by ring.
      eapply Rle_trans; [apply Rabs_triang|]. rewrite Rabs_Ropp. lra. }
    assert (SR * (Rabs x * (5 / 6)) <= SR * Rabs (sin x)) by (apply Rmult_le_compat_l; lra).
    assert (1000 <= v). { eapply Rle_trans; [|exact HC2]. apply IZR_le. apply Z.leb_le. reflexivity. }
    lra. }
  apply finalg; auto; [lia| |].
  - split; [|lia]. apply le_IZR. rewrite abs_IZR. apply Rle_trans with (v / 2); [|exact SL].
    apply Rle_trans with (IZR (2 ^ 374) / 2); [|lra]. apply Rle_trans with (IZR (2 ^ 373)); [apply IZR_le, Z.leb_le; reflexivity|].
    change (2 ^ 374)%Z with (2 * 2 ^ 373)%Z. rewrite (mult_IZR 2). lra.
  - intros L HL [_ HB]. assert (E : (2 ^ (L + 1) = 2 ^ 237 * 2 ^ (L - 236))%Z) by (rewrite <- pow2_add by lia; f_equal; lia). rewrite E in HB.
    apply IZR_lt in HB. rewrite abs_IZR, mult_IZR in HB. set (D := IZR (2 ^ (L - 236))) in *. rewrite Rmult_1_l.
    assert (X : Rabs (IZR W - SR * sin t) * 128 * IZR (2 ^ 237) <= D * IZR (2 ^ 237)).
    { apply Rle_trans with ((15 + v * / IZR (2 ^ 278) + 3) * 128 * IZR (2 ^ 237)); [apply Rmult_le_compat_r; lra|].
      assert (4096 * 64 * IZR (2 ^ 237) <= v).
      { eapply Rle_trans; [|exact HC2]. rewrite A2. nra. }
      lra. }
    apply Rmult_le_reg_r in X; auto.
Qed.

(** A reduced argument that is a few units off *)
Lemma sin_gen V t U : U = UNITe -> (Z.abs V <= BND)%Z -> (2 ^ 248 <= Z.abs V)%Z -> Rabs (IZR V - SR * t) <= 3 ->
  exists W, approx_sin (fpz V) = Some (fpz W) /\ (Z.abs W < 2 ^ 493)%Z /\ within_ulp 130 128 (sin t) (rnd_signed 0 (W * 2 ^ (U - 492)) 1).
Proof.
  intros HU HV H248 Ht. destruct (approx_sin_ok V HV) as (W & E & BW & E1 & E2). exists W. split; [auto|]. split; [auto|].
  destruct (Z.le_gt_cases (Z.abs V) SCUT) as [C|C].
  - rewrite (E1 C) in *. apply (finalg _ _ 66); auto; [lia|lia|]. intros L HL HB. pose proof (cut_err V C L HL HB) as D.
    pose proof (scale_lip sin V t sin_lip Ht) as HLp. pose proof (tri (IZR V) (SR * sin (IZR V / SR)) (SR * sin t) _ _ (Rle_refl _) HLp) as HT.
    assert (4096 <= IZR (2 ^ (L - 236))).
    { apply IZR_le. change 4096%Z with (2 ^ 12)%Z. apply pow2_le. assert (248 < L + 1)%Z; [apply pow_lt_inv; lia|lia]. }
    lra.
  - apply (within_weak 65); [|lia|lia|]; [apply rnd_signed_bound; [auto|lia]|]. apply (sin_big V); auto.
Qed.

(** An exact argument *)
Lemma sin_exact V U : U = UNITe -> (Z.abs V <= BND)%Z -> (2 ^ 236 <= Z.abs V)%Z -> sval (rnd_signed 0 (V * 2 ^ (U - 492)) 1) = (V * 2 ^ (U - 492))%Z ->
  exists W, approx_sin (fpz V) = Some (fpz W) /\ (Z.abs W < 2 ^ 493)%Z /\ within_ulp 65 128 (sin (IZR V / SR)) (rnd_signed 0 (W * 2 ^ (U - 492)) 1).
Proof.
  intros HU HV H236 HX. destruct (approx_sin_ok V HV) as (W & E & BW & E1 & E2). exists W. split; [auto|]. split; [auto|].
  destruct (Z.le_gt_cases (Z.abs V) SCUT) as [C|C].
  - rewrite (E1 C) in *. apply finale; auto; [lia|lia|]. intros L HL HB. pose proof (cut_err V C L HL HB) as D.
    assert (0 < IZR (2 ^ (L - 236))) by (apply (IZR_lt 0), pow2_pos; lia). lra.
  - apply (sin_big V); auto. pose proof SR_pos as HS. replace (SR * (IZR V / SR)) with (IZR V) by (field; lra). rewrite Rminus_diag_eq, Rabs_R0 by auto. lra.
Qed.

Lemma one_exact U : U = UNITe -> sval (rnd_signed 0 (2 ^ 492 * 2 ^ (U - 492)) 1) = (2 ^ 492 * 2 ^ (U - 492))%Z.
Proof.
  intros HU. assert (Hk : (U - 492 = 261886)%Z) by (rewrite HU; unfold UNITe; lia). set (k := (U - 492)%Z) in *. clearbody k.
  apply rnd_signed_rep; auto. exists ONEm. split; [unfold ONEm, INFm; lia|].
  assert (E : mag_val ONEm = (2 ^ 236 * 2 ^ (256 + k))%Z).
  { unfold ONEm. replace (262143 * 2 ^ 236)%Z with ((256 + k) * 2 ^ 236 + 2 ^ 236)%Z by lia. apply mag_val_signif; lia. }
  rewrite E, pow2_add by lia. pose proof (pow2_pos k ltac:(lia)). set (p := (2 ^ k)%Z) in *. clearbody p. rewrite Z.abs_eq by lia. lia.
Qed.

Lemma cos_one t U : U = UNITe -> Rabs (SR - SR * cos t) <= IZR (2 ^ 255) + 3 -> within_ulp 65 128 (cos t) (rnd_signed 0 (2 ^ 492 * 2 ^ (U - 492)) 1).
Proof.
  intros HU H. apply finale; auto; [lia|lia|apply one_exact; auto|]. intros L HL HB. fold SR.
  assert (EL : L = 492%Z).
  { assert (492 < L + 1)%Z by (apply pow_lt_inv; lia). assert (L < 493)%Z by (apply pow_lt_inv; lia). lia. }
  rewrite EL. change (492 - 236)%Z with 256%Z.
  assert (E : IZR (2 ^ 256) = 2 * IZR (2 ^ 255)) by (rewrite <- mult_IZR; reflexivity). rewrite E.
  assert (1000 <= IZR (2 ^ 255)) by (apply IZR_le, Z.leb_le; reflexivity). lra.
Qed.

Lemma cos_gen V t U : U = UNITe -> (Z.abs V <= BND)%Z -> Rabs (IZR V - SR * t) <= 3 ->
  exists W, approx_cos (fpz V) = Some (fpz W) /\ (Z.abs W < 2 ^ 493)%Z /\ within_ulp 65 128 (cos t) (rnd_signed 0 (W * 2 ^ (U - 492)) 1).
Proof.
  intros HU HV Ht. destruct (approx_cos_ok V HV) as (W & E & E1 & E2). exists W. split; [auto|].
  pose proof (scale_lip cos V t cos_lip Ht) as HLp. pose proof SR_pos as HS.
  destruct (Z.le_gt_cases (Z.abs V) CCUT) as [C|C].
  - destruct (E1 C) as [EW B]. subst W. split; [lia|]. apply cos_one; auto. fold SR in B. apply (tri _ _ _ _ _ B HLp).
  - specialize (E2 C). destruct (arg_ok V HV) as [Hx Ex]. set (x := IZR V / SR) in *. pose proof (cos_small x) as CS. pose proof (COS_bound x) as CB.
    assert (X2 : x * x <= 63 / 100). { apply rabs_inv in Hx. nra. }
    assert (HS2 : IZR (2 ^ 203) * 100 <= SR) by (unfold SR; rewrite <- mult_IZR; apply IZR_le, Z.leb_le; reflexivity).
    apply rabs_inv in CS. apply rabs_inv in E2.
    assert (BW : (2 ^ 491 <= W < 2 ^ 493)%Z).
    { assert (EE1 : IZR (2 ^ 491) = SR / 2) by (unfold SR; change (2 ^ 492)%Z with (2 * 2 ^ 491)%Z; rewrite mult_IZR; lra).
      assert (EE2 : IZR (2 ^ 493) = 2 * SR) by (unfold SR; rewrite <- mult_IZR; reflexivity).
      split; [apply le_IZR; rewrite EE1|apply lt_IZR; rewrite EE2]; nra. }
    split; [lia|]. apply (finalg _ _ 1); auto; [lia|lia|]. intros L HL HB.
    assert (HD : IZR (2 ^ 255) <= IZR (2 ^ (L - 236))).
    { apply IZR_le, pow2_le. assert (491 < L + 1)%Z; [apply pow_lt_inv; lia|lia]. }
    assert (HT : Rabs (IZR W - SR * cos t) <= IZR (2 ^ 203) + 3) by (apply (tri _ (SR * cos x)); [apply Rabs_le; lra|exact HLp]).
    assert ((IZR (2 ^ 203) + 3) * 128 <= IZR (2 ^ 255)) by (rewrite <- plus_IZR, <- mult_IZR; apply IZR_le, Z.leb_le; reflexivity). lra.
Qed.

End Ap.

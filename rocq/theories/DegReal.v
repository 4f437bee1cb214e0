(** * DegReal: the constants of [to_degrees] and [to_radians] compared with pi *)

From Coq Require Import ZArith Lia Bool Reals Lra.
From Verif Require Import Base BigUInt ZLemmas BigLaws BigUIntProofs BigExtra Spec F256 Arith
  SpecLemmas F256Lemmas BasicProofs CodecProofs MulProofs SpecAlg SpecDeg PiBound DegProofs Interface LiftAlg LiftProofs.

Definition DEG : R := (180 / PI)%R.
Definition RAD : R := (PI / 180)%R.

Open Scope R_scope.

Lemma W318 : 0 < IZR (2 ^ 318). Proof. apply IZR_lt. reflexivity. Qed.

Lemma pi_le a b : (PIHI * a <= b * 2 ^ 318)%Z -> (0 <= a)%Z -> PI * IZR a <= IZR b.
Proof.
  intros H Ha. pose proof pi_bounds as [_ B]. pose proof W318 as W. apply IZR_le in H, Ha.
  rewrite !mult_IZR in H. apply (Rmult_le_reg_r (IZR (2 ^ 318))); auto.
  apply (Rmult_le_compat_r (IZR a)) in B; auto. lra.
Qed.
Lemma pi_ge a b : (b * 2 ^ 318 <= PILO * a)%Z -> (0 <= a)%Z -> IZR b <= PI * IZR a.
Proof.
  intros H Ha. pose proof pi_bounds as [B _]. pose proof W318 as W. apply IZR_le in H, Ha.
  rewrite !mult_IZR in H. apply (Rmult_le_reg_r (IZR (2 ^ 318))); auto.
  apply (Rmult_le_compat_r (IZR a)) in B; auto. lra.
Qed.

Ltac zle := apply Z.leb_le; vm_compute; reflexivity.

(** The constant of [to_degrees] exceeds 180 / pi by more than 2^18 of its last places. *)
Lemma deg_const : IZR (MDEG - 269375) <= DEG * IZR (2 ^ 250) <= IZR (MDEG - 269374).
Proof.
  pose proof PI_RGT_0 as HP. unfold DEG.
  assert (A : PI * IZR (MDEG - 269375) <= IZR (180 * 2 ^ 250)) by (apply pi_le; zle).
  assert (B : IZR (180 * 2 ^ 250) <= PI * IZR (MDEG - 269374)) by (apply pi_ge; zle).
  rewrite mult_IZR in A, B.
  split; (apply (Rmult_le_reg_l PI); [auto|]);
    replace (PI * (180 / PI * IZR (2 ^ 250))) with (180 * IZR (2 ^ 250)) by (field; lra); auto.
Qed.

(** The constant of [to_radians] is pi / 180 cut off. *)
Lemma rad_const : IZR MRAD <= RAD * IZR (2 ^ 261) <= IZR (MRAD + 1).
Proof.
  pose proof PI_RGT_0 as HP. unfold RAD.
  assert (A : IZR (180 * MRAD) <= PI * IZR (2 ^ 261)) by (apply pi_ge; zle).
  assert (B : PI * IZR (2 ^ 261) <= IZR (180 * (MRAD + 1))) by (apply pi_le; zle).
  rewrite mult_IZR in A, B. lra.
Qed.

Lemma Rabs_bound x b : - b <= x <= b -> Rabs x <= b.
Proof. intros. apply Rabs_le. auto. Qed.

Lemma near_abs n a b k : (n * Z.abs a <= b)%Z -> (0 < n)%Z -> k * IZR n = 1 -> - (k * IZR b) <= IZR a <= k * IZR b.
Proof.
  intros H Hn Hk. assert (H1 : (n * a <= b)%Z) by nia. assert (H2 : (- b <= n * a)%Z) by nia.
  apply IZR_le in H1, H2. apply IZR_lt in Hn. rewrite opp_IZR in H2. rewrite mult_IZR in H1, H2.
  assert (0 < k). { apply (Rmult_lt_reg_r (IZR n)); lra. }
  apply (Rmult_le_compat_l k) in H1; [|lra]. apply (Rmult_le_compat_l k) in H2; [|lra].
  rewrite <- Rmult_assoc, Hk in H1, H2. lra.
Qed.

Lemma near_real M SH x R U rho D :
  near_const M SH x R U -> (0 <= x)%Z -> (0 < M)%Z -> (0 <= SH)%Z -> 0 <= D ->
  - D <= rho * IZR (2 ^ SH) - IZR M <= D ->
  Rabs (IZR R - IZR x * rho) <= (3 / 4 + D / IZR (2 ^ 19)) * IZR U
  \/ Rabs (IZR R - IZR x * rho) <= (1 / 2 + D * IZR (2 ^ 237) / IZR M) * IZR U.
Proof.
  unfold near_const. intros N Hx HM HS HD HR.
  assert (HW : 0 < IZR (2 ^ SH)) by (apply IZR_lt, pow2_pos; lia).
  set (W := (2 ^ SH)%Z) in *. clearbody W.
  assert (HM' : 0 < IZR M) by (apply IZR_lt; lia). assert (Hx' : 0 <= IZR x) by (apply IZR_le; lia).
  assert (ED : (IZR R - IZR x * rho) * IZR W =
    (IZR R * IZR W - IZR M * IZR x) - IZR x * (rho * IZR W - IZR M)) by ring.
  assert (EX : - (IZR x * D) <= IZR x * (rho * IZR W - IZR M) <= IZR x * D).
  { split. rewrite <- Ropp_mult_distr_r_reverse. apply Rmult_le_compat_l; lra. apply Rmult_le_compat_l; lra. }
  assert (FIN : forall B, - (B * IZR W) <= (IZR R - IZR x * rho) * IZR W <= B * IZR W ->
     Rabs (IZR R - IZR x * rho) <= B).
  { intros B [B1 B2]. apply Rabs_bound. split; apply (Rmult_le_reg_r (IZR W)); auto; lra. }
  destruct N as [[N1 N2]|[N1 N2]]; [left|right]; apply FIN; rewrite ED.
  - apply (near_abs 4 _ _ (/ 4)) in N1; [|lia|lra]. apply IZR_le in N2.
    rewrite minus_IZR, !mult_IZR in N1. rewrite !mult_IZR in N2.
    assert (H19 : 0 < IZR (2 ^ 19)) by (apply IZR_lt; reflexivity).
    assert (X : IZR x * D <= D / IZR (2 ^ 19) * (IZR W * IZR U)).
    { apply (Rmult_le_reg_r (IZR (2 ^ 19))); auto.
      replace (D / IZR (2 ^ 19) * (IZR W * IZR U) * IZR (2 ^ 19)) with (D * (IZR W * IZR U)) by (field; lra).
      apply (Rmult_le_compat_l D) in N2; auto. lra. }
    lra.
  - apply (near_abs 2 _ _ (/ 2)) in N1; [|lia|lra]. apply IZR_le in N2.
    rewrite minus_IZR, !mult_IZR in N1. rewrite !mult_IZR in N2.
    assert (X : IZR x * D <= D * IZR (2 ^ 237) / IZR M * (IZR W * IZR U)).
    { apply (Rmult_le_reg_r (IZR M)); auto.
      replace (D * IZR (2 ^ 237) / IZR M * (IZR W * IZR U) * IZR M) with (D * (IZR (2 ^ 237) * IZR W * IZR U)) by (field; lra).
      apply (Rmult_le_compat_l D) in N2; auto. lra. }
    lra.
Qed.

Lemma sval_mkf s m : (s = 0 \/ s = 1)%Z -> (0 <= m < 2 ^ 255)%Z ->
  sval (mkf s m) = ((1 - 2 * s) * mag_val m)%Z /\ sgn (mkf s m) = s /\ mag (mkf s m) = m.
Proof.
  intros Hs Hm. assert (E1 : sgn (mkf s m) = s) by (unfold sgn, mkf; rewrite Z.add_comm, Z.div_add, Z.div_small by lia; lia).
  assert (E2 : mag (mkf s m) = m) by (unfold mag, mkf; rewrite Z.add_comm, Z.mod_add, Z.mod_small by lia; lia).
  unfold sval. rewrite E1, E2. auto.
Qed.

Lemma ulp_nonneg m : (0 <= m)%Z -> (0 <= ulp_units m)%Z.
Proof. intros. unfold ulp_units. pose proof (mag_val_lt m (m + 1)). lia. Qed.

Section Lift.
Context `{P : profile}.

Lemma scaled_real M SH v rho D n d :
  (2 ^ 255 <= M <= 2 ^ 256 - 2 ^ 250)%Z -> (0 <= SH <= 300)%Z -> (0 <= v < 2 ^ 256)%Z ->
  (0 < mag v < INFm)%Z -> (0 <= qe (mag v) - SH + Z.log2 (sg (mag v)) + 19 <= 524284)%Z ->
  0 <= D -> - D <= rho * IZR (2 ^ SH) - IZR M <= D ->
  3 / 4 + D / IZR (2 ^ 19) <= IZR n / IZR d -> 1 / 2 + D * IZR (2 ^ 237) / IZR M <= IZR n / IZR d ->
  exists r, scaled (of256 M) SH (of256 v) = Some (of256 r) /\ (0 <= r < 2 ^ 256)%Z /\ scaled_within rho n d v r.
Proof.
  intros HM HS Hv Hm Hk HD HR B1 B2.
  destruct (scaled_ok M SH v HM HS Hv Hm Hk) as (m & E & Hr & N).
  assert (Hsg : (sgn v = 0 \/ sgn v = 1)%Z).
  { unfold sgn. assert (0 <= v / 2 ^ 255 < 2)%Z by (apply div_bound; lia). lia. }
  pose proof INFm_lt as IL.
  destruct (sval_mkf (sgn v) m Hsg ltac:(lia)) as (S1 & S2 & S3).
  exists (mkf (sgn v) m). split; [exact E|]. split. { unfold mkf. destruct Hsg as [-> | ->]; lia. }
  unfold scaled_within. unfold finb. rewrite S1, S2, S3. split. { apply Z.ltb_lt. lia. } split; [reflexivity|].
  assert (HU : 0 <= IZR (ulp_units m)) by (apply IZR_le, ulp_nonneg; lia).
  assert (Hx : (0 <= mag_val (mag v))%Z) by (apply mag_val_nonneg; lia).
  pose proof (near_real M SH _ _ _ rho D N Hx ltac:(lia) ltac:(lia) HD HR) as C. clear N E.
  assert (EQ : Rabs (IZR ((1 - 2 * sgn v) * mag_val m) - IZR (sval v) * rho)
    = Rabs (IZR (mag_val m) - IZR (mag_val (mag v)) * rho)).
  { unfold sval. destruct Hsg as [-> | ->].
    - rewrite !Z.mul_1_l. reflexivity.
    - change (1 - 2 * 1)%Z with (-1)%Z. rewrite !mult_IZR, <- (Rabs_Ropp (IZR (mag_val m) - _)). f_equal. ring. }
  rewrite EQ. destruct C as [C|C]; (eapply Rle_trans; [exact C|]); apply Rmult_le_compat_r; auto.
Qed.

(** ** The two functions *)
Lemma L_degrees x : wf256 x -> (2 ^ 231 <= mag (v256 x) < INFm - 6 * 2 ^ 236)%Z ->
  returns_in (to_degrees x) (scaled_within DEG 127 100 (v256 x)).
Proof.
  intros Wx Hm. rewrite <- (of256_v256 x Wx) at 1. pose proof (v256_bound x Wx) as B. set (v := v256 x) in *. clearbody v. clear x Wx.
  rewrite to_degrees_eq. set (a := mag v) in *.
  assert (HK : (0 <= qe a - 250 + Z.log2 (sg a) + 19 <= 524284)%Z).
  { pose proof (sg_qe a ltac:(lia)) as [E C]. pose proof (sg_bound a ltac:(lia)) as S. pose proof (qe_nonneg a) as Q.
    assert (L2 : (Z.log2 (sg a) <= 236)%Z).
    { destruct (Z.eq_dec (sg a) 0) as [->|]. cbv; discriminate. assert (Z.log2 (sg a) < 237)%Z by (apply Z.log2_lt_pow2; lia). lia. }
    assert (L1 : (231 <= Z.log2 (sg a))%Z).
    { apply Z.log2_le_pow2. destruct C as [C|C]; [rewrite C in E|]; lia. destruct C as [C|C]; [rewrite C in E|]; lia. }
    assert (qe a <= 524279)%Z.
    { unfold qe. assert (a / 2 ^ 236 < 524281)%Z; [|lia]. apply Z.div_lt_upper_bound; unfold INFm in Hm; lia. }
    lia. }
  pose proof deg_const as [K1 K2]. rewrite minus_IZR in K1, K2.
  destruct (scaled_real MDEG 250 v DEG 269375 127 100) as (r & E & Hr & S); auto; try (unfold MDEG; lia); try lra.
  - assert (HM : 0 < IZR MDEG) by (apply IZR_lt; reflexivity).
    apply (Rmult_le_reg_r (IZR MDEG)); auto.
    replace ((1 / 2 + 269375 * IZR (2 ^ 237) / IZR MDEG) * IZR MDEG) with (1 / 2 * IZR MDEG + 269375 * IZR (2 ^ 237)) by (field; lra).
    assert (X : (100 * 269375 * 2 ^ 237 <= 77 * MDEG)%Z) by zle.
    apply IZR_le in X. rewrite !mult_IZR in X. lra.
  - exists (of256 r). split; [exact E|]. split. apply wf256_of; auto. rewrite v256_of by auto. exact S.
Qed.

Lemma L_radians x : wf256 x -> (7 * 2 ^ 236 <= mag (v256 x) < INFm)%Z ->
  returns_in (to_radians x) (scaled_within RAD 751 1000 (v256 x)).
Proof.
  intros Wx Hm. rewrite <- (of256_v256 x Wx) at 1. pose proof (v256_bound x Wx) as B. set (v := v256 x) in *. clearbody v. clear x Wx.
  rewrite to_radians_eq. set (a := mag v) in *.
  assert (HK : (0 <= qe a - 261 + Z.log2 (sg a) + 19 <= 524284)%Z).
  { pose proof (sg_qe a ltac:(lia)) as [E C]. pose proof (sg_bound a ltac:(lia)) as S.
    assert (Q6 : (6 <= qe a <= 524286)%Z).
    { unfold qe. assert (7 <= a / 2 ^ 236 < 524287)%Z; [|lia]. unfold INFm in Hm. split.
      apply Z.div_le_lower_bound; lia. apply Z.div_lt_upper_bound; lia. }
    assert (L : (Z.log2 (sg a) = 236)%Z) by (apply Z.log2_unique; lia).
    lia. }
  pose proof rad_const as [K1 K2]. rewrite plus_IZR in K2.
  destruct (scaled_real MRAD 261 v RAD 1 751 1000) as (r & E & Hr & S); auto; try (unfold MRAD; lia); try lra.
  - assert (HM : 0 < IZR MRAD) by (apply IZR_lt; reflexivity).
    apply (Rmult_le_reg_r (IZR MRAD)); auto.
    replace ((1 / 2 + 1 * IZR (2 ^ 237) / IZR MRAD) * IZR MRAD) with (1 / 2 * IZR MRAD + IZR (2 ^ 237)) by (field; lra).
    assert (X : (1000 * 2 ^ 237 <= 251 * MRAD)%Z) by zle.
    apply IZR_le in X. rewrite !mult_IZR in X. lra.
  - exists (of256 r). split; [exact E|]. split. apply wf256_of; auto. rewrite v256_of by auto. exact S.
Qed.

End Lift.

(** ** Rounding is not correct *)

(** Comparison with a multiple of [rho] far enough from the encoding with significand
    [q] and exponent [e + j] *)
Lemma scale_diff x R U x0 q w rho n d : (0 < w)%Z -> (0 < d)%Z ->
  x = (x0 * w)%Z -> R = (q * w)%Z -> forall u0, U = (u0 * w)%Z ->
  IZR n / IZR d * IZR u0 < Rabs (IZR q - IZR x0 * rho) ->
  IZR n / IZR d * IZR U < Rabs (IZR R - IZR x * rho).
Proof.
  intros Hw Hd -> -> u0 -> H. assert (Hw' : 0 < IZR w) by (apply IZR_lt; lia).
  rewrite !mult_IZR. replace (IZR q * IZR w - IZR x0 * IZR w * rho) with ((IZR q - IZR x0 * rho) * IZR w) by ring.
  rewrite Rabs_mult, (Rabs_pos_eq (IZR w)) by lra. rewrite <- Rmult_assoc.
  apply Rmult_lt_compat_r; auto.
Qed.

(** In a debug build every zero, infinity and NaN panics. *)
Lemma L_special_panics x : wf256 x -> finb (v256 x) = false \/ zerob (v256 x) = true ->
  @to_degrees true x = None /\ @to_radians true x = None.
Proof.
  intros Wx H. rewrite <- (@of256_v256 true x Wx). pose proof (v256_bound x Wx) as B. set (v := v256 x) in *. clearbody v. clear x Wx.
  rewrite to_degrees_eq, to_radians_eq. unfold scaled.
  destruct (finb v) eqn:Hf.
  - destruct H as [H|Hz]; [discriminate|]. rewrite (@integral_significand_ok true), (@quantum_exponent_ok true), Hz, !bind_Some by auto.
    unfold zerob in Hz. apply Z.eqb_eq in Hz. rewrite Hz. change (sg 0) with 0%Z.
    rewrite !(@wmul256 true) by (unfold MDEG, MRAD; lia). rewrite !bind_Some. split; reflexivity.
  - unfold integral_significand. rewrite !(@is_finite_of true), Hf. split; reflexivity.
Qed.

Lemma not_in m (Q : Z -> Prop) :
  match option_map v256 m with Some r => ~ Q r | None => True end -> ~ returns_in m Q.
Proof. intros H (z & -> & _ & S). exact (H S). Qed.

Lemma not_within rho n d v r : (IZR n / IZR d * IZR (ulp_units (mag r)) < Rabs (IZR (sval r) - IZR (sval v) * rho))%R ->
  ~ scaled_within rho n d v r.
Proof. intros H (_ & _ & S). lra. Qed.

(** [to_degrees] of 27 and [to_radians] of 121 *)
Definition x27 : Z := (262147 * 2 ^ 236 + 11 * 2 ^ 232)%Z.
Definition r27 : Z := (262152 * 2 ^ 236 + 166826645271956335400661191975134233288219250502462385868378618162341298)%Z.
Definition x121 : Z := (262149 * 2 ^ 236 + 57 * 2 ^ 230)%Z.
Definition r121 : Z := (262143 * 2 ^ 236 + 116603535556538171868611516094486748857128881498801665902168036262911178)%Z.

Lemma sval_at E c v : (0 <= E < 524286)%Z -> (2 ^ 236 <= c < 2 ^ 237)%Z -> v = (E * 2 ^ 236 + c)%Z ->
  sval v = (c * 2 ^ E)%Z /\ (c + 1 < 2 ^ 237 -> ulp_units (mag v) = 2 ^ E)%Z.
Proof.
  intros HE Hc ->. assert (HB : (0 <= E * 2 ^ 236 + c < 2 ^ 255)%Z) by lia.
  pose proof (sval_mkf 0 (E * 2 ^ 236 + c) ltac:(auto) HB) as (A & _ & B). unfold mkf in A, B.
  rewrite Z.mul_0_l, Z.add_0_l in A, B. rewrite A, B. rewrite Z.mul_1_l, mag_val_signif by lia. split; [auto|].
  intros H. unfold ulp_units. replace (E * 2 ^ 236 + c + 1)%Z with (E * 2 ^ 236 + (c + 1))%Z by lia.
  rewrite !mag_val_signif by lia. lia.
Qed.

Lemma off_by rho n d v r a i c j q : (0 <= a)%Z -> (0 <= i)%Z -> (0 <= j)%Z -> (a + i < 524286)%Z -> (a + j < 524286)%Z ->
  (2 ^ 236 <= c < 2 ^ 237)%Z -> (2 ^ 236 <= q < 2 ^ 237 - 1)%Z -> (0 < d)%Z ->
  v = ((a + i) * 2 ^ 236 + c)%Z -> r = ((a + j) * 2 ^ 236 + q)%Z ->
  IZR n / IZR d * IZR (2 ^ j) < Rabs (IZR (q * 2 ^ j) - IZR (c * 2 ^ i) * rho) ->
  ~ scaled_within rho n d v r.
Proof.
  intros Ha Hi Hj A1 A2 Hc Hq Hd Ev Er H. apply not_within.
  destruct (sval_at (a + i) c v ltac:(lia) Hc Ev) as [-> _].
  destruct (sval_at (a + j) q r ltac:(lia) ltac:(lia) Er) as [-> U]. rewrite U by (clear - Hq; lia). clear U.
  pose proof (pow2_pos a Ha) as Pw. rewrite !Z.pow_add_r by lia. revert Pw. generalize (2 ^ a)%Z. intros w Pw.
  apply (scale_diff _ _ _ (c * 2 ^ i) (q * 2 ^ j) w rho n d Pw Hd) with (u0 := (2 ^ j)%Z); [ring|ring|ring|exact H].
Qed.

Lemma deg27_off : ~ scaled_within DEG 108 100 x27 r27.
Proof.
  set (q := 166826645271956335400661191975134233288219250502462385868378618162341298%Z).
  apply (off_by _ _ _ _ _ 262146 0 (27 * 2 ^ 232) 6 q); try (subst q; lia); try reflexivity.
  eapply Rlt_le_trans; [|apply Rle_abs]. unfold DEG. pose proof PI_RGT_0 as HP.
  assert (B : IZR (18000 * (27 * 2 ^ 232 * 2 ^ 0) + 1) <= PI * IZR (100 * (q * 2 ^ 6) - 108 * 2 ^ 6)) by (apply pi_ge; zle).
  rewrite plus_IZR, minus_IZR, (mult_IZR 18000), !(mult_IZR 100), (mult_IZR 108) in B.
  revert B. generalize (IZR (27 * 2 ^ 232 * 2 ^ 0)) (IZR (q * 2 ^ 6)) (IZR (2 ^ 6)). intros x y u B.
  apply (Rmult_lt_reg_l PI); auto.
  replace (PI * (y - x * (180 / PI))) with (PI * y - 180 * x) by (field; lra).
  lra.
Qed.

Lemma rad121_off : ~ scaled_within RAD 7 10 x121 r121.
Proof.
  set (q := 116603535556538171868611516094486748857128881498801665902168036262911178%Z).
  apply (off_by _ _ _ _ _ 262143 5 (121 * 2 ^ 230) 0 q); try (subst q; lia); try reflexivity.
  eapply Rlt_le_trans; [|apply Rle_abs]. unfold RAD. pose proof PI_RGT_0 as HP.
  assert (B : PI * IZR (10 * (121 * 2 ^ 230 * 2 ^ 5)) <= IZR (1800 * (q * 2 ^ 0) - 7 * 180 * 2 ^ 0 - 1)) by (apply pi_le; zle).
  rewrite !minus_IZR, (mult_IZR 10), (mult_IZR 1800), (mult_IZR (7 * 180)) in B. change (IZR (7 * 180)) with 1260 in B.
  revert B. generalize (IZR (121 * 2 ^ 230 * 2 ^ 5)) (IZR (q * 2 ^ 0)) (IZR (2 ^ 0)). intros x y u B.
  lra.
Qed.

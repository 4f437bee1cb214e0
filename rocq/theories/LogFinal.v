(** * LogFinal: the logarithms on values of the type *)

From Coq Require Import ZArith Lia Bool Reals Lra List.
From Verif Require Import Base BigUInt ZLemmas BigLaws BigUIntProofs BigExtra Spec SpecFns F256 Arith SpecLemmas SpecAlg
  F256Lemmas BasicProofs CodecProofs SosProofs SpecDeg SpecLog LogTable Log FpProofs LogProofs LnBound LogReal LogUlp LogRound
  Interface LiftProofs.
Open Scope Z_scope.

(** The bit pattern of a [U512] *)
Definition wf512 (x : U512) : Prop := wf256 (hi x) /\ wf256 (lo x).
Definition v512 (x : U512) : Z := v256 (hi x) * 2 ^ 256 + v256 (lo x).
Definition fp_bits (w : Z) : U512 := mk (bits (w / 2 ^ 256)) (bits (w mod 2 ^ 256)).

Section Fin.
Context {P : profile}.

Lemma rs_bound v : 0 <= rnd_signed 0 v 1 < 2 ^ 256.
Proof. apply rnd_signed_bound; auto. lia. Qed.

Lemma NAN_of : Some NAN = Some (of256 QNAN). Proof. reflexivity. Qed.

(** Both claims together *)
Lemma log_lift (f : f256 -> option f256) (g : R -> R) (h : Z -> Z) (Q : Z -> Z -> Prop) :
  (forall v, 0 <= v < 2 ^ 256 -> finb v = false \/ zerob v = true \/ sgn v = 1 -> f (of256 v) = Some NAN) ->
  (forall v, 0 <= v < 2 ^ 256 -> finb v = true -> zerob v = false -> sgn v = 0 ->
     f (of256 v) = Some (of256 (rnd_signed 0 (h v * 2 ^ (UNITe - 492)) 1))) ->
  (forall v, 0 <= v < 2 ^ 256 -> finb v = true -> zerob v = false -> sgn v = 0 -> Q v (rnd_signed 0 (h v * 2 ^ (UNITe - 492)) 1)) ->
  forall x, wf256 x -> returns_in (f x) (fun r => finb (v256 x) = true -> zerob (v256 x) = false -> sgn (v256 x) = 0 -> Q (v256 x) r).
Proof.
  intros H1 H2 H3. apply (lift_ind (fun x => returns_in (f x) (fun r => finb (v256 x) = true -> zerob (v256 x) = false -> sgn (v256 x) = 0 -> Q (v256 x) r))).
  intros v Hv. rewrite v256_of. apply returns_in_of.
  destruct (finb v) eqn:F; [|exists QNAN; rewrite H1 by auto; split; [exact NAN_of|]; split; [split; [discriminate|reflexivity]|discriminate]].
  destruct (zerob v) eqn:Z0; [exists QNAN; rewrite H1 by auto; split; [exact NAN_of|]; split; [split; [discriminate|reflexivity]|discriminate]|].
  assert (S : sgn v = 0 \/ sgn v = 1).
  { unfold sgn. pose proof (div_bound v (2 ^ 255) 2 ltac:(lia) ltac:(lia)). lia. }
  destruct S as [S|S].
  - exists (rnd_signed 0 (h v * 2 ^ (UNITe - 492)) 1). rewrite H2 by auto. split; [reflexivity|]. split; [apply rs_bound|]. intros. apply H3; auto.
  - exists QNAN. rewrite H1 by auto. split; [exact NAN_of|]. split; [split; [discriminate|reflexivity]|]. rewrite S. discriminate.
Qed.

Lemma L_nan x : wf256 x -> finb (v256 x) = false \/ zerob (v256 x) = true \/ sgn (v256 x) = 1 ->
  returns (f_ln x) QNAN /\ returns (f_log2 x) QNAN /\ returns (f_log10 x) QNAN.
Proof.
  intros W. revert x W. apply (lift_ind (fun x => finb (v256 x) = false \/ zerob (v256 x) = true \/ sgn (v256 x) = 1 ->
    returns (f_ln x) QNAN /\ returns (f_log2 x) QNAN /\ returns (f_log10 x) QNAN)).
  intros v Hv. rewrite v256_of. intros H. destruct (special_nan v Hv H) as (A & B & C).
  rewrite A, B, C. assert (returns (Some NAN) QNAN) by (apply returns_of; [split; [discriminate|reflexivity]|reflexivity]). auto.
Qed.

Lemma L_ln (Q : Z -> Z -> Prop) : (forall v r, log_result v ln r -> Q v r) ->
  forall x, wf256 x -> returns_in (f_ln x) (fun r => finb (v256 x) = true -> zerob (v256 x) = false -> sgn (v256 x) = 0 -> Q (v256 x) r).
Proof.
  intros HQ. apply (log_lift f_ln ln (fun v => lnZ (mag v))).
  - intros v Hv H. destruct (special_nan v Hv H) as (A & B & C). exact A.
  - intros v Hv Hf Hz Hs. destruct (ln_ok v Hv Hf Hz Hs (lnZ_range v (proj1 Hv) Hf Hz Hs)) as (A & B & C). exact A.
  - intros v Hv Hf Hz Hs. apply HQ. exact (ln_result v (proj1 Hv) Hf Hz Hs).
Qed.
Lemma L_log2 (Q : Z -> Z -> Prop) : (forall v r, log_result v (log_b 2) r -> Q v r) ->
  forall x, wf256 x -> returns_in (f_log2 x) (fun r => finb (v256 x) = true -> zerob (v256 x) = false -> sgn (v256 x) = 0 -> Q (v256 x) r).
Proof.
  intros HQ. apply (log_lift f_log2 (log_b 2) (fun v => scaleZ L2EZ (lnZ (mag v)))).
  - intros v Hv H. destruct (special_nan v Hv H) as (A & B & C). exact B.
  - intros v Hv Hf Hz Hs. destruct (ln_ok v Hv Hf Hz Hs (lnZ_range v (proj1 Hv) Hf Hz Hs)) as (A & B & C). exact B.
  - intros v Hv Hf Hz Hs. apply HQ. exact (log2_result v (proj1 Hv) Hf Hz Hs).
Qed.
Lemma L_log10 (Q : Z -> Z -> Prop) : (forall v r, log_result v (log_b 10) r -> Q v r) ->
  forall x, wf256 x -> returns_in (f_log10 x) (fun r => finb (v256 x) = true -> zerob (v256 x) = false -> sgn (v256 x) = 0 -> Q (v256 x) r).
Proof.
  intros HQ. apply (log_lift f_log10 (log_b 10) (fun v => scaleZ L10EZ (lnZ (mag v)))).
  - intros v Hv H. destruct (special_nan v Hv H) as (A & B & C). exact C.
  - intros v Hv Hf Hz Hs. destruct (ln_ok v Hv Hf Hz Hs (lnZ_range v (proj1 Hv) Hf Hz Hs)) as (A & B & C). exact C.
  - intros v Hv Hf Hz Hs. apply HQ. exact (log10_result v (proj1 Hv) Hf Hz Hs).
Qed.

Lemma L_ulp : forall x, wf256 x -> returns_in (f_ln x) (spec_log ln 65 128 (v256 x))
  /\ returns_in (f_log2 x) (spec_log (log_b 2) 65 128 (v256 x)) /\ returns_in (f_log10 x) (spec_log (log_b 10) 65 128 (v256 x)).
Proof.
  intros x W. repeat split.
  - exact (L_ln (fun v r => within_ulp 65 128 (ln (rval v)) r) (fun v r H => proj1 H) x W).
  - exact (L_log2 (fun v r => within_ulp 65 128 (log_b 2 (rval v)) r) (fun v r H => proj1 H) x W).
  - exact (L_log10 (fun v r => within_ulp 65 128 (log_b 10 (rval v)) r) (fun v r H => proj1 H) x W).
Qed.

Lemma L_exact : forall x, wf256 x -> returns_in (f_ln x) (spec_log_exact ln (v256 x))
  /\ returns_in (f_log2 x) (spec_log_exact (log_b 2) (v256 x)) /\ returns_in (f_log10 x) (spec_log_exact (log_b 10) (v256 x)).
Proof.
  intros x W. repeat split.
  - exact (L_ln (fun v r => forall j, ln (rval v) = IZR j -> finb r = true /\ sval r = j * 2 ^ UNITe) (fun v r H => proj1 (proj2 H)) x W).
  - exact (L_log2 (fun v r => forall j, log_b 2 (rval v) = IZR j -> finb r = true /\ sval r = j * 2 ^ UNITe) (fun v r H => proj1 (proj2 H)) x W).
  - exact (L_log10 (fun v r => forall j, log_b 10 (rval v) = IZR j -> finb r = true /\ sval r = j * 2 ^ UNITe) (fun v r H => proj1 (proj2 H)) x W).
Qed.

(** Powers of two and of ten *)
Lemma rval_pow2 U v k : U = UNITe -> 0 <= k -> sval v = 2 ^ k -> log_b 2 (rval v) = IZR (k - UNITe).
Proof.
  intros HU Hk E. unfold rval. rewrite E. rewrite <- HU. assert (U0 : 0 <= U) by (rewrite HU; unfold UNITe; lia). clear HU.
  unfold log_b, Rdiv.
  assert (PU : (0 < IZR (2 ^ U))%R) by (apply (IZR_lt 0), pow2_pos; auto).
  assert (PK : (0 < IZR (2 ^ k))%R) by (apply (IZR_lt 0), pow2_pos; auto).
  rewrite ln_mult, ln_Rinv; auto; [|apply Rinv_0_lt_compat; auto]. rewrite !ln_pow2 by auto. rewrite minus_IZR.
  pose proof ln2_num. field. lra.
Qed.

Lemma ln_pow10 k : 0 <= k -> ln (IZR (10 ^ k)) = (IZR k * ln 10)%R.
Proof.
  intros Hk. pattern k. apply natlike_ind; auto.
  - rewrite Z.pow_0_r. rewrite ln_1. ring.
  - intros y Hy IH. rewrite Z.pow_succ_r, mult_IZR, ln_mult by (auto; try lra; apply (IZR_lt 0), Z.pow_pos_nonneg; lia).
    rewrite IH, succ_IZR. ring.
Qed.

Lemma rval_pow10 U v k : U = UNITe -> 0 <= k -> sval v = 10 ^ k * 2 ^ U -> log_b 10 (rval v) = IZR k.
Proof.
  intros HU Hk E. unfold rval. rewrite E. rewrite <- HU. assert (U0 : 0 <= U) by (rewrite HU; unfold UNITe; lia). clear HU E.
  assert (PU : (0 < IZR (2 ^ U))%R) by (apply (IZR_lt 0), pow2_pos; auto).
  rewrite mult_IZR. replace (IZR (10 ^ k) * IZR (2 ^ U) / IZR (2 ^ U))%R with (IZR (10 ^ k)) by (field; lra).
  unfold log_b. rewrite ln_pow10 by auto. pose proof ln10_num. field. lra.
Qed.

Lemma L_pow2 x k : wf256 x -> finb (v256 x) = true -> zerob (v256 x) = false -> sgn (v256 x) = 0 -> 0 <= k -> sval (v256 x) = 2 ^ k ->
  returns_in (f_log2 x) (fun r => finb r = true /\ sval r = (k - UNITe) * 2 ^ UNITe).
Proof.
  intros W F Z0 S Hk E. destruct (L_exact x W) as (_ & (z & Ez & Wz & H) & _). exists z. split; auto. split; auto.
  apply (H F Z0 S). apply (rval_pow2 UNITe); auto.
Qed.
Lemma L_pow10 x k : wf256 x -> finb (v256 x) = true -> zerob (v256 x) = false -> sgn (v256 x) = 0 -> 0 <= k -> sval (v256 x) = 10 ^ k * 2 ^ UNITe ->
  returns_in (f_log10 x) (fun r => finb r = true /\ sval r = k * 2 ^ UNITe).
Proof.
  intros W F Z0 S Hk E. destruct (L_exact x W) as (_ & _ & (z & Ez & Wz & H)). exists z. split; auto. split; auto.
  apply (H F Z0 S). apply (rval_pow10 UNITe); auto.
Qed.

(** ** Fixed point numbers *)
Lemma fp_lift x : wf512 x -> x = fpz (fp_units (v512 x)) /\ - 2 ^ 511 <= fp_units (v512 x) < 2 ^ 511.
Proof.
  intros [H1 H2]. pose proof (v256_bound _ H1) as B1. pose proof (v256_bound _ H2) as B2.
  assert (E : x = of512 (v512 x)).
  { unfold v512. rewrite <- of512_join by lia. rewrite !of256_v256 by auto. destruct x; reflexivity. }
  assert (B : 0 <= v512 x < 2 ^ 512) by (unfold v512; lia).
  unfold fp_units. destruct (Z.ltb_spec (v512 x) (2 ^ 511)).
  - rewrite fpz_pos by lia. split; [exact E|lia].
  - rewrite fpz_neg by lia. replace (v512 x - 2 ^ 512 + 2 ^ 512) with (v512 x) by lia. split; [exact E|lia].
Qed.

Lemma fp_back V : - 2 ^ 511 <= V < 2 ^ 511 -> wf512 (fpz V) /\ fp_units (v512 (fpz V)) = V.
Proof.
  intros HV. unfold fpz. pose proof (fpz_bound V) as B. set (a := V mod 2 ^ 512) in *.
  assert (A : a = V \/ a = V + 2 ^ 512 /\ V < 0).
  { destruct (Z.lt_ge_cases V 0); [right|left]; unfold a; [split; [apply (mod_eq _ _ (-1)); lia|lia]|apply Z.mod_small; lia]. }
  clearbody a. rewrite <- of512_split. unfold wf512, v512. cbn [hi lo].
  assert (Hh : 0 <= a / 2 ^ 256 < 2 ^ 256) by (apply div_bound; lia). pose proof (Z.mod_pos_bound a (2 ^ 256) ltac:(lia)) as Hl.
  split; [split; apply wf256_of; lia|]. rewrite !v256_of. pose proof (Z.div_mod a (2 ^ 256) ltac:(lia)) as D.
  replace (a / 2 ^ 256 * 2 ^ 256 + a mod 2 ^ 256) with a by lia. unfold fp_units. destruct (Z.ltb_spec a (2 ^ 511)); lia.
Qed.

Lemma L_fp_to_f256 x : wf512 x -> fp_units (v512 x) <> - 2 ^ 511 ->
  returns (f256_of_fp x) (rnd_signed 0 (fp_units (v512 x) * 2 ^ (UNITe - 492)) 1).
Proof.
  intros W N. destruct (fp_lift x W) as [E B]. set (V := fp_units (v512 x)) in *. clearbody V. subst x.
  apply returns_of; [apply rs_bound|]. apply f256_of_fp_ok. lia.
Qed.

Definition fp_returns (m : option U512) (Q : Z -> Prop) : Prop := exists z, m = Some z /\ wf512 z /\ Q (fp_units (v512 z)).

Lemma L_fp_mul x y : wf512 x -> wf512 y -> - 2 ^ 511 < fp_units (v512 x) -> - 2 ^ 511 < fp_units (v512 y) ->
  Z.abs (fp_units (v512 x) * fp_units (v512 y)) < 2 ^ 1003 - 2 ^ 492 ->
  fp_returns (fp_imul_round x y) (fun r =>
    Z.abs (r * 2 ^ 492 - fp_units (v512 x) * fp_units (v512 y)) < 2 ^ 492
    /\ ((fp_units (v512 x) * fp_units (v512 y)) mod 2 ^ 492 = 0 -> r * 2 ^ 492 = fp_units (v512 x) * fp_units (v512 y))).
Proof.
  intros Wx Wy Nx Ny HM. destruct (fp_lift x Wx) as [Ex Bx]. destruct (fp_lift y Wy) as [Ey By].
  set (a := fp_units (v512 x)) in *. set (b := fp_units (v512 y)) in *. clearbody a b. subst x y.
  rewrite fp_mul_ok by lia. rewrite <- Z.sgn_mul. set (c := a * b) in *. clearbody c. clear a b Bx By Nx Ny Wx Wy.
  assert (E : c = Z.sgn c * Z.abs c) by (rewrite Z.mul_comm, Z.abs_sgn; reflexivity).
  destruct (mulr_spec (Z.abs c) ltac:(lia)) as (M0 & M1 & M2).
  assert (X : c mod 2 ^ 492 = 0 -> mulr (Z.abs c) * 2 ^ 492 = Z.abs c).
  { intros H. apply Z.div_exact in H; [|lia]. assert (Z.abs c = Z.abs (c / 2 ^ 492) * 2 ^ 492) as ->.
    { rewrite H at 1. rewrite Z.abs_mul, (Z.abs_eq (2 ^ 492)) by lia. ring. }
    rewrite mulr_exact by lia. reflexivity. }
  set (q := mulr (Z.abs c)) in *. clearbody q.
  assert (QB : q < 2 ^ 511) by lia.
  destruct (fp_back (Z.sgn c * q)) as [WB VB]. { destruct (Z.sgn_spec c) as [[H ->]|[[H ->]|[H ->]]]; lia. }
  eexists. split; [reflexivity|]. split; [exact WB|]. rewrite VB. clear VB WB E.
  destruct (Z.sgn_spec c) as [[H ->]|[[H ->]|[H ->]]]; split; try lia; intros HX; specialize (X HX); lia.
Qed.

Lemma L_fp_add x y : wf512 x -> wf512 y -> - 2 ^ 511 <= fp_units (v512 x) + fp_units (v512 y) < 2 ^ 511 ->
  fp_units (v512 (fp_add x y)) = fp_units (v512 x) + fp_units (v512 y).
Proof.
  intros Wx Wy HM. destruct (fp_lift x Wx) as [Ex Bx]. destruct (fp_lift y Wy) as [Ey By].
  set (a := fp_units (v512 x)) in *. set (b := fp_units (v512 y)) in *. clearbody a b. subst x y.
  rewrite fp_add_ok. apply fp_back. auto.
Qed.
Lemma L_fp_cmp x y : wf512 x -> wf512 y -> fp_cmp x y = (fp_units (v512 x) ?= fp_units (v512 y)).
Proof.
  intros Wx Wy. destruct (fp_lift x Wx) as [Ex Bx]. destruct (fp_lift y Wy) as [Ey By].
  set (a := fp_units (v512 x)) in *. set (b := fp_units (v512 y)) in *. clearbody a b. subst x y. apply fp_cmp_ok; lia.
Qed.

Lemma L_log_special x : wf256 x -> nanb (v256 x) = true \/ sgn (v256 x) = 1 /\ zerob (v256 x) = false ->
  returns_in (f_ln x) (spec_log_special (v256 x)) /\ returns_in (f_log2 x) (spec_log_special (v256 x))
  /\ returns_in (f_log10 x) (spec_log_special (v256 x)).
Proof.
  intros W H. set (v := v256 x) in *.
  assert (A : finb v = false \/ zerob v = true \/ sgn v = 1).
  { destruct H as [H|[H _]]; auto. left. unfold nanb, finb in *. apply Z.ltb_lt in H. apply Z.ltb_ge. lia. }
  assert (B : spec_log_special v QNAN).
  { unfold spec_log_special. destruct (nanb v) eqn:N; [reflexivity|]. destruct H as [H|[H1 H2]]; [discriminate|].
    rewrite H2, H1. reflexivity. }
  assert (C : forall m, returns m QNAN -> returns_in m (spec_log_special v)).
  { intros m (z & E1 & E2 & E3). exists z. rewrite E3. auto. }
  destruct (L_nan x W A) as (A1 & A2 & A3). repeat split; apply C; assumption.
Qed.
End Fin.

(** The table *)
Lemma ok_lut_nth l : forall n i f g, ok_lut n l = true -> nth_error l i = Some (f, g) ->
  w512 f = 2 ^ 492 + 2 ^ (492 - (n + Z.of_nat i)).
Proof.
  induction l as [|[f0 g0] l IH]; intros n i f g H E; [destruct i; discriminate|].
  cbn [ok_lut] in H. rewrite !andb_true_iff in H. destruct i as [|i]; cbn [nth_error] in E.
  - injection E as -> ->. replace (n + Z.of_nat 0) with n by lia. apply Z.eqb_eq. tauto.
  - rewrite (IH (n + 1) i f g); [f_equal; f_equal; lia|tauto|auto].
Qed.
Lemma L_table i f l : nth_error LUT i = Some (f, l) ->
  w512 f = 2 ^ 492 + 2 ^ (491 - Z.of_nat i)
  /\ (Rabs (IZR (w512 l) - IZR (2 ^ 492) * ln (1 + / IZR (2 ^ (1 + Z.of_nat i)))) <= 3 / 4)%R.
Proof.
  intros E. destruct LUT_ok as [O L]. split.
  - rewrite (ok_lut_nth _ _ _ _ _ O E). f_equal. f_equal. lia.
  - apply (ok_ll_nth LL 1 LL_ok i).
    + unfold LL. exact (map_nth_error (fun p => w512 (snd p)) _ _ E).
    + lia.
    + assert (i < length LUT)%nat by (apply nth_error_Some; congruence). lia.
Qed.

(** * TrigSym: symmetries, agreement and special values of the trigonometric functions *)

From Coq Require Import ZArith Lia Bool Reals Lra List.
From Verif Require Import Base BigUInt ZLemmas BigLaws BigUIntProofs BigExtra Spec SpecFns F256 Arith Conv SpecLemmas SpecAlg
  F256Lemmas BasicProofs SpecDeg SpecLog SpecTrig LogTable Log LnBound LogReal LnBound Interface LiftProofs LogFinal TrigTable Trig TrigApprox TrigReduce TrigReal TrigFinal.
Import ListNotations.
Open Scope Z_scope.

Section Sym.
Context {P : profile}.
Variable large : Z -> f256 -> option (Z * FP492).

Lemma xor_sign h : Z.land (Z.lxor h HI_SIGN_MASK) HI_ABS_MASK = Z.land h HI_ABS_MASK.
Proof.
  apply Z.bits_inj'. intros n Hn. rewrite !Z.land_spec, Z.lxor_spec. destruct (Z.testbit HI_ABS_MASK n) eqn:E; [|rewrite !andb_false_r; reflexivity].
  rewrite !andb_true_r. replace (Z.testbit HI_SIGN_MASK n) with false; [apply xorb_false_r|]. symmetry.
  change HI_SIGN_MASK with (2 ^ 127). change HI_ABS_MASK with (Z.ones 127) in E. destruct (Z.lt_ge_cases n 127) as [L|L]; [apply Z.pow2_bits_false; lia|].
  rewrite Z.ones_spec_high in E by lia. discriminate.
Qed.

Lemma negated_twice x : negated (negated x) = x.
Proof.
  unfold negated, xhi, xlo, u256. destruct x as [[h] [l]]. cbn [hi lo val]. do 2 f_equal. f_equal.
  rewrite Z.lxor_assoc, Z.lxor_nilpotent, Z.lxor_0_r. reflexivity.
Qed.
Lemma abs_negated x : abs (negated x) = abs x.
Proof. unfold abs, negated, xhi, xlo, u256. cbn [hi lo val]. rewrite xor_sign. reflexivity. Qed.
Lemma xhi_negated x : Z.land (xhi (negated x)) HI_ABS_MASK = Z.land (xhi x) HI_ABS_MASK.
Proof. unfold negated, xhi, xlo, u256. cbn [hi lo val]. apply xor_sign. Qed.

Lemma special_negated x : is_special (negated x) = is_special x.
Proof. unfold is_special. rewrite xhi_negated. reflexivity. Qed.

Lemma L_cos_even x : f_cos large (negated x) = f_cos large x.
Proof. unfold f_cos. rewrite special_negated, xhi_negated, abs_negated. reflexivity. Qed.

Lemma L_sin_odd x : wf256 x -> finb (v256 x) = true -> zerob (v256 x) = false ->
  f_sin large (negated x) = let! r := f_sin large x in Some (negated r).
Proof.
  intros W Hf Hz. unfold f_sin. rewrite special_negated, abs_negated.
  assert (ES : is_special x = false) by (rewrite <- (of256_v256 x W), is_special_of, Hf, Hz by (apply v256_bound; auto); reflexivity).
  rewrite ES. destruct (reduce large (abs x)) as [[q fx]|]; [|reflexivity]. rewrite !bind_Some. cbv beta iota.
  destruct (if (q =? 0) || (q =? 2) then _ else _) as [r|]; [|reflexivity]. rewrite !bind_Some.
  destruct (f256_of_fp r) as [f|]; [|reflexivity]. rewrite !bind_Some.
  assert (EG : (sign (negated x) =? 0) = negb (sign x =? 0)).
  { pose proof (v256_bound x W) as B. rewrite <- (of256_v256 x W). rewrite negated_of by auto. pose proof (spec_neg_bound (v256 x) B) as B2.
    rewrite !sign_of by auto. change (sgn (spec_neg (v256 x)) =? 0 = negb (sgn (v256 x) =? 0)). rewrite sgn_neg by auto.
    destruct (sgn01 (v256 x) B) as [-> | ->]; reflexivity. }
  rewrite EG. destruct (sign x =? 0), (q <=? 1); cbn [negb Bool.eqb]; rewrite ?negated_twice; reflexivity.
Qed.

Lemma cut_mono a : fp_le a COS_CUT_OFF = true -> fp_le a SIN_CUT_OFF = true.
Proof.
  unfold fp_le, fp_cmp. destruct a as [[[a] [b]] [[c] [d]]]. cbn [hi lo val].
  set (h := Z.lxor a (2 ^ 127)). clearbody h.
  change (ucmp (mk (u256 h b) (mk (mk128 c) (mk128 d)))
    (mk (u256 (Z.lxor (val (hi (hi COS_CUT_OFF))) (2 ^ 127)) (val (lo (hi COS_CUT_OFF)))) (lo COS_CUT_OFF)))
    with (match (match h ?= Z.lxor (val (hi (hi COS_CUT_OFF))) (2 ^ 127) with Eq => b ?= val (lo (hi COS_CUT_OFF)) | c => c end) with
          Eq => match c ?= val (hi (lo COS_CUT_OFF)) with Eq => d ?= val (lo (lo COS_CUT_OFF)) | c => c end | c => c end).
  change (ucmp (mk (u256 h b) (mk (mk128 c) (mk128 d)))
    (mk (u256 (Z.lxor (val (hi (hi SIN_CUT_OFF))) (2 ^ 127)) (val (lo (hi SIN_CUT_OFF)))) (lo SIN_CUT_OFF)))
    with (match (match h ?= Z.lxor (val (hi (hi SIN_CUT_OFF))) (2 ^ 127) with Eq => b ?= val (lo (hi SIN_CUT_OFF)) | c => c end) with
          Eq => match c ?= val (hi (lo SIN_CUT_OFF)) with Eq => d ?= val (lo (lo SIN_CUT_OFF)) | c => c end | c => c end).
  change (val (hi (hi COS_CUT_OFF))) with (val (hi (hi SIN_CUT_OFF))).
  assert (L : val (lo (hi COS_CUT_OFF)) < val (lo (hi SIN_CUT_OFF))) by (vm_compute; reflexivity).
  destruct (h ?= _); auto. set (u := val (lo (hi COS_CUT_OFF))) in *. set (w := val (lo (hi SIN_CUT_OFF))) in *. clearbody u w.
  destruct (Z.compare_spec b u), (Z.compare_spec b w); auto; try discriminate; lia.
Qed.

Lemma approx_both x : approx_sin_cos x = let! s := approx_sin x in let! c := approx_cos x in Some (s, c).
Proof.
  unfold approx_sin_cos. destruct (fp_le (fp_iabs x) COS_CUT_OFF) eqn:E; [|reflexivity].
  unfold approx_sin, approx_cos. rewrite E, (cut_mono _ E). reflexivity.
Qed.

Lemma L_sin_cos x : f_sin_cos large x = let! s := f_sin large x in let! c := f_cos large x in Some (s, c).
Proof.
  unfold f_sin_cos, f_sin, f_cos. destruct (is_special x); [destruct (_ <? _); reflexivity|].
  destruct (reduce large (abs x)) as [[q fx]|]; [|reflexivity]. rewrite !bind_Some. cbv beta iota. rewrite approx_both.
  assert (HQ : q = 0 \/ q = 1 \/ q = 2 \/ q = 3 \/ (q =? 0 = false /\ q =? 1 = false /\ q =? 2 = false /\ q =? 3 = false)).
  { destruct (Z.eqb_spec q 0), (Z.eqb_spec q 1), (Z.eqb_spec q 2), (Z.eqb_spec q 3); auto 10. }
  destruct HQ as [->|[->|[->|[->|(-> & -> & -> & ->)]]]]; cbn [Z.eqb Pos.eqb orb Z.leb Z.compare Pos.compare Pos.compare_cont]; cbv iota;
  destruct (approx_sin fx) as [s|], (approx_cos fx) as [c|]; rewrite ?bind_Some; cbv beta iota; try reflexivity;
  try (destruct (f256_of_fp s); reflexivity); try (destruct (f256_of_fp c); reflexivity);
  try (destruct (f256_of_fp s), (f256_of_fp c); rewrite ?bind_Some; destruct (sign x =? 0); reflexivity).
Qed.

Lemma special_of v : 0 <= v < 2 ^ 256 -> (xhi MAX <? Z.land (xhi (of256 v)) HI_ABS_MASK) = negb (finb v).
Proof.
  intros Hv. unfold HI_ABS_MASK. rewrite land_pow2_ones, xhi_of by lia.
  assert (E : v / 2 ^ 128 mod 2 ^ 127 = mag v / 2 ^ 128).
  { unfold mag.
    change (2 ^ 255) with (2 ^ 128 * 2 ^ 127). rewrite Z.rem_mul_r by lia.
    rewrite (Z.mul_comm (2 ^ 128)), Z.div_add by lia. rewrite (Z.div_small (v mod 2 ^ 128)) by (apply Z.mod_pos_bound; lia). reflexivity. }
  rewrite E. unfold finb, INFm. change (xhi MAX) with (524287 * 2 ^ 108 - 1). pose proof (mag_bound v) as B.
  destruct (Z.ltb_spec (mag v) (524287 * 2 ^ 236)) as [L|L]; cbn [negb]; [apply Z.ltb_ge|apply Z.ltb_lt].
  - assert (mag v / 2 ^ 128 < 524287 * 2 ^ 108) by (apply Z.div_lt_upper_bound; lia). lia.
  - assert (524287 * 2 ^ 108 <= mag v / 2 ^ 128) by (apply Z.div_le_lower_bound; lia). lia.
Qed.

Lemma L_special x : wf256 x -> finb (v256 x) = false \/ zerob (v256 x) = true ->
  returns (f_sin large x) (special_res (v256 x) 0) /\ returns (f_cos large x) (special_res (v256 x) ONEm) /\ returns (f_tan large x) (special_res (v256 x) 0)
  /\ (exists s c, f_sin_cos large x = Some (s, c) /\ returns (Some s) (special_res (v256 x) 0) /\ returns (Some c) (special_res (v256 x) ONEm)).
Proof.
  intros W H. pose proof (v256_bound x W) as B. set (v := v256 x) in *.
  assert (ES : is_special x = true).
  { rewrite <- (of256_v256 x W). fold v. rewrite is_special_of by auto. destruct H as [-> | ->]; [apply orb_true_r|reflexivity]. }
  assert (EX : (xhi MAX <? Z.land (xhi x) HI_ABS_MASK) = negb (finb v)) by (rewrite <- (of256_v256 x W); apply special_of; auto).
  unfold f_sin, f_cos, f_tan, f_sin_cos. rewrite ES, EX. unfold special_res.
  destruct (finb v); cbn [negb]; (split; [|split; [|split; [|eexists _, _; split; [reflexivity|split]]]]);
    (apply returns_of; [unfold QNAN, ONEm, INFm; lia|vm_compute; reflexivity]).
Qed.
End Sym.

Section Claims.
Context {P : profile}.
Variable large : Z -> f256 -> option (Z * FP492).

Lemma within_64 T r n : 0 <= r < 2 ^ 256 -> n <= 130 -> within_ulp n 128 T r -> within_ulp 65 64 T r.
Proof.
  intros B H W. apply (within_weak n 130) in W; auto; [|lia]. destruct W as [F E]. split; auto. eapply Rle_trans; [exact E|]. right. f_equal. lra.
Qed.

Lemma fin_near m T v : (exists n, fin_res m (T (rval v)) n /\ n <= 130 /\ ((Rabs (rval v) < / 2)%R -> n = 65)) -> returns_in m (near T v).
Proof.
  intros (n & (r & -> & B & W) & Hn & H2). apply returns_in_of. exists r. split; [reflexivity|]. split; [exact B|]. split; [apply (within_64 _ _ n); auto|].
  intros L. rewrite (H2 L) in W. exact W.
Qed.

Lemma L_sin x : wf256 x -> finb (v256 x) = true -> (/ IZR (2 ^ 256) <= Rabs (rval (v256 x)) < 8)%R -> returns_in (f_sin large x) (near sin (v256 x)).
Proof. intros W Hf H. apply fin_near. pose proof (sin_fin large (v256 x) (v256_bound x W) Hf H) as R. rewrite (of256_v256 x W) in R. exact R. Qed.
Lemma L_cos x : wf256 x -> finb (v256 x) = true -> (Rabs (rval (v256 x)) < 8)%R -> returns_in (f_cos large x) (near cos (v256 x)).
Proof. intros W Hf H. apply fin_near. pose proof (cos_fin large (v256 x) (v256_bound x W) Hf H) as R. rewrite (of256_v256 x W) in R. exact R. Qed.

Lemma L_tan_wf x : wf256 x -> finb (v256 x) = true -> (/ IZR (2 ^ 256) <= Rabs (rval (v256 x)) < 8)%R ->
  returns_in (f_tan large x) (fun r => exists s c, 0 <= s < 2 ^ 256 /\ 0 <= c < 2 ^ 256 /\ near sin (v256 x) s /\ near cos (v256 x) c /\ r = spec_div s c).
Proof.
  intros W Hf H. destruct (L_sin x W Hf H) as (s & Es & Ws & Ns). destruct (L_cos x W Hf ltac:(apply H)) as (c & Ec & Wc & Nc).
  assert (Hz : zerob (v256 x) = false).
  { destruct (zerob (v256 x)) eqn:Z; auto. exfalso. destruct H as [H _]. unfold rval in H. rewrite sval_zerob in H by auto. unfold Rdiv in H.
    rewrite Rmult_0_l, Rabs_R0 in H. assert (0 < / IZR (2 ^ 256))%R by (apply Rinv_0_lt_compat, IZR_lt; reflexivity). lra. }
  unfold f_tan. assert (ES : is_special x = false) by (rewrite <- (of256_v256 x W), is_special_of, Hf, Hz by (apply v256_bound; auto); reflexivity).
  rewrite ES, L_sin_cos, Es, Ec, !bind_Some. cbv beta iota.
  destruct (L_div s c Ws Wc) as (r & Er & Wr & Nr). exists r. split; [exact Er|]. split; [exact Wr|]. exists (v256 s), (v256 c).
  split; [apply v256_bound; auto|]. split; [apply v256_bound; auto|]. auto.
Qed.

Lemma L_tan x : wf256 x -> finb (v256 x) = true -> (/ IZR (2 ^ 256) <= Rabs (rval (v256 x)) < 8)%R ->
  returns_in (f_tan large x) (fun r => exists s c, near sin (v256 x) s /\ near cos (v256 x) c /\ r = spec_div s c).
Proof. intros W Hf H. destruct (L_tan_wf x W Hf H) as (r & E & Wr & s & c & _ & _ & A). exists r. split; [exact E|]. split; [exact Wr|]. exists s, c. exact A. Qed.

Lemma big_core (a b u t U : R) : (0 < U -> 0 <= a -> Rabs (b / U - t) <= 65 / 64 * (u / U) -> Rabs t <= Rabs (a / U) -> 64 * b <= 64 * a + 65 * u)%R.
Proof.
  intros PU Ha H S. apply rabs_inv in H.
  assert (A : (0 <= a / U)%R) by (apply Rmult_le_pos; [auto|left; apply Rinv_0_lt_compat; auto]).
  rewrite (Rabs_pos_eq (a / U)) in S by auto. apply rabs_inv in S.
  assert (K : (b / U <= a / U + 65 / 64 * (u / U))%R) by lra. apply (Rmult_le_compat_r U) in K; [|lra].
  replace (b / U * U)%R with b in K by (field; lra). replace ((a / U + 65 / 64 * (u / U)) * U)%R with (a + 65 / 64 * u)%R in K by (field; lra). lra.
Qed.

Lemma too_big v r : 0 <= sval v -> 64 * sval v + 65 * ulp_units (mag r) < 64 * sval r -> ~ within_ulp 65 64 (sin (rval v)) r.
Proof.
  intros Hv L [_ H].
  pose proof (big_core (IZR (sval v)) (IZR (sval r)) (IZR (ulp_units (mag r))) (sin (rval v)) (IZR (2 ^ UNITe))
    (IZR_lt 0 _ unit_pos) (IZR_le 0 _ Hv) H (abs_sin_le (rval v))) as K.
  apply IZR_lt in L. rewrite plus_IZR, !mult_IZR in L. apply (Rlt_not_le _ _ L). exact K.
Qed.

Lemma L_sin_small_refuted : ~ (forall x, wf256 x -> finb (v256 x) = true -> zerob (v256 x) = false -> (Rabs (rval (v256 x)) < 8)%R ->
  returns_in (f_sin large x) (within_ulp 65 64 (sin (rval (v256 x))))).
Proof.
  intros H. set (v := 261143 * 2 ^ 236). assert (B : 0 <= v < 2 ^ 256) by (unfold v; lia).
  specialize (H (of256 v) (wf256_of v B)). rewrite v256_of in H by auto.
  assert (V0 : 0 <= sval v) by (rewrite pos_sval by (unfold v, INFm; lia); apply mag_val_nonneg; unfold v; lia).
  assert (A : (Rabs (rval v) < 8)%R).
  { unfold rval. assert (PU : (0 < IZR (2 ^ UNITe))%R) by (apply (IZR_lt 0), unit_pos).
    rewrite Rabs_pos_eq by (apply Rmult_le_pos; [apply (IZR_le 0); auto|left; apply Rinv_0_lt_compat; auto]).
    assert (L : sval v < 8 * 2 ^ UNITe) by (apply Z.ltb_lt; vm_compute; reflexivity). apply IZR_lt in L. rewrite mult_IZR in L.
    set (U := IZR (2 ^ UNITe)) in *. set (s := IZR (sval v)) in *. clearbody U s. apply (Rmult_lt_reg_r U); auto. unfold Rdiv. rewrite Rmult_assoc, Rinv_l by lra. lra. }
  destruct (H eq_refl eq_refl A) as (r & Er & Wr & Nr).
  assert (E : f_sin large (of256 v) = Some (of256 (261651 * 2 ^ 236))) by (destruct P; vm_compute; reflexivity).
  rewrite E in Er. injection Er as <-. rewrite v256_of in Nr by lia. revert Nr. apply too_big; auto. apply Z.ltb_lt. vm_compute. reflexivity.
Qed.

Lemma L_zero_refuted : ~ (forall x, wf256 x -> zerob (v256 x) = true -> returns (f_sin large x) (v256 x))
  /\ ~ (forall x, wf256 x -> zerob (v256 x) = true -> returns (f_tan large x) (v256 x)).
Proof.
  split; intros H; specialize (H (of256 (2 ^ 255)) (wf256_of (2 ^ 255) ltac:(lia)) ltac:(rewrite v256_of by lia; reflexivity));
  rewrite v256_of in H by lia; destruct H as (r & E & _ & N); vm_compute in E; injection E as <-; vm_compute in N; discriminate.
Qed.
End Claims.

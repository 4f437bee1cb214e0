(** * LogReal: the logarithms compared with the real ones *)

From Coq Require Import ZArith Lia Bool Reals Lra List.
From Verif Require Import Base BigUInt ZLemmas BigLaws BigUIntProofs BigExtra Spec SpecFns F256 Arith SpecLemmas
  F256Lemmas BasicProofs CodecProofs SosProofs SpecDeg SpecLog LogTable Log FpProofs LogProofs LnBound.
Open Scope R_scope.

(** ** Real logarithms *)
Lemma rdiv_le s n d c : 0 < d -> s * n <= c * d -> s * (n / d) <= c.
Proof.
  intros Hd H. apply Rmult_le_reg_r with d; auto. replace (s * (n / d) * d) with (s * n) by (field; lra). auto.
Qed.

Lemma ln_sub_le a b : 0 < a -> 0 < b -> ln b - ln a <= (b - a) / a.
Proof.
  intros Ha Hb. assert (Hr : 0 < b / a) by (apply Rdiv_lt_0_compat; auto).
  replace (ln b - ln a) with (ln (b / a)) by (unfold Rdiv; rewrite ln_mult, ln_Rinv; auto; apply Rinv_0_lt_compat; auto).
  replace ((b - a) / a) with (b / a - 1) by (field; lra).
  pose proof (exp_ineq1_le (ln (b / a))) as E. rewrite exp_ln in E by auto. lra.
Qed.

Lemma ln_pow2 k : (0 <= k)%Z -> ln (IZR (2 ^ k)) = IZR k * ln 2.
Proof.
  intros Hk. pattern k. apply natlike_ind; auto.
  - simpl. rewrite ln_1. ring.
  - intros x Hx IH. rewrite Z.pow_succ_r, mult_IZR, ln_mult by (auto; try lra; apply IZR_lt, pow2_pos; auto).
    rewrite IH, succ_IZR. ring.
Qed.

Definition SR : R := IZR (2 ^ 492).
Lemma SR_pos : 1 <= SR. Proof. apply (IZR_le 1). apply Z.leb_le. reflexivity. Qed.
(** The logarithm of an integer in units of 2^-492 *)
Definition lnr (x : Z) : R := ln (IZR x / SR).

Lemma lnr_eq x : (0 < x)%Z -> lnr x = ln (IZR x) - ln SR.
Proof.
  intros Hx. apply IZR_lt in Hx. pose proof SR_pos. unfold lnr, Rdiv.
  rewrite ln_mult, ln_Rinv; auto; try lra. apply Rinv_0_lt_compat; lra.
Qed.

(** One step of the loop *)
Lemma step_real p t f M : (2 ^ 492 <= p)%Z -> (2 ^ 492 <= t)%Z -> (2 ^ 492 < f)%Z -> (0 < M)%Z -> (f * M = 2 ^ 492 * (M + 1))%Z ->
  (2 * (p * f - t * 2 ^ 492) <= 2 ^ 492)%Z -> (t * 2 ^ 492 - p * f < 2 ^ 492)%Z ->
  Rabs (SR * (lnr t - lnr p - ln (1 + / IZR M))) <= 1.
Proof.
  intros Hp Ht Hf HM HfM H1 H2. pose proof SR_pos as HS.
  rewrite !lnr_eq by lia.
  assert (Ef : 1 + / IZR M = IZR f / SR).
  { apply (f_equal IZR) in HfM. rewrite !mult_IZR, plus_IZR in HfM. fold SR in HfM. apply IZR_lt in HM.
    apply (Rmult_eq_reg_r (IZR M * SR)); [|apply Rmult_integral_contrapositive; lra].
    replace (IZR f / SR * (IZR M * SR)) with (IZR f * IZR M) by (field; lra). rewrite HfM. field. lra. }
  rewrite Ef. apply IZR_le in Hp, Ht, H1. apply IZR_lt in Hf, H2.
  rewrite !minus_IZR, !mult_IZR in *. rewrite minus_IZR, !mult_IZR in H1. fold SR in *.
  set (rp := IZR p) in *. set (rt := IZR t) in *. set (rf := IZR f) in *. clearbody rp rt rf. clear HM HfM Ef M.
  assert (E : ln rt - ln SR - (ln rp - ln SR) - ln (rf / SR) = ln (rt * SR) - ln (rp * rf)).
  { unfold Rdiv. rewrite !ln_mult, ln_Rinv; try lra. apply Rinv_0_lt_compat; lra. }
  rewrite E. assert (A1 : 0 < rp * rf) by nra. assert (A2 : 0 < rt * SR) by nra.
  pose proof (ln_sub_le _ _ A1 A2) as U1. pose proof (ln_sub_le _ _ A2 A1) as U2.
  assert (B1 : SR * ((rt * SR - rp * rf) / (rp * rf)) <= 1).
  { apply rdiv_le; auto. nra. }
  assert (B2 : SR * ((rp * rf - rt * SR) / (rt * SR)) <= 1).
  { apply rdiv_le; auto. nra. }
  apply (Rmult_le_compat_l SR) in U1; [|lra]. apply (Rmult_le_compat_l SR) in U2; [|lra]. apply Rabs_le. lra.
Qed.

Lemma inv_lt W p t f M N n x : (0 < W -> M = 2 * N -> 1 <= N -> 0 < p -> f * M = W * (M + 1) ->
  2 * (p * f - t * W) <= W -> 4 * N * x <= 4 * p * (N + 1) + 3 * (n - 1) * N ->
  4 * M * x <= 4 * t * (M + 1) + 3 * n * M)%Z.
Proof.
  intros HW HM HN Hp EF H1 H2.
  assert (A : (2 * p * (M + 1) - M <= 2 * t * M)%Z).
  { apply (Z.mul_le_mono_pos_l _ _ W HW).
    replace (W * (2 * p * (M + 1) - M))%Z with (M * (2 * (p * f) - W))%Z by (transitivity (2 * p * (f * M) - W * M)%Z; [ring|rewrite EF; ring]).
    replace (W * (2 * t * M))%Z with (M * (2 * (t * W)))%Z by ring. apply Z.mul_le_mono_nonneg_l; lia. }
  assert (B : (4 * p * (M + 2) <= 4 * t * (M + 1) + 3 * M)%Z).
  { apply (Z.mul_le_mono_pos_l _ _ M ltac:(lia)). apply (Z.mul_le_mono_nonneg_l _ _ (2 * (M + 1)) ltac:(lia)) in A.
    apply Z.le_trans with (2 * (M + 1) * (2 * p * (M + 1) - M) + 3 * M * M)%Z; [|lia].
    assert (0 <= M * M - 2 * M)%Z; [|lia]. clear - HM HN. nia. }
  subst M. lia.
Qed.

Lemma inv_gt W p t f M n x : (0 < W -> 1 <= M -> 0 < p -> 0 <= n -> f * M = W * (M + 1) -> x < t ->
  t * W - p * f < W -> 4 * M * x <= 4 * p * (M + 1) + 3 * n * M)%Z.
Proof.
  intros HW HM Hp Hn EF C H.
  assert (D : (x * W < p * f)%Z). { apply Z.le_lt_trans with ((t - 1) * W)%Z; [apply Z.mul_le_mono_nonneg_r; lia|lia]. }
  assert (A : (x * M < p * (M + 1))%Z).
  { apply (Z.mul_lt_mono_pos_l W); auto.
    replace (W * (p * (M + 1)))%Z with (M * (p * f))%Z by (transitivity (p * (f * M))%Z; [ring|rewrite EF; ring]).
    replace (W * (x * M))%Z with (M * (x * W))%Z by ring. apply Z.mul_lt_mono_pos_l; lia. }
  assert (0 <= n * M)%Z by (apply Z.mul_nonneg_nonneg; lia). lia.
Qed.

Lemma loop_real x : (2 ^ 492 < x < 2 ^ 493)%Z -> forall l n p s, (1 <= n)%Z -> (n + Z.of_nat (length l) = 493)%Z ->
  ok_ll n l = true -> (2 ^ 492 <= p < x)%Z -> (4 * 2 ^ (n - 1) * x <= 4 * p * (2 ^ (n - 1) + 1) + 3 * (n - 1) * 2 ^ (n - 1))%Z ->
  Rabs (IZR s - SR * lnr p) <= 7 / 4 * IZR (n - 1) ->
  Rabs (IZR (loopZ n l x p s) - SR * lnr x) <= 1232.
Proof.
  intros Hx. induction l as [|l0 l IH]; intros n p s Hn Hlen Hok Hp Hi Hs.
  - cbn [loopZ]. cbn [length] in Hlen. assert (n = 493)%Z by (rewrite Z.add_0_r in Hlen; auto). subst n. clear Hlen Hok.
    change (493 - 1)%Z with 492%Z in *.
    assert (D : (x - p <= 371)%Z). { change (2 ^ 493)%Z with (2 * 2 ^ 492)%Z in Hx. set (W := (2 ^ 492)%Z) in *. assert (0 < W)%Z by reflexivity. clearbody W. nia. }
    pose proof SR_pos as HS. rewrite !lnr_eq in * by lia.
    assert (A1 : 0 < IZR p) by (apply IZR_lt; lia). assert (A2 : 0 < IZR x) by (apply IZR_lt; lia).
    pose proof (ln_sub_le _ _ A1 A2) as U1. pose proof (ln_sub_le _ _ A2 A1) as U2.
    assert (B1 : SR * ((IZR x - IZR p) / IZR p) <= 371).
    { apply IZR_le in D. rewrite minus_IZR in D. destruct Hp as [Hp _]. apply IZR_le in Hp. fold SR in Hp. apply rdiv_le; auto. nra. }
    assert (B2 : (IZR p - IZR x) / IZR x <= 0).
    { apply Rmult_le_reg_r with (IZR x); auto. unfold Rdiv. rewrite Rmult_assoc, Rinv_l by lra. destruct Hp as [_ Hp]. apply IZR_lt in Hp. lra. }
    apply (Rmult_le_compat_l SR) in U1; [|lra]. apply (Rmult_le_compat_l SR) in B2; [|lra]. apply (Rmult_le_compat_l SR) in U2; [|lra].
    apply rabs_inv in Hs. apply Rabs_le. lra.
  - cbn [length] in Hlen. cbn [ok_ll] in Hok. apply andb_true_iff in Hok as [H1 H2]. apply Z.leb_le in H1.
    apply entry_ok in H1; [|lia]. fold SR in H1. cbn [loopZ].
    destruct (mul_step p n x ltac:(lia) ltac:(lia) ltac:(lia) ltac:(lia)) as (T1 & T2 & T3 & T4 & T5).
    cbv zeta in *.
    assert (Pn : (2 ^ n = 2 * 2 ^ (n - 1))%Z) by (rewrite <- pow2_S by lia; f_equal; lia).
    assert (PM : (1 <= 2 ^ (n - 1))%Z) by (pose proof (pow2_pos (n - 1) ltac:(lia)); lia).
    assert (EF : ((2 ^ 492 + 2 ^ (492 - n)) * 2 ^ n = 2 ^ 492 * (2 ^ n + 1))%Z).
    { rewrite Z.mul_add_distr_r, <- (pow2_add (492 - n) n) by lia. replace (492 - n + n)%Z with 492%Z by lia. ring. }
    set (f := (2 ^ 492 + 2 ^ (492 - n))%Z) in *. set (t := mulr (p * f)) in *. clearbody t f.
    assert (ST : (2 ^ 492 <= t)%Z) by lia.
    pose proof (step_real p t f (2 ^ n) ltac:(lia) ST ltac:(lia) ltac:(lia) EF T4 T5) as SP.
    remember (2 ^ n)%Z as M eqn:EM. set (N := (2 ^ (n - 1))%Z) in *. clearbody N.
    replace (IZR (n - 1)) with (IZR n - 1) in Hs by (rewrite minus_IZR; ring).
    assert (NS : Rabs (IZR (s + l0) - SR * lnr t) <= 7 / 4 * IZR n).
    { rewrite plus_IZR. rewrite !Rmult_minus_distr_l in SP. apply rabs_inv in SP. apply rabs_inv in H1. apply rabs_inv in Hs. apply Rabs_le. lra. }
    destruct (Z.compare_spec t x) as [C|C|C].
    + rewrite C in NS. eapply Rle_trans. exact NS. assert (IZR n <= 492) by (apply IZR_le; lia). lra.
    + apply IH; auto; try lia.
      * replace (n + 1 - 1)%Z with n by lia. rewrite <- EM. clear EM.
        apply (inv_lt (2 ^ 492) p t f M N n x); auto; try lia.
      * replace (n + 1 - 1)%Z with n by lia. exact NS.
    + apply IH; auto; try lia.
      * replace (n + 1 - 1)%Z with n by lia. rewrite <- EM. clear EM.
        apply (inv_gt (2 ^ 492) p t f M n x); auto; try lia.
      * replace (n + 1 - 1)%Z with n by lia. eapply Rle_trans. exact Hs. lra.
Qed.

Lemma feyn_real x : (2 ^ 492 <= x < 2 ^ 493)%Z -> Rabs (IZR (feynZ x) - SR * lnr x) <= 1232.
Proof.
  intros Hx. pose proof SR_pos. unfold feynZ. destruct (Z.eqb_spec x (2 ^ 492)) as [->|N].
  - unfold lnr. fold SR. replace (SR / SR) with 1 by (field; lra). rewrite ln_1. rewrite Rmult_0_r, Rminus_0_r, Rabs_R0. lra.
  - apply loop_real; try lia.
    + unfold LL. rewrite map_length. destruct LUT_ok as [_ ->]. reflexivity.
    + exact LL_ok.
    + unfold lnr. fold SR. replace (SR / SR) with 1 by (field; lra). rewrite ln_1, Rmult_0_r, Rminus_0_r, Rabs_R0.
      change (1 - 1)%Z with 0%Z. lra.
Qed.

(** * LogProofs: the loop of [feynman] and the logarithms in terms of integers *)

From Coq Require Import ZArith Lia Bool List.
From Verif Require Import Base BigUInt ZLemmas BigLaws BigUIntProofs BigExtra Spec SpecFns F256 Arith SpecLemmas
  F256Lemmas BasicProofs CodecProofs SosProofs LogTable Log FpProofs.

Notation S492 := (2 ^ 492).

(** The table as integers, checked entry by entry: 1 + 2^-n exactly, and the logarithm. *)
Definition w512 (t : Z * Z * Z * Z) : Z :=
  let '(a, b, c, d) := t in a * 2 ^ 384 + b * 2 ^ 256 + c * 2 ^ 128 + d.
Definition okw (t : Z * Z * Z * Z) : bool :=
  let '(a, b, c, d) := t in
  (0 <=? a) && (a <? 2 ^ 109) && (0 <=? b) && (b <? 2 ^ 128) && (0 <=? c) && (c <? 2 ^ 128) && (0 <=? d) && (d <? 2 ^ 128).
Fixpoint ok_lut (n : Z) (l : list ((Z * Z * Z * Z) * (Z * Z * Z * Z))) : bool :=
  match l with
  | [] => true
  | (f, g) :: r => okw f && okw g && (w512 f =? 2 ^ 492 + 2 ^ (492 - n)) && ok_lut (n + 1) r
  end.

(** The same check with the powers of two as arguments and shifts in place of products *)
Definition okwF (p109 p128 : Z) (t : Z * Z * Z * Z) : bool :=
  let '(a, b, c, d) := t in
  (0 <=? a) && (a <? p109) && (0 <=? b) && (b <? p128) && (0 <=? c) && (c <? p128) && (0 <=? d) && (d <? p128).
Definition w512F (t : Z * Z * Z * Z) : Z :=
  let '(a, b, c, d) := t in Z.shiftl (Z.shiftl (Z.shiftl a 128 + b) 128 + c) 128 + d.
Fixpoint ok_lutF (p109 p128 p492 n : Z) (l : list ((Z * Z * Z * Z) * (Z * Z * Z * Z))) : bool :=
  match l with
  | [] => true
  | (f, g) :: r => okwF p109 p128 f && okwF p109 p128 g && (w512F f =? p492 + Z.shiftl 1 (492 - n)) && ok_lutF p109 p128 p492 (n + 1) r
  end.
Lemma w512F_eq t : w512F t = w512 t.
Proof. destruct t as [[[a b] c] d]. unfold w512F, w512. rewrite !Z.shiftl_mul_pow2 by lia. ring. Qed.
Lemma ok_lutF_eq : forall l n, 1 <= n -> n + Z.of_nat (length l) <= 493 ->
  ok_lutF (2 ^ 109) (2 ^ 128) (2 ^ 492) n l = ok_lut n l.
Proof.
  induction l as [|[f g] l IH]; intros n H1 H2; [reflexivity|]. cbn [length] in H2.
  cbn [ok_lutF ok_lut]. rewrite IH by lia. rewrite w512F_eq, Z.shiftl_mul_pow2, Z.mul_1_l by lia. reflexivity.
Qed.
Lemma LUT_okF : ok_lutF (2 ^ 109) (2 ^ 128) (2 ^ 492) 1 LUT = true /\ length LUT = 492%nat.
Proof. split; vm_compute; reflexivity. Qed.
Lemma LUT_ok : ok_lut 1 LUT = true /\ length LUT = 492%nat.
Proof. destruct LUT_okF as [A B]. split; [|exact B]. rewrite <- (ok_lutF_eq LUT 1); [exact A|lia|]. rewrite B. lia. Qed.

(** The loop on integers *)
Fixpoint loopZ (n : Z) (ls : list Z) (x p s : Z) : Z :=
  match ls with
  | [] => s
  | l :: r =>
    let t := mulr (p * (2 ^ 492 + 2 ^ (492 - n))) in
    match t ?= x with
    | Lt => loopZ (n + 1) r x t (s + l)
    | Eq => s + l
    | Gt => loopZ (n + 1) r x p s
    end
  end.
Definition LL : list Z := map (fun p => w512 (snd p)) LUT.

Section LogProofs.
Context {P : profile}.

Lemma fp_of_ok t : okw t = true -> fp_of t = fpz (w512 t) /\ 0 <= w512 t < 2 ^ 493.
Proof.
  destruct t as [[[a b] c] d]. unfold okw, w512, fp_of. rewrite !andb_true_iff, !Z.leb_le, !Z.ltb_lt.
  intros (((((((H1 & H2) & H3) & H4) & H5) & H6) & H7) & H8).
  assert (B : 0 <= a * 2 ^ 384 + b * 2 ^ 256 + c * 2 ^ 128 + d < 2 ^ 493) by lia.
  split; auto. rewrite fp_new_of by lia. rewrite fpz_pos by lia. reflexivity.
Qed.

Lemma step_prod S p g x : 0 < S -> S <= p -> p < x -> x < 2 * S -> 1 <= g -> g <= S / 2 -> 0 < p * (S + g) < 4 * S * S.
Proof. intros. assert (g <= S) by (pose proof (Z.div_le_upper_bound S 2 S ltac:(lia) ltac:(lia)); lia). nia. Qed.
Lemma step_lim S p g t : 0 < S -> S <= p -> 1 <= g -> 2 * (p * (S + g) - t * S) <= S -> t * S - p * (S + g) < S ->
  p * (S + g) < 4 * S * S -> p <= t < 8 * S.
Proof. intros. split. assert (p * S + p - S <= t * S) by nia. nia. nia. Qed.

Lemma mul_step p n x : 1 <= n <= 492 -> S492 <= p -> p < x -> x < 2 ^ 493 ->
  let f := S492 + 2 ^ (492 - n) in let t := mulr (p * f) in
  p <= t < 2 ^ 495 /\ 0 < p * f < 2 ^ 1003 /\ S492 < f < 2 ^ 493 /\ 2 * (p * f - t * S492) <= S492 /\ t * S492 - p * f < S492.
Proof.
  intros Hn Hp Hx Hx2 f t.
  assert (Hf : 1 <= 2 ^ (492 - n) <= 2 ^ 491).
  { split. pose proof (pow2_pos (492 - n) ltac:(lia)); lia. apply pow2_le; lia. }
  assert (Ef : f = S492 + 2 ^ (492 - n)) by reflexivity. set (g := 2 ^ (492 - n)) in *. clearbody f g.
  pose proof (step_prod (2 ^ 492) p g x ltac:(reflexivity) Hp Hx Hx2 (proj1 Hf) (proj2 Hf)) as [Q1 Q2]. rewrite <- Ef in Q1, Q2.
  assert (Hpf : 0 < p * f < 2 ^ 1003). { split; auto. eapply Z.lt_trans; [exact Q2|reflexivity]. }
  destruct (mulr_spec (p * f) (Z.lt_le_incl _ _ Q1)) as (M1 & M2 & M3). fold t in M1, M2, M3. clearbody t.
  pose proof (step_lim (2 ^ 492) p g t eq_refl Hp (proj1 Hf)) as [R1 R2]; try (rewrite <- Ef; auto).
  split; [|split; [auto|split; [|auto]]]; [split; auto|]. rewrite Ef. clear - Hf. lia.
Qed.

Lemma loop_ok x : S492 < x < 2 ^ 493 -> forall lut n p s, 1 <= n -> n + Z.of_nat (length lut) = 493 ->
  ok_lut n lut = true -> S492 <= p < x ->
  feynman_loop lut (fpz x) (fpz p) (fpz s) = Some (fpz (loopZ n (map (fun p => w512 (snd p)) lut) x p s)).
Proof.
  intros Hx. induction lut as [|[f g] lut IH]; intros n p s Hn Hlen Hok Hp.
  - reflexivity.
  - cbn [length] in Hlen. cbn [ok_lut] in Hok. rewrite !andb_true_iff in Hok. destruct Hok as (((H1 & H2) & H3) & H4).
    apply Z.eqb_eq in H3. destruct (fp_of_ok _ H1) as [F1 B1]. destruct (fp_of_ok _ H2) as [F2 B2].
    cbn [feynman_loop map loopZ snd]. rewrite F1, F2, H3.
    destruct (mul_step p n x ltac:(lia) ltac:(lia) ltac:(lia) ltac:(lia)) as (T1 & T2 & T3 & _).
    set (F := S492 + 2 ^ (492 - n)) in *. clearbody F.
    assert (L1 : 2 ^ 493 < 2 ^ 511) by reflexivity. assert (L0 : 0 < S492) by reflexivity.
    assert (L2 : 2 ^ 495 < 2 ^ 511) by reflexivity.
    rewrite fp_mul_ok; [|lia|lia|rewrite Z.abs_eq; lia].
    rewrite bind_Some. rewrite (Z.sgn_pos p), (Z.sgn_pos F), Z.abs_eq by lia. rewrite !Z.mul_1_l.
    set (t := mulr (p * F)) in *. clearbody t.
    rewrite fp_cmp_ok by lia. destruct (Z.compare_spec t x).
    + rewrite fp_add_ok. reflexivity.
    + rewrite fp_add_ok. apply IH; auto; lia.
    + apply IH; auto; lia.
Qed.

Definition feynZ (x : Z) : Z := if x =? S492 then 0 else loopZ 1 LL x S492 0.

Lemma feynman_ok x : S492 <= x < 2 ^ 493 -> feynman (fpz x) = Some (fpz (feynZ x)).
Proof.
  intros Hx. unfold feynman, feynZ. assert (H1 : FP_ONE = fpz S492) by reflexivity. assert (H0 : FP_ZERO = fpz 0) by reflexivity.
  rewrite H1, H0. rewrite (fpz_pos x), (fpz_pos S492) at 1 by lia.
  rewrite (L_eqb _ L512) by (change (2 ^ BITS) with (2 ^ 512); lia).
  destruct (Z.eqb_spec x S492). reflexivity.
  destruct LUT_ok as [A B]. unfold LL. apply loop_ok; auto; try lia.
Qed.

(** The operand: a significand of 237 bits and an exponent *)
Definition nm (a : Z) : Z := sg a * 2 ^ (236 - Z.log2 (sg a)).
Definition ne (a : Z) : Z := qe a - 262142 - (236 - Z.log2 (sg a)).

Lemma sg_log a : 0 < a < INFm -> 0 <= Z.log2 (sg a) <= 236 /\ 2 ^ 236 <= nm a < 2 ^ 237 /\ 0 <= qe a <= 524285 /\ - 262378 <= ne a <= 262143.
Proof.
  intros Ha. pose proof (sg_bound a ltac:(lia)) as B. pose proof (sg_pos a ltac:(lia)) as B0.
  pose proof (sg_qe a ltac:(lia)) as [E Q]. pose proof (Z.log2_nonneg (sg a)) as L0.
  assert (L1 : Z.log2 (sg a) < 237) by (apply Z.log2_lt_pow2; lia).
  pose proof (Z.log2_spec (sg a) B0) as [S1 S2]. rewrite <- Z.add_1_r in S2.
  assert (Q1 : 0 <= qe a <= 524285). { pose proof (qe_nonneg a). unfold INFm in Ha. destruct Q; [lia|]. nia. }
  unfold nm, ne. set (s := sg a) in *. set (l := Z.log2 s) in *.
  assert (NB : 2 ^ 236 <= s * 2 ^ (236 - l) < 2 ^ 237).
  { pose proof (pow2_pos (236 - l) ltac:(lia)). replace 236 with (l + (236 - l)) at 1 by lia. replace 237 with ((l + 1) + (236 - l)) by lia.
    rewrite (pow2_add l), (pow2_add (l + 1)) by lia. split; [apply Z.mul_le_mono_nonneg_r; lia|apply Z.mul_lt_mono_pos_r; lia]. }
  split; [lia|]. split; [exact NB|]. split; [exact Q1|].
  assert (qe a = 0 \/ l = 236).
  { destruct Q as [Q|Q]; [left; auto|right]. apply Z.log2_unique; [lia|]. change (2 ^ Z.succ 236) with (2 ^ 237). lia. }
  lia.
Qed.

Lemma norm_signif_ok a : 0 < a < INFm -> norm_signif (of256 a) = Some (of256 (nm a), 236 - Z.log2 (sg a)).
Proof.
  intros Ha. assert (HI : INFm < 2 ^ 255) by reflexivity. destruct (sg_log a Ha) as (L & N & _). unfold norm_signif.
  rewrite is_zero256 by lia. rewrite dassert_ok by (apply negb_true_iff, Z.eqb_neq; lia). rewrite bind_Some.
  rewrite signif_of by lia. pose proof (sg_bound a ltac:(lia)). pose proof (sg_pos a ltac:(lia)).
  rewrite msb256 by lia. rewrite bind_Some. unfold FRACTION_BITS. rewrite subu_ok by lia. rewrite bind_Some.
  rewrite shift_left_ok by lia. rewrite bind_Some. unfold nm in *. rewrite Z.mod_small by lia. reflexivity.
Qed.

Lemma unbiased_exp_ok a : 0 < a < INFm -> unbiased_exp (of256 a) = Some (qe a - 262142).
Proof.
  intros Ha. assert (HI : INFm < 2 ^ 255) by reflexivity. destruct (sg_log a Ha) as (_ & _ & Q & _). unfold unbiased_exp.
  rewrite is_zero256 by lia. rewrite dassert_ok by (apply negb_true_iff, Z.eqb_neq; lia). rewrite bind_Some.
  rewrite xhi_of. unfold shrc, HI_FRACTION_BITS. rewrite Z.div_div by lia. change (2 ^ 128 * 2 ^ 108) with (2 ^ 236).
  assert (HD : 0 <= a / 2 ^ 236 < 524287) by (apply div_bound; unfold INFm in Ha; lia).
  rewrite casts_ok by lia. unfold EXP_BIAS.
  assert (E : a / 2 ^ 236 + b2z (a / 2 ^ 236 =? 0) = qe a + 1).
  { unfold qe. destruct (Z.eqb_spec (a / 2 ^ 236) 0); cbn [b2z]; lia. }
  rewrite adds_ok by (change (32 - 1) with 31; rewrite E; lia). rewrite E, bind_Some.
  rewrite subs_ok by (change (32 - 1) with 31; lia). f_equal. lia.
Qed.

(** [ln] as an integer in units of 2^-492 *)
Definition LN2Z : Z := 0x00000b17217f7d1cf79abc9e3b39803f2f6af40f343267298b62d8a0d175b8baafa2be7b876206debac98559552fb4afa1b10ed2eae35c138214427573b29117.
Definition L2EZ : Z := 0x0000171547652b82fe1777d0ffda0d23a7d11d6aef551bad2b4b1164a2cd9a342648fbc3887eeaa2ed9ac49b25eeb82d7c167d52173cc1895213f897f5e06a7c.
Definition L10EZ : Z := 0x000006f2dec549b9438ca9aadd557d699ee191f71a30122e4d1011d1f96a27bc7529e3aa1277d0a0179f94911aac96323250a8c671decfe9c6e5e37d15c69646.
Definition lnZ (a : Z) : Z := ne a * LN2Z + feynZ (nm a * 2 ^ 256).
Definition scaleZ (c V : Z) : Z := Z.sgn V * mulr (Z.abs V * c).

Lemma LN_2_fp : LN_2 = fpz LN2Z. Proof. unfold LN2Z. destruct P; vm_compute; reflexivity. Qed.
Lemma LOG2_E_fp : LOG2_E = fpz L2EZ. Proof. destruct P; vm_compute; reflexivity. Qed.
Lemma LOG10_E_fp : LOG10_E = fpz L10EZ. Proof. destruct P; vm_compute; reflexivity. Qed.

Lemma ln_fp_ok v : 0 <= v < 2 ^ 256 -> finb v = true -> zerob v = false -> sgn v = 0 ->
  ln_fp (of256 v) = Some (fpz (lnZ (mag v))).
Proof.
  intros Hv Hf Hz Hs. unfold ln_fp. rewrite is_special_of, is_sign_positive_of, Hz, Hf, Hs by auto.
  rewrite dassert_ok by reflexivity. rewrite bind_Some.
  assert (Em : v = mag v). { pose proof (sgn_mag v). lia. }
  unfold finb in Hf. unfold zerob in Hz. apply Z.ltb_lt in Hf. apply Z.eqb_neq in Hz. pose proof (mag_bound v) as HB.
  rewrite <- Em in *. clear Em Hs. rename v into a. assert (Ha : 0 < a < INFm) by lia.
  destruct (sg_log a Ha) as (L & N & Q & E). rewrite norm_signif_ok by auto. rewrite bind_Some.
  rewrite unbiased_exp_ok by auto. rewrite bind_Some. rewrite casts_ok by lia.
  rewrite subs_ok by (change (32 - 1) with 31; lia). rewrite bind_Some.
  change (qe a - 262142 - (236 - Z.log2 (sg a))) with (ne a). rewrite xhi_of, xlo_of.
  assert (Fm : fp_new (nm a / 2 ^ 128) (nm a mod 2 ^ 128) 0 0 = fpz (nm a * 2 ^ 256)).
  { pose proof (Z.mod_pos_bound (nm a) (2 ^ 128) ltac:(lia)). rewrite fp_new_of by lia.
    rewrite fpz_pos by lia. f_equal. pose proof (Z.div_mod (nm a) (2 ^ 128) ltac:(lia)). lia. }
  rewrite Fm, feynman_ok by lia. rewrite bind_Some. rewrite fp_of_i32_ok by lia. rewrite bind_Some, LN_2_fp.
  assert (HL : 0 < LN2Z < S492) by (split; reflexivity).
  rewrite fp_mul_ok; [|lia|lia|rewrite Z.abs_mul; change (2 ^ 1003) with (S492 * 2 ^ 511); nia].
  rewrite bind_Some, fp_add_ok. f_equal. f_equal. unfold lnZ. f_equal.
  rewrite (Z.sgn_pos LN2Z) by lia. rewrite Z.mul_1_l. rewrite !Z.abs_mul.
  rewrite (Z.abs_eq S492), (Z.abs_eq LN2Z) by lia. rewrite Z.mul_assoc.
  rewrite mulr_exact by nia. rewrite Z.sgn_mul, (Z.sgn_pos S492), Z.mul_1_r by lia.
  rewrite (Z.mul_comm LN2Z), Z.mul_assoc. f_equal. rewrite Z.mul_comm. apply Z.abs_sgn.
Qed.

Lemma special_nan v : 0 <= v < 2 ^ 256 -> finb v = false \/ zerob v = true \/ sgn v = 1 ->
  f_ln (of256 v) = Some NAN /\ f_log2 (of256 v) = Some NAN /\ f_log10 (of256 v) = Some NAN.
Proof.
  intros Hv H. unfold f_ln, f_log2, f_log10. rewrite is_special_of, is_sign_negative_of by auto.
  assert (zerob v || negb (finb v) || (sgn v =? 1) = true) as ->.
  { destruct H as [-> |[-> | ->]]; cbn; rewrite ?orb_true_r; reflexivity. }
  auto.
Qed.

Lemma scale_prod V c S : Z.abs V <= 200000 * S -> 0 < c < 2 * S -> 0 <= Z.abs V * c <= 400000 * S * S.
Proof. intros. nia. Qed.
Lemma scale_lim m p S : 0 < S -> m * S - p < S -> p <= 400000 * S * S -> m < 524288 * S.
Proof. intros. nia. Qed.
Lemma sgn_lim V m B : 0 <= m -> m < B -> - B < Z.sgn V * m < B.
Proof. intros. destruct V; cbn [Z.sgn]; lia. Qed.
Lemma ln_ok v : 0 <= v < 2 ^ 256 -> finb v = true -> zerob v = false -> sgn v = 0 -> Z.abs (lnZ (mag v)) <= 200000 * S492 ->
  f_ln (of256 v) = Some (of256 (rnd_signed 0 (lnZ (mag v) * 2 ^ (UNITe - 492)) 1))
  /\ f_log2 (of256 v) = Some (of256 (rnd_signed 0 (scaleZ L2EZ (lnZ (mag v)) * 2 ^ (UNITe - 492)) 1))
  /\ f_log10 (of256 v) = Some (of256 (rnd_signed 0 (scaleZ L10EZ (lnZ (mag v)) * 2 ^ (UNITe - 492)) 1)).
Proof.
  intros Hv Hf Hz Hs HB. unfold f_ln, f_log2, f_log10. rewrite is_special_of, is_sign_negative_of, Hf, Hz, Hs by auto. cbn [orb negb Z.eqb].
  rewrite ln_fp_ok by auto. rewrite !bind_Some. set (V := lnZ (mag v)) in *. clearbody V. clear - HB.
  assert (HE : 0 < L2EZ < 2 ^ 493) by (split; reflexivity). assert (HT : 0 < L10EZ < 2 ^ 493) by (split; reflexivity).
  assert (Sc : forall c, 0 < c < 2 ^ 493 -> - 2 ^ 511 < scaleZ c V < 2 ^ 511 /\ fp_imul_round (fpz V) (fpz c) = Some (fpz (scaleZ c V))).
  { intros c Hc. unfold scaleZ.
    pose proof (scale_prod V c (2 ^ 492) HB Hc) as HP.
    pose proof (mulr_spec (Z.abs V * c) (proj1 HP)) as (M1 & _ & M2).
    assert (HM : mulr (Z.abs V * c) < 2 ^ 511) by (exact (scale_lim _ _ (2 ^ 492) eq_refl M2 (proj2 HP))).
    split. { apply sgn_lim; auto. }
    rewrite fp_mul_ok; [| | |].
    - rewrite (Z.sgn_pos c), Z.mul_1_r, Z.abs_mul, (Z.abs_eq c) by (clear - Hc; lia). reflexivity.
    - clear - HB. lia.
    - clear - Hc. lia.
    - rewrite Z.abs_mul, (Z.abs_eq c) by (clear - Hc; lia). clear - HP. change (2 ^ 1003) with (524288 * S492 * S492). lia. }
  split; [apply f256_of_fp_ok; lia|].
  destruct (Sc _ HE) as [B1 E1]. destruct (Sc _ HT) as [B2 E2].
  rewrite LOG2_E_fp, LOG10_E_fp, E1, E2, !bind_Some. split; apply f256_of_fp_ok; auto.
Qed.

End LogProofs.

(** * DegProofs: [to_degrees] and [to_radians] *)

From Coq Require Import ZArith Lia Bool.
From Verif Require Import Base BigUInt ZLemmas BigLaws BigUIntProofs BigExtra Spec SpecFns F256 Arith
  SpecLemmas SpecProps F256Lemmas RoundLemmas CodecProofs MulProofs BasicProofs SpecAlg SpecDeg.
Open Scope Z_scope.

Section Deg.
Context `{P : profile}.

(** The common form of the two functions *)
Definition scaled (M : U256) (SH : Z) (x : f256) : option f256 :=
  let! s := integral_significand x in
  let! exp := quantum_exponent x in
  let! (l, h) := wmul M s in
  let t := mk h l in
  let! m := msb s in
  let! sh := addu 32 m 256 in
  let! sh := subu 32 sh SIGNIFICAND_BITS in
  let! t := rounding_div_pow2 t sh in
  let! e := subs 32 exp SH in
  let! e := adds 32 e (casts 32 sh) in
  encode (sign x) e (lo t).

Definition MDEG : Z := 304636616676435425756912514760952666071 * 2 ^ 128 + 69798147688063442975655060594812004816.
Definition MRAD : Z := 190049526055994088508387621895443694809 * 2 ^ 128 + 953738875812114979603059177117484306.

Lemma to_degrees_eq x : to_degrees x = scaled (of256 MDEG) 250 x.
Proof. unfold to_degrees. rewrite u256_of by lia. reflexivity. Qed.
Lemma to_radians_eq x : to_radians x = scaled (of256 MRAD) 261 x.
Proof. unfold to_radians. rewrite u256_of by lia. reflexivity. Qed.

(** The first rounding *)
Definition first (M c : Z) : Z := rne_div (M * c) (2 ^ (Z.log2 c + 19)).

Lemma first_bounds M c : 2 ^ 255 <= M <= 2 ^ 256 - 2 ^ 250 -> 0 < c < 2 ^ 237 ->
  2 ^ 236 <= first M c <= 2 ^ 238 - 2 ^ 232
  /\ 2 * Z.abs (M * c - first M c * 2 ^ (Z.log2 c + 19)) <= 2 ^ (Z.log2 c + 19).
Proof.
  intros HM Hc. destruct (log2_bounds c ltac:(lia)) as [HL [L1 L2]]. unfold first.
  set (L := Z.log2 c) in *. clearbody L. set (D := 2 ^ (L + 19)).
  assert (HD : D = 2 ^ L * 2 ^ 19) by (unfold D; apply pow2_add; lia).
  assert (HP : 2 ^ (L + 1) = 2 * 2 ^ L) by (apply pow2_S; lia).
  pose proof (pow2_pos L ltac:(lia)) as PL. clearbody D. set (p := 2 ^ L) in *. clearbody p.
  split.
  - split.
    + apply rne_div_ge_bound; [lia|]. subst D. replace (2 ^ 236 * (p * 2 ^ 19)) with (2 ^ 255 * p) by ring.
      apply Z.mul_le_mono_nonneg; lia.
    + apply rne_div_le_bound; [lia|]. subst D.
      replace ((2 ^ 238 - 2 ^ 232) * (p * 2 ^ 19)) with ((2 ^ 256 - 2 ^ 250) * (2 * p)) by ring.
      apply Z.mul_le_mono_nonneg; lia.
  - pose proof (rne_div_spec (M * c) D ltac:(lia)) as (A & _). lia.
Qed.

(** The second rounding: [E] is the exponent of the result *)
Lemma second t k : 2 ^ 236 <= t <= 2 ^ 238 - 2 ^ 232 -> 0 <= k -> k <= 524284 ->
  exists E, let r := rnd_mag (t * 2 ^ k) 1 in
    0 < r < INFm /\ 2 ^ E <= ulp_units r
    /\ (E = k /\ t < 2 ^ 237 /\ mag_val r = t * 2 ^ k
        \/ E = k + 1 /\ Z.abs (mag_val r - t * 2 ^ k) <= 2 ^ k).
Proof.
  intros Ht Hk Hk2. cbv zeta. pose proof (pow2_pos k Hk) as PK.
  assert (PK1 : 2 ^ (k + 1) = 2 * 2 ^ k) by (apply pow2_S; lia).
  destruct (Z.lt_ge_cases t (2 ^ 237)) as [C|C].
  - exists k.
    assert (ER : rnd_mag (t * 2 ^ k) 1 = k * 2 ^ 236 + t).
    { rewrite <- (mag_val_signif k t) by lia. apply rnd_mag_exact. unfold INFm. lia. }
    rewrite ER. split. { unfold INFm; lia. } split.
    + unfold ulp_units. rewrite (mag_val_signif k t) by lia.
      destruct (Z.eq_dec t (2 ^ 237 - 1)) as [->|N].
      * replace (k * 2 ^ 236 + (2 ^ 237 - 1) + 1) with ((k + 1) * 2 ^ 236 + 2 ^ 236) by lia.
        rewrite mag_val_signif, PK1 by lia. lia.
      * replace (k * 2 ^ 236 + t + 1) with (k * 2 ^ 236 + (t + 1)) by lia.
        rewrite mag_val_signif by lia. lia.
    + left. repeat split; auto. apply mag_val_signif; lia.
  - exists (k + 1). pose proof (rne_div_spec t 2 ltac:(lia)) as (A & _).
    set (q := rne_div t 2) in *.
    assert (Hq : 2 ^ 236 <= q <= 2 ^ 237 - 2 ^ 231).
    { split; [apply rne_div_ge_bound; lia|apply rne_div_le_bound; lia]. }
    assert (ER : rnd_mag (t * 2 ^ k) 1 = (k + 1) * 2 ^ 236 + q).
    { rewrite (rnd_mag_at _ 1 (k + 1)); try lia.
      - rewrite Z.mul_1_l, PK1, rne_div_mul by lia. fold q. apply Z.min_r. unfold INFm. lia.
      - replace (237 + (k + 1)) with (238 + k) by lia. rewrite pow2_add by lia. nia.
      - right. replace (236 + (k + 1)) with (237 + k) by lia. rewrite pow2_add by lia. nia. }
    rewrite ER. clearbody q. split. { unfold INFm; lia. } split.
    + unfold ulp_units. replace ((k + 1) * 2 ^ 236 + q + 1) with ((k + 1) * 2 ^ 236 + (q + 1)) by lia.
      rewrite !mag_val_signif by lia. lia.
    + right. split; auto. rewrite mag_val_signif, PK1 by lia.
      replace (q * (2 * 2 ^ k) - t * 2 ^ k) with ((2 * q - t) * 2 ^ k) by ring.
      clear - A PK. rewrite Z.abs_mul, (Z.abs_eq (2 ^ k)) by lia. nia.
Qed.

(** The result in terms of the constant [M / 2 ^ SH] *)
Definition near_const (M SH x R U : Z) : Prop :=
  4 * Z.abs (R * 2 ^ SH - M * x) <= 3 * 2 ^ SH * U /\ x * 2 ^ 19 <= 2 ^ SH * U
  \/ 2 * Z.abs (R * 2 ^ SH - M * x) <= 2 ^ SH * U /\ M * x <= 2 ^ 237 * 2 ^ SH * U.

Lemma near_arith M c W t p R U b :
  0 < p -> 0 < W -> 0 < M -> 0 < c ->
  (** [W = 2 ^ SH], [b = 2 ^ e], [p = 2 ^ k] *)
  forall S, 0 < b -> S * b = p * W ->
  2 * Z.abs (M * c - t * S) <= S -> c * 2 ^ 19 <= 2 * S ->
  (p <= U /\ t < 2 ^ 237 /\ R = t * p \/ 2 * p <= U /\ Z.abs (R - t * p) <= p) ->
  4 * Z.abs (R * W - M * (c * b)) <= 3 * W * U /\ c * b * 2 ^ 19 <= W * U
  \/ 2 * Z.abs (R * W - M * (c * b)) <= W * U /\ M * (c * b) <= 2 ^ 237 * W * U.
Proof.
  intros Hp HW HM Hc S Hb ES HA HC D.
  assert (B : 2 * Z.abs (M * (c * b) - t * p * W) <= p * W).
  { replace (M * (c * b) - t * p * W) with ((M * c - t * S) * b) by (rewrite Z.mul_sub_distr_r, <- !Z.mul_assoc, ES; ring).
    rewrite Z.abs_mul, (Z.abs_eq b), <- ES by lia. nia. }
  assert (C : c * b * 2 ^ 19 <= 2 * (p * W)) by (rewrite <- ES; nia).
  clear ES HA HC S Hc. set (x := c * b) in *. clearbody x. clear Hb b c.
  destruct D as [(D1 & D2 & ->)|(D1 & D2)].
  - right. assert (p * W <= U * W) by (apply Z.mul_le_mono_nonneg_r; lia). split. { lia. }
    assert (2 * (M * x) <= (2 * t + 1) * (p * W)) by lia.
    assert ((2 * t + 1) * (p * W) <= 2 ^ 238 * (p * W)) by (apply Z.mul_le_mono_nonneg_r; lia).
    lia.
  - left. assert (2 * (p * W) <= U * W) by (rewrite Z.mul_assoc; apply Z.mul_le_mono_nonneg_r; lia).
    split; [|lia].
    assert (Z.abs (R * W - t * p * W) <= p * W).
    { rewrite <- Z.mul_sub_distr_r, Z.abs_mul, (Z.abs_eq W) by lia. apply Z.mul_le_mono_nonneg_r; lia. }
    lia.
Qed.

Lemma scaled_ok M SH v : 2 ^ 255 <= M <= 2 ^ 256 - 2 ^ 250 -> 0 <= SH <= 300 -> 0 <= v < 2 ^ 256 ->
  0 < mag v < INFm -> let k := qe (mag v) - SH + Z.log2 (sg (mag v)) + 19 in 0 <= k <= 524284 ->
  exists m, scaled (of256 M) SH (of256 v) = Some (of256 (mkf (sgn v) m))
    /\ 0 < m < INFm
    /\ near_const M SH (mag_val (mag v)) (mag_val m) (ulp_units m).
Proof.
  intros HM HS Hv Hm k Hk.
  assert (Hf : finb v = true) by (unfold finb; apply Z.ltb_lt; lia).
  assert (Hz : zerob v = false) by (unfold zerob; apply Z.eqb_neq; lia).
  unfold scaled. rewrite integral_significand_ok, quantum_exponent_ok, Hz, !bind_Some by auto.
  set (a := mag v) in *. set (c := sg a) in *. pose proof (sg_bound a ltac:(lia)) as HC. fold c in HC.
  assert (Hc : 0 < c < 2 ^ 237).
  { split; [|lia]. pose proof (sg_qe a ltac:(lia)) as [E C]. fold c in E, C. clear - E C Hm HC. destruct C as [C|C]; [rewrite C in E|]; lia. }
  pose proof (qe_nonneg a) as Qn. assert (QU : qe a <= 524287).
  { unfold qe. assert (a / 2 ^ 236 < 524287); [|lia]. apply Z.div_lt_upper_bound; unfold INFm in Hm; lia. }
  destruct (log2_bounds c ltac:(lia)) as [HL [L1 L2]].
  assert (HLu : Z.log2 c < 237) by (apply Z.log2_lt_pow2; lia).
  destruct (first_bounds M c HM Hc) as [FB FA]. unfold first in *.
  set (L := Z.log2 c) in *. set (e := qe a) in *.
  rewrite wmul256, bind_Some by lia. cbv beta iota.
  rewrite msb256, bind_Some by lia. fold L.
  rewrite addu_ok, bind_Some by lia. unfold SIGNIFICAND_BITS. rewrite subu_ok, bind_Some by lia.
  replace (L + 256 - 237) with (L + 19) by lia.
  match goal with |- context [rounding_div_pow2 ?u _] => change u with (of512 (M * c)) end.
  assert (HP : 0 <= M * c < 2 ^ 512).
  { clear - HM Hc. change (2 ^ 512) with (2 ^ 256 * 2 ^ 256). nia. }
  assert (HQ : 0 <= L + 19 < 512) by lia. assert (HQ' : L + 19 = 0 \/ 0 < L + 19) by lia.
  rewrite (rounding_div_pow2_ok of256 L256 L512 (M * c) (L + 19) HP HQ HQ').
  rewrite bind_Some. set (t := rne_div (M * c) (2 ^ (L + 19))) in *.
  rewrite subs_ok, bind_Some by lia. rewrite casts_ok, adds_ok, bind_Some by lia.
  change (lo (of512 t)) with (of256 (t mod 2 ^ 256)). rewrite Z.mod_small by lia.
  rewrite sign_of by auto. fold (sgn v).
  assert (Hsg : sgn v = 0 \/ sgn v = 1).
  { unfold sgn. assert (0 <= v / 2 ^ 255 < 2) by (apply div_bound; lia). lia. }
  destruct (second t k FB ltac:(lia) ltac:(lia)) as (E & HR & HU & HE). cbv zeta in HR, HU, HE.
  assert (ER : rnd_scaled t (e - 262378 - SH + (L + 19)) = rnd_mag (t * 2 ^ k) 1).
  { unfold rnd_scaled. replace (e - 262378 - SH + (L + 19) + UNITe) with k by (unfold UNITe, k; lia).
    rewrite Z.max_r, Z.max_l by lia. reflexivity. }
  rewrite encode_ok; auto; try lia.
  2:{ left. unfold UNITe, k in *. lia. }
  rewrite ER. exists (rnd_mag (t * 2 ^ k) 1). split; [reflexivity|]. split; [auto|].
  unfold near_const. rewrite (mag_val_sg a) by lia. fold c e.
  set (R := mag_val (rnd_mag (t * 2 ^ k) 1)) in *. set (U := ulp_units _) in *. clearbody R U.
  apply (near_arith M c (2 ^ SH) t (2 ^ k) R U (2 ^ e)) with (S := 2 ^ (L + 19)); try lia;
    try (apply pow2_pos; lia).
  - rewrite <- !pow2_add by lia. f_equal. unfold k. lia.
  - replace (L + 19) with (19 + L) by lia. rewrite pow2_add by lia. rewrite pow2_S in L2 by lia. lia.
  - destruct HE as [(-> & X & Y)|(-> & X)]; [left|right]. auto. rewrite pow2_S in HU by lia. auto.
Qed.

End Deg.

(** * BigReal: the operations of src/math/big_float.rs over the real numbers *)

From Coq Require Import ZArith Reals Lia Lra Bool.
From Flocq Require Import Core.
From Verif Require Import Base BigUInt BigExtra ZLemmas SpecLemmas Spec SpecFlocq SpecLog F256 F256Lemmas SpecBig BigFloat RoundLemmas PiBound BigFloatProofs.
Open Scope Z_scope.

Definition bfv (x : bigfloat) : R := bval (bf_signum x) (bf_exp x) (v256 (bf_signif x)).
Definition bf_normal (x : bigfloat) : Prop := wf256 (bf_signif x) /\ bnormal (bf_signum x) (v256 (bf_signif x)).
Definition bf_wf (x : bigfloat) : Prop := bf_normal x \/ x = BF_ZERO.
Definition exp30 (x : bigfloat) : Prop := - 2 ^ 30 <= bf_exp x < 2 ^ 30.

(** ** Rounding *)

Lemma rnd_real v k : (bpow radix2 254 <= v < bpow radix2 255)%R ->
  rnd255 (v * bpow radix2 k) = (IZR (ZnearestE v) * bpow radix2 k)%R.
Proof.
  intros H. unfold rnd255, Generic_fmt.round, scaled_mantissa, cexp.
  assert (M : Raux.mag radix2 (v * bpow radix2 k) = (255 + k) :> Z).
  { apply mag_unique_pos. replace (255 + k - 1) with (254 + k) by lia. rewrite !bpow_plus. pose proof (bpow_gt_0 radix2 k). split.
      apply Rmult_le_compat_r; lra. apply Rmult_lt_compat_r; lra. }
  rewrite M. unfold FLX_exp. replace (255 + k - 255) with k by lia. rewrite Rmult_assoc, <- bpow_plus, Z.add_opp_diag_r. cbn [bpow].
  rewrite Rmult_1_r. reflexivity.
Qed.

Lemma rnd_at n d k : 0 < d -> 2 ^ 254 * d <= n < 2 ^ 255 * d ->
  rnd255 (IZR n / IZR d * bpow radix2 k) = (IZR (rne_div n d) * bpow radix2 k)%R.
Proof.
  intros Hd H. rewrite <- rne_div_ZnearestE by auto. apply rnd_real.
  assert (0 < IZR d)%R by (apply IZR_lt; auto). rewrite <- !IZR_pow2 by lia. split.
  - apply (Rmult_le_reg_r (IZR d)); auto. unfold Rdiv. rewrite Rmult_assoc, Rinv_l, Rmult_1_r, <- mult_IZR by lra. apply IZR_le. lia.
  - apply (Rmult_lt_reg_r (IZR d)); auto. unfold Rdiv. rewrite Rmult_assoc, Rinv_l, Rmult_1_r, <- mult_IZR by lra. apply IZR_lt. lia.
Qed.

Lemma rnd_sign s v : s = 1 \/ s = -1 -> rnd255 (IZR s * v) = (IZR s * rnd255 v)%R.
Proof.
  intros [-> | ->]. rewrite !Rmult_1_l. reflexivity.
  unfold rnd255. replace (-1 * v)%R with (- v)%R by ring. rewrite round_NE_opp. ring.
Qed.

Lemma bval_sign s e m : bval s e m = (IZR s * (IZR m * bpow radix2 (e - 254)))%R.
Proof. unfold bval. rewrite mult_IZR. ring. Qed.

Lemma bval_carry s e : bval s (e + 1) (2 ^ 254) = bval s e (2 ^ 255).
Proof.
  unfold bval. replace (e + 1 - 254) with (1 + (e - 254)) by lia. rewrite bpow_plus. change (bpow radix2 1) with 2%R.
  change (2 ^ 255) with (2 * 2 ^ 254). rewrite !mult_IZR. ring.
Qed.

Section BigReal.
Context {P : profile}.

Lemma bf_eta x : wf256 (bf_signif x) -> x = BF (bf_signum x) (bf_exp x) (of256 (v256 (bf_signif x))).
Proof. intros H. rewrite of256_v256 by auto. destruct x; reflexivity. Qed.

Lemma bfv_BF s e m : bfv (BF s e (of256 m)) = bval s e m.
Proof. unfold bfv. cbn [bf_signum bf_exp bf_signif]. rewrite v256_of. reflexivity. Qed.

Lemma normal_BF s e m : bnormal s m -> bf_normal (BF s e (of256 m)).
Proof.
  intros H. split; cbn [bf_signum bf_exp bf_signif]; [|rewrite v256_of; auto]. apply wf256_of. destruct H as [_ H]. lia.
Qed.

Lemma normal_inv x : bf_normal x -> exists s e m, x = BF s e (of256 m) /\ bnormal s m.
Proof. intros (W & N). eexists _, _, _. split; [apply bf_eta; auto|auto]. Qed.

Lemma sg_mul s t : s = 1 \/ s = -1 -> t = 1 \/ t = -1 -> s * t = 1 \/ s * t = -1.
Proof. intros [-> | ->] [-> | ->]; auto. Qed.

(** ** Multiplication *)

Lemma mul_value s t ex ey x y : (bval s ex x * bval t ey y)%R = (IZR (s * t) * (IZR (x * y) * bpow radix2 (ex + ey - 508)))%R.
Proof.
  unfold bval. replace (ex + ey - 508) with ((ex - 254) + (ey - 254)) by lia. rewrite bpow_plus, !mult_IZR. ring.
Qed.

(** The product rounds up to the next power of two. *)
Definition mul_carry (x y : Z) : Prop := 2 ^ 509 - 2 ^ 253 <= x * y < 2 ^ 509.

Lemma R_mul x y : bf_normal x -> bf_normal y -> exp30 x -> exp30 y ->
  exists z, bf_mul x y = Some z /\ bf_normal z /\ bf_signum z = bf_signum x * bf_signum y
    /\ bf_exp z - bf_exp x - bf_exp y = (if v256 (bf_signif x) * v256 (bf_signif y) <? 2 ^ 509 then 0 else 1)
    /\ (~ mul_carry (v256 (bf_signif x)) (v256 (bf_signif y)) -> bfv z = rnd255 (bfv x * bfv y))
    /\ (mul_carry (v256 (bf_signif x)) (v256 (bf_signif y)) -> bfv z = (rnd255 (bfv x * bfv y) / 2)%R).
Proof.
  intros Nx Ny. destruct (normal_inv x Nx) as (s & ex & mx & -> & Hs & Hx). destruct (normal_inv y Ny) as (t & ey & my & -> & Ht & Hy).
  unfold exp30. rewrite !bfv_BF. cbn [bf_signum bf_exp bf_signif]. rewrite !v256_of. clear Nx Ny. intros Ex Ey.
  destruct (mul_ok s t ex ey mx my Hs Ht Hx Hy Ex Ey) as [E R]. pose proof (mul_range mx my Hx Hy) as MR.
  eexists. split; [exact E|]. clear E.
  set (r := rne_div (mx * my) (2 ^ mk_k (mx * my))) in *.
  split. { apply normal_BF. split. apply sg_mul; auto. destruct (Z.eqb_spec r (2 ^ 255)); lia. }
  cbn [bf_signum bf_exp]. split; auto.
  split. { unfold mk_k. destruct (_ <? _); lia. }
  rewrite bfv_BF, mul_value, rnd_sign by (apply sg_mul; auto).
  set (k := mk_k (mx * my)) in *.
  assert (K : k = 254 /\ mx * my < 2 ^ 509 \/ k = 255 /\ 2 ^ 509 <= mx * my).
  { subst k. unfold mk_k. destruct (Z.ltb_spec (mx * my) (2 ^ 509)); auto. }
  assert (Pk : 0 < 2 ^ k) by (apply pow2_pos; lia).
  assert (V : rnd255 (IZR (mx * my) * bpow radix2 (ex + ey - 508)) = (IZR r * bpow radix2 (ex + ey + k - 508))%R).
  { unfold r. rewrite <- (rnd_at (mx * my) (2 ^ k) (ex + ey + k - 508)).
    - f_equal. replace (ex + ey + k - 508) with (k + (ex + ey - 508)) by lia. rewrite bpow_plus, <- (IZR_pow2 k) by lia.
      assert (0 < IZR (2 ^ k))%R by (apply IZR_lt; auto). field. lra.
    - auto.
    - destruct K as [[-> ?]|[-> ?]]; lia. }
  rewrite V. unfold mul_carry.
  assert (C : r = 2 ^ 255 <-> 2 ^ 509 - 2 ^ 253 <= mx * my < 2 ^ 509).
  { unfold r. pose proof (rne_div_spec (mx * my) (2 ^ k) Pk) as (R1 & R2 & R3). fold r in R1, R2, R3 |- *. clearbody r.
    set (p := mx * my) in *. clearbody p. destruct K as [[-> ?]|[-> ?]]; [|split; intros; exfalso; lia].
    split. intros ->. lia. intros H1. destruct (Z.eq_dec r (2 ^ 255)); auto. exfalso. 
    assert (r = 2 ^ 255 - 1) by lia. subst r. specialize (R2 ltac:(lia)). discriminate. }
  clearbody r. destruct (Z.eqb_spec r (2 ^ 255)) as [E|E].
  - split; intros H; [exfalso; tauto|]. rewrite bval_sign. assert (K4 : k = 254) by (destruct K as [[-> _]|[_ L]]; [auto|exfalso; destruct C as [C _]; specialize (C E); lia]).
    rewrite K4, E. replace (ex + (ey + (254 - 254)) - 254) with (ex + ey + 254 - 508) by lia. change (2 ^ 255) with (2 * 2 ^ 254). rewrite (mult_IZR 2). field.
  - split; intros H; [|exfalso; tauto]. rewrite bval_sign. f_equal. f_equal. f_equal. lia.
Qed.

(** ** Division *)

Lemma div_value s t ex ey x y : t = 1 \/ t = -1 -> 0 < y ->
  (bval s ex x / bval t ey y)%R = (IZR (s * t) * (IZR (x * 2 ^ 254) / IZR y * bpow radix2 (ex - ey - 254)))%R.
Proof.
  intros Ht Hy. assert (0 < IZR y)%R by (apply IZR_lt; auto). unfold bval.
  replace (ex - 254) with ((ex - ey - 254) + 254 + (ey - 254)) by lia. rewrite !bpow_plus, !mult_IZR, (IZR_pow2 254) by lia.
  pose proof (bpow_gt_0 radix2 (ey - 254)). pose proof (bpow_gt_0 radix2 (ex - ey - 254)). pose proof (bpow_gt_0 radix2 254).
  destruct Ht as [-> | ->]; field; lra.
Qed.

Lemma R_div x y : bf_normal x -> bf_normal y -> exp30 x -> exp30 y ->
  exists z, bf_div x y = Some z /\ bf_normal z /\ bf_signum z = bf_signum x * bf_signum y
    /\ (v256 (bf_signif y) <= v256 (bf_signif x) -> bfv z = rnd255 (bfv x / bfv y))
    /\ (Rabs (bfv z - bfv x / bfv y) <= bpow radix2 (bf_exp z - 254))%R.
Proof.
  intros Nx Ny. destruct (normal_inv x Nx) as (s & ex & mx & -> & Hs & Hx). destruct (normal_inv y Ny) as (t & ey & my & -> & Ht & Hy).
  unfold exp30. rewrite !bfv_BF. cbn [bf_signum bf_exp bf_signif]. rewrite !v256_of. clear Nx Ny. intros Ex Ey.
  pose proof (div_ok s t ex ey mx my Hs Ht Hx Hy Ex Ey) as E. cbv zeta in E. destruct (div_signifs_ok mx my Hx Hy) as [_ R].
  eexists. split; [exact E|]. clear E.
  pose proof (rne_div_spec (mx * 2 ^ 254) my ltac:(lia)) as (RB & _ & _).
  assert (ST := sg_mul s t Hs Ht). cbn [bf_signum bf_exp]. rewrite bfv_BF.
  assert (Hy' : (0 < IZR my)%R) by (apply IZR_lt; lia).
  rewrite div_value by (auto; lia).
  assert (V : my <= mx -> rnd255 (IZR (mx * 2 ^ 254) / IZR my * bpow radix2 (ex - ey - 254)) = (IZR (rne_div (mx * 2 ^ 254) my) * bpow radix2 (ex - ey - 254))%R).
  { intros L. apply rnd_at; lia. }
  set (r := rne_div (mx * 2 ^ 254) my) in *. clearbody r. set (n := mx * 2 ^ 254) in *.
  assert (B : (Rabs (IZR r - IZR n / IZR my) <= / 2)%R).
  { replace (IZR r - IZR n / IZR my)%R with (IZR (2 * my * r - 2 * n) / (2 * IZR my))%R by (rewrite minus_IZR, !mult_IZR; field; lra).
    unfold Rdiv. rewrite Rabs_mult, (Rabs_pos_eq (/ _)) by (apply Rlt_le, Rinv_0_lt_compat; lra).
    apply (Rmult_le_reg_r (2 * IZR my)); [lra|]. rewrite Rmult_assoc, Rinv_l by lra. rewrite Rmult_1_r, <- abs_IZR.
    replace (/ 2 * (2 * IZR my))%R with (IZR my) by field. apply IZR_le. lia. }
  clearbody n. rewrite rnd_sign by auto.
  assert (A : forall k, (Rabs (IZR (s * t) * (IZR r * bpow radix2 k) - IZR (s * t) * (IZR n / IZR my * bpow radix2 k)) <= / 2 * bpow radix2 k)%R).
  { intros k. replace (_ - _)%R with (IZR (s * t) * ((IZR r - IZR n / IZR my) * bpow radix2 k))%R by ring.
    rewrite !Rabs_mult. rewrite <- abs_IZR. replace (Z.abs (s * t)) with 1 by (destruct ST as [-> | ->]; reflexivity). rewrite Rmult_1_l.
    rewrite (Rabs_pos_eq (bpow _ _)) by apply bpow_ge_0. apply Rmult_le_compat_r; auto. apply bpow_ge_0. }
  destruct (Z.ltb_spec mx my) as [C|C]; cbn [b2z].
  - split. { apply normal_BF. split; auto. lia. } split; auto. split. lia.
    rewrite bval_sign. replace (ex - (ey + 1) - 254) with (-1 + (ex - ey - 254)) by lia. rewrite bpow_plus. change (bpow radix2 (-1)) with (/ 2)%R.
    rewrite (mult_IZR 2). replace (2 * IZR r * (/ 2 * bpow radix2 (ex - ey - 254)))%R with (IZR r * bpow radix2 (ex - ey - 254))%R by field. apply A.
  - split. { apply normal_BF. split; auto. } split; auto.
    rewrite bval_sign. replace (ex - (ey + 0) - 254) with (ex - ey - 254) by lia. rewrite V by auto. split; auto.
    eapply Rle_trans; [apply A|]. pose proof (bpow_gt_0 radix2 (ex - ey - 254)). lra.
Qed.

(** ** Square root *)

Lemma R_sqrt x : bf_normal x -> bf_signum x = 1 -> exp30 x ->
  exists z, bf_sqrt x = Some z /\ bf_normal z /\ bf_signum z = 1 /\ bfv z = rnd255 (sqrt (bfv x)).
Proof.
  intros Nx. destruct (normal_inv x Nx) as (s & e & m & -> & Hs & Hm).
  unfold exp30. rewrite !bfv_BF. cbn [bf_signum bf_exp bf_signif]. clear Nx. intros -> He.
  destruct (bf_sqrt_ok e m Hm He) as (w & E & Hw & RN). cbv zeta in RN. exists (BF 1 (e / 2) (of256 w)).
  split; auto. split. { apply normal_BF. split; auto. } split; auto.
  pose proof (Z.div_mod e 2 ltac:(lia)) as De. pose proof (Z.mod_pos_bound e 2 ltac:(lia)) as Be.
  set (o := e mod 2) in *. set (e' := e / 2) in *. clearbody o e'.
  set (Y := m * 2 ^ (1 + o) * 2 ^ 255) in *.
  assert (HY : 2 ^ 510 <= Y < 2 ^ 512).
  { unfold Y. assert (O : o = 0 \/ o = 1) by lia. destruct O as [-> | ->]. change (2 ^ (1 + 0)) with 2. lia. change (2 ^ (1 + 1)) with 4. lia. }
  assert (HY0 : (0 <= IZR Y)%R) by (apply IZR_le; lia).
  assert (V : sqrt (bval 1 e m) = (sqrt (IZR Y) / 2 * bpow radix2 (e' - 254))%R).
  { replace (sqrt (IZR Y) / 2 * bpow radix2 (e' - 254))%R with (sqrt (IZR Y) * (bpow radix2 (e' - 255)))%R.
    2:{ replace (e' - 254) with (1 + (e' - 255)) by lia. rewrite bpow_plus. change (bpow radix2 1) with 2%R. field. }
    rewrite <- (sqrt_Rsqr (bpow radix2 (e' - 255))) by apply bpow_ge_0. rewrite <- sqrt_mult; auto.
    2:{ apply Rle_0_sqr. } f_equal. unfold Rsqr. rewrite <- bpow_plus. unfold bval, Y. rewrite Z.mul_1_l, !mult_IZR, !IZR_pow2 by lia.
    rewrite !Rmult_assoc. rewrite <- !bpow_plus. f_equal. f_equal. lia. }
  rewrite bfv_BF, V. rewrite rnd_real.
  - rewrite bval_sign, Rmult_1_l. f_equal. f_equal. symmetry. apply Znearest_imp.
    assert (L1 : (IZR (2 * w - 1) < sqrt (IZR Y))%R).
    { rewrite <- (sqrt_Rsqr (IZR (2 * w - 1))) by (apply IZR_le; lia). apply sqrt_lt_1; auto. apply Rle_0_sqr. unfold Rsqr. rewrite <- mult_IZR. apply IZR_lt. lia. }
    assert (L2 : (sqrt (IZR Y) < IZR (2 * w + 1))%R).
    { rewrite <- (sqrt_Rsqr (IZR (2 * w + 1))) by (apply IZR_le; lia). apply sqrt_lt_1; auto. apply Rle_0_sqr. unfold Rsqr. rewrite <- mult_IZR. apply IZR_lt. lia. }
    rewrite minus_IZR, mult_IZR in L1. rewrite plus_IZR, mult_IZR in L2. apply Rabs_def1; lra.
  - rewrite <- !IZR_pow2 by lia. split.
    + assert (IZR (2 ^ 255) <= sqrt (IZR Y))%R; [|change (2 ^ 255) with (2 * 2 ^ 254) in H; rewrite mult_IZR in H; lra].
      rewrite <- (sqrt_Rsqr (IZR (2 ^ 255))) by (apply IZR_le; lia). apply sqrt_le_1; auto. apply Rle_0_sqr. unfold Rsqr. rewrite <- mult_IZR. apply IZR_le. lia.
    + assert (sqrt (IZR Y) < IZR (2 ^ 256))%R; [|change (2 ^ 256) with (2 * 2 ^ 255) in H; rewrite mult_IZR in H; lra].
      rewrite <- (sqrt_Rsqr (IZR (2 ^ 256))) by (apply IZR_le; lia). apply sqrt_lt_1; auto. apply Rle_0_sqr. unfold Rsqr. rewrite <- mult_IZR. apply IZR_lt. lia.
Qed.

(** ** Conversions *)

Lemma R_from v : wf256 v -> finb (v256 v) = true ->
  exists z, bf_from_f256 v = Some z /\ bf_wf z /\ bfv z = rval (v256 v) /\ (z = BF_ZERO <-> zerob (v256 v) = true)
    /\ -262378 <= bf_exp z <= 262143.
Proof.
  intros W F. replace (bf_from_f256 v) with (bf_from_f256 (of256 (v256 v))) by (rewrite of256_v256 by auto; reflexivity). pose proof (v256_bound v W) as B. set (n := v256 v) in *. clearbody n. clear W v.
  assert (Ma : 0 <= mag n < INFm). { unfold finb in F. apply Z.ltb_lt in F. split; auto. unfold mag. apply Z.mod_pos_bound. lia. }
  destruct (Z.eq_dec (mag n) 0) as [Z0|Z0].
  - exists BF_ZERO. unfold bf_from_f256. rewrite BasicProofs.eq_zero_of.
    assert (ZB : zerob n = true) by (unfold zerob; rewrite Z0; reflexivity). rewrite ZB. split; auto. split; [right; auto|].
    split; [|split; [tauto|cbn; lia]].
    unfold bfv, bval. cbn [bf_signum BF_ZERO]. rewrite Z.mul_0_l, Rmult_0_l. unfold rval, sval. rewrite Z0. change (mag_val 0) with 0. rewrite Z.mul_0_r. unfold Rdiv. rewrite Rmult_0_l. reflexivity.
  - destruct (from_f256_ok n B) as (E & N & Q & L). { unfold mag in *. lia. }
    fold (mag n) in *. set (a := mag n) in *. eexists. split; [exact E|].
    assert (S : n / 2 ^ 255 = 0 \/ n / 2 ^ 255 = 1).
    { assert (0 <= n / 2 ^ 255 < 2); [|lia]. split; [apply Z.div_pos|apply Z.div_lt_upper_bound]; lia. }
    split. { left. apply normal_BF. split; auto. destruct S as [-> | ->]; auto. }
    split.
    + rewrite bfv_BF, bval_sign. unfold rval, sval. fold a. unfold sgn. rewrite (mag_val_sg a) by lia.
      rewrite !mult_IZR, !IZR_pow2 by (unfold UNITe; lia). unfold Rdiv. rewrite <- bpow_opp. unfold UNITe.
      replace (qe a + Z.log2 (sg a) - 262378 - 254) with (qe a + -262378 + - (254 - Z.log2 (sg a))) by lia.
      rewrite 2!bpow_plus. rewrite (bpow_opp radix2 (254 - Z.log2 (sg a))).
      pose proof (bpow_gt_0 radix2 (254 - Z.log2 (sg a))) as G. set (g := bpow radix2 (254 - Z.log2 (sg a))) in *. clearbody g.
      change (- (262378)) with (-262378). generalize (bpow radix2 (-262378)) (bpow radix2 (qe a)). intros u w.
      destruct S as [-> | ->]; cbn [Z.eqb]; [change (1 - 2 * 0) with 1|change (1 - 2 * 1) with (-1)]; field; lra.
    + split.
      * unfold zerob. fold a. split; [|intros H; apply Z.eqb_eq in H; lia]. intros H. exfalso. 
        apply (f_equal bf_signum) in H. cbn [bf_signum BF_ZERO] in H. destruct S as [S|S]; rewrite S in H; cbn in H; lia.
      * cbn [bf_exp]. destruct (sg_qe a ltac:(lia)) as [A C]. unfold INFm in Ma. pose proof (sg_bound a ltac:(lia)). lia.
Qed.

Lemma R_to x : bf_normal x -> - 2 ^ 31 <= bf_exp x < 2 ^ 31 -> bf_exp x <> -262379 \/ v256 (bf_signif x) = 2 ^ 254 ->
  exists z, f256_of_bf x = Some z /\ wf256 z /\ v256 z = spec_of_big (bf_signum x) (bf_exp x) (v256 (bf_signif x)).
Proof.
  intros Nx. destruct (normal_inv x Nx) as (s & e & m & -> & Hs & Hm). cbn [bf_signum bf_exp bf_signif]. rewrite v256_of. intros He Hx.
  destruct (to_f256_ok s e m Hs Hm He Hx) as [E B]. eexists. split; [exact E|]. split; [apply wf256_of; auto|apply v256_of].
Qed.

Lemma R_roundtrip v : wf256 v -> finb (v256 v) = true -> zerob (v256 v) = false ->
  exists z, bf_from_f256 v = Some z /\ f256_of_bf z = Some v.
Proof.
  intros W F NZ. replace (bf_from_f256 v) with (bf_from_f256 (of256 (v256 v))) by (rewrite of256_v256 by auto; reflexivity).
  replace (Some v) with (Some (of256 (v256 v))) by (rewrite of256_v256 by auto; reflexivity). pose proof (v256_bound v W) as B. set (n := v256 v) in *. clearbody n. clear W v.
  assert (Ma : 0 < mag n < INFm).
  { unfold finb in F. apply Z.ltb_lt in F. unfold zerob in NZ. apply Z.eqb_neq in NZ. assert (0 <= mag n) by (unfold mag; apply Z.mod_pos_bound; lia). lia. }
  destruct (from_f256_ok n B) as (E & N & Q & L). { exact Ma. }
  fold (mag n) in *. set (a := mag n) in *. eexists. split; [exact E|].
  assert (S : n / 2 ^ 255 = 0 \/ n / 2 ^ 255 = 1).
  { assert (0 <= n / 2 ^ 255 < 2); [|lia]. split; [apply Z.div_pos|apply Z.div_lt_upper_bound]; lia. }
  assert (Hs : sg1 (if n / 2 ^ 255 =? 0 then 1 else -1)) by (destruct S as [-> | ->]; unfold sg1; auto).
  destruct (to_f256_ok _ (qe a + Z.log2 (sg a) - 262378) _ Hs N) as [E2 _]. lia. left; lia. rewrite E2. f_equal. f_equal.
  unfold spec_of_big. cbv zeta. unfold UNITe.
  replace (qe a + Z.log2 (sg a) - 262378 - 254 + 262378) with (qe a - (254 - Z.log2 (sg a))) by lia. set (j := 254 - Z.log2 (sg a)) in *.
  assert (RM : (if 0 <=? qe a - j then rnd_mag (sg a * 2 ^ j * 2 ^ (qe a - j)) 1 else rnd_mag (sg a * 2 ^ j) (2 ^ (- (qe a - j)))) = a).
  { transitivity (rnd_mag (sg a * 2 ^ qe a) 1). 2:{ rewrite <- mag_val_sg by lia. apply rnd_mag_exact. lia. }
    assert (Hj : 0 <= j) by (unfold j; lia). pose proof (sg_pos a ltac:(lia)) as SP.
    destruct (Z.leb_spec 0 (qe a - j)).
    - rewrite <- Z.mul_assoc, <- pow2_add by lia. do 2 f_equal. f_equal. lia.
    - replace (sg a * 2 ^ j) with (sg a * 2 ^ qe a * 2 ^ (- (qe a - j))).
      2:{ rewrite <- Z.mul_assoc, <- pow2_add by lia. do 2 f_equal. lia. }
      rewrite <- (Z.mul_1_l (2 ^ (- (qe a - j)))) at 2. apply rnd_mag_scale. apply pow2_pos; lia.
      apply Z.mul_nonneg_nonneg. lia. apply Z.lt_le_incl, pow2_pos; lia. lia. }
  rewrite RM. unfold mkf. pose proof (Z.div_mod n (2 ^ 255) ltac:(lia)) as D. fold (mag n) in D. fold a in D.
  destruct S as [S|S]; rewrite S in *; cbn [Z.eqb Z.ltb Z.compare]; lia.
Qed.

(** ** Addition *)

Lemma rtz_sign s v : s = 1 \/ s = -1 -> rtz255 (IZR s * v) = (IZR s * rtz255 v)%R.
Proof.
  intros [-> | ->]. rewrite !Rmult_1_l. reflexivity.
  unfold rtz255. replace (-1 * v)%R with (- v)%R by ring. rewrite round_ZR_opp. ring.
Qed.

Lemma rtz_at n d k : 0 < d -> 2 ^ 254 * d <= n < 2 ^ 255 * d ->
  rtz255 (IZR n / IZR d * bpow radix2 k) = (IZR (n / d) * bpow radix2 k)%R.
Proof.
  intros Hd H. assert (H0 : (0 < IZR d)%R) by (apply IZR_lt; auto).
  assert (B : (bpow radix2 254 <= IZR n / IZR d < bpow radix2 255)%R).
  { rewrite <- !IZR_pow2 by lia. split.
    - apply (Rmult_le_reg_r (IZR d)); auto. unfold Rdiv. rewrite Rmult_assoc, Rinv_l, Rmult_1_r, <- mult_IZR by lra. apply IZR_le. lia.
    - apply (Rmult_lt_reg_r (IZR d)); auto. unfold Rdiv. rewrite Rmult_assoc, Rinv_l, Rmult_1_r, <- mult_IZR by lra. apply IZR_lt. lia. }
  unfold rtz255, Generic_fmt.round, scaled_mantissa, cexp.
  assert (M : Raux.mag radix2 (IZR n / IZR d * bpow radix2 k) = (255 + k) :> Z).
  { apply mag_unique_pos. replace (255 + k - 1) with (254 + k) by lia. rewrite !bpow_plus. pose proof (bpow_gt_0 radix2 k). split.
      apply Rmult_le_compat_r; lra. apply Rmult_lt_compat_r; lra. }
  rewrite M. unfold FLX_exp. replace (255 + k - 255) with k by lia. rewrite Rmult_assoc, <- bpow_plus, Z.add_opp_diag_r. cbn [bpow].
  rewrite Rmult_1_r. rewrite Ztrunc_floor, Zfloor_div by (try lia; pose proof (bpow_gt_0 radix2 254); lra). reflexivity.
Qed.

(** The operands in units of 2^(e - 254) *)
Lemma scale_value s e ex x : ex <= e ->
  bval s ex x = (IZR s * (IZR x / IZR (2 ^ (e - ex)) * bpow radix2 (e - 254)))%R.
Proof.
  intros H. rewrite bval_sign. f_equal. replace (ex - 254) with (- (e - ex) + (e - 254)) by lia. rewrite bpow_plus, bpow_opp, IZR_pow2 by lia.
  pose proof (bpow_gt_0 radix2 (e - ex)). field. lra.
Qed.

Lemma ashift_gt x d : nrm x -> 254 < d -> ashift x d = 0.
Proof. intros H Hd. unfold ashift. apply Z.div_small. unfold nrm in H. pose proof (pow2_le 255 d ltac:(lia)). lia. Qed.

Lemma ashift_real x d : nrm x -> 0 <= d ->
  (0 <= IZR x / IZR (2 ^ d) - IZR (ashift x d) < 1)%R /\ (d = 0 -> IZR (ashift x d) = (IZR x / IZR (2 ^ d))%R).
Proof.
  intros H Hd. unfold ashift. pose proof (pow2_pos d Hd) as Pd. assert (0 < IZR (2 ^ d))%R by (apply IZR_lt; auto).
  split.
  - pose proof (Z.div_mod x (2 ^ d) ltac:(lia)) as D. pose proof (Z.mod_pos_bound x (2 ^ d) Pd) as B.
    set (q := x / 2 ^ d) in *. set (r := x mod 2 ^ d) in *. clearbody q r.
    replace (IZR x / IZR (2 ^ d) - IZR q)%R with (IZR r / IZR (2 ^ d))%R by (rewrite D, plus_IZR, mult_IZR; field; lra).
    split. apply Rmult_le_pos. apply IZR_le; lia. apply Rlt_le, Rinv_0_lt_compat; auto.
    apply (Rmult_lt_reg_r (IZR (2 ^ d))); auto. unfold Rdiv. rewrite Rmult_assoc, Rinv_l, Rmult_1_r, Rmult_1_l by lra. apply IZR_lt; lia.
  - intros ->. change (2 ^ 0) with 1. rewrite Z.div_1_r. unfold Rdiv. rewrite Rinv_1, Rmult_1_r. reflexivity.
Qed.

(** The result of the addition of numbers of the same sign *)
Lemma R_add_same x y : bf_normal x -> bf_normal y -> exp30 x -> exp30 y -> bf_signum x = bf_signum y ->
  exists z, bf_add x y = Some z /\ bf_normal z /\ bf_signum z = bf_signum x /\ bfv z = rtz255 (bfv x + bfv y).
Proof.
  intros Nx Ny. destruct (normal_inv x Nx) as (s & ex & mx & -> & Hs & Hx). destruct (normal_inv y Ny) as (t & ey & my & -> & Ht & Hy).
  unfold exp30. rewrite !bfv_BF. cbn [bf_signum bf_exp bf_signif]. clear Nx Ny. intros Ex Ey <-. clear Ht.
  pose proof (add_ok s s ex ey mx my Hs Hs Hx Hy Ex Ey) as E. cbv zeta in E. set (e := Z.max ex ey) in *.
  assert (He : ex <= e /\ ey <= e /\ (e = ex \/ e = ey)) by (unfold e; lia). destruct He as (Lx & Ly & Ed). clearbody e.
  rewrite (scale_value s e ex mx Lx), (scale_value s e ey my Ly). rewrite <- Rmult_plus_distr_l, <- Rmult_plus_distr_r, rtz_sign by auto.
  set (dx := e - ex) in *. set (dy := e - ey) in *. assert (Hdx : 0 <= dx) by lia. assert (Hdy : 0 <= dy) by lia. assert (D0 : dx = 0 \/ dy = 0) by lia.
  destruct (ashift_bound mx dx Hx Hdx) as (B1 & B2 & B3). destruct (ashift_bound my dy Hy Hdy) as (C1 & C2 & C3).
  pose proof (pow2_pos dx Hdx) as Px. pose proof (pow2_pos dy Hdy) as Py.
  (* the sum as a fraction *)
  set (n := mx * 2 ^ dy + my * 2 ^ dx). set (d := 2 ^ dx * 2 ^ dy).
  assert (Hd : 0 < d) by (apply Z.mul_pos_pos; auto).
  assert (Q : n / d = ashift mx dx + ashift my dy).
  { unfold n, d, ashift. destruct D0 as [-> | ->]; change (2 ^ 0) with 1; rewrite ?Z.mul_1_l, ?Z.mul_1_r, ?Z.div_1_r.
    rewrite Z.add_comm, Z.div_add by lia. ring. rewrite Z.div_add by lia. ring. }
  assert (F : (IZR mx / IZR (2 ^ dx) + IZR my / IZR (2 ^ dy))%R = (IZR n / IZR d)%R).
  { unfold n, d. rewrite plus_IZR, !mult_IZR. assert (0 < IZR (2 ^ dx))%R by (apply IZR_lt; auto). assert (0 < IZR (2 ^ dy))%R by (apply IZR_lt; auto). field. lra. }
  rewrite F. pose proof (Z.div_mod n d ltac:(lia)) as DM. pose proof (Z.mod_pos_bound n d Hd) as MB. rewrite Q in DM.
  set (X := ashift mx dx) in *. set (Y := ashift my dy) in *. set (r := n mod d) in *.
  assert (SB : 2 ^ 254 <= X + Y < 2 ^ 256). { unfold nrm in *. destruct D0 as [D0|D0]; [rewrite (B2 D0)|rewrite (C2 D0)]; lia. }
  assert (G1 : X + Y < 2 ^ 255 -> rtz255 (IZR n / IZR d * bpow radix2 (e - 254)) = (IZR (X + Y) * bpow radix2 (e - 254))%R).
  { intros L. rewrite rtz_at; [rewrite Q; reflexivity|auto|]. clearbody X Y r n d. clear - L SB DM MB Hd. nia. }
  assert (G2 : 2 ^ 255 <= X + Y -> rtz255 (IZR n / IZR d * bpow radix2 (e - 254)) = (IZR ((X + Y) / 2) * bpow radix2 (e + 1 - 254))%R).
  { intros L. replace (IZR n / IZR d * bpow radix2 (e - 254))%R with (IZR n / IZR (d * 2) * bpow radix2 (e + 1 - 254))%R.
    2:{ replace (e + 1 - 254) with (1 + (e - 254)) by lia. rewrite bpow_plus, mult_IZR. change (bpow radix2 1) with 2%R. assert (0 < IZR d)%R by (apply IZR_lt; auto). field. lra. }
    rewrite rtz_at. rewrite <- Z.div_div by lia. rewrite Q. reflexivity. lia. clearbody X Y r n d. clear - L SB DM MB Hd. nia. }
  assert (H3 : 254 < dx -> X = 0) by (intros; apply ashift_gt; auto). assert (H4 : 254 < dy -> Y = 0) by (intros; apply ashift_gt; auto).
  clearbody X Y. clear DM MB Q F. clearbody n d r.
  destruct (Z.ltb_spec 254 dx) as [C|C]; [|destruct (Z.ltb_spec 254 dy) as [C'|C']].
  - assert (ey = e) by lia. subst ey. eexists. split; [exact E|]. split. apply normal_BF; split; auto. split; auto.
    rewrite H3 in * by auto. rewrite C2 in * by lia. rewrite Z.add_0_l in *. rewrite G1 by (unfold nrm in *; lia). rewrite bfv_BF. apply bval_sign.
  - assert (ex = e) by lia. subst ex. eexists. split; [exact E|]. split. apply normal_BF; split; auto. split; auto.
    rewrite H4 in * by auto. rewrite B2 in * by lia. rewrite Z.add_0_r in *. rewrite G1 by (unfold nrm in *; lia). rewrite bfv_BF. apply bval_sign.
  - unfold add_res in E. rewrite Z.eqb_refl in E. destruct (Z.ltb_spec (X + Y) (2 ^ 255)) as [L|L]; cbn [bf_of] in E.
    + eexists. split; [exact E|]. split. apply normal_BF; split; auto; lia. split; auto. rewrite bfv_BF, G1 by auto. apply bval_sign.
    + eexists. split; [exact E|]. split. apply normal_BF; split; auto. split; [apply Z.div_le_lower_bound|apply Z.div_lt_upper_bound]; lia.
      split; auto. rewrite bfv_BF, G2 by auto. apply bval_sign.
Qed.

(** The result of the addition of numbers of different sign *)
Lemma R_add_diff x y : bf_normal x -> bf_normal y -> exp30 x -> exp30 y -> bf_signum x <> bf_signum y ->
  exists z, bf_add x y = Some z /\ bf_wf z
    /\ (Rabs (bfv z - (bfv x + bfv y)) < bpow radix2 (Z.max (bf_exp x) (bf_exp y) - 254))%R
    /\ (bf_exp x = bf_exp y -> bfv z = (bfv x + bfv y)%R).
Proof.
  intros Nx Ny. destruct (normal_inv x Nx) as (s & ex & mx & -> & Hs & Hx). destruct (normal_inv y Ny) as (t & ey & my & -> & Ht & Hy).
  unfold exp30. rewrite !bfv_BF. cbn [bf_signum bf_exp bf_signif]. clear Nx Ny. intros Ex Ey NS.
  assert (T : t = - s) by (destruct Hs, Ht; subst; lia).
  pose proof (add_ok s t ex ey mx my Hs Ht Hx Hy Ex Ey) as E. cbv zeta in E. set (e := Z.max ex ey) in *.
  assert (He : ex <= e /\ ey <= e /\ (e = ex \/ e = ey)) by (unfold e; lia). destruct He as (Lx & Ly & Ed). clearbody e.
  rewrite (scale_value s e ex mx Lx), (scale_value t e ey my Ly). rewrite T in E |- *. rewrite opp_IZR. 
  set (dx := e - ex) in *. set (dy := e - ey) in *. assert (Hdx : 0 <= dx) by lia. assert (Hdy : 0 <= dy) by lia. assert (D0 : dx = 0 \/ dy = 0) by lia.
  destruct (ashift_bound mx dx Hx Hdx) as (B1 & B2 & B3). destruct (ashift_bound my dy Hy Hdy) as (C1 & C2 & C3).
  destruct (ashift_real mx dx Hx Hdx) as (RX & RX0). destruct (ashift_real my dy Hy Hdy) as (RY & RY0).
  assert (H3 : 254 < dx -> ashift mx dx = 0) by (intros; apply ashift_gt; auto). assert (H4 : 254 < dy -> ashift my dy = 0) by (intros; apply ashift_gt; auto).
  set (X := ashift mx dx) in *. set (Y := ashift my dy) in *. clearbody X Y.
  set (U := bpow radix2 (e - 254)). assert (HU : (0 < U)%R) by apply bpow_gt_0.
  (* every result is s (X - Y) units *)
  assert (K : exists z, bf_add (BF s ex (of256 mx)) (BF (- s) ey (of256 my)) = Some z /\ bf_wf z /\ bfv z = (IZR s * (IZR (X - Y) * U))%R).
  { destruct (Z.ltb_spec 254 dx) as [C|C]; [|destruct (Z.ltb_spec 254 dy) as [C'|C']].
    - assert (ey = e) by lia. subst ey. eexists. split; [exact E|]. split. left. apply normal_BF; split; auto. destruct Hs; lia.
      rewrite H3 by auto. rewrite C2 by lia. rewrite bfv_BF, bval_sign, opp_IZR. fold U. rewrite Z.sub_0_l, opp_IZR. ring.
    - assert (ex = e) by lia. subst ex. eexists. split; [exact E|]. split. left. apply normal_BF; split; auto.
      rewrite H4 by auto. rewrite B2 by lia. rewrite bfv_BF, bval_sign. fold U. rewrite Z.sub_0_r. reflexivity.
    - unfold add_res in E. replace (s =? - s) with false in E by (symmetry; apply Z.eqb_neq; destruct Hs; lia).
      destruct (Z.eqb_spec X Y) as [XY|XY]; cbv zeta in E; cbn [bf_of] in E.
      + eexists. split; [exact E|]. split. right. reflexivity. rewrite bfv_BF. unfold bval. rewrite XY, Z.sub_diag, Z.mul_0_l. ring.
      + set (D := Z.abs (X - Y)) in *. assert (HD : 0 < D < 2 ^ 255) by (clear - XY B1 B3 C1 C3; unfold D; lia).
        pose proof (log2_bound D 255 ltac:(lia)) as LB. pose proof (norm_shift_bound D 254 ltac:(lia) ltac:(lia)) as NB. change (254 + 1) with 255 in NB.
        set (j := 254 - Z.log2 D) in *.
        eexists. split; [exact E|]. split. left. apply normal_BF; split; auto. clear - Hs. destruct (X <? Y); destruct Hs; lia.
        rewrite bfv_BF, bval_sign. replace (e - j - 254) with (- j + (e - 254)) by lia. rewrite bpow_plus, bpow_opp, mult_IZR, IZR_pow2 by (clear - LB; lia). fold U.
        pose proof (bpow_gt_0 radix2 j). replace (IZR D * bpow radix2 j * (/ bpow radix2 j * U))%R with (IZR D * U)%R by (field; lra).
        unfold D. destruct (Z.ltb_spec X Y). rewrite Z.abs_neq, !opp_IZR by lia. ring. rewrite Z.abs_eq by lia. reflexivity. }
  destruct K as (z & EZ & WZ & VZ). exists z. split; auto. split; auto. rewrite VZ. clear E EZ VZ.
  split.
  - replace (_ - _)%R with (IZR s * ((IZR my / IZR (2 ^ dy) - IZR Y) - (IZR mx / IZR (2 ^ dx) - IZR X)) * U)%R by (rewrite minus_IZR; fold U; ring).
    rewrite !Rabs_mult, (Rabs_pos_eq U) by lra. rewrite <- abs_IZR. replace (Z.abs s) with 1 by (destruct Hs as [-> | ->]; reflexivity).
    rewrite Rmult_1_l. rewrite <- (Rmult_1_l U) at 2. apply Rmult_lt_compat_r; auto.
    destruct D0 as [D0|D0]; [rewrite (RX0 D0)|rewrite (RY0 D0)]; apply Rabs_def1; lra.
  - intros EE. rewrite minus_IZR, RX0, RY0 by lia. fold U. ring.
Qed.

Lemma R_neg x : bf_normal x -> bf_normal (bf_neg x) /\ bfv (bf_neg x) = (- bfv x)%R.
Proof.
  intros (W & S & M). split. split; cbn [bf_neg bf_signif bf_signum]; auto. split; auto. lia.
  unfold bfv, bval. cbn [bf_neg bf_signif bf_signum bf_exp]. replace (- bf_signum x * v256 (bf_signif x)) with (- (bf_signum x * v256 (bf_signif x))) by ring. rewrite opp_IZR. ring.
Qed.

Lemma R_sub x y : bf_normal x -> bf_normal y -> exp30 x -> exp30 y -> bf_sub x y = bf_add x (bf_neg y).
Proof.
  intros Nx Ny. destruct (normal_inv x Nx) as (s & ex & mx & -> & Hs & Hx). destruct (normal_inv y Ny) as (t & ey & my & -> & Ht & Hy).
  unfold exp30. cbn [bf_signum bf_exp bf_signif]. clear Nx Ny. intros Ex Ey.
  unfold bf_sub, bf_eqb, bf_neg. cbn [bf_signum bf_exp bf_signif]. unfold bnormal in *. rewrite ueqb256 by lia.
  destruct (Z.eqb_spec s t) as [<-|]; cbn [andb]; [|reflexivity].
  destruct (Z.eqb_spec ex ey) as [<-|]; cbn [andb]; [|reflexivity].
  destruct (Z.eqb_spec mx my) as [<-|]; [|reflexivity].
  assert (Ht' : sg1 (- s)) by (destruct Hs; [right|left]; lia).
  pose proof (add_ok s (- s) ex ex mx mx Hs Ht' Hx Hx Ex Ex) as E. cbv zeta in E. rewrite E. rewrite Z.max_id, Z.sub_diag.
  change (254 <? 0) with false. cbv iota. unfold add_res. replace (s =? - s) with false by (symmetry; apply Z.eqb_neq; destruct Hs; lia).
  rewrite Z.eqb_refl. reflexivity.
Qed.

Lemma R_add_zero_l y : bf_add BF_ZERO y = Some y \/ bf_exp y < - 2 ^ 31 \/ 2 ^ 31 <= bf_exp y.
Proof.
  destruct (Z_lt_dec (bf_exp y) (- 2 ^ 31)); [auto|]. destruct (Z_le_dec (2 ^ 31) (bf_exp y)); [auto|]. left.
  unfold bf_add. change (bf_exp BF_ZERO) with 0. rewrite subs_ok by lia. rewrite bind_Some. reflexivity.
Qed.

Lemma R_add_zero_l' x : exp30 x -> bf_add BF_ZERO x = Some x.
Proof. unfold exp30. intros H. destruct (R_add_zero_l x) as [E|[E|E]]; auto; lia. Qed.

Lemma R_add_zero_r x : bf_normal x -> -254 <= bf_exp x < 2 ^ 31 -> bf_add x BF_ZERO = Some x.
Proof.
  intros (_ & S & _) He. unfold bf_add. change (bf_exp BF_ZERO) with 0. rewrite subs_ok by lia. rewrite bind_Some. unfold bf_is_zero, BF_FRACTION_BITS.
  replace (bf_signum x =? 0) with false by (symmetry; apply Z.eqb_neq; lia). replace (254 <? Z.max (bf_exp x) 0 - bf_exp x) with false by (symmetry; apply Z.ltb_ge; lia). cbn [orb].
  rewrite subs_ok by lia. rewrite bind_Some. reflexivity.
Qed.

(** ** Truncation and comparison *)

Lemma R_trunc x : bf_normal x -> 0 <= bf_exp x < 2 ^ 31 ->
  exists z, bf_trunc x = Some z /\ bf_normal z /\ bfv z = IZR (Ztrunc (bfv x)).
Proof.
  intros Nx. destruct (normal_inv x Nx) as (s & e & m & -> & Hs & Hm). cbn [bf_signum bf_exp bf_signif]. clear Nx. rewrite bfv_BF. intros He.
  rewrite trunc_ok by auto. eexists. split; [reflexivity|]. set (n := Z.max (254 - e) 0). assert (Hn : 0 <= n <= 254) by lia.
  pose proof (pow2_pos n ltac:(lia)) as Pn. pose proof (Z.div_mod m (2 ^ n) ltac:(lia)) as D. pose proof (Z.mod_pos_bound m (2 ^ n) Pn) as B.
  assert (Q : 2 ^ (254 - n) <= m / 2 ^ n).
  { apply Z.div_le_lower_bound; auto. rewrite <- pow2_add by lia. replace (n + (254 - n)) with 254 by lia. lia. }
  assert (Q' : 2 ^ (254 - n) * 2 ^ n = 2 ^ 254) by (rewrite <- pow2_add by lia; f_equal; lia).
  split. { apply normal_BF. split; auto. clear - Q Q' D B Hm Pn. nia. }
  rewrite bfv_BF. rewrite !bval_sign. 
  assert (TS : Ztrunc (IZR s * (IZR m * bpow radix2 (e - 254))) = s * Zfloor (IZR m * bpow radix2 (e - 254))).
  { assert (0 <= IZR m * bpow radix2 (e - 254))%R by (apply Rmult_le_pos; [apply IZR_le; lia|apply bpow_ge_0]).
    destruct Hs as [-> | ->]. rewrite Rmult_1_l, Ztrunc_floor, Z.mul_1_l by auto. reflexivity.
    replace (-1 * (IZR m * bpow radix2 (e - 254)))%R with (- (IZR m * bpow radix2 (e - 254)))%R by ring. rewrite Ztrunc_opp, Ztrunc_floor by auto. lia. }
  rewrite TS, mult_IZR. f_equal. clear TS Q Q'.
  destruct (Z.le_gt_cases e 254) as [C|C].
  - replace (e - 254) with (- n) by lia. rewrite bpow_opp, <- IZR_pow2 by lia. assert (0 < IZR (2 ^ n))%R by (apply IZR_lt; auto).
    change (IZR m * / IZR (2 ^ n))%R with (IZR m / IZR (2 ^ n))%R. rewrite Zfloor_div by lia. rewrite mult_IZR. field. lra.
  - assert (N0 : n = 0) by lia. rewrite N0. replace (IZR m * bpow radix2 (e - 254))%R with (IZR (m * 2 ^ (e - 254))) by (rewrite mult_IZR, IZR_pow2 by lia; reflexivity).
    rewrite Zfloor_IZR, !mult_IZR, !IZR_pow2 by lia. change (2 ^ 0) with 1. rewrite Z.div_1_r. change (bpow radix2 0) with 1%R. ring.
Qed.

Lemma bval_lt_exp ex ey x y : nrm x -> nrm y -> ex < ey -> (bval 1 ex x < bval 1 ey y)%R.
Proof.
  intros Hx Hy He. unfold bval, nrm in *. rewrite !Z.mul_1_l. apply Rlt_le_trans with (IZR (2 ^ 255) * bpow radix2 (ex - 254))%R.
  apply Rmult_lt_compat_r. apply bpow_gt_0. apply IZR_lt; lia.
  apply Rle_trans with (IZR (2 ^ 254) * bpow radix2 (ey - 254))%R.
  rewrite !IZR_pow2, <- !bpow_plus by lia. apply bpow_le. lia.
  apply Rmult_le_compat_r. apply bpow_ge_0. apply IZR_le; lia.
Qed.

Lemma bval_pos e x : nrm x -> (0 < bval 1 e x)%R.
Proof. intros. unfold bval, nrm in *. rewrite Z.mul_1_l. apply Rmult_lt_0_compat. apply IZR_lt; lia. apply bpow_gt_0. Qed.

Lemma bval_neg e x : bval (-1) e x = (- bval 1 e x)%R.
Proof. unfold bval. replace (-1 * x) with (- (1 * x)) by ring. rewrite opp_IZR. ring. Qed.

Lemma R_cmp x y : bf_normal x -> bf_normal y -> ~ (bf_signum x = -1 /\ bf_signum y = -1) ->
  bf_cmp x y = Rcompare (bfv x) (bfv y).
Proof.
  intros Nx Ny. destruct (normal_inv x Nx) as (s & ex & mx & -> & Hs & Hx). destruct (normal_inv y Ny) as (t & ey & my & -> & Ht & Hy).
  rewrite !bfv_BF. unfold bf_cmp. cbn [bf_signum bf_exp bf_signif]. clear Nx Ny. intros NN. pose proof (bval_pos ex mx Hx). pose proof (bval_pos ey my Hy).
  destruct Hs as [-> | ->], Ht as [-> | ->]; [| | |exfalso; auto]; cbn [Z.compare]; rewrite ?bval_neg.
  - destruct (Z.compare_spec ex ey) as [<-|C|C].
    + unfold nrm in *. rewrite ucmp256 by lia. unfold bval. rewrite !Z.mul_1_l. rewrite Rcompare_mult_r by apply bpow_gt_0. rewrite Rcompare_IZR. reflexivity.
    + symmetry. apply Rcompare_Lt. apply bval_lt_exp; auto.
    + symmetry. apply Rcompare_Gt. apply bval_lt_exp; auto.
  - symmetry. apply Rcompare_Gt. lra.
  - symmetry. apply Rcompare_Lt. lra.
Qed.

(** ** Constants *)

Lemma rnd_near c e m : 2 ^ 254 < m < 2 ^ 255 ->
  (IZR (2 * m - 1) < bpow radix2 (255 - e) * c < IZR (2 * m + 1))%R -> rnd255 c = bval 1 e m.
Proof.
  intros Hm H. set (u := bpow radix2 (254 - e)). assert (Hu : (0 < u)%R) by apply bpow_gt_0.
  assert (U : bpow radix2 (255 - e) = (2 * u)%R) by (unfold u; replace (255 - e) with (1 + (254 - e)) by lia; rewrite bpow_plus; reflexivity).
  rewrite U, minus_IZR, plus_IZR, mult_IZR in H. set (w := (u * c)%R). assert (W : (Rabs (w - IZR m) < / 2)%R) by (unfold w; apply Rabs_def1; lra).
  assert (C : c = (w * bpow radix2 (e - 254))%R).
  { unfold w. replace (e - 254) with (- (254 - e)) by lia. rewrite bpow_opp. fold u. field. lra. }
  assert (B : (bpow radix2 254 <= w < bpow radix2 255)%R).
  { apply Rabs_def2 in W. rewrite <- !IZR_pow2 by lia. assert (IZR (2 ^ 254 + 1) <= IZR m)%R by (apply IZR_le; lia). assert (IZR m <= IZR (2 ^ 255 - 1))%R by (apply IZR_le; lia).
    rewrite plus_IZR in *. rewrite minus_IZR in *. lra. }
  unfold rnd255, Generic_fmt.round, scaled_mantissa, cexp.
  assert (M : Raux.mag radix2 c = (e + 1) :> Z).
  { apply mag_unique_pos. rewrite C. replace (e + 1 - 1) with (254 + (e - 254)) by lia. replace (e + 1) with (255 + (e - 254)) by lia. rewrite !(bpow_plus radix2 _ (e - 254)).
    pose proof (bpow_gt_0 radix2 (e - 254)). split. apply Rmult_le_compat_r; lra. apply Rmult_lt_compat_r; lra. }
  rewrite M. unfold FLX_exp. replace (e + 1 - 255) with (e - 254) by lia. replace (- (e - 254)) with (254 - e) by lia. fold u. rewrite (Rmult_comm c u). fold w.
  rewrite (Znearest_imp _ w m W). unfold bval. rewrite Z.mul_1_l. reflexivity.
Qed.

Definition bc_m (a : Z * Z * (Z * Z)) : Z := let '(_, _, (h, l)) := a in h * 2 ^ 128 + l.
Definition bc_e (a : Z * Z * (Z * Z)) : Z := let '(_, e, _) := a in e.

Definition bc_pi_ok (a : Z * Z * (Z * Z)) (n d : Z) : bool :=
  let m := bc_m a in let k := 2 ^ (255 - bc_e a) in
  (2 ^ 254 <? m) && (m <? 2 ^ 255) && (bc_e a <? 255) && (0 <? n) && (0 <? d)
  && ((2 * m - 1) * d * 2 ^ 318 <? k * n * PILO) && (k * n * PIHI <? (2 * m + 1) * d * 2 ^ 318).

Lemma bc_pi a n d : bc_pi_ok a n d = true -> rnd255 (IZR n * PI / IZR d) = bval 1 (bc_e a) (bc_m a).
Proof.
  unfold bc_pi_ok. cbv zeta. intros H. repeat (apply andb_prop in H; destruct H as [H ?H]).
  apply Z.ltb_lt in H, H0, H1, H2, H3, H4, H5. apply rnd_near; [lia|]. rewrite <- IZR_pow2 by lia.
  clear H H5 H4. pose proof pi_bounds as [A B]. apply IZR_lt in H0, H1, H2, H3. rewrite !mult_IZR in H0, H1. rewrite <- !mult_IZR in H0, H1.
  rewrite !mult_IZR with (m := 2 ^ 318) in *. rewrite !mult_IZR with (m := PILO) in *. rewrite !mult_IZR with (m := PIHI) in *.
  rewrite !mult_IZR with (m := n) in *. rewrite !mult_IZR with (m := d) in *.
  assert (S : (0 < IZR (2 ^ 318))%R) by (apply (IZR_lt 0); reflexivity).
  assert (T : (0 <= IZR (2 ^ (255 - bc_e a)))%R) by (apply (IZR_le 0); apply Z.pow_nonneg; lia).
  set (lo := IZR (2 * bc_m a - 1)) in *. set (hi := IZR (2 * bc_m a + 1)) in *. set (k := IZR (2 ^ (255 - bc_e a))) in *. set (S' := IZR (2 ^ 318)) in *.
  set (n' := IZR n) in *. set (d' := IZR d) in *. set (pl := IZR PILO) in *. set (ph := IZR PIHI) in *. clearbody lo hi k S' n' d' pl ph.
  assert (Kn : (0 <= k * n')%R) by (apply Rmult_le_pos; lra).
  assert (L1 : (k * n' * pl <= k * n' * (S' * PI))%R) by (apply Rmult_le_compat_l; auto).
  assert (L2 : (k * n' * (S' * PI) <= k * n' * ph)%R) by (apply Rmult_le_compat_l; auto).
  split; apply (Rmult_lt_reg_r (d' * S')); try (apply Rmult_lt_0_compat; auto); replace (k * (n' * PI / d') * (d' * S'))%R with (k * n' * (S' * PI))%R by (field; lra); lra.
Qed.

(** Square roots: [lo^2 < (2^(255-e))^2 v < hi^2] *)
Lemma sqrt_near v e m : 2 ^ 254 < m < 2 ^ 255 -> (0 <= v)%R ->
  (IZR ((2 * m - 1) * (2 * m - 1)) < bpow radix2 (255 - e) * bpow radix2 (255 - e) * v < IZR ((2 * m + 1) * (2 * m + 1)))%R ->
  rnd255 (R_sqrt.sqrt v) = bval 1 e m.
Proof.
  intros Hm Hv [A B]. apply rnd_near; auto. set (k := bpow radix2 (255 - e)) in *. assert (Hk : (0 < k)%R) by apply bpow_gt_0.
  assert (E : (k * R_sqrt.sqrt v = R_sqrt.sqrt (k * k * v))%R). { rewrite sqrt_mult, sqrt_square; try lra. apply Rmult_le_pos; lra. }
  rewrite E. rewrite mult_IZR in A, B. assert (0 < IZR (2 * m - 1))%R by (apply IZR_lt; lia). assert (0 < IZR (2 * m + 1))%R by (apply IZR_lt; lia).
  split. rewrite <- (sqrt_square (IZR (2 * m - 1))) by lra. apply sqrt_lt_1_alt. split; [|exact A]. apply Rmult_le_pos; lra.
  rewrite <- (sqrt_square (IZR (2 * m + 1))) by lra. apply sqrt_lt_1_alt. split; [|exact B]. repeat apply Rmult_le_pos; lra.
Qed.

Definition bc_sq_ok (a : Z * Z * (Z * Z)) (n d : Z) : bool :=
  let m := bc_m a in let k := 2 ^ (255 - bc_e a) in
  (2 ^ 254 <? m) && (m <? 2 ^ 255) && (bc_e a <? 255) && (0 <? n) && (0 <? d)
  && ((2 * m - 1) * (2 * m - 1) * d <? k * k * n) && (k * k * n <? (2 * m + 1) * (2 * m + 1) * d).

Lemma bc_sq a n d : bc_sq_ok a n d = true -> rnd255 (R_sqrt.sqrt (IZR n / IZR d)) = bval 1 (bc_e a) (bc_m a).
Proof.
  unfold bc_sq_ok. cbv zeta. intros H. repeat (apply andb_prop in H; destruct H as [H ?H]).
  apply Z.ltb_lt in H, H0, H1, H2, H3, H4, H5. assert (0 < IZR d)%R by (apply IZR_lt; auto). assert (0 < IZR n)%R by (apply IZR_lt; auto).
  apply sqrt_near; [lia|apply Rlt_le, Rdiv_lt_0_compat; auto|]. rewrite <- IZR_pow2 by lia. rewrite <- mult_IZR.
  apply IZR_lt in H0, H1. rewrite mult_IZR with (m := d) in H0, H1. rewrite mult_IZR with (m := n) in H0, H1.
  split; apply (Rmult_lt_reg_r (IZR d)); auto; match goal with |- context [(?k * (IZR n / IZR d) * IZR d)%R] => replace (k * (IZR n / IZR d) * IZR d)%R with (k * IZR n)%R by (field; lra) end; lra.
Qed.

Definition bc_sqpi_ok (a : Z * Z * (Z * Z)) : bool :=
  let m := bc_m a in let k := 2 ^ (255 - bc_e a) in
  (2 ^ 254 <? m) && (m <? 2 ^ 255) && (bc_e a <? 255)
  && ((2 * m - 1) * (2 * m - 1) * 2 ^ 318 <? k * k * PILO) && (k * k * PIHI <? (2 * m + 1) * (2 * m + 1) * 2 ^ 318).

Lemma bc_sqpi a : bc_sqpi_ok a = true -> rnd255 (R_sqrt.sqrt PI) = bval 1 (bc_e a) (bc_m a).
Proof.
  unfold bc_sqpi_ok. cbv zeta. intros H. repeat (apply andb_prop in H; destruct H as [H ?H]).
  apply Z.ltb_lt in H, H0, H1, H2, H3. pose proof PI_RGT_0 as PP.
  apply sqrt_near; [lia|lra|]. rewrite <- IZR_pow2 by lia. rewrite <- mult_IZR. pose proof pi_bounds as [A B].
  assert (T : (0 <= IZR (2 ^ (255 - bc_e a) * 2 ^ (255 - bc_e a)))%R) by (apply (IZR_le 0), Z.mul_nonneg_nonneg; apply Z.pow_nonneg; lia).
  assert (S : (0 < IZR (2 ^ 318))%R) by (apply (IZR_lt 0); reflexivity).
  apply IZR_lt in H0, H1. rewrite mult_IZR with (m := 2 ^ 318) in H0, H1. rewrite mult_IZR with (m := PILO) in H1. rewrite mult_IZR with (m := PIHI) in H0.
  set (k := IZR (2 ^ (255 - bc_e a) * 2 ^ (255 - bc_e a))) in *. set (S' := IZR (2 ^ 318)) in *. set (pl := IZR PILO) in *. set (ph := IZR PIHI) in *. clearbody k S' pl ph.
  assert (L1 : (k * pl <= k * (S' * PI))%R) by (apply Rmult_le_compat_l; auto).
  assert (L2 : (k * (S' * PI) <= k * ph)%R) by (apply Rmult_le_compat_l; auto).
  split; apply (Rmult_lt_reg_r S'); auto; lra.
Qed.

(** The constant as the code builds it, and the real it stands for *)
Definition is_const (a : Z * Z * (Z * Z)) (v : R) : Prop :=
  exists z, bf_new a = Some z /\ bf_normal z /\ bfv z = rnd255 v.

Lemma is_const_intro a v : (let '(s, e, (h, l)) := a in s = 1 /\ 2 ^ 126 <= h < 2 ^ 127 /\ 0 <= l < 2 ^ 128) ->
  rnd255 v = bval 1 (bc_e a) (bc_m a) -> is_const a v.
Proof.
  destruct a as ((s & e) & (h & l)). intros (-> & Hh & Hl) V. unfold is_const, bf_new. change (leading_zeros (mk128 h)) with (nlz 128 h). rewrite (nlz_at 128 h 126) by lia. change (128 - 1 - 126 =? 1) with true.
  replace (dassert true) with (Some tt) by (unfold dassert; destruct debug; reflexivity). rewrite bind_Some.
  eexists. split; [reflexivity|]. rewrite V. cbn [bc_e bc_m]. replace (u256 h l) with (of256 (h * 2 ^ 128 + l)).
  2:{ symmetry. apply u256_of; lia. }
  split. apply normal_BF. split; auto. unfold nrm. lia. apply bfv_BF.
Qed.

Lemma R_consts :
  is_const BF_PI PI /\ is_const BF_TAU (2 * PI) /\ is_const BF_FRAC_PI_2 (PI / 2) /\ is_const BF_FRAC_PI_4 (PI / 4)
  /\ is_const BF_FRAC_3_PI_2 (3 * PI / 2) /\ is_const BF_FRAC_3_PI_4 (3 * PI / 4) /\ is_const BF_FRAC_5_PI_4 (5 * PI / 4)
  /\ is_const BF_FRAC_7_PI_4 (7 * PI / 4) /\ is_const BF_FRAC_9_PI_4 (9 * PI / 4)
  /\ is_const BF_SQRT_PI (R_sqrt.sqrt PI) /\ is_const BF_SQRT_2 (R_sqrt.sqrt 2) /\ is_const BF_FRAC_1_SQRT_2 (1 / R_sqrt.sqrt 2).
Proof.
  assert (T : forall a v n d, v = (IZR n * PI / IZR d)%R -> (let '(s, e, (h, l)) := a in s = 1 /\ 2 ^ 126 <= h < 2 ^ 127 /\ 0 <= l < 2 ^ 128) -> bc_pi_ok a n d = true -> is_const a v).
  { intros a v n d -> A B. apply is_const_intro; auto. apply bc_pi; auto. }
  split; [apply (T _ _ 1 1); [field|cbn; lia|vm_compute; reflexivity]|].
  split; [apply (T _ _ 2 1); [field|cbn; lia|vm_compute; reflexivity]|].
  split; [apply (T _ _ 1 2); [field|cbn; lia|vm_compute; reflexivity]|].
  split; [apply (T _ _ 1 4); [field|cbn; lia|vm_compute; reflexivity]|].
  split; [apply (T _ _ 3 2); [field|cbn; lia|vm_compute; reflexivity]|].
  split; [apply (T _ _ 3 4); [field|cbn; lia|vm_compute; reflexivity]|].
  split; [apply (T _ _ 5 4); [field|cbn; lia|vm_compute; reflexivity]|].
  split; [apply (T _ _ 7 4); [field|cbn; lia|vm_compute; reflexivity]|].
  split; [apply (T _ _ 9 4); [field|cbn; lia|vm_compute; reflexivity]|].
  split; [apply is_const_intro; [cbn; lia|apply bc_sqpi; vm_compute; reflexivity]|].
  split; (apply is_const_intro; [cbn; lia|]).
  - replace 2%R with (2 / 1)%R by field. apply bc_sq. vm_compute. reflexivity.
  - replace (1 / R_sqrt.sqrt 2)%R with (R_sqrt.sqrt (1 / 2)). 2: { rewrite sqrt_div, sqrt_1 by lra. reflexivity. }
    apply bc_sq. vm_compute. reflexivity.
Qed.

End BigReal.

(** * RemProofs: the f256 remainder *)

From Coq Require Import ZArith Lia Bool.
From Verif Require Import Base BigUInt ZLemmas BigLaws BigUIntProofs BigExtra F256 Arith
  SpecLemmas F256Lemmas RoundLemmas AddProofs DivProofs.
Open Scope Z_scope.

Section Rem.
Context {P : profile}.

(** U256 by U256, divisor with 237 bits: correct unless the next multiple of
    the divisor overflows 256 bits. *)
Lemma div256_norm a b : 0 <= a < 2 ^ 256 -> 2 ^ 236 <= b < 2 ^ 237 ->
  (a < 2 ^ 255 \/ (a / b + 1) * b < 2 ^ 256) ->
  div_rem (of256 a) (of256 b) = Some (of256 (a / b), of256 (a mod b)).
Proof.
  intros Ha Hb Hc. change (div_rem (of256 a) (of256 b)) with (uint_div_rem_fuel 64 (of256 a) (of256 b)).
  destruct (Z.lt_ge_cases a b) as [C|C].
  { rewrite Z.div_small, Z.mod_small by lia. apply (div_rem_lt of128 L128 61); try lia.
    change (2 ^ BITS) with (2 ^ 128). lia. }
  pose proof (Z.div_mod a (2 ^ 128) ltac:(lia)) as Da. pose proof (Z.mod_pos_bound a (2 ^ 128) ltac:(lia)) as Ba.
  assert (HA : 2 ^ 108 <= a / 2 ^ 128 < 2 ^ 128).
  { split. apply Z.div_le_lower_bound; lia. apply Z.div_lt_upper_bound; lia. }
  set (s := nlz 128 (a / 2 ^ 128)).
  assert (Hs : 0 <= s <= 19 /\ 2 ^ 255 <= a * 2 ^ s < 2 ^ 256).
  { unfold s, nlz. destruct (Z.eqb_spec (a / 2 ^ 128) 0); [lia|].
    assert (L1 : 108 <= Z.log2 (a / 2 ^ 128)) by (apply Z.log2_le_pow2; lia).
    assert (L2 : Z.log2 (a / 2 ^ 128) < 128) by (apply Z.log2_lt_pow2; lia).
    pose proof (norm_shift_bound (a / 2 ^ 128) 127 ltac:(lia) ltac:(lia)) as N. change (127 + 1) with 128 in N.
    change (128 - 1) with 127. set (k := 127 - Z.log2 (a / 2 ^ 128)) in *.
    assert (Hk : 0 <= k <= 19) by (unfold k; lia). split. exact Hk.
    assert (Pk : 0 < 2 ^ k) by (apply pow2_pos; lia).
    assert (E128 : 2 ^ 128 = 2 ^ k * 2 ^ (128 - k)) by (apply pow2_split; lia).
    assert (P8 : 0 < 2 ^ (128 - k)) by (apply pow2_pos; lia).
    set (ah := a / 2 ^ 128) in *. set (al := a mod 2 ^ 128) in *. rewrite Da.
    change (2 ^ 255) with (2 ^ 127 * 2 ^ 128). change (2 ^ 256) with (2 ^ 128 * 2 ^ 128).
    clearbody ah al k. clear - N Ba Pk E128 P8. split. nia.
    assert (ah + 1 <= 2 ^ (128 - k)). { set (u := 2 ^ k) in *. set (w := 2 ^ (128 - k)) in *. clearbody u w. rewrite E128 in N. nia. }
    set (u := 2 ^ k) in *. set (w := 2 ^ (128 - k)) in *. clearbody u w.
    assert (2 ^ 128 * ah + al < 2 ^ 128 * w) by nia.
    replace (2 ^ 128 * 2 ^ 128) with (2 ^ 128 * w * u). 2: { rewrite E128 at 2. ring. }
    nia. }
  destruct Hs as [Hs1 Hs2]. assert (Es : nlz 128 (a / 2 ^ 128) = s) by reflexivity. clearbody s.
  assert (Ps : 0 < 2 ^ s) by (apply pow2_pos; lia).
  assert (Ps19 : 2 ^ s <= 2 ^ 19) by (apply pow2_le; lia).
  pose proof (Z.div_mod a b ltac:(lia)) as Dq. pose proof (Z.mod_pos_bound a b ltac:(lia)) as Bq.
  assert (Hq : 1 <= a / b < 2 ^ 20).
  { split. apply Z.div_le_lower_bound; lia. apply Z.div_lt_upper_bound; lia. }
  set (A := a * 2 ^ s / 2 ^ 128). set (Bh := b * 2 ^ s / 2 ^ 128).
  pose proof (Z.div_mod (a * 2 ^ s) (2 ^ 128) ltac:(lia)) as DA. pose proof (Z.mod_pos_bound (a * 2 ^ s) (2 ^ 128) ltac:(lia)) as BA.
  pose proof (Z.div_mod (b * 2 ^ s) (2 ^ 128) ltac:(lia)) as DB. pose proof (Z.mod_pos_bound (b * 2 ^ s) (2 ^ 128) ltac:(lia)) as BB.
  fold A in DA. fold Bh in DB. set (g := (a * 2 ^ s) mod 2 ^ 128) in *. set (f := (b * 2 ^ s) mod 2 ^ 128) in *.
  assert (HBh : 2 ^ 108 <= Bh) by (unfold Bh; apply Z.div_le_lower_bound; nia).
  assert (HA2 : 0 <= A < 2 ^ 128) by (unfold A; split; [apply Z.div_pos|apply Z.div_lt_upper_bound]; lia).
  assert (EAd : a * 2 ^ s / 2 ^ 128 = A) by reflexivity. assert (EBd : b * 2 ^ s / 2 ^ 128 = Bh) by reflexivity.
  clearbody A Bh g f.
  set (q := a / b) in *. set (r := a mod b) in *.
  assert (Eq : a / b = q) by reflexivity. assert (Er : a mod b = r) by reflexivity. clearbody q r.
  assert (EA : A * 2 ^ 128 + g = q * (Bh * 2 ^ 128 + f) + r * 2 ^ s) by lia.
  assert (Hr2 : r * 2 ^ s < Bh * 2 ^ 128 + f) by (replace (Bh * 2 ^ 128 + f) with (b * 2 ^ s) by lia; apply Z.mul_lt_mono_pos_r; lia).
  assert (Hr3 : 0 <= r * 2 ^ s) by (apply Z.mul_nonneg_nonneg; lia).
  assert (Q1 : q * Bh <= A).
  { apply Z.nlt_ge. intros X. assert (A + 1 <= q * Bh) by lia. assert (0 <= q * f) by (apply Z.mul_nonneg_nonneg; lia). lia. }
  assert (Qf : q * f <= q * 2 ^ 128) by (apply Z.mul_le_mono_nonneg_l; lia).
  assert (Q2 : A < (q + 2) * Bh).
  { apply Z.nle_gt. intros X. lia. }
  assert (QE : A / Bh = q \/ (A / Bh = q + 1 /\ (q + 1) * Bh <= A)).
  { destruct (Z.lt_ge_cases A ((q + 1) * Bh)).
    - left. apply div_eq with (A - q * Bh); lia.
    - right. split; auto. apply div_eq with (A - (q + 1) * Bh); lia. }
  replace (Some (of256 q, of256 r)) with (Some (of256 (a / b), of256 (a mod b))) by (rewrite Eq, Er; reflexivity).
  apply (div_rem_full_ok of128 L128 60 a b).
  - change (2 ^ BITS * 2 ^ BITS) with (2 ^ 256). lia.
  - change (2 ^ BITS * 2 ^ BITS) with (2 ^ 256). change (2 ^ BITS) with (2 ^ 128). lia.
  - lia.
  - change (2 ^ BITS) with (2 ^ 128). change (@BITS U128 U128_ops) with 128.
    unfold qest. change (2 ^ BITS) with (2 ^ 128). change (@BITS U128 U128_ops) with 128.
    rewrite Es. rewrite EAd, EBd. unfold udiv. change (of128 A) with (mk128 A). change (of128 Bh) with (mk128 Bh).
    rewrite div128 by lia. rewrite bind_Some. reflexivity.
  - unfold qest. change (2 ^ BITS * 2 ^ BITS) with (2 ^ 256). change (2 ^ BITS) with (2 ^ 128). change (@BITS U128 U128_ops) with 128.
    rewrite Es. rewrite EAd, EBd.
    destruct QE as [->|[-> Q3]]; rewrite Eq; [left; reflexivity|right]. split; [reflexivity|]. split.
    + intros R0. rewrite ?Er in R0. rewrite R0 in *. lia.
    + destruct Hc as [Hc|Hc]; [|exact Hc]. rewrite ?Eq.
      assert (X : (q + 1) * (b * 2 ^ s) <= a * 2 ^ s + (q + 1) * 2 ^ 128).
      { assert ((q + 1) * f <= (q + 1) * 2 ^ 128) by (apply Z.mul_le_mono_nonneg_l; lia). lia. }
      assert (Y : (q + 1) * 2 ^ 128 <= 2 ^ 149 * 2 ^ s).
      { apply Z.le_trans with (2 ^ 149 * 1); [|apply Z.mul_le_mono_nonneg_l; lia]. lia. }
      assert (Z1 : (q + 1) * b * 2 ^ s <= (a + 2 ^ 149) * 2 ^ s) by lia.
      apply (proj2 (Z.mul_le_mono_pos_r _ _ _ Ps)) in Z1. lia.
Qed.

Lemma div256_small a b : 0 <= a < 2 ^ 256 -> 0 < b < 2 ^ 128 ->
  div_rem (of256 a) (of256 b) = Some (of256 (a / b), of256 (a mod b)).
Proof. exact (div256_256lo 63 a b). Qed.

(** U512 by U256 when the dividend's high half is smaller than the divisor *)
Lemma div512_256 a b : 0 <= a < 2 ^ 512 -> 0 < b < 2 ^ 256 ->
  (a < 2 ^ 256 -> div_rem (of256 a) (of256 b) = Some (of256 (a / b), of256 (a mod b))) ->
  (b <= a / 2 ^ 256 -> div_rem (of256 (a / 2 ^ 256)) (of256 b)
     = Some (of256 (a / 2 ^ 256 / b), of256 ((a / 2 ^ 256) mod b))) ->
  div_rem_sub (of512 a) (of256 b) = Some (of512 (a / b), of256 (a mod b)).
Proof.
  intros Ha Hb H1 H2. apply (div_rem_sub_ok of256 L256); auto.
Qed.

Lemma div_zero b : 0 < b < 2 ^ 256 -> div_rem (of256 0) (of256 b) = Some (of256 0, of256 0).
Proof.
  intros Hb. destruct (Z.lt_ge_cases b (2 ^ 128)).
  - rewrite div256_small by lia. reflexivity.
  - change (div_rem (of256 0) (of256 b)) with (uint_div_rem_fuel 64 (of256 0) (of256 b)).
    apply (div_rem_lt of128 L128 61); try lia. change (2 ^ BITS * 2 ^ BITS) with (2 ^ 256). change (2 ^ BITS) with (2 ^ 128). lia.
Qed.

Lemma of512_hi z : 0 <= z < 2 ^ 256 -> mk (of256 z) (of256 0) = of512 (z * 2 ^ 256).
Proof.
  intros. symmetry. rewrite <- (Z.add_0_r (z * 2 ^ 256)). apply of_uint_eq.
  change (2 ^ BITS) with (2 ^ 256). lia. change (2 ^ BITS) with (2 ^ 256). lia.
Qed.

Lemma rem_loop_ok b n : 0 < b < 2 ^ 256 -> forall z, 0 <= z < b ->
  rem_loop n (of256 z) (of256 b) = Some (of256 ((z * 2 ^ (256 * Z.of_nat n)) mod b)).
Proof.
  intros Hb. induction n; intros z Hz; cbn [rem_loop].
  - change (2 ^ (256 * Z.of_nat 0)) with 1. rewrite Z.mul_1_r, Z.mod_small by lia. reflexivity.
  - change uint_zero with (of256 0). rewrite of512_hi by lia.
    rewrite div512_256; try lia.
    + rewrite bind_Some. set (z' := (z * 2 ^ 256) mod b).
      assert (Hz' : 0 <= z' < b) by (apply Z.mod_pos_bound; lia).
      rewrite is_zero256 by lia.
      replace (256 * Z.of_nat (S n)) with (256 + 256 * Z.of_nat n) by lia. rewrite pow2_add by lia.
      rewrite Z.mul_assoc. rewrite <- Zmult_mod_idemp_l. fold z'.
      destruct (Z.eqb_spec z' 0) as [E|E].
      * rewrite E, Z.mul_0_l, Z.mod_0_l by lia. reflexivity.
      * apply IHn; auto.
    + intros X. assert (z = 0) by lia. subst z. rewrite Z.mul_0_l, Z.div_0_l, Z.mod_0_l by lia. apply div_zero; lia.
    + rewrite Z.div_mul by lia. intros; exfalso; lia.
Qed.

(** The finite case, assuming that the first division is performed correctly. *)
Lemma rem_finite vx vy : 0 <= vx < 2 ^ 256 -> 0 <= vy < 2 ^ 256 ->
  finb vx = true -> finb vy = true -> 0 < mag vy <= mag vx ->
  (let t := sg (mag vx) * 2 ^ ((qe (mag vx) - qe (mag vy)) mod 256) in
   sg (mag vx) <> sg (mag vy) ->
   div_rem_sub (of512 t) (of256 (sg (mag vy))) = Some (of512 (t / sg (mag vy)), of256 (t mod sg (mag vy)))) ->
  exists m, mag_val m = mag_val (mag vx) mod mag_val (mag vy) /\ 0 <= m < INFm
    /\ rem (of256 vx) (of256 vy) = Some (of256 (if m =? 0 then 0 else mkf (sgn vx) m)).
Proof.
  intros Hx Hy Fx Fy Hm HD. unfold rem.
  destruct (mkf_split vx Hx) as (Ex & Sx & Mx). destruct (mkf_split vy Hy) as (Ey & Sy & My).
  rewrite sign_bits_of by auto. fold (sgn vx).
  rewrite !abs_bits_of. fold (mag vx) (mag vy).
  rewrite !sticky_of by lia. rewrite any_special2_of by auto.
  unfold finb in Fx, Fy. apply Z.ltb_lt in Fx, Fy.
  set (a := mag vx) in *. set (b := mag vy) in *. set (s := sgn vx) in *. clearbody a b s.
  rewrite (leb_false INFm a), (leb_false INFm b) by lia.
  replace (a =? 0) with false by (symmetry; apply Z.eqb_neq; lia).
  replace (b =? 0) with false by (symmetry; apply Z.eqb_neq; lia). cbn [orb].
  rewrite ult256 by lia. rewrite ltb_false by lia.
  destruct (exp_sub_norm a ltac:(lia)) as (E1 & E2 & E3 & E4 & E5). destruct (exp_sub_norm b ltac:(lia)) as (F1 & F2 & F3 & F4 & F5).
  rewrite E1, E2, F1, F2. clear E1 E2 F1 F2. rewrite !signif_of by lia.
  pose proof (b2z_bound (2 ^ 236 <=? a)). pose proof (b2z_bound (2 ^ 236 <=? b)).
  pose proof (sg_bound a ltac:(lia)) as SA. pose proof (sg_pos a ltac:(lia)) as PA.
  pose proof (sg_bound b ltac:(lia)) as SB. pose proof (sg_pos b ltac:(lia)) as PB.
  rewrite !mag_val_sg by lia.
  assert (Q : qe b <= qe a). { unfold qe. pose proof (Z.div_le_mono b a (2 ^ 236) ltac:(lia) ltac:(lia)). lia. }
  pose proof (pow2_pos (qe b) ltac:(lia)) as Pb.
  set (n := qe a - qe b) in *.
  assert (EV : (sg a * 2 ^ qe a) mod (sg b * 2 ^ qe b) = ((sg a * 2 ^ n) mod sg b) * 2 ^ qe b).
  { rewrite (pow2_split (qe b) (qe a)) by lia. fold n. rewrite (Z.mul_comm (2 ^ qe b)), Z.mul_assoc.
    rewrite Zmult_mod_distr_r. reflexivity. }
  rewrite EV. clear EV.
  rewrite ueqb256 by lia.
  destruct (Z.eqb_spec (sg a) (sg b)) as [ES|ES].
  { exists 0. split. 2: { split. pose proof INFm_pos; lia. reflexivity. }
    rewrite ES, (Z.mul_comm (sg b)), Z.mod_mul by lia. rewrite Z.mul_0_l. apply mag_val_sub. lia. }
  specialize (HD ES).
  assert (NX : b2z (2 ^ 236 <=? b) <= b2z (2 ^ 236 <=? a)).
  { destruct (Z.leb_spec (2 ^ 236) a), (Z.leb_spec (2 ^ 236) b); cbn [b2z]; lia. }
  pose proof (Z.div_le_mono b a (2 ^ 236) ltac:(lia) ltac:(lia)) as DM.
  rewrite addu_ok by lia. rewrite bind_Some. rewrite subu_ok by lia. rewrite bind_Some.
  rewrite subu_ok by lia. rewrite bind_Some.
  replace (a / 2 ^ 236 + b2z (2 ^ 236 <=? b) - b / 2 ^ 236 - b2z (2 ^ 236 <=? a)) with n by (unfold n; lia).
  change uint_zero with (of256 0). rewrite of512_lo by lia.
  pose proof (Z.mod_pos_bound n 256 ltac:(lia)) as Bn. pose proof (Z.div_mod n 256 ltac:(lia)) as Dn.
  rewrite shl512s. 2: lia. 2: lia.
  2: { assert (2 ^ (n mod 256) <= 2 ^ 256) by (apply pow2_le; lia). change (2 ^ 512) with (2 ^ 256 * 2 ^ 256). 
       assert (0 < 2 ^ (n mod 256)) by (apply pow2_pos; lia). clear - SA H1 H2.
       apply Z.lt_le_trans with (2 ^ 237 * 2 ^ 256); [|lia]. nia. }
  rewrite bind_Some.
  match type of HD with ?l = _ => match goal with |- context [bind ?m _] =>
    replace m with l by reflexivity end end.
  rewrite HD. rewrite bind_Some. cbv beta iota.
  rewrite rem_loop_ok; [|lia|apply Z.mod_pos_bound; lia]. rewrite bind_Some.
  change (2 ^ 8) with 256. assert (0 <= n / 256) by (apply Z.div_pos; lia). rewrite Z2Nat.id by lia.
  rewrite Zmult_mod_idemp_l. rewrite <- Z.mul_assoc, <- pow2_add by lia.
  replace (n mod 256 + 256 * (n / 256)) with n by lia.
  set (z := (sg a * 2 ^ n) mod sg b). assert (Hz : 0 <= z < sg b) by (apply Z.mod_pos_bound; lia). clearbody z.
  rewrite is_zero256 by lia.
  destruct (Z.eqb_spec z 0) as [->|Z0].
  { exists 0. split. rewrite Z.mul_0_l. apply mag_val_sub; lia. split. pose proof INFm_pos; lia. reflexivity. }
  pose proof (log2_bound z 237 ltac:(lia)) as LZ.
  pose proof (norm_shift_bound z 236 ltac:(lia) ltac:(lia)) as NZ. change (236 + 1) with 237 in NZ.
  rewrite msb256 by lia. rewrite bind_Some. unfold FRACTION_BITS. rewrite subu_ok by lia. rewrite bind_Some.
  assert (EB : Z.max 0 (b / 2 ^ 236 - 1) = qe b) by reflexivity. rewrite EB.
  set (sz := Z.min (236 - Z.log2 z) (qe b)).
  assert (Hsz : 0 <= sz <= 236 - Z.log2 z /\ sz <= qe b) by lia.
  assert (Psz : 0 < 2 ^ sz) by (apply pow2_pos; lia).
  assert (Hz2 : 0 < z * 2 ^ sz < 2 ^ 237).
  { split. apply Z.mul_pos_pos; lia.
    apply Z.le_lt_trans with (z * 2 ^ (236 - Z.log2 z)); [|lia].
    apply Z.mul_le_mono_nonneg_l. lia. apply pow2_le; lia. }
  rewrite shl256s by lia. rewrite bind_Some.
  assert (QB : qe b <= b / 2 ^ 236) by (unfold qe; lia).
  rewrite subu_ok by lia. rewrite bind_Some.
  replace (Z.max 0 (b / 2 ^ 236 - sz - 1)) with (qe b - sz) by lia.
  set (E := qe b - sz) in *.
  assert (HE : 0 <= E < 524286) by (unfold E; lia).
  pose proof (asm_add (z * 2 ^ sz) E ltac:(lia) ltac:(lia) ltac:(lia)) as AA.
  exists (E * 2 ^ 236 + z * 2 ^ sz).
  assert (MV : mag_val (E * 2 ^ 236 + z * 2 ^ sz) = z * 2 ^ qe b).
  { rewrite mag_val_any; [|lia|lia|].
    - rewrite <- Z.mul_assoc, <- pow2_add by lia. do 2 f_equal. unfold E; lia.
    - assert (C : sz = qe b \/ sz = 236 - Z.log2 z) by lia. destruct C as [C|C]. left; unfold E; lia.
      right. rewrite C. lia. }
  split. exact MV. split. { unfold INFm. lia. }
  destruct (addu _ _ _) as [hh|]; cbn [bind] in *; [|discriminate].
  apply (f_equal (fun o => match o with Some x => x | None => of256 0 end)) in AA.
  replace (E * 2 ^ 236 + z * 2 ^ sz =? 0) with false by (symmetry; apply Z.eqb_neq; lia).
  f_equal. unfold mkf. rewrite <- or_hi_sign by lia. rewrite <- AA. unfold or_hi.
  rewrite Z.lor_comm. reflexivity.
Qed.

(** Special operands and |x| < |y|: the IEEE result. *)
Lemma rem_special vx vy : 0 <= vx < 2 ^ 256 -> 0 <= vy < 2 ^ 256 ->
  (finb vx && finb vy && (mag vy <=? mag vx) && negb (zerob vy)) = false ->
  rem (of256 vx) (of256 vy) = Some (of256 (spec_rem vx vy)).
Proof.
  intros Hx Hy C. unfold rem.
  destruct (mkf_split vx Hx) as (Ex & Sx & Mx). destruct (mkf_split vy Hy) as (Ey & Sy & My).
  rewrite !abs_bits_of. fold (mag vx) (mag vy).
  rewrite !sticky_of by lia. rewrite any_special2_of by auto.
  unfold spec_rem, nanb, infb, finb, zerob in *.
  pose proof INFm_pos as IM. pose proof (stk_zero (mag vy) My) as Zb.
  pose proof (stk_gt_inf (mag vx) Mx) as Ga. pose proof (stk_gt_inf (mag vy) My) as Gb.
  pose proof (stk_eq_inf (mag vx) Mx) as Qa.
  change HI_EXP_MASK with INF_HI. rewrite Zb, Qa.
  replace (INF_HI <? Z.max (stk (mag vx)) (stk (mag vy))) with ((INFm <? mag vx) || (INFm <? mag vy)).
  2: { rewrite <- Ga, <- Gb. generalize (stk (mag vx)) (stk (mag vy)). intros u w. destruct (Z.ltb_spec INF_HI u), (Z.ltb_spec INF_HI w), (Z.ltb_spec INF_HI (Z.max u w)); auto; lia. }
  clear Ga Gb Qa Zb.
  rewrite ult256 by lia.
  assert (SM : mag vx < mag vy -> mag vy < INFm -> mkf (sgn vx) (rnd_mag (mag_val (mag vx) mod mag_val (mag vy)) 1) = vx).
  { intros L1 L2. pose proof (mag_val_lt (mag vx) (mag vy) ltac:(lia) ltac:(lia)).
    pose proof (mag_val_nonneg (mag vx) ltac:(lia)). rewrite Z.mod_small by lia.
    rewrite rnd_mag_exact by lia. auto. }
  assert (S0 : mag vx = 0 -> 0 < mag vy < INFm -> mkf (sgn vx) (rnd_mag (mag_val (mag vx) mod mag_val (mag vy)) 1) = vx) by (intros; apply SM; lia).
  revert C SM S0. generalize (mkf (sgn vx) (rnd_mag (mag_val (mag vx) mod mag_val (mag vy)) 1)).
  set (a := mag vx) in *. set (b := mag vy) in *. clearbody a b. intros w C SM S0.
  destruct (Z.ltb_spec INFm a), (Z.ltb_spec INFm b), (Z.eqb_spec a INFm), (Z.eqb_spec b INFm), (Z.eqb_spec b 0), (Z.eqb_spec a 0),
    (Z.leb_spec INFm a), (Z.leb_spec INFm b); cbn [orb] in *; try (exfalso; lia); try reflexivity.
  all: try (rewrite S0 by lia; reflexivity).
  all: rewrite !ltb_true in C by lia; cbn [andb negb] in C; rewrite andb_true_r in C; apply Z.leb_gt in C;
    rewrite ltb_true by lia; rewrite SM by lia; reflexivity.
Qed.

(** Divisor normal: correct when the exponents' difference is not 19 modulo 256
    (or, in that case, the next multiple of y's significand stays below 2^256). *)
Theorem rem_normal vx vy : 0 <= vx < 2 ^ 256 -> 0 <= vy < 2 ^ 256 ->
  finb vx = true -> finb vy = true -> 2 ^ 236 <= mag vy <= mag vx ->
  (mag vx / 2 ^ 236 - mag vy / 2 ^ 236) mod 256 <> 19 ->
  exists m, mag_val m = mag_val (mag vx) mod mag_val (mag vy) /\ 0 <= m < INFm
    /\ rem (of256 vx) (of256 vy) = Some (of256 (if m =? 0 then 0 else mkf (sgn vx) m)).
Proof.
  intros Hx Hy Fx Fy Hm H19. apply rem_finite; auto. lia. cbv zeta. intros ES.
  destruct (mkf_split vx Hx) as (Ex & Sx & Mx). destruct (mkf_split vy Hy) as (Ey & Sy & My).
  set (a := mag vx) in *. set (b := mag vy) in *. clearbody a b.
  assert (QD : qe a - qe b = a / 2 ^ 236 - b / 2 ^ 236).
  { unfold qe. assert (1 <= a / 2 ^ 236) by (apply Z.div_le_lower_bound; lia).
    assert (1 <= b / 2 ^ 236) by (apply Z.div_le_lower_bound; lia). lia. }
  rewrite <- QD in H19.
  pose proof (sg_bound a ltac:(lia)) as SA. pose proof (sg_bound b ltac:(lia)) as SB.
  pose proof (sg_norm a ltac:(lia)) as NA. pose proof (sg_norm b ltac:(lia)) as NB.
  pose proof (Z.mod_pos_bound (qe a - qe b) 256 ltac:(lia)) as Bk.
  set (k := (qe a - qe b) mod 256) in *. clearbody k.
  assert (Pk : 0 < 2 ^ k) by (apply pow2_pos; lia).
  assert (HT : sg a * 2 ^ k < 2 ^ 492).
  { change (2 ^ 492) with (2 ^ 237 * 2 ^ 255). assert (2 ^ k <= 2 ^ 255) by (apply pow2_le; lia). clear - SA H Pk. nia. }
  assert (HT0 : 0 <= sg a * 2 ^ k) by (apply Z.mul_nonneg_nonneg; lia).
  apply div512_256; try lia.
  - intros X. apply div256_norm; try lia. left.
    destruct (Z.lt_ge_cases k 19).
    + assert (2 ^ k <= 2 ^ 18) by (apply pow2_le; lia). change (2 ^ 255) with (2 ^ 237 * 2 ^ 18). clear - SA H0 Pk. nia.
    + exfalso. assert (2 ^ 20 <= 2 ^ k) by (apply pow2_le; lia). change (2 ^ 256) with (2 ^ 236 * 2 ^ 20) in X.
      clear - NA H0 X. nia.
  - intros X. exfalso. assert (sg a * 2 ^ k / 2 ^ 256 < 2 ^ 236) by (apply Z.div_lt_upper_bound; lia). lia.
Qed.

(** Divisor below 2^128 units: always correct. *)
Theorem rem_tiny vx vy : 0 <= vx < 2 ^ 256 -> 0 <= vy < 2 ^ 256 ->
  finb vx = true -> finb vy = true -> 0 < mag vy < 2 ^ 128 -> mag vy <= mag vx ->
  exists m, mag_val m = mag_val (mag vx) mod mag_val (mag vy) /\ 0 <= m < INFm
    /\ rem (of256 vx) (of256 vy) = Some (of256 (if m =? 0 then 0 else mkf (sgn vx) m)).
Proof.
  intros Hx Hy Fx Fy Hb Hm. apply rem_finite; auto. lia. cbv zeta. intros ES.
  destruct (mkf_split vx Hx) as (Ex & Sx & Mx). destruct (mkf_split vy Hy) as (Ey & Sy & My).
  set (a := mag vx) in *. set (b := mag vy) in *. clearbody a b.
  assert (SBb : sg b = b) by (unfold sg; destruct (Z.ltb_spec b (2 ^ 236)); lia). rewrite SBb in *.
  pose proof (sg_bound a ltac:(lia)) as SA.
  pose proof (Z.mod_pos_bound (qe a - qe b) 256 ltac:(lia)) as Bk.
  set (k := (qe a - qe b) mod 256) in *. clearbody k.
  assert (Pk : 0 < 2 ^ k) by (apply pow2_pos; lia).
  assert (HT : sg a * 2 ^ k < 2 ^ 492).
  { change (2 ^ 492) with (2 ^ 237 * 2 ^ 255). assert (2 ^ k <= 2 ^ 255) by (apply pow2_le; lia). clear - SA H Pk. nia. }
  assert (HT0 : 0 <= sg a * 2 ^ k) by (apply Z.mul_nonneg_nonneg; lia).
  apply div512_256; try lia.
  - intros X. apply div256_small; lia.
  - intros X. apply div256_small; [|lia]. split. apply Z.div_pos; lia. apply Z.div_lt_upper_bound; lia.
Qed.

End Rem.

(** * BasicProofs: predicates, sign operations, comparison, bytes (src/lib.rs,
    src/binops/cmp.rs) meet the specification *)

From Verif Require Import Base BigUInt ZLemmas BigLaws BigUIntProofs Spec BigExtra F256 SpecLemmas SpecFns F256Lemmas.
From Coq Require Import Lia.
Open Scope Z_scope.

Section BasicProofs.
Context {P : profile}.

Lemma sgn_bound v : 0 <= v < 2 ^ 256 -> 0 <= sgn v < 2.
Proof. intros. unfold sgn. apply div_bound; lia. Qed.
Lemma mag_bound v : 0 <= mag v < 2 ^ 255.
Proof. unfold mag. apply Z.mod_pos_bound. lia. Qed.
Lemma sgn_mag v : v = sgn v * 2 ^ 255 + mag v.
Proof. unfold sgn, mag. rewrite Z.mul_comm. apply Z.div_mod. lia. Qed.
Lemma mkf_sgn_mag v : mkf (sgn v) (mag v) = v.
Proof. symmetry. apply sgn_mag. Qed.
Lemma abs_sticky_mag v :
  Z.lor (Z.land (xhi (of256 v)) HI_ABS_MASK) (b2z (negb (xlo (of256 v) =? 0))) = stk (mag v).
Proof.
  rewrite <- sticky_of by apply mag_bound. unfold mag. rewrite <- abs_bits_of. reflexivity.
Qed.

Lemma is_nan_of v : is_nan (of256 v) = nanb v.
Proof. unfold is_nan. rewrite abs_sticky_mag. apply stk_gt_inf. apply mag_bound. Qed.

Lemma is_infinite_of v : is_infinite (of256 v) = infb v.
Proof.
  unfold is_infinite, HI_ABS_MASK, infb, INFm, HI_EXP_MASK. rewrite xhi_of, xlo_of, land_pow2_ones by lia.
  rewrite <- (div_mod_pow v 128 127) by lia. change (128 + 127) with 255.
  rewrite <- (mod_mod_pow v 128 255) by lia. fold (mag v).
  pose proof (Z.div_mod (mag v) (2 ^ 128) ltac:(lia)). pose proof (Z.mod_pos_bound (mag v) (2 ^ 128) ltac:(lia)).
  destruct (Z.eqb_spec (mag v / 2 ^ 128) (524287 * 2 ^ 108)), (Z.eqb_spec (mag v mod 2 ^ 128) 0),
    (Z.eqb_spec (mag v) (524287 * 2 ^ 236)); auto; lia.
Qed.

Lemma eq_zero_of v : eq_zero (of256 v) = zerob v.
Proof.
  unfold eq_zero, shlc, zerob. rewrite xhi_of, xlo_of.
  replace ((v / 2 ^ 128 * 2 ^ 1) mod 2 ^ 128) with (2 * (mag v / 2 ^ 128)).
  2: { unfold mag. change 255 with (128 + 127). rewrite (div_mod_pow v 128 127) by lia.
       change (2 ^ 128) with (2 * 2 ^ 127) at 3. rewrite (Z.mul_comm _ (2 ^ 1)). change (2 ^ 1) with 2.
       rewrite Z.mul_mod_distr_l by lia. reflexivity. }
  rewrite <- (mod_mod_pow v 128 255) by lia. fold (mag v).
  pose proof (Z.div_mod (mag v) (2 ^ 128) ltac:(lia)). pose proof (Z.mod_pos_bound (mag v) (2 ^ 128) ltac:(lia)).
  destruct (Z.eqb_spec (2 * (mag v / 2 ^ 128)) 0), (Z.eqb_spec (mag v mod 2 ^ 128) 0),
    (Z.eqb_spec (mag v) 0); auto; lia.
Qed.

Lemma land_exp v : Z.land (xhi (of256 v)) HI_EXP_MASK = (mag v / 2 ^ 236) * 2 ^ 108.
Proof.
  rewrite xhi_of. unfold HI_EXP_MASK, mag.
  assert (E : 524287 * 2 ^ 108 = Z.shiftl (Z.ones 19) 108) by reflexivity. rewrite E.
  change 255 with (236 + 19). rewrite div_mod_pow by lia. change 236 with (128 + 108) at 1.
  rewrite pow2_add, <- Z.div_div by lia. set (h := v / 2 ^ 128).
  rewrite <- Z.land_ones by lia. rewrite <- Z.shiftr_div_pow2, <- Z.shiftl_mul_pow2 by lia.
  apply Z.bits_inj'. intros n Hn. rewrite Z.land_spec, !Z.shiftl_spec by lia.
  destruct (Z.ltb_spec n 108).
  - rewrite !(Z.testbit_neg_r _ (n - 108)) by lia. apply andb_false_r.
  - rewrite Z.land_spec, Z.shiftr_spec by lia. f_equal. f_equal. lia.
Qed.

Lemma biased_exponent_of v : biased_exponent (of256 v) = mag v / 2 ^ 236.
Proof.
  unfold biased_exponent, shrc, HI_FRACTION_BITS. rewrite land_exp, Z.div_mul by lia.
  pose proof (mag_bound v). apply castu_ok.
  assert (0 <= mag v / 2 ^ 236 < 2 ^ 19) by (apply div_bound; lia). lia.
Qed.

Lemma is_finite_of v : is_finite (of256 v) = finb v.
Proof.
  unfold is_finite, finb, INFm. rewrite land_exp. unfold HI_EXP_MASK. pose proof (mag_bound v).
  pose proof (Z.div_mod (mag v) (2 ^ 236) ltac:(lia)). pose proof (Z.mod_pos_bound (mag v) (2 ^ 236) ltac:(lia)).
  destruct (Z.eqb_spec (mag v / 2 ^ 236 * 2 ^ 108) (524287 * 2 ^ 108)), (Z.ltb_spec (mag v) (524287 * 2 ^ 236));
    auto; cbn [negb]; lia.
Qed.

Lemma is_subnormal_of v : is_subnormal (of256 v) = (0 <? mag v) && (mag v <? 2 ^ 236).
Proof.
  unfold is_subnormal. rewrite land_exp, eq_zero_of. unfold zerob. pose proof (mag_bound v).
  pose proof (Z.div_mod (mag v) (2 ^ 236) ltac:(lia)). pose proof (Z.mod_pos_bound (mag v) (2 ^ 236) ltac:(lia)).
  destruct (Z.eqb_spec (mag v / 2 ^ 236 * 2 ^ 108) 0), (Z.ltb_spec 0 (mag v)), (Z.ltb_spec (mag v) (2 ^ 236)),
    (Z.eqb_spec (mag v) 0); auto; cbn [negb andb]; lia.
Qed.

Lemma is_normal_of v : is_normal (of256 v) = (2 ^ 236 <=? mag v) && (mag v <? INFm).
Proof.
  unfold is_normal. rewrite biased_exponent_of. unfold EXP_MAX, INFm. pose proof (mag_bound v).
  pose proof (Z.div_mod (mag v) (2 ^ 236) ltac:(lia)). pose proof (Z.mod_pos_bound (mag v) (2 ^ 236) ltac:(lia)).
  assert (0 <= mag v / 2 ^ 236 < 2 ^ 19) by (apply div_bound; lia).
  destruct (Z.eq_dec (mag v / 2 ^ 236) 0) as [e|e].
  - rewrite e. change ((0 - 1) mod 2 ^ 32) with (2 ^ 32 - 1).
    destruct (Z.leb_spec (2 ^ 236) (mag v)); [lia|]. reflexivity.
  - rewrite Z.mod_small by lia.
    destruct (Z.ltb_spec (mag v / 2 ^ 236 - 1) (524287 - 1)), (Z.leb_spec (2 ^ 236) (mag v)),
      (Z.ltb_spec (mag v) (524287 * 2 ^ 236)); auto; lia.
Qed.

Lemma is_special_of v : is_special (of256 v) = zerob v || negb (finb v).
Proof.
  unfold is_special. rewrite abs_sticky_mag. pose proof (mag_bound v).
  pose proof (stk_special (mag v) H) as E. unfold u128_is_special in E. rewrite E.
  unfold zerob, finb. rewrite Z.leb_antisym. reflexivity.
Qed.

Lemma is_sign_positive_of v : 0 <= v < 2 ^ 256 -> is_sign_positive (of256 v) = (sgn v =? 0).
Proof.
  intros Hv. unfold is_sign_positive, HI_SIGN_MASK. rewrite xhi_ltb by lia.
  pose proof (sgn_bound v Hv). pose proof (sgn_mag v). pose proof (mag_bound v).
  change (2 ^ 127 * 2 ^ 128) with (2 ^ 255).
  destruct (Z.ltb_spec v (2 ^ 255)), (Z.eqb_spec (sgn v) 0); auto; lia.
Qed.

Lemma is_sign_negative_of v : 0 <= v < 2 ^ 256 -> is_sign_negative (of256 v) = (sgn v =? 1).
Proof.
  intros Hv. unfold is_sign_negative, HI_SIGN_MASK. rewrite xhi_leb by lia.
  pose proof (sgn_bound v Hv). pose proof (sgn_mag v). pose proof (mag_bound v).
  change (2 ^ 127 * 2 ^ 128) with (2 ^ 255).
  destruct (Z.leb_spec (2 ^ 255) v), (Z.eqb_spec (sgn v) 1); auto; lia.
Qed.

(** What [classify] computes: every NaN but the canonical one is called normal. *)
Lemma classify_of v :
  classify (of256 v) =
    if mag v =? 0 then FpZero
    else if mag v =? INFm then FpInfinite
    else if mag v =? QNAN then FpNan
    else if mag v <? 2 ^ 236 then FpSubnormal
    else FpNormal.
Proof.
  unfold classify. rewrite abs_bits_of. fold (mag v). pose proof (mag_bound v) as B.
  rewrite sticky_of by lia. rewrite stk_zero, stk_eq_inf, stk_sub by exact B.
  replace (stk (mag v) =? NAN_HI) with (mag v =? QNAN). reflexivity.
  unfold NAN_HI, QNAN, stk.
  pose proof (Z.div_mod (mag v) (2 ^ 128) ltac:(lia)). pose proof (Z.mod_pos_bound (mag v) (2 ^ 128) ltac:(lia)).
  destruct (Z.eqb_spec (mag v mod 2 ^ 128) 0).
  - destruct (Z.eqb_spec (mag v) (524287 * 2 ^ 236 + 2 ^ 235)), (Z.eqb_spec (mag v / 2 ^ 128) (524287 * 2 ^ 108 + 2 ^ 107)); auto; lia.
  - destruct (Z.eqb_spec (mag v) (524287 * 2 ^ 236 + 2 ^ 235)), (Z.eqb_spec (2 * (mag v / 2 ^ 128 / 2) + 1) (524287 * 2 ^ 108 + 2 ^ 107)); auto; lia.
Qed.

(** ** Sign operations *)

Lemma negated_of v : 0 <= v < 2 ^ 256 -> negated (of256 v) = of256 (spec_neg v).
Proof.
  intros Hv. unfold negated, HI_SIGN_MASK. rewrite xhi_of, xlo_of.
  assert (E : Z.lxor (v / 2 ^ 128) (2 ^ 127) = (1 - sgn v) * 2 ^ 127 + mag v / 2 ^ 128).
  { unfold sgn, mag. change 255 with (128 + 127) at 2. rewrite div_mod_pow by lia.
    change (2 ^ 255) with (2 ^ 128 * 2 ^ 127). rewrite <- Z.div_div by lia.
    assert (0 <= v / 2 ^ 128 < 2 ^ 128) by (apply div_bound; lia).
    set (h := v / 2 ^ 128) in *. clearbody h.
    pose proof (Z.div_mod h (2 ^ 127) ltac:(lia)) as D. pose proof (Z.mod_pos_bound h (2 ^ 127) ltac:(lia)).
    assert (0 <= h / 2 ^ 127 < 2) by (apply div_bound; lia).
    set (q := h / 2 ^ 127) in *. set (r := h mod 2 ^ 127) in *. clearbody q r.
    assert (Hq : q = 0 \/ q = 1) by lia. destruct Hq as [-> | ->].
    - rewrite Z.mul_0_r, Z.add_0_l in D. subst h.
      rewrite <- Z.add_nocarry_lxor. lia.
      apply Z.bits_inj'. intros n Hn. rewrite Z.land_spec, Z.bits_0, Z.pow2_bits_eqb by lia.
      destruct (Z.eqb_spec 127 n) as [<-|]; [|apply andb_false_r].
      rewrite Z.bits_above_log2; auto. lia. destruct (Z.eq_dec r 0) as [->|]; [cbn; lia|]. apply Z.log2_lt_pow2; lia.
    - assert (L : h = Z.lxor r (2 ^ 127)).
      { rewrite <- Z.add_nocarry_lxor. lia.
        apply Z.bits_inj'. intros n Hn. rewrite Z.land_spec, Z.bits_0, Z.pow2_bits_eqb by lia.
        destruct (Z.eqb_spec 127 n) as [<-|]; [|apply andb_false_r].
        rewrite Z.bits_above_log2; auto. lia. destruct (Z.eq_dec r 0) as [->|]; [cbn; lia|]. apply Z.log2_lt_pow2; lia. }
      rewrite L, Z.lxor_assoc, Z.lxor_nilpotent, Z.lxor_0_r. lia. }
  rewrite E, u256_hi. apply of256_ext. unfold spec_neg, mkf.
  pose proof (Z.div_mod (mag v) (2 ^ 128) ltac:(lia)) as D. unfold mag in D at 3. rewrite mod_mod_pow in D by lia.
  change (2 ^ 255) with (2 ^ 127 * 2 ^ 128). lia.
Qed.

Lemma abs_ok v : abs (of256 v) = of256 (mag v).
Proof. apply abs_of. Qed.

(** ** Comparison *)

Lemma sval_mag v : sval v = (1 - 2 * sgn v) * mag_val (mag v). Proof. reflexivity. Qed.

Lemma sval_pos v : sgn v = 0 -> sval v = mag_val (mag v).
Proof. intros H. unfold sval. rewrite H. lia. Qed.
Lemma sval_neg v : sgn v = 1 -> sval v = - mag_val (mag v).
Proof. intros H. unfold sval. rewrite H. lia. Qed.

Lemma sgn01 v : 0 <= v < 2 ^ 256 -> sgn v = 0 \/ sgn v = 1.
Proof. intros H. pose proof (sgn_bound v H). lia. Qed.

Lemma mag_val_zero a : 0 <= a -> (mag_val a =? 0) = (a =? 0).
Proof.
  intros Ha. destruct (Z.eqb_spec a 0) as [->|]. reflexivity.
  apply Z.eqb_neq. pose proof (mag_val_pos a ltac:(lia)). lia.
Qed.
Lemma mag_val_cmp a b : 0 <= a -> 0 <= b -> (mag_val a ?= mag_val b) = (a ?= b).
Proof.
  intros Ha Hb. destruct (Z.compare_spec a b) as [->|H|H].
  apply Z.compare_refl. apply Z.compare_lt_iff, mag_val_lt; auto. apply Z.compare_gt_iff, mag_val_lt; auto.
Qed.

Lemma f_eq_ok x y : 0 <= x < 2 ^ 256 -> 0 <= y < 2 ^ 256 -> f_eq (of256 x) (of256 y) = spec_eq x y.
Proof.
  intros Hx Hy. unfold f_eq, spec_eq. rewrite !is_nan_of, !eq_zero_of, ueqb256 by auto.
  destruct (nanb x), (nanb y); cbn [orb negb andb]; auto. unfold zerob.
  pose proof (sgn01 x Hx) as Sx. pose proof (sgn01 y Hy) as Sy.
  pose proof (mag_bound x) as Mx. pose proof (mag_bound y) as My.
  pose proof (sgn_mag x) as Ex. pose proof (sgn_mag y) as Ey.
  pose proof (mag_val_nonneg (mag x) ltac:(lia)) as Nx. pose proof (mag_val_nonneg (mag y) ltac:(lia)) as Ny.
  pose proof (mag_val_zero (mag x) ltac:(lia)) as Zx. pose proof (mag_val_zero (mag y) ltac:(lia)) as Zy.
  unfold sval.
  destruct (Z.eqb_spec (mag x) 0) as [zx|zx], (Z.eqb_spec (mag y) 0) as [zy|zy]; cbn [andb];
    (apply Z.eqb_eq in Zx || apply Z.eqb_neq in Zx); (apply Z.eqb_eq in Zy || apply Z.eqb_neq in Zy).
  - symmetry. apply Z.eqb_eq. rewrite Zx, Zy. lia.
  - rewrite Zx. destruct (Z.eqb_spec x y) as [->|]. lia. symmetry. apply Z.eqb_neq. destruct Sy as [-> | ->]; lia.
  - rewrite Zy. destruct (Z.eqb_spec x y) as [->|]. lia. symmetry. apply Z.eqb_neq. destruct Sx as [-> | ->]; lia.
  - destruct (Z.eqb_spec x y) as [->|N]. symmetry; apply Z.eqb_refl. symmetry. apply Z.eqb_neq.
    intros E. assert (mag x <> mag y \/ sgn x <> sgn y) by (destruct (Z.eq_dec (mag x) (mag y)); lia).
    destruct Sx as [sx|sx], Sy as [sy|sy]; rewrite sx, sy in *; try lia;
      assert (EE : mag_val (mag x) = mag_val (mag y)) by lia; apply mag_val_inj in EE; lia.
Qed.

(** What [total_cmp] computes. *)
Lemma total_cmp_of x y : 0 <= x < 2 ^ 256 -> 0 <= y < 2 ^ 256 ->
  total_cmp (of256 x) (of256 y) = (spec_neg x ?= spec_neg y).
Proof.
  intros Hx Hy. unfold total_cmp. rewrite !negated_of by auto.
  assert (B : forall z, 0 <= z < 2 ^ 256 -> 0 <= spec_neg z < 2 ^ 256).
  { intros z Hz. unfold spec_neg, mkf. pose proof (sgn_bound z Hz). pose proof (mag_bound z). lia. }
  apply ucmp256; apply B; auto.
Qed.

Lemma total_cmp_mixed x y : 0 <= x < 2 ^ 256 -> 0 <= y < 2 ^ 256 -> sgn x * sgn y = 0 ->
  total_cmp (of256 x) (of256 y) = spec_total_cmp x y.
Proof.
  intros Hx Hy S. rewrite total_cmp_of by auto. unfold spec_neg, mkf, spec_total_cmp, tkey.
  pose proof (mag_bound x). pose proof (mag_bound y).
  destruct (sgn01 x Hx) as [sx|sx], (sgn01 y Hy) as [sy|sy]; rewrite sx, sy in *; cbn [Z.eqb]; try lia;
  match goal with |- (?a ?= ?b) = (?c ?= ?d) => destruct (Z.compare_spec a b), (Z.compare_spec c d); auto; lia end.
Qed.

Lemma total_cmp_neg x y : 0 <= x < 2 ^ 256 -> 0 <= y < 2 ^ 256 -> sgn x = 1 -> sgn y = 1 ->
  total_cmp (of256 x) (of256 y) = CompOpp (spec_total_cmp x y).
Proof.
  intros Hx Hy sx sy. rewrite total_cmp_of by auto. unfold spec_neg, mkf, spec_total_cmp, tkey.
  pose proof (mag_bound x). pose proof (mag_bound y). rewrite sx, sy. cbn [Z.eqb].
  rewrite <- Z.compare_antisym.
  match goal with |- (?a ?= ?b) = (?c ?= ?d) => destruct (Z.compare_spec a b), (Z.compare_spec c d); auto; lia end.
Qed.

(** On numbers of which not both are zero, the total order is the numeric one. *)
Lemma total_cmp_sval x y : 0 <= x < 2 ^ 256 -> 0 <= y < 2 ^ 256 -> zerob x && zerob y = false ->
  spec_total_cmp x y = (sval x ?= sval y).
Proof.
  intros Hx Hy Z. unfold spec_total_cmp, tkey, sval.
  pose proof (mag_bound x) as Mx. pose proof (mag_bound y) as My.
  pose proof (mag_val_nonneg (mag x) ltac:(lia)) as Nx. pose proof (mag_val_nonneg (mag y) ltac:(lia)) as Ny.
  pose proof (mag_val_zero (mag x) ltac:(lia)) as Zx. pose proof (mag_val_zero (mag y) ltac:(lia)) as Zy.
  unfold zerob in Z.
  assert (Q : mag_val (mag x) + mag_val (mag y) <> 0).
  { intros E. assert (A : mag_val (mag x) = 0) by lia. assert (B : mag_val (mag y) = 0) by lia.
    rewrite A in Zx. rewrite B in Zy. cbn [Z.eqb] in Zx, Zy. rewrite <- Zx, <- Zy in Z. discriminate. }
  pose proof (mag_val_cmp (mag x) (mag y) ltac:(lia) ltac:(lia)) as C.
  destruct (sgn01 x Hx) as [sx|sx], (sgn01 y Hy) as [sy|sy]; rewrite sx, sy in *; cbn [Z.eqb].
  - rewrite <- C. f_equal; lia.
  - transitivity Gt; [|symmetry]; apply Z.compare_gt_iff; lia.
  - transitivity Lt; [|symmetry]; apply Z.compare_lt_iff; lia.
  - match goal with |- ?l = ?r => transitivity (mag y ?= mag x) end.
    + destruct (Z.compare_spec (- mag x - 1) (- mag y - 1)), (Z.compare_spec (mag y) (mag x)); auto; lia.
    + rewrite <- mag_val_cmp by lia.
      match goal with |- (?a ?= ?b) = (?c ?= ?d) => destruct (Z.compare_spec a b), (Z.compare_spec c d); auto; lia end.
Qed.

Lemma zeros_cmp x y : zerob x && zerob y = true -> (sval x ?= sval y) = Eq.
Proof.
  unfold zerob. intros H. apply andb_true_iff in H as [A B]. apply Z.eqb_eq in A, B.
  unfold sval. rewrite A, B. change (mag_val 0) with 0. rewrite !Z.mul_0_r. reflexivity.
Qed.

Lemma partial_cmp_mixed x y : 0 <= x < 2 ^ 256 -> 0 <= y < 2 ^ 256 -> sgn x * sgn y = 0 ->
  partial_cmp (of256 x) (of256 y) = spec_cmp x y.
Proof.
  intros Hx Hy S. unfold partial_cmp, spec_cmp. rewrite !is_nan_of, !eq_zero_of.
  destruct (nanb x || nanb y); auto.
  destruct (zerob x && zerob y) eqn:Z.
  - rewrite zeros_cmp; auto.
  - rewrite total_cmp_mixed, total_cmp_sval; auto.
Qed.

Lemma partial_cmp_neg x y : 0 <= x < 2 ^ 256 -> 0 <= y < 2 ^ 256 -> sgn x = 1 -> sgn y = 1 ->
  partial_cmp (of256 x) (of256 y) = spec_cmp y x.
Proof.
  intros Hx Hy sx sy. unfold partial_cmp, spec_cmp. rewrite !is_nan_of, !eq_zero_of, (orb_comm (nanb y)).
  destruct (nanb x || nanb y); auto.
  destruct (zerob x && zerob y) eqn:Z.
  - rewrite zeros_cmp; auto. rewrite andb_comm. auto.
  - rewrite total_cmp_neg, total_cmp_sval by auto. rewrite (Z.compare_antisym (sval x)). reflexivity.
Qed.

Lemma partial_cmp_none x y : 0 <= x < 2 ^ 256 -> 0 <= y < 2 ^ 256 ->
  (partial_cmp (of256 x) (of256 y) = None <-> nanb x || nanb y = true).
Proof.
  intros Hx Hy. unfold partial_cmp. rewrite !is_nan_of.
  destruct (nanb x || nanb y). tauto. destruct (_ && _); split; discriminate.
Qed.

(** ** Bytes *)

Lemma of_le_le n v : of_le_bytes (le_bytes n v) = v mod 2 ^ (8 * Z.of_nat n).
Proof.
  revert v. induction n as [|n IH]; intros v.
  - cbn. rewrite Z.mod_1_r. reflexivity.
  - cbn [le_bytes of_le_bytes]. rewrite IH.
    replace (8 * Z.of_nat (S n)) with (8 + 8 * Z.of_nat n) by lia. rewrite pow2_add by lia.
    change (2 ^ 8) with 256. rewrite Z.rem_mul_r; [reflexivity|lia|apply pow2_pos; lia].
Qed.

Lemma le_bytes_length n v : length (le_bytes n v) = n.
Proof. revert v. induction n; intros; cbn [le_bytes length]; auto. Qed.

Lemma le_of_le n l : length l = n -> Forall (fun b => 0 <= b < 256) l ->
  le_bytes n (of_le_bytes l) = l /\ 0 <= of_le_bytes l < 2 ^ (8 * Z.of_nat n).
Proof.
  revert n. induction l as [|b l IH]; intros n Hn F; subst n.
  - split. reflexivity. cbn. lia.
  - inversion F as [|? ? Hb Hl]; subst. destruct (IH _ eq_refl Hl) as [E B].
    cbn [length le_bytes of_le_bytes]. split.
    + f_equal. apply mod_eq with (of_le_bytes l); lia. rewrite (div_eq _ 256 (of_le_bytes l) b) by lia. exact E.
    + replace (8 * Z.of_nat (S (length l))) with (8 + 8 * Z.of_nat (length l)) by lia. rewrite pow2_add by lia.
      change (2 ^ 8) with 256. lia.
Qed.

Lemma firstn_app_len {A} (a b : list A) n : length a = n -> firstn n (a ++ b) = a.
Proof. intros <-. rewrite firstn_app, Nat.sub_diag, firstn_all, app_nil_r. reflexivity. Qed.
Lemma skipn_app_len {A} (a b : list A) n : length a = n -> skipn n (a ++ b) = b.
Proof. intros <-. rewrite skipn_app, Nat.sub_diag, skipn_all. reflexivity. Qed.

Lemma u256_halves v : 0 <= v < 2 ^ 256 -> u256 ((v / 2 ^ 128) mod 2 ^ 128) (v mod 2 ^ 128 mod 2 ^ 128) = of256 v.
Proof.
  intros Hv. rewrite Z.mod_mod by lia. rewrite (Z.mod_small (v / 2 ^ 128)).
  2: { apply div_bound; lia. }
  rewrite u256_hi. apply of256_ext. rewrite (Z.div_mod v (2 ^ 128)) at 3 by lia. lia.
Qed.

Lemma be_len n v : length (be_bytes n v) = n.
Proof. unfold be_bytes. rewrite rev_length. apply le_bytes_length. Qed.
Lemma of_be_be n v : of_be_bytes (be_bytes n v) = v mod 2 ^ (8 * Z.of_nat n).
Proof. unfold of_be_bytes, be_bytes. rewrite rev_involutive. apply of_le_le. Qed.

Lemma le_round_trip v : 0 <= v < 2 ^ 256 -> from_le_bytes (to_le_bytes (of256 v)) = of256 v.
Proof.
  intros Hv. unfold from_le_bytes, to_le_bytes.
  rewrite firstn_app_len, skipn_app_len, !of_le_le by apply le_bytes_length.
  change (8 * Z.of_nat 16) with 128. rewrite xhi_of, xlo_of. apply u256_halves; auto.
Qed.
Lemma ne_round_trip v : 0 <= v < 2 ^ 256 -> from_ne_bytes (to_ne_bytes (of256 v)) = of256 v.
Proof.
  intros Hv. unfold from_ne_bytes, to_ne_bytes.
  rewrite firstn_app_len, skipn_app_len, !of_le_le by apply le_bytes_length.
  change (8 * Z.of_nat 16) with 128. rewrite xhi_of, xlo_of. apply u256_halves; auto.
Qed.
Lemma be_round_trip v : 0 <= v < 2 ^ 256 -> from_be_bytes (to_be_bytes (of256 v)) = of256 v.
Proof.
  intros Hv. unfold from_be_bytes, to_be_bytes.
  rewrite firstn_app_len, skipn_app_len, !of_be_be by apply be_len.
  change (8 * Z.of_nat 16) with 128. rewrite xhi_of, xlo_of. apply u256_halves; auto.
Qed.

Lemma split32 {A} (l : list A) : length l = 32%nat ->
  length (firstn 16 l) = 16%nat /\ length (skipn 16 l) = 16%nat.
Proof. intros H. rewrite firstn_length, skipn_length, H. split; reflexivity. Qed.

Lemma Forall_firstn {A} (Q : A -> Prop) n l : Forall Q l -> Forall Q (firstn n l).
Proof. intros H. rewrite <- (firstn_skipn n l) in H. apply Forall_app in H. tauto. Qed.
Lemma Forall_skipn {A} (Q : A -> Prop) n l : Forall Q l -> Forall Q (skipn n l).
Proof. intros H. rewrite <- (firstn_skipn n l) in H. apply Forall_app in H. tauto. Qed.

Lemma le_bytes_back l : length l = 32%nat -> Forall (fun b => 0 <= b < 256) l ->
  to_le_bytes (from_le_bytes l) = l.
Proof.
  intros H F. destruct (split32 l H) as [A B]. unfold to_le_bytes, from_le_bytes, xhi, xlo, u256. cbn [hi lo val].
  destruct (le_of_le 16 (firstn 16 l) A (Forall_firstn _ _ _ F)) as [-> _].
  destruct (le_of_le 16 (skipn 16 l) B (Forall_skipn _ _ _ F)) as [-> _]. apply firstn_skipn.
Qed.
Lemma ne_bytes_back l : length l = 32%nat -> Forall (fun b => 0 <= b < 256) l ->
  to_ne_bytes (from_ne_bytes l) = l.
Proof.
  intros H F. destruct (split32 l H) as [A B]. unfold to_ne_bytes, from_ne_bytes, xhi, xlo, u256. cbn [hi lo val].
  destruct (le_of_le 16 (firstn 16 l) A (Forall_firstn _ _ _ F)) as [-> _].
  destruct (le_of_le 16 (skipn 16 l) B (Forall_skipn _ _ _ F)) as [-> _]. apply firstn_skipn.
Qed.
Lemma be_of_be n l : length l = n -> Forall (fun b => 0 <= b < 256) l -> be_bytes n (of_be_bytes l) = l.
Proof.
  intros H F. unfold be_bytes, of_be_bytes.
  destruct (le_of_le n (rev l)) as [-> _]. rewrite rev_length; auto. apply Forall_rev; auto. apply rev_involutive.
Qed.
Lemma be_bytes_back l : length l = 32%nat -> Forall (fun b => 0 <= b < 256) l ->
  to_be_bytes (from_be_bytes l) = l.
Proof.
  intros H F. destruct (split32 l H) as [A B]. unfold to_be_bytes, from_be_bytes, xhi, xlo, u256. cbn [hi lo val].
  rewrite !be_of_be; auto using Forall_firstn, Forall_skipn. apply firstn_skipn.
Qed.
Lemma be_rev_le x : to_be_bytes x = rev (to_le_bytes x).
Proof. unfold to_be_bytes, to_le_bytes, be_bytes. rewrite rev_app_distr. reflexivity. Qed.

End BasicProofs.

(** * MiscProofs: min/max/clamp, fract/split, error-free sum, reciprocal, NaN
    propagation and symmetry of the operators *)

From Coq Require Import ZArith Lia Bool.
From Verif Require Import Base BigUInt ZLemmas BigLaws BigUIntProofs Spec SpecFns BigExtra F256 Arith SpecLemmas
  F256Lemmas RoundLemmas AddProofs DivProofs MulProofs SqrtProofs RemProofs BasicProofs CodecProofs IntProofs SpecAlg.
Open Scope Z_scope.

Section MiscProofs.
Context {P : profile}.

Implicit Types x y z : Z.

(** ** Comparison operators *)

(** What the code computes: the order of the two values, reversed when both are negative. *)
Definition code_cmp x y : option comparison :=
  if nanb x || nanb y then None
  else Some (if (sgn x =? 1) && (sgn y =? 1) then sval y ?= sval x else sval x ?= sval y).

Lemma partial_cmp_of x y : 0 <= x < 2 ^ 256 -> 0 <= y < 2 ^ 256 ->
  partial_cmp (of256 x) (of256 y) = code_cmp x y.
Proof.
  intros Hx Hy. unfold code_cmp. destruct (sgn01 x Hx) as [S|S], (sgn01 y Hy) as [S'|S'];
    rewrite ?(partial_cmp_mixed x y), ?(partial_cmp_neg x y) by (auto; rewrite ?S, ?S'; lia);
    unfold spec_cmp; rewrite S, S'; cbn [Z.eqb Pos.eqb andb]; auto.
  rewrite orb_comm. reflexivity.
Qed.

Lemma fmax_of x y : 0 <= x < 2 ^ 256 -> 0 <= y < 2 ^ 256 ->
  fmax (of256 x) (of256 y) =
    of256 (if nanb x then y else if nanb y then x
           else if (sgn x =? 1) && (sgn y =? 1) then (if sval y <? sval x then y else x)
           else if sval x <? sval y then y else x).
Proof.
  intros Hx Hy. unfold fmax, f_gt. rewrite partial_cmp_of, is_nan_of by auto. unfold code_cmp.
  destruct (nanb x); rewrite ?orb_true_r; auto. destruct (nanb y); cbn [orb]; auto.
  rewrite (andb_comm (sgn y =? 1)), orb_false_r. unfold Z.ltb. destruct ((sgn x =? 1) && (sgn y =? 1)).
  - rewrite (Z.compare_antisym (sval y) (sval x)). destruct (sval y ?= sval x); reflexivity.
  - rewrite (Z.compare_antisym (sval x) (sval y)). destruct (sval x ?= sval y); reflexivity.
Qed.

Lemma fmin_of x y : 0 <= x < 2 ^ 256 -> 0 <= y < 2 ^ 256 ->
  fmin (of256 x) (of256 y) =
    of256 (if nanb x then y else if nanb y then x
           else if (sgn x =? 1) && (sgn y =? 1) then (if sval x <? sval y then y else x)
           else if sval y <? sval x then y else x).
Proof.
  intros Hx Hy. unfold fmin, f_lt. rewrite partial_cmp_of, is_nan_of by auto. unfold code_cmp.
  destruct (nanb x); rewrite ?orb_true_r; auto. destruct (nanb y); cbn [orb]; auto.
  rewrite (andb_comm (sgn y =? 1)), orb_false_r. unfold Z.ltb. destruct ((sgn x =? 1) && (sgn y =? 1)).
  - destruct (sval x ?= sval y); reflexivity.
  - destruct (sval y ?= sval x); reflexivity.
Qed.

(** [lo <= hi], [x < lo], [x > hi] as computed *)
Definition code_le x y : bool := match code_cmp x y with Some Lt | Some Eq => true | _ => false end.
Definition code_lt x y : bool := match code_cmp x y with Some Lt => true | _ => false end.

Lemma clamp_of x a b : 0 <= x < 2 ^ 256 -> 0 <= a < 2 ^ 256 -> 0 <= b < 2 ^ 256 ->
  clamp (of256 x) (of256 a) (of256 b) =
    if code_le a b then Some (of256 (if code_lt x a then a else if code_lt b x then b else x)) else None.
Proof.
  intros Hx Ha Hb. unfold clamp, f_le, f_lt, f_gt, code_le, code_lt. rewrite !partial_cmp_of by auto.
  assert (G : match code_cmp x b with Some Gt => true | _ => false end = match code_cmp b x with Some Lt => true | _ => false end).
  { unfold code_cmp. rewrite (orb_comm (nanb b)), (andb_comm (sgn b =? 1)). destruct (nanb x || nanb b); auto.
    destruct ((sgn x =? 1) && (sgn b =? 1)).
    - rewrite (Z.compare_antisym (sval x) (sval b)). destruct (sval x ?= sval b); reflexivity.
    - rewrite (Z.compare_antisym (sval b) (sval x)). destruct (sval b ?= sval x); reflexivity. }
  rewrite G. destruct (code_cmp a b) as [[| |]|]; cbn [assert bind]; auto;
    destruct (code_cmp x a) as [[| |]|]; auto; destruct (code_cmp b x) as [[| |]|]; auto.
Qed.

(** ** fract and split *)

Local Opaque U1.
Lemma fract_rep x r : 0 <= x < 2 ^ 256 -> finb x = true -> sval r = Z.quot (sval x) U1 * U1 ->
  rep (sval x - sval r) /\ Z.abs (sval x - sval r) < U1.
Proof.
  intros Hx F E. pose proof U1_pos as PU.
  assert (ER : sval x - sval r = Z.rem (sval x) U1).
  { rewrite E. pose proof (Z.quot_rem (sval x) U1 ltac:(lia)). lia. }
  rewrite ER. split. 2: { pose proof (Z.rem_bound_abs (sval x) U1 ltac:(lia)). lia. }
  destruct (sval_fields x Hx F) as (m & Em & Am). pose proof (mag_bound x) as MB.
  pose proof (sg_bound (mag x) ltac:(lia)) as SB. pose proof (qe_nonneg (mag x)) as Q.
  set (e := qe (mag x)) in *. clearbody e. pose proof (pow2_pos e Q) as Pe.
  assert (Le : Z.abs (Z.rem (sval x) U1) <= mag_val (mag x)).
  { rewrite <- (sval_abs x Hx). rewrite <- Z.rem_abs by lia. apply Z.rem_le; lia. }
  unfold finb in F. apply Z.ltb_lt in F.
  destruct (Z.le_gt_cases UNITe e) as [C|C].
  - assert (Z.rem (sval x) U1 = 0) as ->.
    { rewrite Em, (pow_split UNITe e) by (unfold UNITe in *; lia). rewrite <- U1_eq, Z.mul_assoc. apply Z.rem_mul. lia. }
    exists 0. split. lia. reflexivity.
  - assert (EU : U1 = 2 ^ (UNITe - e) * 2 ^ e) by (rewrite U1_eq; apply pow_split; lia).
    pose proof (pow2_pos (UNITe - e) ltac:(lia)) as Pd.
    apply (rep_intro (Z.rem m (2 ^ (UNITe - e))) e _ (mag x)); auto; try lia.
    + rewrite <- Z.rem_abs by lia. pose proof (Z.rem_le (Z.abs m) (Z.abs (2 ^ (UNITe - e))) ltac:(lia) ltac:(lia)). lia.
    + rewrite Em, EU. apply Z.mul_rem_distr_r; lia.
Qed.

Lemma zero_sub x : 0 <= x < 2 ^ 256 -> zerob x = true -> spec_sub x x = 0.
Proof. intros Hx Z. apply spec_sub_self; auto. apply zerob_kinds; auto. Qed.

Lemma split_ok x : 0 <= x < 2 ^ 256 -> finb x = true ->
  exists t f, trunc (of256 x) = Some (of256 t) /\ split (of256 x) = Some (of256 t, of256 f) /\ fract (of256 x) = Some (of256 f)
    /\ 0 <= t < 2 ^ 256 /\ 0 <= f < 2 ^ 256 /\ finb t = true /\ finb f = true
    /\ sval t = int_trunc (sval x) * U1 /\ sval t + sval f = sval x /\ Z.abs (sval f) < U1.
Proof.
  intros Hx F. destruct (trunc_ok x Hx) as (t & Et & Bt & St).
  exists t, (spec_sub x t). unfold split, fract. rewrite Et, !bind_Some, sub_ok, !bind_Some by auto.
  destruct (finb_kinds x F) as [N I].
  assert (S : finb t = true /\ sval t = int_trunc (sval x) * U1).
  { unfold spec_int in St. rewrite N, I in St. cbn [orb] in St. destruct (zerob x) eqn:Zx; auto. subst t. split; auto.
    rewrite (sval_zerob x Zx). unfold int_trunc. rewrite Z.quot_0_l by (pose proof U1_pos; lia). ring. }
  destruct S as [Ft Vt]. destruct (fract_rep x t Hx F Vt) as [R B].
  destruct (spec_sub_rep x t Hx Bt F Ft R) as [Ff Vf].
  rewrite Vf. pose proof (spec_sub_bound x t Hx Bt) as Bf.
  split. reflexivity. split. reflexivity. split. reflexivity. split. exact Bt. split. exact Bf. split. exact Ft. split. exact Ff.
  split. exact Vt. split. ring. exact B.
Qed.

(** ** Error-free sum *)
Lemma fast_sum_ok a b : 0 <= a < 2 ^ 256 -> 0 <= b < 2 ^ 256 -> finb a = true -> finb b = true ->
  mag b <= mag a -> finb (spec_add a b) = true ->
  exists r, fast_sum (of256 a) (of256 b) = Some (of256 (spec_add a b), of256 r) /\ 0 <= r < 2 ^ 256
    /\ finb r = true /\ sval (spec_add a b) + sval r = sval a + sval b.
Proof.
  intros Ha Hb Fa Fb Hab Fs. pose proof (spec_add_bound a b Ha Hb) as Bs.
  pose proof (spec_sub_bound (spec_add a b) a Bs Ha) as Bt.
  exists (spec_sub b (spec_sub (spec_add a b) a)). split.
  - unfold fast_sum, f_ge. rewrite !abs_ok.
    assert (Q : forall v, 0 <= mag v < 2 ^ 256) by (intros v; pose proof (mag_bound v); lia).
    assert (T : forall v, sgn (mag v) = 0 /\ mag (mag v) = mag v).
    { intros v. pose proof (mag_bound v). split. unfold sgn. apply Z.div_small; auto. unfold mag. apply Z.mod_mod. lia. }
    rewrite partial_cmp_mixed by (auto; rewrite (proj1 (T a)); lia).
    unfold spec_cmp, nanb. rewrite !(proj2 (T _)).
    destruct (finb_kinds a Fa) as [Na _], (finb_kinds b Fb) as [Nb _]. unfold nanb in *. rewrite Na, Nb. cbn [orb].
    rewrite !sval_pos by apply T. rewrite !(proj2 (T _)). rewrite mag_val_cmp by apply mag_bound.
    assert (G : (mag a ?= mag b) = Eq \/ (mag a ?= mag b) = Gt).
    { destruct (Z.compare_spec (mag a) (mag b)); auto. lia. }
    assert (E : dassert match (mag a ?= mag b) with Eq => true | Lt => false | Gt => true end = Some tt).
    { unfold dassert. destruct G as [-> | ->]; destruct debug; reflexivity. }
    refine (bind_eq _ _ _ _ _ _). { destruct G as [-> | ->]; unfold dassert; destruct debug; reflexivity. }
    rewrite add_ok, bind_Some, sub_ok, bind_Some, sub_ok, bind_Some by auto. reflexivity.
  - destruct (fast_two_sum a b Ha Hb Fa Fb Hab Fs) as (F & _ & V). split. apply spec_sub_bound; auto. auto.
Qed.

Lemma recip_ok x : 0 <= x < 2 ^ 256 -> recip (of256 x) = Some (of256 (spec_div ONEm x)).
Proof.
  intros Hx. unfold recip. change ONE with (of256 ONEm). apply div_ok; auto. unfold ONEm. lia.
Qed.

(** ** Symmetries of the multiplication, also where it misrounds *)

Lemma mul_signifs_comm a b : 2 ^ 255 <= a < 2 ^ 256 -> 2 ^ 255 <= b < 2 ^ 256 ->
  mul_signifs (of256 a) (of256 b) = mul_signifs (of256 b) (of256 a).
Proof.
  intros Ha Hb. unfold mul_signifs, HI_SIGN_MASK. rewrite !xhi_leb by lia.
  change (2 ^ 127 * 2 ^ 128) with (2 ^ 255).
  rewrite !dassert_ok by (apply Z.leb_le; lia). rewrite !bind_Some.
  rewrite !wmul256 by lia. rewrite (Z.mul_comm a b). reflexivity.
Qed.

Lemma mul_abs_comm a b : 0 < a < INFm -> 0 < b < INFm ->
  mul_abs_finite (of256 a) (of256 b) = mul_abs_finite (of256 b) (of256 a).
Proof.
  intros Ha Hb. unfold mul_abs_finite. rewrite !left_adj_ok by auto. rewrite !bind_Some. cbv beta iota.
  rewrite mul_signifs_comm; try apply (norm_shift_bound _ 255).
  2: { apply sg_pos. lia. } 3: { apply sg_pos. lia. }
  2: { pose proof (sg_bound a ltac:(lia)). pose proof (sg_pos a ltac:(lia)). pose proof (log2_bound (sg a) 237 ltac:(lia)). lia. }
  2: { pose proof (sg_bound b ltac:(lia)). pose proof (sg_pos b ltac:(lia)). pose proof (log2_bound (sg b) 237 ltac:(lia)). lia. }
  destruct (mul_signifs _ _) as [[[z c] r]|]; [|reflexivity]. rewrite !bind_Some. cbv beta iota.
  destruct (exp_sub_norm a Ha) as (E1 & E2 & E3 & E4 & E5). destruct (exp_sub_norm b Hb) as (F1 & F2 & F3 & F4 & F5).
  rewrite E1, E2, F1, F2. pose proof (b2z_bound (2 ^ 236 <=? a)). pose proof (b2z_bound (2 ^ 236 <=? b)).
  rewrite !casts_ok by lia. change 32 with (31 + 1). 
  rewrite !subs_ok by (change (31 + 1 - 1) with 31; lia). rewrite !bind_Some.
  unfold adds, addu. rewrite (Z.add_comm (a / 2 ^ 236 - _)), (Z.add_comm (255 - Z.log2 (sg a))). reflexivity.
Qed.

Lemma mul_comm_ok x y : 0 <= x < 2 ^ 256 -> 0 <= y < 2 ^ 256 ->
  mul (of256 x) (of256 y) = mul (of256 y) (of256 x).
Proof.
  intros Hx Hy. unfold mul. rewrite !abs_bits_of. fold (mag x) (mag y). rewrite (Z.lxor_comm (xhi (of256 x))).
  pose proof (mag_bound x) as Mx. pose proof (mag_bound y) as My.
  rewrite !sticky_of by lia. rewrite !any_special2_of by auto. rewrite (orb_comm ((mag x =? 0) || _)).
  rewrite (Z.max_comm (stk (mag x))), (Z.min_comm (stk (mag x))).
  destruct ((mag y =? 0) || (INFm <=? mag y) || ((mag x =? 0) || (INFm <=? mag x))) eqn:S. reflexivity.
  rewrite mul_abs_comm by lia. reflexivity.
Qed.

Lemma xors_nn s t : (s = 0 \/ s = 1) -> (t = 0 \/ t = 1) -> xors (1 - s) t = 1 - xors s t.
Proof. intros [-> | ->] [-> | ->]; reflexivity. Qed.

Lemma mul_neg_ok x y : 0 <= x < 2 ^ 256 -> 0 <= y < 2 ^ 256 ->
  exists r, mul (of256 x) (of256 y) = Some (of256 r) /\ 0 <= r < 2 ^ 256 /\
    mul (of256 (spec_neg x)) (of256 y) = Some (of256 (if nanb r then r else spec_neg r)).
Proof.
  intros Hx Hy. pose proof (SpecAlg.spec_neg_bound x Hx) as Hn.
  destruct (finb x && finb y && negb (zerob x) && negb (zerob y)) eqn:C.
  - (* both finite and non-zero *)
    apply andb_prop in C as [C Zy]. apply andb_prop in C as [C Zx]. apply andb_prop in C as [Fx Fy].
    apply negb_true_iff in Zx, Zy. unfold finb, zerob in *. apply Z.ltb_lt in Fx, Fy. apply Z.eqb_neq in Zx, Zy.
    pose proof (mag_bound x) as Mx. pose proof (mag_bound y) as My.
    assert (G : exists m, 0 <= m < INFm + 1 /\ forall s v, 0 <= v < 2 ^ 256 -> sgn v = s -> mag v = mag x ->
      mul (of256 v) (of256 y) = Some (of256 (mkf (xors s (sgn y)) m))).
    { destruct (mul_abs_ok (mag x) (mag y) ltac:(lia) ltac:(lia)) as (w & r & Ew & Hw & Hr & HM). cbv zeta in HM.
      exists (w + b2z (rup r (Z.odd w))). split.
      - split. pose proof (b2z_bound (rup r (Z.odd w))). lia.
        destruct (Z.eq_dec w INFm) as [->|]. rewrite (Hr eq_refl). change (rup 0 (Z.odd INFm)) with false. cbn [b2z]. lia. pose proof (b2z_bound (rup r (Z.odd w))). lia.
      - intros s v Hv Sv Mv. unfold mul. rewrite sign_xor by auto. rewrite Sv. rewrite !abs_bits_of. fold (mag v) (mag y). rewrite Mv.
        rewrite !sticky_of by lia. rewrite any_special2_of by auto.
        replace ((mag x =? 0) || (INFm <=? mag x) || ((mag y =? 0) || (INFm <=? mag y))) with false.
        2: { symmetry. apply orb_false_iff; split; apply orb_false_iff; split; (apply Z.eqb_neq || apply Z.leb_gt); lia. }
        rewrite Ew, bind_Some. unfold INFm in Hw. rewrite round2_ok by (try apply xors01; lia). reflexivity. }
    destruct G as (m & Bm & G). unfold INFm in Bm.
    exists (mkf (xors (sgn x) (sgn y)) m). split. apply G; auto.
    pose proof (xors01 (sgn x) (sgn y)) as X. split. apply mkf_bound; auto; lia.
    rewrite (G (1 - sgn x)); auto. 2: apply sgn_neg; auto. 2: apply mag_neg; auto.
    unfold nanb. rewrite mag_mkf by lia. replace (INFm <? m) with false by (symmetry; apply Z.ltb_ge; unfold INFm; lia).
    rewrite neg_mkf by (auto; lia). rewrite xors_nn by (apply sgn01; auto). reflexivity.
  - assert (NM : forall v, 0 <= v < 2 ^ 256 -> mag v = mag x -> mul (of256 v) (of256 y) = Some (of256 (spec_mul v y))).
    { intros v Hv Mv. destruct (mul_ok v y Hv Hy) as [H|(F1 & F2 & m & M & _)]; auto. exfalso.
      assert (Z : mag v = 0 \/ mag y = 0).
      { unfold finb, zerob in *. rewrite Mv in *. rewrite F1, F2 in C. cbn [andb] in C.
        destruct (Z.eqb_spec (mag x) 0); auto. destruct (Z.eqb_spec (mag y) 0); auto. discriminate. }
      destruct M as (_ & R & O & _). revert R.
      replace (mag_val (mag v) * mag_val (mag y)) with 0 by (destruct Z as [-> | ->]; rewrite (mag_val_sub 0) by lia; ring).
      pose proof unit_pos as PU. pose proof (mul_zero_mag 1) as Z0. rewrite Z.mul_1_r, (mag_val_sub 0) in Z0 by lia. rewrite Z0.
      intros R. assert (M1 : m = -1) by lia. rewrite M1 in O. discriminate O. }
    exists (spec_mul x y). rewrite !NM by (auto; apply mag_neg; auto). split; auto. split. apply spec_mul_bound.
    destruct (nanb (spec_mul x y)) eqn:N.
    + do 2 f_equal. unfold spec_mul in *. destruct (kinds_neg x Hx) as (-> & -> & _ & ->).
      destruct (nanb x || nanb y); auto. 
      assert (IQ : forall s, (s = 0 \/ s = 1) -> nanb (mkf s INFm) = false).
      { intros s Hs. unfold nanb. rewrite mag_mkf by (unfold INFm; lia). apply Z.ltb_irrefl. }
      destruct (infb x || infb y).
      * destruct (zerob x || zerob y); auto. rewrite IQ in N by apply xors01. discriminate.
      * exfalso. revert N. unfold nanb. rewrite mag_mkf.
        2: { apply rnd_mag_lt. apply Z.mul_nonneg_nonneg; apply mvn. apply unit_pos. }
        intros N. apply Z.ltb_lt in N. 
        pose proof (rnd_mag_bounds (mag_val (mag x) * mag_val (mag y)) (2 ^ UNITe) (Z.mul_nonneg_nonneg _ _ (mvn x) (mvn y)) unit_pos) as B.
        apply (Z.lt_irrefl INFm). eapply Z.lt_le_trans. exact N. apply B.
    + rewrite spec_mul_neg; auto.
Qed.

(** Exact products never hit the misrounding. *)
Lemma mul_exact_ok x y a : 0 <= x < 2 ^ 256 -> 0 <= y < 2 ^ 256 -> 0 <= a ->
  mag_val (mag x) * mag_val (mag y) = mag_val a * 2 ^ UNITe ->
  mul (of256 x) (of256 y) = Some (of256 (spec_mul x y)).
Proof.
  intros Hx Hy Ha E. destruct (mul_ok x y Hx Hy) as [H|(F1 & F2 & m & M & _)]; auto. exfalso.
  rewrite E in M. pose proof unit_pos as PU. unfold mul_miss in M. revert PU M. generalize (2 ^ UNITe). intros u PU (L & R & O & _ & S).
  assert (A : a < 2 ^ 236).
  { destruct (Z.lt_ge_cases a (2 ^ 236)); auto. pose proof (mag_val_le (2 ^ 236) a ltac:(lia) H).
    change (mag_val (2 ^ 236)) with (2 ^ 236) in H0. clear - L H0 PU. nia. }
  rewrite mag_val_sub in * by auto.
  assert (R2 : rnd_mag (a * u) u = a).
  { pose proof (rnd_mag_scale a 1 u PU Ha ltac:(lia)) as Q. rewrite Z.mul_1_l in Q. rewrite Q.
    rewrite <- (mag_val_sub a) at 1 by auto. apply rnd_mag_exact. unfold INFm. lia. }
  assert (m = a - 1) by lia. subst m. clear - S A PU Ha.
  replace (2 * (a * u) - (2 * (a - 1) + 1) * u) with u in S by ring.
  assert (Q : (2 * (a - 1) + 1) * u < 2 ^ 238 * u) by (apply Z.mul_lt_mono_pos_r; lia). lia.
Qed.

Lemma mul_one_ok x : 0 <= x < 2 ^ 256 -> nanb x = false -> mul (of256 x) ONE = Some (of256 x).
Proof.
  intros Hx N. change ONE with (of256 ONEm).
  assert (H1 : 0 <= ONEm < 2 ^ 256) by (unfold ONEm; lia).
  assert (E : mag_val (mag x) * mag_val (mag ONEm) = mag_val (mag x) * 2 ^ UNITe).
  { rewrite (proj2 sgn_one), one_val. exact eq_refl. }
  rewrite (mul_exact_ok x ONEm (mag x) Hx H1 (proj1 (mag_bound x)) E). rewrite (spec_mul_one x Hx N). exact eq_refl.
Qed.

End MiscProofs.

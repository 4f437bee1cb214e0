(** * LiftProofs: from bit patterns to values of the type *)

From Coq Require Import ZArith Lia Bool List.
From Verif Require Import Base BigUInt ZLemmas BigLaws BigUIntProofs Spec SpecFns BigExtra F256 Arith SpecLemmas SpecProps
  F256Lemmas RoundLemmas AddProofs DivProofs MulProofs SqrtProofs RemProofs BasicProofs CodecProofs IntProofs SpecAlg
  MiscProofs Interface.
Import ListNotations.
Open Scope Z_scope.

Section Lift.
Context {P : profile}.

Lemma lift_ind (Q : f256 -> Prop) : (forall v, 0 <= v < 2 ^ 256 -> Q (of256 v)) -> forall x, wf256 x -> Q x.
Proof. intros H x W. rewrite <- (of256_v256 x W). apply H. apply v256_bound. auto. Qed.

Lemma returns_of m r : 0 <= r < 2 ^ 256 -> m = Some (of256 r) -> returns m r.
Proof. intros H E. exists (of256 r). split; auto. split. apply wf256_of; auto. apply v256_of. Qed.

Lemma returns_in_of m Q : (exists r, m = Some (of256 r) /\ 0 <= r < 2 ^ 256 /\ Q r) -> returns_in m Q.
Proof. intros (r & E & H & HQ). exists (of256 r). split; auto. split. apply wf256_of; auto. rewrite v256_of. auto. Qed.

Lemma lift1 (f : f256 -> option f256) (g : Z -> Z) (H : Z -> Prop) :
  (forall v, 0 <= v < 2 ^ 256 -> H v -> f (of256 v) = Some (of256 (g v))) ->
  (forall v, 0 <= v < 2 ^ 256 -> 0 <= g v < 2 ^ 256) ->
  forall x, wf256 x -> H (v256 x) -> returns (f x) (g (v256 x)).
Proof.
  intros E B. apply (lift_ind (fun x => H (v256 x) -> returns (f x) (g (v256 x)))).
  intros v Hv. rewrite v256_of. intros HH. apply returns_of; auto.
Qed.

Lemma lift1in (f : f256 -> option f256) (Q : Z -> Z -> Prop) (H : Z -> Prop) :
  (forall v, 0 <= v < 2 ^ 256 -> H v -> exists r, f (of256 v) = Some (of256 r) /\ 0 <= r < 2 ^ 256 /\ Q v r) ->
  forall x, wf256 x -> H (v256 x) -> returns_in (f x) (Q (v256 x)).
Proof.
  intros E. apply (lift_ind (fun x => H (v256 x) -> returns_in (f x) (Q (v256 x)))).
  intros v Hv. rewrite v256_of. intros HH. apply returns_in_of; auto.
Qed.

Lemma lift2 (f : f256 -> f256 -> option f256) (g : Z -> Z -> Z) (H : Z -> Z -> Prop) :
  (forall v w, 0 <= v < 2 ^ 256 -> 0 <= w < 2 ^ 256 -> H v w -> f (of256 v) (of256 w) = Some (of256 (g v w))) ->
  (forall v w, 0 <= v < 2 ^ 256 -> 0 <= w < 2 ^ 256 -> 0 <= g v w < 2 ^ 256) ->
  forall x y, wf256 x -> wf256 y -> H (v256 x) (v256 y) -> returns (f x y) (g (v256 x) (v256 y)).
Proof.
  intros E B x y Wx Wy HH. rewrite <- (of256_v256 x Wx), <- (of256_v256 y Wy) at 1.
  apply returns_of. apply B; apply v256_bound; auto. apply E; auto; apply v256_bound; auto.
Qed.

Ltac wf x W := rewrite <- (of256_v256 x W) in *; pose proof (v256_bound x W); rewrite ?v256_of in *;
  let v := fresh "v" in set (v := v256 x) in *; clearbody v.

(** ** C01 *)
Lemma L_bits x : wf256 x -> from_bits (to_bits x) = x.
Proof. destruct x as [[h] [l]]. reflexivity. Qed.
Lemma L_bits_back h l : to_bits (from_bits (h, l)) = (h, l).
Proof. reflexivity. Qed.
Lemma L_le x : wf256 x -> from_le_bytes (to_le_bytes x) = x.
Proof. revert x. apply lift_ind. apply le_round_trip. Qed.
Lemma L_be x : wf256 x -> from_be_bytes (to_be_bytes x) = x.
Proof. revert x. apply lift_ind. apply be_round_trip. Qed.
Lemma L_ne x : wf256 x -> from_ne_bytes (to_ne_bytes x) = x.
Proof. revert x. apply lift_ind. apply ne_round_trip. Qed.

Lemma le_bytes_nth n : forall v i, (i < n)%nat -> nth i (le_bytes n v) 0 = (v / 256 ^ Z.of_nat i) mod 256.
Proof.
  induction n as [|n IH]; intros v i Hi. lia. cbn [le_bytes]. destruct i as [|i]; cbn [nth].
  - cbn [Z.of_nat]. rewrite Z.pow_0_r, Z.div_1_r. reflexivity.
  - rewrite IH by lia. rewrite Nat2Z.inj_succ, Z.pow_succ_r by lia. rewrite Z.div_div by lia. reflexivity.
Qed.

(** The i-th little-endian byte is the i-th digit to base 256 of the bit pattern. *)
Lemma L_le_digits x i : wf256 x -> (i < 32)%nat ->
  nth i (to_le_bytes x) 0 = (v256 x / 256 ^ Z.of_nat i) mod 256 /\ length (to_le_bytes x) = 32%nat.
Proof.
  intros W Hi. wf x W. unfold to_le_bytes. rewrite xhi_of, xlo_of. split.
  2: { rewrite app_length, !le_bytes_length. reflexivity. }
  destruct (Nat.lt_ge_cases i 16) as [C|C].
  - rewrite app_nth1 by (rewrite le_bytes_length; auto). rewrite le_bytes_nth by auto.
    change 256 with (2 ^ 8). rewrite <- Z.pow_mul_r by lia.
    pose proof (div_mod_pow v (8 * Z.of_nat i) (128 - 8 * Z.of_nat i) ltac:(lia) ltac:(lia)) as E.
    replace (8 * Z.of_nat i + (128 - 8 * Z.of_nat i)) with 128 in E by ring. rewrite E.
    apply mod_mod_pow. lia.
  - rewrite app_nth2 by (rewrite le_bytes_length; auto). rewrite le_bytes_length, le_bytes_nth by lia.
    change (2 ^ 128) with (256 ^ 16). rewrite Z.div_div by (try apply Z.pow_pos_nonneg; lia).
    rewrite <- Z.pow_add_r by lia. do 3 f_equal. lia.
Qed.

(** ** C02 *)
Definition kind_subnormal (v : Z) : bool := (0 <? mag v) && (mag v <? 2 ^ 236).
Definition kind_normal (v : Z) : bool := (2 ^ 236 <=? mag v) && (mag v <? INFm).

Lemma L_predicates x : wf256 x ->
  is_nan x = nanb (v256 x) /\ is_infinite x = infb (v256 x) /\ eq_zero x = zerob (v256 x)
  /\ is_subnormal x = kind_subnormal (v256 x) /\ is_normal x = kind_normal (v256 x)
  /\ is_finite x = finb (v256 x) /\ is_special x = zerob (v256 x) || negb (finb (v256 x))
  /\ is_sign_negative x = (sgn (v256 x) =? 1) /\ is_sign_positive x = (sgn (v256 x) =? 0).
Proof.
  intros W. wf x W. rewrite is_nan_of, is_infinite_of, eq_zero_of, is_subnormal_of, is_normal_of, is_finite_of, is_special_of.
  rewrite is_sign_negative_of, is_sign_positive_of by auto. repeat split; reflexivity.
Qed.

Definition count (l : list bool) : nat := length (filter (fun b => b) l).
Lemma L_one_kind x : wf256 x ->
  count [is_nan x; is_infinite x; eq_zero x; is_subnormal x; is_normal x] = 1%nat.
Proof.
  intros W. destruct (L_predicates x W) as (-> & -> & -> & -> & -> & _).
  unfold nanb, infb, zerob, kind_subnormal, kind_normal, INFm. pose proof (mag_bound (v256 x)) as B. set (m := mag (v256 x)) in *. clearbody m.
  destruct (Z.ltb_spec (524287 * 2 ^ 236) m), (Z.eqb_spec m (524287 * 2 ^ 236)), (Z.eqb_spec m 0), (Z.ltb_spec 0 m), (Z.ltb_spec m (2 ^ 236)),
    (Z.leb_spec (2 ^ 236) m), (Z.ltb_spec m (524287 * 2 ^ 236)); try lia; reflexivity.
Qed.

Definition spec_classify (v : Z) : fp_category :=
  if nanb v then FpNan else if infb v then FpInfinite else if zerob v then FpZero
  else if kind_subnormal v then FpSubnormal else FpNormal.

Lemma L_classify x : wf256 x -> (nanb (v256 x) = true -> mag (v256 x) = QNAN) ->
  classify x = spec_classify (v256 x).
Proof.
  intros W. wf x W. rewrite classify_of. unfold spec_classify, nanb, infb, zerob, kind_subnormal. pose proof (mag_bound v) as B.
  unfold QNAN, INFm. set (m := mag v) in *. clearbody m.
  destruct (Z.ltb_spec (524287 * 2 ^ 236) m) as [C|C]; intros HN.
  - rewrite (HN eq_refl). reflexivity.
  - destruct (Z.eqb_spec m 0), (Z.eqb_spec m (524287 * 2 ^ 236)); try lia; auto.
    destruct (Z.eqb_spec m (524287 * 2 ^ 236 + 2 ^ 235)); try lia.
    destruct (Z.ltb_spec 0 m); try lia. destruct (Z.ltb_spec m (2 ^ 236)); reflexivity.
Qed.

(** ** C03, C04 *)
Lemma L_decode x : wf256 x -> finb (v256 x) = true ->
  exists s t ch cl, as_sign_exp_signif x = Some (s, t, (ch, cl))
    /\ s = sgn (v256 x) /\ 0 <= ch < 2 ^ 128 /\ 0 <= cl < 2 ^ 128
    /\ (if zerob (v256 x) then t = 0 /\ ch = 0 /\ cl = 0
        else 0 <= t + UNITe /\ Z.odd cl = true /\ mag_val (mag (v256 x)) = (ch * 2 ^ 128 + cl) * 2 ^ (t + UNITe))
    /\ from_sign_exp_signif s t ch cl = Some x.
Proof.
  intros W. wf x W. intros F. destruct (decode_encode v H F) as (s & t & ch & cl & E1 & E2).
  exists s, t, ch, cl. split. auto. unfold as_sign_exp_signif in E1.
  destruct (zerob v) eqn:Z0.
  - rewrite (decode_zero v H Z0), bind_Some in E1. injection E1 as <- <- <- <-. rewrite xhi_of, xlo_of.
    repeat split; auto; reflexivity || lia.
  - destruct (decode_ok v H F Z0) as (t' & c & E & Bc & Oc & Tc & Vc). rewrite E, bind_Some in E1. injection E1 as <- <- <- <-.
    rewrite xhi_of, xlo_of in *. pose proof (Z.mod_pos_bound c (2 ^ 128) ltac:(lia)) as B.
    pose proof (Z.div_mod c (2 ^ 128) ltac:(lia)) as D.
    assert (Dc : c / 2 ^ 128 * 2 ^ 128 + c mod 2 ^ 128 = c) by lia.
    split. reflexivity. split. split. apply Z.div_pos; lia. apply Z.div_lt_upper_bound; lia. split. auto. split; auto.
    split. auto. split.
    { rewrite <- Dc in Oc. rewrite Z.odd_add, Z.odd_mul in Oc. change (Z.odd (2 ^ 128)) with false in Oc.
      rewrite andb_false_r, xorb_false_l in Oc. exact Oc. }
    rewrite Dc. exact Vc.
Qed.

Lemma L_encode s t ch cl : (s = 0 \/ s = 1) -> 0 <= ch < 2 ^ 128 -> 0 <= cl < 2 ^ 128 ->
  let c := ch * 2 ^ 128 + cl in
  c <> 0 -> rnd_scaled c t < INFm ->
  0 <= t + UNITe \/ 2 ^ 236 * 2 ^ (- (t + UNITe)) <= c ->
  returns (from_sign_exp_signif s t ch cl) (mkf s (rnd_scaled c t)).
Proof.
  intros Hs Hh Hl c Hc R N. apply returns_of. 2: apply from_ok; auto.
  apply mkf_bound; auto. unfold rnd_scaled. apply rnd_mag_lt.
  apply Z.mul_nonneg_nonneg. unfold c. lia. apply Z.pow_nonneg; lia. apply pow2_pos; lia.
Qed.

(** ** C05 - C08 *)
Lemma L_eq x y : wf256 x -> wf256 y -> f_eq x y = spec_eq (v256 x) (v256 y).
Proof. intros W V. wf x W. wf y V. apply f_eq_ok; auto. Qed.

Lemma L_partial_cmp x y : wf256 x -> wf256 y -> sgn (v256 x) * sgn (v256 y) = 0 ->
  partial_cmp x y = spec_cmp (v256 x) (v256 y).
Proof. intros W V. wf x W. wf y V. intros. apply partial_cmp_mixed; auto. Qed.

Lemma L_partial_cmp_neg x y : wf256 x -> wf256 y -> sgn (v256 x) = 1 -> sgn (v256 y) = 1 ->
  partial_cmp x y = spec_cmp (v256 y) (v256 x).
Proof. intros W V. wf x W. wf y V. intros. apply partial_cmp_neg; auto. Qed.

Lemma L_partial_cmp_none x y : wf256 x -> wf256 y ->
  (partial_cmp x y = None <-> nanb (v256 x) = true \/ nanb (v256 y) = true).
Proof. intros W V. wf x W. wf y V. rewrite partial_cmp_none by auto. apply orb_true_iff. Qed.

Lemma L_total_cmp x y : wf256 x -> wf256 y -> sgn (v256 x) * sgn (v256 y) = 0 ->
  total_cmp x y = spec_total_cmp (v256 x) (v256 y).
Proof. intros W V. wf x W. wf y V. intros. apply total_cmp_mixed; auto. Qed.
Lemma L_total_cmp_neg x y : wf256 x -> wf256 y -> sgn (v256 x) = 1 -> sgn (v256 y) = 1 ->
  total_cmp x y = CompOpp (spec_total_cmp (v256 x) (v256 y)).
Proof. intros W V. wf x W. wf y V. intros. apply total_cmp_neg; auto. Qed.

Lemma neg_inj x y : 0 <= x < 2 ^ 256 -> 0 <= y < 2 ^ 256 -> spec_neg x = spec_neg y -> x = y.
Proof. intros Hx Hy E. rewrite <- (neg_neg x Hx), <- (neg_neg y Hy). congruence. Qed.

Lemma L_total_order x y z : wf256 x -> wf256 y -> wf256 z ->
  (total_cmp x y = Eq <-> x = y) /\ total_cmp y x = CompOpp (total_cmp x y)
  /\ (total_cmp x y = Lt -> total_cmp y z = Lt -> total_cmp x z = Lt).
Proof.
  intros W V U. wf x W. wf y V. wf z U. rewrite !total_cmp_of by auto. split; [|split].
  - rewrite Z.compare_eq_iff. split. intros E. f_equal. apply neg_inj; auto.
    intros E. f_equal. rewrite <- (v256_of v), E, v256_of. reflexivity.
  - apply Z.compare_antisym.
  - rewrite !Z.compare_lt_iff. lia.
Qed.

Definition cmp_reversed (v w : Z) : Prop := sgn v = 1 /\ sgn w = 1 /\ sval v <> sval w.

Lemma L_max x y : wf256 x -> wf256 y -> ~ cmp_reversed (v256 x) (v256 y) ->
  wf256 (fmax x y) /\ (fmax x y = x \/ fmax x y = y) /\
  if nanb (v256 x) then fmax x y = y else if nanb (v256 y) then fmax x y = x
  else sval (v256 (fmax x y)) = Z.max (sval (v256 x)) (sval (v256 y)).
Proof.
  intros W V. assert (WM : wf256 (fmax x y)) by (unfold fmax; destruct (_ || _); auto).
  assert (SEL : fmax x y = x \/ fmax x y = y) by (unfold fmax; destruct (_ || _); auto).
  intros R. split; auto. split; auto. clear WM SEL. wf x W. wf y V.
  rewrite fmax_of by auto. destruct (nanb v); auto. destruct (nanb v0); auto. rewrite v256_of.
  destruct ((sgn v =? 1) && (sgn v0 =? 1)) eqn:B.
  - apply andb_prop in B as [B1 B2]. apply Z.eqb_eq in B1, B2.
    destruct (Z.eq_dec (sval v) (sval v0)) as [E|E]. rewrite E, Z.ltb_irrefl. rewrite E. lia. exfalso. apply R. repeat split; auto.
  - destruct (Z.ltb_spec (sval v) (sval v0)); lia.
Qed.

Lemma L_min x y : wf256 x -> wf256 y -> ~ cmp_reversed (v256 x) (v256 y) ->
  wf256 (fmin x y) /\ (fmin x y = x \/ fmin x y = y) /\
  if nanb (v256 x) then fmin x y = y else if nanb (v256 y) then fmin x y = x
  else sval (v256 (fmin x y)) = Z.min (sval (v256 x)) (sval (v256 y)).
Proof.
  intros W V. assert (WM : wf256 (fmin x y)) by (unfold fmin; destruct (_ || _); auto).
  assert (SEL : fmin x y = x \/ fmin x y = y) by (unfold fmin; destruct (_ || _); auto).
  intros R. split; auto. split; auto. clear WM SEL. wf x W. wf y V.
  rewrite fmin_of by auto. destruct (nanb v); auto. destruct (nanb v0); auto. rewrite v256_of.
  destruct ((sgn v =? 1) && (sgn v0 =? 1)) eqn:B.
  - apply andb_prop in B as [B1 B2]. apply Z.eqb_eq in B1, B2.
    destruct (Z.eq_dec (sval v) (sval v0)) as [E|E]. rewrite E, Z.ltb_irrefl. rewrite E. lia. exfalso. apply R. repeat split; auto.
  - destruct (Z.ltb_spec (sval v0) (sval v)); lia.
Qed.

Lemma code_cmp_spec v w : ~ cmp_reversed v w -> 0 <= v < 2 ^ 256 -> 0 <= w < 2 ^ 256 -> code_cmp v w = spec_cmp v w.
Proof.
  intros R Hv Hw. unfold code_cmp, spec_cmp. destruct (nanb v || nanb w); auto. f_equal.
  destruct ((sgn v =? 1) && (sgn w =? 1)) eqn:B; auto.
  apply andb_prop in B as [B1 B2]. apply Z.eqb_eq in B1, B2.
  destruct (Z.eq_dec (sval v) (sval w)) as [E|E]. rewrite E. auto. exfalso. apply R. repeat split; auto.
Qed.

(** clamp panics exactly when not (lo <= hi); otherwise it returns NaN for NaN and the
    nearest point of the interval. *)
Definition spec_le (v w : Z) : bool := negb (nanb v) && negb (nanb w) && (sval v <=? sval w).
Lemma L_clamp x a b : wf256 x -> wf256 a -> wf256 b ->
  ~ cmp_reversed (v256 x) (v256 a) -> ~ cmp_reversed (v256 x) (v256 b) -> ~ cmp_reversed (v256 a) (v256 b) ->
  if spec_le (v256 a) (v256 b) then
    exists r, clamp x a b = Some r /\
      if nanb (v256 x) then r = x
      else if sval (v256 x) <? sval (v256 a) then r = a
      else if sval (v256 b) <? sval (v256 x) then r = b else r = x
  else clamp x a b = None.
Proof.
  intros Wx Wa Wb. wf x Wx. wf a Wa. wf b Wb. intros R1 R2 R3. rewrite clamp_of by auto.
  assert (R2' : ~ cmp_reversed v1 v) by (unfold cmp_reversed in *; intuition congruence).
  unfold code_le, code_lt. rewrite !code_cmp_spec by auto. unfold spec_cmp, spec_le, Z.leb, Z.ltb.
  destruct (nanb v0); cbn [negb andb orb]; auto. destruct (nanb v1); cbn [negb andb orb]; auto.
  destruct (sval v0 ?= sval v1); auto; (eexists; split; [reflexivity|]);
   destruct (nanb v); cbn [orb]; auto; destruct (sval v ?= sval v0); auto; destruct (sval v1 ?= sval v); auto.
Qed.

(** ** C09 - C14 *)
Lemma L_add x y : wf256 x -> wf256 y -> returns (add x y) (spec_add (v256 x) (v256 y)).
Proof. intros. apply (lift2 add spec_add (fun _ _ => True)); auto. intros. apply add_ok; auto. apply spec_add_bound. Qed.
Lemma L_sub x y : wf256 x -> wf256 y -> returns (sub x y) (spec_sub (v256 x) (v256 y)).
Proof. intros. apply (lift2 sub spec_sub (fun _ _ => True)); auto. intros. apply sub_ok; auto. apply spec_sub_bound. Qed.
Lemma L_div x y : wf256 x -> wf256 y -> returns (div x y) (spec_div (v256 x) (v256 y)).
Proof. intros. apply (lift2 div spec_div (fun _ _ => True)); auto. intros. apply div_ok; auto. intros. apply spec_div_bound. Qed.
Lemma L_recip x : wf256 x -> returns (recip x) (spec_div ONEm (v256 x)).
Proof. intros. apply (lift1 recip (spec_div ONEm) (fun _ => True)); auto. intros. apply recip_ok; auto. intros. apply spec_div_bound. Qed.
Lemma L_mul x y : wf256 x -> wf256 y ->
  2 ^ 236 * 2 ^ UNITe <= mag_val (mag (v256 x)) * mag_val (mag (v256 y))
  \/ finb (v256 x) && finb (v256 y) = false \/ zerob (v256 x) || zerob (v256 y) = true ->
  returns (mul x y) (spec_mul (v256 x) (v256 y)).
Proof.
  intros. apply (lift2 mul spec_mul (fun v w => 2 ^ 236 * 2 ^ UNITe <= mag_val (mag v) * mag_val (mag w)
    \/ finb v && finb w = false \/ zerob v || zerob w = true)); auto.
  2: intros; apply spec_mul_bound.
  intros v w Hv Hw [C|[C|C]]. apply mul_normal; auto.
  - destruct (mul_ok v w Hv Hw) as [E|(F1 & F2 & _)]; auto. rewrite F1, F2 in C. discriminate.
  - destruct (mul_ok v w Hv Hw) as [E|(F1 & F2 & m & M & _)]; auto. exfalso.
    destruct M as (_ & R & O & _). revert R.
    assert (Z : mag v = 0 \/ mag w = 0).
    { unfold zerob in C. destruct (Z.eqb_spec (mag v) 0); auto. destruct (Z.eqb_spec (mag w) 0); auto. discriminate. }
    replace (mag_val (mag v) * mag_val (mag w)) with 0 by (destruct Z as [-> | ->]; rewrite (mag_val_sub 0) by lia; ring).
    pose proof (mul_zero_mag 1) as Z0. rewrite Z.mul_1_r, (mag_val_sub 0) in Z0 by lia. rewrite Z0.
    intros R. assert (M1 : m = -1) by lia. rewrite M1 in O. discriminate O.
Qed.

(** In general: the specified result, or one unit below it in the situation [mul_miss]. *)
Lemma L_mul_any x y : wf256 x -> wf256 y ->
  returns_in (mul x y) (fun r => r = spec_mul (v256 x) (v256 y) \/
    exists m, mul_miss (mag_val (mag (v256 x)) * mag_val (mag (v256 y))) (2 ^ UNITe) m
      /\ r = mkf (xors (sgn (v256 x)) (sgn (v256 y))) m /\ spec_mul (v256 x) (v256 y) = r + 1).
Proof.
  intros W V. wf x W. wf y V. apply returns_in_of. destruct (mul_ok v v0 H H0) as [E|(F1 & F2 & m & M & E)].
  - exists (spec_mul v v0). split; auto. split. apply spec_mul_bound. auto.
  - exists (mkf (xors (sgn v) (sgn v0)) m).
    assert (S : spec_mul v v0 = mkf (xors (sgn v) (sgn v0)) m + 1).
    { unfold spec_mul. destruct (finb_kinds v F1) as [-> ->], (finb_kinds v0 F2) as [-> ->]. cbn [orb].
      destruct M as (_ & R & _). rewrite R. unfold mkf. ring. }
    split; auto. split.
    + pose proof (spec_mul_bound v v0) as B. rewrite S in B. split; [|lia].
      destruct M as (_ & R & O & _).
      pose proof (rnd_mag_bounds _ _ (Z.mul_nonneg_nonneg _ _ (mvn v) (mvn v0)) unit_pos) as RB. rewrite R in RB.
      assert (m <> -1) by (intros E1; rewrite E1 in O; discriminate O).
      unfold mkf. pose proof (xors01 (sgn v) (sgn v0)). lia.
    + right. exists m. split; auto.
Qed.

Lemma L_sqrt x : wf256 x -> returns_in (sqrt x) (spec_sqrt (v256 x)).
Proof.
  intros W. apply (lift1in sqrt spec_sqrt (fun _ => True)); auto. intros v Hv _.
  destruct (sqrt_ok v Hv) as (r & E & B & S). exists r. auto.
Qed.

Lemma L_rem_special x y : wf256 x -> wf256 y ->
  (finb (v256 x) && finb (v256 y) && (mag (v256 y) <=? mag (v256 x)) && negb (zerob (v256 y))) = false ->
  returns (rem x y) (spec_rem (v256 x) (v256 y)).
Proof.
  intros W V C. refine (lift2 rem spec_rem (fun v w => (finb v && finb w && (mag w <=? mag v) && negb (zerob w)) = false) _ _ x y W V C).
  intros. apply rem_special; auto. intros. apply spec_rem_bound; auto.
Qed.

Lemma L_rem x y : wf256 x -> wf256 y -> finb (v256 x) = true -> finb (v256 y) = true ->
  0 < mag (v256 y) <= mag (v256 x) ->
  mag (v256 y) < 2 ^ 128 \/
  2 ^ 236 <= mag (v256 y) /\ (mag (v256 x) / 2 ^ 236 - mag (v256 y) / 2 ^ 236) mod 256 <> 19 ->
  returns_in (rem x y) (fun r => finb r = true /\ (sgn r = sgn (v256 x) \/ r = 0)
    /\ mag_val (mag r) = mag_val (mag (v256 x)) mod mag_val (mag (v256 y))).
Proof.
  intros W V. wf x W. wf y V. intros F1 F2 B C. apply returns_in_of.
  assert (E : exists m, mag_val m = mag_val (mag v) mod mag_val (mag v0) /\ 0 <= m < INFm
    /\ rem (of256 v) (of256 v0) = Some (of256 (if m =? 0 then 0 else mkf (sgn v) m))).
  { destruct C as [C|[C1 C2]]. apply rem_tiny; auto; lia. apply rem_normal; auto; lia. }
  destruct E as (m & Vm & Bm & E). eexists. split. exact E. unfold INFm in Bm. rewrite <- Vm.
  destruct (Z.eqb_spec m 0) as [->|N].
  - split. lia. split. reflexivity. split. auto. reflexivity.
  - split. apply mkf_bound. apply sgn01; auto. lia. unfold finb. rewrite sgn_mkf, mag_mkf by lia.
    split. apply Z.ltb_lt. unfold INFm. lia. auto.
Qed.

(** ** C17 *)
Lemma L_neg x : wf256 x -> wf256 (negated x) /\ v256 (negated x) = spec_neg (v256 x).
Proof.
  revert x. apply (lift_ind (fun x => wf256 (negated x) /\ v256 (negated x) = spec_neg (v256 x))).
  intros v Hv. rewrite BasicProofs.negated_of, !v256_of by auto. split; auto. apply wf256_of. apply spec_neg_bound; auto.
Qed.
Lemma L_abs x : wf256 x -> wf256 (abs x) /\ v256 (abs x) = mag (v256 x).
Proof.
  revert x. apply (lift_ind (fun x => wf256 (abs x) /\ v256 (abs x) = mag (v256 x))).
  intros v Hv. rewrite abs_ok, !v256_of by auto. split; auto. apply wf256_of. pose proof (mag_bound v). lia.
Qed.
Lemma v256_inj x y : wf256 x -> wf256 y -> v256 x = v256 y -> x = y.
Proof. intros W V E. rewrite <- (of256_v256 x W), <- (of256_v256 y V), E. reflexivity. Qed.

Lemma L_neg_laws x : wf256 x ->
  negated (negated x) = x /\ abs (negated x) = abs x /\ abs (abs x) = abs x
  /\ sval (v256 (negated x)) = - sval (v256 x) /\ sval (v256 (abs x)) = Z.abs (sval (v256 x))
  /\ is_sign_negative (negated x) = is_sign_positive x /\ is_sign_negative (abs x) = false.
Proof.
  intros W. destruct (L_neg x W) as [Wn Vn]. destruct (L_abs x W) as [Wa Va].
  destruct (L_neg _ Wn) as [Wnn Vnn]. destruct (L_abs _ Wn) as [Wan Van]. destruct (L_abs _ Wa) as [Waa Vaa].
  pose proof (v256_bound x W) as B. set (v := v256 x) in *.
  assert (MM : mag (mag v) = mag v) by (unfold mag; apply Z.mod_mod; lia).
  assert (SM : sgn (mag v) = 0) by (unfold sgn; apply Z.div_small; apply mag_bound).
  split. apply v256_inj; auto. rewrite Vnn, Vn. apply neg_neg; auto.
  split. apply v256_inj; auto. rewrite Van, Vn, Va. apply mag_neg; auto.
  split. apply v256_inj; auto. rewrite Vaa, Va. auto.
  split. rewrite Vn. apply sval_neg_op; auto.
  split. rewrite Va, sval_abs by auto. rewrite sval_pos by auto. rewrite MM. reflexivity.
  destruct (L_predicates _ Wn) as (_ & _ & _ & _ & _ & _ & _ & -> & _). destruct (L_predicates _ Wa) as (_ & _ & _ & _ & _ & _ & _ & -> & _).
  destruct (L_predicates _ W) as (_ & _ & _ & _ & _ & _ & _ & _ & ->).
  rewrite Vn, Va, SM, sgn_neg by auto. fold v. split; [|reflexivity]. destruct (sgn01 v B) as [-> | ->]; reflexivity.
Qed.

(** ** C18 - C24 *)
Lemma L_trunc x : wf256 x -> returns_in (trunc x) (spec_int int_trunc (v256 x)).
Proof. intros W. apply (lift1in trunc (spec_int int_trunc) (fun _ => True)); auto. intros. apply trunc_ok; auto. Qed.
Lemma L_floor x : wf256 x -> returns_in (floor x) (spec_int int_floor (v256 x)).
Proof. intros W. apply (lift1in floor (spec_int int_floor) (fun _ => True)); auto. intros. apply floor_ok; auto. Qed.
Lemma L_ceil x : wf256 x -> returns_in (ceil x) (spec_int int_ceil (v256 x)).
Proof. intros W. apply (lift1in ceil (spec_int int_ceil) (fun _ => True)); auto. intros. apply ceil_ok; auto. Qed.
Lemma L_round x : wf256 x -> returns_in (round x) (spec_int int_round (v256 x)).
Proof. intros W. apply (lift1in round (spec_int int_round) (fun _ => True)); auto. intros. apply round_ok; auto. Qed.
Lemma L_rte x : wf256 x -> ~ 262142 * 2 ^ 236 < mag (v256 x) < 262142 * 2 ^ 236 + 2 ^ 128 ->
  returns_in (round_tie_even x) (spec_int int_rte (v256 x)).
Proof.
  intros W C. refine (lift1in round_tie_even (spec_int int_rte) (fun v => ~ 262142 * 2 ^ 236 < mag v < 262142 * 2 ^ 236 + 2 ^ 128) _ x W C).
  intros. apply round_tie_even_ok; auto.
Qed.

Lemma L_split x : wf256 x -> finb (v256 x) = true ->
  exists t f, trunc x = Some t /\ split x = Some (t, f) /\ fract x = Some f /\ wf256 t /\ wf256 f
    /\ finb (v256 t) = true /\ finb (v256 f) = true
    /\ sval (v256 t) = int_trunc (sval (v256 x)) * U1 /\ sval (v256 t) + sval (v256 f) = sval (v256 x)
    /\ Z.abs (sval (v256 f)) < U1.
Proof.
  intros W. wf x W. intros F. destruct (split_ok v H F) as (t & f & E1 & E2 & E3 & Bt & Bf & R).
  exists (of256 t), (of256 f). rewrite !v256_of. split; auto. split; auto. split; auto.
  split. apply wf256_of; auto. split. apply wf256_of; auto. exact R.
Qed.

Lemma spec_mul_pow2_bound v n : 0 <= v < 2 ^ 256 -> 0 <= n -> 0 <= spec_mul_pow2 v n < 2 ^ 256.
Proof.
  intros Hv Hn. unfold spec_mul_pow2. destruct (_ || _); auto. apply mkf_bound. apply sgn01; auto.
  apply rnd_mag_lt; [|lia]. apply Z.mul_nonneg_nonneg. apply mvn. apply Z.pow_nonneg; lia.
Qed.
Lemma spec_div_pow2_bound v n : 0 <= v < 2 ^ 256 -> 0 <= n -> 0 <= spec_div_pow2 v n < 2 ^ 256.
Proof.
  intros Hv Hn. unfold spec_div_pow2. destruct (_ || _); auto. apply mkf_bound. apply sgn01; auto.
  apply rnd_mag_lt. apply mvn. apply pow2_pos; auto.
Qed.

Lemma L_mul_pow2 x n : wf256 x -> 0 <= n < 2 ^ 32 -> 2 ^ 236 <= mag (v256 x) \/ n < 524287 ->
  returns (mul_pow2 x n) (spec_mul_pow2 (v256 x) n).
Proof.
  intros W. wf x W. intros Hn C. apply returns_of. apply spec_mul_pow2_bound; auto; lia. apply mul_pow2_ok; auto.
Qed.

(** The condition on [n] under which [div_pow2] is right. *)
Definition div_pow2_safe (v n : Z) : Prop :=
  ~ (0 < n /\ mag v / 2 ^ 236 = n) /\
  ~ (sgn v = 0 /\ n - Z.max 0 (mag v / 2 ^ 236 - 1) = Z.log2 v + 1 /\
     2 ^ Z.log2 v < (if mag v <? 2 ^ 236 then mag v else 2 ^ 236 + mag v mod 2 ^ 236)).
Lemma L_div_pow2 x n : wf256 x -> 0 <= n < 2 ^ 32 -> div_pow2_safe (v256 x) n ->
  returns (div_pow2 x n) (spec_div_pow2 (v256 x) n).
Proof.
  intros W. wf x W. intros Hn [C1 C2]. apply returns_of. apply spec_div_pow2_bound; auto; lia. apply div_pow2_ok; auto.
Qed.

Lemma L_ulp x : wf256 x -> returns_in (ulp x) (spec_ulp (v256 x)).
Proof. intros W. apply (lift1in ulp spec_ulp (fun _ => True)); auto. intros. apply ulp_spec; auto. Qed.

(** ** C38 *)
Lemma L_fast_sum a b : wf256 a -> wf256 b -> finb (v256 a) = true -> finb (v256 b) = true ->
  mag (v256 b) <= mag (v256 a) -> finb (spec_add (v256 a) (v256 b)) = true ->
  exists s r, fast_sum a b = Some (s, r) /\ wf256 s /\ wf256 r /\ v256 s = spec_add (v256 a) (v256 b)
    /\ finb (v256 r) = true /\ sval (v256 s) + sval (v256 r) = sval (v256 a) + sval (v256 b).
Proof.
  intros W V. wf a W. wf b V. intros. destruct (fast_sum_ok v v0) as (r & E & B & F & Q); auto.
  exists (of256 (spec_add v v0)), (of256 r). rewrite !v256_of. split; auto.
  split. apply wf256_of. apply spec_add_bound; auto. split. apply wf256_of; auto. auto.
Qed.

End Lift.

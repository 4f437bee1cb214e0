(** * ConstProofs: the constants of src/consts.rs are the real numbers rounded to nearest *)

From Coq Require Import ZArith Lia Bool Reals Lra List.
From Verif Require Import Base BigUInt ZLemmas BigLaws BigUIntProofs BigExtra Spec SpecFns F256 Arith Conv SpecLemmas SpecAlg
  F256Lemmas CodecProofs BasicProofs Interface SpecDeg SpecLog PiBound LnBound LogTable Log FpProofs LogProofs LogReal LogUlp LogRound Consts.
Open Scope R_scope.

(** Half a unit in the last place, with integers: [m] is the significand and 2^-k its unit. *)
Definition half_ulp (m k : Z) (y : R) : Prop := IZR (2 * m - 1) <= IZR (2 ^ (k + 1)) * y <= IZR (2 * m + 1).

Lemma pow_R a b : (0 <= a)%Z -> (0 <= b)%Z -> IZR (2 ^ (a + b)) = IZR (2 ^ a) * IZR (2 ^ b).
Proof. intros. rewrite <- mult_IZR, <- pow2_add by lia. reflexivity. Qed.

Lemma within_of U v m k y : U = UNITe -> (0 <= k <= 300)%Z -> (2 ^ 236 <= m)%Z -> (m + 1 < 2 ^ 237)%Z ->
  v = ((U - k) * 2 ^ 236 + m)%Z -> half_ulp m k y -> within_ulp 1 2 y v.
Proof.
  intros HU Hk M1 M2 Ev [A B].
  assert (HU' : (262000 < U < 263000)%Z) by (rewrite HU; split; reflexivity).
  assert (Hv : (0 <= v /\ v + 1 < INFm)%Z) by (unfold INFm; lia). pose proof INFm_lt as HI.
  assert (Mv : mag v = v) by (unfold mag; apply Z.mod_small; lia).
  assert (Sv : sgn v = 0%Z) by (unfold sgn; apply Z.div_small; lia).
  assert (V : mag_val v = (m * 2 ^ (U - k))%Z) by (rewrite Ev; apply mag_val_signif; lia).
  assert (V1 : mag_val (v + 1) = ((m + 1) * 2 ^ (U - k))%Z).
  { rewrite Ev, <- Z.add_assoc. apply mag_val_signif; lia. }
  apply (within_intro U); auto. { unfold finb. rewrite Mv. apply Z.ltb_lt. lia. }
  unfold sval, ulp_units. rewrite Sv, Mv, V, V1.
  replace ((m + 1) * 2 ^ (U - k) - m * 2 ^ (U - k))%Z with (2 ^ (U - k))%Z by ring.
  replace ((1 - 2 * 0) * (m * 2 ^ (U - k)))%Z with (m * 2 ^ (U - k))%Z by ring.
  replace (IZR (2 ^ U)) with (IZR (2 ^ (U - k)) * IZR (2 ^ k)).
  2: { rewrite <- pow_R by lia. f_equal. f_equal. lia. }
  assert (P1 : 0 < IZR (2 ^ (U - k))) by (apply (IZR_lt 0); apply pow2_pos; lia).
  assert (P2 : 0 < IZR (2 ^ k)) by (apply (IZR_lt 0); apply pow2_pos; lia).
  rewrite pow_R in A, B by lia. change (IZR (2 ^ 1)) with 2 in A, B.
  rewrite mult_IZR. rewrite minus_IZR, mult_IZR in A. rewrite plus_IZR, mult_IZR in B.
  generalize dependent (IZR (2 ^ (U - k))). generalize dependent (IZR (2 ^ k)). intros K A B HK W HW.
  replace (IZR m * W / (W * K)) with (IZR m / K) by (field; lra).
  replace (W / (W * K)) with (/ K) by (field; lra).
  replace (IZR m / K - y) with ((IZR m - K * y) * / K) by (field; lra).
  assert (0 < / K) by (apply Rinv_0_lt_compat; lra).
  rewrite Rabs_mult, (Rabs_pos_eq (/ K)) by lra. apply Rmult_le_compat_r; [lra|].
  apply Rabs_le. lra.
Qed.

(** The significand and exponent of a datum *)
Definition cm (v : Z) : Z := (2 ^ 236 + v mod 2 ^ 236)%Z.
Definition ck (v : Z) : Z := (262379 - v / 2 ^ 236)%Z.
Definition ck_ok (v : Z) : bool := ((0 <=? ck v) && (ck v <=? 300) && (cm v + 1 <? 2 ^ 237))%Z.

Lemma within_ck v y : ck_ok v = true -> half_ulp (cm v) (ck v) y -> within_ulp 1 2 y v.
Proof.
  intros H. unfold ck_ok in H. apply andb_prop in H. destruct H as [H H3]. apply andb_prop in H. destruct H as [H1 H2].
  apply Z.leb_le in H1, H2. apply Z.ltb_lt in H3. pose proof (Z.mod_pos_bound v (2 ^ 236) ltac:(lia)).
  apply (within_of 262378); auto. unfold cm. lia.
  unfold ck, cm. pose proof (Z.div_mod v (2 ^ 236) ltac:(lia)). lia.
Qed.

Lemma cm_pos v : (0 < cm v)%Z.
Proof. unfold cm. pose proof (Z.mod_pos_bound v (2 ^ 236) ltac:(lia)). lia. Qed.
Lemma ck_pos v : ck_ok v = true -> (0 <= ck v)%Z.
Proof. unfold ck_ok. intros H. apply andb_prop in H. destruct H as [H _]. apply andb_prop in H. destruct H as [H _]. apply Z.leb_le. auto. Qed.
Local Opaque ck_ok.

(** Multiples n / d of pi and of its inverse, from the bounds on pi *)
Definition pi_mul_ok (v n d : Z) : bool :=
  (ck_ok v && (0 <? n) && (0 <? d) && ((2 * cm v - 1) * d * 2 ^ 318 <=? 2 ^ (ck v + 1) * n * PILO)
   && (2 ^ (ck v + 1) * n * PIHI <=? (2 * cm v + 1) * d * 2 ^ 318))%Z.

Lemma pi_mul v n d : pi_mul_ok v n d = true -> within_ulp 1 2 (IZR n * PI / IZR d) v.
Proof.
  unfold pi_mul_ok. intros H. repeat (apply andb_prop in H; destruct H as [H ?H]). apply within_ck; auto.
  apply Z.leb_le in H0, H1. apply Z.ltb_lt in H2, H3. pose proof pi_bounds as [A B]. apply IZR_lt in H2, H3. apply IZR_le in H0, H1.
  rewrite !mult_IZR in H0, H1. unfold half_ulp.
  assert (S : 0 < IZR (2 ^ 318)) by (apply (IZR_lt 0); reflexivity).
  assert (T : 0 <= IZR (2 ^ (ck v + 1))) by (apply (IZR_le 0); apply Z.pow_nonneg; lia).
  set (S' := IZR (2 ^ 318)) in *. set (T' := IZR (2 ^ (ck v + 1))) in *. set (lo := IZR (2 * cm v - 1)) in *. set (hi := IZR (2 * cm v + 1)) in *.
  set (n' := IZR n) in *. set (d' := IZR d) in *. clearbody S' T' lo hi n' d'. clear H.
  assert (TN : 0 <= T' * n') by (apply Rmult_le_pos; lra).
  assert (X : S' * d' * (T' * (n' * PI / d')) = T' * n' * (S' * PI)) by (field; lra).
  assert (SD : 0 < S' * d') by (apply Rmult_lt_0_compat; lra).
  split; apply Rmult_le_reg_l with (S' * d'); auto; rewrite X.
  - apply Rle_trans with (T' * n' * IZR PILO). { replace (S' * d' * lo) with (lo * d' * S') by ring. exact H1. }
    apply Rmult_le_compat_l; auto.
  - apply Rle_trans with (T' * n' * IZR PIHI). 2: { replace (S' * d' * hi) with (hi * d' * S') by ring. exact H0. }
    apply Rmult_le_compat_l; auto.
Qed.

Definition pi_inv_ok (v n : Z) : bool :=
  (ck_ok v && (0 <? n) && (0 <? 2 * cm v - 1) && ((2 * cm v - 1) * PIHI <=? 2 ^ (ck v + 1) * n * 2 ^ 318)
   && (2 ^ (ck v + 1) * n * 2 ^ 318 <=? (2 * cm v + 1) * PILO))%Z.

Lemma pi_inv v n : pi_inv_ok v n = true -> within_ulp 1 2 (IZR n / PI) v.
Proof.
  unfold pi_inv_ok. intros H. repeat (apply andb_prop in H; destruct H as [H ?H]). apply within_ck; auto.
  apply Z.leb_le in H0, H1. apply Z.ltb_lt in H2, H3. pose proof pi_bounds as [A B]. apply IZR_lt in H2, H3. apply IZR_le in H0, H1.
  assert (HH : IZR (2 * cm v - 1) <= IZR (2 * cm v + 1)) by (apply IZR_le; lia).
  rewrite !mult_IZR with (n := (2 ^ (ck v + 1) * n)%Z), !mult_IZR with (n := (2 ^ (ck v + 1))%Z) in H0, H1.
  rewrite mult_IZR in H0. rewrite mult_IZR in H1. unfold half_ulp. pose proof PI_RGT_0 as PP.
  assert (S : 0 < IZR (2 ^ 318)) by (apply (IZR_lt 0); reflexivity).
  set (S' := IZR (2 ^ 318)) in *. set (T' := IZR (2 ^ (ck v + 1))) in *. set (lo := IZR (2 * cm v - 1)) in *. set (hi := IZR (2 * cm v + 1)) in *.
  set (n' := IZR n) in *. clearbody S' T' lo hi n'. clear H.
  assert (X : S' * PI * (T' * (n' / PI)) = T' * n' * S') by (field; lra).
  assert (SD : 0 < S' * PI) by (apply Rmult_lt_0_compat; lra).
  split; apply Rmult_le_reg_l with (S' * PI); auto; rewrite X.
  - apply Rle_trans with (lo * IZR PIHI); auto. rewrite (Rmult_comm _ lo). apply Rmult_le_compat_l; lra.
  - apply Rle_trans with (hi * IZR PILO); auto. rewrite (Rmult_comm _ hi). apply Rmult_le_compat_l; lra.
Qed.

(** Square roots, from the squares *)
Lemma sqrt_half m k s : (0 < m)%Z -> (0 <= k)%Z -> 0 < s ->
  IZR (2 * m - 1) * IZR (2 * m - 1) <= IZR (2 ^ (k + 1)) * IZR (2 ^ (k + 1)) * s <= IZR (2 * m + 1) * IZR (2 * m + 1) ->
  half_ulp m k (R_sqrt.sqrt s).
Proof.
  intros Hm Hk Hs [A B]. unfold half_ulp.
  assert (L : 0 <= IZR (2 * m - 1)) by (apply (IZR_le 0); lia). assert (G : 0 <= IZR (2 * m + 1)) by (apply (IZR_le 0); lia).
  assert (T : 0 < IZR (2 ^ (k + 1))) by (apply (IZR_lt 0); apply pow2_pos; lia).
  set (lo := IZR (2 * m - 1)) in *. set (hi := IZR (2 * m + 1)) in *. set (W := IZR (2 ^ (k + 1))) in *. clearbody lo hi W.
  replace (W * R_sqrt.sqrt s) with (R_sqrt.sqrt (W * W * s)).
  2: { rewrite sqrt_mult, sqrt_square; try lra. apply Rmult_le_pos; lra. }
  split.
  - rewrite <- (sqrt_square lo) by auto. apply sqrt_le_1_alt. auto.
  - rewrite <- (sqrt_square hi) by auto. apply sqrt_le_1_alt. auto.
Qed.

Definition sq_ok (v n d : Z) : bool :=
  (ck_ok v && (0 <? n) && (0 <? d) && ((2 * cm v - 1) * (2 * cm v - 1) * d <=? 2 ^ (ck v + 1) * 2 ^ (ck v + 1) * n)
   && (2 ^ (ck v + 1) * 2 ^ (ck v + 1) * n <=? (2 * cm v + 1) * (2 * cm v + 1) * d))%Z.

Lemma sq_rat v n d : sq_ok v n d = true -> within_ulp 1 2 (R_sqrt.sqrt (IZR n / IZR d)) v.
Proof.
  unfold sq_ok. intros H. repeat (apply andb_prop in H; destruct H as [H ?H]). apply within_ck; auto.
  apply Z.leb_le in H0, H1. apply Z.ltb_lt in H2, H3. apply IZR_lt in H2, H3. apply IZR_le in H0, H1. rewrite !mult_IZR with (m := d) in *.
  rewrite !mult_IZR with (m := n) in *. rewrite !mult_IZR with (n := (2 ^ (ck v + 1))%Z) in *.
  rewrite mult_IZR in H0. rewrite mult_IZR in H1.
  apply sqrt_half; auto using cm_pos, ck_pos. { apply Rdiv_lt_0_compat; auto. }
  set (lo := IZR (2 * cm v - 1)) in *. set (hi := IZR (2 * cm v + 1)) in *. set (W := IZR (2 ^ (ck v + 1))) in *. clearbody lo hi W.
  assert (X : IZR d * (W * W * (IZR n / IZR d)) = W * W * IZR n) by (field; lra).
  split; apply Rmult_le_reg_l with (IZR d); auto; rewrite X; rewrite (Rmult_comm (IZR d)); auto.
Qed.

(** sqrt pi and 2 / sqrt pi *)
Definition sq_pi_ok (v : Z) : bool :=
  (ck_ok v && ((2 * cm v - 1) * (2 * cm v - 1) * 2 ^ 318 <=? 2 ^ (ck v + 1) * 2 ^ (ck v + 1) * PILO)
   && (2 ^ (ck v + 1) * 2 ^ (ck v + 1) * PIHI <=? (2 * cm v + 1) * (2 * cm v + 1) * 2 ^ 318))%Z.

Lemma sq_pi v : sq_pi_ok v = true -> within_ulp 1 2 (R_sqrt.sqrt PI) v.
Proof.
  unfold sq_pi_ok. intros H. repeat (apply andb_prop in H; destruct H as [H ?H]). apply within_ck; auto.
  apply Z.leb_le in H0, H1. apply IZR_le in H0, H1. pose proof pi_bounds as [A B]. pose proof PI_RGT_0 as PP.
  rewrite !mult_IZR in H0, H1. rewrite <- !mult_IZR in H0, H1. rewrite !mult_IZR with (m := (2 ^ 318)%Z) in *.
  rewrite !mult_IZR with (m := PILO) in *. rewrite !mult_IZR with (m := PIHI) in *. rewrite !mult_IZR with (n := (2 ^ (ck v + 1))%Z) in *.
  apply sqrt_half; auto using cm_pos, ck_pos.
  rewrite mult_IZR with (n := (2 * cm v - 1)%Z) in *. rewrite mult_IZR with (n := (2 * cm v + 1)%Z) in *.
  assert (S : 0 < IZR (2 ^ 318)) by (apply (IZR_lt 0); reflexivity).
  set (lo := IZR (2 * cm v - 1)) in *. set (hi := IZR (2 * cm v + 1)) in *. set (W := IZR (2 ^ (ck v + 1))) in *. set (S' := IZR (2 ^ 318)) in *.
  clearbody lo hi W S'. assert (WW : 0 <= W * W) by (apply Rle_0_sqr).
  assert (X : S' * (W * W * PI) = W * W * (S' * PI)) by ring.
  split; apply Rmult_le_reg_l with S'; auto; rewrite X.
  - apply Rle_trans with (W * W * IZR PILO). { rewrite Rmult_comm. auto. } apply Rmult_le_compat_l; auto.
  - apply Rle_trans with (W * W * IZR PIHI). 2: { rewrite (Rmult_comm S'). auto. } apply Rmult_le_compat_l; auto.
Qed.

Definition sq_ipi_ok (v : Z) : bool :=
  (ck_ok v && ((2 * cm v - 1) * (2 * cm v - 1) * PIHI <=? 2 ^ (ck v + 1) * 2 ^ (ck v + 1) * (4 * 2 ^ 318))
   && (2 ^ (ck v + 1) * 2 ^ (ck v + 1) * (4 * 2 ^ 318) <=? (2 * cm v + 1) * (2 * cm v + 1) * PILO))%Z.

Lemma sq_ipi v : sq_ipi_ok v = true -> within_ulp 1 2 (2 / R_sqrt.sqrt PI) v.
Proof.
  unfold sq_ipi_ok. intros H. repeat (apply andb_prop in H; destruct H as [H ?H]). apply within_ck; auto.
  apply Z.leb_le in H0, H1. apply IZR_le in H0, H1. pose proof pi_bounds as [A B]. pose proof PI_RGT_0 as PP.
  rewrite !mult_IZR with (m := (4 * 2 ^ 318)%Z) in *. rewrite (mult_IZR 4) in *.
  rewrite !mult_IZR with (m := PILO) in *. rewrite !mult_IZR with (m := PIHI) in *. rewrite !mult_IZR with (n := (2 ^ (ck v + 1))%Z) in *.
  rewrite mult_IZR with (n := (2 * cm v - 1)%Z) in *. rewrite mult_IZR with (n := (2 * cm v + 1)%Z) in *.
  replace (2 / R_sqrt.sqrt PI) with (R_sqrt.sqrt (4 / PI)).
  2: { rewrite sqrt_div by lra. replace 4 with (2 * 2) by ring. rewrite sqrt_square by lra. reflexivity. }
  apply sqrt_half; auto using cm_pos, ck_pos. { apply Rdiv_lt_0_compat; lra. }
  assert (S : 0 < IZR (2 ^ 318)) by (apply (IZR_lt 0); reflexivity).
  set (lo := IZR (2 * cm v - 1)) in *. set (hi := IZR (2 * cm v + 1)) in *. set (W := IZR (2 ^ (ck v + 1))) in *. set (S' := IZR (2 ^ 318)) in *.
  clearbody lo hi W S'. assert (LL : 0 <= lo * lo) by apply Rle_0_sqr. assert (HH : 0 <= hi * hi) by apply Rle_0_sqr.
  assert (X : S' * PI * (W * W * (4 / PI)) = W * W * (4 * S')) by (field; lra).
  assert (SP : 0 < S' * PI) by (apply Rmult_lt_0_compat; lra).
  split; apply Rmult_le_reg_l with (S' * PI); auto; rewrite X; rewrite Rmult_comm.
  - apply Rle_trans with (lo * lo * IZR PIHI); auto. apply Rmult_le_compat_l; auto.
  - apply Rle_trans with (hi * hi * IZR PILO). lra. rewrite (Rmult_comm (S' * PI)). apply Rmult_le_compat_l; auto.
Qed.

(** The golden ratio *)
Definition phi_ok (v : Z) : bool :=
  (ck_ok v && (0 <=? 2 * cm v - 1 - 2 ^ ck v) && ((2 * cm v - 1 - 2 ^ ck v) * (2 * cm v - 1 - 2 ^ ck v) <=? 2 ^ ck v * 2 ^ ck v * 5)
   && (2 ^ ck v * 2 ^ ck v * 5 <=? (2 * cm v + 1 - 2 ^ ck v) * (2 * cm v + 1 - 2 ^ ck v)))%Z.

Lemma phi_within v : phi_ok v = true -> within_ulp 1 2 ((1 + R_sqrt.sqrt 5) / 2) v.
Proof.
  unfold phi_ok. intros H. repeat (apply andb_prop in H; destruct H as [H ?H]). apply within_ck; auto.
  apply Z.leb_le in H0, H1, H2. pose proof (ck_pos v H) as K.
  assert (L : 0 <= IZR (2 * cm v - 1 - 2 ^ ck v)) by (apply (IZR_le 0); auto).
  assert (G : 0 <= IZR (2 * cm v + 1 - 2 ^ ck v)) by (apply (IZR_le 0); lia).
  apply IZR_le in H0, H1. rewrite !mult_IZR in H0, H1. unfold half_ulp. rewrite pow_R by lia. change (IZR (2 ^ 1)) with 2.
  assert (W0 : 0 < IZR (2 ^ ck v)) by (apply (IZR_lt 0); apply pow2_pos; lia).
  rewrite (minus_IZR (2 * cm v - 1) (2 ^ ck v)) in L, H1. rewrite (minus_IZR (2 * cm v + 1) (2 ^ ck v)) in G, H0.
  set (lo := IZR (2 * cm v - 1)) in *. set (hi := IZR (2 * cm v + 1)) in *. set (W := IZR (2 ^ ck v)) in *. clearbody lo hi W.
  replace (W * 2 * ((1 + R_sqrt.sqrt 5) / 2)) with (W + R_sqrt.sqrt (W * W * 5)).
  2: { rewrite sqrt_mult, sqrt_square; try lra. apply Rmult_le_pos; lra. }
  assert (A : lo - W <= R_sqrt.sqrt (W * W * 5)).
  { rewrite <- (sqrt_square (lo - W)) by auto. apply sqrt_le_1_alt. auto. }
  assert (B : R_sqrt.sqrt (W * W * 5) <= hi - W).
  { rewrite <- (sqrt_square (hi - W)) by auto. apply sqrt_le_1_alt. auto. }
  lra.
Qed.

(** Euler's number from the alternating series of exp (-1): n! sum_{k <= n} (-1)^k / k! is the
    integer D n (a number of derangements), and the partial sums lie on either side. *)
Fixpoint fdZ (n : nat) : Z * Z * Z :=
  match n with
  | O => (1, 1, 1)
  | S k => let '(f, d, s) := fdZ k in (Z.of_nat n * f, Z.of_nat n * d - s, - s)
  end%Z.
Lemma fdZ_spec n : let '(f, d, s) := fdZ n in
  IZR f = INR (fact n) /\ IZR s = (-1) ^ n /\ sum_f_R0 (tg_alt (fun k => / INR (fact k))) n = IZR d / INR (fact n).
Proof.
  induction n as [|n IH].
  - cbn. unfold tg_alt. cbn. repeat split; field.
  - cbn [fdZ]. destruct (fdZ n) as [[f d] s]. destruct IH as (F & S & D).
    rewrite tech5, D. unfold tg_alt. rewrite minus_IZR, opp_IZR, !mult_IZR, F, S, <- INR_IZR_INZ, fact_simpl, mult_INR.
    pose proof (INR_fact_neq_0 n). assert (INR (Datatypes.S n) <> 0) by (apply not_0_INR; discriminate).
    split; [reflexivity|]. split; [cbn [pow]; ring|]. cbn [pow]. field. auto.
Qed.
Lemma exp_m1 N : sum_f_R0 (tg_alt (fun k => / INR (fact k))) (S (2 * N)) <= exp (-1) <= sum_f_R0 (tg_alt (fun k => / INR (fact k))) (2 * N).
Proof.
  apply alternated_series_ineq.
  - intros n. apply Rinv_le_contravar; [apply INR_fact_lt_0|]. apply le_INR. rewrite fact_simpl. pose proof (lt_O_fact n). nia.
  - intros eps H. destruct (cv_speed_pow_fact 1 eps H) as [N0 HN]. exists N0. intros n Hn. specialize (HN n Hn).
    unfold Rdiv in HN. rewrite pow1, Rmult_1_l in HN. exact HN.
  - intros eps H. unfold exp. destruct (exist_exp (-1)) as [l Hl]. cbn [proj1_sig]. destruct (Hl eps H) as [N0 HN].
    exists N0. intros n Hn. specialize (HN n Hn).
    rewrite (sum_eq _ (fun i => / INR (fact i) * (-1) ^ i)); [exact HN|]. intros i _. unfold tg_alt. ring.
Qed.
Lemma e_bounds N f0 d0 s0 f1 d1 s1 : fdZ (2 * N) = (f0, d0, s0) -> fdZ (S (2 * N)) = (f1, d1, s1) ->
  IZR d1 <= IZR f1 * exp (-1) /\ IZR f0 * exp (-1) <= IZR d0 /\ 0 < IZR f0 /\ 0 < IZR f1.
Proof.
  intros E0 E1. pose proof (fdZ_spec (2 * N)) as H0. rewrite E0 in H0. pose proof (fdZ_spec (S (2 * N))) as H1. rewrite E1 in H1.
  destruct H0 as (F0 & _ & S0). destruct H1 as (F1 & _ & S1). destruct (exp_m1 N) as [L U]. rewrite S0 in U. rewrite S1 in L.
  pose proof (INR_fact_lt_0 (2 * N)) as P0. pose proof (INR_fact_lt_0 (S (2 * N))) as P1.
  rewrite <- F0 in *. rewrite <- F1 in *. clear S0 S1 F0 F1 E0 E1.
  set (x := IZR f0) in *. set (y := IZR f1) in *. clearbody x y.
  apply (Rmult_le_compat_l y) in L; [|lra]. apply (Rmult_le_compat_l x) in U; [|lra].
  replace (y * (IZR d1 / y)) with (IZR d1) in L by (field; lra). replace (x * (IZR d0 / x)) with (IZR d0) in U by (field; lra). auto.
Qed.
Definition e_ok (v : Z) : bool :=
  (ck_ok v && let W := 2 ^ (ck v + 1) in let lo := 2 * cm v - 1 in let hi := 2 * cm v + 1 in
   let '(f0, d0, _) := fdZ (2 * 50) in let '(f1, d1, _) := fdZ (S (2 * 50)) in
   (0 <? lo) && (lo * d0 <=? W * f0) && (W * f1 <=? hi * d1))%Z.

Lemma e_within v : e_ok v = true -> within_ulp 1 2 (exp 1) v.
Proof.
  unfold e_ok. intros H. apply andb_prop in H. destruct H as [H H']. cbv zeta in H'.
  destruct (fdZ (2 * 50)) as [[f0 d0] s0] eqn:E0. destruct (fdZ (S (2 * 50))) as [[f1 d1] s1] eqn:E1.
  destruct (e_bounds 50 _ _ _ _ _ _ E0 E1) as (B1 & B0 & P0 & P1). clear E0 E1.
  repeat (apply andb_prop in H'; destruct H' as [H' ?H]). apply within_ck; auto.
  apply Z.leb_le in H0, H1. apply Z.ltb_lt in H'. pose proof (ck_pos v H) as K. set (k := ck v) in *. set (c := cm v) in *. clearbody k c.
  assert (T : 0 < IZR (2 ^ (k + 1))) by (apply (IZR_lt 0); apply pow2_pos; lia).
  apply IZR_le in H0, H1. apply IZR_lt in H'. rewrite !(mult_IZR (2 ^ (k + 1))) in H0, H1. rewrite (mult_IZR _ d0) in H1. rewrite (mult_IZR _ d1) in H0.
  assert (hh : 0 < IZR (2 * c + 1)). { rewrite plus_IZR, mult_IZR in *. rewrite minus_IZR, mult_IZR in H'. lra. }
  unfold half_ulp. set (lo := IZR (2 * c - 1)) in *. set (hi := IZR (2 * c + 1)) in *. set (W := IZR (2 ^ (k + 1))) in *. clearbody lo hi W.
  pose proof (exp_pos 1) as EP. pose proof (exp_pos (-1)) as EM.
  assert (EE : exp 1 * exp (-1) = 1) by (rewrite <- exp_plus; replace (1 + -1) with 0 by ring; apply exp_0).
  assert (X : lo * exp (-1) <= W). { apply Rmult_le_reg_r with (IZR f0); auto. apply (Rmult_le_compat_l lo) in B0; lra. }
  assert (Y : W <= hi * exp (-1)). { apply Rmult_le_reg_r with (IZR f1); auto. apply (Rmult_le_compat_l hi) in B1; lra. }
  apply (Rmult_le_compat_r (exp 1)) in X; [|lra]. apply (Rmult_le_compat_r (exp 1)) in Y; [|lra].
  rewrite Rmult_assoc, (Rmult_comm (exp (-1))), EE in X, Y. lra.
Qed.

(** ** The constants *)
Lemma consts_pi :
  within_ulp 1 2 PI (v256 K_PI) /\ within_ulp 1 2 (2 * PI) (v256 K_TAU)
  /\ (forall P : profile, returns_in K_FRAC_3_PI_2 (within_ulp 1 2 (3 * PI / 2)))
  /\ within_ulp 1 2 (PI / 2) (v256 K_FRAC_PI_2) /\ within_ulp 1 2 (PI / 3) (v256 K_FRAC_PI_3)
  /\ within_ulp 1 2 (PI / 4) (v256 K_FRAC_PI_4) /\ within_ulp 1 2 (PI / 6) (v256 K_FRAC_PI_6)
  /\ within_ulp 1 2 (PI / 8) (v256 K_FRAC_PI_8)
  /\ within_ulp 1 2 (1 / PI) (v256 K_FRAC_1_PI) /\ within_ulp 1 2 (2 / PI) (v256 K_FRAC_2_PI).
Proof.
  pose proof PI_RGT_0 as PP.
  split. { replace PI with (1 * PI / 1) by field. apply pi_mul. vm_compute. reflexivity. }
  split. { replace (2 * PI) with (2 * PI / 1) by field. apply pi_mul. vm_compute. reflexivity. }
  split.
  { intros P. exists (of256 (85070974044648663452790565939648992276 * 2 ^ 128 + 216267517358725132221168102048536696202)).
    split. { destruct P; vm_compute; reflexivity. } split. { apply wf256_of. lia. }
    rewrite v256_of. apply pi_mul. vm_compute. reflexivity. }
  split. { replace (PI / 2) with (1 * PI / 2) by field. apply pi_mul. vm_compute. reflexivity. }
  split. { replace (PI / 3) with (1 * PI / 3) by field. apply pi_mul. vm_compute. reflexivity. }
  split. { replace (PI / 4) with (1 * PI / 4) by field. apply pi_mul. vm_compute. reflexivity. }
  split. { replace (PI / 6) with (1 * PI / 6) by field. apply pi_mul. vm_compute. reflexivity. }
  split. { replace (PI / 8) with (1 * PI / 8) by field. apply pi_mul. vm_compute. reflexivity. }
  split; apply pi_inv; vm_compute; reflexivity.
Qed.

Lemma consts_sqrt :
  within_ulp 1 2 (R_sqrt.sqrt PI) (v256 K_SQRT_PI) /\ within_ulp 1 2 (2 / R_sqrt.sqrt PI) (v256 K_FRAC_2_SQRT_PI)
  /\ within_ulp 1 2 (R_sqrt.sqrt 2) (v256 K_SQRT_2) /\ within_ulp 1 2 (1 / R_sqrt.sqrt 2) (v256 K_FRAC_1_SQRT_2)
  /\ within_ulp 1 2 (R_sqrt.sqrt 5) (v256 K_SQRT_5) /\ within_ulp 1 2 ((1 + R_sqrt.sqrt 5) / 2) (v256 K_PHI).
Proof.
  split. { apply sq_pi. vm_compute. reflexivity. }
  split. { apply sq_ipi. vm_compute. reflexivity. }
  split. { replace 2 with (2 / 1) by field. apply sq_rat. vm_compute. reflexivity. }
  split. { replace (1 / R_sqrt.sqrt 2) with (R_sqrt.sqrt (1 / 2)). 2: { rewrite sqrt_div, sqrt_1 by lra. reflexivity. }
    apply sq_rat. vm_compute. reflexivity. }
  split. { replace 5 with (5 / 1) by field. apply sq_rat. vm_compute. reflexivity. }
  apply phi_within. vm_compute. reflexivity.
Qed.

Lemma const_e : within_ulp 1 2 (exp 1) (v256 K_E).
Proof. apply e_within. vm_compute. reflexivity. Qed.

(** ** The extreme numbers *)
Open Scope Z_scope.
(** Values of numbers given by exponent and significand; the exponents stay symbolic. *)
Lemma sval_pm v E m : 0 <= E -> 2 ^ 236 <= m < 2 ^ 237 -> E * 2 ^ 236 + m < 2 ^ 255 ->
  (v = E * 2 ^ 236 + m -> sval v = m * 2 ^ E) /\ (v = 2 ^ 255 + (E * 2 ^ 236 + m) -> sval v = - (m * 2 ^ E)).
Proof.
  intros HE Hm HB. rewrite <- (mag_val_signif E m HE Hm). set (a := E * 2 ^ 236 + m) in *.
  assert (0 <= a) by (unfold a; lia). clearbody a. unfold sval, sgn, mag. split; intros ->.
  - rewrite Z.div_small, Z.mod_small by lia. lia.
  - replace (2 ^ 255 + a) with (a + 1 * 2 ^ 255) by lia. rewrite Z.div_add, Z.mod_add, Z.div_small, Z.mod_small by lia.
    set (w := mag_val a). clearbody w. clear. change ((1 - 2 * (0 + 1)) * w = - w). lia.
Qed.
Lemma pow_diff E a b u : 0 <= b -> 0 <= u -> a = b + 237 -> E = b + u -> (2 ^ 237 - 1) * 2 ^ E = (2 ^ a - 2 ^ b) * 2 ^ u.
Proof. intros Hb Hu -> ->. rewrite !Z.pow_add_r by lia. ring. Qed.
Lemma pow_shift k E u : 0 <= E -> 0 <= k -> u = E + k -> 2 ^ k * 2 ^ E = 2 ^ u.
Proof. intros HE Hk ->. rewrite Z.pow_add_r by lia. ring. Qed.
Lemma sval_max E v : E = 524285 -> v = v256 MAX -> sval v = (2 ^ 237 - 1) * 2 ^ E.
Proof. intros HE Hv. apply (sval_pm v E (2 ^ 237 - 1)); subst; [lia|lia|reflexivity|reflexivity]. Qed.
Lemma sval_min E v : E = 524285 -> v = v256 MIN -> sval v = - ((2 ^ 237 - 1) * 2 ^ E).
Proof. intros HE Hv. apply (sval_pm v E (2 ^ 237 - 1)); subst; [lia|lia|reflexivity|reflexivity]. Qed.
(** c * 2^k with c = m / 2^236 *)
Lemma sval_small v E m : v = E * 2 ^ 236 + m -> 0 <= E < 524287 -> 2 ^ 236 <= m < 2 ^ 237 -> E * 2 ^ 236 + m < 2 ^ 255 ->
  sval v = m * 2 ^ E.
Proof. intros. apply (sval_pm v E m); auto; lia. Qed.

Lemma val_lists U : U = UNITe ->
  (forall a b, a = 262144 -> b = 261907 -> sval (v256 MAX) = (2 ^ a - 2 ^ b) * 2 ^ U) /\ sval (v256 MIN) = - sval (v256 MAX)
  /\ sval (v256 EPSILON) * 2 ^ 236 = 2 ^ U /\ sval (v256 ONE_HALF) * 2 = 2 ^ U
  /\ sval (v256 ONE) = 2 ^ U /\ sval (v256 NEG_ONE) = - 2 ^ U /\ sval (v256 TWO) = 2 * 2 ^ U.
Proof.
  intros HU. unfold UNITe in HU.
  assert (H : forall E, E = 524285 -> sval (v256 MAX) = (2 ^ 237 - 1) * 2 ^ E /\ sval (v256 MIN) = - ((2 ^ 237 - 1) * 2 ^ E)).
  { intros E HE. split; [apply sval_max; auto|apply sval_min; auto]. }
  split. { intros a b Ha Hb. destruct (H (b + U) ltac:(lia)) as [-> _]. apply pow_diff; lia. }
  split. { remember 524285 as E eqn:HE in H. destruct (H E eq_refl) as [-> ->]. reflexivity. }
  clear H. assert (G : forall v E, 0 <= E < 524286 -> v = (E + 1) * 2 ^ 236 -> sval v = 2 ^ 236 * 2 ^ E).
  { intros v E HE Hv. apply sval_small; lia. }
  split. { rewrite (G _ (U - 472)); [|lia|subst U; reflexivity]. rewrite <- !Z.pow_add_r by lia. f_equal. lia. }
  split. { rewrite (G _ (U - 237)); [|lia|subst U; reflexivity]. rewrite <- !(pow_shift 1 (U - 1) U), <- (pow_shift 236 (U - 237) (U - 1)) by lia. change (2 ^ 1) with 2. ring. }
  assert (O : 2 ^ 236 * 2 ^ (U - 236) = 2 ^ U) by (apply pow_shift; lia).
  split. { rewrite (G _ (U - 236)); [auto|lia|subst U; reflexivity]. }
  split. { rewrite <- O. apply (sval_pm _ (U - 236) (2 ^ 236)); [lia|lia|lia|subst U; reflexivity]. }
  rewrite (G _ (U - 235)); [|lia|subst U; reflexivity]. rewrite <- O, <- (pow_shift 1 (U - 236) (U - 235)) by lia. change (2 ^ 1) with 2. ring.
Qed.
Lemma val_small U : U = UNITe ->
  forall P : profile, returns_in FIVE (fun r => sval r = 5 * 2 ^ U) /\ returns_in TEN (fun r => sval r = 10 * 2 ^ U).
Proof.
  intros HU P. unfold UNITe in HU. split.
  - exists (of256 (262145 * 2 ^ 236 + 2 ^ 234)). split; [destruct P; vm_compute; reflexivity|].
    split; [apply wf256_of; lia|]. rewrite v256_of.
    rewrite (sval_small _ (U - 234) (2 ^ 236 + 2 ^ 234)) by lia. rewrite <- (pow_shift 234 (U - 234) U) by lia.
    change (2 ^ 236 + 2 ^ 234) with (5 * 2 ^ 234). ring.
  - exists (of256 (262146 * 2 ^ 236 + 2 ^ 234)). split; [destruct P; vm_compute; reflexivity|].
    split; [apply wf256_of; lia|]. rewrite v256_of.
    rewrite (sval_small _ (U - 233) (2 ^ 236 + 2 ^ 234)) by lia. rewrite <- (pow_shift 233 (U - 233) U) by lia.
    change (2 ^ 236 + 2 ^ 234) with (10 * 2 ^ 233). ring.
Qed.
Lemma exp_lists U : U = UNITe ->
  2 ^ (MAX_EXP - 1 + U) <= sval (v256 MAX) < 2 ^ (MAX_EXP + U) /\ 2 ^ (MIN_EXP - 1 + U) = sval (v256 MIN_POSITIVE).
Proof.
  intros HU. unfold UNITe in HU. pose proof (sval_max (MAX_EXP + U - 237) _ ltac:(subst U; reflexivity) eq_refl) as E.
  assert (M : MAX_EXP = 262144) by reflexivity. split.
  - rewrite E, M. rewrite <- (pow_shift 236 (262144 + U - 237) (262144 - 1 + U)), <- (pow_shift 237 (262144 + U - 237) (262144 + U)) by lia.
    pose proof (pow2_pos (262144 + U - 237) ltac:(lia)) as P. set (w := 2 ^ (262144 + U - 237)) in *. clearbody w. nia.
  - subst U. reflexivity.
Qed.

Lemma sval_mag0 v a : sgn v = 0 -> mag v = a -> sval v = mag_val a.
Proof. unfold sval. intros -> ->. lia. Qed.
Lemma sval_mag1 v a : sgn v = 1 -> mag v = a -> sval v = - mag_val a.
Proof. unfold sval. intros -> ->. lia. Qed.
Lemma eps_step : sval (v256 ONE) + sval (v256 EPSILON) = mag_val (ONEm + 1).
Proof.
  assert (H : forall E, E = 262142 -> sval (v256 ONE) + sval (v256 EPSILON) = mag_val (ONEm + 1)).
  { intros E HE. rewrite (sval_small (v256 ONE) E (2 ^ 236)), (sval_small (v256 EPSILON) (E - 236) (2 ^ 236)) by (subst E; (reflexivity || lia)).
    replace (ONEm + 1) with (E * 2 ^ 236 + (2 ^ 236 + 1)) by (subst E; reflexivity). rewrite mag_val_signif by lia.
    rewrite (pow_shift 236 (E - 236) E) by lia. ring. }
  exact (H _ eq_refl).
Qed.
Lemma extremes x : wf256 x -> finb (v256 x) = true ->
  sval (v256 MIN) <= sval (v256 x) <= sval (v256 MAX)
  /\ (0 < sval (v256 x) -> sval (v256 MIN_GT_ZERO) <= sval (v256 x))
  /\ (is_normal x = true -> sval (v256 MIN_POSITIVE) <= Z.abs (sval (v256 x)))
  /\ (sval (v256 ONE) < sval (v256 x) -> sval (v256 ONE) + sval (v256 EPSILON) <= sval (v256 x)).
Proof.
  intros W F. pose proof (v256_bound x W) as B. pose proof (sval_abs _ B) as A. pose proof (mag_bound (v256 x)) as M.
  unfold finb in F. apply Z.ltb_lt in F.
  assert (N : is_normal x = true -> 2 ^ 236 <= mag (v256 x)).
  { rewrite <- (@of256_v256 false x W) at 1. unfold is_normal. rewrite (@biased_exponent_of false). intros N. apply Z.ltb_lt in N.
    destruct (Z.lt_ge_cases (mag (v256 x)) (2 ^ 236)) as [C|C]; auto. rewrite Z.div_small in N by lia. vm_compute in N. discriminate. }
  set (v := v256 x) in *. clearbody v.
  assert (E1 : sval (v256 MAX) = mag_val (INFm - 1)) by (apply sval_mag0; reflexivity).
  assert (E2 : sval (v256 MIN) = - mag_val (INFm - 1)) by (apply sval_mag1; reflexivity).
  assert (E3 : sval (v256 MIN_GT_ZERO) = 1) by reflexivity.
  assert (E4 : sval (v256 MIN_POSITIVE) = mag_val (2 ^ 236)) by reflexivity.
  assert (E5 : sval (v256 ONE) = mag_val ONEm) by (apply sval_mag0; reflexivity).
  assert (E6 : sval (v256 ONE) + sval (v256 EPSILON) = mag_val (ONEm + 1)) by exact eps_step.
  rewrite E6, E5, E4, E3, E2, E1. clear E1 E2 E3 E4 E5 E6.
  pose proof (mag_val_le (mag v) (INFm - 1) ltac:(lia) ltac:(lia)) as L.
  split. { lia. } split. { lia. } split.
  - intros H. rewrite A. apply mag_val_le; [lia|auto].
  - intros H. assert (P1 : 0 <= mag_val ONEm) by (apply mag_val_nonneg; unfold ONEm; lia).
    assert (S : sval v = mag_val (mag v)) by lia. rewrite S in *.
    apply mag_val_le; [unfold ONEm; lia|].
    destruct (Z.lt_ge_cases ONEm (mag v)) as [C|C]; [lia|].
    pose proof (mag_val_le (mag v) ONEm ltac:(lia) C). lia.
Qed.

(** ** Powers of ten and of two, compared by 5^643 < 2^1493 and 2^339 < 5^146 *)
Lemma mono3 c d p a b Q s : 0 < c -> 0 < p -> 0 < b -> 0 < Q -> b <= a -> c * Q <= d * s ->
  c * (p * b * Q) <= d * (p * a * s).
Proof.
  intros Hc Hp Hb HQ Hab H.
  replace (c * (p * b * Q)) with (p * (b * (c * Q))) by ring. replace (d * (p * a * s)) with (p * (a * (d * s))) by ring.
  apply Z.mul_le_mono_nonneg_l; [lia|]. apply Z.mul_le_mono_nonneg; lia.
Qed.
Lemma mono2 p a b s Q : 0 < p -> 0 < b -> 0 < s -> b <= a -> s < Q -> p * (b * s) < p * (a * Q).
Proof.
  intros Hp Hb Hs Hab H. apply Z.mul_lt_mono_pos_l; auto. apply Z.lt_le_trans with (b * Q).
  apply Z.mul_lt_mono_pos_l; auto. apply Z.mul_le_mono_nonneg_r; lia.
Qed.

Lemma ten_le c d k e t r s : 0 <= t -> 0 <= r -> 0 <= s -> 0 < c -> 0 < d -> k = 643 * t + r -> e - k = 1493 * t + s ->
  c * 5 ^ r <= d * 2 ^ s -> c * 10 ^ k <= d * 2 ^ e.
Proof.
  intros Ht Hr Hs Hc Hd Hk He H.
  replace (2 ^ e) with (2 ^ k * (2 ^ 1493) ^ t * 2 ^ s).
  2: { rewrite <- Z.pow_mul_r, <- !Z.pow_add_r by lia. f_equal. lia. }
  replace (10 ^ k) with (2 ^ k * (5 ^ 643) ^ t * 5 ^ r).
  2: { rewrite <- Z.pow_mul_r, <- Z.mul_assoc, <- Z.pow_add_r by lia. rewrite <- Hk, <- Z.pow_mul_l. reflexivity. }
  assert (A : (5 ^ 643) ^ t <= (2 ^ 1493) ^ t).
  { apply Z.pow_le_mono_l. split; apply Z.leb_le; reflexivity. }
  assert (B : 0 < 2 ^ k) by (apply Z.pow_pos_nonneg; lia). assert (C : 0 < (5 ^ 643) ^ t) by (apply Z.pow_pos_nonneg; lia).
  assert (D : 0 < 5 ^ r) by (apply Z.pow_pos_nonneg; lia).
  apply mono3; auto; lia.
Qed.

Lemma ten_gt k e t r s : 0 <= t -> 0 <= r -> 0 <= s -> k = 146 * t + r -> e - k = 339 * t + s -> 2 ^ s < 5 ^ r -> 2 ^ e < 10 ^ k.
Proof.
  intros Ht Hr Hs Hk He H.
  replace (2 ^ e) with (2 ^ k * ((2 ^ 339) ^ t * 2 ^ s)).
  2: { rewrite <- Z.pow_mul_r, <- !Z.pow_add_r by lia. f_equal. lia. }
  replace (10 ^ k) with (2 ^ k * ((5 ^ 146) ^ t * 5 ^ r)).
  2: { rewrite <- Z.pow_mul_r, <- Z.pow_add_r by lia. rewrite <- Hk, <- Z.pow_mul_l. reflexivity. }
  assert (A : (2 ^ 339) ^ t <= (5 ^ 146) ^ t).
  { apply Z.pow_le_mono_l. split; apply Z.leb_le; reflexivity. }
  assert (B : 0 < 2 ^ k) by (apply Z.pow_pos_nonneg; lia). assert (C : 0 < (2 ^ 339) ^ t) by (apply Z.pow_pos_nonneg; lia).
  assert (D : 0 < 2 ^ s) by (apply Z.pow_pos_nonneg; lia).
  apply mono2; auto; lia.
Qed.

(** The decimal exponents.  [k] and [e] keep the numbers symbolic. *)
Lemma max_10 k e : k = 78913 -> e = 262143 -> 2 * 10 ^ k <= 3 * 2 ^ e /\ 2 * 2 ^ e < 10 ^ (k + 1).
Proof.
  intros Hk He. split.
  - apply (ten_le 2 3 k e 122 467 1084); try (vm_compute; congruence); lia.
  - replace (2 * 2 ^ e) with (2 ^ (e + 1)) by (rewrite Z.pow_add_r by lia; ring).
    apply (ten_gt (k + 1) (e + 1) 540 74 170); try reflexivity; lia.
Qed.

Lemma min_10 k e : k = 78912 -> e = 262142 -> 10 ^ k <= 2 ^ e /\ 2 ^ e < 10 ^ (k + 1) /\ 10 ^ k < 2 ^ (e - 1).
Proof.
  intros Hk He. split; [|split].
  - rewrite <- (Z.mul_1_l (10 ^ k)), <- (Z.mul_1_l (2 ^ e)). apply (ten_le 1 1 k e 122 466 1084); try (vm_compute; congruence); lia.
  - apply (ten_gt (k + 1) e 540 73 169); try reflexivity; lia.
  - assert (H : 4 * 10 ^ k <= 3 * 2 ^ (e - 1)) by (apply (ten_le 4 3 k (e - 1) 122 466 1083); try (vm_compute; congruence); lia).
    assert (0 < 2 ^ (e - 1)) by (apply Z.pow_pos_nonneg; lia). lia.
Qed.

Lemma min_gt_zero_10 k e : k = 78984 -> e = 262378 -> 2 ^ e < 10 ^ k /\ 10 ^ (k - 1) <= 2 ^ e.
Proof.
  intros Hk He. split.
  - apply (ten_gt k e 540 144 334); try reflexivity; lia.
  - rewrite <- (Z.mul_1_l (10 ^ (k - 1))), <- (Z.mul_1_l (2 ^ e)). apply (ten_le 1 1 (k - 1) e 122 537 1249); try (vm_compute; congruence); lia.
Qed.

(** * LiftAlg: algebraic laws and NaN propagation for values of the type *)

From Coq Require Import ZArith Lia Bool List.
From Verif Require Import Base BigUInt ZLemmas BigLaws BigUIntProofs Spec SpecFns BigExtra F256 Arith SpecLemmas SpecProps
  F256Lemmas RoundLemmas AddProofs DivProofs MulProofs SqrtProofs RemProofs BasicProofs CodecProofs IntProofs SpecAlg
  MiscProofs Interface LiftProofs.
Import ListNotations.
Open Scope Z_scope.

Section LiftAlg.
Context {P : profile}.

Lemma wf_bits v : 0 <= v < 2 ^ 256 -> wf256 (bits v).
Proof. intros. apply (wf256_of v); auto. Qed.
Lemma v_bits v : v256 (bits v) = v.
Proof. apply (v256_of v). Qed.

Lemma returns_eq m r x : wf256 x -> v256 x = r -> returns m r -> m = Some x.
Proof. intros W V (z & -> & Wz & Vz). f_equal. apply v256_inj; auto. congruence. Qed.
Lemma returns_det m m' r : returns m r -> returns m' r -> m = m'.
Proof. intros (z & -> & Wz & Vz) (z' & -> & Wz' & Vz'). f_equal. apply v256_inj; auto. congruence. Qed.

Lemma wf_ZERO : wf256 ZERO. Proof. repeat split; discriminate || reflexivity. Qed.
Lemma wf_ONE : wf256 ONE. Proof. repeat split; vm_compute; congruence. Qed.
Lemma v_ZERO : v256 ZERO = 0. Proof. reflexivity. Qed.
Lemma v_ONE : v256 ONE = ONEm. Proof. vm_compute. reflexivity. Qed.

(** ** C35 *)
Lemma A_add_comm x y : wf256 x -> wf256 y -> add x y = add y x.
Proof.
  intros W V. apply (returns_det _ _ _ (L_add x y W V)).
  rewrite spec_add_comm by (apply v256_bound; auto). apply L_add; auto.
Qed.
Lemma A_mul_comm x y : wf256 x -> wf256 y -> mul x y = mul y x.
Proof.
  intros W V. rewrite <- (of256_v256 x W), <- (of256_v256 y V). apply mul_comm_ok; apply v256_bound; auto.
Qed.
Lemma A_sub_self x : wf256 x -> finb (v256 x) = true -> sub x x = Some ZERO.
Proof.
  intros W F. pose proof (L_sub x x W W) as H. rewrite spec_sub_self in H by (auto; apply v256_bound; auto).
  exact (returns_eq _ _ ZERO wf_ZERO v_ZERO H).
Qed.
Lemma A_add_zero x z : wf256 x -> wf256 z -> zerob (v256 z) = true -> zerob (v256 x) = false -> nanb (v256 x) = false ->
  add x z = Some x.
Proof.
  intros W V Z NZ N. pose proof (L_add x z W V) as H. rewrite spec_add_zero in H by (auto; apply v256_bound; auto).
  exact (returns_eq _ _ x W eq_refl H).
Qed.
Lemma A_mul_one x : wf256 x -> nanb (v256 x) = false -> mul x ONE = Some x.
Proof.
  intros W N. rewrite <- (of256_v256 x W) at 1. rewrite mul_one_ok by (auto; apply v256_bound; auto).
  rewrite (of256_v256 x W). reflexivity.
Qed.
Lemma A_div_one x : wf256 x -> nanb (v256 x) = false -> div x ONE = Some x.
Proof.
  intros W N. pose proof (L_div x ONE W wf_ONE) as H. rewrite v_ONE, spec_div_one in H by (auto; apply v256_bound; auto).
  exact (returns_eq _ _ x W eq_refl H).
Qed.
Lemma A_mul_neg x y : wf256 x -> wf256 y ->
  exists r, mul x y = Some r /\ wf256 r /\ mul (negated x) y = Some (if is_nan r then r else negated r).
Proof.
  intros W V. destruct (L_neg x W) as [Wn Vn].
  destruct (mul_neg_ok (v256 x) (v256 y) (v256_bound x W) (v256_bound y V)) as (r & E1 & B & E2).
  rewrite <- Vn in E2. rewrite (of256_v256 x W), (of256_v256 y V) in *. rewrite (of256_v256 _ Wn) in E2.
  exists (of256 r). split. auto. split. apply wf256_of; auto. rewrite E2, is_nan_of. destruct (nanb r). reflexivity.
  rewrite BasicProofs.negated_of by auto. reflexivity.
Qed.
Lemma A_add_mono x x' y : wf256 x -> wf256 x' -> wf256 y -> f_le x x' = true -> ~ cmp_reversed (v256 x) (v256 x') ->
  exists r r', add x y = Some r /\ add x' y = Some r' /\ wf256 r /\ wf256 r' /\
    (is_nan r = true \/ is_nan r' = true \/ sval (v256 r) <= sval (v256 r')).
Proof.
  intros W W' V LE R.
  assert (L : sval (v256 x) <= sval (v256 x')).
  { pose proof (v256_bound x W). pose proof (v256_bound x' W').
    rewrite <- (of256_v256 x W), <- (of256_v256 x' W') in LE. unfold f_le in LE. rewrite partial_cmp_of, code_cmp_spec in LE by auto.
    unfold spec_cmp in LE. destruct (nanb (v256 x) || nanb (v256 x')). discriminate.
    destruct (Z.compare_spec (sval (v256 x)) (sval (v256 x'))); try discriminate; lia. }
  destruct (L_add x y W V) as (r & E & Wr & Vr). destruct (L_add x' y W' V) as (r' & E' & Wr' & Vr').
  exists r, r'. split; auto. split; auto. split; auto. split; auto.
  destruct (L_predicates r Wr) as [-> _]. destruct (L_predicates r' Wr') as [-> _].
  destruct (nanb (v256 r)) eqn:N; auto. destruct (nanb (v256 r')) eqn:N'; auto. right. right.
  rewrite Vr, Vr' in *. apply spec_add_mono; auto; apply v256_bound; auto.
Qed.
(** Monotonicity in terms of the values. *)
Lemma A_add_mono_val x x' y : wf256 x -> wf256 x' -> wf256 y -> sval (v256 x) <= sval (v256 x') ->
  exists r r', add x y = Some r /\ add x' y = Some r' /\ wf256 r /\ wf256 r' /\
    (is_nan r = true \/ is_nan r' = true \/ sval (v256 r) <= sval (v256 r')).
Proof.
  intros W W' V L.
  destruct (L_add x y W V) as (r & E & Wr & Vr). destruct (L_add x' y W' V) as (r' & E' & Wr' & Vr').
  exists r, r'. split; auto. split; auto. split; auto. split; auto.
  destruct (L_predicates r Wr) as [-> _]. destruct (L_predicates r' Wr') as [-> _].
  destruct (nanb (v256 r)) eqn:N; auto. destruct (nanb (v256 r')) eqn:N'; auto. right. right.
  rewrite Vr, Vr' in *. apply spec_add_mono; auto; apply v256_bound; auto.
Qed.
Definition normal_product (v w : Z) : Prop :=
  2 ^ 236 * 2 ^ UNITe <= mag_val (mag v) * mag_val (mag w) \/ zerob v || zerob w = true.
Lemma A_mul_mono x x' y : wf256 x -> wf256 x' -> wf256 y ->
  finb (v256 x) = true -> finb (v256 x') = true -> finb (v256 y) = true -> 0 <= sval (v256 y) ->
  normal_product (v256 x) (v256 y) -> normal_product (v256 x') (v256 y) ->
  sval (v256 x) <= sval (v256 x') ->
  exists r r', mul x y = Some r /\ mul x' y = Some r' /\ wf256 r /\ wf256 r' /\ sval (v256 r) <= sval (v256 r').
Proof.
  intros W W' V F F' Fy S N N' L.
  destruct (L_mul x y W V) as (r & E & Wr & Vr). { destruct N as [N|N]. left; exact N. right; right; exact N. }
  destruct (L_mul x' y W' V) as (r' & E' & Wr' & Vr'). { destruct N' as [N'|N']. left; exact N'. right; right; exact N'. }
  exists r, r'. split; auto. split; auto. split; auto. split; auto. rewrite Vr, Vr'.
  apply spec_mul_mono; auto; apply v256_bound; auto.
Qed.
Lemma A_sterbenz x y : wf256 x -> wf256 y -> finb (v256 x) = true -> finb (v256 y) = true ->
  0 <= sval (v256 y) <= 2 * sval (v256 x) -> sval (v256 x) <= 2 * sval (v256 y) ->
  returns_in (sub x y) (fun r => finb r = true /\ sval r = sval (v256 x) - sval (v256 y)).
Proof.
  intros W V Fx Fy H1 H2. destruct (L_sub x y W V) as (r & E & Wr & Vr). exists r. split; auto. split; auto. rewrite Vr.
  apply spec_sub_rep; auto; try (apply v256_bound; auto). apply sterbenz; auto; apply v256_bound; auto.
Qed.

(** ** C36 *)
Lemma spec_nan2 x y : nanb x = true \/ nanb y = true ->
  nanb (spec_add x y) = true /\ nanb (spec_mul x y) = true /\ nanb (spec_div x y) = true /\ nanb (spec_rem x y) = true.
Proof.
  intros H. apply orb_true_iff in H. unfold spec_add, spec_mul, spec_div, spec_rem. rewrite H.
  repeat split; exact nan_q.
Qed.
Lemma nan_of m r : returns m r -> nanb r = true -> exists z, m = Some z /\ is_nan z = true.
Proof. intros (z & E & W & V) N. exists z. split; auto. destruct (L_predicates z W) as [-> _]. rewrite V. auto. Qed.

Lemma N_arith x y : wf256 x -> wf256 y -> is_nan x = true \/ is_nan y = true ->
  (exists r, add x y = Some r /\ is_nan r = true) /\ (exists r, sub x y = Some r /\ is_nan r = true)
  /\ (exists r, mul x y = Some r /\ is_nan r = true) /\ (exists r, div x y = Some r /\ is_nan r = true)
  /\ (exists r, rem x y = Some r /\ is_nan r = true).
Proof.
  intros W V. destruct (L_predicates x W) as [-> _]. destruct (L_predicates y V) as [-> _]. intros H.
  destruct (spec_nan2 _ _ H) as (H1 & H2 & H3 & H4).
  assert (NF : finb (v256 x) && finb (v256 y) = false).
  { destruct (finb (v256 x)) eqn:F, (finb (v256 y)) eqn:G; auto. destruct (finb_kinds _ F), (finb_kinds _ G). destruct H; congruence. }
  split. exact (nan_of _ _ (L_add x y W V) H1).
  split. { apply (nan_of _ _ (L_sub x y W V)). unfold spec_sub. apply spec_nan2. destruct (kinds_neg _ (v256_bound y V)) as [-> _]. auto. }
  split. exact (nan_of _ _ (L_mul x y W V (or_intror (or_introl NF))) H2).
  split. exact (nan_of _ _ (L_div x y W V) H3).
  apply (nan_of _ _ (L_rem_special x y W V ltac:(rewrite NF; reflexivity)) H4).
Qed.
Lemma N_sqrt x : wf256 x -> is_nan x = true -> exists r, sqrt x = Some r /\ is_nan r = true.
Proof.
  intros W N. destruct (L_sqrt x W) as (r & E & Wr & S). exists r. split; auto.
  destruct (L_predicates x W) as [N' _]. rewrite N' in N. destruct (L_predicates r Wr) as [-> _].
  unfold spec_sqrt in S. rewrite N in S. rewrite S. exact nan_q.
Qed.
Lemma N_cmp x y : wf256 x -> wf256 y -> is_nan x = true \/ is_nan y = true ->
  f_eq x y = false /\ f_lt x y = false /\ f_le x y = false /\ f_gt x y = false /\ f_ge x y = false.
Proof.
  intros W V. destruct (L_predicates x W) as [-> _]. destruct (L_predicates y V) as [-> _]. intros H.
  assert (PC : partial_cmp x y = None) by (apply L_partial_cmp_none; auto).
  unfold f_lt, f_le, f_gt, f_ge. rewrite PC. rewrite L_eq by auto. unfold spec_eq. repeat split.
  destruct H as [-> | ->]; cbn [negb andb]; auto. rewrite andb_false_r. reflexivity.
Qed.

(** ** C39 *)
Lemma T_zero x : wf256 x -> nt_is_zero x = zerob (v256 x).
Proof. intros W. apply (L_predicates x W). Qed.

Lemma one_cases v : 0 <= v < 2 ^ 256 -> spec_eq v ONEm = (v =? ONEm).
Proof.
  intros Hv. unfold spec_eq. destruct (Z.eqb_spec v ONEm) as [->|N].
  - rewrite Z.eqb_refl, andb_true_r. reflexivity.
  - destruct (nanb v); auto. cbn [negb andb]. change (nanb ONEm) with false. cbn [negb andb]. apply Z.eqb_neq. intros E. apply N.
    pose proof (mkf_sgn_mag v) as M. pose proof (mag_bound v) as B. pose proof (mvn v) as NV.
    assert (S1 : sval ONEm = mag_val ONEm) by (unfold sval; destruct sgn_one as [-> ->]; apply Z.mul_1_l).
    rewrite S1 in E. pose proof (mag_val_pos ONEm ltac:(unfold ONEm; lia)) as PO.
    destruct (sgn01 v Hv) as [S|S].
    + rewrite sval_pos in E by auto. apply mag_val_inj in E; [|lia|unfold ONEm; lia]. rewrite <- M, S, E. unfold mkf. lia.
    + exfalso. rewrite sval_neg in E by auto. revert E PO NV. generalize (mag_val ONEm) (mag_val (mag v)). intros. lia.
Qed.
Lemma T_one x : wf256 x -> nt_is_one x = (v256 x =? ONEm).
Proof.
  intros W. unfold nt_is_one. rewrite L_eq by (auto using wf_ONE). rewrite v_ONE. apply one_cases. apply v256_bound; auto.
Qed.

(** ** C05: laws of equality *)
Lemma E_laws x y z : wf256 x -> wf256 y -> wf256 z ->
  f_eq x x = negb (is_nan x) /\ f_eq x y = f_eq y x /\ (f_eq x y = true -> f_eq y z = true -> f_eq x z = true).
Proof.
  intros W V U. rewrite !L_eq by auto. destruct (L_predicates x W) as [-> _]. unfold spec_eq. split; [|split].
  - rewrite Z.eqb_refl, andb_true_r. apply andb_diag.
  - rewrite (Z.eqb_sym (sval (v256 x))), (andb_comm (negb (nanb (v256 x)))). reflexivity.
  - rewrite !andb_true_iff, !Z.eqb_eq. intros ((A & B) & C) ((D & E) & F). repeat split; auto. congruence.
Qed.

(** ** the comparison operators *)
Lemma O_ops x y : wf256 x -> wf256 y -> ~ cmp_reversed (v256 x) (v256 y) -> nanb (v256 x) = false -> nanb (v256 y) = false ->
  f_lt x y = (sval (v256 x) <? sval (v256 y)) /\ f_le x y = (sval (v256 x) <=? sval (v256 y))
  /\ f_gt x y = (sval (v256 y) <? sval (v256 x)) /\ f_ge x y = (sval (v256 y) <=? sval (v256 x)).
Proof.
  intros W V R N N'. pose proof (v256_bound x W). pose proof (v256_bound y V).
  assert (E : partial_cmp x y = Some (sval (v256 x) ?= sval (v256 y))).
  { rewrite <- (of256_v256 x W), <- (of256_v256 y V) at 1. rewrite partial_cmp_of, code_cmp_spec by auto.
    unfold spec_cmp. rewrite N, N'. reflexivity. }
  unfold f_lt, f_le, f_gt, f_ge. rewrite E. unfold Z.ltb, Z.leb. rewrite (Z.compare_antisym (sval (v256 x)) (sval (v256 y))).
  destruct (sval (v256 x) ?= sval (v256 y)); repeat split; reflexivity.
Qed.

End LiftAlg.

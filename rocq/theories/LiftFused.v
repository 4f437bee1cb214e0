(** * LiftFused: the fused operations, from bit patterns to values of the type *)

From Coq Require Import ZArith Lia Bool List.
From Verif Require Import Base BigUInt ZLemmas BigLaws BigUIntProofs Spec SpecFns BigExtra F256 Arith SpecLemmas SpecProps
  F256Lemmas RoundLemmas AddProofs BasicProofs SpecAlg MiscProofs Interface LiftProofs LiftAlg FmaProofs FmaSpecial SosProofs.
Import ListNotations.
Open Scope Z_scope.

Section Lift.
Context {P : profile}.

Lemma L_fma_special x y a : wf256 x -> wf256 y -> wf256 a ->
  finb (v256 x) && finb (v256 y) && finb (v256 a) && negb (zerob (v256 x)) && negb (zerob (v256 y)) = false ->
  returns (mul_add x y a) (spec_fma (v256 x) (v256 y) (v256 a)).
Proof.
  intros Wx Wy Wa H. apply returns_of. apply spec_fma_bound; apply v256_bound; auto.
  unfold mul_add. rewrite <- (of256_v256 x Wx), <- (of256_v256 y Wy), <- (of256_v256 a Wa) at 1.
  apply fma_special; auto; apply v256_bound; auto.
Qed.

Lemma L_fma x y a : wf256 x -> wf256 y -> wf256 a ->
  let xy := mag_val (mag (v256 x)) * mag_val (mag (v256 y)) in
  let n := (1 - 2 * xors (sgn (v256 x)) (sgn (v256 y))) * xy + sval (v256 a) * 2 ^ UNITe in
  (2 ^ 236 <= mag (v256 x) /\ 2 ^ 236 <= mag (v256 y)
     /\ (zerob (v256 a) = true \/ 2 ^ 236 <= mag (v256 a) \/ 2 ^ 237 * 2 ^ UNITe <= xy))
  \/ (2 ^ 236 <= mag (v256 a) /\ 2 ^ 238 * xy <= mag_val (mag (v256 a)) * 2 ^ UNITe) ->
  n = 0 \/ 2 ^ 236 * 2 ^ UNITe <= Z.abs n ->
  returns (mul_add x y a) (spec_fma (v256 x) (v256 y) (v256 a)).
Proof.
  intros Wx Wy Wa xy n H1 H2. apply returns_of. apply spec_fma_bound; apply v256_bound; auto.
  unfold mul_add. rewrite <- (of256_v256 x Wx), <- (of256_v256 y Wy), <- (of256_v256 a Wa) at 1.
  exact (fma_ok _ _ _ (v256_bound x Wx) (v256_bound y Wy) (v256_bound a Wa) H1 H2).
Qed.

Lemma N_fma x y a : wf256 x -> wf256 y -> wf256 a -> is_nan x = true \/ is_nan y = true \/ is_nan a = true ->
  exists r, mul_add x y a = Some r /\ is_nan r = true.
Proof.
  intros Wx Wy Wa. destruct (L_predicates x Wx) as (-> & _). destruct (L_predicates y Wy) as (-> & _).
  destruct (L_predicates a Wa) as (-> & _). intros H.
  assert (NF : forall v, nanb v = true -> finb v = false)
    by (intros v; unfold nanb, finb; rewrite Z.ltb_lt, Z.ltb_ge; lia).
  destruct (L_fma_special x y a Wx Wy Wa) as (z & E & Wz & Vz).
  { destruct H as [H|[H|H]]; rewrite (NF _ H); rewrite ?andb_false_r; reflexivity. }
  exists z. split. auto. destruct (L_predicates z Wz) as (-> & _). rewrite Vz. unfold spec_fma.
  assert (N : nanb (v256 x) || nanb (v256 y) || nanb (v256 a) = true).
  { destruct H as [H|[H|H]]; rewrite H; rewrite ?orb_true_r; reflexivity. }
  rewrite N. reflexivity.
Qed.

Lemma L_sos x y : wf256 x -> wf256 y ->
  let n := mag_val (mag (v256 x)) * mag_val (mag (v256 x)) + mag_val (mag (v256 y)) * mag_val (mag (v256 y)) in
  returns_in (sum_of_squares x y) (fun r => r = spec_sos (v256 x) (v256 y)
    \/ (finb (v256 x) = true /\ finb (v256 y) = true /\ sos_miss n (2 ^ UNITe) r)).
Proof.
  intros Wx Wy n. apply returns_in_of. pose proof (sos_ok _ _ (v256_bound x Wx) (v256_bound y Wy)) as H.
  rewrite (of256_v256 x Wx), (of256_v256 y Wy) in H. exact H.
Qed.

Lemma N_sos x y : wf256 x -> wf256 y -> is_nan x = true \/ is_nan y = true ->
  exists r, sum_of_squares x y = Some r /\ is_nan r = true.
Proof.
  intros Wx Wy. destruct (L_predicates x Wx) as (-> & _). destruct (L_predicates y Wy) as (-> & _). intros H.
  destruct (L_sos x y Wx Wy) as (z & E & Wz & [Vz|(F1 & F2 & _)]).
  - exists z. split. auto. destruct (L_predicates z Wz) as (-> & _). rewrite Vz. unfold spec_sos.
    assert (N : nanb (v256 x) || nanb (v256 y) = true) by (destruct H as [H|H]; rewrite H; rewrite ?orb_true_r; reflexivity).
    rewrite N. reflexivity.
  - destruct (finb_kinds _ F1), (finb_kinds _ F2). destruct H; congruence.
Qed.
End Lift.

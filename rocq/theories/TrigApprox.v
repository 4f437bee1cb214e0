(** * TrigApprox: the polynomials for sine and cosine against the real functions *)

From Coq Require Import ZArith Lia Bool Reals Lra List.
From Verif Require Import Base BigUInt ZLemmas BigLaws BigUIntProofs BigExtra Spec SpecFns F256 Arith SpecLemmas
  F256Lemmas BasicProofs CodecProofs SosProofs SpecDeg SpecLog LogTable Log FpProofs LogProofs LnBound LogReal TrigTable Trig.
Import ListNotations.
Open Scope Z_scope.

(** The units of a table entry *)
Definition uc (t : Z * Z * Z * Z) : Z := fp_units (w512 t).
Definition okt (t : Z * Z * Z * Z) : bool :=
  let '(a, b, c, d) := t in
  (0 <=? a) && (a <? 2 ^ 128) && ((0 <=? b) && (b <? 2 ^ 128)) && ((0 <=? c) && (c <? 2 ^ 128)) && ((0 <=? d) && (d <? 2 ^ 128)).

Fixpoint zfact (n : nat) : Z := match n with O => 1 | S k => Z.of_nat n * zfact k end.

Lemma zfact_pos n : 0 < zfact n.
Proof. induction n; [reflexivity|]. cbn [zfact]. lia. Qed.

Lemma zfact_ok n : IZR (zfact n) = INR (fact n).
Proof.
  induction n as [|n IH]; [reflexivity|]. cbn [zfact]. rewrite fact_simpl, mult_INR, mult_IZR, IH, <- INR_IZR_INZ. reflexivity.
Qed.

(** The entry for index [k] is a unit or less away from (-1)^k / (2 k + a)!. *)
Fixpoint ok_coeffs (a n : nat) (cs : list (Z * Z * Z * Z)) : bool :=
  match n, cs with
  | O, [] => true
  | S k, c :: cs =>
    okt c && (Z.abs (uc c) <=? 2 ^ 492)
    && (Z.abs (uc c * zfact (2 * k + a) - (-1) ^ Z.of_nat k * 2 ^ 492) <=? zfact (2 * k + a)) && ok_coeffs a k cs
  | _, _ => false
  end.

Lemma sin_coeffs_ok : ok_coeffs 1 31 SIN_COEFFS = true. Proof. vm_compute. reflexivity. Qed.
Lemma cos_coeffs_ok : ok_coeffs 0 33 COS_COEFFS = true. Proof. vm_compute. reflexivity. Qed.

Section Ap.
Context {P : profile}.

Lemma fp_le_ok a b : - 2 ^ 511 <= a < 2 ^ 511 -> - 2 ^ 511 <= b < 2 ^ 511 -> fp_le (fpz a) (fpz b) = (a <=? b).
Proof. intros. unfold fp_le. rewrite fp_cmp_ok by lia. unfold Z.leb. destruct (a ?= b); reflexivity. Qed.

Lemma fp_oft t : okt t = true -> fp_of t = fpz (uc t) /\ - 2 ^ 511 <= uc t < 2 ^ 511.
Proof.
  destruct t as [[[a b] c] d]. unfold okt, uc, w512, fp_of. rewrite !andb_true_iff, !Z.leb_le, !Z.ltb_lt.
  intros H. rewrite fp_new_of by lia. set (w := a * 2 ^ 384 + b * 2 ^ 256 + c * 2 ^ 128 + d). assert (0 <= w < 2 ^ 512) by (unfold w; lia).
  clearbody w. unfold fp_units. destruct (Z.ltb_spec w (2 ^ 511)).
  - rewrite fpz_pos by lia. split; [reflexivity|lia].
  - rewrite fpz_neg by lia. split; [f_equal; lia|lia].
Qed.

Lemma mulz a b : - 2 ^ 511 < a < 2 ^ 511 -> - 2 ^ 511 < b < 2 ^ 511 -> Z.abs (a * b) < 2 ^ 1002 ->
  exists r, fp_imul_round (fpz a) (fpz b) = Some (fpz r) /\ Z.abs (r * 2 ^ 492 - a * b) < 2 ^ 492 /\ Z.abs r < 2 ^ 511.
Proof.
  intros Ha Hb HM. rewrite fp_mul_ok by lia. eexists. split; [reflexivity|]. rewrite <- Z.sgn_mul. set (c := a * b) in *. clearbody c. clear a b Ha Hb.
  destruct (mulr_spec (Z.abs c) ltac:(lia)) as (M0 & M1 & M2). set (q := mulr (Z.abs c)) in *. clearbody q.
  destruct (Z.sgn_spec c) as [[H ->]|[[H ->]|[H ->]]]; lia.
Qed.

Open Scope R_scope.

(** The Horner scheme over the real numbers, from the coefficient with index [n - 1] down *)
Fixpoint hr (t : nat -> R) (n : nat) (z s : R) : R :=
  match n with O => s | S k => hr t k z (s * z + t k) end.

Lemma hr_sum t z : forall n s, hr t (S n) z s = s * z ^ S n + sum_f_R0 (fun k => t k * z ^ k) n.
Proof.
  induction n as [|n IH]; intros s.
  - cbn [hr sum_f_R0]. rewrite pow_1, pow_O. ring.
  - change (hr t (S (S n)) z s) with (hr t (S n) z (s * z + t (S n))). rewrite IH. cbn [sum_f_R0]. cbn [pow]. ring.
Qed.

Definition tc (a k : nat) : R := (-1) ^ k / INR (fact (2 * k + a)).

Lemma IZR_m1 k : IZR ((-1) ^ Z.of_nat k) = (-1) ^ k.
Proof. rewrite <- pow_IZR. reflexivity. Qed.

Lemma coeff_real a k c : (Z.abs (c * zfact (2 * k + a) - (-1) ^ Z.of_nat k * 2 ^ 492) <= zfact (2 * k + a))%Z ->
  Rabs (IZR c - SR * tc a k) <= 1.
Proof.
  intros H. apply IZR_le in H. rewrite abs_IZR, minus_IZR, (mult_IZR c), (mult_IZR ((-1) ^ _)) in H. fold SR in H.
  rewrite IZR_m1 in H. unfold tc. rewrite <- zfact_ok. pose proof (IZR_lt _ _ (zfact_pos (2 * k + a))) as F.
  set (f := IZR (zfact (2 * k + a))) in *. clearbody f.
  apply rabs_inv in H. set (s := (-1) ^ k) in *. clearbody s. set (C := IZR c) in *. clearbody C. set (S := SR) in *. clearbody S.
  apply Rabs_le. assert (E : (C - S * (s / f)) * f = C * f - s * S) by (field; lra). split; apply Rmult_le_reg_r with f; auto; lra.
Qed.

Lemma abs_mult_le x y a b : Rabs x <= a -> Rabs y <= b -> Rabs (x * y) <= a * b.
Proof. intros. rewrite Rabs_mult. apply Rmult_le_compat; auto; apply Rabs_pos. Qed.

Lemma horner_ok a X z : (0 <= X <= 645 * 2 ^ 482)%Z -> 0 <= z <= 63 / 100 -> Rabs (IZR X - SR * z) <= 1 ->
  forall n cs s q, ok_coeffs a n cs = true -> (Z.abs s <= 3 * 2 ^ 492)%Z -> Rabs (IZR s - SR * q) <= 14 ->
  exists r, horner cs (fpz X) (fpz s) = Some (fpz r) /\ (Z.abs r <= 3 * 2 ^ 492)%Z /\ Rabs (IZR r - SR * hr (tc a) n z q) <= 14.
Proof.
  intros HX Hz HXz. induction n as [|k IH]; intros cs s q HC Hs Hq.
  - destruct cs; [|discriminate]. exists s. auto.
  - destruct cs as [|c cs]; [discriminate|]. cbn [ok_coeffs] in HC. rewrite !andb_true_iff, !Z.leb_le in HC.
    destruct HC as [[[C1 C2] C3] C4]. cbn [horner].
    destruct (mulz s X) as (m & -> & Hm & Hm1); [lia|lia| |].
    { rewrite Z.abs_mul, (Z.abs_eq X) by lia. apply Z.le_lt_trans with (3 * 2 ^ 492 * (645 * 2 ^ 482))%Z; [apply Z.mul_le_mono_nonneg; lia|reflexivity]. }
    rewrite bind_Some. destruct (fp_oft c C1) as [-> C5]. rewrite fp_add_ok. cbn [hr].
    apply (IH cs (m + uc c)%Z); auto.
    + assert (B : (Z.abs (s * X) <= 3 * 2 ^ 492 * (645 * 2 ^ 482))%Z).
      { rewrite Z.abs_mul, (Z.abs_eq X) by lia. apply Z.mul_le_mono_nonneg; lia. }
      clear - B Hm C2. set (p := (s * X)%Z) in *. clearbody p. lia.
    + pose proof (coeff_real a k _ C3) as D. apply IZR_lt in Hm. apply IZR_le in Hs. rewrite abs_IZR in Hm, Hs.
      rewrite minus_IZR, !mult_IZR in Hm. rewrite mult_IZR in Hs. fold SR in Hm, Hs. rewrite plus_IZR. pose proof SR_pos as HS.
      set (S := SR) in *. clearbody S. set (M := IZR m) in *. set (s' := IZR s) in *. set (X' := IZR X) in *. set (u := IZR (uc c)) in *.
      set (t := tc a k) in *. clearbody M s' X' u t. clear - HS Hm Hs D Hq HXz Hz.
      assert (E1 : Rabs (M - s' * X' * / S) <= 1).
      { replace (M - s' * X' * / S) with ((M * S - s' * X') * / S) by (field; lra). rewrite Rabs_mult, (Rabs_pos_eq (/ S)) by (left; apply Rinv_0_lt_compat; lra).
        apply Rmult_le_reg_r with S; [lra|]. rewrite Rmult_assoc, Rinv_l by lra. lra. }
      assert (E2 : Rabs ((s' * / S) * (X' - S * z)) <= 3 * 1).
      { apply abs_mult_le; auto. rewrite Rabs_mult, (Rabs_pos_eq (/ S)) by (left; apply Rinv_0_lt_compat; lra).
        apply Rmult_le_reg_r with S; [lra|]. rewrite Rmult_assoc, Rinv_l by lra. lra. }
      assert (E3 : Rabs ((s' - S * q) * z) <= 14 * (63 / 100)) by (apply abs_mult_le; auto; rewrite Rabs_pos_eq; lra).
      assert (E : M + u - S * (q * z + t) = (M - s' * X' * / S) + (s' * / S) * (X' - S * z) + (s' - S * q) * z + (u - S * t)) by (field; lra).
      rewrite E. apply rabs_inv in E1, E2, E3, D. apply Rabs_le. lra.
Qed.

Lemma poly_ok a X z n cs : (0 <= X <= 645 * 2 ^ 482)%Z -> 0 <= z <= 63 / 100 -> Rabs (IZR X - SR * z) <= 1 -> ok_coeffs a (S n) cs = true ->
  exists r, poly cs (fpz X) = Some (fpz r) /\ (Z.abs r <= 3 * 2 ^ 492)%Z
    /\ Rabs (IZR r - SR * sum_f_R0 (fun k => tc a k * z ^ k) n) <= 14.
Proof.
  intros HX Hz HXz HC. destruct cs as [|c cs]; [discriminate|]. cbn [ok_coeffs] in HC. rewrite !andb_true_iff, !Z.leb_le in HC.
  destruct HC as [[[C1 C2] C3] C4]. unfold poly. destruct (fp_oft c C1) as [-> C5].
  destruct (horner_ok a X z HX Hz HXz n cs (uc c) (tc a n)) as (r & E1 & E2 & E3); auto; [lia| |].
  { pose proof (coeff_real a n _ C3). lra. }
  exists r. split; [exact E1|]. split; [exact E2|]. pose proof (hr_sum (tc a) z n 0) as H. cbn [hr] in H.
  rewrite !Rmult_0_l, !Rplus_0_l in H. rewrite <- H. exact E3.
Qed.

(** ** The Taylor polynomials *)
Lemma sum_scale f g c n : (forall k, f k * c = g k) -> sum_f_R0 f n * c = sum_f_R0 g n.
Proof. intros H. induction n as [|n IH]; cbn [sum_f_R0]; [apply H|]. rewrite Rmult_plus_distr_r, IH, H. reflexivity. Qed.

Lemma sin_sum x n : sum_f_R0 (fun k => tc 1 k * (x * x) ^ k) n * x = sin_approx x n.
Proof.
  unfold sin_approx. apply sum_scale. intros k. unfold tc, sin_term. rewrite Rpow_mult_distr, pow_add, pow_1, pow_mult.
  replace (x ^ 2) with (x * x) by ring. rewrite Rpow_mult_distr. unfold Rdiv. ring.
Qed.
Lemma cos_sum x n : sum_f_R0 (fun k => tc 0 k * (x * x) ^ k) n = cos_approx x n.
Proof.
  rewrite <- (Rmult_1_r (sum_f_R0 _ n)). unfold cos_approx. apply sum_scale. intros k. unfold tc, cos_term.
  rewrite pow_mult. replace (x ^ 2) with (x * x) by ring. rewrite Nat.add_0_r. unfold Rdiv. ring.
Qed.

Lemma pow_le_1 a n : 0 <= a <= 1 -> 0 <= a ^ n <= 1.
Proof. intros H. split; [apply pow_le; lra|]. rewrite <- (pow1 n). apply pow_incr. lra. Qed.

Lemma fact61 : IZR (2 ^ 278) <= INR (fact 61).
Proof. rewrite <- zfact_ok. apply IZR_le. apply Z.leb_le. vm_compute. reflexivity. Qed.
Lemma fact64 : IZR (2 ^ 290) <= INR (fact 64).
Proof. rewrite <- zfact_ok. apply IZR_le. apply Z.leb_le. vm_compute. reflexivity. Qed.

Lemma sin_pos_taylor a : 0 <= a <= 1 -> Rabs (sin_approx a 30 - sin a) <= a * / IZR (2 ^ 278).
Proof.
  intros Ha. destruct (pre_sin_bound a 14) as [B1 B2]; [lra|lra|]. change (2 * 14 + 1)%nat with 29%nat in B1. change (2 * (14 + 1))%nat with 30%nat in B2.
  assert (E : sin_approx a 30 = sin_approx a 29 + sin_term a 30) by reflexivity.
  assert (T : sin_term a 30 <= a * / IZR (2 ^ 278)).
  { unfold sin_term. replace ((-1) ^ 30) with 1 by (change 30%nat with (2 * 15)%nat; rewrite pow_1_even; reflexivity). rewrite Rmult_1_l.
    change (2 * 30 + 1)%nat with (S 60). unfold Rdiv. rewrite <- tech_pow_Rmult. rewrite Rmult_assoc. apply Rmult_le_compat_l; [lra|].
    rewrite <- (Rmult_1_l (/ IZR (2 ^ 278))). pose proof fact61 as F. change (S 60) with 61%nat. set (f := INR (fact 61)) in *. clearbody f. assert (X : 0 <= a ^ 60 <= 1) by (apply pow_le_1; lra). assert (0 < IZR (2 ^ 278)) by (apply IZR_lt; reflexivity).
    apply Rmult_le_compat; [apply X|left; apply Rinv_0_lt_compat; lra|apply X|apply Rinv_le_contravar; lra]. }
  apply Rabs_le. lra.
Qed.

Lemma sin_taylor x : Rabs x <= 1 -> Rabs (sin_approx x 30 - sin x) <= Rabs x * / IZR (2 ^ 278).
Proof.
  intros Hx. destruct (Rle_dec 0 x) as [H|H].
  - rewrite (Rabs_pos_eq x) in * by lra. apply sin_pos_taylor. lra.
  - rewrite (Rabs_left x) in * by lra. pose proof (sin_pos_taylor (- x) ltac:(lra)) as B.
    rewrite <- !sin_sum in *. replace (- x * - x) with (x * x) in B by ring. rewrite sin_neg in B.
    set (p := sum_f_R0 _ _) in *. clearbody p. rewrite <- Rabs_Ropp. replace (- (p * x - sin x)) with (p * - x - - sin x) by ring. exact B.
Qed.

Lemma cos_taylor x : Rabs x <= 1 -> Rabs (cos_approx x 32 - cos x) <= / IZR (2 ^ 290).
Proof.
  intros Hx. apply rabs_inv in Hx. destruct (pre_cos_bound x 15) as [B1 B2]; [lra|lra|].
  change (2 * 15 + 1)%nat with 31%nat in B1. change (2 * (15 + 1))%nat with 32%nat in B2.
  assert (E : cos_approx x 32 = cos_approx x 31 + cos_term x 32) by reflexivity.
  assert (T : cos_term x 32 <= / IZR (2 ^ 290)).
  { unfold cos_term. replace ((-1) ^ 32) with 1 by (change 32%nat with (2 * 16)%nat; rewrite pow_1_even; reflexivity). rewrite Rmult_1_l.
    change (2 * 32)%nat with 64%nat. unfold Rdiv. rewrite <- (Rmult_1_l (/ IZR (2 ^ 290))). pose proof fact64 as F. set (f := INR (fact 64)) in *. clearbody f.
    assert (0 < IZR (2 ^ 290)) by (apply IZR_lt; reflexivity).
    assert (X : 0 <= x ^ 64 <= 1). { change 64%nat with (2 * 32)%nat. rewrite pow_mult. apply pow_le_1. cbn [pow]. nra. }
    apply Rmult_le_compat; [apply X|left; apply Rinv_0_lt_compat; lra|apply X|apply Rinv_le_contravar; lra]. }
  apply Rabs_le. lra.
Qed.

(** Near zero *)
Lemma sin_pos_small a : 0 <= a <= 1 -> Rabs (a - sin a) <= a * a * a / 6.
Proof.
  intros Ha. destruct (pre_sin_bound a 0) as [B1 B2]; [lra|lra|].
  unfold sin_approx, sin_term in B1, B2. cbn in B1, B2. apply Rabs_le.
  assert (0 <= a * a * a) by (apply Rmult_le_pos; [apply Rmult_le_pos|]; lra).
  assert (0 <= a * a * a * a * a <= a * a * a). { split; [repeat apply Rmult_le_pos; lra|]. rewrite <- (Rmult_1_r (a * a * a)) at 2. rewrite (Rmult_assoc _ a a). apply Rmult_le_compat_l; nra. }
  lra.
Qed.
Lemma sin_small x : Rabs x <= 1 -> Rabs (x - sin x) <= Rabs x * (x * x) / 6.
Proof.
  intros Hx. destruct (Rle_dec 0 x) as [H|H].
  - rewrite (Rabs_pos_eq x) in * by lra. pose proof (sin_pos_small x ltac:(lra)). lra.
  - rewrite (Rabs_left x) in * by lra. pose proof (sin_pos_small (- x) ltac:(lra)) as B. rewrite sin_neg in B.
    rewrite <- Rabs_Ropp. replace (- (x - sin x)) with (- x - - sin x) by ring. lra.
Qed.
Lemma cos_small x : Rabs (1 - cos x) <= x * x / 2.
Proof.
  pose proof (COS_bound x). rewrite Rabs_pos_eq by lra.
  replace x with (2 * (x / 2)) at 1 by field. rewrite cos_2a_sin. 
  assert (Rabs (sin (x / 2)) <= Rabs (x / 2)) as L.
  { assert (H0 : forall y, 0 < y -> Rabs (sin y) <= y).
    { intros y Hy. destruct (Rle_dec y 1) as [L|L].
      - rewrite Rabs_pos_eq; [left; apply sin_lt_x; auto|]. apply sin_ge_0; [lra|]. pose proof PI2_1. lra.
      - apply Rabs_le. pose proof (SIN_bound y). lra. }
    destruct (Rtotal_order (x / 2) 0) as [L|[L|L]].
    - rewrite <- (Rabs_Ropp (sin _)), <- sin_neg, (Rabs_left (x / 2)) by lra. apply H0. lra.
    - rewrite L, sin_0. lra.
    - rewrite (Rabs_pos_eq (x / 2)) by lra. apply H0. lra. }
  apply Rsqr_le_abs_1 in L. unfold Rsqr in L. lra.
Qed.

Lemma abs_sin_le x : Rabs (sin x) <= Rabs x.
Proof.
  assert (H0 : forall y, 0 < y -> Rabs (sin y) <= y).
  { intros y Hy. destruct (Rle_dec y 1) as [L|L].
    - rewrite Rabs_pos_eq; [left; apply sin_lt_x; auto|]. apply sin_ge_0; [lra|]. pose proof PI2_1. lra.
    - apply Rabs_le. pose proof (SIN_bound y). lra. }
  destruct (Rtotal_order x 0) as [L|[L|L]].
  - rewrite <- (Rabs_Ropp (sin _)), <- sin_neg, (Rabs_left x) by lra. apply H0. lra.
  - rewrite L, sin_0. lra.
  - rewrite (Rabs_pos_eq x) by lra. apply H0. lra.
Qed.
Lemma sin_lip a b : Rabs (sin a - sin b) <= Rabs (a - b).
Proof.
  rewrite form4. pose proof (abs_sin_le ((a - b) / 2)) as H. pose proof (COS_bound ((a + b) / 2)) as C.
  replace (Rabs (a - b)) with (2 * 1 * Rabs ((a - b) / 2)).
  - rewrite Rmult_assoc, Rmult_assoc, Rabs_mult, (Rabs_pos_eq 2) by lra. apply Rmult_le_compat_l; [lra|]. apply abs_mult_le; auto. apply Rabs_le. lra.
  - unfold Rdiv. rewrite (Rabs_mult (a - b) (/ 2)), (Rabs_pos_eq (/ 2)) by lra. field.
Qed.
Lemma cos_lip a b : Rabs (cos a - cos b) <= Rabs (a - b).
Proof.
  rewrite <- !sin_shift. eapply Rle_trans; [apply sin_lip|]. rewrite <- (Rabs_Ropp (a - b)). right. f_equal. ring.
Qed.

(** ** The two approximations *)
Definition SCUT : Z := Eval vm_compute in uc (0, 0x005c4dd12448fbd973779fc5b15b8c99, 0xf02871b5584367dcb9d6fe24cc9ce800, 0)%Z.
Definition CCUT : Z := Eval vm_compute in uc (0, 0x002d413cccfe779921165f626cdd52af, 0xa7c75bd82ea24eea133b45eb2160cc00, 0)%Z.
Lemma SCUT_ok : SIN_CUT_OFF = fpz SCUT. Proof. destruct P; vm_compute; reflexivity. Qed.
Lemma CCUT_ok : COS_CUT_OFF = fpz CCUT. Proof. destruct P; vm_compute; reflexivity. Qed.
Lemma FP_ONE_ok : FP_ONE = fpz (2 ^ 492). Proof. destruct P; vm_compute; reflexivity. Qed.

(** The range of reduced arguments: a little more than pi / 4 *)
Definition BND : Z := 405 * 2 ^ 483.

Lemma arg_ok V : (Z.abs V <= BND)%Z -> Rabs (IZR V / SR) <= 405 / 512 /\ IZR V = SR * (IZR V / SR).
Proof.
  intros H. pose proof SR_pos as HS. split; [|field; lra]. unfold Rdiv. rewrite Rabs_mult, (Rabs_pos_eq (/ SR)) by (left; apply Rinv_0_lt_compat; lra).
  apply Rmult_le_reg_r with SR; [lra|]. rewrite Rmult_assoc, Rinv_l by lra. apply IZR_le in H. rewrite abs_IZR in H. unfold BND in H.
  assert (E : IZR (405 * 2 ^ 483) = 405 / 512 * SR). { unfold SR. change (2 ^ 492)%Z with (512 * 2 ^ 483)%Z. rewrite !mult_IZR. field. }
  lra.
Qed.

Lemma square_ok V : (Z.abs V <= BND)%Z ->
  exists X, fp_imul_round (fpz (Z.abs V)) (fpz (Z.abs V)) = Some (fpz X) /\ (0 <= X <= 645 * 2 ^ 482)%Z
    /\ Rabs (IZR X - SR * (IZR V / SR * (IZR V / SR))) <= 1.
Proof.
  intros H. assert (H2 : (0 <= Z.abs V * Z.abs V <= BND * BND)%Z) by (split; [apply Z.mul_nonneg_nonneg; lia|apply Z.mul_le_mono_nonneg; lia]).
  unfold BND in *. destruct (mulz (Z.abs V) (Z.abs V)) as (X & E & B & B1); [lia|lia|lia|]. exists X. split; [exact E|].
  assert (HV : (Z.abs V * Z.abs V = V * V)%Z) by lia. rewrite HV in *. split.
  - clear - H2 B. set (p := (V * V)%Z) in *. clearbody p. lia.
  - apply IZR_lt in B. rewrite abs_IZR, minus_IZR, !mult_IZR in B. fold SR in B. pose proof SR_pos as HS.
    replace (IZR X - SR * (IZR V / SR * (IZR V / SR))) with ((IZR X * SR - IZR V * IZR V) * / SR) by (field; lra).
    rewrite Rabs_mult, (Rabs_pos_eq (/ SR)) by (left; apply Rinv_0_lt_compat; lra). apply Rmult_le_reg_r with SR; [lra|].
    rewrite Rmult_assoc, Rinv_l by lra. lra.
Qed.

Lemma approx_sin_ok V : (Z.abs V <= BND)%Z -> exists W, approx_sin (fpz V) = Some (fpz W) /\ (Z.abs W < 2 ^ 493)%Z
  /\ ((Z.abs V <= SCUT)%Z -> W = V)
  /\ ((SCUT < Z.abs V)%Z -> Rabs (IZR W - SR * sin (IZR V / SR)) <= 15 + IZR (Z.abs V) * / IZR (2 ^ 278)).
Proof.
  intros HV. unfold approx_sin. rewrite fp_iabs_ok by (unfold BND in HV; lia). rewrite <- fpz_pos by (unfold BND in HV; lia).
  rewrite SCUT_ok, fp_le_ok by (unfold BND, SCUT in *; lia). destruct (Z.leb_spec (Z.abs V) SCUT) as [L|L].
  - exists V. split; [reflexivity|]. split; [unfold BND in HV; lia|]. split; [auto|lia].
  - destruct (square_ok V HV) as (X & -> & HX & HX2). rewrite bind_Some. destruct (arg_ok V HV) as [Hx Hx1].
    set (x := IZR V / SR) in *. assert (Hz : 0 <= x * x <= 63 / 100). { clear - Hx. apply rabs_inv in Hx. split; nra. }
    destruct (poly_ok 1 X (x * x) 30 SIN_COEFFS HX Hz HX2 sin_coeffs_ok) as (r & -> & R1 & R2). rewrite bind_Some.
    destruct (mulz r V) as (W & -> & W1 & W2); [lia|unfold BND in HV; lia| |].
    { rewrite Z.abs_mul. apply Z.le_lt_trans with (3 * 2 ^ 492 * BND)%Z; [apply Z.mul_le_mono_nonneg; lia|reflexivity]. }
    exists W. split; [reflexivity|].
    assert (W3 : Rabs (IZR W - SR * sin x) <= 15 + IZR (Z.abs V) * / IZR (2 ^ 278)).
    { pose proof (sin_taylor x ltac:(lra)) as T. rewrite <- sin_sum in T. set (p := sum_f_R0 _ _) in *. clearbody p.
      apply IZR_lt in W1. rewrite abs_IZR, minus_IZR, !mult_IZR in W1. fold SR in W1. rewrite abs_IZR. pose proof SR_pos as HS.
      assert (PC : 0 < / IZR (2 ^ 278)) by (apply Rinv_0_lt_compat, IZR_lt; reflexivity). set (C := / IZR (2 ^ 278)) in *. clearbody C.
      set (S := SR) in *. clearbody S. rewrite Hx1 in *. clearbody x. set (r' := IZR r) in *. set (W' := IZR W) in *. clearbody r' W'.
      clear - PC W1 R2 T Hx HS. rewrite Rabs_mult, (Rabs_pos_eq S) by lra.
      assert (E1 : Rabs (W' - r' * x) <= 1).
      { replace (W' - r' * x) with ((W' * S - r' * (S * x)) * / S) by (field; lra). rewrite Rabs_mult, (Rabs_pos_eq (/ S)) by (left; apply Rinv_0_lt_compat; lra).
        apply Rmult_le_reg_r with S; [lra|]. rewrite Rmult_assoc, Rinv_l by lra. lra. }
      assert (E2 : Rabs ((r' - S * p) * x) <= 14 * (405 / 512)) by (apply abs_mult_le; auto).
      assert (E3 : Rabs (S * (p * x - sin x)) <= S * (Rabs x * C)) by (rewrite Rabs_mult, (Rabs_pos_eq S) by lra; apply Rmult_le_compat_l; lra).
      replace (W' - S * sin x) with ((W' - r' * x) + (r' - S * p) * x + S * (p * x - sin x)) by ring.
      apply rabs_inv in E1, E2, E3. apply Rabs_le. lra. }
    split; [|split; [lia|auto]].
    pose proof (SIN_bound x) as SB. apply lt_IZR. rewrite abs_IZR. apply rabs_inv in W3. apply IZR_le in HV. pose proof SR_pos as HS.
    assert (A : IZR (Z.abs V) * / IZR (2 ^ 278) <= SR / 4).
    { assert (P0 : 0 < IZR (2 ^ 278)) by (apply IZR_lt; reflexivity). apply Rmult_le_reg_r with (IZR (2 ^ 278)); auto.
      rewrite Rmult_assoc, Rinv_l, Rmult_1_r by lra. eapply Rle_trans; [exact HV|]. unfold BND.
      apply Rle_trans with (SR * 1); [rewrite Rmult_1_r; apply IZR_le; apply Z.leb_le; reflexivity|]. unfold Rdiv. rewrite Rmult_assoc.
      apply Rmult_le_compat_l; [lra|]. assert (4 <= IZR (2 ^ 278)) by (apply IZR_le; apply Z.leb_le; reflexivity). lra. }
    assert (HS2 : 1000 <= SR) by (apply IZR_le; apply Z.leb_le; reflexivity).
    assert (E2 : IZR (2 ^ 493) = 2 * SR) by (unfold SR; rewrite <- mult_IZR; reflexivity). rewrite E2.
    apply Rabs_def1; nra.
Qed.

Lemma approx_cos_ok V : (Z.abs V <= BND)%Z -> exists W, approx_cos (fpz V) = Some (fpz W)
  /\ ((Z.abs V <= CCUT)%Z -> W = (2 ^ 492)%Z /\ Rabs (IZR W - SR * cos (IZR V / SR)) <= IZR (2 ^ 255))
  /\ ((CCUT < Z.abs V)%Z -> Rabs (IZR W - SR * cos (IZR V / SR)) <= IZR (2 ^ 203)).
Proof.
  intros HV. unfold approx_cos. rewrite fp_iabs_ok by (unfold BND in HV; lia). rewrite <- fpz_pos by (unfold BND in HV; lia).
  rewrite CCUT_ok, fp_le_ok by (unfold BND, CCUT in *; lia). destruct (arg_ok V HV) as [Hx Hx1]. pose proof SR_pos as HS.
  destruct (Z.leb_spec (Z.abs V) CCUT) as [L|L].
  - exists (2 ^ 492)%Z. rewrite FP_ONE_ok. split; [reflexivity|]. split; [|lia]. intros _. split; [reflexivity|]. fold SR.
    replace (SR - SR * cos (IZR V / SR)) with (SR * (1 - cos (IZR V / SR))) by ring. rewrite Rabs_mult, (Rabs_pos_eq SR) by lra.
    apply Rle_trans with (SR * (IZR V / SR * (IZR V / SR) / 2)); [apply Rmult_le_compat_l; [lra|apply cos_small]|].
    replace (SR * (IZR V / SR * (IZR V / SR) / 2)) with (IZR V * IZR V * / (2 * SR)) by (field; lra).
    apply Rmult_le_reg_r with (2 * SR); [lra|]. rewrite Rmult_assoc, Rinv_l, Rmult_1_r by lra. unfold SR. rewrite <- !mult_IZR. apply IZR_le.
    rewrite <- (Z.abs_square V). apply Z.le_trans with (CCUT * CCUT)%Z; [apply Z.mul_le_mono_nonneg; lia|apply Z.leb_le; vm_compute; reflexivity].
  - destruct (square_ok V HV) as (X & -> & HX & HX2). rewrite bind_Some.
    set (x := IZR V / SR) in *. assert (Hz : 0 <= x * x <= 63 / 100). { clear - Hx. apply rabs_inv in Hx. split; nra. }
    destruct (poly_ok 0 X (x * x) 32 COS_COEFFS HX Hz HX2 cos_coeffs_ok) as (r & -> & R1 & R2). exists r. split; [reflexivity|]. split; [lia|]. intros _.
    pose proof (cos_taylor x ltac:(lra)) as T. rewrite cos_sum in R2.
    assert (E3 : Rabs (SR * (cos_approx x 32 - cos x)) <= SR * / IZR (2 ^ 290)) by (rewrite Rabs_mult, (Rabs_pos_eq SR) by lra; apply Rmult_le_compat_l; lra).
    assert (A : SR * / IZR (2 ^ 290) = IZR (2 ^ 202)).
    { unfold SR. change (2 ^ 492)%Z with (2 ^ 202 * 2 ^ 290)%Z. rewrite mult_IZR. field. apply IZR_neq. discriminate. }
    assert (A2 : 14 + IZR (2 ^ 202) <= IZR (2 ^ 203)) by (rewrite <- plus_IZR; apply IZR_le; apply Z.leb_le; reflexivity).
    replace (IZR r - SR * cos x) with ((IZR r - SR * cos_approx x 32) + SR * (cos_approx x 32 - cos x)) by ring.
    apply rabs_inv in R2, E3. apply Rabs_le. lra.
Qed.

End Ap.

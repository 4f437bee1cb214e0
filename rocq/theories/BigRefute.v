(** * BigRefute: inputs on which the operations of src/math/big_float.rs miss the nearest number *)

From Coq Require Import ZArith Reals Lia Lra Bool.
From Flocq Require Import Core.
From Verif Require Import Base BigUInt BigExtra ZLemmas Spec SpecFlocq F256 F256Lemmas SpecBig BigFloat BigFloatProofs BigReal.
Open Scope Z_scope.

Lemma bval_pow s e : bval s e (2 ^ 254) = (IZR s * bpow radix2 e)%R.
Proof. unfold bval. rewrite mult_IZR, IZR_pow2, Rmult_assoc, <- bpow_plus by lia. do 2 f_equal. lia. Qed.

Lemma unit_eq : (IZR (2 ^ 254) * bpow radix2 (-254) = 1)%R.
Proof. rewrite IZR_pow2, <- bpow_plus by lia. reflexivity. Qed.

(** [m] plays the part of 2^254, so that no tactic sees the number. *)
Lemma bval0 m k : bval 1 0 (m + k) = ((IZR m + IZR k) * bpow radix2 (-254))%R.
Proof. unfold bval. rewrite Z.mul_1_l, plus_IZR. reflexivity. Qed.

Lemma rnd_neq v e m n : 2 ^ 254 < m < 2 ^ 255 ->
  (IZR (2 * m - 1) < bpow radix2 (255 - e) * v < IZR (2 * m + 1))%R -> n <> m -> bval 1 e n <> rnd255 v.
Proof.
  intros H B N E. rewrite (rnd_near v e m H B) in E. unfold bval in E. apply Rmult_eq_reg_r in E. apply eq_IZR in E. lia.
  pose proof (bpow_gt_0 radix2 (e - 254)). lra.
Qed.

Section Refute.
Context {P : profile}.

Lemma n_BF s e m : (s = 1 \/ s = -1) -> 2 ^ 254 <= m < 2 ^ 255 -> bf_normal (BF s e (of256 m)).
Proof. intros. apply normal_BF. split; auto. Qed.

Lemma mul_refuted : exists x y z, bf_normal x /\ bf_normal y /\ bf_exp x = 0 /\ bf_exp y = 0
  /\ bf_mul x y = Some z /\ bfv z = 1%R /\ rnd255 (bfv x * bfv y) = 2%R.
Proof.
  exists (BF 1 0 (of256 (2 ^ 254 + 1))), (BF 1 0 (of256 (2 ^ 255 - 2))), (BF 1 0 (of256 (2 ^ 254))).
  split; [apply n_BF; [auto|lia]|]. split; [apply n_BF; [auto|lia]|]. split; [reflexivity|]. split; [reflexivity|].
  assert (E : bf_mul (BF 1 0 (of256 (2 ^ 254 + 1))) (BF 1 0 (of256 (2 ^ 255 - 2))) = Some (BF 1 0 (of256 (2 ^ 254)))) by (destruct P; vm_compute; reflexivity).
  split; [exact E|].
  assert (V : bfv (BF 1 0 (of256 (2 ^ 254))) = 1%R) by (rewrite bfv_BF, bval_pow; cbn [bpow]; ring).
  split; [exact V|].
  destruct (R_mul (BF 1 0 (of256 (2 ^ 254 + 1))) (BF 1 0 (of256 (2 ^ 255 - 2)))) as (z & EZ & _ & _ & _ & _ & C).
  apply n_BF; [auto|lia]. apply n_BF; [auto|lia]. unfold exp30; cbn [bf_exp]; lia. unfold exp30; cbn [bf_exp]; lia.
  rewrite E in EZ. assert (Z' : z = BF 1 0 (of256 (2 ^ 254))) by congruence. subst z.
  rewrite V in C. cbn [bf_signif] in C. rewrite !v256_of in C. specialize (C ltac:(unfold mul_carry; lia)). lra.
Qed.

Lemma add_trunc_refuted : exists x y z, bf_normal x /\ bf_normal y /\ bf_signum x = 1 /\ bf_signum y = 1
  /\ bf_add x y = Some z /\ bfv z <> rnd255 (bfv x + bfv y).
Proof.
  exists (BF 1 0 (of256 (2 ^ 254))), (BF 1 (-254) (of256 (2 ^ 255 - 1))), (BF 1 0 (of256 (2 ^ 254 + 1))).
  split; [apply n_BF; [auto|lia]|]. split; [apply n_BF; [auto|lia]|]. split; [reflexivity|]. split; [reflexivity|].
  split; [destruct P; vm_compute; reflexivity|]. rewrite !bfv_BF. apply (rnd_neq _ 0 (2 ^ 254 + 2)); [lia| |lia].
  rewrite bval_pow. cbn [bpow]. unfold bval. rewrite Z.mul_1_l. change (-254 - 254) with (-254 + -254). rewrite bpow_plus.
  replace (255 - 0) with (1 + 254) by lia. rewrite (bpow_plus radix2 1 254). change (bpow radix2 1) with 2%R. rewrite <- (IZR_pow2 254) by lia.
  pose proof unit_eq as U. set (u := bpow radix2 (-254)) in *. assert (U0 : (0 < u)%R) by apply bpow_gt_0. clearbody u.
  replace (2 ^ 255) with (2 * 2 ^ 254) by lia. assert (T : 4 <= 2 ^ 254) by lia. set (t := 2 ^ 254) in *. clearbody t. apply IZR_le in T.
  rewrite !minus_IZR, !plus_IZR, !mult_IZR, !plus_IZR.
  assert (UU : (u <= / 4)%R). { apply (Rmult_le_reg_l 4); [lra|]. rewrite Rinv_r by lra. rewrite <- U. apply Rmult_le_compat_r; lra. }
  set (T' := IZR t) in *. clearbody T'.
  replace (2 * T' * (1 * 1 + (2 * T' - 1) * (u * u)))%R with (2 * T' + 4 * (T' * u) * (T' * u) - 2 * (T' * u) * u)%R by ring. rewrite U. lra.
Qed.

Lemma add_diff_refuted : exists x y z, bf_normal x /\ bf_normal y /\ bf_signum x = 1 /\ bf_signum y = -1
  /\ bf_add x y = Some z /\ bfv z = (2 * (bfv x + bfv y))%R /\ (0 < bfv x + bfv y)%R.
Proof.
  exists (BF 1 1 (of256 (2 ^ 254))), (BF (-1) 0 (of256 (2 ^ 255 - 1))), (BF 1 (-253) (of256 (2 ^ 254))).
  split; [apply n_BF; [auto|lia]|]. split; [apply n_BF; [auto|lia]|]. split; [reflexivity|]. split; [reflexivity|].
  split; [destruct P; vm_compute; reflexivity|]. rewrite !bfv_BF, !bval_pow. unfold bval. change (0 - 254) with (-254). change (-253) with (1 + -254).
  rewrite bpow_plus. change (bpow radix2 1) with 2%R. replace (-1 * (2 ^ 255 - 1)) with (1 - 2 * 2 ^ 254) by lia. rewrite minus_IZR, mult_IZR.
  pose proof unit_eq as U. set (u := bpow radix2 (-254)) in *. assert (U0 : (0 < u)%R) by apply bpow_gt_0. clearbody u.
  set (T' := IZR (2 ^ 254)) in *. clearbody T'. replace ((1 - 2 * T') * u)%R with (u - 2 * (T' * u))%R by ring. rewrite U. split; lra.
Qed.

Lemma add_zero_refuted : exists x, bf_normal x /\ bf_add x BF_ZERO = Some BF_ZERO.
Proof. exists (BF 1 (-255) (of256 (2 ^ 254))). split; [apply n_BF; [auto|lia]|]. destruct P; vm_compute; reflexivity. Qed.

Lemma div_refuted : exists x y z, bf_normal x /\ bf_normal y /\ bfv x = 1%R /\ bfv y = (3 / 2)%R
  /\ bf_div x y = Some z /\ bfv z <> rnd255 (bfv x / bfv y).
Proof.
  exists (BF 1 0 (of256 (2 ^ 254))), (BF 1 0 (of256 (3 * 2 ^ 253))), (BF 1 (-1) (of256 ((2 ^ 256 - 1) / 3 + 1))).
  split; [apply n_BF; [auto|lia]|]. split; [apply n_BF; [auto|lia]|].
  assert (V : bfv (BF 1 0 (of256 (2 ^ 254))) = 1%R) by (rewrite bfv_BF, bval_pow; cbn [bpow]; ring).
  assert (W : bfv (BF 1 0 (of256 (3 * 2 ^ 253))) = (3 / 2)%R).
  { rewrite bfv_BF. unfold bval. rewrite Z.mul_1_l, mult_IZR, IZR_pow2, Rmult_assoc, <- bpow_plus by lia. change (bpow radix2 (253 + (0 - 254))) with (/ 2)%R. reflexivity. }
  split; [exact V|]. split; [exact W|]. split; [destruct P; vm_compute; reflexivity|].
  rewrite V, W, bfv_BF. apply (rnd_neq _ (-1) ((2 ^ 256 - 1) / 3)); [split; reflexivity| |].
  2:{ intros E. vm_compute in E. discriminate E. }
  replace (255 - -1) with 256 by lia. rewrite <- IZR_pow2 by lia.
  assert (D : 2 ^ 256 = 3 * ((2 ^ 256 - 1) / 3) + 1) by reflexivity. set (q := (2 ^ 256 - 1) / 3) in *. clearbody q. rewrite D.
  rewrite minus_IZR, !plus_IZR, !mult_IZR. split; lra.
Qed.

Lemma to_refuted : exists x, bf_normal x /\ f256_of_bf x = Some ZERO
  /\ spec_of_big (bf_signum x) (bf_exp x) (v256 (bf_signif x)) = 1.
Proof.
  exists (BF 1 (-262379) (of256 (2 ^ 254 + 1))). split; [apply n_BF; [auto|lia]|]. split; [destruct P; vm_compute; reflexivity|].
  cbn [bf_signum bf_exp bf_signif]. rewrite v256_of. vm_compute. reflexivity.
Qed.

Lemma cmp_refuted : exists x y, bf_normal x /\ bf_normal y /\ bfv x = (-1)%R /\ bfv y = (-2)%R /\ bf_cmp x y = Lt.
Proof.
  exists (BF (-1) 0 (of256 (2 ^ 254))), (BF (-1) 1 (of256 (2 ^ 254))). split; [apply n_BF; [auto|lia]|]. split; [apply n_BF; [auto|lia]|].
  split. rewrite bfv_BF, bval_pow. cbn [bpow]. ring. split. rewrite bfv_BF, bval_pow. change (bpow radix2 1) with 2%R. ring. reflexivity.
Qed.

Lemma trunc_refuted : exists x z, bf_normal x /\ bfv x = (1 / 2)%R /\ bf_trunc x = Some z /\ bf_is_zero z = false /\ bfv z = 0%R.
Proof.
  exists (BF 1 (-1) (of256 (2 ^ 254))), (BF 1 (-1) (of256 0)). split; [apply n_BF; [auto|lia]|].
  split. rewrite bfv_BF, bval_pow. change (bpow radix2 (-1)) with (/ 2)%R. lra.
  split; [destruct P; vm_compute; reflexivity|]. split; [reflexivity|]. rewrite bfv_BF. unfold bval. rewrite Z.mul_0_r. ring.
Qed.

Lemma trunc_debug : exists x, bf_normal x /\ bfv x = (1 / 4)%R /\ @bf_trunc true x = None.
Proof.
  exists (BF 1 (-2) (of256 (2 ^ 254))). split; [apply n_BF; [auto|lia]|].
  split. rewrite bfv_BF, bval_pow. change (bpow radix2 (-2)) with (/ 4)%R. lra. destruct P; vm_compute; reflexivity.
Qed.

(** ** Multiply and add *)

Lemma mul_add_round_refuted : exists x f a z, bf_normal x /\ bf_normal f /\ bf_normal a
  /\ bf_exp x = 0 /\ bf_exp f = 0 /\ bf_exp a = 0 /\ bf_signum x = 1 /\ bf_signum f = 1 /\ bf_signum a = 1
  /\ bf_mul_add x f a = Some z /\ bfv z <> rnd255 (bfv x * bfv f + bfv a).
Proof.
  set (x := 2 ^ 254 + 1). set (f := 2 ^ 254 + 3 * 2 ^ 252). set (a := 2 ^ 255 - 1).
  set (q := (x * f / 2 ^ 254 + a) / 2).
  exists (BF 1 0 (of256 x)), (BF 1 0 (of256 f)), (BF 1 0 (of256 a)), (BF 1 1 (of256 (q + 1))).
  split; [apply n_BF; [auto|unfold x; lia]|]. split; [apply n_BF; [auto|unfold f; lia]|]. split; [apply n_BF; [auto|unfold a; lia]|].
  do 6 (split; [reflexivity|]). split; [destruct P; vm_compute; reflexivity|]. rewrite !bfv_BF.
  apply (rnd_neq _ 1 q); [split; reflexivity| |lia].
  assert (C : (2 * q - 1) * 2 ^ 254 < x * f + a * 2 ^ 254 < (2 * q + 1) * 2 ^ 254) by (split; reflexivity).
  unfold bval. clearbody x f a q. rewrite !Z.mul_1_l. change (0 - 254) with (-254). replace (255 - 1) with 254 by lia. rewrite <- (IZR_pow2 254) by lia.
  destruct C as [C1 C2]. apply IZR_lt in C1, C2. rewrite (plus_IZR (x * f)), (mult_IZR (2 * q - 1)), (mult_IZR a), (mult_IZR x f) in C1. rewrite (plus_IZR (x * f)), (mult_IZR (2 * q + 1)), (mult_IZR a), (mult_IZR x f) in C2.
  pose proof unit_eq as U. set (u := bpow radix2 (-254)) in *. assert (U0 : (0 < u)%R) by apply bpow_gt_0. clearbody u.
  set (lo := IZR (2 * q - 1)) in *. 
  set (hi := IZR (2 * q + 1)) in *. set (X := IZR x) in *. set (F := IZR f) in *. set (A := IZR a) in *. set (T := IZR (2 ^ 254)) in *. clearbody lo hi X F A T.
  replace (T * (X * u * (F * u) + A * u))%R with ((T * u) * (X * F * u + A))%R by ring. rewrite U, Rmult_1_l.
  split; (apply (Rmult_lt_reg_r T); [destruct (Rle_or_lt T 0) as [L|L]; [exfalso; pose proof (Rmult_le_compat_r u T 0 (Rlt_le _ _ U0) L); lra|exact L]|]).
  replace ((X * F * u + A) * T)%R with (X * F * (T * u) + A * T)%R by ring. rewrite U. lra.
  replace ((X * F * u + A) * T)%R with (X * F * (T * u) + A * T)%R by ring. rewrite U. lra.
Qed.

Lemma mul_add_norm_refuted : exists x f a z, bf_normal x /\ bf_normal f /\ bf_normal a
  /\ bf_exp x = 0 /\ bf_exp f = 0 /\ bf_exp a = -400
  /\ bf_mul_add x f a = Some z /\ v256 (bf_signif z) = 2 ^ 255.
Proof.
  exists (BF 1 0 (of256 (2 ^ 254))), (BF 1 0 (of256 (2 ^ 254))), (BF (-1) (-400) (of256 (2 ^ 254))), (BF 1 (-1) (of256 (2 ^ 255))).
  split; [apply n_BF; [auto|lia]|]. split; [apply n_BF; [auto|lia]|]. split; [apply n_BF; [auto|lia]|].
  do 3 (split; [reflexivity|]). split; [destruct P; vm_compute; reflexivity|]. cbn [bf_signif]. rewrite v256_of; reflexivity.
Qed.

Lemma mul_add_zero x f a : (bf_is_zero x || bf_is_zero f = true -> bf_mul_add x f a = Some a)
  /\ (bf_is_zero x || bf_is_zero f = false -> bf_is_zero a = true -> bf_mul_add x f a = bf_mul x f).
Proof. unfold bf_mul_add. split. intros ->. reflexivity. intros -> ->. reflexivity. Qed.

End Refute.

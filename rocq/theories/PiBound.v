(** A certified enclosure of pi, from the Machin-like series of the standard library,
    [PI / 4 = 2 atan (1/3) + atan (1/7)], summed in fixed point with [2 ^ K] steps.
    Used to relate the constants in [to_degrees] and [to_radians] to pi. *)
From Coq Require Import ZArith Lia Reals Lra Machin.
Open Scope Z_scope.

Definition K := 320.

(** floor of the n-th term times [2 ^ K], less rounding *)
Definition term (n : nat) : Z :=
  let m := 2 * Z.of_nat n + 1 in
  2 * 2 ^ K / (m * 3 ^ m) + 2 ^ K / (m * 7 ^ m).

Fixpoint plo (n : nat) : Z :=
  match n with
  | O => term 0
  | S k => if Nat.even n then plo k + term n else plo k - term n - 2
  end.

Definition phi (n : nat) : Z := plo n + 2 * Z.of_nat (S n).

Open Scope R_scope.

Lemma div_floor a b : (0 < b)%Z -> IZR (a / b) <= IZR a / IZR b <= IZR (a / b) + 1.
Proof.
  intros Hb. pose proof (Z.div_mod a b ltac:(lia)) as D. pose proof (Z.mod_pos_bound a b Hb) as M.
  assert (B : 0 < IZR b) by (apply IZR_lt; lia).
  assert (E : IZR a = IZR b * IZR (a / b) + IZR (a mod b)).
  { rewrite <- mult_IZR, <- plus_IZR. f_equal. exact D. }
  assert (0 <= IZR (a mod b) <= IZR b) by (split; apply IZR_le; lia).
  split.
  - apply Rmult_le_reg_r with (IZR b); auto. unfold Rdiv. rewrite Rmult_assoc, Rinv_l by lra. lra.
  - apply Rmult_le_reg_r with (IZR b); auto. unfold Rdiv. rewrite Rmult_assoc, Rinv_l by lra. lra.
Qed.

Lemma pow_inv_IZR (c : Z) n : (0 < c)%Z -> (/ IZR c) ^ n = / IZR (c ^ Z.of_nat n).
Proof.
  intros Hc. rewrite pow_inv. f_equal. apply pow_IZR.
Qed.

Lemma term_ok n : IZR (term n) <= IZR (2 ^ K) * PI_2_3_7_tg n <= IZR (term n) + 2.
Proof.
  unfold term, PI_2_3_7_tg, Ratan_seq. generalize (2 ^ K)%Z. intros W.
  set (m := (2 * Z.of_nat n + 1)%Z). assert (Hm : (0 < m)%Z) by (subst m; lia).
  assert (EN : Z.of_nat (2 * n + 1) = m) by (subst m; lia).
  assert (EI : INR (2 * n + 1) = IZR m) by (rewrite INR_IZR_INZ; f_equal; exact EN).
  rewrite EI, !pow_inv_IZR, EN by lia. clearbody m. clear EN EI.
  assert (H3 : (0 < 3 ^ m)%Z) by (apply Z.pow_pos_nonneg; lia).
  assert (H7 : (0 < 7 ^ m)%Z) by (apply Z.pow_pos_nonneg; lia).
  pose proof (div_floor (2 * W) (m * 3 ^ m) ltac:(lia)) as A.
  pose proof (div_floor W (m * 7 ^ m) ltac:(lia)) as B.
  rewrite plus_IZR.
  replace (IZR W * (2 * (/ IZR (3 ^ m) / IZR m) + / IZR (7 ^ m) / IZR m))
    with (IZR (2 * W) / IZR (m * 3 ^ m) + IZR W / IZR (m * 7 ^ m)).
  - lra.
  - rewrite !mult_IZR. apply IZR_lt in Hm, H3, H7. field. lra.
Qed.

Lemma partial_ok n :
  IZR (plo n) <= IZR (2 ^ K) * sum_f_R0 (tg_alt PI_2_3_7_tg) n <= IZR (phi n).
Proof.
  unfold phi. induction n as [|n IH].
  - cbn [sum_f_R0 plo]. unfold tg_alt. rewrite pow_O, Rmult_1_l. pose proof (term_ok 0) as T.
    rewrite plus_IZR. change (IZR (2 * Z.of_nat 1)) with 2. lra.
  - cbn [sum_f_R0]. rewrite Rmult_plus_distr_l.
    pose proof (term_ok (S n)) as T. unfold tg_alt at 2 4.
    assert (C : IZR (2 * Z.of_nat (S (S n))) = IZR (2 * Z.of_nat (S n)) + 2).
    { rewrite <- plus_IZR. f_equal. lia. }
    rewrite plus_IZR in IH. rewrite plus_IZR, C. clear C.
    cbn [plo]. destruct (Nat.even (S n)) eqn:E.
    + apply Nat.even_spec in E. destruct E as [k E].
      replace ((-1) ^ S n) with 1 by (rewrite E, pow_1_even; reflexivity).
      rewrite plus_IZR. lra.
    + assert (E' : Nat.odd (S n) = true) by (unfold Nat.odd; rewrite E; reflexivity).
      apply Nat.odd_spec in E'. destruct E' as [k E'].
      replace ((-1) ^ S n) with (-1) by (rewrite E', Nat.add_1_r, pow_1_odd; reflexivity).
      rewrite !minus_IZR. lra.
Qed.

(** [PILO <= 2 ^ 318 * pi <= PIHI], a hull of width about [2 ^ 50] *)
Definition PILO : Z :=
  Eval vm_compute in plo 85.
Definition PIHI : Z :=
  Eval vm_compute in phi 84.

Lemma pi_bounds : IZR PILO <= IZR (2 ^ 318) * PI <= IZR PIHI.
Proof.
  pose proof (PI_2_3_7_ineq 42) as [A B].
  change (S (2 * 42)) with 85%nat in A. change (2 * 42)%nat with 84%nat in B.
  pose proof (partial_ok 85) as [P _]. pose proof (partial_ok 84) as [_ Q].
  replace (plo 85) with PILO in P by (vm_compute; reflexivity).
  replace (phi 84) with PIHI in Q by (vm_compute; reflexivity).
  assert (EK : IZR (2 ^ K) = 4 * IZR (2 ^ 318)).
  { rewrite <- mult_IZR. reflexivity. }
  rewrite EK in P, Q. assert (W : 0 < IZR (2 ^ 318)) by (apply IZR_lt; reflexivity).
  revert A B P Q W. generalize (sum_f_R0 (tg_alt PI_2_3_7_tg) 85) (sum_f_R0 (tg_alt PI_2_3_7_tg) 84).
  generalize (IZR (2 ^ 318)) (IZR PILO) (IZR PIHI) PI. clear. intros W p q pi a b A B P Q HW.
  split.
  - eapply Rle_trans; [exact P|]. apply (Rmult_le_compat_l (4 * W)) in A; lra.
  - eapply Rle_trans; [|exact Q]. apply (Rmult_le_compat_l (4 * W)) in B; lra.
Qed.

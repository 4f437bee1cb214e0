(** * TrigPi: an enclosure of pi with more than 500 bits

    As in PiBound, with a finer step; used to relate the constants of the argument reduction to pi. *)
From Coq Require Import ZArith Lia Reals Lra Machin.
From Verif Require Import PiBound.
Open Scope Z_scope.

Definition K := 520.

Definition term (n : nat) : Z :=
  let m := 2 * Z.of_nat n + 1 in
  2 * 2 ^ K / (m * 3 ^ m) + 2 ^ K / (m * 7 ^ m).

Fixpoint plo (n : nat) : Z :=
  match n with
  | O => term 0
  | S k => if Nat.even n then plo k + term n else plo k - term n - 2
  end.

Definition phi (n : nat) : Z := plo n + 2 * Z.of_nat (S n).

Open Scope R_scope.

Lemma term_ok n : IZR (term n) <= IZR (2 ^ K) * PI_2_3_7_tg n <= IZR (term n) + 2.
Proof.
  unfold term, PI_2_3_7_tg, Ratan_seq. generalize (2 ^ K)%Z. intros W.
  set (m := (2 * Z.of_nat n + 1)%Z). assert (Hm : (0 < m)%Z) by (subst m; lia).
  assert (EN : Z.of_nat (2 * n + 1) = m) by (subst m; lia).
  assert (EI : INR (2 * n + 1) = IZR m) by (rewrite INR_IZR_INZ; f_equal; exact EN).
  rewrite EI, !pow_inv_IZR, EN by lia. clearbody m. clear EN EI.
  assert (H3 : (0 < 3 ^ m)%Z) by (apply Z.pow_pos_nonneg; lia).
  assert (H7 : (0 < 7 ^ m)%Z) by (apply Z.pow_pos_nonneg; lia).
  pose proof (div_floor (2 * W) (m * 3 ^ m) ltac:(lia)) as A.
  pose proof (div_floor W (m * 7 ^ m) ltac:(lia)) as B.
  rewrite plus_IZR.
  replace (IZR W * (2 * (/ IZR (3 ^ m) / IZR m) + / IZR (7 ^ m) / IZR m))
    with (IZR (2 * W) / IZR (m * 3 ^ m) + IZR W / IZR (m * 7 ^ m)).
  - lra.
  - rewrite !mult_IZR. apply IZR_lt in Hm, H3, H7. field. lra.
Qed.

Lemma partial_ok n :
  IZR (plo n) <= IZR (2 ^ K) * sum_f_R0 (tg_alt PI_2_3_7_tg) n <= IZR (phi n).
Proof.
  unfold phi. induction n as [|n IH].
  - cbn [sum_f_R0 plo]. unfold tg_alt. rewrite pow_O, Rmult_1_l. pose proof (term_ok 0) as T.
    rewrite plus_IZR. change (IZR (2 * Z.of_nat 1)) with 2. lra.
  - cbn [sum_f_R0]. rewrite Rmult_plus_distr_l.
    pose proof (term_ok (S n)) as T. unfold tg_alt at 2 4.
    assert (C : IZR (2 * Z.of_nat (S (S n))) = IZR (2 * Z.of_nat (S n)) + 2).
    { rewrite <- plus_IZR. f_equal. lia. }
    rewrite plus_IZR in IH. rewrite plus_IZR, C. clear C.
    cbn [plo]. destruct (Nat.even (S n)) eqn:E.
    + apply Nat.even_spec in E. destruct E as [k E].
      replace ((-1) ^ S n) with 1 by (rewrite E, pow_1_even; reflexivity).
      rewrite plus_IZR. lra.
    + assert (E' : Nat.odd (S n) = true) by (unfold Nat.odd; rewrite E; reflexivity).
      apply Nat.odd_spec in E'. destruct E' as [k E'].
      replace ((-1) ^ S n) with (-1) by (rewrite E', Nat.add_1_r, pow_1_odd; reflexivity).
      rewrite !minus_IZR. lra.
Qed.


Definition PILO : Z := Eval vm_compute in plo 161.
Definition PIHI : Z := Eval vm_compute in PILO + term 161 + 2 + 322.

Lemma plo_odd k : Nat.even (S k) = false -> plo k = (plo (S k) + term (S k) + 2)%Z.
Proof. intros H. cbn [plo]. rewrite H. ring. Qed.

Lemma plo_161 : plo 161 = PILO. Proof. vm_compute. reflexivity. Qed.
Lemma phi_160 : phi 160 = PIHI.
Proof.
  assert (E : (PILO + term 161 + 2 + 2 * Z.of_nat 161)%Z = PIHI) by (vm_compute; reflexivity). rewrite <- E, <- plo_161.
  unfold phi. rewrite (plo_odd 160 eq_refl). reflexivity.
Qed.

Lemma pi_bounds : IZR PILO <= IZR (2 ^ 518) * PI <= IZR PIHI.
Proof.
  pose proof (PI_2_3_7_ineq 80) as [A B].
  change (S (2 * 80)) with 161%nat in A. change (2 * 80)%nat with 160%nat in B.
  pose proof (partial_ok 161) as [P _]. pose proof (partial_ok 160) as [_ Q].
  rewrite plo_161 in P. rewrite phi_160 in Q.
  assert (EK : IZR (2 ^ K) = 4 * IZR (2 ^ 518)).
  { rewrite <- mult_IZR. reflexivity. }
  rewrite EK in P, Q. assert (W : 0 < IZR (2 ^ 518)) by (apply IZR_lt; reflexivity).
  revert A B P Q W. generalize (sum_f_R0 (tg_alt PI_2_3_7_tg) 161) (sum_f_R0 (tg_alt PI_2_3_7_tg) 160).
  generalize (IZR (2 ^ 518)) (IZR PILO) (IZR PIHI) PI. clear. intros W p q pi a b A B P Q HW.
  split.
  - eapply Rle_trans; [exact P|]. apply (Rmult_le_compat_l (4 * W)) in A; lra.
  - eapply Rle_trans; [|exact Q]. apply (Rmult_le_compat_l (4 * W)) in B; lra.
Qed.

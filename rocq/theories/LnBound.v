(** * LnBound: rational bounds for the logarithms of 1 + 1/d, from the alternating series *)

From Coq Require Import ZArith Lia Bool Reals Lra List.
From Verif Require Import ZLemmas LogTable LogProofs.
Open Scope R_scope.

Lemma rabs_inv x b : Rabs x <= b -> - b <= x <= b.
Proof. unfold Rabs. destruct (Rcase_abs x); lra. Qed.

(** h - h^2/2 + h^3/3 - ..., J terms *)
Fixpoint ser (J : nat) (h : R) : R :=
  match J with
  | O => 0
  | S k => ser k h + (-1) ^ k / INR (S k) * h ^ (S k)
  end.
Fixpoint geo (J : nat) (h : R) : R :=
  match J with
  | O => 0
  | S k => geo k h + (-1) ^ k * h ^ k
  end.

Lemma geo_sum J h : (1 + h) * geo J h = 1 - (-1) ^ J * h ^ J.
Proof. induction J as [|k IH]; cbn [geo]; [ring|]. rewrite Rmult_plus_distr_l, IH. cbn [pow]. ring. Qed.

Lemma ser_derive J h : derivable_pt_lim (ser J) h (geo J h).
Proof.
  induction J as [|k IH].
  - exact (derivable_pt_lim_const 0 h).
  - change (ser (S k)) with (fun x => ser k x + (-1) ^ k / INR (S k) * x ^ (S k))%R. cbn [geo].
    apply (derivable_pt_lim_plus (ser k) (fun x => (-1) ^ k / INR (S k) * x ^ (S k))); [exact IH|].
    replace ((-1) ^ k * h ^ k) with ((-1) ^ k / INR (S k) * (INR (S k) * h ^ Init.Nat.pred (S k))).
    + apply (derivable_pt_lim_scal (fun x => x ^ S k)). apply derivable_pt_lim_pow.
    + cbn [Init.Nat.pred]. field. apply not_0_INR. discriminate.
Qed.

Lemma ln1_derive h : 0 <= h -> derivable_pt_lim (fun x => ln (1 + x)) h (/ (1 + h)).
Proof.
  intros Hh. replace (/ (1 + h)) with (/ (1 + h) * (0 + 1)) by ring.
  apply (derivable_pt_lim_comp (fun x => 1 + x) ln).
  - apply derivable_pt_lim_plus. apply derivable_pt_lim_const. apply derivable_pt_lim_id.
  - apply derivable_pt_lim_ln. lra.
Qed.

Lemma ser_ln J h : 0 < h -> Rabs (ln (1 + h) - ser J h) <= h ^ S J.
Proof.
  intros Hh.
  destruct (MVT_cor2 (fun x => ln (1 + x) - ser J x) (fun x => / (1 + x) - geo J x) 0 h Hh) as (c & Hc & Hc0 & Hc1).
  { intros c Hc. apply (derivable_pt_lim_minus (fun x => ln (1 + x)) (ser J)). apply ln1_derive; lra. apply ser_derive. }
  cbv beta in Hc. rewrite Rplus_0_r, ln_1 in Hc.
  assert (Z0 : ser J 0 = 0).
  { clear. induction J as [|k IH]; cbn [ser]; [auto|]. rewrite IH. cbn [pow]. ring. }
  rewrite Z0 in Hc. rewrite !Rminus_0_r in Hc. rewrite Hc. clear Hc.
  replace (/ (1 + c) - geo J c) with ((-1) ^ J * (c ^ J * / (1 + c))).
  2: { apply (Rmult_eq_reg_l (1 + c)); [|lra]. rewrite Rmult_minus_distr_l, geo_sum. field. lra. }
  rewrite !Rabs_mult, <- RPow_abs. replace (Rabs (-1)) with 1 by (rewrite Rabs_left; lra). rewrite pow1, Rmult_1_l.
  rewrite (Rabs_pos_eq h) by lra. cbn [pow]. rewrite (Rmult_comm h).
  apply Rmult_le_compat_r; [lra|].
  rewrite Rabs_pos_eq by (apply pow_le; lra). rewrite Rabs_pos_eq by (apply Rlt_le, Rinv_0_lt_compat; lra).
  apply Rle_trans with (c ^ J * 1).
  - apply Rmult_le_compat_l. apply pow_le; lra. rewrite <- Rinv_1. apply Rinv_le_contravar; lra.
  - rewrite Rmult_1_r. apply pow_incr. lra.
Qed.

(** The same sum with integers, each term cut off *)
Fixpoint serZ (W d : Z) (j : Z) (dj : Z) (sgn : bool) (J : nat) : Z :=
  match J with
  | O => 0
  | S k => ((if sgn then - (W / (j * dj)) else W / (j * dj)) + serZ W d (j + 1) (dj * d) (negb sgn) k)%Z
  end.

(** The rest of the series from term j on *)
Fixpoint tail (j : Z) (dj : R) (h : R) (sgn : bool) (J : nat) : R :=
  match J with
  | O => 0
  | S k => (if sgn then - (dj / IZR j) else dj / IZR j) + tail (j + 1) (dj * h) h (negb sgn) k
  end.

Lemma serZ_tail W d : (0 < d)%Z -> (0 <= W)%Z -> forall J j dj sgn, (0 < j)%Z -> (0 < dj)%Z ->
  Rabs (IZR W * tail j (/ IZR dj) (/ IZR d) sgn J - IZR (serZ W d j dj sgn J)) <= INR J.
Proof.
  intros Hd HW. induction J as [|k IH]; intros j dj sgn Hj Hdj.
  - cbn [tail serZ INR]. replace (IZR W * 0 - IZR 0) with 0 by (simpl; ring). rewrite Rabs_R0. lra.
  - cbn [tail serZ]. specialize (IH (j + 1)%Z (dj * d)%Z (negb sgn) ltac:(lia) ltac:(nia)).
    rewrite S_INR. rewrite plus_IZR. rewrite mult_IZR in IH.
    assert (Dj : IZR dj <> 0) by (apply IZR_neq; lia). assert (Dd : IZR d <> 0) by (apply IZR_neq; lia).
    assert (Djj : 0 < IZR j) by (apply IZR_lt; lia).
    rewrite Rinv_mult in IH.
    set (T := tail (j + 1) (/ IZR dj * / IZR d) (/ IZR d) (negb sgn) k) in *.
    set (Z := serZ W d (j + 1) (dj * d) (negb sgn) k) in *.
    assert (Q : Rabs (IZR W * (/ IZR dj / IZR j) - IZR (W / (j * dj))) <= 1).
    { pose proof (Z.div_mod W (j * dj) ltac:(nia)) as D. pose proof (Z.mod_pos_bound W (j * dj) ltac:(nia)) as M.
      set (q := (W / (j * dj))%Z) in *. set (r := (W mod (j * dj))%Z) in *.
      assert (E : IZR W * (/ IZR dj / IZR j) - IZR q = IZR r / (IZR j * IZR dj)).
      { rewrite D, plus_IZR, !mult_IZR. field. split; lra. }
      rewrite E. assert (0 < IZR j * IZR dj) by (rewrite <- mult_IZR; apply IZR_lt; nia).
      destruct M as [M1 M2]. apply IZR_le in M1. apply IZR_lt in M2. rewrite mult_IZR in M2.
      rewrite Rabs_pos_eq. apply Rmult_le_reg_r with (IZR j * IZR dj); auto. unfold Rdiv. rewrite Rmult_assoc, Rinv_l by lra. lra.
      apply Rmult_le_pos; auto. apply Rlt_le, Rinv_0_lt_compat; auto. }
    destruct sgn.
    + rewrite opp_IZR. replace (IZR W * (- (/ IZR dj / IZR j) + T) - (- IZR (W / (j * dj)) + IZR Z))
        with (- (IZR W * (/ IZR dj / IZR j) - IZR (W / (j * dj))) + (IZR W * T - IZR Z)) by ring.
      eapply Rle_trans. apply Rabs_triang. rewrite Rabs_Ropp. lra.
    + replace (IZR W * (/ IZR dj / IZR j + T) - (IZR (W / (j * dj)) + IZR Z))
        with ((IZR W * (/ IZR dj / IZR j) - IZR (W / (j * dj))) + (IZR W * T - IZR Z)) by ring.
      eapply Rle_trans. apply Rabs_triang. lra.
Qed.

(** [tail] from the first term on is [ser]. *)
Lemma tail_snoc h : forall J j dj sgn, (0 < j)%Z ->
  tail j dj h sgn (S J) = tail j dj h sgn J
    + (if sgn then -1 else 1) * (-1) ^ J * (dj * h ^ J) / IZR (j + Z.of_nat J).
Proof.
  induction J as [|k IH]; intros j dj sgn Hj.
  - cbn [tail pow]. rewrite Z.add_0_r. assert (IZR j <> 0) by (apply IZR_neq; lia). destruct sgn; field; auto.
  - cbn [tail] in *. rewrite (IH (j + 1)%Z (dj * h) (negb sgn)) by lia.
    rewrite Nat2Z.inj_succ. replace (j + Z.succ (Z.of_nat k))%Z with (j + 1 + Z.of_nat k)%Z by lia.
    assert (IZR (j + 1 + Z.of_nat k) <> 0) by (apply IZR_neq; lia). assert (IZR j <> 0) by (apply IZR_neq; lia).
    cbn [pow]. destruct sgn; cbn [negb]; field; auto.
Qed.

Lemma tail_ser h J : tail 1 h h false J = ser J h.
Proof.
  induction J as [|k IH]; [reflexivity|]. rewrite tail_snoc by lia. rewrite IH. cbn [ser]. f_equal.
  replace (1 + Z.of_nat k)%Z with (Z.of_nat (S k)) by lia. rewrite <- INR_IZR_INZ. cbn [pow].
  field. apply not_0_INR. discriminate.
Qed.

(** ln (1 + 1/d) to within (J + 1) / W, if d^(J+1) >= W. *)
Lemma ln_bound W d J : (0 < W)%Z -> (0 < d)%Z -> (W <= d ^ Z.of_nat (S J))%Z ->
  Rabs (IZR W * ln (1 + / IZR d) - IZR (serZ W d 1 d false J)) <= INR J + 1.
Proof.
  intros HW Hd HJ.
  pose proof (serZ_tail W d Hd ltac:(lia) J 1 d false ltac:(lia) Hd) as A. rewrite tail_ser in A.
  assert (Pd : 0 < IZR d) by (apply IZR_lt; lia). assert (PW : 0 < IZR W) by (apply IZR_lt; lia).
  pose proof (ser_ln J (/ IZR d) ltac:(apply Rinv_0_lt_compat; auto)) as B.
  set (L := ln (1 + / IZR d)) in *. set (s := ser J (/ IZR d)) in *.
  replace (IZR W * L - IZR (serZ W d 1 d false J)) with (IZR W * (L - s) + (IZR W * s - IZR (serZ W d 1 d false J))) by ring.
  eapply Rle_trans. apply Rabs_triang. rewrite Rabs_mult, (Rabs_pos_eq (IZR W)) by lra.
  assert (C : IZR W * (/ IZR d) ^ S J <= 1).
  { rewrite pow_inv. apply Rmult_le_reg_r with (IZR d ^ S J). apply pow_lt; auto.
    rewrite Rmult_assoc, Rinv_l by (apply pow_nonzero; lra). rewrite Rmult_1_r, Rmult_1_l.
    rewrite pow_IZR. apply IZR_le; auto. }
  apply (Rmult_le_compat_l (IZR W)) in B; lra.
Qed.

(** The table of logarithms: each entry is within 3/4 of 2^492 ln (1 + 2^-n). *)
Definition W520 : Z := 2 ^ 520.
Definition terms (n : Z) : nat := Z.to_nat (520 / n).
Fixpoint ok_ll (n : Z) (l : list Z) : bool :=
  match l with
  | nil => true
  | (x :: r)%list =>
    ((Z.abs (serZ W520 (2 ^ n) 1 (2 ^ n) false (terms n) - x * 2 ^ 28) + Z.of_nat (terms n) + 1 <=? 3 * 2 ^ 26) && ok_ll (n + 1) r)%Z
  end.

(** The same sum from running quotients; [nx] divides by d. *)
Fixpoint serQ (nx : Z -> Z) (j q : Z) (sgn : bool) (J : nat) : Z :=
  match J with
  | O => 0
  | S k => ((if sgn then - (q / j) else q / j) + serQ nx (j + 1) (nx q) (negb sgn) k)%Z
  end.
Lemma serQ_eq nx W d : (0 < d)%Z -> (forall q, nx q = q / d)%Z -> forall J j dj sgn, (0 < j)%Z -> (0 < dj)%Z ->
  serQ nx j (W / dj) sgn J = serZ W d j dj sgn J.
Proof.
  intros Hd Hnx. induction J as [|k IH]; intros j dj sgn Hj Hdj; [reflexivity|].
  cbn [serQ serZ]. rewrite Hnx, !Z.div_div by lia. rewrite (Z.mul_comm dj j), IH by nia. reflexivity.
Qed.
Fixpoint ok_llQ (w p28 p26 n : Z) (l : list Z) : bool :=
  match l with
  | nil => true
  | (x :: r)%list =>
    ((Z.abs (serQ (fun q => Z.shiftr q n) 1 (Z.shiftr w n) false (terms n) - x * p28) + Z.of_nat (terms n) + 1 <=? p26)
     && ok_llQ w p28 p26 (n + 1) r)%Z
  end.
Lemma ok_llQ_eq : forall l n, (0 <= n)%Z -> ok_llQ W520 (2 ^ 28) (3 * 2 ^ 26) n l = ok_ll n l.
Proof.
  induction l as [|x l IH]; intros n Hn; [reflexivity|]. cbn [ok_llQ ok_ll]. rewrite (IH (n + 1)%Z) by lia.
  rewrite (Z.shiftr_div_pow2 W520 n) by lia.
  rewrite (serQ_eq (fun q => Z.shiftr q n) W520 (2 ^ n)) by (intros; try (apply Z.shiftr_div_pow2); try (apply pow2_pos); lia).
  reflexivity.
Qed.
Lemma LL_okQ : ok_llQ W520 (2 ^ 28) (3 * 2 ^ 26) 1 LL = true. Proof. vm_compute. reflexivity. Qed.
Lemma LL_ok : ok_ll 1 LL = true.
Proof. rewrite <- (ok_llQ_eq LL 1) by lia. exact LL_okQ. Qed.

Lemma Rabs_IZR_le a b : (Z.abs a <= b)%Z -> Rabs (IZR a) <= IZR b.
Proof. intros. rewrite <- abs_IZR. apply IZR_le; auto. Qed.

Lemma entry_ok n x : (1 <= n <= 520)%Z ->
  (Z.abs (serZ W520 (2 ^ n) 1 (2 ^ n) false (terms n) - x * 2 ^ 28) + Z.of_nat (terms n) + 1 <= 3 * 2 ^ 26)%Z ->
  Rabs (IZR x - IZR (2 ^ 492) * ln (1 + / IZR (2 ^ n))) <= 3 / 4.
Proof.
  intros Hn H. unfold terms in *. assert (HJ : (0 <= 520 / n)%Z) by (apply Z.div_pos; lia).
  pose proof (ln_bound W520 (2 ^ n) (Z.to_nat (520 / n)) ltac:(reflexivity) ltac:(apply pow2_pos; lia)) as B.
  rewrite Nat2Z.inj_succ, !Z2Nat.id in * by auto.
  assert (C : (W520 <= (2 ^ n) ^ Z.succ (520 / n))%Z).
  { rewrite <- Z.pow_mul_r by lia. unfold W520. apply pow2_le.
    pose proof (Z.div_mod 520 n ltac:(lia)). pose proof (Z.mod_pos_bound 520 n ltac:(lia)). nia. }
  specialize (B C). rewrite INR_IZR_INZ, Z2Nat.id in B by auto.
  set (s := serZ W520 (2 ^ n) 1 (2 ^ n) false (Z.to_nat (520 / n))) in *. set (L := ln (1 + / IZR (2 ^ n))) in *.
  set (J := (520 / n)%Z) in *. clearbody s L J. clear C.
  assert (D : Rabs (IZR (s - x * 2 ^ 28)) <= IZR (3 * 2 ^ 26 - J - 1)) by (apply Rabs_IZR_le; lia).
  rewrite !minus_IZR, !mult_IZR in D.
  replace (IZR W520) with (IZR (2 ^ 492) * IZR (2 ^ 28)) in B by (rewrite <- mult_IZR; reflexivity).
  assert (P28 : IZR (2 ^ 28) = 268435456) by reflexivity. assert (P26 : IZR (2 ^ 26) = 67108864) by reflexivity.
  rewrite P28, P26 in *. set (E := IZR (2 ^ 492)) in *. clearbody E. clear P28 P26 Hn H HJ.
  apply rabs_inv in B. apply rabs_inv in D. apply Rabs_le. lra.
Qed.

Lemma ok_ll_nth : forall l n, ok_ll n l = true -> forall i x, nth_error l i = Some x -> (1 <= n)%Z -> (n + Z.of_nat i <= 520)%Z ->
  Rabs (IZR x - IZR (2 ^ 492) * ln (1 + / IZR (2 ^ (n + Z.of_nat i)))) <= 3 / 4.
Proof.
  induction l as [|y l IH]; intros n H i x Hi Hn Hb; destruct i; try discriminate; cbn [ok_ll] in H; apply andb_true_iff in H as [H1 H2].
  - cbn in Hi. injection Hi as <-. rewrite Z.add_0_r in *. apply entry_ok; [lia|]. apply Z.leb_le; auto.
  - cbn [nth_error] in Hi. rewrite Nat2Z.inj_succ in *. replace (n + Z.succ (Z.of_nat i))%Z with (n + 1 + Z.of_nat i)%Z by lia.
    apply IH; auto; lia.
Qed.

(** ln 2 = ln (1 + 1/2) + ln (1 + 1/3), ln 10 = 3 ln 2 + ln (1 + 1/4) *)
Definition LN2S : Z := 2379157571617020902754416809127188766113442151673620388115458501268061330850067365162911723025283324654295818392819874985900461004435462387143803039076853043.
Lemma LN2S_Q : (serQ Z.div2 1 (W520 / 2) false 520 + serQ (fun q => q / 3) 1 (W520 / 3) false 400)%Z = LN2S.
Proof. vm_compute. reflexivity. Qed.
Lemma LN2S_eq : LN2S = (serZ W520 2 1 2 false 520 + serZ W520 3 1 3 false 400)%Z.
Proof.
  rewrite <- (serQ_eq Z.div2 W520 2) by (intros; try apply Z.div2_div; lia).
  rewrite <- (serQ_eq (fun q => q / 3)%Z W520 3) by (intros; try reflexivity; lia).
  symmetry. exact LN2S_Q.
Qed.
Lemma ln2_bound : Rabs (IZR W520 * ln 2 - IZR LN2S) <= 922.
Proof.
  pose proof (ln_bound W520 2 520 ltac:(reflexivity) ltac:(lia) ltac:(apply Z.leb_le; vm_compute; reflexivity)) as A.
  pose proof (ln_bound W520 3 400 ltac:(reflexivity) ltac:(lia) ltac:(apply Z.leb_le; vm_compute; reflexivity)) as B.
  assert (E : ln 2 = ln (1 + / 2) + ln (1 + / 3)). { rewrite <- ln_mult by lra. f_equal. lra. }
  rewrite LN2S_eq, plus_IZR, E. rewrite !INR_IZR_INZ in *.
  change (IZR (Z.of_nat 520)) with 520 in A. change (IZR (Z.of_nat 400)) with 400 in B.
  set (a := serZ W520 2 1 2 false 520) in *. set (b := serZ W520 3 1 3 false 400) in *. clearbody a b.
  set (w := IZR W520) in *. clearbody w. apply rabs_inv in A. apply rabs_inv in B. apply Rabs_le. lra.
Qed.
Definition LN10S : Z := 7903390379318573594148666494636750626906879533710612320594795229860617550171334405536261829910850004254458499308047601783351817606107937669797506671175227822.
Lemma LN10S_Q : (3 * LN2S + serQ (fun q => Z.shiftr q 2) 1 (W520 / 4) false 260)%Z = LN10S.
Proof. vm_compute. reflexivity. Qed.
Lemma LN10S_eq : LN10S = (3 * LN2S + serZ W520 4 1 4 false 260)%Z.
Proof.
  rewrite <- (serQ_eq (fun q => Z.shiftr q 2) W520 4) by (intros; try (apply (Z.shiftr_div_pow2 _ 2)); lia).
  symmetry. exact LN10S_Q.
Qed.
Lemma ln10_bound : Rabs (IZR W520 * ln 10 - IZR LN10S) <= 3027.
Proof.
  pose proof (ln_bound W520 4 260 ltac:(reflexivity) ltac:(lia) ltac:(apply Z.leb_le; vm_compute; reflexivity)) as A.
  pose proof ln2_bound as B.
  assert (E : ln 10 = 3 * ln 2 + ln (1 + / 4)).
  { replace (3 * ln 2) with (ln 2 + (ln 2 + ln 2)) by ring. rewrite <- !ln_mult by lra. f_equal. lra. }
  rewrite LN10S_eq, plus_IZR, mult_IZR, E. rewrite !INR_IZR_INZ in *.
  change (IZR (Z.of_nat 260)) with 260 in A.
  set (a := serZ W520 4 1 4 false 260) in *. set (b := LN2S) in *. clearbody a b.
  set (w := IZR W520) in *. clearbody w. apply rabs_inv in A. apply rabs_inv in B. apply Rabs_le. lra.
Qed.

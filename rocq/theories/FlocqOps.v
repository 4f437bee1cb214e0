(** * FlocqOps: the operations of Spec.v are those of Flocq *)

From Coq Require Import ZArith Bool Lia Reals Lra.
From Flocq Require Import Core IEEE754.BinarySingleNaN.
From Verif Require Import Base ZLemmas Spec SpecLemmas SpecProps F256Lemmas BasicProofs SqrtProofs SpecFlocq.
Open Scope Z_scope.

Lemma fin_flags x : finb x = true -> nanb x = false /\ infb x = false.
Proof. unfold finb, nanb, infb. intros H. apply Z.ltb_lt in H. split; [apply Z.ltb_ge; lia|apply Z.eqb_neq; lia]. Qed.

Lemma sgn_01 x : 0 <= x < 2 ^ 256 -> sgn x = 0 \/ sgn x = 1.
Proof. intros H. pose proof (sgn_bound x H). lia. Qed.

Lemma xors_01 a b : xors a b = 0 \/ xors a b = 1.
Proof. unfold xors. destruct (a =? b); auto. Qed.

Lemma xors_xorb x y : 0 <= x < 2 ^ 256 -> 0 <= y < 2 ^ 256 ->
  (xors (sgn x) (sgn y) =? 1) = xorb (sgn x =? 1) (sgn y =? 1).
Proof. intros Hx Hy. destruct (sgn_01 x Hx) as [->| ->], (sgn_01 y Hy) as [->| ->]; reflexivity. Qed.

Lemma inf_eq x : 0 <= x < 2 ^ 256 -> mag x = INFm -> x = mkf (sgn x) INFm.
Proof. intros Hx E. destruct (mkf_split x Hx) as [Ex _]. rewrite E in Ex. exact Ex. Qed.

Lemma overflow_eq (z : binary256) s : B2SF z = binary_overflow 237 262144 mode_NE s -> z = B754_infinity s.
Proof. intros H. apply B2SF_inj. rewrite H. reflexivity. Qed.

Ltac view x Hx := let b := fresh "b" in let E := fresh "E" in let V := fresh "V" in
  pose proof (bview_of x Hx) as V; remember (b256 x) as b eqn:E in V; symmetry in E; destruct V.
Ltac flags := repeat match goal with
  | H : nanb ?x = _ |- context [nanb ?x] => rewrite H
  | H : infb ?x = _ |- context [infb ?x] => rewrite H
  | H : finb ?x = _ |- context [finb ?x] => rewrite H
  | H : zerob ?x = _ |- context [zerob ?x] => rewrite H end; cbn [orb andb negb].
Ltac ops := repeat match goal with E : b256 ?x = _ |- context [b256 ?x] => rewrite E end.
Ltac notfin F := exfalso; revert F; flags; discriminate.

Lemma bsign_le x : 0 <= x < 2 ^ 256 -> finb x = true -> sgn x = 1 -> (B2R (b256 x) <= 0)%R.
Proof.
  intros Hx F S. destruct (b256_finite x Hx F) as (_ & -> & _). unfold sval. rewrite S.
  pose proof (mag_bound x) as M. pose proof (units_nonneg _ (mag_val_nonneg (mag x) ltac:(lia))) as U.
  replace ((1 - 2 * 1) * mag_val (mag x)) with (- mag_val (mag x)) by ring. rewrite units_opp. lra.
Qed.
Lemma bsign_ge x : 0 <= x < 2 ^ 256 -> finb x = true -> sgn x = 0 -> (0 <= B2R (b256 x))%R.
Proof.
  intros Hx F S. destruct (b256_finite x Hx F) as (_ & -> & _). unfold sval. rewrite S.
  pose proof (mag_bound x) as M. pose proof (units_nonneg _ (mag_val_nonneg (mag x) ltac:(lia))) as U.
  replace ((1 - 2 * 0) * mag_val (mag x)) with (mag_val (mag x)) by ring. exact U.
Qed.

Theorem add_flocq x y : 0 <= x < 2 ^ 256 -> 0 <= y < 2 ^ 256 ->
  b256 (spec_add x y) = Bplus mode_NE (b256 x) (b256 y).
Proof.
  intros Hx Hy. destruct (finb x && finb y) eqn:F.
  - apply andb_true_iff in F. destruct F as [Fx Fy].
    destruct (fin_flags x Fx) as [Nx Ix], (fin_flags y Fy) as [Ny Iy].
    unfold spec_add. rewrite Nx, Ix, Ny, Iy. cbn [orb].
    destruct (b256_finite x Hx Fx) as (X1 & X2 & X3). destruct (b256_finite y Hy Fy) as (Y1 & Y2 & Y3).
    pose proof (Bplus_correct 237 262144 _ _ mode_NE (b256 x) (b256 y) X1 Y1) as C. cbn [round_mode] in C.
    assert (E : (B2R (b256 x) + B2R (b256 y) = IZR (sval x + sval y) / IZR 1 * bpow radix2 (-262378))%R).
    { rewrite X2, Y2. unfold units. rewrite plus_IZR. field. }
    assert (S01 : sgn x * sgn y = 0 \/ sgn x * sgn y = 1) by (destruct (sgn_01 x Hx) as [->| ->], (sgn_01 y Hy) as [->| ->]; auto).
    pose proof (rnd_signed_round (sgn x * sgn y) (sval x + sval y) 1 S01 eq_refl) as D. cbv zeta in D.
    rewrite <- E in D. fold (below (B2R (b256 x) + B2R (b256 y))) in C.
    destruct (below (B2R (b256 x) + B2R (b256 y))) eqn:L.
    + destruct C as (C1 & C2 & C3), D as (D1 & D2 & D3). apply B2R_Bsign_inj; auto; [congruence|].
      rewrite C3, D3, X3, Y3. destruct (Rcompare _ _); auto.
      destruct (sgn_01 x Hx) as [->| ->], (sgn_01 y Hy) as [->| ->]; reflexivity.
    + destruct C as [C1 C2]. rewrite (overflow_eq _ _ C1), D. f_equal.
      assert (NZ : (B2R (b256 x) + B2R (b256 y))%R <> 0%R) by (intros Z; rewrite Z, below_0 in L; discriminate).
      rewrite X3, Y3 in *.
      destruct (sgn_01 x Hx) as [Sx|Sx], (sgn_01 y Hy) as [Sy|Sy]; rewrite Sx, Sy in C2; try discriminate C2; rewrite Sx.
      * pose proof (bsign_ge x Hx Fx Sx). pose proof (bsign_ge y Hy Fy Sy). apply Rlt_bool_false. lra.
      * pose proof (bsign_le x Hx Fx Sx). pose proof (bsign_le y Hy Fy Sy). apply Rlt_bool_true. lra.
  - view x Hx; view y Hy; try notfin F; clear F.
    all: unfold spec_add; flags; rewrite ?orb_true_r; try solve [rewrite ?b256_QNAN; ops; reflexivity].
    destruct (sgn_01 x Hx) as [Sx|Sx], (sgn_01 y Hy) as [Sy|Sy]; rewrite Sx, Sy in *; cbn [Z.eqb Pos.eqb negb] in *;
      rewrite ?b256_QNAN; ops; reflexivity.
Qed.

Lemma neg_range y : 0 <= y < 2 ^ 256 -> 0 <= spec_neg y < 2 ^ 256.
Proof. intros Hy. apply mkf_range; [destruct (sgn_01 y Hy) as [->| ->]; auto|apply mag_bound]. Qed.

Lemma neg_flocq y : 0 <= y < 2 ^ 256 -> b256 (spec_neg y) = Bopp (b256 y).
Proof.
  intros Hy. pose proof (neg_range y Hy) as Hn. pose proof (mag_bound y) as M.
  assert (Em : mag (spec_neg y) = mag y) by (apply mag_mkf; auto).
  assert (Es : sgn (spec_neg y) = 1 - sgn y) by (apply sgn_mkf; auto).
  assert (EB : (1 - sgn y =? 1) = negb (sgn y =? 1)) by (destruct (sgn_01 y Hy) as [->| ->]; reflexivity).
  destruct (finb y) eqn:F.
  - assert (F' : finb (spec_neg y) = true) by (unfold finb in *; rewrite Em; auto).
    destruct (b256_finite y Hy F) as (F1 & F2 & F3). destruct (b256_finite _ Hn F') as (G1 & G2 & G3).
    apply B2R_Bsign_inj; rewrite ?is_finite_Bopp; auto.
    + rewrite B2R_Bopp, G2, F2, <- units_opp. f_equal. unfold sval. rewrite Em, Es. ring.
    + rewrite Bsign_Bopp, G3, F3, Es; auto. destruct (b256 y); auto; discriminate.
  - assert (F' : finb (spec_neg y) = false) by (unfold finb in *; rewrite Em; auto).
    rewrite !b256_special by auto. unfold infb. rewrite Em, Es, EB. destruct (mag y =? INFm); reflexivity.
Qed.

Theorem sub_flocq x y : 0 <= x < 2 ^ 256 -> 0 <= y < 2 ^ 256 ->
  b256 (spec_sub x y) = Bminus mode_NE (b256 x) (b256 y).
Proof.
  intros Hx Hy. unfold spec_sub. rewrite add_flocq by (auto using neg_range). rewrite neg_flocq by auto.
  destruct (b256 x), (b256 y); reflexivity.
Qed.

Lemma unit_pow : IZR (2 ^ UNITe) = (/ bpow radix2 (-262378))%R.
Proof. rewrite IZR_pow2 by (unfold UNITe; lia). unfold UNITe. change (-262378) with (- (262378)). rewrite bpow_opp, Rinv_inv. reflexivity. Qed.

Lemma unit_pos : 0 < 2 ^ UNITe.
Proof. apply pow2_pos. unfold UNITe. lia. Qed.

Lemma xors_mul x y a b : 0 <= x < 2 ^ 256 -> 0 <= y < 2 ^ 256 ->
  (1 - 2 * xors (sgn x) (sgn y)) * (a * b) = (1 - 2 * sgn x) * a * ((1 - 2 * sgn y) * b).
Proof. intros Hx Hy. destruct (sgn_01 x Hx) as [->| ->], (sgn_01 y Hy) as [->| ->]; unfold xors; cbn [Z.eqb Pos.eqb]; ring. Qed.

Lemma finite_not_nan (z : binary256) : is_finite z = true -> is_nan z = false.
Proof. destruct z; auto; discriminate. Qed.

Theorem mul_flocq x y : 0 <= x < 2 ^ 256 -> 0 <= y < 2 ^ 256 ->
  b256 (spec_mul x y) = Bmult mode_NE (b256 x) (b256 y).
Proof.
  intros Hx Hy. destruct (finb x && finb y) eqn:F.
  - apply andb_true_iff in F. destruct F as [Fx Fy].
    destruct (fin_flags x Fx) as [Nx Ix], (fin_flags y Fy) as [Ny Iy].
    unfold spec_mul. rewrite Nx, Ix, Ny, Iy. cbn [orb].
    destruct (b256_finite x Hx Fx) as (X1 & X2 & X3). destruct (b256_finite y Hy Fy) as (Y1 & Y2 & Y3).
    pose proof (Bmult_correct 237 262144 _ _ mode_NE (b256 x) (b256 y)) as C. cbn [round_mode] in C.
    pose proof (mag_bound x) as Mx. pose proof (mag_bound y) as My.
    pose proof (mag_val_nonneg (mag x) ltac:(lia)) as Vx. pose proof (mag_val_nonneg (mag y) ltac:(lia)) as Vy.
    pose proof (rnd_mag_round (xors (sgn x) (sgn y)) (mag_val (mag x) * mag_val (mag y)) (2 ^ UNITe) (xors_01 _ _)
      ltac:(apply Z.mul_nonneg_nonneg; auto) unit_pos) as D. cbv zeta in D.
    rewrite xors_mul, mult_IZR, unit_pow in D by auto. fold (sval x) in D. fold (sval y) in D.
    assert (E : (IZR (sval x) * IZR (sval y) / / bpow radix2 (-262378) * bpow radix2 (-262378) = B2R (b256 x) * B2R (b256 y))%R).
    { rewrite X2, Y2. unfold units. pose proof (bpow_gt_0 radix2 (-262378)) as U. generalize dependent (bpow radix2 (-262378)). intros.
      field. lra. }
    rewrite E in D. set (r := (B2R (b256 x) * B2R (b256 y))%R) in *.
    destruct (Rlt_bool (Rabs (rnd r)) (bpow radix2 262144)).
    + destruct C as (C1 & C2 & C3), D as (D1 & D2 & D3). rewrite X1, Y1 in C2.
      apply B2R_Bsign_inj; auto; [congruence|]. rewrite (C3 (finite_not_nan _ C2)), D3, X3, Y3. apply xors_xorb; auto.
    + rewrite (overflow_eq _ _ C), D, X3, Y3. f_equal. apply xors_xorb; auto.
  - view x Hx; view y Hy; try notfin F; clear F.
    all: unfold spec_mul; flags; rewrite ?orb_true_r; rewrite ?b256_QNAN, ?b256_INF by apply xors_01; ops; cbn [Bmult];
      rewrite ?xors_xorb by auto; reflexivity.
Qed.

Lemma b256_zero s : s = 0 \/ s = 1 -> b256 (mkf s 0) = B754_zero (s =? 1).
Proof.
  intros Hs. assert (R : 0 <= mkf s 0 < 2 ^ 256) by (apply mkf_range; auto; lia).
  assert (N : nanb (mkf s 0) = false) by (unfold nanb; rewrite mag_mkf by lia; reflexivity).
  assert (I : infb (mkf s 0) = false) by (unfold infb; rewrite mag_mkf by lia; reflexivity).
  assert (Z : zerob (mkf s 0) = true) by (unfold zerob; rewrite mag_mkf by lia; reflexivity).
  view (mkf s 0) R; try congruence. rewrite E, sgn_mkf by lia. reflexivity.
Qed.

Theorem div_flocq x y : 0 <= x < 2 ^ 256 -> 0 <= y < 2 ^ 256 ->
  b256 (spec_div x y) = Bdiv mode_NE (b256 x) (b256 y).
Proof.
  intros Hx Hy. destruct (finb x && finb y && negb (zerob y)) eqn:F.
  - apply andb_true_iff in F. destruct F as [F Zy]. apply andb_true_iff in F. destruct F as [Fx Fy]. apply negb_true_iff in Zy.
    destruct (fin_flags x Fx) as [Nx Ix], (fin_flags y Fy) as [Ny Iy].
    unfold spec_div. rewrite Nx, Ix, Ny, Iy, Zy. cbn [orb].
    destruct (b256_finite x Hx Fx) as (X1 & X2 & X3). destruct (b256_finite y Hy Fy) as (Y1 & Y2 & Y3).
    pose proof (mag_bound x) as Mx. pose proof (mag_bound y) as My.
    assert (Py : 0 < mag y) by (unfold zerob in Zy; apply Z.eqb_neq in Zy; lia).
    pose proof (mag_val_nonneg (mag x) ltac:(lia)) as Vx. pose proof (mag_val_pos (mag y) Py) as Vy.
    pose proof (bpow_gt_0 radix2 (-262378)) as U.
    assert (NZ : IZR (sval y) <> 0%R).
    { apply not_0_IZR. unfold sval. intros E. apply Z.mul_eq_0 in E. pose proof (sgn_01 y Hy). lia. }
    assert (NY : B2R (b256 y) <> 0%R). { rewrite Y2. unfold units. apply Rmult_integral_contrapositive_currified; lra. }
    pose proof (Bdiv_correct 237 262144 _ _ mode_NE (b256 x) (b256 y) NY) as C. cbn [round_mode] in C.
    pose proof (rnd_mag_round (xors (sgn x) (sgn y)) (mag_val (mag x) * 2 ^ UNITe) (mag_val (mag y)) (xors_01 _ _)
      ltac:(apply Z.mul_nonneg_nonneg; auto; apply Z.lt_le_incl, unit_pos) Vy) as D. cbv zeta in D.
    assert (E : (IZR ((1 - 2 * xors (sgn x) (sgn y)) * (mag_val (mag x) * 2 ^ UNITe)) / IZR (mag_val (mag y)) * bpow radix2 (-262378)
                 = B2R (b256 x) / B2R (b256 y))%R).
    { rewrite X2, Y2. unfold units, sval. rewrite !mult_IZR, unit_pow.
      assert (Ny' : IZR (mag_val (mag y)) <> 0%R) by (apply not_0_IZR; lia). generalize dependent (bpow radix2 (-262378)). intros u U0 U.
      generalize dependent (IZR (mag_val (mag y))). intros.
      destruct (sgn_01 x Hx) as [->| ->], (sgn_01 y Hy) as [->| ->]; unfold xors; cbn [Z.eqb Pos.eqb];
        change (1 - 2 * 0) with 1; change (1 - 2 * 1) with (-1); field; lra. }
    rewrite E in D. set (r := (B2R (b256 x) / B2R (b256 y))%R) in *.
    destruct (Rlt_bool (Rabs (rnd r)) (bpow radix2 262144)).
    + destruct C as (C1 & C2 & C3), D as (D1 & D2 & D3). rewrite X1 in C2.
      apply B2R_Bsign_inj; auto; [congruence|]. rewrite (C3 (finite_not_nan _ C2)), D3, X3, Y3. apply xors_xorb; auto.
    + rewrite (overflow_eq _ _ C), D, X3, Y3. f_equal. apply xors_xorb; auto.
  - view x Hx; view y Hy; try notfin F; clear F.
    all: unfold spec_div; flags; rewrite ?orb_true_r; rewrite ?b256_QNAN, ?b256_INF, ?b256_zero by apply xors_01; ops; cbn [Bdiv];
      rewrite ?xors_xorb by auto; reflexivity.
Qed.

Theorem fma_flocq x y a : 0 <= x < 2 ^ 256 -> 0 <= y < 2 ^ 256 -> 0 <= a < 2 ^ 256 ->
  b256 (spec_fma x y a) = Bfma mode_NE (b256 x) (b256 y) (b256 a).
Proof.
  intros Hx Hy Ha. destruct (finb x && finb y && finb a) eqn:F.
  - apply andb_true_iff in F. destruct F as [F Fa]. apply andb_true_iff in F. destruct F as [Fx Fy].
    destruct (fin_flags x Fx) as [Nx Ix], (fin_flags y Fy) as [Ny Iy], (fin_flags a Fa) as [Na Ia].
    unfold spec_fma. rewrite Nx, Ix, Ny, Iy, Na, Ia. cbn [orb].
    destruct (b256_finite x Hx Fx) as (X1 & X2 & X3). destruct (b256_finite y Hy Fy) as (Y1 & Y2 & Y3). destruct (b256_finite a Ha Fa) as (A1 & A2 & A3).
    pose proof (Bfma_correct 237 262144 _ _ mode_NE (b256 x) (b256 y) (b256 a) X1 Y1 A1) as C. cbv zeta in C. cbn [round_mode] in C.
    pose proof (mag_bound x) as Mx. pose proof (mag_bound y) as My. pose proof (mag_bound a) as Ma.
    pose proof (mag_val_nonneg (mag x) ltac:(lia)) as Vx. pose proof (mag_val_nonneg (mag y) ltac:(lia)) as Vy.
    set (s := xors (sgn x) (sgn y)) in *. set (s0 := if zerob a then s * sgn a else 0).
    assert (S0 : s0 = 0 \/ s0 = 1).
    { unfold s0. destruct (zerob a); auto. destruct (xors_01 (sgn x) (sgn y)) as [E|E]; fold s in E; rewrite E; destruct (sgn_01 a Ha) as [->| ->]; auto. }
    set (n := (1 - 2 * s) * (mag_val (mag x) * mag_val (mag y)) + sval a * 2 ^ UNITe).
    pose proof (rnd_signed_round s0 n (2 ^ UNITe) S0 unit_pos) as D. cbv zeta in D.
    pose proof (bpow_gt_0 radix2 (-262378)) as U.
    assert (E : (IZR n / IZR (2 ^ UNITe) * bpow radix2 (-262378) = B2R (b256 x) * B2R (b256 y) + B2R (b256 a))%R).
    { unfold n, s. rewrite xors_mul by auto. fold (sval x). fold (sval y). rewrite plus_IZR, !mult_IZR, unit_pow, X2, Y2, A2.
      unfold units. generalize dependent (bpow radix2 (-262378)). intros. field. lra. }
    rewrite E in D. set (r := (B2R (b256 x) * B2R (b256 y) + B2R (b256 a))%R) in *. fold (below r) in C.
    destruct (below r).
    + destruct C as (C1 & C2 & C3), D as (D1 & D2 & D3). apply B2R_Bsign_inj; auto; [congruence|]. rewrite C3, D3.
      destruct (Rcompare_spec r 0) as [L|L|L]; auto. unfold Bfma_szero. rewrite X3, Y3, A3, <- xors_xorb by auto. fold s.
      assert (N0 : n = 0).
      { apply eq_IZR. rewrite L in E. apply Rmult_integral in E. destruct E as [E|E]; [|exfalso; lra]. unfold Rdiv in E. apply Rmult_integral in E.
        destruct E as [E|E]; auto. exfalso. revert E. apply Rinv_neq_0_compat. apply not_0_IZR. exact (not_eq_sym (Z.lt_neq _ _ unit_pos)). }
      unfold s0. destruct (zerob a) eqn:Za.
      * destruct (xors_01 (sgn x) (sgn y)) as [Es|Es]; fold s in Es; rewrite Es; destruct (sgn_01 a Ha) as [->| ->]; reflexivity.
      * destruct (xors_01 (sgn x) (sgn y)) as [Es|Es]; fold s in Es; rewrite Es; destruct (sgn_01 a Ha) as [Sa|Sa]; rewrite Sa; try reflexivity.
        exfalso. revert N0. unfold n, sval. rewrite Es, Sa. unfold zerob in Za. apply Z.eqb_neq in Za.
        pose proof (mag_val_pos (mag a) ltac:(lia)) as PA. pose proof unit_pos as PU. generalize dependent (2 ^ UNITe). intros. nia.
    + rewrite (overflow_eq _ _ C), D. reflexivity.
  - view x Hx; view y Hy; view a Ha; try notfin F; clear F.
    all: unfold spec_fma; flags; rewrite ?orb_true_r; cbn [orb andb].
    all: try solve [rewrite ?b256_QNAN, ?b256_INF by apply xors_01; ops; cbn [Bfma]; rewrite ?xors_xorb by auto; reflexivity].
    all: ops; cbn [Bfma]; rewrite <- xors_xorb by auto;
      destruct (xors_01 (sgn x) (sgn y)) as [Es|Es]; rewrite Es; destruct (sgn_01 a Ha) as [Sa|Sa]; rewrite Sa;
      cbn [Z.eqb Pos.eqb negb Bool.eqb]; rewrite ?b256_QNAN, ?b256_INF by auto; reflexivity.
Qed.

(** ** Square root *)

Lemma succ_val a : 0 <= a -> succ radix2 fexp256 (units (mag_val a)) = units (mag_val (a + 1)).
Proof.
  intros Ha. destruct (mag_fields a Ha) as (E & m & Ea & HE & Hm & C & _).
  assert (V : mag_val a = m * 2 ^ E) by (rewrite Ea; apply mag_val_any; auto).
  assert (V1 : mag_val (a + 1) = (m + 1) * 2 ^ E).
  { replace (a + 1) with (E * 2 ^ 236 + (m + 1)) by lia. apply mag_val_le_any; lia. }
  pose proof (pow2_pos E HE) as P.
  rewrite succ_eq_pos by (apply units_nonneg, mag_val_nonneg; auto).
  assert (L : ulp radix2 fexp256 (units (mag_val a)) = bpow radix2 (E - 262378)).
  { destruct (Z.eq_dec m 0) as [Em|Em].
    - assert (E0 : E = 0) by lia. rewrite V, Em, E0. cbn [Z.mul]. unfold units. rewrite Rmult_0_l.
      apply (ulp_FLT_0 radix2 (-262378) 237).
    - rewrite ulp_neq_0.
      2:{ unfold units. apply Rmult_integral_contrapositive_currified. apply not_0_IZR. rewrite V. nia. apply Rgt_not_eq, bpow_gt_0. }
      f_equal. pose proof (cexp_quot (mag_val a) 1 ltac:(rewrite V; nia) ltac:(lia)) as Q.
      replace (IZR (mag_val a) / IZR 1 * bpow radix2 (-262378))%R with (units (mag_val a)) in Q by (unfold units; field).
      rewrite Q. f_equal. unfold rexp. rewrite Z.div_1_r, V, Z.log2_mul_pow2 by lia.
      destruct C as [->|C]; [|rewrite (Z.log2_unique m 236) by lia; lia].
      assert (Z.log2 m < 237) by (apply Z.log2_lt_pow2; lia). lia. }
  rewrite L, V1, V. unfold units. rewrite !mult_IZR, IZR_pow2, plus_IZR by auto.
  change (E - 262378) with (E + -262378). rewrite bpow_plus. ring.
Qed.

Lemma format_val a : 0 <= a < INFm -> generic_format radix2 fexp256 (units (mag_val a)).
Proof.
  intros Ha. assert (I : INFm < 2 ^ 255) by reflexivity.
  assert (R : 0 <= mkf 0 a < 2 ^ 256) by (apply mkf_range; auto; lia).
  assert (F : finb (mkf 0 a) = true) by (unfold finb; rewrite mag_mkf by lia; apply Z.ltb_lt; lia).
  destruct (b256_finite _ R F) as (_ & B & _). unfold sval in B. rewrite sgn_mkf, mag_mkf in B by lia.
  replace ((1 - 2 * 0) * mag_val a) with (mag_val a) in B by ring. rewrite <- B. apply generic_format_B2R.
Qed.

Lemma nearest_sqrt_round n z : 0 < n -> nearest_sqrt n z -> rnd (sqrt (units n)) = units (mag_val z).
Proof.
  intros Hn (Hz & L & H). pose proof (bpow_gt_0 radix2 (-262378)) as U.
  pose proof (format_val z ltac:(lia)) as Fz. pose proof (format_val (z - 1) ltac:(lia)) as Fp.
  pose proof (succ_val z ltac:(lia)) as Sz. pose proof (succ_val (z - 1) ltac:(lia)) as Sp. replace (z - 1 + 1) with z in Sp by lia.
  assert (Pz : pred radix2 fexp256 (units (mag_val z)) = units (mag_val (z - 1))) by (rewrite <- Sp; apply pred_succ; [apply (fexp_correct 237 262144), prec_pos|exact Fp]).
  pose proof (mag_val_pos z ltac:(lia)) as V0. pose proof (mag_val_nonneg (z - 1) ltac:(lia)) as V1. pose proof (mag_val_pos (z + 1) ltac:(lia)) as V2.
  assert (Hn' : (0 <= units n)%R) by (apply units_nonneg; lia).
  pose proof (sqrt_pos (units n)) as S0. pose proof (sqrt_sqrt (units n) Hn') as S2.
  assert (N : (units n = 4 * IZR (n * 2 ^ UNITe) / 4 * bpow radix2 (-262378) * bpow radix2 (-262378))%R).
  { rewrite mult_IZR, unit_pow. unfold units. generalize dependent (bpow radix2 (-262378)). intros. field. lra. }
  assert (L' : (IZR (mag_val (z - 1) + mag_val z) * IZR (mag_val (z - 1) + mag_val z) < 4 * IZR (n * 2 ^ UNITe))%R).
  { rewrite <- !mult_IZR. apply IZR_lt. rewrite <- Z.pow_2_r. exact L. }
  assert (H' : (4 * IZR (n * 2 ^ UNITe) < IZR (mag_val z + mag_val (z + 1)) * IZR (mag_val z + mag_val (z + 1)))%R).
  { rewrite <- !mult_IZR. apply IZR_lt. rewrite <- Z.pow_2_r. exact H. }
  assert (B1 : (0 <= IZR (mag_val (z - 1) + mag_val z))%R) by (apply IZR_le; lia).
  assert (B2 : (0 <= IZR (mag_val z + mag_val (z + 1)))%R) by (apply IZR_le; lia).
  apply Rle_antisym.
  - apply round_N_le_midp; [apply (fexp_correct 237 262144), prec_pos|exact Fz|]. rewrite Sz.
    replace ((units (mag_val z) + units (mag_val (z + 1))) / 2)%R with (IZR (mag_val z + mag_val (z + 1)) / 2 * bpow radix2 (-262378))%R by (unfold units; rewrite plus_IZR; field).
    clear - S0 S2 N H' B2 U. generalize dependent (sqrt (units n)). generalize dependent (units n). generalize dependent (bpow radix2 (-262378)).
    generalize dependent (IZR (n * 2 ^ UNITe)). generalize dependent (IZR (mag_val z + mag_val (z + 1))). intros b B N Q u U w E s S0 S2.
    apply Rsqr_incrst_0; auto. 2:{ apply Rmult_le_pos; lra. } unfold Rsqr. rewrite S2, E.
    replace (b / 2 * u * (b / 2 * u))%R with (b * b / 4 * (u * u))%R by field. replace (4 * N / 4 * u * u)%R with (4 * N / 4 * (u * u))%R by field.
    apply Rmult_lt_compat_r; [apply Rmult_lt_0_compat; auto|lra].
  - apply round_N_ge_midp; [apply (fexp_correct 237 262144), prec_pos|exact Fz|]. rewrite Pz.
    replace ((units (mag_val z) + units (mag_val (z - 1))) / 2)%R with (IZR (mag_val (z - 1) + mag_val z) / 2 * bpow radix2 (-262378))%R by (unfold units; rewrite plus_IZR; field).
    clear - S0 S2 N L' B1 U. generalize dependent (sqrt (units n)). generalize dependent (units n). generalize dependent (bpow radix2 (-262378)).
    generalize dependent (IZR (n * 2 ^ UNITe)). generalize dependent (IZR (mag_val (z - 1) + mag_val z)). intros b B N Q u U w E s S0 S2.
    apply Rsqr_incrst_0; auto. 2:{ apply Rmult_le_pos; lra. } unfold Rsqr. rewrite S2, E.
    replace (b / 2 * u * (b / 2 * u))%R with (b * b / 4 * (u * u))%R by field. replace (4 * N / 4 * u * u)%R with (4 * N / 4 * (u * u))%R by field.
    apply Rmult_lt_compat_r; [apply Rmult_lt_0_compat; auto|lra].
Qed.

Lemma b256_nanb r : 0 <= r < 2 ^ 256 -> nanb r = true -> b256 r = B754_nan.
Proof. intros Hr N. view r Hr; auto; congruence. Qed.

Theorem sqrt_flocq x r : 0 <= x < 2 ^ 256 -> 0 <= r < 2 ^ 256 -> spec_sqrt x r -> b256 r = Bsqrt mode_NE (b256 x).
Proof.
  intros Hx Hr. unfold spec_sqrt. view x Hx; flags.
  - intros N. ops. rewrite b256_nanb by auto. reflexivity.
  - destruct (sgn_01 x Hx) as [Sx|Sx]; rewrite Sx in *; cbn [Z.eqb Pos.eqb] in *; intros Q.
    + rewrite Q. ops. reflexivity.
    + rewrite (b256_nanb r) by auto. ops. reflexivity.
  - intros ->. ops. reflexivity.
  - destruct (sgn_01 x Hx) as [Sx|Sx]; rewrite Sx in *; cbn [Z.eqb Pos.eqb] in *; intros Q.
    2:{ rewrite (b256_nanb r) by auto. ops. reflexivity. }
    destruct Q as [Q1 Q2]. assert (Fr : finb r = true) by (destruct Q2 as [Q2 _]; unfold finb; apply Z.ltb_lt; lia).
    destruct (b256_finite r Hr Fr) as (R1 & R2 & R3). destruct (b256_finite x Hx ltac:(auto)) as (X1 & X2 & X3).
    destruct (Bsqrt_correct 237 262144 _ _ mode_NE (b256 x)) as (C1 & C2 & C3). cbn [round_mode] in C1.
    assert (FS : is_finite (Bsqrt mode_NE (b256 x)) = true) by (rewrite C2; ops; reflexivity).
    assert (Pm : 0 < mag x). { pose proof (mag_bound x). match goal with Z : zerob x = false |- _ => unfold zerob in Z; apply Z.eqb_neq in Z end. lia. }
    assert (P : 0 < mag_val (mag x)) by (apply mag_val_pos; auto).
    apply B2R_Bsign_inj; auto.
    + rewrite C1, R2, X2. unfold sval. rewrite Q1, Sx. replace ((1 - 2 * 0) * mag_val (mag r)) with (mag_val (mag r)) by ring.
      replace ((1 - 2 * 0) * mag_val (mag x)) with (mag_val (mag x)) by ring. symmetry. apply nearest_sqrt_round; auto.
    + rewrite (C3 (finite_not_nan _ FS)), R3, X3, Q1, Sx. reflexivity.
Qed.

(** Different values, for the counterexample to multiplication *)
Lemma b256_62_63 : b256 62 <> b256 63.
Proof.
  intros E. apply (f_equal (@B2R 237 262144)) in E.
  destruct (b256_finite 62 ltac:(lia) eq_refl) as (_ & A & _). destruct (b256_finite 63 ltac:(lia) eq_refl) as (_ & B & _).
  rewrite A, B in E. change (sval 62) with 62 in E. change (sval 63) with 63 in E.
  pose proof (proj2 (units_lt 62 63) ltac:(lia)) as L. rewrite E in L. exact (Rlt_irrefl _ L).
Qed.

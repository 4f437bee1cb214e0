(** * TrigTan: the error of the tangent *)

From Coq Require Import ZArith Lia Bool Reals Lra List.
From Verif Require Import Base BigUInt ZLemmas BigLaws BigUIntProofs BigExtra Spec SpecFns F256 Arith Conv SpecLemmas SpecAlg SpecProps ExactProofs
  F256Lemmas BasicProofs CodecProofs AddProofs IntProofs DivProofs SqrtProofs SosProofs MiscProofs SpecDeg SpecLog SpecTrig LogTable Log FpProofs LogProofs LnBound LogReal LogUlp LogRound
  Interface LiftProofs LogFinal TrigTable Trig TrigPi TrigApprox TrigReduce TrigReal TrigFinal TrigSym.
Open Scope Z_scope.

(** ** The unit in the last place and the value *)
Lemma ulp_qe a : 0 <= a -> ulp_units a = 2 ^ qe a.
Proof.
  intros Ha. unfold ulp_units. destruct (sg_qe a Ha) as [E C]. pose proof (sg_bound a Ha) as B. pose proof (qe_nonneg a) as Q.
  rewrite (mag_val_sg a Ha). rewrite E at 1. replace (qe a * 2 ^ 236 + sg a + 1) with (qe a * 2 ^ 236 + (sg a + 1)) by ring. rewrite mag_val_le_any by lia. ring.
Qed.
Lemma qe_mono a b : 0 <= a <= b -> qe a <= qe b.
Proof. intros H. unfold qe. assert (a / 2 ^ 236 <= b / 2 ^ 236) by (apply Z.div_le_mono; lia). lia. Qed.

Lemma quot_err n d : 0 <= n -> 0 < d -> let m := rnd_mag n d in m < INFm -> 2 * Z.abs (n - d * mag_val m) <= d * ulp_units m.
Proof.
  intros Hn Hd m Hm. pose proof (rnd_mag_bounds n d Hn Hd) as B. fold m in B.
  pose proof (rnd_mag_nearest n d (m + 1) Hn Hd ltac:(lia) ltac:(fold m; lia)) as U. cbv zeta in U. fold m in U.
  pose proof (mag_val_lt m (m + 1) ltac:(lia) ltac:(lia)) as L1. unfold ulp_units.
  destruct (Z.eq_dec m 0) as [Z0|Z0].
  - rewrite Z0 in *. change (mag_val 0) with 0 in *. set (w := mag_val (0 + 1)) in *. clearbody w. assert (0 < d * w) by (apply Z.mul_pos_pos; lia). lia.
  - pose proof (rnd_mag_nearest n d (m - 1) Hn Hd ltac:(lia) ltac:(fold m; lia)) as D. cbv zeta in D. fold m in D.
    pose proof (mag_val_lt (m - 1) m ltac:(lia) ltac:(lia)) as L2.
    assert (ST : mag_val m - mag_val (m - 1) <= mag_val (m + 1) - mag_val m).
    { pose proof (ulp_qe m ltac:(lia)) as E1. pose proof (ulp_qe (m - 1) ltac:(lia)) as E2. unfold ulp_units in *. replace (m - 1 + 1) with m in E2 by ring.
      rewrite E1, E2. apply pow2_le. split; [apply qe_nonneg|apply qe_mono; lia]. }
    set (a := mag_val (m - 1)) in *. set (b := mag_val m) in *. set (c := mag_val (m + 1)) in *. clearbody a b c. clear - Hd U D L1 L2 ST.
    assert (d * (b - a) <= d * (c - b)) by (apply Z.mul_le_mono_nonneg_l; lia).
    assert (0 < d * (b - a)) by (apply Z.mul_pos_pos; lia). assert (0 < d * (c - b)) by (apply Z.mul_pos_pos; lia).
    rewrite Z.mul_sub_distr_l in *. lia.
Qed.

Open Scope R_scope.
(** The number of units in 1, opaque, so that it is never evaluated *)
Lemma Un_sig : {u : R | IZR (2 ^ UNITe) = u}. Proof. exists (IZR (2 ^ UNITe)). reflexivity. Qed.
Definition Un : R := proj1_sig Un_sig.
Lemma Un_def : IZR (2 ^ UNITe) = Un. Proof. exact (proj2_sig Un_sig). Qed.
Lemma Un_pos : 0 < Un. Proof. rewrite <- Un_def. apply (IZR_lt 0). exact unit_pos. Qed.
Lemma Un_big : IZR (2 ^ 500) <= Un. Proof. rewrite <- Un_def. apply IZR_le, pow2_le. unfold UNITe. lia. Qed.

Lemma rval_ulp r : (0 <= r < 2 ^ 256)%Z -> Rabs (rval r) <= IZR (2 ^ 237) * rulp r
  /\ (IZR (2 ^ 236) * rulp r <= Rabs (rval r) \/ rulp r = / Un) /\ 0 < rulp r.
Proof.
  intros Hr. rewrite rval_abs by auto. unfold rulp. pose proof (mag_bound r) as B. rewrite !Un_def. pose proof Un_pos as PU.
  rewrite ulp_qe, mag_val_sg by lia. pose proof (sg_bound (mag r) ltac:(lia)) as SB. destruct (sg_qe (mag r) ltac:(lia)) as [_ C]. pose proof (qe_nonneg (mag r)) as Q.
  assert (PQ : 0 < IZR (2 ^ qe (mag r))) by (apply (IZR_lt 0), pow2_pos; auto). rewrite mult_IZR. set (p := IZR (2 ^ qe (mag r))) in *.
  assert (IU : 0 < / Un) by (apply Rinv_0_lt_compat; auto). unfold Rdiv. set (i := / Un) in *.
  assert (S1 : IZR (sg (mag r)) <= IZR (2 ^ 237)) by (apply IZR_le; lia). set (g := IZR (sg (mag r))) in *.
  assert (PI' : 0 < p * i) by (apply Rmult_lt_0_compat; auto). split; [|split].
  - rewrite Rmult_assoc. apply Rmult_le_compat_r; lra.
  - destruct C as [C|C]; [right|left].
    + unfold p. rewrite C. change (IZR (2 ^ 0)) with 1. ring.
    + rewrite Rmult_assoc. apply Rmult_le_compat_r; [lra|]. apply IZR_le; auto.
  - exact PI'.
Qed.

Definition ee : R := 65 / 64 * / IZR (2 ^ 236).

Lemma rel_err T r : (0 <= r < 2 ^ 256)%Z -> / IZR (2 ^ 260) <= Rabs T -> within_ulp 65 64 T r -> Rabs (rval r - T) <= ee * Rabs (rval r).
Proof.
  intros Hr HT [_ H]. destruct (rval_ulp r Hr) as (A & B & C). unfold ee. assert (P6 : 0 < IZR (2 ^ 236)) by (apply IZR_lt; reflexivity).
  destruct B as [B|B].
  - eapply Rle_trans; [exact H|]. rewrite Rmult_assoc. apply Rmult_le_compat_l; [lra|].
    apply (Rmult_le_reg_l (IZR (2 ^ 236))); auto. rewrite <- Rmult_assoc, Rinv_r, Rmult_1_l by lra. exact B.
  - exfalso. rewrite B in *. pose proof Un_big as UB. pose proof Un_pos as UP.
    assert (IB : / Un <= / IZR (2 ^ 500)) by (apply Rinv_le_contravar; [apply IZR_lt; reflexivity|auto]).
    assert (T1 : Rabs T <= Rabs (rval r) + 65 / 64 * / Un).
    { replace T with (rval r + - (rval r - T)) by ring. eapply Rle_trans; [apply Rabs_triang|]. rewrite Rabs_Ropp. lra. }
    assert (T2 : / IZR (2 ^ 260) <= (IZR (2 ^ 237) + 2) * / IZR (2 ^ 500)).
    { assert (0 < IZR (2 ^ 237)) by (apply IZR_lt; reflexivity). assert (0 < / Un) by (apply Rinv_0_lt_compat; auto).
      assert ((IZR (2 ^ 237) + 2) * / Un <= (IZR (2 ^ 237) + 2) * / IZR (2 ^ 500)) by (apply Rmult_le_compat_l; lra). lra. }
    apply (Rmult_le_compat_r (IZR (2 ^ 500))) in T2; [|apply IZR_le; discriminate].
    rewrite Rmult_assoc, Rinv_l, Rmult_1_r in T2 by (apply IZR_neq; discriminate).
    assert (E : IZR (2 ^ 500) = IZR (2 ^ 260) * IZR (2 ^ 240)) by (rewrite <- mult_IZR; reflexivity). rewrite E, <- Rmult_assoc, Rinv_l, Rmult_1_l in T2 by (apply IZR_neq; discriminate).
    revert T2. apply Rlt_not_le. rewrite <- plus_IZR. apply IZR_lt. reflexivity.
Qed.

Lemma final_real s c sg gm r u : 0 < u -> c <> 0 -> gm <> 0 -> Rabs (s - sg) <= ee * Rabs s -> Rabs (c - gm) <= ee * Rabs c ->
  Rabs (r - s / c) <= / 2 * u -> Rabs r <= IZR (2 ^ 237) * u -> Rabs (r - sg / gm) <= 5 * u.
Proof.
  intros Hu Hc Hg Es Ec Er Br.
  assert (E1 : ee * IZR (2 ^ 237) = 65 / 32).
  { unfold ee. assert (E : IZR (2 ^ 237) = 2 * IZR (2 ^ 236)) by (rewrite <- mult_IZR; reflexivity). rewrite E. field. apply IZR_neq. discriminate. }
  assert (E2 : 1000 <= IZR (2 ^ 237)) by (apply IZR_le, Z.leb_le; reflexivity).
  set (K := IZR (2 ^ 237)) in *. set (e := ee) in *. clearbody K e.
  assert (E0 : 0 < e) by nra. assert (E3 : e <= 1 / 400) by nra.
  set (y := s / c) in *. assert (Ey : s = y * c) by (unfold y; field; auto).
  assert (Yb : Rabs y <= (K + / 2) * u).
  { replace y with (r + - (r - y)) by ring. eapply Rle_trans; [apply Rabs_triang|]. rewrite Rabs_Ropp. lra. }
  assert (Gb : (1 - e) * Rabs c <= Rabs gm).
  { assert (Rabs c <= Rabs gm + Rabs (c - gm)); [|lra]. replace c with (gm + (c - gm)) at 1 by ring. apply Rabs_triang. }
  assert (PC : 0 < Rabs c) by (apply Rabs_pos_lt; auto). assert (PG : 0 < Rabs gm) by (apply Rabs_pos_lt; auto).
  assert (D : Rabs (y - sg / gm) * Rabs gm <= 2 * e * (Rabs y * Rabs c)).
  { rewrite <- Rabs_mult. replace ((y - sg / gm) * gm) with ((s - sg) + - (y * (c - gm))) by (rewrite Ey; field; auto).
    eapply Rle_trans; [apply Rabs_triang|]. rewrite Rabs_Ropp, Rabs_mult. rewrite Ey, Rabs_mult in Es. rewrite Ey.
    assert (Rabs y * Rabs (c - gm) <= Rabs y * (e * Rabs c)) by (apply Rmult_le_compat_l; [apply Rabs_pos|auto]). lra. }
  assert (D2 : Rabs (y - sg / gm) * (1 - e) <= 2 * e * Rabs y).
  { apply (Rmult_le_reg_r (Rabs c)); auto. pose proof (Rabs_pos (y - sg / gm)) as PA.
    assert (Rabs (y - sg / gm) * ((1 - e) * Rabs c) <= Rabs (y - sg / gm) * Rabs gm) by (apply Rmult_le_compat_l; auto). lra. }
  assert (D3 : 2 * e * Rabs y <= (65 / 16 + / 400) * u).
  { assert (2 * e * Rabs y <= 2 * e * ((K + / 2) * u)) by (apply Rmult_le_compat_l; lra).
    replace (2 * e * ((K + / 2) * u)) with ((2 * (e * K) + e) * u) in H by field. rewrite E1 in H.
    assert ((2 * (65 / 32) + e) * u <= (65 / 16 + / 400) * u) by (apply Rmult_le_compat_r; lra). lra. }
  assert (D4 : Rabs (y - sg / gm) <= 9 / 2 * u).
  { pose proof (Rabs_pos (y - sg / gm)) as PA. set (w := Rabs (y - sg / gm)) in *. clearbody w. assert (w * (1 - e) >= w * (399 / 400)) by (apply Rmult_ge_compat_l; lra). lra. }
  replace (r - sg / gm) with ((r - y) + (y - sg / gm)) by ring. eapply Rle_trans; [apply Rabs_triang|]. lra.
Qed.

(** ** The quotient *)
Lemma quot_real s c : (0 <= s < 2 ^ 256)%Z -> (0 <= c < 2 ^ 256)%Z -> finb s = true -> finb c = true -> zerob c = false ->
  Rabs (rval s) <= 2 -> / IZR (2 ^ 262) <= Rabs (rval c) ->
  let r := spec_div s c in finb r = true /\ (0 <= r < 2 ^ 256)%Z /\ Rabs (rval r - rval s / rval c) <= / 2 * rulp r.
Proof.
  intros Hs Hc Fs Fc Zc Bs Bc. cbv zeta. rewrite (rval_abs s Hs) in Bs. rewrite (rval_abs c Hc) in Bc.
  destruct (finb_kinds s Fs) as [Ns Is]. destruct (finb_kinds c Fc) as [Nc Ic].
  unfold spec_div. rewrite Ns, Nc, Is, Ic, Zc. cbn [orb]. cbv iota.
  pose proof (mag_bound s) as MS. pose proof (mag_bound c) as MC.
  assert (Sx : (xors (sgn s) (sgn c) = 0 \/ xors (sgn s) (sgn c) = 1)%Z) by (unfold xors; destruct (_ =? _)%Z; auto).
  pose proof (mag_val_nonneg (mag s) ltac:(lia)) as PS.
  assert (PC : (0 < mag_val (mag c))%Z).
  { unfold zerob in Zc. apply Z.eqb_neq in Zc. pose proof (mag_val_lt 0 (mag c) ltac:(lia) ltac:(lia)) as L. change (mag_val 0) with 0%Z in L. exact L. }
  rewrite Un_def in Bs, Bc. pose proof Un_pos as PU. set (A := mag_val (mag s)) in *. set (B := mag_val (mag c)) in *.
  assert (LT : (A < 2 ^ 300 * B)%Z).
  { apply lt_IZR. rewrite mult_IZR. assert (H1 : IZR A <= 2 * Un). { apply (Rmult_le_compat_r Un) in Bs; [|lra]. unfold Rdiv in Bs. rewrite Rmult_assoc, Rinv_l in Bs by lra. lra. }
    assert (H2 : Un <= IZR (2 ^ 262) * IZR B).
    { apply (Rmult_le_compat_r (Un * IZR (2 ^ 262))) in Bc; [|apply Rmult_le_pos; [lra|apply IZR_le; discriminate]].
      replace (/ IZR (2 ^ 262) * (Un * IZR (2 ^ 262))) with Un in Bc by (field; apply IZR_neq; discriminate).
      replace (IZR B / Un * (Un * IZR (2 ^ 262))) with (IZR (2 ^ 262) * IZR B) in Bc by (field; lra). exact Bc. }
    assert (H3 : 4 * IZR (2 ^ 262) <= IZR (2 ^ 300)) by (rewrite <- mult_IZR; apply IZR_le, Z.leb_le; reflexivity).
    assert (0 < IZR B) by (apply (IZR_lt 0); auto). assert (0 < IZR (2 ^ 262)) by (apply IZR_lt; reflexivity).
    assert (4 * IZR (2 ^ 262) * IZR B <= IZR (2 ^ 300) * IZR B) by (apply Rmult_le_compat_r; lra). lra. }
  assert (EM : exists M, M = rnd_mag (A * 2 ^ UNITe) B) by eauto. destruct EM as [M EM]. rewrite <- EM.
  pose proof unit_pos as UP.
  assert (MI : (M < INFm)%Z).
  { rewrite EM. eapply Z.le_lt_trans; [apply (rnd_mag_upper _ _ (300 + UNITe))|].
    - apply Z.mul_nonneg_nonneg; lia.
    - exact PC.
    - unfold UNITe; lia.
    - rewrite pow2_add by (unfold UNITe; lia). clear - UP LT. revert UP. generalize (2 ^ UNITe)%Z. intros w UP. replace (2 ^ 300 * w * B)%Z with (2 ^ 300 * B * w)%Z by ring. apply Z.mul_lt_mono_pos_r; auto.
    - reflexivity. }
  assert (M0 : (0 <= M)%Z) by (rewrite EM; apply rnd_mag_bounds; [apply Z.mul_nonneg_nonneg; lia|exact PC]).
  pose proof (quot_err (A * 2 ^ UNITe) B ltac:(apply Z.mul_nonneg_nonneg; lia) PC) as QE. cbv zeta in QE. rewrite <- EM in QE. specialize (QE MI). clear EM.
  assert (M2 : (0 <= M < 2 ^ 255)%Z) by (unfold INFm in MI; lia).
  assert (E1 : sgn (mkf (xors (sgn s) (sgn c)) M) = xors (sgn s) (sgn c)) by (apply sgn_mkf; auto).
  assert (E2 : mag (mkf (xors (sgn s) (sgn c)) M) = M) by (apply mag_mkf; auto).
  split; [unfold finb; rewrite E2; apply Z.ltb_lt; auto|]. split; [unfold mkf; lia|].
  unfold rulp, rval, sval. rewrite E1, E2, !Un_def. fold A B. rewrite !mult_IZR, !minus_IZR, !mult_IZR.
  assert (SG : 1 - 2 * IZR (xors (sgn s) (sgn c)) = (1 - 2 * IZR (sgn s)) * (1 - 2 * IZR (sgn c)) /\ (1 - 2 * IZR (sgn c)) * (1 - 2 * IZR (sgn c)) = 1
     /\ Rabs ((1 - 2 * IZR (sgn s)) * (1 - 2 * IZR (sgn c))) = 1 /\ 1 - 2 * IZR (sgn c) <> 0).
  { destruct (sgn01 s Hs) as [-> | ->], (sgn01 c Hc) as [-> | ->]; cbn [xors Z.eqb]; unfold xors; cbn [Z.eqb Pos.eqb]; (split; [ring|split; [ring|split; [|lra]]]).
    - rewrite Rabs_pos_eq; lra.
    - rewrite Rabs_left; lra.
    - rewrite Rabs_left; lra.
    - rewrite Rabs_pos_eq; lra. }
  destruct SG as (-> & SC & SA & SN). apply IZR_le in QE. rewrite !mult_IZR, abs_IZR, minus_IZR, !mult_IZR, Un_def in QE.
  assert (RB : 0 < IZR B) by (apply (IZR_lt 0); auto).
  set (a := IZR A) in *. set (b := IZR B) in *. set (m := IZR (mag_val M)) in *. set (u := IZR (ulp_units M)) in *.
  set (p := 1 - 2 * IZR (sgn s)) in *. set (q := 1 - 2 * IZR (sgn c)) in *. set (V := Un) in *. clearbody a b m u p q V. clear - QE RB PU SC SA SN.
  replace (p * q * m / V - p * a / V / (q * b / V)) with ((p * q) * ((b * m - a * V) * / (b * V))).
  2: { replace (p * a / V / (q * b / V)) with (p * (q * q) * a / (q * b)) by (rewrite SC; field; repeat split; lra). field. repeat split; lra. }
  rewrite Rabs_mult, SA, Rmult_1_l, Rabs_mult. assert (PBV : 0 < b * V) by (apply Rmult_lt_0_compat; auto).
  rewrite (Rabs_pos_eq (/ (b * V))) by (left; apply Rinv_0_lt_compat; auto). rewrite Rabs_minus_sym in QE.
  apply (Rmult_le_reg_r (b * V)); auto. rewrite Rmult_assoc, Rinv_l, Rmult_1_r by lra. replace (/ 2 * (u / V) * (b * V)) with (b * u / 2) by (field; lra). lra.
Qed.

(** ** Sine and cosine of data are not tiny *)
Lemma lower_t V t : (2 ^ 236 <= Z.abs V <= BND)%Z -> Rabs (IZR V - SR * t) <= 3 -> / IZR (2 ^ 260) <= Rabs (sin t) /\ / IZR (2 ^ 260) <= Rabs (cos t).
Proof.
  intros [H1 H2] E. pose proof SR_pos as HS. apply IZR_le in H1, H2. rewrite abs_IZR in H1, H2.
  assert (A1 : Rabs (SR * t) <= Rabs (IZR V) + 3).
  { replace (SR * t) with (IZR V + - (IZR V - SR * t)) by ring. eapply Rle_trans; [apply Rabs_triang|]. rewrite Rabs_Ropp. lra. }
  assert (A2 : Rabs (IZR V) <= Rabs (SR * t) + 3).
  { replace (IZR V) with (SR * t + (IZR V - SR * t)) at 1 by ring. eapply Rle_trans; [apply Rabs_triang|]. lra. }
  rewrite Rabs_mult, (Rabs_pos_eq SR) in A1, A2 by lra.
  assert (B1 : IZR BND + 3 <= 4 / 5 * SR).
  { assert (5 * (IZR BND + 3) <= 4 * SR); [|lra]. unfold SR. rewrite <- plus_IZR, <- !mult_IZR. apply IZR_le, Z.leb_le. reflexivity. }
  assert (B2 : 8 * SR <= IZR (2 ^ 260) * (IZR (2 ^ 236) - 3)) by (unfold SR; rewrite <- minus_IZR, <- !mult_IZR; apply IZR_le, Z.leb_le; reflexivity).
  assert (P2 : 0 < IZR (2 ^ 260)) by (apply IZR_lt; reflexivity).
  assert (T1 : Rabs t <= 4 / 5) by (apply (Rmult_le_reg_l SR); lra).
  assert (T2 : 8 * / IZR (2 ^ 260) <= Rabs t).
  { apply (Rmult_le_reg_l (SR * IZR (2 ^ 260))); [apply Rmult_lt_0_compat; lra|]. replace (SR * IZR (2 ^ 260) * (8 * / IZR (2 ^ 260))) with (8 * SR) by (field; lra).
    apply Rle_trans with (1 := B2). replace (SR * IZR (2 ^ 260) * Rabs t) with (IZR (2 ^ 260) * (SR * Rabs t)) by ring. apply Rmult_le_compat_l; lra. }
  assert (I1 : / IZR (2 ^ 260) <= / 2) by (apply Rinv_le_contravar; [lra|apply IZR_le, Z.leb_le; reflexivity]).
  assert (TT : t * t <= 16 / 25).
  { replace (t * t) with (Rabs t * Rabs t) by (rewrite <- Rabs_mult; apply Rabs_pos_eq; nra). pose proof (Rabs_pos t). nra. }
  split.
  - pose proof (sin_small t ltac:(lra)) as S. pose proof (Rabs_pos t) as P0.
    assert (Rabs t <= Rabs (sin t) + Rabs (t - sin t)).
    { replace t with (sin t + (t - sin t)) at 1 by ring. apply Rabs_triang. }
    assert (Rabs t * (t * t) <= Rabs t * (16 / 25)) by (apply Rmult_le_compat_l; auto). lra.
  - pose proof (cos_small t) as C. apply rabs_inv in C. pose proof (Rle_abs (cos t)). lra.
Qed.

Section Tan.
Context {P : profile}.
Variable large : Z -> f256 -> option (Z * FP492).

Lemma lower v : (0 <= v < 2 ^ 256)%Z -> finb v = true -> / IZR (2 ^ 256) <= Rabs (rval v) < 8 ->
  / IZR (2 ^ 260) <= Rabs (sin (rval v)) /\ / IZR (2 ^ 260) <= Rabs (cos (rval v)).
Proof.
  intros Hv Hf [H1 H2].
  assert (Hz : zerob v = false).
  { destruct (zerob v) eqn:Z; auto. exfalso. unfold rval in H1. rewrite sval_zerob in H1 by auto. unfold Rdiv in H1. rewrite Rmult_0_l, Rabs_R0 in H1.
    assert (0 < / IZR (2 ^ 256)) by (apply Rinv_0_lt_compat, IZR_lt; reflexivity). lra. }
  assert (EK : exists k, k = 261886%Z) by eauto. destruct EK as [k EK].
  pose proof (not_tiny v k EK Hv H1) as HQ. destruct (units_of v k EK Hv Hf Hz HQ) as (X & EX & Ha & ER).
  pose proof (X_ge _ _ k EK Ha HQ EX) as X236. pose proof (units_bound v X Hv ltac:(lia) ER) as EA. rewrite EA in *.
  pose proof (SR_scale X 8 8 eq_refl H2) as X8.
  destruct (reduce_ok large (mag v) X k EK Ha EX ltac:(lia)) as (j & V & _ & Hj & HV & HVB & HJ).
  pose proof SR_pos as HS. destruct (redc_real j Hj) as [RC RC0]. set (x := IZR X / SR) in *.
  set (t := x - IZR j * (PI / 2)). assert (Et : Rabs (IZR V - SR * t) <= 3).
  { rewrite HV, minus_IZR. unfold t, x. replace (IZR X - IZR (redc j) - SR * (IZR X / SR - IZR j * (PI / 2))) with (- (IZR (redc j) - SR * (IZR j * (PI / 2)))) by (field; lra).
    rewrite Rabs_Ropp. exact RC. }
  assert (V236 : (2 ^ 236 <= Z.abs V)%Z).
  { destruct (Z.eq_dec j 0) as [J|J]; [rewrite (RC0 J), Z.sub_0_r in HV; rewrite HV; lia|]. destruct (HJ ltac:(lia)) as [_ HJ2]. lia. }
  destruct (lower_t V t ltac:(lia) Et) as [LS LC].
  assert (Ex : x = t + IZR j * (PI / 2)) by (unfold t; ring). destruct (quadrant j t Hj) as [QS QC]. rewrite <- Ex in QS, QC.
  assert (L : / IZR (2 ^ 260) <= Rabs (sin x) /\ / IZR (2 ^ 260) <= Rabs (cos x)).
  { rewrite QS, QC. destruct (j mod 4 =? 0)%Z; [auto|]. destruct (j mod 4 =? 1)%Z; [rewrite Rabs_Ropp; auto|]. destruct (j mod 4 =? 2)%Z; rewrite !Rabs_Ropp; auto. }
  rewrite ER. destruct (sg01 v Hv) as [-> | ->].
  - replace ((1 - 2 * 0) * x) with x by ring. exact L.
  - replace ((1 - 2 * 1) * x) with (- x) by ring. rewrite sin_neg, cos_neg, Rabs_Ropp. exact L.
Qed.

Lemma L_tan_ulp x : wf256 x -> finb (v256 x) = true -> / IZR (2 ^ 256) <= Rabs (rval (v256 x)) < 8 ->
  returns_in (f_tan large x) (within_ulp 5 1 (tan (rval (v256 x)))).
Proof.
  intros W Hf H. pose proof (v256_bound x W) as Bv. destruct (L_tan_wf large x W Hf H) as (r & Er & Wr & s & c & Bs & Bc & [Ns _] & [Nc _] & Nr).
  exists r. split; [exact Er|]. split; [exact Wr|]. rewrite Nr. clear Nr Er Wr r.
  destruct (lower (v256 x) Bv Hf H) as [LS LC]. set (y := rval (v256 x)) in *. clearbody y.
  pose proof (rel_err _ s Bs LS Ns) as RS. pose proof (rel_err _ c Bc LC Nc) as RC.
  assert (P2 : 0 < / IZR (2 ^ 260)) by (apply Rinv_0_lt_compat, IZR_lt; reflexivity).
  assert (Ee : 0 < ee <= / 4).
  { unfold ee. assert (0 < / IZR (2 ^ 236)) by (apply Rinv_0_lt_compat, IZR_lt; reflexivity).
    assert (/ IZR (2 ^ 236) <= / 8) by (apply Rinv_le_contravar; [lra|apply IZR_le, Z.leb_le; reflexivity]). lra. }
  assert (S2 : Rabs (rval s) <= 2).
  { assert (Rabs (rval s) <= Rabs (sin y) + Rabs (rval s - sin y)) by (replace (rval s) with (sin y + (rval s - sin y)) at 1 by ring; apply Rabs_triang).
    assert (Rabs (sin y) <= 1) by (apply Rabs_le; apply SIN_bound). pose proof (Rabs_pos (rval s)).
    assert (ee * Rabs (rval s) <= / 4 * Rabs (rval s)) by (apply Rmult_le_compat_r; lra). lra. }
  assert (C2 : / IZR (2 ^ 262) <= Rabs (rval c)).
  { assert (Rabs (cos y) <= Rabs (rval c) + Rabs (rval c - cos y)).
    { replace (cos y) with (rval c + - (rval c - cos y)) at 1 by ring. eapply Rle_trans; [apply Rabs_triang|]. rewrite Rabs_Ropp. lra. }
    pose proof (Rabs_pos (rval c)). assert (ee * Rabs (rval c) <= / 4 * Rabs (rval c)) by (apply Rmult_le_compat_r; lra).
    assert (E : / IZR (2 ^ 262) = / 4 * / IZR (2 ^ 260)) by (rewrite <- Rinv_mult, <- mult_IZR; reflexivity). rewrite E. lra. }
  assert (P3 : 0 < / IZR (2 ^ 262)) by (apply Rinv_0_lt_compat, IZR_lt; reflexivity).
  assert (C0 : rval c <> 0). { intros Z. rewrite Z, Rabs_R0 in C2. lra. }
  assert (ZC : zerob c = false).
  { destruct (zerob c) eqn:Z; auto. exfalso. apply C0. unfold rval. rewrite sval_zerob by auto. unfold Rdiv. ring. }
  assert (G0 : cos y <> 0). { intros Z. rewrite Z, Rabs_R0 in LC. lra. }
  destruct Ns as [Fs _]. destruct Nc as [Fc _].
  destruct (quot_real s c Bs Bc Fs Fc ZC S2 C2) as (Fr & Br & Qr). split; [exact Fr|].
  replace (5 / 1) with 5 by field. destruct (rval_ulp (spec_div s c) Br) as (U1 & _ & U2). unfold tan.
  apply (final_real (rval s) (rval c)); auto.
Qed.
End Tan.

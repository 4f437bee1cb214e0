(** * SpecAlg: algebraic consequences of the specification in Spec.v

    Bounds, commutativity, exact cases, monotonicity, Sterbenz and the
    error-free sum of Dekker, all about the specified operations. *)

From Coq Require Import ZArith Lia Bool.
From Verif Require Import ZLemmas Spec SpecFns SpecLemmas SpecProps F256Lemmas BasicProofs CodecProofs.
Open Scope Z_scope.

(** ** Ranges *)

Lemma mkf_bound s m : (s = 0 \/ s = 1) -> 0 <= m < 2 ^ 255 -> 0 <= mkf s m < 2 ^ 256.
Proof. unfold mkf. change (2 ^ 256) with (2 ^ 255 + 2 ^ 255). intros [-> | ->]; lia. Qed.

Lemma rnd_mag_lt n d : 0 <= n -> 0 < d -> 0 <= rnd_mag n d < 2 ^ 255.
Proof. intros. pose proof (rnd_mag_bounds n d). unfold INFm in *. lia. Qed.

Lemma QNAN_bound : 0 <= QNAN < 2 ^ 256. Proof. unfold QNAN. lia. Qed.
Lemma INFm_lt : 0 < INFm < 2 ^ 255. Proof. unfold INFm. lia. Qed.

Lemma xors01 a b : xors a b = 0 \/ xors a b = 1.
Proof. unfold xors. destruct (_ =? _); auto. Qed.

Lemma rnd_signed_bound s n d : (s = 0 \/ s = 1) -> 0 < d -> 0 <= rnd_signed s n d < 2 ^ 256.
Proof.
  intros Hs Hd. unfold rnd_signed. destruct (n =? 0). apply mkf_bound; auto; lia.
  apply mkf_bound. destruct (n <? 0); auto. apply rnd_mag_lt; lia.
Qed.

Lemma sgn_prod01 x y : 0 <= x < 2 ^ 256 -> 0 <= y < 2 ^ 256 -> sgn x * sgn y = 0 \/ sgn x * sgn y = 1.
Proof. intros Hx Hy. destruct (sgn01 x Hx) as [-> | ->], (sgn01 y Hy) as [-> | ->]; auto. Qed.

Lemma spec_neg_bound x : 0 <= x < 2 ^ 256 -> 0 <= spec_neg x < 2 ^ 256.
Proof. intros H. unfold spec_neg. apply mkf_bound. destruct (sgn01 x H) as [-> | ->]; auto. apply mag_bound. Qed.

Lemma spec_add_bound x y : 0 <= x < 2 ^ 256 -> 0 <= y < 2 ^ 256 -> 0 <= spec_add x y < 2 ^ 256.
Proof.
  intros Hx Hy. unfold spec_add. pose proof QNAN_bound.
  destruct (nanb x || nanb y); auto. destruct (infb x). destruct (infb y && _); auto.
  destruct (infb y); auto. apply rnd_signed_bound. apply sgn_prod01; auto. lia.
Qed.

Lemma spec_sub_bound x y : 0 <= x < 2 ^ 256 -> 0 <= y < 2 ^ 256 -> 0 <= spec_sub x y < 2 ^ 256.
Proof. intros. unfold spec_sub. apply spec_add_bound; auto. apply spec_neg_bound; auto. Qed.

Lemma mvn v : 0 <= mag_val (mag v).
Proof. apply mag_val_nonneg. apply mag_bound. Qed.

Lemma unit_pos : 0 < 2 ^ UNITe.
Proof. apply pow2_pos. unfold UNITe. lia. Qed.

Lemma spec_mul_bound x y : 0 <= spec_mul x y < 2 ^ 256.
Proof.
  unfold spec_mul. pose proof QNAN_bound. pose proof INFm_lt.
  destruct (nanb x || nanb y); auto. destruct (infb x || infb y).
  destruct (zerob x || zerob y); auto. apply mkf_bound; [apply xors01|lia].
  apply mkf_bound. apply xors01. apply rnd_mag_lt. apply Z.mul_nonneg_nonneg; apply mvn. apply unit_pos.
Qed.

Lemma spec_div_bound x y : 0 <= spec_div x y < 2 ^ 256.
Proof.
  unfold spec_div. pose proof QNAN_bound. pose proof INFm_lt. pose proof (xors01 (sgn x) (sgn y)).
  destruct (nanb x || nanb y); auto. destruct (infb x). destruct (infb y); auto. apply mkf_bound; auto; lia.
  destruct (infb y). apply mkf_bound; auto; lia.
  destruct (zerob y) eqn:Z. destruct (zerob x); auto. apply mkf_bound; auto; lia.
  apply mkf_bound; auto. apply rnd_mag_lt. apply Z.mul_nonneg_nonneg. apply mvn. pose proof unit_pos. lia.
  unfold zerob in Z. apply Z.eqb_neq in Z. apply mag_val_pos. pose proof (mag_bound y). lia.
Qed.

Lemma spec_rem_bound x y : 0 <= x < 2 ^ 256 -> 0 <= y < 2 ^ 256 -> 0 <= spec_rem x y < 2 ^ 256.
Proof.
  intros Hx Hy. unfold spec_rem. pose proof QNAN_bound.
  destruct (nanb x || nanb y || infb x || zerob y) eqn:C; auto. destruct (infb y); auto.
  apply mkf_bound. apply sgn01; auto. apply rnd_mag_lt; [|lia].
  apply Z.mod_pos_bound. apply mag_val_pos. pose proof (mag_bound y).
  apply orb_false_elim in C as [_ C]. unfold zerob in C. apply Z.eqb_neq in C. lia.
Qed.

Lemma spec_fma_bound x y a : 0 <= x < 2 ^ 256 -> 0 <= y < 2 ^ 256 -> 0 <= a < 2 ^ 256 -> 0 <= spec_fma x y a < 2 ^ 256.
Proof.
  intros Hx Hy Ha. unfold spec_fma. pose proof QNAN_bound. pose proof INFm_lt.
  destruct (nanb x || nanb y || nanb a); auto. destruct (infb x || infb y).
  destruct (zerob x || zerob y); auto. destruct (infb a && _); auto. apply mkf_bound; [apply xors01|lia].
  destruct (infb a); auto. apply rnd_signed_bound. 2: apply unit_pos.
  destruct (zerob a); auto. destruct (xors01 (sgn x) (sgn y)) as [-> | ->], (sgn01 a Ha) as [-> | ->]; auto.
Qed.

Lemma spec_sos_bound x y : 0 <= spec_sos x y < 2 ^ 256.
Proof.
  unfold spec_sos. pose proof QNAN_bound. pose proof INFm_lt.
  destruct (nanb x || nanb y); auto. destruct (infb x || infb y). apply mkf_bound; auto; lia.
  apply mkf_bound; auto. apply rnd_mag_lt. apply Z.add_nonneg_nonneg; apply Z.mul_nonneg_nonneg; apply mvn. apply unit_pos.
Qed.

(** ** Signs and values of specified results *)

Lemma nan_q : nanb QNAN = true. Proof. reflexivity. Qed.
Lemma nan_q_f : nanb QNAN = false -> False. Proof. rewrite nan_q. discriminate. Qed.

Lemma sgn_neg x : 0 <= x < 2 ^ 256 -> sgn (spec_neg x) = 1 - sgn x.
Proof. intros. unfold spec_neg. apply sgn_mkf. apply mag_bound. Qed.
Lemma mag_neg x : 0 <= x < 2 ^ 256 -> mag (spec_neg x) = mag x.
Proof. intros. unfold spec_neg. apply mag_mkf. apply mag_bound. Qed.
Lemma sval_neg_op x : 0 <= x < 2 ^ 256 -> sval (spec_neg x) = - sval x.
Proof. intros. unfold sval. rewrite sgn_neg, mag_neg by auto. destruct (sgn01 x H) as [-> | ->]; ring. Qed.
Lemma neg_neg x : 0 <= x < 2 ^ 256 -> spec_neg (spec_neg x) = x.
Proof.
  intros. unfold spec_neg at 1. rewrite sgn_neg, mag_neg by auto. replace (1 - (1 - sgn x)) with (sgn x) by ring.
  apply mkf_sgn_mag.
Qed.
Lemma kinds_neg x : 0 <= x < 2 ^ 256 ->
  nanb (spec_neg x) = nanb x /\ infb (spec_neg x) = infb x /\ finb (spec_neg x) = finb x /\ zerob (spec_neg x) = zerob x.
Proof. intros. unfold nanb, infb, finb, zerob. rewrite mag_neg by auto. auto. Qed.

Lemma finb_kinds x : finb x = true -> nanb x = false /\ infb x = false.
Proof. unfold finb, nanb, infb. intros H. apply Z.ltb_lt in H. split. apply Z.ltb_ge; lia. apply Z.eqb_neq; lia. Qed.

Lemma sval_zero x : 0 <= x < 2 ^ 256 -> sval x = 0 -> mag x = 0.
Proof.
  intros Hx H. pose proof (mag_bound x). destruct (Z.eq_dec (mag x) 0); auto.
  pose proof (mag_val_pos (mag x) ltac:(lia)). unfold sval in H. destruct (sgn01 x Hx) as [E|E]; rewrite E in H; lia.
Qed.

(** Result of an exact rounding. *)
Lemma rnd_signed_exact s n a : (s = 0 \/ s = 1) -> 0 <= a < INFm -> mag_val a = Z.abs n ->
  rnd_signed s n 1 = mkf (if n =? 0 then s else if n <? 0 then 1 else 0) a.
Proof.
  intros Hs Ha E. unfold rnd_signed. destruct (Z.eqb_spec n 0) as [->|N].
  - cbn [Z.abs] in E. f_equal. symmetry. apply mag_val_inj; try lia. rewrite E. reflexivity.
  - rewrite <- E, rnd_mag_exact by lia. reflexivity.
Qed.

Definition rep (n : Z) : Prop := exists a, 0 <= a < INFm /\ mag_val a = Z.abs n.

Lemma sval_mkf s m : 0 <= m < 2 ^ 255 -> sval (mkf s m) = (1 - 2 * s) * mag_val m.
Proof. intros. unfold sval. rewrite sgn_mkf, mag_mkf by auto. reflexivity. Qed.

Lemma rnd_signed_rep s n : (s = 0 \/ s = 1) -> rep n ->
  finb (rnd_signed s n 1) = true /\ sval (rnd_signed s n 1) = n.
Proof.
  intros Hs (a & Ha & E). rewrite (rnd_signed_exact s n a) by auto. unfold INFm in Ha.
  assert (0 <= a < 2 ^ 255) by lia. unfold finb. rewrite mag_mkf, sval_mkf by auto. split. apply Z.ltb_lt; unfold INFm; lia.
  rewrite E. destruct (Z.eqb_spec n 0) as [->|N]. cbn [Z.abs]. ring. destruct (Z.ltb_spec n 0); lia.
Qed.

Lemma spec_add_rep x y : 0 <= x < 2 ^ 256 -> 0 <= y < 2 ^ 256 -> finb x = true -> finb y = true ->
  rep (sval x + sval y) -> finb (spec_add x y) = true /\ sval (spec_add x y) = sval x + sval y.
Proof.
  intros Hx Hy Fx Fy R. unfold spec_add. destruct (finb_kinds x Fx) as [-> ->], (finb_kinds y Fy) as [-> ->].
  cbn [orb]. apply rnd_signed_rep; auto. apply sgn_prod01; auto.
Qed.

Lemma spec_sub_rep x y : 0 <= x < 2 ^ 256 -> 0 <= y < 2 ^ 256 -> finb x = true -> finb y = true ->
  rep (sval x - sval y) -> finb (spec_sub x y) = true /\ sval (spec_sub x y) = sval x - sval y.
Proof.
  intros Hx Hy Fx Fy R. unfold spec_sub.
  replace (sval x - sval y) with (sval x + sval (spec_neg y)) in * by (rewrite sval_neg_op by auto; ring).
  apply spec_add_rep; auto. apply spec_neg_bound; auto.
  destruct (kinds_neg y Hy) as (_ & _ & -> & _). auto.
Qed.

(** At most 237 significant bits and not larger than a finite number: representable. *)
Lemma rep_intro m E n b : Z.abs m <= 2 ^ 237 -> 0 <= E -> n = m * 2 ^ E ->
  0 <= b < INFm -> Z.abs n <= mag_val b -> rep n.
Proof.
  intros Hm HE -> Hb Hn. pose proof (pow2_pos E HE) as PE.
  assert (Ea : Z.abs (m * 2 ^ E) = Z.abs m * 2 ^ E) by (rewrite Z.abs_mul, (Z.abs_eq (2 ^ E)) by lia; auto).
  destruct (representable (Z.abs m) E (E + 1)) as (a & Ba & Va); try lia.
  { replace (237 + (E + 1)) with (238 + E) by ring. rewrite pow2_add by lia.
    apply Z.mul_lt_mono_pos_r. auto. change (2 ^ 238) with (2 * 2 ^ 237). lia. }
  exists a. split; [|lia]. split; [lia|].
  destruct (Z.lt_ge_cases b a) as [L|L]; [|lia]. pose proof (mag_val_lt b a ltac:(lia) L). lia.
Qed.

(** The fields of a finite datum. *)
Lemma sval_fields x : 0 <= x < 2 ^ 256 -> finb x = true ->
  exists m, sval x = m * 2 ^ qe (mag x) /\ Z.abs m = sg (mag x).
Proof.
  intros Hx F. pose proof (mag_bound x) as B. pose proof (sg_bound (mag x) ltac:(lia)).
  exists ((1 - 2 * sgn x) * sg (mag x)). unfold sval. rewrite (mag_val_sg (mag x)) by lia. split. ring.
  destruct (sgn01 x Hx) as [-> | ->]; lia.
Qed.

Lemma sval_abs x : 0 <= x < 2 ^ 256 -> Z.abs (sval x) = mag_val (mag x).
Proof. intros Hx. pose proof (mvn x). unfold sval. destruct (sgn01 x Hx) as [-> | ->]; lia. Qed.

(** ** Rounding: error bound, sign and monotonicity *)

(** rnd_mag of an integer: the result is a multiple of 2^e for the exponent e of
    the binade of n, with an error of at most half of it. *)
Lemma rnd_mag_err n : 0 <= n -> rnd_mag n 1 < INFm ->
  exists e q, e = Z.max 0 (Z.log2 n - 236) /\ mag_val (rnd_mag n 1) = q * 2 ^ e
    /\ 0 <= q <= 2 ^ 237 /\ 2 * Z.abs (n - q * 2 ^ e) <= 2 ^ e /\ (e = 0 -> n = q).
Proof.
  intros Hn. unfold rnd_mag. rewrite Z.div_1_r, Z.mul_1_l. set (e := Z.max 0 (Z.log2 n - 236)).
  assert (Ed : e = Z.max 0 (Z.log2 n - 236)) by reflexivity.
  pose proof (Z.log2_nonneg n) as Ln.
  assert (He : 0 <= e) by lia.
  assert (HU : n <= 2 ^ 237 * 2 ^ e).
  { destruct (Z.eq_dec n 0). pose proof (pow2_pos e He). lia. pose proof (Z.log2_spec n ltac:(lia)) as [_ L].
    rewrite <- pow2_add by lia. pose proof (pow2_le (Z.succ (Z.log2 n)) (237 + e) ltac:(lia)). lia. }
  assert (HL : e = 0 \/ 2 ^ 236 * 2 ^ e <= n).
  { destruct (Z.eq_dec e 0) as [|n0]; auto. right. assert (0 < n) by (destruct (Z.eq_dec n 0) as [N0|]; [exfalso; apply n0; unfold e; rewrite N0; reflexivity|lia]).
    pose proof (Z.log2_spec n ltac:(lia)) as [L _]. rewrite <- pow2_add by lia.
    pose proof (pow2_le (236 + e) (Z.log2 n) ltac:(lia)). lia. }
  intros HI. exists e, (rne_div n (2 ^ e)). pose proof (pow2_pos e He) as Pe.
  pose proof (rne_div_spec n (2 ^ e) Pe) as (R1 & R2 & R3).
  pose proof (rne_div_nonneg n (2 ^ e) Hn Pe) as Q0. pose proof (rne_div_le_bound n (2 ^ e) (2 ^ 237) Pe HU) as QU.
  assert (QL : e = 0 \/ 2 ^ 236 <= rne_div n (2 ^ e)).
  { destruct HL; auto. right. apply rne_div_ge_bound; auto. }
  assert (E0 : e = 0 -> n = rne_div n (2 ^ e)).
  { intros ->. change (2 ^ 0) with 1. symmetry. apply rne_div_1. }
  set (q := rne_div n (2 ^ e)) in *. clearbody q.
  split. exact Ed. split; [|split; [lia|split; [lia|auto]]].
  rewrite Z.min_r by lia. clearbody e.
  destruct (Z.eq_dec q (2 ^ 237)) as [->|].
  - replace (e * 2 ^ 236 + 2 ^ 237) with ((e + 1) * 2 ^ 236 + 2 ^ 236) by ring.
    rewrite mag_val_any by lia. rewrite pow2_S by lia. change (2 ^ 237) with (2 * 2 ^ 236). set (p := 2 ^ 236). ring.
  - apply mag_val_any; lia.
Qed.

(** Monotone in the rational n / d. *)
Lemma rnd_mag_mono n d n' d' : 0 <= n -> 0 < d -> 0 <= n' -> 0 < d' -> n * d' <= n' * d ->
  rnd_mag n d <= rnd_mag n' d'.
Proof.
  intros Hn Hd Hn' Hd' H.
  pose proof (Z.mul_pos_pos d d' Hd Hd') as PD.
  rewrite <- (rnd_mag_scale n d d') by lia. rewrite <- (rnd_mag_scale n' d' d) by lia. rewrite (Z.mul_comm d' d).
  assert (0 <= n * d') by (apply Z.mul_nonneg_nonneg; lia).
  set (N := n * d') in *. set (N' := n' * d) in *. set (D := d * d') in *. clearbody N N' D. clear - PD H H0.
  assert (G : N' / D < N / D -> False) by (intros; pose proof (Z.div_le_mono N N' D PD H); lia).
  pose proof (rnd_mag_nearest N D (rnd_mag N' D) H0 PD (rnd_mag_bounds N' D ltac:(lia) PD)) as A.
  pose proof (rnd_mag_nearest N' D (rnd_mag N D) ltac:(lia) PD (rnd_mag_bounds N D H0 PD)) as B.
  destruct (Z.le_gt_cases (rnd_mag N D) (rnd_mag N' D)) as [|C]; auto. exfalso.
  specialize (A ltac:(lia)). specialize (B ltac:(lia)). cbv zeta in *.
  pose proof (rnd_mag_bounds N' D ltac:(lia) PD) as B1.
  pose proof (mag_val_lt (rnd_mag N' D) (rnd_mag N D) ltac:(lia) C) as L.
  assert (L2 : D * mag_val (rnd_mag N' D) < D * mag_val (rnd_mag N D)) by (apply Z.mul_lt_mono_pos_l; lia).
  destruct (Z.eq_dec N N') as [->|]. lia.
  set (X := D * mag_val (rnd_mag N' D)) in *. set (Y := D * mag_val (rnd_mag N D)) in *. clearbody X Y. lia.
Qed.

(** The signed magnitude as an extended value. *)
Lemma sval_rnd_signed s n d : (s = 0 \/ s = 1) -> 0 < d ->
  sval (rnd_signed s n d) = Z.sgn n * mag_val (rnd_mag (Z.abs n) d).
Proof.
  intros Hs Hd. unfold rnd_signed. destruct (Z.eqb_spec n 0) as [->|N].
  - rewrite sval_mkf by lia. rewrite mag_val_sub by lia. cbn [Z.sgn]. ring.
  - rewrite sval_mkf by (apply rnd_mag_lt; lia). destruct (Z.ltb_spec n 0).
    rewrite Z.sgn_neg by lia. ring. rewrite Z.sgn_pos by lia. ring.
Qed.

Lemma sval_rnd_signed_mono s s' n n' d : (s = 0 \/ s = 1) -> (s' = 0 \/ s' = 1) -> 0 < d -> n <= n' ->
  sval (rnd_signed s n d) <= sval (rnd_signed s' n' d).
Proof.
  intros Hs Hs' Hd H. rewrite !sval_rnd_signed by auto.
  pose proof (mag_val_nonneg (rnd_mag (Z.abs n) d) (proj1 (rnd_mag_bounds (Z.abs n) d ltac:(lia) Hd))) as P.
  pose proof (mag_val_nonneg (rnd_mag (Z.abs n') d) (proj1 (rnd_mag_bounds (Z.abs n') d ltac:(lia) Hd))) as P'.
  pose proof (rnd_mag_bounds (Z.abs n) d ltac:(lia) Hd). pose proof (rnd_mag_bounds (Z.abs n') d ltac:(lia) Hd).
  assert (M : Z.abs n <= Z.abs n' -> mag_val (rnd_mag (Z.abs n) d) <= mag_val (rnd_mag (Z.abs n') d)).
  { intros. apply mag_val_le. lia. apply rnd_mag_mono; try lia. apply Z.mul_le_mono_nonneg_r; lia. }
  assert (M' : Z.abs n' <= Z.abs n -> mag_val (rnd_mag (Z.abs n') d) <= mag_val (rnd_mag (Z.abs n) d)).
  { intros. apply mag_val_le. lia. apply rnd_mag_mono; try lia. apply Z.mul_le_mono_nonneg_r; lia. }
  set (p := mag_val (rnd_mag (Z.abs n) d)) in *. set (p' := mag_val (rnd_mag (Z.abs n') d)) in *. clearbody p p'.
  clear - H P P' M M'.
  destruct (Z.lt_trichotomy n 0) as [?|[?|?]], (Z.lt_trichotomy n' 0) as [?|[?|?]];
    subst; try lia; repeat first [rewrite Z.sgn_neg by lia | rewrite Z.sgn_pos by lia | progress cbn [Z.sgn]]; try lia.
Qed.

(** ** Algebraic laws *)

Lemma spec_add_comm x y : 0 <= x < 2 ^ 256 -> 0 <= y < 2 ^ 256 -> spec_add x y = spec_add y x.
Proof.
  intros Hx Hy. unfold spec_add. rewrite (orb_comm (nanb x)). destruct (nanb y || nanb x); auto.
  rewrite (Z.eqb_sym (sgn x)), (Z.mul_comm (sgn x)), (Z.add_comm (sval x)).
  destruct (infb x) eqn:Ix, (infb y) eqn:Iy; auto; cbn [andb]; auto.
  destruct (Z.eqb_spec (sgn y) (sgn x)); auto. cbn [negb].
  unfold infb in *. apply Z.eqb_eq in Ix, Iy. rewrite (sgn_mag x), (sgn_mag y). lia.
Qed.

Lemma spec_mul_comm x y : spec_mul x y = spec_mul y x.
Proof.
  unfold spec_mul, xors. rewrite (orb_comm (nanb x)), (orb_comm (infb x)), (orb_comm (zerob x)), (Z.eqb_sym (sgn x)).
  rewrite (Z.mul_comm (mag_val (mag x))). reflexivity.
Qed.

Lemma spec_sub_self x : 0 <= x < 2 ^ 256 -> finb x = true -> spec_sub x x = 0.
Proof.
  intros Hx F. unfold spec_sub, spec_add. destruct (kinds_neg x Hx) as (-> & -> & _ & _).
  destruct (finb_kinds x F) as [-> ->]. cbn [orb]. rewrite sval_neg_op by auto. rewrite Z.add_opp_diag_r.
  unfold rnd_signed. cbn [Z.eqb]. rewrite sgn_neg by auto. destruct (sgn01 x Hx) as [-> | ->]; reflexivity.
Qed.

Lemma sval_zerob z : zerob z = true -> sval z = 0.
Proof. unfold zerob, sval. intros H. apply Z.eqb_eq in H. rewrite H, mag_val_sub by lia. ring. Qed.

Lemma zerob_kinds z : zerob z = true -> nanb z = false /\ infb z = false /\ finb z = true.
Proof. unfold zerob, nanb, infb, finb. intros H. apply Z.eqb_eq in H. rewrite H. auto. Qed.

Lemma fin_of_kinds x : nanb x = false -> infb x = false -> finb x = true /\ 0 <= mag x < INFm.
Proof.
  unfold nanb, infb, finb. intros A B. apply Z.ltb_ge in A. apply Z.eqb_neq in B. pose proof (mag_bound x).
  split. apply Z.ltb_lt. lia. lia.
Qed.

Lemma spec_add_zero x z : 0 <= x < 2 ^ 256 -> 0 <= z < 2 ^ 256 -> zerob z = true -> zerob x = false -> nanb x = false ->
  spec_add x z = x.
Proof.
  intros Hx Hz Z NZ N. unfold spec_add. destruct (zerob_kinds z Z) as (-> & -> & _). rewrite N. cbn [orb andb].
  destruct (infb x) eqn:I; auto. destruct (fin_of_kinds x N I) as [F B].
  rewrite (sval_zerob z Z), Z.add_0_r. unfold zerob in NZ. apply Z.eqb_neq in NZ.
  rewrite (rnd_signed_exact _ _ (mag x)); auto.
  - pose proof (mag_val_pos (mag x) ltac:(lia)). transitivity (mkf (sgn x) (mag x)); [f_equal|apply mkf_sgn_mag].
    unfold sval. destruct (sgn01 x Hx) as [-> | ->].
    destruct (Z.eqb_spec ((1 - 2 * 0) * mag_val (mag x)) 0); try lia. destruct (Z.ltb_spec ((1 - 2 * 0) * mag_val (mag x)) 0); lia.
    destruct (Z.eqb_spec ((1 - 2 * 1) * mag_val (mag x)) 0); try lia. destruct (Z.ltb_spec ((1 - 2 * 1) * mag_val (mag x)) 0); lia.
  - apply sgn_prod01; auto.
  - symmetry. apply sval_abs. auto.
Qed.

Lemma sgn_one : sgn ONEm = 0 /\ mag ONEm = ONEm.
Proof. split; vm_compute; reflexivity. Qed.

Lemma one_val : mag_val ONEm = 2 ^ UNITe.
Proof.
  replace ONEm with (262142 * 2 ^ 236 + 2 ^ 236) by reflexivity. rewrite mag_val_any by lia.
  rewrite <- pow2_add by lia. reflexivity.
Qed.

Lemma xors_0 s : (s = 0 \/ s = 1) -> xors s 0 = s.
Proof. intros [-> | ->]; reflexivity. Qed.

Lemma rnd_scale1 a : 0 <= a <= INFm -> rnd_mag (mag_val a * 2 ^ UNITe) (2 ^ UNITe) = a.
Proof.
  intros Ha. pose proof unit_pos as PU. revert PU. generalize (2 ^ UNITe). intros u Hu.
  pose proof (rnd_mag_scale (mag_val a) 1 u Hu (mag_val_nonneg a ltac:(lia)) ltac:(lia)) as E.
  rewrite Z.mul_1_l in E. rewrite E. apply rnd_mag_exact; auto.
Qed.

Lemma spec_mul_one x : 0 <= x < 2 ^ 256 -> nanb x = false -> spec_mul x ONEm = x.
Proof.
  intros Hx N. unfold spec_mul, nanb, infb, zerob. destruct sgn_one as [-> ->]. fold (nanb x) (infb x). rewrite N.
  change (INFm <? ONEm) with false. change (ONEm =? INFm) with false. change (ONEm =? 0) with false. cbn [orb]. rewrite !orb_false_r.
  rewrite xors_0 by (apply sgn01; auto).
  destruct (infb x) eqn:I. unfold infb in I. apply Z.eqb_eq in I. rewrite I. change (INFm =? 0) with false.
  rewrite <- I. apply mkf_sgn_mag.
  rewrite one_val, rnd_scale1. apply mkf_sgn_mag. destruct (fin_of_kinds x N I). lia.
Qed.

Lemma spec_div_one x : 0 <= x < 2 ^ 256 -> nanb x = false -> spec_div x ONEm = x.
Proof.
  intros Hx N. unfold spec_div, nanb, infb, zerob. destruct sgn_one as [-> ->]. fold (nanb x) (infb x). rewrite N.
  change (INFm <? ONEm) with false. change (ONEm =? INFm) with false. change (ONEm =? 0) with false. cbn [orb].
  rewrite xors_0 by (apply sgn01; auto).
  destruct (infb x) eqn:I. unfold infb in I. apply Z.eqb_eq in I.
  rewrite <- I. apply mkf_sgn_mag.
  rewrite one_val, rnd_scale1. apply mkf_sgn_mag. destruct (fin_of_kinds x N I). lia.
Qed.

Lemma neg_mkf s m : (s = 0 \/ s = 1) -> 0 <= m < 2 ^ 255 -> spec_neg (mkf s m) = mkf (1 - s) m.
Proof. intros. unfold spec_neg. rewrite sgn_mkf, mag_mkf by auto. reflexivity. Qed.

Lemma xors_neg s t : (s = 0 \/ s = 1) -> (t = 0 \/ t = 1) -> xors (1 - s) t = 1 - xors s t.
Proof. intros [-> | ->] [-> | ->]; reflexivity. Qed.

Lemma spec_mul_neg x y : 0 <= x < 2 ^ 256 -> 0 <= y < 2 ^ 256 -> nanb (spec_mul x y) = false ->
  spec_mul (spec_neg x) y = spec_neg (spec_mul x y).
Proof.
  intros Hx Hy. unfold spec_mul. destruct (kinds_neg x Hx) as (-> & -> & _ & ->). rewrite sgn_neg, mag_neg by auto.
  rewrite xors_neg by (apply sgn01; auto). pose proof (xors01 (sgn x) (sgn y)) as X. pose proof INFm_lt.
  destruct (nanb x || nanb y). intros NQ; destruct (nan_q_f NQ). destruct (infb x || infb y). destruct (zerob x || zerob y). intros NQ; destruct (nan_q_f NQ).
  intros _. rewrite neg_mkf; auto; lia.
  intros _. rewrite neg_mkf; auto. apply rnd_mag_lt. apply Z.mul_nonneg_nonneg; apply mvn. apply unit_pos.
Qed.

(** ** Monotonicity *)

Lemma sval_le_inf x : 0 <= x < 2 ^ 256 -> nanb x = false -> - mag_val INFm <= sval x <= mag_val INFm.
Proof.
  intros Hx N. unfold nanb in N. apply Z.ltb_ge in N. pose proof (mag_bound x).
  pose proof (mag_val_le (mag x) INFm ltac:(lia) N). pose proof (mag_val_nonneg (mag x) ltac:(lia)).
  unfold sval. destruct (sgn01 x Hx) as [-> | ->]; lia.
Qed.

Lemma spec_add_mono x x' y : 0 <= x < 2 ^ 256 -> 0 <= x' < 2 ^ 256 -> 0 <= y < 2 ^ 256 ->
  nanb (spec_add x y) = false -> nanb (spec_add x' y) = false ->
  sval x <= sval x' -> sval (spec_add x y) <= sval (spec_add x' y).
Proof.
  intros Hx Hx' Hy N N' L.
  pose proof (sval_le_inf _ (spec_add_bound x y Hx Hy) N) as B. pose proof (sval_le_inf _ (spec_add_bound x' y Hx' Hy) N') as B'.
  unfold spec_add in *. destruct (nanb x) eqn:Nx. exfalso; first [exact (nan_q_f N)|exact (nan_q_f N')]. destruct (nanb x') eqn:Nx'. exfalso; first [exact (nan_q_f N)|exact (nan_q_f N')].
  destruct (nanb y) eqn:Ny. exfalso; first [exact (nan_q_f N)|exact (nan_q_f N')]. cbn [orb] in *.
  destruct (infb x) eqn:Ix.
  - destruct (infb y && negb (sgn x =? sgn y)) eqn:C. exfalso; first [exact (nan_q_f N)|exact (nan_q_f N')].
    destruct (infb x') eqn:Ix'. destruct (infb y && negb (sgn x' =? sgn y)) eqn:C'. exfalso; first [exact (nan_q_f N)|exact (nan_q_f N')]. auto.
    (* x is an infinity, x' finite: x must be -inf *)
    pose proof (sval_le_inf x' Hx' Nx') as B2.
    unfold infb in Ix. apply Z.eqb_eq in Ix.
    assert (SX : sval x = (1 - 2 * sgn x) * mag_val INFm) by (unfold sval; rewrite Ix; reflexivity).
    destruct (sgn01 x Hx) as [S|S]; rewrite S in SX.
    + exfalso. destruct (fin_of_kinds x' Nx' Ix') as [_ M']. pose proof (mag_val_lt (mag x') INFm ltac:(lia) ltac:(lia)).
      pose proof (sval_abs x' Hx'). lia.
    + destruct (infb y). lia. lia.
  - destruct (infb x') eqn:Ix'.
    + destruct (infb y && negb (sgn x' =? sgn y)) eqn:C'. exfalso; first [exact (nan_q_f N)|exact (nan_q_f N')].
      unfold infb in Ix'. apply Z.eqb_eq in Ix'.
      assert (SX : sval x' = (1 - 2 * sgn x') * mag_val INFm) by (unfold sval; rewrite Ix'; reflexivity).
      destruct (sgn01 x' Hx') as [S|S]; rewrite S in SX. destruct (infb y); lia.
      exfalso. destruct (fin_of_kinds x Nx Ix) as [_ M']. pose proof (mag_val_lt (mag x) INFm ltac:(lia) ltac:(lia)).
      pose proof (sval_abs x Hx). lia.
    + destruct (infb y). lia. apply sval_rnd_signed_mono; try (apply sgn_prod01; auto). lia. lia.
Qed.

(** Multiplication by a non-negative number. *)
Lemma spec_mul_signed x y : 0 <= x < 2 ^ 256 -> 0 <= y < 2 ^ 256 -> finb x = true -> finb y = true ->
  sval (spec_mul x y) = Z.sgn (sval x * sval y) * mag_val (rnd_mag (Z.abs (sval x * sval y)) (2 ^ UNITe)).
Proof.
  intros Hx Hy Fx Fy. unfold spec_mul. destruct (finb_kinds x Fx) as [-> ->], (finb_kinds y Fy) as [-> ->]. cbn [orb].
  pose proof unit_pos as PU. revert PU. generalize (2 ^ UNITe). intros u Hu.
  pose proof (mvn x) as Px. pose proof (mvn y) as Py. pose proof (Z.mul_nonneg_nonneg _ _ Px Py) as Pxy.
  rewrite sval_mkf by (apply rnd_mag_lt; auto). rewrite Z.abs_mul, !sval_abs by auto.
  unfold sval. set (a := mag_val (mag x)) in *. set (b := mag_val (mag y)) in *. clearbody a b.
  destruct (Z.eq_dec (a * b) 0) as [E|E].
  - rewrite E. assert (rnd_mag 0 u = 0) as ->.
    { pose proof (rnd_mag_scale 0 1 u Hu ltac:(lia) ltac:(lia)) as R. rewrite Z.mul_0_l, Z.mul_1_l in R. rewrite R. reflexivity. }
    rewrite mag_val_sub by lia. ring.
  - assert (1 <= a * b) by lia.
    replace ((1 - 2 * sgn x) * a * ((1 - 2 * sgn y) * b)) with ((1 - 2 * sgn x) * (1 - 2 * sgn y) * (a * b)) by ring.
    f_equal. unfold xors. destruct (sgn01 x Hx) as [-> | ->], (sgn01 y Hy) as [-> | ->]; cbn [Z.eqb Pos.eqb];
      first [rewrite Z.sgn_pos by lia; ring | rewrite Z.sgn_neg by lia; ring].
Qed.

Lemma spec_mul_mono x x' y : 0 <= x < 2 ^ 256 -> 0 <= x' < 2 ^ 256 -> 0 <= y < 2 ^ 256 ->
  finb x = true -> finb x' = true -> finb y = true -> 0 <= sval y ->
  sval x <= sval x' -> sval (spec_mul x y) <= sval (spec_mul x' y).
Proof.
  intros Hx Hx' Hy F F' Fy Y L. rewrite !spec_mul_signed by auto.
  pose proof unit_pos as PU. revert PU. generalize (2 ^ UNITe). intros u Hu.
  rewrite <- !(sval_rnd_signed 0) by auto. apply sval_rnd_signed_mono; auto. apply Z.mul_le_mono_nonneg_r; auto.
Qed.

(** ** Exact differences and the error-free sum *)

Lemma qe_mono a b : a <= b -> qe a <= qe b.
Proof. intros H. unfold qe. pose proof (Z.div_le_mono a b (2 ^ 236) ltac:(lia) H). lia. Qed.

(** A multiple of 2^E splits off: m * 2^(E + k). *)
Lemma pow_split E F : 0 <= E <= F -> 2 ^ F = 2 ^ (F - E) * 2 ^ E.
Proof. intros. rewrite <- pow2_add by lia. f_equal. lia. Qed.

Lemma sterbenz x y : 0 <= x < 2 ^ 256 -> 0 <= y < 2 ^ 256 -> finb x = true -> finb y = true ->
  0 <= sval y <= 2 * sval x -> sval x <= 2 * sval y -> rep (sval x - sval y).
Proof.
  intros Hx Hy Fx Fy H1 H2.
  destruct (sval_fields x Hx Fx) as (m & Em & Am). destruct (sval_fields y Hy Fy) as (k & Ek & Ak).
  pose proof (mag_bound x) as Bx. pose proof (mag_bound y) as By.
  pose proof (sg_bound (mag x) ltac:(lia)). pose proof (sg_bound (mag y) ltac:(lia)).
  unfold finb in *. apply Z.ltb_lt in Fx, Fy.
  pose proof (sval_abs x Hx) as Ax. pose proof (sval_abs y Hy) as Ay.
  pose proof (qe_nonneg (mag x)) as Qx. pose proof (qe_nonneg (mag y)) as Qy.
  set (e := qe (mag x)) in *. set (f := qe (mag y)) in *.
  pose proof (pow2_pos e Qx) as Pe. pose proof (pow2_pos f Qy) as Pf.
  destruct (Z.le_gt_cases e f) as [C|C].
  - apply (rep_intro (m - k * 2 ^ (f - e)) e _ (mag y)); auto; try lia.
    2: { rewrite Em, Ek, (pow_split e f) by lia. ring. }
    assert (Z.abs (m - k * 2 ^ (f - e)) * 2 ^ e <= 2 ^ 237 * 2 ^ e).
    2: { apply Z.mul_le_mono_pos_r with (2 ^ e); auto. }
    rewrite <- (Z.abs_eq (2 ^ e)) at 1 by lia. rewrite <- Z.abs_mul.
    replace ((m - k * 2 ^ (f - e)) * 2 ^ e) with (sval x - sval y) by (rewrite Em, Ek, (pow_split e f) by lia; ring).
    assert (sval x <= 2 ^ 237 * 2 ^ e). rewrite Em. apply Z.mul_le_mono_nonneg_r; lia. lia.
  - apply (rep_intro (m * 2 ^ (e - f) - k) f _ (mag y)); auto; try lia.
    2: { rewrite Em, Ek, (pow_split f e) by lia. ring. }
    assert (Z.abs (m * 2 ^ (e - f) - k) * 2 ^ f <= 2 ^ 237 * 2 ^ f).
    2: { apply Z.mul_le_mono_pos_r with (2 ^ f); auto. }
    rewrite <- (Z.abs_eq (2 ^ f)) at 1 by lia. rewrite <- Z.abs_mul.
    replace ((m * 2 ^ (e - f) - k) * 2 ^ f) with (sval x - sval y) by (rewrite Em, Ek, (pow_split f e) by lia; ring).
    assert (sval y <= 2 ^ 237 * 2 ^ f). rewrite Ek. apply Z.mul_le_mono_nonneg_r; lia. lia.
Qed.

(** Rounding a sum of two finite data: result, exponent and error. *)
Lemma spec_add_err x y : 0 <= x < 2 ^ 256 -> 0 <= y < 2 ^ 256 -> finb x = true -> finb y = true ->
  finb (spec_add x y) = true -> let n := sval x + sval y in
  exists e q, e = Z.max 0 (Z.log2 (Z.abs n) - 236) /\ sval (spec_add x y) = q * 2 ^ e
    /\ Z.abs q <= 2 ^ 237 /\ 2 * Z.abs (n - q * 2 ^ e) <= 2 ^ e /\ (e = 0 -> n = q)
    /\ (0 <= n -> 0 <= q) /\ (n <= 0 -> q <= 0).
Proof.
  intros Hx Hy Fx Fy F. cbv zeta. unfold spec_add in *.
  destruct (finb_kinds x Fx) as [E1 E2], (finb_kinds y Fy) as [E3 E4]. rewrite E1, E2, E3, E4 in *. cbn [orb] in *.
  set (n := sval x + sval y) in *. clearbody n.
  pose proof (sgn_prod01 x y Hx Hy) as S01. set (s := sgn x * sgn y) in *. clearbody s.
  rewrite sval_rnd_signed by (auto; lia).
  assert (R : rnd_mag (Z.abs n) 1 < INFm).
  { unfold rnd_signed, finb in F. destruct (Z.eqb_spec n 0) as [->|].
    - cbn [Z.abs]. reflexivity.
    - rewrite mag_mkf in F by (apply rnd_mag_lt; lia). apply Z.ltb_lt in F. auto. }
  destruct (rnd_mag_err (Z.abs n) ltac:(lia) R) as (e & q & Ee & Ev & Bq & Err & E0).
  exists e, (Z.sgn n * q). rewrite Ev. split. auto. split. ring.
  assert (He : 0 <= e) by lia. clear Ee. pose proof (pow2_pos e He).
  destruct (Z.lt_trichotomy n 0) as [N|[->|N]].
  - rewrite Z.sgn_neg, Z.abs_neq in * by lia. repeat split; try lia.
  - cbn [Z.sgn Z.abs] in *. repeat split; lia.
  - rewrite Z.sgn_pos, Z.abs_eq in * by lia. repeat split; try lia.
Qed.

(** The integer core of Dekker's sum: A = ma * 2^ea, B = mb * 2^eb, S = q * 2^e the
    rounded sum. *)
Lemma abs_pow m e : 0 <= e -> Z.abs (m * 2 ^ e) = Z.abs m * 2 ^ e.
Proof. intros. rewrite Z.abs_mul, (Z.abs_eq (2 ^ e)); auto. apply Z.pow_nonneg; lia. Qed.

Lemma fts_exact ma mb q ea eb e : 0 <= e <= eb -> e <= ea ->
  2 * Z.abs (ma * 2 ^ ea + mb * 2 ^ eb - q * 2 ^ e) <= 2 ^ e -> q * 2 ^ e = ma * 2 ^ ea + mb * 2 ^ eb.
Proof.
  intros H1 H2. rewrite (pow_split e ea), (pow_split e eb) by lia.
  replace (ma * (2 ^ (ea - e) * 2 ^ e) + mb * (2 ^ (eb - e) * 2 ^ e)) with ((ma * 2 ^ (ea - e) + mb * 2 ^ (eb - e)) * 2 ^ e) by ring.
  generalize (ma * 2 ^ (ea - e) + mb * 2 ^ (eb - e)). intros k. rewrite <- Z.mul_sub_distr_r, abs_pow by lia.
  pose proof (pow2_pos e ltac:(lia)) as P. revert P. generalize (2 ^ e). intros p P H.
  assert (Z.abs (k - q) < 1) by nia. assert (k = q) by lia. subst. auto.
Qed.

Lemma fts_exp A B ma ea e : 0 <= ea -> A = ma * 2 ^ ea -> Z.abs ma < 2 ^ 237 -> Z.abs B <= Z.abs A ->
  e = Z.max 0 (Z.log2 (Z.abs (A + B)) - 236) -> e <= ea + 1.
Proof.
  intros Qa Ea Hm Hab Ee. pose proof (pow2_pos ea Qa) as Pa.
  assert (H : Z.abs (A + B) < 2 ^ (238 + ea)).
  { assert (Z.abs A < 2 ^ 237 * 2 ^ ea) by (rewrite Ea, abs_pow by lia; apply Z.mul_lt_mono_pos_r; lia).
    rewrite pow2_add by lia. change (2 ^ 238) with (2 * 2 ^ 237). clear - Hab H. lia. }
  destruct (Z.eq_dec (A + B) 0) as [Z0|Z0].
  - rewrite Z0 in Ee. cbn [Z.abs] in Ee. change (Z.log2 0) with 0 in Ee. clear - Ee Qa. lia.
  - assert (Z.log2 (Z.abs (A + B)) < 238 + ea) by (apply Z.log2_lt_pow2; [clear - Z0; lia|auto]). clear - H0 Ee Qa. lia.
Qed.

Lemma fts_low A B e : 0 < e -> e = Z.max 0 (Z.log2 (Z.abs (A + B)) - 236) -> 2 ^ 236 * 2 ^ e <= Z.abs (A + B).
Proof.
  intros Pe Ee. destruct (Z.eq_dec (A + B) 0) as [Z0|Z0].
  - exfalso. rewrite Z0 in Ee. cbn [Z.abs] in Ee. change (Z.log2 0) with 0 in Ee. clear - Pe Ee. lia.
  - pose proof (Z.log2_spec (Z.abs (A + B)) ltac:(clear - Z0; lia)) as [L1 _]. rewrite <- pow2_add by (clear - Pe; lia).
    pose proof (pow2_le (236 + e) (Z.log2 (Z.abs (A + B))) ltac:(clear - Pe Ee; lia)). clear - L1 H. lia.
Qed.

(** The error is at most |B|. *)
Lemma fts_err A B q ma ea e : 0 <= ea -> 0 <= e <= ea + 1 -> A = ma * 2 ^ ea -> Z.abs ma < 2 ^ 237 ->
  (0 < e -> 2 ^ 236 * 2 ^ e <= Z.abs (A + B)) -> 2 * Z.abs (A + B - q * 2 ^ e) <= 2 ^ e ->
  Z.abs (A + B - q * 2 ^ e) <= Z.abs B.
Proof.
  intros Qa He Ea Hm Low Err. destruct (Z.le_gt_cases e ea) as [C|C].
  - rewrite (pow_split e ea) in Ea by lia. rewrite Z.mul_assoc in Ea.
    set (k := ma * 2 ^ (ea - e)) in *. clearbody k. rewrite Ea in *. clear - Err He.
    destruct (Z.eq_dec k q) as [->|NE]. replace (q * 2 ^ e + B - q * 2 ^ e) with B by ring. lia.
    assert (H : 2 ^ e <= Z.abs (k * 2 ^ e - q * 2 ^ e)).
    { rewrite <- Z.mul_sub_distr_r, abs_pow by lia. assert (1 <= Z.abs (k - q)) by lia.
      pose proof (pow2_pos e ltac:(lia)). clear - H H0. nia. }
    clear - Err H. lia.
  - assert (E1 : e = ea + 1) by lia. specialize (Low ltac:(lia)).
    assert (E2 : 2 ^ e = 2 * 2 ^ ea) by (rewrite E1, pow2_S by lia; ring).
    assert (LA : Z.abs A <= (2 ^ 237 - 1) * 2 ^ ea).
    { rewrite Ea, abs_pow by lia. apply Z.mul_le_mono_nonneg_r. apply Z.pow_nonneg; lia. lia. }
    rewrite E2 in Low, Err at 1. rewrite E2 in Err. rewrite E2. change (2 ^ 237) with (2 * 2 ^ 236) in LA.
    pose proof (pow2_pos ea Qa) as Pa. generalize dependent (2 ^ ea). intros. clear - LA Err Low. lia.
Qed.

Theorem fast_two_sum a b : 0 <= a < 2 ^ 256 -> 0 <= b < 2 ^ 256 -> finb a = true -> finb b = true ->
  mag b <= mag a -> finb (spec_add a b) = true ->
  let s := spec_add a b in let t := spec_sub s a in let r := spec_sub b t in
  finb r = true /\ sval t = sval s - sval a /\ sval s + sval r = sval a + sval b.
Proof.
  intros Ha Hb Fa Fb Hab Fs. cbv zeta.
  pose proof (spec_add_bound a b Ha Hb) as Hs.
  destruct (spec_add_err a b Ha Hb Fa Fb Fs) as (e & q & Ee & Es & Bq & Err & E0 & P1 & P2). cbv zeta in *. clear E0 Bq.
  set (s := spec_add a b) in *. clearbody s.
  destruct (sval_fields a Ha Fa) as (ma & Ea & Am). destruct (sval_fields b Hb Fb) as (mb & Eb & Bm).
  pose proof (mag_bound a) as MA. pose proof (mag_bound b) as MB. pose proof (mag_bound s) as MS.
  assert (Am2 : Z.abs ma < 2 ^ 237) by (rewrite Am; apply sg_bound; lia).
  assert (Bm2 : Z.abs mb < 2 ^ 237) by (rewrite Bm; apply sg_bound; lia). clear Am Bm.
  pose proof (sval_abs a Ha) as Aa. pose proof (sval_abs b Hb) as Ab. pose proof (sval_abs s Hs) as As.
  pose proof (mag_val_le (mag b) (mag a) ltac:(lia) Hab) as Vab.
  pose proof (qe_nonneg (mag a)) as Qa. pose proof (qe_nonneg (mag b)) as Qb. pose proof (qe_mono _ _ Hab) as Qab.
  assert (La : 0 <= mag a < INFm) by (unfold finb in Fa; apply Z.ltb_lt in Fa; lia).
  assert (Lb : 0 <= mag b < INFm) by (unfold finb in Fb; apply Z.ltb_lt in Fb; lia).
  assert (Ls : 0 <= mag s < INFm) by (unfold finb in Fs; apply Z.ltb_lt in Fs; lia).
  (* it suffices that the two differences are representable *)
  assert (Suff : rep (sval s - sval a) -> rep (sval a + sval b - sval s) ->
    finb (spec_sub b (spec_sub s a)) = true /\ sval (spec_sub s a) = sval s - sval a
    /\ sval s + sval (spec_sub b (spec_sub s a)) = sval a + sval b).
  { intros R1 R2. destruct (spec_sub_rep s a Hs Ha Fs Fa R1) as [F1 V1].
    pose proof (spec_sub_bound s a Hs Ha) as Ht.
    destruct (spec_sub_rep b (spec_sub s a) Hb Ht Fb F1) as [F2 V2].
    - rewrite V1. replace (sval b - (sval s - sval a)) with (sval a + sval b - sval s) by ring. auto.
    - split; auto. split. auto. rewrite V2, V1. ring. }
  apply Suff; clear Suff; clear Hab Fa Fb Fs Ha Hb Hs MA MB MS.
  - set (ea := qe (mag a)) in *. set (eb := qe (mag b)) in *. clearbody ea eb.
    set (A := sval a) in *. set (B := sval b) in *. set (S := sval s) in *. clearbody A B S.
    assert (Hab : Z.abs B <= Z.abs A) by (clear - Aa Ab Vab; lia).
    assert (He : 0 <= e) by (clear - Ee; lia).
    pose proof (pow2_pos e He) as Pe. pose proof (pow2_pos ea Qa) as Pa. pose proof (pow2_pos eb Qb) as Pb.
    assert (SP : 0 <= A -> 0 <= S).
    { intros. rewrite Es. apply Z.mul_nonneg_nonneg. apply P1. clear - Hab H. lia. lia. }
    assert (SN : A <= 0 -> S <= 0).
    { intros. rewrite Es. apply Z.mul_nonpos_nonneg. apply P2. clear - Hab H. lia. lia. }
    assert (SameSign : Z.abs (S - A) <= Z.max (Z.abs S) (Z.abs A)) by (clear - SP SN; lia).
    assert (Eer : e <= ea + 1) by (apply (fts_exp A B ma); auto). clear SP SN P1 P2.
    assert (RG : forall m f, 0 <= f -> S - A = m * 2 ^ f -> Z.abs (S - A) <= 2 ^ 237 * 2 ^ f -> rep (S - A)).
    { intros m f Hf Em Hm. pose proof (pow2_pos f Hf) as Pf.
      assert (Z.abs m <= 2 ^ 237) by (rewrite Em, abs_pow in Hm by auto; apply Z.mul_le_mono_pos_r with (2 ^ f); auto).
      rewrite As, Aa in SameSign.
      destruct (Z.max_spec (mag_val (mag s)) (mag_val (mag a))) as [[_ MX]|[_ MX]]; rewrite MX in SameSign.
      apply (rep_intro m f _ (mag a)); auto. apply (rep_intro m f _ (mag s)); auto. }
    destruct (Z.le_gt_cases e eb) as [C|C].
    { assert (X : S = A + B).
      { rewrite Es, Ea, Eb in *. apply fts_exact; auto. clear - C Qab. lia. }
      exists (mag b). split. auto. rewrite <- Ab. f_equal. clear - X. lia. }
    destruct (Z.le_gt_cases e ea) as [C2|C2].
    + apply (RG (q - ma * 2 ^ (ea - e)) e He).
      rewrite Es, Ea, (pow_split e ea) by (clear - He C2; lia). ring.
      assert (Z.abs B <= 2 ^ 236 * 2 ^ e).
      { rewrite Eb, abs_pow by auto.
        apply Z.le_trans with (2 ^ 237 * 2 ^ eb). apply Z.mul_le_mono_nonneg_r; clear - Pb Bm2; lia.
        rewrite <- !pow2_add by (clear - Qb He; lia). apply pow2_le. clear - C Qb. lia. }
      change (2 ^ 237) with (2 * 2 ^ 236). rewrite <- Es in Err. clear - Err H Pe. lia.
    + assert (E1 : e = ea + 1) by (clear - C2 Eer; lia). apply (RG (q * 2 - ma) ea Qa).
      rewrite Es, Ea, E1, pow2_S by auto. ring.
      assert (Z.abs B <= (2 ^ 237 - 1) * 2 ^ ea).
      { apply Z.le_trans with (Z.abs A). auto. rewrite Ea, abs_pow by auto.
        apply Z.mul_le_mono_nonneg_r; clear - Pa Am2; lia. }
      assert (E2 : 2 ^ e = 2 * 2 ^ ea) by (rewrite E1; rewrite pow2_S by auto; ring).
      rewrite <- Es in Err. rewrite E2 in Err. clear - Err H. lia.
  - (* the error is a multiple of 2^eb and at most |B| *)
    set (ea := qe (mag a)) in *. set (eb := qe (mag b)) in *. clearbody ea eb.
    set (A := sval a) in *. set (B := sval b) in *. set (S := sval s) in *. clearbody A B S.
    assert (Hab : Z.abs B <= Z.abs A) by (clear - Aa Ab Vab; lia).
    assert (He : 0 <= e) by (clear - Ee; lia).
    pose proof (pow2_pos e He) as Pe. pose proof (pow2_pos ea Qa) as Pa. pose proof (pow2_pos eb Qb) as Pb.
    assert (Eer : e <= ea + 1) by (apply (fts_exp A B ma); auto). clear P1 P2.
    destruct (Z.le_gt_cases e eb) as [C|C].
    { assert (X : S = A + B).
      { rewrite Es, Ea, Eb in *. apply fts_exact; auto. clear - C Qab. lia. }
      exists 0. split. clear - Lb. lia. replace (A + B - S) with 0 by (clear - X; lia). reflexivity. }
    assert (ErrB : Z.abs (A + B - S) <= Z.abs B).
    { rewrite Es. apply (fts_err A B q ma ea e); auto. intros. apply fts_low; auto. }
    assert (Em : A + B - S = (ma * 2 ^ (ea - eb) + mb - q * 2 ^ (e - eb)) * 2 ^ eb).
    { rewrite Es, Ea, Eb, (pow_split eb e), (pow_split eb ea) by (clear - C Qab Qb; lia). ring. }
    apply (rep_intro (ma * 2 ^ (ea - eb) + mb - q * 2 ^ (e - eb)) eb _ (mag b)); auto.
    2: { rewrite <- Ab. auto. }
    apply Z.mul_le_mono_pos_r with (2 ^ eb); auto. rewrite <- abs_pow by auto. rewrite <- Em.
    apply Z.le_trans with (Z.abs B); auto. rewrite Eb, abs_pow by auto.
    apply Z.mul_le_mono_nonneg_r; clear - Pb Bm2; lia.
Qed.

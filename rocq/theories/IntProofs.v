(** * IntProofs: rounding to integers and scaling by powers of two (src/lib.rs) *)

From Coq Require Import ZArith Lia Bool.
From Verif Require Import Base BigUInt ZLemmas BigLaws BigUIntProofs Spec SpecFns BigExtra F256 Arith SpecLemmas
  F256Lemmas AddProofs RoundLemmas SqrtProofs BasicProofs CodecProofs.
Open Scope Z_scope.

Lemma quot_mul_sign s n d : (s = 0 \/ s = 1) -> 0 <= n -> 0 < d -> Z.quot ((1 - 2 * s) * n) d = (1 - 2 * s) * (n / d).
Proof.
  intros [-> | ->] Hn Hd.
  - replace ((1 - 2 * 0) * n) with n by lia. rewrite Z.quot_div_nonneg by lia. lia.
  - replace ((1 - 2 * 1) * n) with (- n) by lia. rewrite Z.quot_opp_l by lia.
    rewrite Z.quot_div_nonneg by lia. lia.
Qed.

Lemma rne_div_opp n d : 0 < d -> rne_div (- n) d = - rne_div n d.
Proof.
  intros Hd. pose proof (rne_div_spec n d Hd) as (A & B & C). set (q := rne_div n d) in *. clearbody q.
  apply rne_div_unique; auto; intros; rewrite ?Z.odd_opp; try (apply B; nia); try (apply C; nia). nia.
Qed.

(** The integer part and the rest of a magnitude with 1 <= value < 2^236; the n low
    bits of the encoding are the fractional bits. *)
Lemma int_part a : ONEm <= a < (262143 + 236) * 2 ^ 236 ->
  let n := 236 - (a / 2 ^ 236 - 262143) in
  exists k r E, 1 <= n <= 236 /\ 0 <= E /\ UNITe = n + E /\ mag_val a = (k * 2 ^ n + r) * 2 ^ E /\ 0 <= r < 2 ^ n
    /\ 0 < k < 2 ^ 237 /\ a mod 2 ^ n = r /\ Z.odd (a / 2 ^ n) = Z.odd k
    /\ (forall j, 0 <= j <= 1 -> mag_val ((a / 2 ^ n + j) * 2 ^ n) = (k + j) * 2 ^ n * 2 ^ E)
    /\ (forall j, 0 <= j <= 1 -> 0 < (a / 2 ^ n + j) * 2 ^ n < INFm)
    /\ (k * 2 ^ n + r) * 2 ^ E <= (2 ^ 237 - 1) * 2 ^ E /\ E <= 262377.
Proof.
  intros Ha n. unfold ONEm in Ha.
  pose proof (Z.div_mod a (2 ^ 236) ltac:(lia)) as D. pose proof (Z.mod_pos_bound a (2 ^ 236) ltac:(lia)) as M.
  assert (Hn : 1 <= n <= 236) by (unfold n; lia).
  assert (HQ : qe a = a / 2 ^ 236 - 1) by (unfold qe; lia).
  assert (Hq : a / 2 ^ 236 = 262379 - n) by (unfold n; lia). rewrite Hq in HQ.
  pose proof (sg_qe a ltac:(lia)) as [Ea _].
  assert (HS : 2 ^ 236 <= sg a < 2 ^ 237).
  { split. apply sg_norm; lia. apply sg_bound; lia. }
  pose proof (mag_val_sg a ltac:(lia)) as EV.
  rewrite HQ in *. set (s := sg a) in *. clearbody s n.
  pose proof (pow2_pos n ltac:(lia)) as Pn.
  exists (s / 2 ^ n), (s mod 2 ^ n), (262379 - n - 1).
  pose proof (Z.div_mod s (2 ^ n) ltac:(lia)) as Ds. pose proof (Z.mod_pos_bound s (2 ^ n) ltac:(lia)) as Ms.
  assert (Es : s / 2 ^ n * 2 ^ n + s mod 2 ^ n = s) by lia.
  set (X := (262379 - n - 1) * 2 ^ (236 - n)).
  assert (EX : (262379 - n - 1) * 2 ^ 236 = X * 2 ^ n).
  { unfold X. rewrite <- Z.mul_assoc, <- pow2_add by lia. f_equal. f_equal. lia. }
  rewrite EX in Ea.
  assert (Dv : a / 2 ^ n = X + s / 2 ^ n) by (apply div_eq with (s mod 2 ^ n); lia).
  assert (Kpos : 0 < s / 2 ^ n).
  { apply Z.div_str_pos. pose proof (pow2_le n 236 ltac:(lia)). lia. }
  assert (KB : (s / 2 ^ n + 1) * 2 ^ n <= 2 ^ 237).
  { rewrite (pow2_split n 237) by lia. rewrite Z.mul_comm. apply Z.mul_le_mono_nonneg_l. lia.
    assert (s / 2 ^ n < 2 ^ (237 - n)); [|lia]. apply Z.div_lt_upper_bound. lia. rewrite <- pow2_split by lia. lia. }
  assert (KBL : 2 ^ 236 <= s / 2 ^ n * 2 ^ n).
  { rewrite (pow2_split n 236) by lia. rewrite (Z.mul_comm (2 ^ n)). apply Z.mul_le_mono_nonneg_r. lia.
    apply Z.div_le_lower_bound. lia. rewrite <- pow2_split by lia. lia. }
  split. exact Hn. split. lia. split. unfold UNITe; lia.
  split. rewrite Es. exact EV. split. exact Ms.
  split. { split. exact Kpos. apply Z.div_lt_upper_bound. lia. assert (1 * 2 ^ 237 <= 2 ^ n * 2 ^ 237) by (apply Z.mul_le_mono_nonneg_r; lia). lia. }
  split. apply mod_eq with (X + s / 2 ^ n); lia.
  split. { rewrite Dv, Z.odd_add. replace (Z.odd X) with false. destruct (Z.odd _); reflexivity.
    symmetry. unfold X. rewrite Z.odd_mul. destruct (Z.eq_dec n 236) as [->|]. reflexivity.
    replace (236 - n) with (235 - n + 1) by lia. rewrite pow2_S by lia. rewrite (Z.odd_mul 2). apply andb_false_r. }
  assert (Y : forall j, (a / 2 ^ n + j) * 2 ^ n = (262379 - n - 1) * 2 ^ 236 + (s / 2 ^ n + j) * 2 ^ n).
  { intros j. rewrite Dv, EX. ring. }
  assert (KJ : forall j, 0 <= j <= 1 -> 2 ^ 236 <= (s / 2 ^ n + j) * 2 ^ n <= 2 ^ 237).
  { intros j Hj. assert (j = 0 \/ j = 1) by lia. destruct H as [-> | ->]; lia. }
  split. { intros j Hj. rewrite Y. pose proof (KJ j Hj). rewrite mag_val_le_any by lia. reflexivity. }
  split. { intros j Hj. rewrite Y. pose proof (KJ j Hj). unfold INFm. lia. }
  split. apply Z.mul_le_mono_nonneg_r. apply Z.lt_le_incl, pow2_pos; lia. lia. lia.
Qed.

Lemma mag_val_one : mag_val ONEm = U1.
Proof.
  unfold U1, ONEm. replace (262143 * 2 ^ 236) with (262142 * 2 ^ 236 + 2 ^ 236) by lia.
  rewrite mag_val_any by lia. rewrite <- pow2_add by lia. f_equal.
Qed.
Lemma mag_val_half : 2 * mag_val (262142 * 2 ^ 236) = U1.
Proof.
  unfold U1. replace (262142 * 2 ^ 236) with (262141 * 2 ^ 236 + 2 ^ 236) by lia.
  rewrite mag_val_any by lia. rewrite <- pow2_add by lia. rewrite <- pow2_S by lia. f_equal.
Qed.
Lemma U1_pos : 0 < U1.
Proof. apply pow2_pos. unfold UNITe; lia. Qed.
Lemma U1_eq : U1 = 2 ^ UNITe. Proof. reflexivity. Qed.
Local Opaque U1.

(** Above 2^236 everything is an integer. *)
Lemma int_big a : (262143 + 236) * 2 ^ 236 <= a -> exists m, 0 <= m /\ mag_val a = m * U1.
Proof.
  intros Ha. rewrite mag_val_sg by lia. rewrite U1_eq.
  assert (H : 262378 <= qe a). { unfold qe. assert (262379 <= a / 2 ^ 236); [|lia]. apply Z.div_le_lower_bound; lia. }
  exists (sg a * 2 ^ (qe a - UNITe)). unfold UNITe. pose proof (sg_bound a ltac:(lia)). split.
  apply Z.mul_nonneg_nonneg; [lia|]. apply Z.lt_le_incl, pow2_pos. lia.
  rewrite <- Z.mul_assoc, <- pow2_add by lia. f_equal. f_equal. lia.
Qed.

(** The rounding functions on an integer, and on sign and magnitude. *)
Definition good (f : Z -> Z) (g : Z -> Z -> Z) : Prop :=
  forall s n, (s = 0 \/ s = 1) -> 0 <= n -> f ((1 - 2 * s) * n) = (1 - 2 * s) * g s n.

Definition g_trunc (s n : Z) : Z := n / U1.
Definition g_up (s n : Z) : Z := (n + U1 - 1) / U1.
Definition g_floor (s n : Z) : Z := if s =? 1 then g_up s n else n / U1.
Definition g_ceil (s n : Z) : Z := if s =? 0 then g_up s n else n / U1.
Definition g_round (s n : Z) : Z := (2 * n + U1) / (2 * U1).
Definition g_rte (s n : Z) : Z := rne_div n U1.

Lemma up_opp n u : 0 < u -> (- n) / u = - ((n + u - 1) / u).
Proof.
  intros. pose proof (Z.div_mod (n + u - 1) u ltac:(lia)). pose proof (Z.mod_pos_bound (n + u - 1) u ltac:(lia)).
  apply div_eq with (u - 1 - (n + u - 1) mod u); lia.
Qed.

Lemma good_trunc : good int_trunc g_trunc.
Proof. intros s n Hs Hn. apply quot_mul_sign; auto. apply U1_pos. Qed.
Lemma good_floor : good int_floor g_floor.
Proof.
  pose proof U1_pos. intros s n [-> | ->] Hn; unfold int_floor, g_floor, g_up; cbn [Z.eqb Pos.eqb].
  - change (1 - 2 * 0) with 1. rewrite !Z.mul_1_l. reflexivity.
  - change (1 - 2 * 1) with (-1). replace (-1 * n) with (- n) by lia. rewrite up_opp by auto. lia.
Qed.
Lemma good_ceil : good int_ceil g_ceil.
Proof.
  pose proof U1_pos. intros s n [-> | ->] Hn; unfold int_ceil, g_ceil, g_up; cbn [Z.eqb Pos.eqb].
  - change (1 - 2 * 0) with 1. rewrite !Z.mul_1_l. rewrite up_opp by auto. lia.
  - change (1 - 2 * 1) with (-1). replace (- (-1 * n)) with n by lia. lia.
Qed.
Lemma good_round : good int_round g_round.
Proof.
  pose proof U1_pos as UP. unfold good, int_round, g_round. revert UP. generalize U1. intros U UP.
  intros s n Hs Hn. rewrite Z.abs_mul, (Z.abs_eq n) by lia.
  replace (Z.abs (1 - 2 * s)) with 1 by (destruct Hs as [-> | ->]; reflexivity). rewrite Z.mul_1_l.
  destruct (Z.eq_dec n 0) as [->|].
  - rewrite !Z.mul_0_r. cbn [Z.sgn]. rewrite Z.div_small; lia.
  - f_equal. rewrite Z.sgn_mul, (Z.sgn_pos n) by lia. destruct Hs as [-> | ->]; reflexivity.
Qed.
Lemma good_rte : good int_rte g_rte.
Proof.
  pose proof U1_pos. intros s n [-> | ->] Hn; unfold int_rte, g_rte.
  - change (1 - 2 * 0) with 1. rewrite !Z.mul_1_l. reflexivity.
  - change (1 - 2 * 1) with (-1). replace (-1 * n) with (- n) by lia. rewrite rne_div_opp by auto. lia.
Qed.

(** [r] as sign and magnitude: enough to show the rounded magnitude. *)
Lemma spec_int_intro f g x r s m : good f g -> 0 <= x < 2 ^ 256 -> zerob x = false -> finb x = true ->
  r = mkf s m -> 0 <= m < INFm -> (s = sgn x \/ m = 0) -> mag_val m = g (sgn x) (mag_val (mag x)) * U1 -> spec_int f x r.
Proof.
  intros G Hx Hz Hf -> Hm Hs E. unfold spec_int. rewrite Hz, orb_false_r.
  assert (nanb x || infb x = false) as ->.
  { unfold finb in Hf. unfold nanb, infb. apply Z.ltb_lt in Hf. apply orb_false_iff. split. apply Z.ltb_ge; lia. apply Z.eqb_neq; lia. }
  unfold INFm in Hm. unfold finb, sval. rewrite sgn_mkf, mag_mkf by lia. split. apply Z.ltb_lt. unfold INFm. lia.
  fold (sval x). unfold sval at 1. rewrite (G (sgn x) (mag_val (mag x))).
  - rewrite <- Z.mul_assoc, <- E. destruct Hs as [->| ->]; [reflexivity|]. change (mag_val 0) with 0. lia.
  - apply sgn01; auto.
  - apply mag_val_nonneg. apply mag_bound.
Qed.

Lemma spec_int_special f x : nanb x || infb x || zerob x = true -> spec_int f x x.
Proof. intros H. unfold spec_int. rewrite H. reflexivity. Qed.

Lemma U1_split n E : 0 <= E -> 1 <= n -> UNITe = n + E -> U1 = 2 ^ n * 2 ^ E.
Proof. intros HE Hn HU. rewrite U1_eq, HU. apply pow2_add; lia. Qed.

(** The rounding functions on numbers with value k * U1 + rest. *)
Section G.
Variables (k r n E : Z).
Hypothesis HE : 0 <= E.
Hypothesis Hn : 1 <= n.
Hypothesis HU : UNITe = n + E.
Hypothesis Hr : 0 <= r < 2 ^ n.
Hypothesis Hk : 0 <= k.
Let V := (k * 2 ^ n + r) * 2 ^ E.

Lemma V_split : V = k * U1 + r * 2 ^ E /\ 0 <= r * 2 ^ E < U1 /\ (r * 2 ^ E = 0 <-> r = 0).
Proof using HE Hn HU Hr Hk.
  rewrite (U1_split n E HE Hn HU). pose proof (pow2_pos E HE) as PE. split. unfold V; ring. split.
  - split. apply Z.mul_nonneg_nonneg; lia. apply Z.mul_lt_mono_pos_r; lia.
  - split. intros H. apply Z.eq_mul_0 in H. lia. intros ->. lia.
Qed.
Lemma gV_trunc s : g_trunc s V = k.
Proof using HE Hn HU Hr Hk. destruct V_split as (A & B & _). apply div_eq with (r * 2 ^ E); lia. Qed.
Lemma gV_up s : g_up s V = k + b2z (negb (r =? 0)).
Proof using HE Hn HU Hr Hk.
  destruct V_split as (A & B & C). unfold g_up. destruct (Z.eqb_spec r 0) as [e|e]; cbn [negb b2z].
  - apply div_eq with (U1 - 1); lia.
  - assert (r * 2 ^ E <> 0) by tauto. apply div_eq with (r * 2 ^ E - 1); lia.
Qed.
Lemma gV_round s : g_round s V = k + b2z (2 ^ (n - 1) <=? r).
Proof using HE Hn HU Hr Hk.
  destruct V_split as (A & B & C). unfold g_round.
  assert (D : U1 = 2 * (2 ^ (n - 1) * 2 ^ E)).
  { rewrite (U1_split n E HE Hn HU). replace n with (n - 1 + 1) at 1 by lia. rewrite pow2_S by lia. ring. }
  pose proof (pow2_pos E HE) as PE.
  assert (Q : (2 ^ (n - 1) <=? r) = (U1 <=? 2 * (r * 2 ^ E))).
  { rewrite D. destruct (Z.leb_spec (2 ^ (n - 1)) r) as [L|L]; symmetry.
    - apply Z.leb_le. apply Z.mul_le_mono_nonneg_l; [lia|]. apply Z.mul_le_mono_nonneg_r; lia.
    - apply Z.leb_gt. apply Z.mul_lt_mono_pos_l; [lia|]. apply Z.mul_lt_mono_pos_r; lia. }
  rewrite Q. destruct (Z.leb_spec U1 (2 * (r * 2 ^ E))); cbn [b2z].
  - apply div_eq with (2 * (r * 2 ^ E) - U1); lia.
  - apply div_eq with (2 * (r * 2 ^ E) + U1); lia.
Qed.
Lemma gV_rte s : g_rte s V = rne_div (k * 2 ^ n + r) (2 ^ n).
Proof using HE Hn HU Hr Hk.
  unfold g_rte, V. rewrite (U1_split n E HE Hn HU). apply rne_div_mul. apply pow2_pos; lia. apply pow2_pos; lia.
Qed.
End G.

(** Values below 1 *)
Lemma g_small n : 0 < n < U1 -> forall s,
  g_trunc s n = 0 /\ g_up s n = 1 /\ g_round s n = b2z (U1 <=? 2 * n) /\ g_rte s n = b2z (U1 <? 2 * n).
Proof.
  intros Hn s. unfold g_trunc, g_up, g_round, g_rte. split. apply Z.div_small; lia.
  split. apply div_eq with (n - 1); lia. split.
  - destruct (Z.leb_spec U1 (2 * n)); cbn [b2z]. apply div_eq with (2 * n - U1); lia. apply div_eq with (2 * n + U1); lia.
  - unfold rne_div. rewrite Z.div_small, Z.mod_small by lia. cbn [Z.odd Z.even]. rewrite andb_false_r, orb_false_r.
    destruct (U1 <? 2 * n); reflexivity.
Qed.

Section IntProofs.
Context {P : profile}.

Lemma fin_of x : is_special_bits (abs_bits (of256 x)) = false -> finb x = true /\ zerob x = false /\ 0 < mag x < INFm.
Proof.
  rewrite abs_bits_of. fold (mag x). pose proof (mag_bound x) as B. rewrite is_special_bits_of by lia.
  intros H. apply orb_false_iff in H as [A C]. apply Z.eqb_neq in A. apply Z.leb_gt in C.
  unfold finb, zerob. split. apply Z.ltb_lt; auto. split. apply Z.eqb_neq; auto. lia.
Qed.
Lemma special_of x : is_special_bits (abs_bits (of256 x)) = true -> nanb x || infb x || zerob x = true.
Proof.
  rewrite abs_bits_of. fold (mag x). pose proof (mag_bound x) as B. rewrite is_special_bits_of by lia.
  unfold nanb, infb, zerob. intros H. apply orb_true_iff in H as [A|A].
  rewrite A. apply orb_true_r. apply Z.leb_le in A.
  destruct (Z.ltb_spec INFm (mag x)), (Z.eqb_spec (mag x) INFm); auto. lia.
Qed.

Lemma b2z01 b : 0 <= b2z b <= 1. Proof. destruct b; cbn; lia. Qed.

Lemma or_sign_of x a : 0 <= x < 2 ^ 256 -> 0 <= a < 2 ^ 255 ->
  u256 (Z.lor (xhi (of256 a)) (sign_bits_hi (of256 x))) (xlo (of256 a)) = of256 (mkf (sgn x) a).
Proof.
  intros Hx Ha. rewrite sign_bits_of by auto. fold (sgn x). exact (or_hi_sign a (sgn x) Ha).
Qed.

Lemma nearest_integral_ok x (adj : Z -> bool) f g : 0 <= x < 2 ^ 256 -> good f g ->
  (forall s n, g s n = if adj s then g_up s n else g_trunc s n) ->
  exists r, nearest_integral (of256 x) adj = Some (of256 r) /\ 0 <= r < 2 ^ 256 /\ spec_int f x r.
Proof.
  intros Hx G HG. unfold nearest_integral.
  destruct (is_special_bits (abs_bits (of256 x))) eqn:Sp.
  { exists x. split; auto. split; auto. apply spec_int_special, special_of; auto. }
  destruct (fin_of x Sp) as (Hf & Hz & Hm). rewrite abs_bits_of. fold (mag x).
  pose proof (sgn01 x Hx) as Hs. pose proof (mag_bound x) as MB.
  unfold MIN_NO_FRACT_HI. rewrite xhi_leb by lia. change ((262143 + 236) * 2 ^ 108 * 2 ^ 128) with ((262143 + 236) * 2 ^ 236).
  destruct (Z.leb_spec ((262143 + 236) * 2 ^ 236) (mag x)) as [Big|Big].
  { exists x. split; auto. split; auto.
    destruct (int_big (mag x) Big) as (m & Hm0 & Em). pose proof U1_pos.
    refine (spec_int_intro _ _ x x (sgn x) (mag x) G Hx Hz Hf (eq_sym (mkf_sgn_mag x)) _ (or_introl eq_refl) _); [lia|].
    rewrite HG, Em. unfold g_up, g_trunc. rewrite Z.div_mul by lia.
    rewrite (div_eq (m * U1 + U1 - 1) U1 m (U1 - 1)) by lia. destruct (adj _); reflexivity. }
  change (xhi ONE) with (262143 * 2 ^ 108). rewrite xhi_ltb by lia. rewrite sign_of by auto. fold (sgn x).
  change (262143 * 2 ^ 108 * 2 ^ 128) with ONEm.
  destruct (Z.ltb_spec (mag x) ONEm) as [Small|Small].
  { pose proof mag_val_one as V1. pose proof (mag_val_lt (mag x) ONEm ltac:(lia) Small) as VL.
    pose proof (mag_val_pos (mag x) ltac:(lia)) as VP.
    destruct (g_small (mag_val (mag x)) ltac:(lia) (sgn x)) as (G1 & G2 & _).
    assert (E : (if (sgn x =? 0) && adj (sgn x) then ONE else if (sgn x =? 1) && adj (sgn x) then NEG_ONE else ZERO)
      = of256 (if adj (sgn x) then mkf (sgn x) ONEm else 0)).
    { destruct Hs as [-> | ->]; destruct (adj _); reflexivity. }
    rewrite E. eexists. split. reflexivity. split.
    { destruct (adj _); [|lia]. unfold mkf, ONEm. destruct Hs as [-> | ->]; lia. }
    destruct (adj (sgn x)) eqn:A.
    - refine (spec_int_intro _ _ x _ (sgn x) ONEm G Hx Hz Hf eq_refl _ (or_introl eq_refl) _); [unfold ONEm, INFm; lia|].
      rewrite HG, A, G2, V1. lia.
    - refine (spec_int_intro _ _ x 0 0 0 G Hx Hz Hf eq_refl _ (or_intror eq_refl) _); [unfold INFm; lia|]. rewrite HG, A, G1. reflexivity. }
  destruct (int_part (mag x) ltac:(lia)) as (k & r & E & Hn & HE & HU & EV & Hr & Hk & Em & _ & Ej & Bj & _).
  set (a := mag x) in *. set (n := 236 - (a / 2 ^ 236 - 262143)) in *.
  assert (Hn' : n = 236 - (a / 2 ^ 236 - 262143)) by reflexivity.
  rewrite exp_bits_of by lia. unfold EXP_BIAS, FRACTION_BITS.
  assert (a / 2 ^ 236 - 262143 = 236 - n) by lia.
  clearbody n. rewrite subu_ok by lia. rewrite bind_Some, H. rewrite subu_ok by lia. rewrite bind_Some.
  replace (236 - (236 - n)) with n by lia.
  pose proof (Bj 0 ltac:(lia)) as B0. pose proof (Bj 1 ltac:(lia)) as B1. rewrite Z.add_0_r in B0. unfold INFm in B0, B1.
  pose proof (pow2_pos n ltac:(lia)) as Pn. assert (Dn : 0 <= a / 2 ^ n) by (apply Z.div_pos; lia).
  rewrite shr256 by lia. rewrite bind_Some, shl256s by lia. rewrite bind_Some.
  rewrite ueqb256 by lia.
  assert (Q : (a / 2 ^ n * 2 ^ n =? a) = (r =? 0)).
  { pose proof (Z.div_mod a (2 ^ n) ltac:(lia)). destruct (Z.eqb_spec r 0), (Z.eqb_spec (a / 2 ^ n * 2 ^ n) a); auto; lia. }
  rewrite Q. pose proof (b2z01 (adj (sgn x))). pose proof (b2z01 (negb (r =? 0))).
  rewrite mulu_ok by nia. rewrite bind_Some. set (c := b2z (adj (sgn x)) * b2z (negb (r =? 0))).
  assert (Hc : 0 <= c <= 1) by (unfold c; nia).
  assert (Hc2 : c = if adj (sgn x) then b2z (negb (r =? 0)) else 0) by (unfold c; destruct (adj _); cbn [b2z]; lia).
  clearbody c.
  rewrite u256_of by lia. rewrite Z.mul_0_l, Z.add_0_l.
  assert (c * 2 ^ n <= 2 ^ n) by (destruct (Z.eq_dec c 0); [subst c; lia|assert (c = 1) by lia; subst c; lia]).
  pose proof (pow2_le n 236 ltac:(lia)).
  rewrite shl256s by lia. rewrite bind_Some, add256 by lia. rewrite bind_Some.
  replace (a / 2 ^ n * 2 ^ n + c * 2 ^ n) with ((a / 2 ^ n + c) * 2 ^ n) by ring.
  pose proof (Bj c Hc) as Bc. unfold INFm in Bc.
  rewrite or_sign_of by lia. eexists. split. reflexivity.
  split. { unfold mkf. destruct Hs as [-> | ->]; lia. }
  refine (spec_int_intro _ _ x _ (sgn x) _ G Hx Hz Hf eq_refl _ (or_introl eq_refl) _); [unfold INFm; lia|].
  fold a. rewrite (Ej c Hc), EV, HG.
  rewrite (gV_up k r n E HE ltac:(lia) HU Hr ltac:(lia)).
  rewrite (gV_trunc k r n E HE ltac:(lia) HU Hr ltac:(lia)).
  rewrite (U1_split n E HE ltac:(lia) HU). rewrite Hc2. destruct (adj _); ring.
Qed.

Lemma trunc_ok x : 0 <= x < 2 ^ 256 ->
  exists r, trunc (of256 x) = Some (of256 r) /\ 0 <= r < 2 ^ 256 /\ spec_int int_trunc x r.
Proof. intros. apply nearest_integral_ok with g_trunc; auto using good_trunc. Qed.
Lemma floor_ok x : 0 <= x < 2 ^ 256 ->
  exists r, floor (of256 x) = Some (of256 r) /\ 0 <= r < 2 ^ 256 /\ spec_int int_floor x r.
Proof. intros. apply nearest_integral_ok with g_floor; auto using good_floor. Qed.
Lemma ceil_ok x : 0 <= x < 2 ^ 256 ->
  exists r, ceil (of256 x) = Some (of256 r) /\ 0 <= r < 2 ^ 256 /\ spec_int int_ceil x r.
Proof. intros. apply nearest_integral_ok with g_ceil; auto using good_ceil. Qed.

Lemma xhi_leb' z k : 0 <= z -> 0 <= k -> (xhi (of256 z) <=? k) = (z <? (k + 1) * 2 ^ 128).
Proof.
  intros. rewrite xhi_of. pose proof (Z.div_mod z (2 ^ 128) ltac:(lia)). pose proof (Z.mod_pos_bound z (2 ^ 128) ltac:(lia)).
  destruct (Z.leb_spec (z / 2 ^ 128) k), (Z.ltb_spec z ((k + 1) * 2 ^ 128)); auto; lia.
Qed.

(** Numbers whose high half is that of 1: k = 1 and the rest is below 2^128 ulps. *)
Lemma near_one a : ONEm <= a < ONEm + 2 ^ 128 -> exists r, 0 <= r < 2 ^ 128 /\ mag_val a = (1 * 2 ^ 236 + r) * 2 ^ (UNITe - 236).
Proof.
  intros Ha. unfold ONEm in Ha. exists (a - 262143 * 2 ^ 236). split. lia.
  replace a with (262142 * 2 ^ 236 + (2 ^ 236 + (a - 262143 * 2 ^ 236))) at 1 by lia.
  rewrite mag_val_any by lia. unfold UNITe. reflexivity.
Qed.

Lemma round_ok x : 0 <= x < 2 ^ 256 ->
  exists r, round (of256 x) = Some (of256 r) /\ 0 <= r < 2 ^ 256 /\ spec_int int_round x r.
Proof.
  intros Hx. unfold round.
  destruct (is_special_bits (abs_bits (of256 x))) eqn:Sp.
  { exists x. split; auto. split; auto. apply spec_int_special, special_of; auto. }
  destruct (fin_of x Sp) as (Hf & Hz & Hm). rewrite abs_bits_of. fold (mag x).
  pose proof (sgn01 x Hx) as Hs. pose proof (mag_bound x) as MB. pose proof U1_pos as UP.
  unfold MIN_NO_FRACT_HI. rewrite xhi_leb by lia. change ((262143 + 236) * 2 ^ 108 * 2 ^ 128) with ((262143 + 236) * 2 ^ 236).
  destruct (Z.leb_spec ((262143 + 236) * 2 ^ 236) (mag x)) as [Big|Big].
  { exists x. split; auto. split; auto.
    destruct (int_big (mag x) Big) as (m & Hm0 & Em).
    refine (spec_int_intro _ _ x x (sgn x) (mag x) good_round Hx Hz Hf (eq_sym (mkf_sgn_mag x)) _ (or_introl eq_refl) _); [lia|].
    rewrite Em. unfold g_round. f_equal. symmetry. apply div_eq with U1; lia. }
  change (xhi ONE_HALF) with (262142 * 2 ^ 108). rewrite xhi_ltb by lia.
  change (262142 * 2 ^ 108 * 2 ^ 128) with (262142 * 2 ^ 236).
  pose proof mag_val_one as V1. pose proof mag_val_half as V2.
  pose proof (mag_val_pos (mag x) ltac:(lia)) as VP.
  destruct (Z.ltb_spec (mag x) (262142 * 2 ^ 236)) as [Sm|Sm].
  { pose proof (mag_val_lt (mag x) (262142 * 2 ^ 236) ltac:(lia) Sm) as VL.
    destruct (g_small (mag_val (mag x)) ltac:(lia) (sgn x)) as (_ & _ & G3 & _).
    exists 0. split. reflexivity. split. lia.
    refine (spec_int_intro _ _ x 0 0 0 good_round Hx Hz Hf eq_refl _ (or_intror eq_refl) _); [unfold INFm; lia|].
    rewrite G3. destruct (Z.leb_spec U1 (2 * mag_val (mag x))); [lia|]. reflexivity. }
  change (xhi ONE) with (262143 * 2 ^ 108). rewrite xhi_leb' by lia.
  assert (E1 : (262143 * 2 ^ 108 + 1) * 2 ^ 128 = ONEm + 2 ^ 128) by reflexivity. rewrite E1. clear E1.
  destruct (Z.ltb_spec (mag x) (ONEm + 2 ^ 128)) as [Md|Md].
  { assert (E : u256 (Z.lor (262143 * 2 ^ 108) (sign_bits_hi (of256 x))) 0 = of256 (mkf (sgn x) ONEm)).
    { rewrite <- or_sign_of by (unfold ONEm; lia). reflexivity. }
    rewrite E. eexists. split. reflexivity. split.
    { unfold mkf, ONEm. destruct Hs as [-> | ->]; lia. }
    refine (spec_int_intro _ _ x _ (sgn x) ONEm good_round Hx Hz Hf eq_refl _ (or_introl eq_refl) _); [unfold ONEm, INFm; lia|].
    rewrite V1. destruct (Z.lt_ge_cases (mag x) ONEm) as [C|C].
    - pose proof (mag_val_lt (mag x) ONEm ltac:(lia) C) as VL.
      pose proof (mag_val_le (262142 * 2 ^ 236) (mag x) ltac:(lia) ltac:(lia)) as VH.
      destruct (g_small (mag_val (mag x)) ltac:(lia) (sgn x)) as (_ & _ & G3 & _). rewrite G3.
      destruct (Z.leb_spec U1 (2 * mag_val (mag x))); [|lia]. cbn [b2z]. lia.
    - destruct (near_one (mag x) ltac:(lia)) as (r & Hr & Er). rewrite Er.
      rewrite (gV_round 1 r 236 (UNITe - 236)) by (unfold UNITe; lia).
      destruct (Z.leb_spec (2 ^ (236 - 1)) r) as [L|L]. change (236 - 1) with 235 in L. lia. cbn [b2z]. lia. }
  destruct (int_part (mag x) ltac:(lia)) as (k & r & E & Hn & HE & HU & EV & Hr & Hk & Em & _ & Ej & Bj & _).
  set (a := mag x) in *. set (n := 236 - (a / 2 ^ 236 - 262143)) in *.
  assert (Hn' : n = 236 - (a / 2 ^ 236 - 262143)) by reflexivity.
  rewrite exp_bits_of by lia. unfold EXP_BIAS, FRACTION_BITS.
  assert (a / 2 ^ 236 - 262143 = 236 - n) by lia.
  clearbody n. rewrite subu_ok by lia. rewrite bind_Some, H. rewrite subu_ok by lia. rewrite bind_Some.
  replace (236 - (236 - n)) with n by lia. rewrite subu_ok by lia. rewrite bind_Some.
  pose proof (Bj 0 ltac:(lia)) as B0. pose proof (Bj 1 ltac:(lia)) as B1. rewrite Z.add_0_r in B0. unfold INFm in B0, B1.
  pose proof (pow2_pos n ltac:(lia)) as Pn. assert (Dn : 0 <= a / 2 ^ n) by (apply Z.div_pos; lia).
  pose proof (pow2_le (n - 1) 235 ltac:(lia)). pose proof (pow2_pos (n - 1) ltac:(lia)).
  change uint_one with (of256 1). rewrite shl256s by lia. rewrite Z.mul_1_l, bind_Some.
  rewrite rem_pow2_256 by lia. rewrite bind_Some, Em, shr256 by lia. rewrite bind_Some.
  pose proof (pow2_le n 236 ltac:(lia)).
  rewrite uge256 by lia. set (c := 2 ^ (n - 1) <=? r). pose proof (b2z01 c) as Hc.
  assert (Ex : (if c then incr (of256 (a / 2 ^ n)) else of256 (a / 2 ^ n)) = of256 (a / 2 ^ n + b2z c)).
  { destruct c; cbn [b2z]. 2: { rewrite Z.add_0_r. reflexivity. } apply incr256. lia. lia. }
  pose proof (Bj (b2z c) Hc) as Bc. unfold INFm in Bc.
  assert (Ex2 : ushl (if c then incr (of256 (a / 2 ^ n)) else of256 (a / 2 ^ n)) n = Some (of256 ((a / 2 ^ n + b2z c) * 2 ^ n))).
  { rewrite Ex. apply shl256s; lia. }
  refine (ex_intro _ (mkf (sgn x) ((a / 2 ^ n + b2z c) * 2 ^ n)) (conj (bind_eq _ _ _ _ Ex2 _) _)).
  { rewrite or_sign_of by lia. reflexivity. }
  split. { unfold mkf. destruct Hs as [-> | ->]; lia. }
  refine (spec_int_intro _ _ x _ (sgn x) _ good_round Hx Hz Hf eq_refl _ (or_introl eq_refl) _); [unfold INFm; lia|].
  fold a. rewrite (Ej _ Hc), EV.
  rewrite (gV_round k r n E HE ltac:(lia) HU Hr ltac:(lia)).
  rewrite (U1_split n E HE ltac:(lia) HU). fold c. ring.
Qed.

(** [round_tie_even] is right except just above one half (same high half as 1/2). *)
Lemma round_tie_even_ok x : 0 <= x < 2 ^ 256 ->
  ~ 262142 * 2 ^ 236 < mag x < 262142 * 2 ^ 236 + 2 ^ 128 ->
  exists r, round_tie_even (of256 x) = Some (of256 r) /\ 0 <= r < 2 ^ 256 /\ spec_int int_rte x r.
Proof.
  intros Hx NH. unfold round_tie_even.
  destruct (is_special_bits (abs_bits (of256 x))) eqn:Sp.
  { exists x. split; auto. split; auto. apply spec_int_special, special_of; auto. }
  destruct (fin_of x Sp) as (Hf & Hz & Hm). rewrite abs_bits_of. fold (mag x).
  pose proof (sgn01 x Hx) as Hs. pose proof (mag_bound x) as MB. pose proof U1_pos as UP.
  unfold MIN_NO_FRACT_HI. rewrite xhi_leb by lia. change ((262143 + 236) * 2 ^ 108 * 2 ^ 128) with ((262143 + 236) * 2 ^ 236).
  destruct (Z.leb_spec ((262143 + 236) * 2 ^ 236) (mag x)) as [Big|Big].
  { exists x. split; auto. split; auto.
    destruct (int_big (mag x) Big) as (m & Hm0 & Em).
    refine (spec_int_intro _ _ x x (sgn x) (mag x) good_rte Hx Hz Hf (eq_sym (mkf_sgn_mag x)) _ (or_introl eq_refl) _); [lia|].
    rewrite Em. unfold g_rte. rewrite rne_div_exact by lia. reflexivity. }
  change (xhi ONE_HALF) with (262142 * 2 ^ 108). rewrite xhi_leb' by lia.
  assert (E2 : (262142 * 2 ^ 108 + 1) * 2 ^ 128 = 262142 * 2 ^ 236 + 2 ^ 128) by reflexivity. rewrite E2. clear E2.
  pose proof mag_val_one as V1. pose proof mag_val_half as V2.
  pose proof (mag_val_pos (mag x) ltac:(lia)) as VP.
  destruct (Z.ltb_spec (mag x) (262142 * 2 ^ 236 + 2 ^ 128)) as [Sm|Sm].
  { pose proof (mag_val_le (mag x) (262142 * 2 ^ 236) ltac:(lia) ltac:(lia)) as VL.
    destruct (g_small (mag_val (mag x)) ltac:(lia) (sgn x)) as (_ & _ & _ & G3).
    exists 0. split. reflexivity. split. lia.
    refine (spec_int_intro _ _ x 0 0 0 good_rte Hx Hz Hf eq_refl _ (or_intror eq_refl) _); [unfold INFm; lia|].
    rewrite G3. destruct (Z.ltb_spec U1 (2 * mag_val (mag x))); [lia|]. reflexivity. }
  change (xhi ONE) with (262143 * 2 ^ 108). rewrite xhi_leb' by lia.
  assert (E1 : (262143 * 2 ^ 108 + 1) * 2 ^ 128 = ONEm + 2 ^ 128) by reflexivity. rewrite E1. clear E1.
  destruct (Z.ltb_spec (mag x) (ONEm + 2 ^ 128)) as [Md|Md].
  { assert (E : u256 (Z.lor (262143 * 2 ^ 108) (sign_bits_hi (of256 x))) 0 = of256 (mkf (sgn x) ONEm)).
    { rewrite <- or_sign_of by (unfold ONEm; lia). reflexivity. }
    rewrite E. eexists. split. reflexivity. split.
    { unfold mkf, ONEm. destruct Hs as [-> | ->]; lia. }
    refine (spec_int_intro _ _ x _ (sgn x) ONEm good_rte Hx Hz Hf eq_refl _ (or_introl eq_refl) _); [unfold ONEm, INFm; lia|].
    rewrite V1. destruct (Z.lt_ge_cases (mag x) ONEm) as [C|C].
    - pose proof (mag_val_lt (mag x) ONEm ltac:(lia) C) as VL.
      pose proof (mag_val_lt (262142 * 2 ^ 236) (mag x) ltac:(lia) ltac:(lia)) as VH.
      destruct (g_small (mag_val (mag x)) ltac:(lia) (sgn x)) as (_ & _ & _ & G3). rewrite G3.
      destruct (Z.ltb_spec U1 (2 * mag_val (mag x))); [|lia]. cbn [b2z]. lia.
    - destruct (near_one (mag x) ltac:(lia)) as (r & Hr & Er). rewrite Er.
      rewrite (gV_rte 1 r 236 (UNITe - 236)) by (unfold UNITe; lia).
      rewrite (rne_div_pow2_bits _ 236 1 r) by lia. change (236 - 1) with 235.
      destruct (Z.ltb_spec (2 ^ 235) r); [lia|]. destruct (Z.eqb_spec r (2 ^ 235)); [lia|]. cbn [orb andb]. lia. }
  destruct (int_part (mag x) ltac:(lia)) as (k & r & E & Hn & HE & HU & EV & Hr & Hk & Em & Eo & Ej & Bj & _).
  set (a := mag x) in *. set (n := 236 - (a / 2 ^ 236 - 262143)) in *.
  assert (Hn' : n = 236 - (a / 2 ^ 236 - 262143)) by reflexivity.
  rewrite exp_bits_of by lia. unfold EXP_BIAS, FRACTION_BITS.
  assert (a / 2 ^ 236 - 262143 = 236 - n) by lia.
  clearbody n. rewrite subu_ok by lia. rewrite bind_Some, H. rewrite subu_ok by lia. rewrite bind_Some.
  replace (236 - (236 - n)) with n by lia.
  pose proof (pow2_pos n ltac:(lia)) as Pn. assert (Dn : 0 <= a / 2 ^ n) by (apply Z.div_pos; lia).
  rewrite rdp256 by lia. rewrite bind_Some.
  pose proof (Z.div_mod a (2 ^ n) ltac:(lia)) as Da.
  rewrite (rne_div_pow2_bits a n (a / 2 ^ n) r) by lia. rewrite Eo.
  set (c := (2 ^ (n - 1) <? r) || (r =? 2 ^ (n - 1)) && Z.odd k). pose proof (b2z01 c) as Hc.
  assert (Ex : (if c then a / 2 ^ n + 1 else a / 2 ^ n) = a / 2 ^ n + b2z c) by (destruct c; cbn [b2z]; lia).
  rewrite Ex. pose proof (Bj (b2z c) Hc) as Bc. unfold INFm in Bc.
  rewrite shl256s by lia. rewrite bind_Some.
  rewrite or_sign_of by lia. eexists. split. reflexivity.
  split. { unfold mkf. destruct Hs as [-> | ->]; lia. }
  refine (spec_int_intro _ _ x _ (sgn x) _ good_rte Hx Hz Hf eq_refl _ (or_introl eq_refl) _); [unfold INFm; lia|].
  fold a. rewrite (Ej _ Hc), EV.
  rewrite (gV_rte k r n E HE ltac:(lia) HU Hr ltac:(lia)).
  rewrite (rne_div_pow2_bits _ n k r) by lia. fold c.
  rewrite (U1_split n E HE ltac:(lia) HU). destruct c; cbn [b2z]; ring.
Qed.

(** ** Scaling *)

Lemma not_special x : is_special_bits (abs_bits (of256 x)) = false -> nanb x || infb x || zerob x = false.
Proof.
  intros H. destruct (fin_of x H) as (Hf & Hz & _). rewrite Hz, orb_false_r. unfold nanb, infb.
  unfold finb in Hf. apply Z.ltb_lt in Hf. apply orb_false_iff. split. apply Z.ltb_ge; lia. apply Z.eqb_neq; lia.
Qed.

Lemma split_hi v : 0 <= v < 2 ^ 256 -> v / 2 ^ 128 * 2 ^ 128 + v mod 2 ^ 128 = v /\ 0 <= v mod 2 ^ 128 < 2 ^ 128
   /\ 0 <= v / 2 ^ 128 < 2 ^ 128.
Proof.
  intros. pose proof (Z.div_mod v (2 ^ 128) ltac:(lia)). pose proof (Z.mod_pos_bound v (2 ^ 128) ltac:(lia)).
  assert (0 <= v / 2 ^ 128 < 2 ^ 128) by (apply div_bound; lia). lia.
Qed.

(** Right for normal numbers, and for subnormal ones if n < 524287. *)
Lemma mul_pow2_ok x n : 0 <= x < 2 ^ 256 -> 0 <= n < 2 ^ 32 -> 2 ^ 236 <= mag x \/ n < 524287 ->
  mul_pow2 (of256 x) n = Some (of256 (spec_mul_pow2 x n)).
Proof.
  intros Hx Hn Hc. unfold mul_pow2, spec_mul_pow2.
  destruct (is_special_bits (abs_bits (of256 x))) eqn:Sp.
  { rewrite special_of by auto. reflexivity. }
  rewrite not_special by auto. destruct (fin_of x Sp) as (Hf & Hz & Hm). rewrite abs_bits_of. fold (mag x).
  pose proof (sgn01 x Hx) as Hs. pose proof (mag_bound x) as MB. rewrite exp_bits_of by lia.
  rewrite sign_of by auto. fold (sgn x). unfold EXP_MAX.
  rewrite mag_val_sg by lia. unfold INFm in Hm.
  pose proof (sg_qe (mag x) ltac:(lia)) as [Ea Ca]. pose proof (sg_bound (mag x) ltac:(lia)) as SB.
  pose proof (Z.div_mod (mag x) (2 ^ 236) ltac:(lia)) as D. pose proof (Z.mod_pos_bound (mag x) (2 ^ 236) ltac:(lia)) as M.
  rewrite <- Z.mul_assoc, <- pow2_add by (pose proof (qe_nonneg (mag x)); lia).
  destruct (Z.leb_spec 524287 (Z.min (2 ^ 32 - 1) (mag x / 2 ^ 236 + n))) as [Ov|Ov].
  - assert (Hnorm : 2 ^ 236 <= mag x) by (destruct Hc; auto; destruct (Z.le_gt_cases (2 ^ 236) (mag x)); auto; lia).
    pose proof (sg_norm (mag x) Hnorm) as SN.
    assert (qe (mag x) = mag x / 2 ^ 236 - 1) by (unfold qe; lia).
    pose proof (pow2_pos (qe (mag x) + n) ltac:(lia)) as PQ.
    rewrite (fun A B C D F => rnd_mag_at (sg (mag x) * 2 ^ (qe (mag x) + n)) 1 (qe (mag x) + n) A B C D F).
    + rewrite Z.mul_1_l, rne_div_exact by auto. rewrite Z.min_l by (unfold INFm; lia).
      change INFINITY with (of256 INFm). change NEG_INFINITY with (of256 (mkf 1 INFm)).
      rewrite pick_ok by auto. destruct Hs as [-> | ->]; reflexivity.
    + lia.
    + apply Z.mul_nonneg_nonneg; lia.
    + lia.
    + rewrite Z.mul_1_r, (pow2_add 237) by lia. apply Z.mul_le_mono_nonneg_r; lia.
    + right. rewrite Z.mul_1_r, (pow2_add 236) by lia. apply Z.mul_le_mono_nonneg_r; lia.
  - assert (Hn2 : mag x / 2 ^ 236 + n < 524287) by lia.
    destruct (Z.eqb_spec (mag x / 2 ^ 236) 0) as [e|e].
    + assert (Sub : mag x < 2 ^ 236) by lia. rewrite fraction_of, (Z.mod_small (mag x)) by lia.
      assert (qe (mag x) = 0 /\ sg (mag x) = mag x) as [-> ->].
      { unfold qe, sg. rewrite e. destruct (Z.ltb_spec (mag x) (2 ^ 236)); lia. }
      rewrite Z.add_0_l. rewrite casts_ok by lia. rewrite adds_ok by (change (32 - 1) with 31; lia). rewrite bind_Some.
      pose proof (split_hi (mag x) ltac:(lia)) as (S1 & S2 & S3). rewrite xhi_of, xlo_of.
      assert (R : rnd_scaled (mag x) (-262378 + n) = rnd_mag (mag x * 2 ^ n) 1).
      { unfold rnd_scaled, UNITe. replace (-262378 + n + 262378) with n by lia.
        rewrite Z.max_r, Z.max_l by lia. reflexivity. }
      rewrite from_ok; rewrite ?S1, ?R; auto; try lia.
      2: { unfold UNITe; lia. }
      destruct (representable (mag x) n 524285 ltac:(lia) ltac:(lia) ltac:(lia)) as (a & Ha & Ea2).
      { rewrite (Z.add_comm 237). change 237 with (1 + 236). rewrite Z.add_assoc, pow2_add by lia. rewrite (Z.mul_comm (mag x)).
        apply Z.lt_le_trans with (2 ^ n * 2 ^ 236). apply Z.mul_lt_mono_pos_l. apply pow2_pos; lia. lia.
        apply Z.mul_le_mono_nonneg_r. lia. apply pow2_le; lia. }
      rewrite <- Ea2. rewrite rnd_mag_exact by (unfold INFm; lia). unfold INFm; lia.
    + assert (Hnorm : 2 ^ 236 <= mag x) by lia. pose proof (sg_norm (mag x) Hnorm) as SN.
      assert (HQ : qe (mag x) = mag x / 2 ^ 236 - 1) by (unfold qe; lia).
      rewrite <- (mag_val_any (qe (mag x) + n) (sg (mag x))) by lia. rewrite rnd_mag_exact by (unfold INFm; lia).
      unfold shlc, HI_FRACTION_BITS. rewrite (Z.mod_small (n * 2 ^ 108)) by lia.
      rewrite xhi_of, xlo_of. pose proof (split_hi x Hx) as (S1 & S2 & S3).
      assert (Bd : x + n * 2 ^ 236 < 2 ^ 256).
      { pose proof (sgn_mag x) as SM. lia. }
      rewrite addu_ok by lia. rewrite bind_Some. rewrite u256_hi. apply f_equal, of256_ext.
      pose proof (sgn_mag x) as SM. unfold mkf. lia.
Qed.

(** Right except when the exponent field equals n > 0, and when x is positive and
    n one more than the position at which the code assumes a zero result. *)
Definition div_pow2_shr (x n : Z) : Z := n - qe (mag x).

Lemma div_pow2_ok x n : 0 <= x < 2 ^ 256 -> 0 <= n < 2 ^ 32 ->
  ~ (0 < n /\ mag x / 2 ^ 236 = n) ->
  ~ (sgn x = 0 /\ div_pow2_shr x n = Z.log2 x + 1 /\ 2 ^ Z.log2 x < sg (mag x)) ->
  div_pow2 (of256 x) n = Some (of256 (spec_div_pow2 x n)).
Proof.
  intros Hx Hn Hc1 Hc2. unfold div_pow2, spec_div_pow2.
  destruct (is_special_bits (abs_bits (of256 x))) eqn:Sp.
  { rewrite special_of by auto. reflexivity. }
  rewrite not_special by auto. destruct (fin_of x Sp) as (Hf & Hz & Hm). rewrite abs_bits_of. fold (mag x).
  pose proof (sgn01 x Hx) as Hs. pose proof (mag_bound x) as MB. rewrite exp_bits_of, norm_bit_of by lia.
  rewrite sign_of by auto. fold (sgn x).
  rewrite mag_val_sg by lia. unfold INFm in Hm. unfold div_pow2_shr in Hc2.
  pose proof (sg_qe (mag x) ltac:(lia)) as [Ea Ca]. pose proof (sg_bound (mag x) ltac:(lia)) as SB.
  pose proof (sg_pos (mag x) ltac:(lia)) as SP. pose proof (qe_nonneg (mag x)) as QN.
  pose proof (Z.div_mod (mag x) (2 ^ 236) ltac:(lia)) as D. pose proof (Z.mod_pos_bound (mag x) (2 ^ 236) ltac:(lia)) as M.
  assert (HQ : qe (mag x) = mag x / 2 ^ 236 - b2z (2 ^ 236 <=? mag x)).
  { unfold qe. destruct (Z.leb_spec (2 ^ 236) (mag x)); cbn [b2z]; lia. }
  pose proof (b2z01 (2 ^ 236 <=? mag x)) as B01.
  destruct (Z.ltb_spec (mag x / 2 ^ 236) n) as [Lt|Ge].
  - rewrite subu_ok by lia. rewrite bind_Some, addu_ok by lia. rewrite bind_Some.
    replace (n - mag x / 2 ^ 236 + b2z (2 ^ 236 <=? mag x)) with (n - qe (mag x)) by lia.
    assert (xpos : 0 < x). { pose proof (sgn_mag x). destruct Hs; lia. }
    rewrite msb256 by lia. rewrite bind_Some.
    set (q := qe (mag x)) in *. set (s := sg (mag x)) in *. 
    assert (Hsh : 1 <= n - q) by lia.
    assert (RR : rnd_mag (s * 2 ^ q) (2 ^ n) = rne_div s (2 ^ (n - q)) /\ 0 <= rne_div s (2 ^ (n - q)) <= 2 ^ 236).
    { pose proof (pow2_pos q ltac:(lia)) as Pq. pose proof (pow2_pos n ltac:(lia)) as Pn.
      assert (RB : 0 <= rne_div s (2 ^ (n - q)) <= 2 ^ 236).
      { split. apply rne_div_nonneg. lia. apply pow2_pos; lia.
        apply rne_div_le_bound. apply pow2_pos; lia. rewrite <- pow2_add by lia.
        pose proof (pow2_le 237 (236 + (n - q)) ltac:(lia)). lia. }
      split; auto.
      rewrite (fun A B C D F => rnd_mag_at (s * 2 ^ q) (2 ^ n) 0 A B C D F); try lia.
      + change (2 ^ 0) with 1. rewrite Z.mul_1_r, Z.mul_0_l, Z.add_0_l.
        rewrite (pow2_split q n), (Z.mul_comm (2 ^ q)) by lia. rewrite rne_div_mul by (try apply pow2_pos; lia).
        rewrite Z.min_r. reflexivity. unfold INFm; lia.
      + change (237 + 0) with 237. apply Z.mul_le_mono_nonneg; try lia. apply pow2_le; lia. }
    destruct RR as [-> RB].
    destruct (Z.ltb_spec (Z.log2 x) (n - q)) as [Z0|Z0].
    + change ZERO with (of256 0). change NEG_ZERO with (of256 (mkf 1 0)). rewrite pick_ok by auto.
      assert (Rz : rne_div s (2 ^ (n - q)) = 0).
      { assert (2 * s <= 2 ^ (n - q)).
        { replace (n - q) with (n - q - 1 + 1) by lia. rewrite pow2_S by lia. apply Z.mul_le_mono_nonneg_l; [lia|].
          destruct Hs as [s0|s1].
          - assert (Emx : mag x = x) by (pose proof (sgn_mag x); lia).
            destruct (Z.eq_dec (n - q) (Z.log2 x + 1)) as [Eq|Ne].
            + rewrite Eq, Z.add_simpl_r. destruct (Z.le_gt_cases s (2 ^ Z.log2 x)); auto.
              exfalso. apply Hc2. auto.
            + apply Z.le_trans with (2 ^ (Z.log2 x + 1)). 2: apply pow2_le; pose proof (Z.log2_nonneg x); lia.
              pose proof (Z.log2_spec x xpos) as LS. rewrite <- Z.add_1_r in LS.
              assert (s <= mag x) by lia. lia.
          - assert (255 <= Z.log2 x). { apply Z.log2_le_pow2. lia. pose proof (sgn_mag x). lia. }
            pose proof (pow2_le 237 (n - q - 1) ltac:(lia)). lia. }
        unfold rne_div. rewrite Z.div_small, Z.mod_small by lia. cbn [Z.odd Z.even].
        destruct (Z.ltb_spec (2 ^ (n - q)) (2 * s)); [lia|]. rewrite andb_false_r. reflexivity. }
      rewrite Rz. destruct Hs as [-> | ->]; reflexivity.
    + assert (Z.log2 x < 256) by (apply Z.log2_lt_pow2; lia).
      rewrite signif_of by lia. fold s. rewrite rdp256 by lia. rewrite bind_Some, is_zero256 by lia.
      set (m := rne_div s (2 ^ (n - q))) in *. clearbody m.
      destruct (Z.eqb_spec m 0) as [->|Nz].
      * change ZERO with (of256 0). change NEG_ZERO with (of256 (mkf 1 0)). rewrite pick_ok by auto.
        destruct Hs as [-> | ->]; reflexivity.
      * pose proof (split_hi m ltac:(lia)) as (S1 & S2 & S3). rewrite xhi_of, xlo_of.
        assert (R : rnd_scaled m (-262378) = m).
        { unfold rnd_scaled, UNITe. change (2 ^ Z.max 0 (-262378 + 262378)) with 1. change (2 ^ Z.max 0 (- (-262378 + 262378))) with 1.
          rewrite Z.mul_1_r. rewrite <- (Z.mul_1_r m) at 1. change 1 with (2 ^ 0) at 1.
          rewrite <- (mag_val_any 0 m) by lia. rewrite Z.mul_0_l, Z.add_0_l. apply rnd_mag_exact. unfold INFm; lia. }
        rewrite from_ok; rewrite ?S1, ?R; auto; try lia. unfold INFm; lia. unfold UNITe; lia.
  - assert (Ne : n = 0 \/ n < mag x / 2 ^ 236) by lia.
    assert (n <= qe (mag x)) by (destruct Ne; lia).
    rewrite (pow2_split n (qe (mag x))) by lia. rewrite (Z.mul_comm (2 ^ n)), Z.mul_assoc.
    assert (RS : rnd_mag (sg (mag x) * 2 ^ (qe (mag x) - n) * 2 ^ n) (2 ^ n) = rnd_mag (sg (mag x) * 2 ^ (qe (mag x) - n)) 1).
    { rewrite <- (rnd_mag_scale _ 1 (2 ^ n)). rewrite Z.mul_1_l. reflexivity. apply pow2_pos; lia.
      apply Z.mul_nonneg_nonneg. lia. apply Z.lt_le_incl, pow2_pos; lia. lia. }
    rewrite RS.
    rewrite <- (mag_val_any (qe (mag x) - n) (sg (mag x))) by lia. rewrite rnd_mag_exact by (unfold INFm; lia).
    unfold shlc, HI_FRACTION_BITS. rewrite (Z.mod_small (n * 2 ^ 108)) by lia.
    rewrite xhi_of, xlo_of. pose proof (split_hi x Hx) as (S1 & S2 & S3).
    assert (Bd : 0 <= x - n * 2 ^ 236). { pose proof (sgn_mag x) as SM. lia. }
    rewrite subu_ok by lia. rewrite bind_Some. rewrite u256_hi. apply f_equal, of256_ext.
    pose proof (sgn_mag x) as SM. unfold mkf. lia.
Qed.

End IntProofs.

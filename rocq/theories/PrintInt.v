(** * PrintInt: integers below 2^237 are printed digit by digit *)

From Coq Require Import ZArith List Bool Lia.
From Verif Require Import Base ZLemmas BigUInt BigLaws BigUIntProofs BigExtra F256 F256Lemmas CodecProofs BasicProofs
  Spec SpecLemmas Interface Parse SpecParse ChunkLemmas ParseProofs ReadProofs Print SpecPrint
  PrintArith PrintLoops PrintProofs PrintRound PrintText.
Import ListNotations.
Open Scope Z_scope.

Local Notation len l := (Z.of_nat (length l)).

Section Print.
Context {P : profile}.

(** Digits are removed as long as the bounds differ. *)
Lemma removed l s u lrz rz w j : 0 < l -> 0 <= s < 2 ^ 255 -> l <= u < 2 ^ 256 ->
  shortest_in (of256 l) (of256 s) (of256 u) lrz rz = Some (w, j) ->
  exists j1, 0 <= j1 <= j /\ u / 10 ^ j1 / 10 <= l / 10 ^ j1 / 10.
Proof.
  intros Hl Hs Hu E. destruct (lrz || rz) eqn:F.
  - destruct (shortest_in_exact l s u lrz rz F Hl Hs Hu) as (j1 & j' & E' & H1 & H2 & H3 & H4 & _).
    rewrite E in E'. injection E' as _ <-. exists j1. auto.
  - apply orb_false_iff in F. destruct F as [-> ->].
    destruct (shortest_in_next l s u ltac:(lia) Hs Hu) as (j' & E' & H1 & H2 & H3).
    rewrite E in E'. injection E' as _ <-. exists j. split; [lia|auto].
Qed.

Lemma removed_enough l u n L j1 : 0 <= L -> 0 <= j1 -> l < n * 10 ^ L -> n * 10 ^ L <= u -> 0 <= l ->
  u / 10 ^ j1 / 10 <= l / 10 ^ j1 / 10 -> L <= j1.
Proof.
  intros HL Hj H1 H2 H3 H. destruct (Z.le_gt_cases L j1) as [|G]; auto. exfalso.
  assert (PT : 0 < 10 ^ j1) by (apply Z.pow_pos_nonneg; lia).
  rewrite !Z.div_div in H by lia. replace (10 ^ j1 * 10) with (10 ^ (j1 + 1)) in H by (rewrite Z.pow_add_r by lia; reflexivity).
  assert (E : 10 ^ L = 10 ^ (L - (j1 + 1)) * 10 ^ (j1 + 1)) by (rewrite <- Z.pow_add_r by lia; f_equal; lia).
  assert (PT1 : 0 < 10 ^ (j1 + 1)) by (apply Z.pow_pos_nonneg; lia).
  rewrite E, Z.mul_assoc in H1, H2. set (m := n * 10 ^ (L - (j1 + 1))) in *.
  assert (m <= u / 10 ^ (j1 + 1)) by (apply Z.div_le_lower_bound; lia).
  assert (l / 10 ^ (j1 + 1) < m) by (apply Z.div_lt_upper_bound; lia). lia.
Qed.

Lemma integer_exact t c e n : tables_ok t -> -236 <= e <= 0 -> 0 < c < 2 ^ 237 -> c = n * 2 ^ (- e) ->
  exists w k, shortest_from_bin_repr t (of256 c) e = Some (of256 w, k) /\ 0 < w < 2 ^ 256 /\ 0 <= k <= 1000 /\ w * 10 ^ k = n.
Proof.
  intros T He Hc En. destruct (search t c e 712 T ltac:(lia) Hc ltac:(lia)) as (w & k & E & Hw & Hk & DI & _).
  assert (K0 : 0 <= k).
  { clear DI. unfold shortest_from_bin_repr in E.
    rewrite (L_even _ L256) in E by (change (2 ^ BITS) with (2 ^ 256); lia).
    rewrite subs_ok in E by lia. rewrite bind_Some in E.
    rewrite (L_shl _ L256) in E by (change (2 ^ BITS) with (2 ^ 256); change BITS with 256; lia).
    change (2 ^ BITS) with (2 ^ 256) in E. change (2 ^ 2) with 4 in E. rewrite (Z.mul_comm c 4) in E.
    rewrite Z.mod_small in E by lia. rewrite bind_Some in E.
    destruct (interval_lt t c (e - 2) T ltac:(lia) Hc) as (Hg & Hi & HK & HN & s & lrz & rz & E2 & Hl & Hs).
    set (g := lt_g (- (e - 2))) in *. set (i := - (e - 2) - g) in *. set (K := 2 ^ g) in *. set (N := 5 ^ i) in *.
    set (A := (4 * c - (1 + b2z (nonint c (e - 2)))) * N) in *. set (X := 4 * c * N) in *. set (B := (4 * c + 2) * N) in *.
    rewrite E2, bind_Some in E. clear E2 T.
    assert (PN : 0 < N) by lia. pose proof (b2z_01 (nonint c (e - 2))) as Hb.
    assert (B1 : K <= A) by (unfold A; nia). assert (B2 : A < X) by (unfold A, X; nia).
    assert (B3 : X < B) by (unfold X, B; lia).
    assert (B7 : X / K < 2 ^ 255) by (apply Z.div_lt_upper_bound; [lia|unfold X; clear - Hc HK HN; nia]).
    assert (B8 : B / K < 2 ^ 256) by (apply Z.div_lt_upper_bound; [lia|unfold B; clear - Hc HK HN; nia]).
    assert (B0 : 0 < A / K) by (apply Z.div_str_pos; lia).
    assert (AB : A / K <= B / K) by (apply Z.div_le_mono; lia).
    assert (SX : 0 <= s < 2 ^ 255).
    { assert (0 < X / K) by (apply Z.div_str_pos; lia). destruct Hs as [(-> & _)|(_ & _ & -> & _)]; lia. }
    destruct (shortest_in (of256 (A / K)) (of256 s) (of256 (B / K)) lrz rz) as [(w', j)|] eqn:E3; [|discriminate].
    rewrite bind_Some in E. destruct (removed _ _ _ _ _ _ _ B0 SX (conj AB B8) E3) as (j1 & Hj1 & Hq).
    assert (EX : X = n * 10 ^ i * K).
    { unfold X, N, K. rewrite En. change 10 with (2 * 5). rewrite Z.pow_mul_l. change 4 with (2 ^ 2).
      assert (EE : 2 ^ 2 * 2 ^ (- e) = 2 ^ i * 2 ^ g) by (rewrite <- !Z.pow_add_r by lia; f_equal; unfold i; lia).
      transitivity (n * 5 ^ i * (2 ^ 2 * 2 ^ (- e))); [ring|]. rewrite EE. ring. }
    assert (Hji : i <= j1).
    { apply (removed_enough (A / K) (B / K) n); auto; try lia.
      - apply Z.div_lt_upper_bound; [lia|]. rewrite EX in B2. lia.
      - apply Z.div_le_lower_bound; [lia|]. rewrite EX in B3. lia. }
    assert (HE : adds 32 (e - 2 + g) j = Some k).
    { destruct (adds 32 (e - 2 + g) j) as [k'|]; [|discriminate]. rewrite bind_Some in E. injection E as _ ->. reflexivity. }
    destruct (Z.le_gt_cases j 1000000) as [J|J].
    - rewrite adds_ok in HE by lia. injection HE as <-. unfold i in Hji. lia.
    - (* more than a million digits were not removed *)
      exfalso. destruct (lrz || rz) eqn:F.
      + destruct (shortest_in_exact (A / K) s (B / K) lrz rz F B0 SX ltac:(lia)) as (j2 & j' & E' & _ & H2 & _).
        rewrite E3 in E'. injection E' as _ <-. lia.
      + apply orb_false_iff in F. destruct F as [-> ->].
        destruct (shortest_in_next (A / K) s (B / K) ltac:(lia) SX ltac:(lia)) as (j' & E' & H1 & _).
        rewrite E3 in E'. injection E' as _ <-. lia. }
  exists w, k. split; [exact E|]. split; [exact Hw|]. split; [lia|].
  destruct DI as [[D1 D2] _]. rewrite (Z.max_l 0 (- k)) in D1, D2 by lia. rewrite (Z.max_r 0 k) in D1, D2 by lia.
  rewrite Z.pow_0_r, Z.mul_1_r in D1, D2.
  set (v := w * 10 ^ k) in *. clearbody v.
  assert (EU : 2 ^ 712 = 2 ^ (1 - e) * 2 ^ (e - 1 + 712)) by (rewrite <- Z.pow_add_r by lia; f_equal; lia).
  assert (E2 : 2 * c = n * 2 ^ (1 - e)).
  { rewrite En. replace (1 - e) with (1 + - e) by lia. rewrite Z.pow_add_r by lia. change (2 ^ 1) with 2. ring. }
  assert (PQ : 0 < 2 ^ (e - 1 + 712)) by (apply pow2_pos; lia).
  assert (P2 : 2 <= 2 ^ (1 - e)). { change 2 with (2 ^ 1) at 1. apply Z.pow_le_mono_r; lia. }
  rewrite EU in D1, D2. set (Q := 2 ^ (e - 1 + 712)) in *. set (h := 2 ^ (1 - e)) in *. clearbody Q h.
  rewrite E2 in D1, D2. clear - D1 D2 PQ P2.
  rewrite Z.mul_assoc in D1, D2. apply Z.mul_le_mono_pos_r in D1, D2; auto. nia.
Qed.

(** A text with no fraction *)
Lemma display_parts_int s w k : 0 < w < 2 ^ 256 -> 0 <= k <= 100000 ->
  exists i, display_parts (DecRepr s k (of256 w)) = Some (ascii i) /\ digits_for (w * 10 ^ k) i.
Proof.
  intros Hw Hk. unfold display_parts. cbn [p_signif10 p_exp10].
  destruct (u256_text_ok w ltac:(lia)) as (ds & E & D). rewrite E, bind_Some. clear E.
  assert (HL : len ds <= 78). { apply (digits_len w ds 78 D); lia. }
  assert (L1 : 1 <= len ds) by (destruct D as (_ & _ & D3 & _); destruct ds; [congruence|cbn [length]; lia]).
  rewrite ascii_len. rewrite casts_ok by lia. rewrite adds_ok by lia. rewrite bind_Some.
  rewrite subs_ok by lia. rewrite bind_Some. rewrite Z.sub_0_l.
  rewrite (Z.max_l 0 (- k)), (Z.max_r 0 (len ds + k)) by lia. rewrite (ltb_false 0 0) by lia.
  exists (ds ++ repeat 0 (Z.to_nat k)). rewrite ascii_app, <- ascii_zeroes. split.
  - destruct (Z.ltb_spec (len ds) (len ds + k)).
    + rewrite !bind_Some. rewrite app_nil_r. unfold zeroes. do 3 f_equal. f_equal. lia.
    + rewrite ltb_true by lia. assert (k = 0) by lia. subst k. unfold slice_to. rewrite ascii_len. rewrite leb_true by lia.
      rewrite !bind_Some. rewrite firstn_all2 by (rewrite ascii_len; lia). reflexivity.
  - apply digits_app with w; auto; try lia. apply is_dec_zeros.
    rewrite len_repeat, Z2Nat.id by lia. assert (dval (repeat 0 (Z.to_nat k)) = 0); [|lia].
    apply dval_zeros. clear. induction (Z.to_nat k); constructor; auto.
Qed.

Lemma integer_display_u u t x n : u = UNITe -> tables_ok t -> 0 <= x < 2 ^ 256 -> sgn x = 0 -> 0 < n < 2 ^ 237 ->
  mag_val (mag x) = n * 2 ^ u ->
  exists i, display t (of256 x) = Some (ascii i) /\ digits_for n i.
Proof.
  intros Eu T Hx Hs Hn V. assert (HU : u = 262378) by (rewrite Eu; reflexivity).
  assert (P2 : 0 < 2 ^ u) by (apply pow2_pos; lia).
  pose proof (mag_bound x) as MB.
  pose proof (sg_bound (mag x) ltac:(lia)) as Sb. destruct (sg_qe (mag x) ltac:(lia)) as [Em C].
  pose proof (mag_val_sg (mag x) ltac:(lia)) as Vm. rewrite V in Vm.
  assert (Q0 : 0 <= qe (mag x)) by apply qe_nonneg.
  set (c := sg (mag x)) in *. set (E := qe (mag x)) in *.
  assert (PE : 0 < 2 ^ E) by (apply pow2_pos; lia).
  assert (E1 : u - 236 <= E).
  { destruct (Z.le_gt_cases (u - 236) E); auto. exfalso.
    assert (2 ^ 237 * 2 ^ E <= 2 ^ u). { rewrite <- Z.pow_add_r by lia. apply Z.pow_le_mono_r; lia. }
    clear - Vm Sb H0 PE Hn P2. nia. }
  assert (C2 : 2 ^ 236 <= c) by lia.
  assert (E2 : E <= u).
  { destruct (Z.le_gt_cases E u); auto. exfalso.
    assert (2 ^ 1 * 2 ^ u <= 2 ^ E). { rewrite <- Z.pow_add_r by lia. apply Z.pow_le_mono_r; lia. }
    clear - Vm C2 H0 PE Hn P2. change (2 ^ 237) with (2 * 2 ^ 236) in Hn. change (2 ^ 1) with 2 in H0.
    set (K := 2 ^ 236) in *. assert (0 < K) by (subst K; lia). clearbody K. nia. }
  assert (EC : c = n * 2 ^ (- (E - u))).
  { assert (EE : 2 ^ u = 2 ^ (- (E - u)) * 2 ^ E) by (rewrite <- Z.pow_add_r by lia; f_equal; lia).
    rewrite EE, Z.mul_assoc in Vm. apply Z.mul_reg_r in Vm; lia. }
  destruct (integer_exact t c (E - u) n T ltac:(lia) ltac:(lia) EC) as (w & k & Ew & Hw & Hk & En).
  destruct (display_parts_int (sgn x) w k Hw ltac:(lia)) as (i & Ei & Di). rewrite En in Di.
  exists i. split; [|exact Di].
  assert (Fi : finb x = true). { unfold finb. apply Z.ltb_lt. rewrite Em. unfold INFm. lia. }
  assert (Nz : zerob x = false). { unfold zerob. apply Z.eqb_neq. rewrite Em. lia. }
  unfold display. rewrite is_special_of, Fi, Nz by auto. cbn [orb negb].
  unfold shortest_from_f256. rewrite is_finite_of, eq_zero_of, Fi, Nz by auto. cbn [andb negb].
  rewrite dassert_ok by reflexivity. rewrite bind_Some.
  rewrite quantum_exponent_ok, Nz, bind_Some by auto. rewrite integral_significand_ok, bind_Some by auto.
  fold E c. rewrite HU in Ew. rewrite Ew, !bind_Some. rewrite sign_of by auto.
  change (x / 2 ^ 255) with (sgn x). rewrite Ei, bind_Some. cbn [p_sign]. rewrite Hs. reflexivity.
Qed.
Lemma integer_display t x n : tables_ok t -> 0 <= x < 2 ^ 256 -> sgn x = 0 -> 0 < n < 2 ^ 237 ->
  mag_val (mag x) = n * 2 ^ UNITe ->
  exists i, display t (of256 x) = Some (ascii i) /\ digits_for n i.
Proof. exact (integer_display_u UNITe t x n eq_refl). Qed.

End Print.

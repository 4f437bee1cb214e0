(** * PrintRound: from the interval to the rounded value *)

From Coq Require Import ZArith List Bool Lia.
From Verif Require Import Base ZLemmas BigUInt BigLaws BigUIntProofs BigExtra F256 F256Lemmas Spec SpecLemmas Print SpecPrint
  PrintArith PrintLoops PrintProofs.
Import ListNotations.
Open Scope Z_scope.

(** [w * 10^k] lies in the rounding interval of [c * 2^e], all scaled by [2^U]. *)
Definition dec_inside (U c e w k : Z) : Prop :=
  (2 * c - 1) * 2 ^ (e - 1 + U) * 10 ^ Z.max 0 (- k) <= w * 10 ^ Z.max 0 k * 2 ^ U
    <= (2 * c + 1) * 2 ^ (e - 1 + U) * 10 ^ Z.max 0 (- k)
  /\ (Z.odd c = true -> (2 * c - 1) * 2 ^ (e - 1 + U) * 10 ^ Z.max 0 (- k) < w * 10 ^ Z.max 0 k * 2 ^ U
    < (2 * c + 1) * 2 ^ (e - 1 + U) * 10 ^ Z.max 0 (- k)).

(** The comparisons in the units of PrintProofs: 2^e2 = N / K * 10^x *)
Definition scaling (U e2 x N K : Z) : Prop :=
  forall j, 0 <= j -> exists F G, 0 < F /\ 0 < G
    /\ (forall w, w * 10 ^ Z.max 0 (x + j) * 2 ^ U * G = w * 10 ^ j * K * F)
    /\ (forall y, y * 2 ^ (e2 + U) * 10 ^ Z.max 0 (- (x + j)) * G = y * N * F).

Lemma scaling_ge U e2 g : 0 <= U -> 0 <= g <= e2 -> scaling U e2 g (2 ^ (e2 - g)) (5 ^ g).
Proof.
  intros HU Hg j Hj. exists (2 ^ (g + U)), 1. split; [apply pow2_pos; lia|]. split; [lia|].
  rewrite Z.max_r, Z.max_l by lia. rewrite Z.pow_0_r. split.
  - intros w. rewrite (Z.pow_add_r 10 g j), (Z.pow_add_r 2 g U) by lia. change 10 with (2 * 5) at 1.
    rewrite Z.pow_mul_l. ring.
  - intros y. rewrite !Z.mul_1_r, <- Z.mul_assoc, <- Z.pow_add_r by lia. do 2 f_equal. lia.
Qed.

Lemma scaling_lt U e2 g : 0 <= g <= - e2 -> - e2 <= U -> scaling U e2 (e2 + g) (5 ^ (- e2 - g)) (2 ^ g).
Proof.
  intros Hg HU j Hj. set (i := - e2 - g). set (q := Z.max 0 (- (e2 + g + j))).
  exists (2 ^ (U - g) * 10 ^ q), (10 ^ i).
  assert (0 < 2 ^ (U - g)) by (apply pow2_pos; lia).
  assert (0 < 10 ^ q) by (apply Z.pow_pos_nonneg; lia).
  split; [nia|]. split; [apply Z.pow_pos_nonneg; lia|]. split.
  - intros w. replace (w * 10 ^ j * 2 ^ g * (2 ^ (U - g) * 10 ^ q))
      with (w * (10 ^ j * 10 ^ q) * (2 ^ g * 2 ^ (U - g))) by ring.
    replace (w * 10 ^ Z.max 0 (e2 + g + j) * 2 ^ U * 10 ^ i)
      with (w * (10 ^ Z.max 0 (e2 + g + j) * 10 ^ i) * 2 ^ U) by ring.
    rewrite <- !Z.pow_add_r by lia. f_equal; [do 2 f_equal|f_equal]; lia.
  - intros y. replace (2 ^ (U - g)) with (2 ^ (e2 + U) * 2 ^ i) by (rewrite <- Z.pow_add_r by lia; f_equal; lia).
    change 10 with (2 * 5) at 2. rewrite Z.pow_mul_l. ring.
Qed.

Lemma half_shift y e2 U : 0 <= e2 + U -> 2 * y * 2 ^ (e2 + U) = y * 2 ^ (e2 + 2 - 1 + U).
Proof.
  intros. replace (e2 + 2 - 1 + U) with (1 + (e2 + U)) by lia. rewrite (Z.pow_add_r 2 1) by lia. ring.
Qed.

Lemma scaled_le a b a' b' F G : 0 < F -> 0 < G -> a * G = a' * F -> b * G = b' * F -> (a <= b <-> a' <= b').
Proof. intros. nia. Qed.
Lemma scaled_lt a b a' b' F G : 0 < F -> 0 < G -> a * G = a' * F -> b * G = b' * F -> (a < b <-> a' < b').
Proof. intros. nia. Qed.

Lemma inside_iff U c e2 x N K w j : 0 <= e2 + U -> 0 <= j -> scaling U e2 x N K ->
  inside c (4 * c * N) ((4 * c + 2) * N) K w j <-> dec_inside U c (e2 + 2) w (x + j).
Proof.
  intros HU Hj S. destruct (S j Hj) as (F & G & PF & PG & E1 & E2).
  pose proof (E1 w) as W. pose proof (E2 (2 * (2 * c - 1))) as L. pose proof (E2 (2 * (2 * c + 1))) as H.
  rewrite half_shift in L, H by auto. unfold inside, dec_inside.
  replace (2 * (4 * c * N) - (4 * c + 2) * N) with (2 * (2 * c - 1) * N) by ring.
  replace ((4 * c + 2) * N) with (2 * (2 * c + 1) * N) by ring.
  rewrite <- (scaled_le _ _ _ _ F G PF PG L W), <- (scaled_le _ _ _ _ F G PF PG W H).
  rewrite <- (scaled_lt _ _ _ _ F G PF PG L W), <- (scaled_lt _ _ _ _ F G PF PG W H). reflexivity.
Qed.

(** No decimal of the interval has fewer digits. *)
Definition fewest (U c e w : Z) : Prop :=
  forall n q, 0 <= n -> dec_inside U c e n q -> forall d, 0 <= d -> n < 10 ^ d -> w < 10 ^ d.

Lemma pow10_le a b : 0 <= a <= b -> 10 ^ a <= 10 ^ b.
Proof. intros. apply Z.pow_le_mono_r; lia. Qed.

Lemma lower_mono L U n q k m : 0 < U -> 0 <= L -> 0 <= n < m -> q <= k ->
  L * 10 ^ Z.max 0 (- q) <= n * 10 ^ Z.max 0 q * U -> L * 10 ^ Z.max 0 (- k) < m * 10 ^ Z.max 0 k * U.
Proof.
  intros HU HL Hn Hk H.
  assert (E : 10 ^ Z.max 0 (- q) * 10 ^ Z.max 0 k = 10 ^ (k - q) * (10 ^ Z.max 0 q * 10 ^ Z.max 0 (- k))).
  { rewrite <- !Z.pow_add_r by lia. f_equal. lia. }
  assert (P1 : 0 < 10 ^ Z.max 0 (- q)) by (apply Z.pow_pos_nonneg; lia).
  assert (P2 : 0 < 10 ^ Z.max 0 k) by (apply Z.pow_pos_nonneg; lia).
  assert (P3 : 0 < 10 ^ Z.max 0 q) by (apply Z.pow_pos_nonneg; lia).
  assert (P4 : 0 < 10 ^ Z.max 0 (- k)) by (apply Z.pow_pos_nonneg; lia).
  assert (P5 : 0 < 10 ^ (k - q)) by (apply Z.pow_pos_nonneg; lia).
  generalize dependent (10 ^ Z.max 0 (- q)). generalize dependent (10 ^ Z.max 0 k).
  generalize dependent (10 ^ Z.max 0 q). generalize dependent (10 ^ Z.max 0 (- k)). generalize dependent (10 ^ (k - q)).
  clear Hk. intros r Hr b Hb c Hc d Hd a H E Ha.
  assert (S1 : L * a * b <= n * c * U * b) by (apply Z.mul_le_mono_nonneg_r; lia).
  assert (S2 : n * (c * U * b) < m * (c * U * b)) by (apply Z.mul_lt_mono_pos_r; [apply Z.mul_pos_pos; [nia|lia]|lia]).
  assert (S3 : m * U * (c * b) <= m * U * (a * d)).
  { apply Z.mul_le_mono_nonneg_l. nia. rewrite E. assert (0 < c * b) by nia. nia. }
  assert (S4 : (L * b) * a < (m * d * U) * a).
  { replace (L * b * a) with (L * a * b) by ring. replace (m * d * U * a) with (m * U * (a * d)) by ring.
    replace (n * c * U * b) with (n * (c * U * b)) in S1 by ring.
    replace (m * (c * U * b)) with (m * U * (c * b)) in S2 by ring. lia. }
  apply Z.mul_lt_mono_pos_r in S4; auto.
Qed.

Lemma fewest_of U c e2 x N K w j : 0 <= U -> 0 <= e2 + U -> 0 <= j -> 0 < c -> 0 <= w -> scaling U e2 x N K ->
  dec_inside U c (e2 + 2) w (x + j) -> no_shorter c ((4 * c - 2) * N) ((4 * c + 2) * N) K j ->
  fewest U c (e2 + 2) w.
Proof.
  intros HU HeU Hj Hc Hw S I NS n q Hn In d Hd Hnd.
  assert (PU : 0 < 2 ^ U) by (apply pow2_pos; lia).
  assert (PL : 0 < (2 * c - 1) * 2 ^ (e2 + 2 - 1 + U)).
  { apply Z.mul_pos_pos. lia. apply pow2_pos. lia. }
  (* no decimal of the interval at or above the next power of ten *)
  assert (None : forall m k, x + j + 1 <= k -> dec_inside U c (e2 + 2) m k -> False).
  { intros m k Hk Im. replace k with (x + (k - x)) in Im by lia.
    apply (inside_iff U c e2 x N K m (k - x) HeU ltac:(lia) S) in Im. destruct Im as [I1 I2].
    assert (E : 10 ^ (k - x) = 10 ^ (k - x - j - 1) * 10 ^ (j + 1)) by (rewrite <- Z.pow_add_r by lia; f_equal; lia).
    rewrite E in I1, I2.
    replace (m * (10 ^ (k - x - j - 1) * 10 ^ (j + 1)) * K) with (m * 10 ^ (k - x - j - 1) * 10 ^ (j + 1) * K) in I1, I2 by ring.
    apply (NS (m * 10 ^ (k - x - j - 1))).
    - clear - I1. lia.
    - intros O. specialize (I2 O). clear - I2. lia. }
  destruct (Z.le_gt_cases (x + j + 1) q) as [Hq|Hq]; [exfalso; eauto|].
  destruct (Z.lt_ge_cases w (10 ^ d)) as [|G]; [auto|exfalso].
  assert (Hd1 : 1 <= d).
  { destruct (Z.eq_dec d 0) as [->|]; [|lia]. change (10 ^ 0) with 1 in Hnd. assert (n = 0) by lia. subst n.
    destruct In as [I1 _]. rewrite !Z.mul_0_l in I1.
    assert (0 < 10 ^ Z.max 0 (- q)) by (apply Z.pow_pos_nonneg; lia). clear - I1 PL H. nia. }
  apply (None (10 ^ (d - 1)) (x + j + 1)); [lia|].
  assert (EL : forall k, k = x + j -> 10 ^ (d - 1) * 10 ^ Z.max 0 (k + 1) * 2 ^ U * 10 ^ Z.max 0 (- k)
     = 10 ^ d * 10 ^ Z.max 0 k * 2 ^ U * 10 ^ Z.max 0 (- (k + 1))).
  { intros k _. replace (10 ^ (d - 1) * 10 ^ Z.max 0 (k + 1) * 2 ^ U * 10 ^ Z.max 0 (- k))
      with ((10 ^ (d - 1) * 10 ^ Z.max 0 (k + 1) * 10 ^ Z.max 0 (- k)) * 2 ^ U) by ring.
    replace (10 ^ d * 10 ^ Z.max 0 k * 2 ^ U * 10 ^ Z.max 0 (- (k + 1)))
      with ((10 ^ d * 10 ^ Z.max 0 k * 10 ^ Z.max 0 (- (k + 1))) * 2 ^ U) by ring.
    rewrite <- !Z.pow_add_r by lia. do 2 f_equal. lia. }
  specialize (EL (x + j) eq_refl).
  assert (LB := lower_mono _ _ n q (x + j) (10 ^ d) PU (Z.lt_le_incl _ _ PL) ltac:(lia) ltac:(lia) (proj1 (proj1 In))).
  destruct I as [[_ I2] I3].
  assert (P1 : 0 < 10 ^ Z.max 0 (- (x + j))) by (apply Z.pow_pos_nonneg; lia).
  assert (P2 : 0 < 10 ^ Z.max 0 (- (x + j + 1))) by (apply Z.pow_pos_nonneg; lia).
  assert (P3 : 0 < 10 ^ Z.max 0 (x + j)) by (apply Z.pow_pos_nonneg; lia).
  assert (UB : 10 ^ d * 10 ^ Z.max 0 (x + j) * 2 ^ U <= w * 10 ^ Z.max 0 (x + j) * 2 ^ U).
  { repeat apply Z.mul_le_mono_nonneg_r; lia. }
  unfold dec_inside. revert EL LB I2 I3 UB.
  generalize (10 ^ (d - 1) * 10 ^ Z.max 0 (x + j + 1) * 2 ^ U). generalize (w * 10 ^ Z.max 0 (x + j) * 2 ^ U).
  generalize (10 ^ d * 10 ^ Z.max 0 (x + j) * 2 ^ U).
  generalize dependent (10 ^ Z.max 0 (- (x + j))). generalize dependent (10 ^ Z.max 0 (- (x + j + 1))).
  generalize ((2 * c - 1) * 2 ^ (e2 + 2 - 1 + U)). generalize ((2 * c + 1) * 2 ^ (e2 + 2 - 1 + U)).
  clear. intros H L b Hb a Ha v v' v'' E LB I2 I3 UB.
  assert (V1 : L * b * a < v'' * a). { rewrite E. replace (L * b * a) with (L * a * b) by ring. apply Z.mul_lt_mono_pos_r; auto. }
  apply Z.mul_lt_mono_pos_r in V1; auto.
  split.
  - split; [lia|]. assert (V2 : v'' * a <= H * b * a). { rewrite E. replace (H * b * a) with (H * a * b) by ring. apply Z.mul_le_mono_nonneg_r; lia. }
    apply Z.mul_le_mono_pos_r in V2; auto.
  - intros O. specialize (I3 O). split; [lia|].
    assert (V2 : v'' * a < H * b * a). { rewrite E. replace (H * b * a) with (H * a * b) by ring. apply Z.mul_lt_mono_pos_r; lia. }
    apply Z.mul_lt_mono_pos_r in V2; auto.
Qed.

Section Print.
Context {P : profile}.

Lemma w_bound c X B K w j : 0 < K -> 0 <= j -> B / K < 2 ^ 256 -> 0 < 2 * X - B -> inside c X B K w j -> 0 < w < 2 ^ 256.
Proof.
  intros HK Hj HB HX [[I1 I2] _]. assert (PT : 0 < 10 ^ j) by (apply Z.pow_pos_nonneg; lia).
  assert (0 < w) by nia. split; auto.
  assert (w * 10 ^ j <= B / K) by (apply Z.div_le_lower_bound; lia). nia.
Qed.

Lemma search t c e U : tables_ok t -> -710 <= e <= 191 -> 0 < c < 2 ^ 237 -> 712 <= U ->
  exists w k, shortest_from_bin_repr t (of256 c) e = Some (of256 w, k)
    /\ 0 < w < 2 ^ 256 /\ -1000 <= k <= 1000 /\ dec_inside U c e w k
    /\ (nonint c (e - 2) = true -> fewest U c e w)
    /\ (c = 2 ^ 236 -> 9 <= e ->
        (4 * c - 1) * 2 ^ (e - 2 + U) * 10 ^ Z.max 0 (- k) < w * 10 ^ Z.max 0 k * 2 ^ U).
Proof.
  intros T He Hc HU. assert (exists e2, e = e2 + 2) as (e2 & ->) by (exists (e - 2); lia).
  replace (e2 + 2 - 2) with e2 by lia. unfold shortest_from_bin_repr.
  rewrite (L_even _ L256) by (change (2 ^ BITS) with (2 ^ 256); lia).
  rewrite subs_ok by lia. rewrite bind_Some.
  rewrite (L_shl _ L256) by (change (2 ^ BITS) with (2 ^ 256); change BITS with 256; lia).
  change (2 ^ BITS) with (2 ^ 256). change (2 ^ 2) with 4. rewrite (Z.mul_comm c 4).
  rewrite Z.mod_small by lia. rewrite bind_Some.
  replace (e2 + 2 - 2) with e2 by lia.
  destruct (Z.le_gt_cases 0 e2) as [G|L].
  - destruct (interval_ge t c e2 T ltac:(lia) Hc) as (Hg & Hge & HK & HN & u & lrz & rz & E & Hu & Bu & Hex & Hnx & Hl & Hp).
    set (g := ge_g e2) in *. set (K := 5 ^ g) in *. set (N := 2 ^ (e2 - g)) in *.
    set (A := (4 * c - 1) * N) in *. set (X := 4 * c * N) in *. set (B := (4 * c + 2) * N) in *.
    rewrite E, bind_Some. clear E.
    assert (PN : 0 < N) by lia.
    assert (B1 : K <= A) by (unfold A; nia). assert (B2 : A < X) by (unfold A, X; lia).
    assert (B3 : X < B) by (unfold X, B; lia). assert (B4 : X - A <= B - X) by (unfold A, X, B; lia).
    assert (B5 : K <= B - X) by (unfold X, B; lia). assert (B6 : 2 * K < B - A) by (unfold A, B; lia).
    assert (B7 : X / K < 2 ^ 255) by (apply Z.div_lt_upper_bound; [lia|unfold X; clear - Hc HK HN; nia]).
    assert (B8 : B / K < 2 ^ 256) by (apply Z.div_lt_upper_bound; [lia|unfold B; clear - Hc HK HN; nia]).
    assert (B9 : 0 < 2 * X - B) by (unfold X, B; nia).
    assert (NI : nonint c e2 = false).
    { unfold nonint. apply Z.ltb_ge. pose proof (ntz_lt 256 (4 * c) ltac:(lia) ltac:(lia)). lia. }
    pose proof (scaling_ge U e2 g ltac:(lia) ltac:(lia)) as S. fold K N in S.
    assert (R : exists w j, shortest_in (of256 (A / K)) (of256 (X / K)) (of256 u) lrz rz = Some (of256 w, j)
       /\ 0 <= j <= 200 /\ inside c X B K w j /\ (lrz || rz = false -> A < w * 10 ^ j * K)).
    { destruct (lrz || rz) eqn:LR.
      - destruct (Hex eq_refl) as [-> Hodd].
        destruct (comb_exact c A X B K lrz rz LR ltac:(lia) B1 B2 B3 B4 B5 B6 B7 B8 Hl Hodd) as (w & j & W1 & W2 & W3 & _).
        exists w, j. split; auto. split; auto. split; auto. discriminate.
      - apply orb_false_iff in LR. destruct LR as [-> ->].
        destruct (comb_next c A X B K u ltac:(lia) B1 B2 B3 B4 B5 B6 B7 Bu Hu (Hnx eq_refl)) as (w & j & W1 & W2 & W3 & W4 & _).
        exists w, j. auto. }
    destruct R as (w & j & W1 & W2 & W3 & W4). rewrite W1, bind_Some. rewrite adds_ok by lia. rewrite bind_Some.
    exists w, (g + j). split; [reflexivity|]. split; [exact (w_bound c X B K w j ltac:(lia) ltac:(lia) B8 B9 W3)|]. split; [lia|].
    split; [apply (inside_iff U c e2 g N K w j); auto; lia|]. split; [congruence|].
    intros Ec H9. destruct (S j ltac:(lia)) as (F & G' & PF & PG & S1 & S2).
    apply (scaled_lt _ _ _ _ F G' PF PG (S2 (4 * c - 1)) (S1 w)). apply W4. apply Hp; auto. lia.
  - destruct (interval_lt t c e2 T ltac:(lia) Hc) as (Hg & Hi & HK & HN & s & lrz & rz & E & Hl & Hs).
    set (g := lt_g (- e2)) in *. set (i := - e2 - g) in *. set (K := 2 ^ g) in *. set (N := 5 ^ i) in *.
    set (A := (4 * c - (1 + b2z (nonint c e2))) * N) in *. set (X := 4 * c * N) in *. set (B := (4 * c + 2) * N) in *.
    rewrite E, bind_Some. clear E.
    assert (PN : 0 < N) by lia. pose proof (b2z_01 (nonint c e2)) as Hb.
    assert (B1 : K <= A) by (unfold A; nia). assert (B2 : A < X) by (unfold A, X; nia).
    assert (B3 : X < B) by (unfold X, B; lia). assert (B4 : X - A <= B - X) by (unfold A, X, B; nia).
    assert (B5 : K <= B - X) by (unfold X, B; lia). assert (B6 : 2 * K < B - A) by (unfold A, B; nia).
    assert (B7 : X / K < 2 ^ 255) by (apply Z.div_lt_upper_bound; [lia|unfold X; clear - Hc HK HN; nia]).
    assert (B8 : B / K < 2 ^ 256) by (apply Z.div_lt_upper_bound; [lia|unfold B; clear - Hc HK HN; nia]).
    assert (B9 : 0 < 2 * X - B) by (unfold X, B; nia).
    pose proof (scaling_lt U e2 g ltac:(lia) ltac:(lia)) as S. fold i in S. fold K N in S.
    assert (EA : nonint c e2 = true -> A = (4 * c - 2) * N) by (intros Ni; unfold A; rewrite Ni; reflexivity).
    assert (R : exists w j, shortest_in (of256 (A / K)) (of256 s) (of256 (B / K)) lrz rz = Some (of256 w, j)
       /\ 0 <= j <= 200 /\ inside c X B K w j /\ (nonint c e2 = true -> no_shorter c A B K j)).
    { destruct Hs as [(-> & Ho & Hn)|(H4 & Od & -> & -> & ->)].
      - destruct (lrz || rz) eqn:LR.
        + destruct (comb_exact c A X B K lrz rz LR ltac:(lia) B1 B2 B3 B4 B5 B6 B7 B8 Hl (fun O n => Ho O (n * 10)))
            as (w & j & W1 & W2 & W3 & W4).
          exists w, j. split; [exact W1|]. split; [exact W2|]. split; [exact W3|]. intros Ni. apply W4. intros L0 O n. apply Hn; auto.
        + apply orb_false_iff in LR. destruct LR as [-> ->].
          assert (DB : B / K * K <= B < (B / K + 1) * K).
          { pose proof (Z.div_mod B K ltac:(lia)). pose proof (Z.mod_pos_bound B K ltac:(lia)). set (q := B / K) in *. clearbody q. lia. }
          destruct (comb_next c A X B K (B / K) ltac:(lia) B1 B2 B3 B4 B5 B6 B7 B8 ltac:(lia) (fun O => Ho O (B / K)))
            as (w & j & W1 & W2 & W3 & W4 & W5).
          exists w, j. split; [exact W1|]. split; [exact W2|]. split; [exact W3|]. intros Ni. apply W5; [|reflexivity]. intros O n. apply Hn; auto.
      - assert (HH : exists h, (h = 10 \/ h = 50 \/ h = 25 \/ h = 125) /\ 2 * N = h * K).
        { unfold N, K, i, g. clear - H4 L. assert (e2 = -1 \/ e2 = -2 \/ e2 = -3 \/ e2 = -4) as [-> |[-> |[-> | ->]]] by lia.
          exists 10. vm_compute. auto. exists 50. vm_compute. auto. exists 25. vm_compute. auto. exists 125. vm_compute. auto. }
        destruct HH as (h & Hh & Eh).
        assert (EX : X = 2 * c * h * K) by (unfold X; clear - Eh; nia).
        assert (EB : B = (2 * c * h + h) * K) by (unfold B; clear - Eh; nia).
        assert (DX : X / K = 2 * c * h) by (rewrite EX; apply Z.div_mul; lia).
        assert (DB : B / K = 2 * c * h + h) by (rewrite EB; apply Z.div_mul; lia).
        rewrite DX in *. rewrite DB in *.
        destruct (comb_decr c A (2 * c * h) h (A / K) K ltac:(lia) Od ltac:(lia) eq_refl Hh B7 ltac:(lia) eq_refl)
          as (w & j & W1 & W2 & W3 & W4).
        + apply Z.div_le_lower_bound; [lia|].
          replace (K * (2 * c * h - h)) with (2 * X - B) by (rewrite EX, EB; ring). lia.
        + rewrite <- DX. apply Z.div_lt_upper_bound; [lia|]. rewrite DX. lia.
        + apply Z.div_str_pos. lia.
        + rewrite <- EX, <- EB in W3. rewrite <- EB in W4. exists w, j. auto. }
    destruct R as (w & j & W1 & W2 & W3 & W4). rewrite W1, bind_Some. rewrite adds_ok by lia. rewrite bind_Some.
    assert (DI : dec_inside U c (e2 + 2) w (e2 + g + j)) by (apply (inside_iff U c e2 (e2 + g) N K w j); auto; lia).
    pose proof (w_bound c X B K w j ltac:(lia) ltac:(lia) B8 B9 W3) as Wb.
    exists w, (e2 + g + j). split; [reflexivity|]. split; [exact Wb|]. split; [lia|]. split; [exact DI|].
    split; [|intros; lia].
    intros Ni. apply (fewest_of U c e2 (e2 + g) N K w j); auto; try lia.
    fold B. rewrite <- EA by auto. auto.
Qed.

End Print.

(** * PrintArith: choosing a short decimal inside an interval, on integers *)

From Coq Require Import ZArith Lia Bool.
From Verif Require Import Base ZLemmas BigLaws.
Open Scope Z_scope.

Lemma div_pow10_step a j : 0 <= j -> a / 10 ^ j / 10 = a / 10 ^ (j + 1).
Proof.
  intros Hj. rewrite Z.div_div by (try lia; apply Z.pow_pos_nonneg; lia).
  f_equal. rewrite Z.pow_add_r by lia. reflexivity.
Qed.

Lemma pow10_pos j : 0 < 10 ^ j \/ j < 0.
Proof. destruct (Z.lt_ge_cases j 0); auto. left. apply Z.pow_pos_nonneg; lia. Qed.

(** Half of a power of ten is decided by its leading digit. *)
Lemma half_digit s j : 0 <= s -> 0 < j ->
  (5 <=? s / 10 ^ (j - 1) mod 10) = (10 ^ j <=? 2 * (s mod 10 ^ j)).
Proof.
  intros Hs Hj. set (p := 10 ^ (j - 1)).
  assert (Hp : 0 < p) by (apply Z.pow_pos_nonneg; lia).
  assert (E : 10 ^ j = 10 * p).
  { unfold p. rewrite <- Z.pow_succ_r by lia. f_equal. lia. }
  rewrite E. clearbody p. clear E Hj j.
  assert (M : s mod (10 * p) = s mod p + p * (s / p mod 10)).
  { rewrite (Z.mul_comm 10). rewrite Z.rem_mul_r by lia. lia. }
  rewrite M. pose proof (Z.mod_pos_bound s p Hp). pose proof (Z.mod_pos_bound (s / p) 10 ltac:(lia)).
  set (d := s / p mod 10) in *. set (r := s mod p) in *. clearbody d r.
  destruct (Z.leb_spec 5 d), (Z.leb_spec (10 * p) (2 * (r + p * d))); auto; exfalso; nia.
Qed.

Section Core.
Variables (A X B K : Z).
Hypothesis HK : 0 < K.
Hypothesis HA : 0 <= A < X.
Hypothesis HX : X < B.
Hypothesis Sym : X - A <= B - X.
Hypothesis Wide : K <= B - X.
Variable u : Z.
Hypothesis Hu : u * K <= B <= (u + 1) * K.

Variable j : Z.
Hypothesis Hj : 0 <= j.
Let l := A / K.
Let s := X / K.
Let T := 10 ^ j.
Hypothesis Hlu : l / T < u / T.

Lemma T_pos : 0 < T.
Proof. unfold T. apply Z.pow_pos_nonneg; lia. Qed.

(** [w] is the multiple of [T] at or next to [s] on the side of the last removed digit. *)
Definition rounded (s j : Z) : Z :=
  s / 10 ^ j + (if (0 <? j) && (10 ^ j <=? 2 * (s mod 10 ^ j)) then 1 else 0).

Lemma s_le_u : s <= u.
Proof.
  unfold s. assert (X / K < u + 1); [|lia]. apply Z.div_lt_upper_bound. lia. lia.
Qed.

Lemma core_facts : exists n, A < n * T * K /\ n * T <= u /\ n = u / T.
Proof.
  exists (u / T). pose proof T_pos. split; [|split; auto].
  - assert (l < u / T * T).
    { assert (H1 : l / T + 1 <= u / T) by lia. pose proof (Z.div_mod l T ltac:(lia)).
      pose proof (Z.mod_pos_bound l T ltac:(lia)). nia. }
    pose proof (Z.div_mod A K ltac:(lia)). pose proof (Z.mod_pos_bound A K ltac:(lia)). fold l in H1.
    clear - H0 H1 H2 HK. nia.
  - pose proof (Z.mul_div_le u T ltac:(lia)). lia.
Qed.

(** The result of the branch that checks both flags, without the lower bound. *)
Lemma core_near w : w = rounded s j ->
  (A < w * T * K \/ 2 * X - B < w * T * K) /\ w * T <= u.
Proof.
  intros Hw. pose proof T_pos as HT. destruct core_facts as (n & Hn1 & Hn2 & Hn).
  pose proof s_le_u as Hsu.
  pose proof (Z.div_mod X K ltac:(lia)) as EX. pose proof (Z.mod_pos_bound X K ltac:(lia)) as BX. fold s in EX.
  set (r := X mod K) in *.
  pose proof (Z.div_mod s T ltac:(lia)) as Es. pose proof (Z.mod_pos_bound s T ltac:(lia)) as Bs.
  unfold rounded in Hw. fold T in Hw. set (q := s / T) in *. set (t := s mod T) in *.
  assert (Hqn : q <= n).
  { subst n q. apply Z.div_le_mono; lia. }
  clearbody s. clearbody l.
  assert (Ev : 0 < j -> exists p, T = 2 * p).
  { intros Hj0. exists (5 * 10 ^ (j - 1)). unfold T. replace j with ((j - 1) + 1) at 1 by lia.
    rewrite Z.pow_add_r by lia. lia. }
  assert (T1 : j = 0 -> T = 1) by (unfold T; intros ->; reflexivity).
  clearbody T r q t. 
  destruct (Z.ltb_spec 0 j) as [J|J]; cbn [andb] in Hw.
  - destruct (Ev J) as (p & Ep). destruct (Z.leb_spec T (2 * t)) as [C|C].
    + destruct (Z.eq_dec q n) as [->|].
      * exfalso.
        (* X >= (n + 1/2) T, A < n T, B <= (n + 1) T *)
        assert (u < (n + 1) * T).
        { subst n. pose proof (Z.mod_pos_bound u T HT). pose proof (Z.div_mod u T ltac:(lia)). lia. }
        assert (X >= (n * T + p) * K).
        { assert (n * T + p <= s) by (clear - Es C Ep; nia). clear - EX BX H0 HK. nia. }
        assert (B <= (n * T + 2 * p) * K) by (clear - H Hu HK Ep; nia).
        clear - H0 H1 Hn1 Sym. nia.
      * assert (Hw1 : w * T <= n * T) by (clear - Hw Hqn n0 HT; nia). split; [|lia].
        right. assert (w * T * K > X); [|lia].
        subst w. clear - EX Es Bs BX HK. nia.
    + rewrite Z.add_0_r in Hw. subst w. split; [|clear - Hqn Hn2 HT; nia].
      destruct (Z.eq_dec q n) as [->|]; [left; exact Hn1|].
      right.
      assert (n * T * K <= B) by (clear - Hn2 Hu HK; nia).
      assert (X < (q * T + p) * K).
      { assert (s + 1 <= q * T + p) by (clear - Es C Ep; nia). clear - EX BX H0 HK. nia. }
      assert ((q + 1) * T * K <= n * T * K) by (clear - n0 Hqn HT HK; nia).
      clear - H H0 H1 Ep. nia.
  - assert (j = 0) by lia. rewrite (T1 H) in *. assert (t = 0) by lia. subst t.
    rewrite Z.add_0_r in Hw. subst w. split.
    + destruct (Z.eq_dec q n) as [->|]; [left; exact Hn1|].
      right.
      assert (n * 1 * K <= B) by (clear - Hn2 Hu HK; nia).
      assert ((q + 1) * K <= n * K) by (clear - n0 Hqn HK; nia).
      assert (X < (q + 1) * K) by (clear - EX Es BX; lia).
      lia.
    + lia.
Qed.

(** The result of the branch without exact bounds. *)
Lemma core_next w : w = (if (0 <? j) && (T <=? 2 * (s mod T)) || (s / T =? l / T) then s / T + 1 else s / T) ->
  A < w * T * K /\ w * T <= u.
Proof.
  intros Hw. pose proof T_pos as HT. destruct core_facts as (n & Hn1 & Hn2 & Hn).
  pose proof s_le_u as Hsu.
  pose proof (Z.div_mod X K ltac:(lia)) as EX. pose proof (Z.mod_pos_bound X K ltac:(lia)) as BX. fold s in EX.
  set (r := X mod K) in *.
  pose proof (Z.div_mod s T ltac:(lia)) as Es. pose proof (Z.mod_pos_bound s T ltac:(lia)) as Bs.
  assert (Hls : l <= s) by (apply Z.div_le_mono; lia).
  assert (Hlq : l / T <= s / T) by (apply Z.div_le_mono; lia).
  pose proof (Z.div_mod A K ltac:(lia)) as EA. pose proof (Z.mod_pos_bound A K ltac:(lia)) as BA. fold l in EA.
  set (ra := A mod K) in *.
  pose proof (Z.div_mod l T ltac:(lia)) as El. pose proof (Z.mod_pos_bound l T ltac:(lia)) as Bl.
  set (q := s / T) in *. set (t := s mod T) in *. set (lq := l / T) in *. set (lt := l mod T) in *.
  assert (Hqn : q <= n).
  { subst n q. apply Z.div_le_mono; lia. }
  assert (Hlun : lq < n) by (subst n; exact Hlu).
  clearbody s. clearbody l.
  assert (Ev : 0 < j -> exists p, T = 2 * p).
  { intros Hj0. exists (5 * 10 ^ (j - 1)). unfold T. replace j with ((j - 1) + 1) at 1 by lia.
    rewrite Z.pow_add_r by lia. lia. }
  assert (HAq : forall k, lq + 1 <= k -> A < k * T * K).
  { intros k Hk. clear - Hk EA BA El Bl HT HK. assert (l + 1 <= k * T) by nia. nia. }
  assert (Hle : forall k, k <= n -> k * T <= u) by (intros; clear - H Hn2 HT; nia).
  destruct (Z.eqb_spec q lq) as [E|E].
  - rewrite orb_true_r in Hw. subst w. split; [apply HAq|apply Hle]; lia.
  - rewrite orb_false_r in Hw.
    destruct (Z.ltb_spec 0 j) as [J|J]; cbn [andb] in Hw; [|subst w; split; [apply HAq|apply Hle]; lia].
    destruct (Z.leb_spec T (2 * t)) as [C|C]; subst w; [|split; [apply HAq|apply Hle]; lia].
    split; [apply HAq; lia|]. apply Hle.
    destruct (Z.eq_dec q n) as [->|]; [|lia]. exfalso.
    destruct (Ev J) as (p & Ep).
    assert (u < (n + 1) * T).
    { subst n. pose proof (Z.mod_pos_bound u T HT). pose proof (Z.div_mod u T ltac:(lia)). lia. }
    clearbody T r t.
    assert (X >= (n * T + p) * K).
        { assert (n * T + p <= s) by (clear - Es C Ep; nia). clear - EX BX H0 HK. nia. }
    assert (B <= (n * T + 2 * p) * K) by (clear - H Hu HK Ep; nia).
    clear - H0 H1 Hn1 Sym. nia.
Qed.

End Core.

(** The lower bound itself: it is a multiple of [10 ^ j * K] and the interval is
    shorter than that. *)
Lemma core_lower A X B K u j1 j l s : 0 < K -> 0 <= A < X -> X < B -> X - A <= B - X ->
  B < (u + 1) * K -> 0 <= j1 < j -> l = A / K -> s = X / K -> A = l * K ->
  l mod 10 ^ j = 0 -> u / 10 ^ (j1 + 1) <= l / 10 ^ (j1 + 1) ->
  rounded s j * 10 ^ j * K = A.
Proof.
  intros HK HA HX Sym HB Hj El Es EA Dl Hu.
  set (T1 := 10 ^ (j1 + 1)) in *. assert (P1 : 0 < T1) by (apply Z.pow_pos_nonneg; lia).
  assert (ET : 10 ^ j = 10 ^ (j - j1 - 1) * T1).
  { unfold T1. rewrite <- Z.pow_add_r by lia. f_equal. lia. }
  assert (P2 : 0 < 10 ^ (j - j1 - 1)) by (apply Z.pow_pos_nonneg; lia).
  assert (Ev : exists p, 10 ^ j = 2 * p).
  { exists (5 * 10 ^ (j - 1)). replace j with ((j - 1) + 1) at 1 by lia. rewrite Z.pow_add_r by lia. lia. }
  unfold rounded. rewrite (ltb_true 0 j) by lia. cbn [andb].
  set (T := 10 ^ j) in *. set (z := 10 ^ (j - j1 - 1)) in *. clearbody T z T1.
  assert (HT : 0 < T) by (clear - ET P1 P2; nia).
  pose proof (Z.div_mod l T ltac:(lia)) as D. rewrite Dl, Z.add_0_r in D. set (a := l / T) in *. clearbody a.
  assert (Hl1 : l / T1 * T1 = l).
  { rewrite D, ET. replace (z * T1 * a) with (z * a * T1) by ring. rewrite Z.div_mul by lia. reflexivity. }
  assert (Hu2 : u < l + T).
  { pose proof (Z.div_mod u T1 ltac:(lia)). pose proof (Z.mod_pos_bound u T1 P1).
    assert (T1 <= T) by (clear - ET P1 P2; nia). clear - H H0 Hu Hl1 H1 P1. nia. }
  destruct Ev as (p & Ep).
  assert (HXA : X - A < p * K).
  { assert (B - A < T * K).
    { assert ((u + 1) * K <= (l + T) * K) by (clear - Hu2 HK; nia). clear - HB H EA. nia. }
    clear - H Sym Ep. nia. }
  pose proof (Z.div_mod X K ltac:(lia)) as EX. pose proof (Z.mod_pos_bound X K HK) as BX. rewrite <- Es in EX.
  assert (Hs : 0 <= s - l < p).
  { split. assert (l * K < (s + 1) * K) by lia. clear - H HK. nia.
    assert ((s - l) * K < p * K) by lia. clear - H HK. nia. }
  assert (Hq : s / T = a) by (apply div_eq with (s - l); lia).
  assert (Hr : s mod T = s - l) by (apply mod_eq with a; lia).
  rewrite Hq, Hr. rewrite leb_false by lia. rewrite Z.add_0_r. rewrite EA, D. ring.
Qed.

(** No multiple of ten times the step is inside when the quotients of the bounds agree. *)
Lemma core_none A K u j l n : 0 < K -> 0 <= A -> l = A / K -> 0 <= j ->
  u / 10 ^ j / 10 <= l / 10 ^ j / 10 ->
  A < n * 10 ^ (j + 1) * K -> n * 10 ^ (j + 1) <= u -> False.
Proof.
  intros HK HA El Hj Hq H1 H2. rewrite !div_pow10_step in Hq by auto.
  set (T := 10 ^ (j + 1)) in *. assert (HT : 0 < T) by (apply Z.pow_pos_nonneg; lia). clearbody T.
  assert (n <= u / T) by (apply Z.div_le_lower_bound; lia).
  assert (l < n * T).
  { subst l. apply Z.div_lt_upper_bound. lia. lia. }
  assert (l / T < n) by (apply Z.div_lt_upper_bound; lia). lia.
Qed.

(** The four exponents with an exact quotient whose significand is decremented. *)
Lemma core_decr x h c l u j : 0 <= j -> c mod 2 = 1 -> 0 < c -> x = 2 * c * h -> u = x + h -> x - h <= l -> l < x ->
  h = 10 \/ h = 50 \/ h = 25 \/ h = 125 ->
  (0 < j -> l / 10 ^ j < u / 10 ^ j) ->
  x - h < rounded (x - 1) j * 10 ^ j < x + h.
Proof.
  intros Hj Hc C0 Hx Hu Hl Hl2 Hh Hlu. unfold rounded.
  destruct (Z.ltb_spec 0 j) as [J|J]; cbn [andb].
  2: { assert (j = 0) by lia. subst j. rewrite Z.pow_0_r, Z.div_1_r. lia. }
  specialize (Hlu J).
  assert (ET : 10 ^ j = 10 * 10 ^ (j - 1)).
  { rewrite <- Z.pow_succ_r by lia. f_equal. lia. }
  assert (P1 : 0 < 10 ^ (j - 1)) by (apply Z.pow_pos_nonneg; lia).
  assert (Big : 10 ^ j <= h \/ exists y, 0 < y /\ 10 ^ j = y * (if h =? 125 then 1000 else 100)).
  { destruct (Z.le_gt_cases j 1).
    - left. assert (j = 1) by lia. subst j. change (10 ^ 1) with 10. lia.
    - destruct (Z.le_gt_cases j 2).
      + assert (j = 2) by lia. subst j. change (10 ^ 2) with 100.
        destruct (Z.eqb_spec h 125); [left; lia|]. right. exists 1. lia.
      + right. exists (10 ^ (j - 3) * (if h =? 125 then 1 else 10)).
        assert (0 < 10 ^ (j - 3)) by (apply Z.pow_pos_nonneg; lia).
        replace (10 ^ j) with (10 ^ (j - 3) * 10 ^ 3). 2: { rewrite <- Z.pow_add_r by lia. f_equal. lia. }
        change (10 ^ 3) with 1000. destruct (h =? 125); split; try ring; lia. }
  set (T := 10 ^ j) in *. assert (HT : 0 < T) by (rewrite ET; lia). clearbody T. clear P1 J Hj ET.
  pose proof (Z.div_mod (x - 1) T ltac:(lia)) as D. pose proof (Z.mod_pos_bound (x - 1) T HT) as R.
  set (q := (x - 1) / T) in *. set (r := (x - 1) mod T) in *. clearbody q r.
  destruct Big as [Small|(y & Hy & Ey)].
  - destruct (Z.leb_spec T (2 * r)).
    + replace ((q + 1) * T) with (x - 1 - r + T) by lia. lia.
    + replace ((q + 0) * T) with (x - 1 - r) by lia. lia.
  - set (n := u / T) in *.
    assert (N1 : n * T <= u) by (pose proof (Z.mul_div_le u T HT); unfold n; lia).
    assert (N2 : l < n * T).
    { assert (l / T + 1 <= n) by lia. pose proof (Z.div_mod l T ltac:(lia)). pose proof (Z.mod_pos_bound l T HT).
      clear - H H0 H1 HT. nia. }
    clearbody n.
    assert (E2 : exists d, c = 2 * d + 1) by (exists (c / 2); pose proof (Z.div_mod c 2 ltac:(lia)); lia).
    destruct E2 as (d & Ed).
    assert (NX : n * T = x).
    { rewrite Ey in *. set (ny := n * y) in *.
      assert (En : forall k, n * (y * k) = ny * k) by (intros; unfold ny; ring). rewrite En in *. clearbody ny.
      destruct Hh as [-> |[-> |[-> | ->]]]; cbn [Z.eqb Pos.eqb] in *; lia. }
    assert (Hr : r = T - 1 /\ q = n - 1).
    { assert (x - 1 = T * (n - 1) + (T - 1)) by lia.
      destruct (Z.div_mod_unique T q (n - 1) r (T - 1)); lia. }
    destruct Hr as [-> ->]. assert (T <= 2 * (T - 1)).
    { destruct (Z.eqb_spec h 125); lia. }
    rewrite leb_true by lia. replace ((n - 1 + 1) * T) with x by lia. lia.
Qed.

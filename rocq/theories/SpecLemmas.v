(** * SpecLemmas: properties of the rounding specification used by the proofs *)

From Coq Require Import ZArith Lia Bool.
From Verif Require Import ZLemmas Spec.
Open Scope Z_scope.

(** ** [rne_div] *)

Lemma rne_div_unique n d q : 0 < d ->
  - d <= 2 * n - 2 * d * q <= d ->
  (2 * n - 2 * d * q = d -> Z.odd q = false) ->
  (2 * n - 2 * d * q = - d -> Z.odd q = false) ->
  rne_div n d = q.
Proof.
  intros Hd H H1 H2. unfold rne_div.
  pose proof (Z.div_mod n d ltac:(lia)) as E. pose proof (Z.mod_pos_bound n d Hd) as B.
  set (k := n / d) in *. set (r := n mod d) in *. clearbody k r.
  assert (C : q = k \/ q = k + 1).
  { assert (q <= k + 1) by nia. assert (k <= q) by nia. lia. }
  assert (O : Z.odd (k + 1) = negb (Z.odd k)).
  { rewrite Z.odd_add. destruct (Z.odd k); reflexivity. }
  destruct (Z.ltb_spec d (2 * r)); cbn [orb].
  - destruct C; [nia|lia].
  - destruct (Z.eqb_spec (2 * r) d); cbn [andb].
    + destruct (Z.odd k) eqn:K; destruct C as [->| ->]; auto.
      * exfalso. rewrite H1 in K; [discriminate|nia].
      * exfalso. rewrite O in H2. assert (X : negb false = false) by (apply H2; nia). discriminate.
    + destruct C; [lia|nia].
Qed.

Lemma rne_div_spec n d : 0 < d ->
  - d <= 2 * n - 2 * d * rne_div n d <= d
  /\ (2 * n - 2 * d * rne_div n d = d -> Z.odd (rne_div n d) = false)
  /\ (2 * n - 2 * d * rne_div n d = - d -> Z.odd (rne_div n d) = false).
Proof.
  intros Hd. unfold rne_div.
  pose proof (Z.div_mod n d ltac:(lia)) as E. pose proof (Z.mod_pos_bound n d Hd) as B.
  set (k := n / d) in *. set (r := n mod d) in *. clearbody k r.
  assert (O : Z.odd (k + 1) = negb (Z.odd k)).
  { rewrite Z.odd_add. destruct (Z.odd k); reflexivity. }
  destruct (Z.ltb_spec d (2 * r)); cbn [orb].
  - split; [nia|]. split; intros; [exfalso; nia|exfalso; nia].
  - destruct (Z.eqb_spec (2 * r) d); cbn [andb].
    + destruct (Z.odd k) eqn:K.
      * split; [nia|]. split; intros; [exfalso; nia|]. rewrite O; reflexivity.
      * split; [nia|]. split; intros; auto.
    + split; [nia|]. split; intros; exfalso; nia.
Qed.

Lemma rne_div_1 n : rne_div n 1 = n.
Proof. apply rne_div_unique; lia. Qed.

Lemma rne_div_mul n d k : 0 < d -> 0 < k -> rne_div (n * k) (d * k) = rne_div n d.
Proof.
  intros Hd Hk. pose proof (rne_div_spec n d Hd) as (A & B & C).
  set (q := rne_div n d) in *. clearbody q.
  assert (E : 2 * (n * k) - 2 * (d * k) * q = (2 * n - 2 * d * q) * k) by ring.
  apply rne_div_unique. nia. rewrite E. nia.
  - intros X. apply B. rewrite E in X. nia.
  - intros X. apply C. rewrite E in X. nia.
Qed.

Lemma rne_div_exact q d : 0 < d -> rne_div (q * d) d = q.
Proof. intros. apply rne_div_unique; intros; nia. Qed.

Lemma rne_div_nonneg n d : 0 <= n -> 0 < d -> 0 <= rne_div n d.
Proof. intros Hn Hd. pose proof (rne_div_spec n d Hd). nia. Qed.

Lemma rne_div_mono n m d : 0 < d -> n <= m -> rne_div n d <= rne_div m d.
Proof.
  intros Hd H. pose proof (rne_div_spec n d Hd) as (A & B & C).
  pose proof (rne_div_spec m d Hd) as (A' & B' & C').
  set (q := rne_div n d) in *. set (q' := rne_div m d) in *. clearbody q q'.
  destruct (Z.le_gt_cases q q'); auto. exfalso.
  assert (q = q' + 1) by nia. subst q.
  assert (2 * n - 2 * d * (q' + 1) = - d) by nia.
  assert (2 * m - 2 * d * q' = d) by nia.
  specialize (C H1). specialize (B' H2). rewrite Z.odd_add, B' in C. discriminate.
Qed.

Lemma rne_div_le_bound n d k : 0 < d -> n <= k * d -> rne_div n d <= k.
Proof. intros. rewrite <- (rne_div_exact k d) by lia. apply rne_div_mono; lia. Qed.
Lemma rne_div_ge_bound n d k : 0 < d -> k * d <= n -> k <= rne_div n d.
Proof. intros. rewrite <- (rne_div_exact k d) by lia. apply rne_div_mono; lia. Qed.

(** Rounding bits: the quotient and the comparison with the tie. *)
Lemma rne_div_pow2_bits z k q r : 1 <= k -> z = q * 2 ^ k + r -> 0 <= r < 2 ^ k ->
  rne_div z (2 ^ k) = if (2 ^ (k - 1) <? r) || ((r =? 2 ^ (k - 1)) && Z.odd q) then q + 1 else q.
Proof.
  intros Hk E Hr. unfold rne_div.
  rewrite (div_eq z (2 ^ k) q r), (mod_eq z (2 ^ k) q r) by lia.
  assert (E2 : 2 ^ k = 2 * 2 ^ (k - 1)) by (rewrite <- pow2_S by lia; f_equal; lia).
  rewrite E2.
  replace (2 * 2 ^ (k - 1) <? 2 * r) with (2 ^ (k - 1) <? r).
  2: { destruct (Z.ltb_spec (2 ^ (k - 1)) r), (Z.ltb_spec (2 * 2 ^ (k - 1)) (2 * r)); auto; lia. }
  replace (2 * r =? 2 * 2 ^ (k - 1)) with (r =? 2 ^ (k - 1)).
  2: { destruct (Z.eqb_spec r (2 ^ (k - 1))), (Z.eqb_spec (2 * r) (2 * 2 ^ (k - 1))); auto; lia. }
  reflexivity.
Qed.

(** ** Sticky representations

    [odd_rep S n d]: the integer [S] represents n / d for rounding purposes: it
    is exact, or it is odd and within one unit. *)
Definition odd_rep (S n d : Z) : Prop :=
  n = S * d \/ (Z.odd S = true /\ (S - 1) * d < n < (S + 1) * d).

Lemma odd_rep_rne S n d k : 0 < d -> 2 <= k -> odd_rep S n d ->
  rne_div n (d * 2 ^ k) = rne_div S (2 ^ k).
Proof.
  intros Hd Hk [E|[O H]].
  - subst n. rewrite Z.mul_comm. rewrite (Z.mul_comm d), (Z.mul_comm d).
    apply rne_div_mul; auto. apply pow2_pos; lia.
  - assert (P : 0 < 2 ^ k) by (apply pow2_pos; lia).
    pose proof (rne_div_spec S (2 ^ k) P) as (A & _ & _).
    set (q := rne_div S (2 ^ k)) in *. clearbody q.
    assert (E4 : exists j, 2 ^ k = 4 * j /\ 0 < j).
    { exists (2 ^ (k - 2)). split. change 4 with (2 ^ 2). rewrite <- pow2_add by lia. f_equal; lia.
      apply pow2_pos; lia. }
    destruct E4 as (j & Ej & Hj). rewrite Ej in *.
    apply Z.odd_spec in O. destruct O as (m & Em). subst S.
    (* 2S - 2*4j*q lies strictly inside (-4j, 4j) and is 2 mod 4 *)
    set (t := 2 * (2 * m + 1) - 2 * (4 * j) * q) in *.
    assert (Et : t = 4 * (m - 2 * j * q) + 2) by (unfold t; ring).
    assert (Bt : - (4 * j) + 2 <= t <= 4 * j - 2) by (clear - A Et; lia).
    assert (X : 2 * n - 2 * (d * (4 * j)) * q = 2 * n - 2 * (2 * m + 1) * d + t * d) by (unfold t; ring).
    assert (Y : (- (4 * j) + 2) * d <= t * d <= (4 * j - 2) * d) by (clear - Bt Hd; nia).
    assert (F : - (d * (4 * j)) < 2 * n - 2 * (d * (4 * j)) * q < d * (4 * j)).
    { rewrite X. clear - Y H. nia. }
    apply rne_div_unique. nia. lia. intros; exfalso; lia. intros; exfalso; lia.
Qed.

Lemma odd_rep_exact S n d : n = S * d -> odd_rep S n d.
Proof. left; auto. Qed.

Lemma odd_rep_scale S n d k : 0 < k -> odd_rep S n d -> odd_rep S (n * k) (d * k).
Proof. intros Hk [->|[O H]]; [left; ring|right]. split; auto. nia. Qed.

Lemma odd_rep_unscale S n d k : 0 < k -> odd_rep S (n * k) (d * k) -> odd_rep S n d.
Proof. intros Hk [E|[O H]]; [left; nia|right]. split; auto. nia. Qed.

Lemma odd_rep_bound S n d : 0 < d -> odd_rep S n d -> (S - 1) * d < n < (S + 1) * d.
Proof. intros Hd [->|[_ H]]; nia. Qed.

(** Shifting right by [k] and or-ing the lost bits into the lowest bit. *)
Definition shr_sticky (S k : Z) : Z :=
  if S mod 2 ^ k =? 0 then S / 2 ^ k else 2 * (S / 2 ^ k / 2) + 1.

Lemma odd_rep_shr S n d k : 0 < d -> 0 <= k -> odd_rep S n d ->
  odd_rep (shr_sticky S k) n (d * 2 ^ k).
Proof.
  intros Hd Hk H. assert (P : 0 < 2 ^ k) by (apply pow2_pos; lia). unfold shr_sticky.
  pose proof (Z.div_mod S (2 ^ k) ltac:(lia)) as E. pose proof (Z.mod_pos_bound S (2 ^ k) P) as B.
  set (q := S / 2 ^ k) in *. set (r := S mod 2 ^ k) in *. clearbody q r.
  destruct (Z.eqb_spec r 0) as [->|Hr].
  - destruct H as [->|[O H]]; [left; rewrite E; ring|].
    destruct (Z.eq_dec k 0) as [->|].
    { change (2 ^ 0) with 1 in *. right. replace q with S by lia. split; auto. lia. }
    exfalso. rewrite E, (pow2_split 1 k), Z.add_0_r in O by lia.
    change (2 ^ 1) with 2 in O. rewrite !Z.odd_mul in O. cbn in O. discriminate.
  - right. split. { rewrite Z.odd_add, Z.odd_mul. reflexivity. }
    pose proof (Z.div_mod q 2 ltac:(lia)) as E2. pose proof (Z.mod_pos_bound q 2 ltac:(lia)) as B2.
    set (h := q / 2) in *. set (b := q mod 2) in *. clearbody h b.
    pose proof (odd_rep_bound S n d Hd H) as W.
    assert (X : S - 1 >= (2 * h) * 2 ^ k) by nia.
    assert (Y : S + 1 <= (2 * h + 2) * 2 ^ k) by nia.
    replace (2 * h + 1 - 1) with (2 * h) by lia. replace (2 * h + 1 + 1) with (2 * h + 2) by lia.
    rewrite (Z.mul_comm d), !Z.mul_assoc. split; nia.
Qed.

Lemma odd_rep_nonneg S n d : 0 < d -> 0 <= n -> odd_rep S n d -> 0 <= S.
Proof.
  intros Hd Hn [->|[O H]]. nia.
  destruct (Z.le_gt_cases 0 S); auto. nia.
Qed.

(** Sum and difference of an exact even integer and a sticky representation. *)
Lemma odd_rep_add X S n d : 0 < d -> Z.even X = true -> odd_rep S n d ->
  odd_rep (X + S) (X * d + n) d.
Proof.
  intros Hd E [->|[O H]]. left; ring. right. split.
  rewrite Z.odd_add, O, <- Z.negb_even, E. reflexivity. nia.
Qed.
Lemma odd_rep_sub X S n d : 0 < d -> Z.even X = true -> odd_rep S n d ->
  odd_rep (X - S) (X * d - n) d.
Proof.
  intros Hd E [->|[O H]]. left; ring. right. split.
  rewrite Z.odd_sub, O, <- Z.negb_even, E. reflexivity. nia.
Qed.

(** ** [rnd_mag] *)

Lemma INFm_pos : 0 < INFm. Proof. reflexivity. Qed.

(** [rnd_mag] computed at any admissible exponent. *)
Lemma rnd_mag_at n d e : 0 < d -> 0 <= n -> 0 <= e ->
  n <= 2 ^ (237 + e) * d -> (e = 0 \/ 2 ^ (236 + e) * d <= n) ->
  rnd_mag n d = Z.min INFm (e * 2 ^ 236 + rne_div n (d * 2 ^ e)).
Proof.
  intros Hd Hn He HU HL. unfold rnd_mag.
  set (p := n / d).
  pose proof (Z.div_mod n d ltac:(lia)) as E. pose proof (Z.mod_pos_bound n d Hd) as B.
  fold p in E. set (r := n mod d) in *. clearbody r.
  assert (Hp : 0 <= p) by (apply Z.div_pos; lia). clearbody p.
  assert (P237 : 0 < 2 ^ (237 + e)) by (apply pow2_pos; lia).
  destruct (Z.eq_dec n (2 ^ (237 + e) * d)) as [En|].
  { (* upper end: the next exponent *)
    assert (Ep : p = 2 ^ (237 + e)) by nia. rewrite Ep, Z.log2_pow2 by lia.
    replace (Z.max 0 (237 + e - 236)) with (e + 1) by lia.
    rewrite En. f_equal.
    rewrite (pow2_add 237 e) by lia. rewrite (pow2_S e) by lia.
    replace (2 ^ 237 * 2 ^ e * d) with (2 ^ 236 * (d * (2 * 2 ^ e))) by (change (2 ^ 237) with (2 ^ 236 * 2); ring).
    assert (0 < 2 ^ e) by (apply pow2_pos; lia).
    rewrite rne_div_exact by nia.
    replace (2 ^ 236 * (d * (2 * 2 ^ e))) with (2 ^ 237 * (d * 2 ^ e)) by (change (2 ^ 237) with (2 ^ 236 * 2); ring).
    rewrite rne_div_exact by nia. change (2 ^ 237) with (2 ^ 236 * 2). ring. }
  assert (Hlt : p < 2 ^ (237 + e)) by nia.
  replace (Z.max 0 (Z.log2 p - 236)) with e; auto.
  destruct HL as [->|HL].
  - destruct (Z.eq_dec p 0) as [->|]. cbn. lia.
    assert (Z.log2 p < 237). { apply Z.log2_lt_pow2. lia. exact Hlt. } lia.
  - assert (P236 : 0 < 2 ^ (236 + e)) by (apply pow2_pos; lia).
    assert (2 ^ (236 + e) <= p) by nia.
    assert (Z.log2 p = 236 + e); [|lia].
    apply Z.log2_unique. lia. split. lia. replace (Z.succ (236 + e)) with (237 + e) by lia. lia.
Qed.

Lemma rnd_mag_sticky z n d E k : 0 < d -> 0 <= n -> 0 <= E -> 2 <= k ->
  odd_rep z (n * 2 ^ k) (d * 2 ^ E) ->
  z < 2 ^ (237 + k) -> (E = 0 \/ 2 ^ (236 + k) <= z) ->
  rnd_mag n d = Z.min INFm (E * 2 ^ 236 + rne_div z (2 ^ k)).
Proof.
  intros Hd Hn HE Hk H HU HL.
  assert (PE : 0 < 2 ^ E) by (apply pow2_pos; lia).
  assert (Pk : 0 < 2 ^ k) by (apply pow2_pos; lia).
  assert (PD : 0 < d * 2 ^ E) by nia.
  pose proof (odd_rep_bound _ _ _ PD H) as W.
  rewrite (rnd_mag_at n d E); auto.
  - f_equal. f_equal. rewrite <- (odd_rep_rne z (n * 2 ^ k) (d * 2 ^ E) k) by auto.
    rewrite rne_div_mul; auto.
  - (* upper bound *)
    assert (z + 1 <= 2 ^ (237 + k)) by lia.
    rewrite (pow2_add 237 k) in H0 by lia. rewrite (pow2_add 237 E) by lia.
    assert (n * 2 ^ k <= 2 ^ 237 * 2 ^ k * (d * 2 ^ E)) by nia.
    apply Z.mul_le_mono_pos_r with (2 ^ k); auto.
    replace (2 ^ 237 * 2 ^ E * d * 2 ^ k) with (2 ^ 237 * 2 ^ k * (d * 2 ^ E)) by ring. lia.
  - destruct HL as [->|HL]; [left; auto|right].
    rewrite (pow2_add 236 k) in HL by lia. rewrite (pow2_add 236 E) by lia.
    assert (2 ^ 236 * 2 ^ k * (d * 2 ^ E) <= n * 2 ^ k).
    { destruct H as [->|[O H]]. nia.
      assert (2 ^ 236 * 2 ^ k <= z - 1). 
      { destruct (Z.eq_dec z (2 ^ 236 * 2 ^ k)); [|lia]. exfalso. subst z.
        rewrite Z.odd_mul in O. change (Z.odd (2 ^ 236)) with false in O. discriminate. }
      nia. }
    apply Z.mul_le_mono_pos_r with (2 ^ k); auto.
    replace (2 ^ 236 * 2 ^ E * d * 2 ^ k) with (2 ^ 236 * 2 ^ k * (d * 2 ^ E)) by ring. lia.
Qed.

Lemma mag_val_fields e f : 1 <= e -> 0 <= f < 2 ^ 236 ->
  mag_val (e * 2 ^ 236 + f) = (2 ^ 236 + f) * 2 ^ (e - 1).
Proof.
  intros He Hf. unfold mag_val. destruct (Z.ltb_spec (e * 2 ^ 236 + f) (2 ^ 236)). nia.
  rewrite (mod_eq _ (2 ^ 236) e f), (div_eq _ (2 ^ 236) e f) by lia. reflexivity.
Qed.

Lemma mag_val_sub a : a < 2 ^ 236 -> mag_val a = a.
Proof. intros. unfold mag_val. destruct (Z.ltb_spec a (2 ^ 236)); lia. Qed.

(** Encoding of a significand with 237 bits at exponent [E + 1]. *)
Lemma mag_val_signif E m : 0 <= E -> 2 ^ 236 <= m < 2 ^ 237 ->
  mag_val (E * 2 ^ 236 + m) = m * 2 ^ E.
Proof.
  intros HE Hm. replace (E * 2 ^ 236 + m) with ((E + 1) * 2 ^ 236 + (m - 2 ^ 236)) by ring.
  rewrite mag_val_fields by lia. f_equal. lia. f_equal. lia.
Qed.

Lemma mag_val_any E m : 0 <= E -> 0 <= m < 2 ^ 237 -> (E = 0 \/ 2 ^ 236 <= m) ->
  mag_val (E * 2 ^ 236 + m) = m * 2 ^ E.
Proof.
  intros HE Hm [->|H].
  - destruct (Z.lt_ge_cases m (2 ^ 236)). rewrite mag_val_sub by lia. change (2 ^ 0) with 1. lia.
    apply mag_val_signif; lia.
  - apply mag_val_signif; lia.
Qed.

(** Every magnitude below [INFm] has this form. *)
Lemma mag_fields a : 0 <= a -> exists E m, a = E * 2 ^ 236 + m /\ 0 <= E /\ 0 <= m < 2 ^ 237
  /\ (E = 0 \/ 2 ^ 236 <= m) /\ E = Z.max 0 (a / 2 ^ 236 - 1).
Proof.
  intros Ha. pose proof (Z.div_mod a (2 ^ 236) ltac:(lia)) as D.
  pose proof (Z.mod_pos_bound a (2 ^ 236) ltac:(lia)) as B.
  assert (0 <= a / 2 ^ 236) by (apply Z.div_pos; lia).
  exists (Z.max 0 (a / 2 ^ 236 - 1)), (a - Z.max 0 (a / 2 ^ 236 - 1) * 2 ^ 236).
  lia.
Qed.

Lemma mag_val_nonneg a : 0 <= a -> 0 <= mag_val a.
Proof.
  intros Ha. destruct (mag_fields a Ha) as (E & m & -> & HE & Hm & C & _).
  rewrite mag_val_any by auto. pose proof (pow2_pos E HE). nia.
Qed.
Lemma mag_val_pos a : 0 < a -> 0 < mag_val a.
Proof.
  intros Ha. destruct (mag_fields a ltac:(lia)) as (E & m & -> & HE & Hm & C & _).
  rewrite mag_val_any by auto. pose proof (pow2_pos E HE).
  assert (0 < m) by (destruct C; [subst E; lia|lia]). nia.
Qed.

(** A finite magnitude is rounded to itself. *)
Lemma rnd_mag_exact a : 0 <= a <= INFm -> rnd_mag (mag_val a) 1 = a.
Proof.
  intros Ha. destruct (mag_fields a ltac:(lia)) as (E & m & Ea & HE & Hm & C & _).
  pose proof (pow2_pos E HE) as PE.
  rewrite (rnd_mag_at _ 1 E); auto; try lia.
  - subst a. rewrite mag_val_any by auto. rewrite Z.mul_1_l, rne_div_exact by lia. lia.
  - apply mag_val_nonneg; lia.
  - subst a. rewrite mag_val_any by auto. rewrite (pow2_add 237 E) by lia. nia.
  - destruct C as [->|C]; [left; auto|right].
    subst a. rewrite mag_val_any by auto. rewrite (pow2_add 236 E) by lia. nia.
Qed.

Lemma rnd_mag_bounds n d : 0 <= n -> 0 < d -> 0 <= rnd_mag n d <= INFm.
Proof.
  intros Hn Hd. unfold rnd_mag. split; [|lia].
  apply Z.min_glb. { pose proof INFm_pos; lia. }
  set (e := Z.max 0 _). assert (0 <= e) by lia. clearbody e.
  pose proof (pow2_pos e H). pose proof (rne_div_nonneg n (d * 2 ^ e) Hn ltac:(nia)). lia.
Qed.

Lemma rnd_mag_scale n d k : 0 < k -> 0 <= n -> 0 < d -> rnd_mag (n * k) (d * k) = rnd_mag n d.
Proof.
  intros Hk Hn Hd. unfold rnd_mag. rewrite Z.div_mul_cancel_r by lia.
  set (e := Z.max 0 _). assert (0 <= e) by lia. clearbody e. pose proof (pow2_pos e H).
  f_equal. f_equal. replace (d * k * 2 ^ e) with (d * 2 ^ e * k) by ring.
  apply rne_div_mul; nia.
Qed.

(** Strict monotonicity and injectivity of [mag_val]. *)
Lemma mag_val_lt a b : 0 <= a -> a < b -> mag_val a < mag_val b.
Proof.
  intros Ha Hab. destruct (mag_fields a Ha) as (E & m & -> & HE & Hm & C & _).
  destruct (mag_fields b ltac:(lia)) as (E' & m' & -> & HE' & Hm' & C' & _).
  rewrite !mag_val_any by auto. pose proof (pow2_pos E HE).
  destruct (Z.eq_dec E E') as [->|]. nia.
  assert (E < E').
  { destruct (Z.lt_ge_cases E E'); auto. exfalso. assert (E' + 1 <= E) by lia.
    destruct C as [->|C]; [lia|]. nia. }
  assert (2 * 2 ^ E <= 2 ^ E'). { rewrite <- pow2_S by lia. apply pow2_le; lia. }
  destruct C' as [->|C']; [lia|]. change (2 ^ 237) with (2 * 2 ^ 236) in *. nia.
Qed.
Lemma mag_val_le a b : 0 <= a -> a <= b -> mag_val a <= mag_val b.
Proof.
  intros. destruct (Z.eq_dec a b) as [->|]. lia. pose proof (mag_val_lt a b). lia.
Qed.
Lemma mag_val_inj a b : 0 <= a -> 0 <= b -> mag_val a = mag_val b -> a = b.
Proof.
  intros Ha Hb E. destruct (Z.lt_trichotomy a b) as [L|[?|L]]; auto; exfalso.
  pose proof (mag_val_lt a b Ha L). lia. pose proof (mag_val_lt b a Hb L). lia.
Qed.

(** Splitting a datum into sign and magnitude. *)
Lemma mkf_split v : 0 <= v < 2 ^ 256 -> v = mkf (sgn v) (mag v) /\ (sgn v = 0 \/ sgn v = 1) /\ 0 <= mag v < 2 ^ 255.
Proof.
  intros Hv. unfold mkf, sgn, mag. pose proof (Z.div_mod v (2 ^ 255) ltac:(lia)).
  pose proof (Z.mod_pos_bound v (2 ^ 255) ltac:(lia)). split. lia. split; auto.
  assert (0 <= v / 2 ^ 255 < 2) by (apply div_bound; lia). lia.
Qed.
Lemma sgn_mkf s m : 0 <= m < 2 ^ 255 -> sgn (mkf s m) = s.
Proof. intros. apply div_eq with m; unfold mkf; lia. Qed.
Lemma mag_mkf s m : 0 <= m < 2 ^ 255 -> mag (mkf s m) = m.
Proof. intros. apply mod_eq with s; unfold mkf; lia. Qed.

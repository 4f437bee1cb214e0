(** * PrintLoops: the multiplication by a table entry and the digit-removing loops of the printer *)

From Coq Require Import ZArith List Bool Lia.
From Verif Require Import Base ZLemmas BigUInt BigLaws BigUIntProofs BigExtra F256 F256Lemmas Print PrintArith.
Import ListNotations.
Open Scope Z_scope.

Section Print.
Context {P : profile}.

Notation M := (2 ^ 128).

(** The columns of the product, [p] and [k] being digits and carries. *)
Lemma columns M p0 l0 l1 l2 l3 h0 h1 h2 h3 h4 k1 k2 k3 k4 r1 r2 r3 r4 : 0 < M ->
  0 <= p0 < M -> 0 <= r1 < M -> 0 <= r2 < M -> 0 <= r3 < M -> 0 <= r4 < M ->
  l0 + h0 = k1 * M + r1 -> l1 + h1 + k1 = k2 * M + r2 -> l2 + h2 + k2 = k3 * M + r3 ->
  l3 + h3 + k3 = k4 * M + r4 ->
  (p0 + M * (l0 + M * (l1 + M * (l2 + M * l3))) + M * (h0 + M * (h1 + M * (h2 + M * (h3 + M * h4)))))
  / (M * M * M * M) = (h4 + k4) * M + r4.
Proof.
  intros HM B0 B1 B2 B3 B4 E1 E2 E3 E4.
  apply div_eq with (p0 + M * (r1 + M * (r2 + M * r3))).
  - assert (l0 = k1 * M + r1 - h0) by lia. assert (l1 = k2 * M + r2 - h1 - k1) by lia.
    assert (l2 = k3 * M + r3 - h2 - k2) by lia. assert (l3 = k4 * M + r4 - h3 - k3) by lia.
    subst. ring.
  - assert (0 <= r2 + M * r3 < M * M) by (clear - HM B2 B3; nia).
    set (x := r2 + M * r3) in *. clearbody x.
    assert (0 <= r1 + M * x < M * (M * M)) by (clear - HM B1 H; nia).
    set (y := r1 + M * x) in *. clearbody y.
    replace (M * M * M * M) with (M * (M * (M * M))) by ring. clear - HM B0 H0. nia.
Qed.

Lemma carry_split a b c : 0 <= a < M -> 0 <= b < M ->
  a + b + b2z c = b2z (M <=? a + b + b2z c) * M + (a + b + b2z c) mod M /\ 0 <= (a + b + b2z c) mod M < M.
Proof.
  intros Ha Hb. split; [|apply Z.mod_pos_bound; lia].
  assert (0 <= b2z c <= 1) by (destruct c; cbn; lia).
  destruct (Z.leb_spec M (a + b + b2z c)); cbn [b2z].
  - rewrite (mod_eq _ _ 1 (a + b + b2z c - M)) by lia. lia.
  - rewrite Z.mod_small by lia. lia.
Qed.

Lemma hilo_mul a b c : 0 <= a < M -> 0 <= b < M -> 0 <= c < M -> 0 <= (a * b + c) / M < M.
Proof.
  intros. apply div_bound. lia. nia.
Qed.

Lemma trunc_mul_ok a b : 0 <= a < 2 ^ 256 -> 0 <= b < 2 ^ 512 ->
  u256_truncating_mul_u512 (of256 a) (of512 b) = Some (of256 (a * b / 2 ^ 512)).
Proof.
  intros Ha Hb. unfold u256_truncating_mul_u512.
  set (b0 := b mod 2 ^ 256 mod M). set (b1 := b mod 2 ^ 256 / M).
  set (b2 := b / 2 ^ 256 mod M). set (b3 := b / 2 ^ 256 / M).
  set (x0 := a mod M). set (x1 := a / M).
  change (lo (lo (of512 b))) with (of128 b0). change (hi (lo (of512 b))) with (of128 b1).
  change (lo (hi (of512 b))) with (of128 b2). change (hi (hi (of512 b))) with (of128 b3).
  change (lo (of256 a)) with (of128 x0). change (hi (of256 a)) with (of128 x1).
  assert (B0 : 0 <= b0 < M) by (apply Z.mod_pos_bound; lia).
  assert (B1 : 0 <= b1 < M).
  { apply div_bound. lia. change (M * M) with (2 ^ 256). apply Z.mod_pos_bound; lia. }
  assert (B2 : 0 <= b2 < M) by (apply Z.mod_pos_bound; lia).
  assert (B3 : 0 <= b3 < M).
  { apply div_bound. lia. apply div_bound. lia. change (2 ^ 256 * (M * M)) with (2 ^ 512). lia. }
  assert (X0 : 0 <= x0 < M) by (apply Z.mod_pos_bound; lia).
  assert (X1 : 0 <= x1 < M) by (apply div_bound; [lia|]; change (M * M) with (2 ^ 256); lia).
  assert (Ea : a = x1 * M + x0) by (unfold x1, x0; rewrite Z.mul_comm; apply Z.div_mod; lia).
  assert (Eb : b = ((b3 * M + b2) * M + b1) * M + b0).
  { pose proof (Z.div_mod b (2 ^ 256) ltac:(lia)). pose proof (Z.div_mod (b / 2 ^ 256) M ltac:(lia)).
    pose proof (Z.div_mod (b mod 2 ^ 256) M ltac:(lia)).
    fold b3 b2 in H0. fold b1 b0 in H1. rewrite H, H0, H1. change (2 ^ 256) with (M * M). ring. }
  clearbody b0 b1 b2 b3 x0 x1.
  rewrite (L_wmul _ L128) by (change (2 ^ BITS) with M; auto). rewrite bind_Some. change (2 ^ BITS) with M.
  pose proof (hilo_mul b0 x0 0 ltac:(auto) ltac:(auto) ltac:(lia)) as C0. rewrite Z.add_0_r in C0.
  set (c0 := b0 * x0 / M) in *.
  rewrite (D_carrying_mul of128 L128 b1 x0 c0) by (change (2 ^ BITS) with M; auto). rewrite bind_Some. change (2 ^ BITS) with M.
  pose proof (hilo_mul b1 x0 c0 B1 X0 C0) as C1. set (c1 := (b1 * x0 + c0) / M) in *.
  rewrite (D_carrying_mul of128 L128 b2 x0 c1) by (change (2 ^ BITS) with M; auto). rewrite bind_Some. change (2 ^ BITS) with M.
  pose proof (hilo_mul b2 x0 c1 B2 X0 C1) as C2. set (c2 := (b2 * x0 + c1) / M) in *.
  rewrite (D_carrying_mul of128 L128 b3 x0 c2) by (change (2 ^ BITS) with M; auto). rewrite bind_Some. change (2 ^ BITS) with M.
  pose proof (hilo_mul b3 x0 c2 B3 X0 C2) as C3. set (c3 := (b3 * x0 + c2) / M) in *.
  rewrite (L_wmul _ L128) by (change (2 ^ BITS) with M; auto). rewrite bind_Some. change (2 ^ BITS) with M.
  pose proof (hilo_mul b0 x1 0 ltac:(auto) ltac:(auto) ltac:(lia)) as D0. rewrite Z.add_0_r in D0.
  set (d0 := b0 * x1 / M) in *.
  rewrite (D_carrying_mul of128 L128 b1 x1 d0) by (change (2 ^ BITS) with M; auto). rewrite bind_Some. change (2 ^ BITS) with M.
  pose proof (hilo_mul b1 x1 d0 B1 X1 D0) as D1. set (d1 := (b1 * x1 + d0) / M) in *.
  rewrite (D_carrying_mul of128 L128 b2 x1 d1) by (change (2 ^ BITS) with M; auto). rewrite bind_Some. change (2 ^ BITS) with M.
  pose proof (hilo_mul b2 x1 d1 B2 X1 D1) as D2. set (d2 := (b2 * x1 + d1) / M) in *.
  rewrite (D_carrying_mul of128 L128 b3 x1 d2) by (change (2 ^ BITS) with M; auto). rewrite bind_Some. change (2 ^ BITS) with M.
  pose proof (hilo_mul b3 x1 d2 B3 X1 D2) as D3. set (d3 := (b3 * x1 + d2) / M) in *.
  pose proof (Z.div_mod (b0 * x0) M ltac:(lia)) as E0. fold c0 in E0.
  pose proof (Z.div_mod (b1 * x0 + c0) M ltac:(lia)) as E1. fold c1 in E1.
  pose proof (Z.div_mod (b2 * x0 + c1) M ltac:(lia)) as E2. fold c2 in E2.
  pose proof (Z.div_mod (b3 * x0 + c2) M ltac:(lia)) as E3. fold c3 in E3.
  pose proof (Z.div_mod (b0 * x1) M ltac:(lia)) as F0. fold d0 in F0.
  pose proof (Z.div_mod (b1 * x1 + d0) M ltac:(lia)) as F1. fold d1 in F1.
  pose proof (Z.div_mod (b2 * x1 + d1) M ltac:(lia)) as F2. fold d2 in F2.
  pose proof (Z.div_mod (b3 * x1 + d2) M ltac:(lia)) as F3. fold d3 in F3.
  pose proof (Z.mod_pos_bound (b0 * x0) M ltac:(lia)) as P0. set (p0 := (b0 * x0) mod M) in *.
  pose proof (Z.mod_pos_bound (b1 * x0 + c0) M ltac:(lia)) as Q0. set (l0 := (b1 * x0 + c0) mod M) in *.
  pose proof (Z.mod_pos_bound (b2 * x0 + c1) M ltac:(lia)) as Q1. set (l1 := (b2 * x0 + c1) mod M) in *.
  pose proof (Z.mod_pos_bound (b3 * x0 + c2) M ltac:(lia)) as Q2. set (l2 := (b3 * x0 + c2) mod M) in *.
  pose proof (Z.mod_pos_bound (b0 * x1) M ltac:(lia)) as R0. set (h0 := (b0 * x1) mod M) in *.
  pose proof (Z.mod_pos_bound (b1 * x1 + d0) M ltac:(lia)) as R1. set (h1 := (b1 * x1 + d0) mod M) in *.
  pose proof (Z.mod_pos_bound (b2 * x1 + d1) M ltac:(lia)) as R2. set (h2 := (b2 * x1 + d1) mod M) in *.
  pose proof (Z.mod_pos_bound (b3 * x1 + d2) M ltac:(lia)) as R3. set (h3 := (b3 * x1 + d2) mod M) in *.
  clearbody p0 l0 l1 l2 h0 h1 h2 h3 c0 c1 c2 c3 d0 d1 d2 d3.
  assert (ET : a * b = p0 + M * (l0 + M * (l1 + M * (l2 + M * c3)))
                       + M * (h0 + M * (h1 + M * (h2 + M * (h3 + M * d3))))).
  { rewrite Ea, Eb.
    replace ((x1 * M + x0) * (((b3 * M + b2) * M + b1) * M + b0))
      with (b0 * x0 + M * (b1 * x0 + M * (b2 * x0 + M * (b3 * x0)))
            + M * (b0 * x1 + M * (b1 * x1 + M * (b2 * x1 + M * (b3 * x1))))) by ring.
    assert (G1 : b1 * x0 = M * c1 + l0 - c0) by lia. assert (G2 : b2 * x0 = M * c2 + l1 - c1) by lia.
    assert (G3 : b3 * x0 = M * c3 + l2 - c2) by lia.
    assert (K1 : b1 * x1 = M * d1 + h1 - d0) by lia. assert (K2 : b2 * x1 = M * d2 + h2 - d1) by lia.
    assert (K3 : b3 * x1 = M * d3 + h3 - d2) by lia.
    rewrite E0, F0, G1, G2, G3, K1, K2, K3. ring. }
  clear E0 E1 E2 E3 F0 F1 F2 F3.
  rewrite (L_oadd _ L128) by (change (2 ^ BITS) with M; auto). change (2 ^ BITS) with M.
  destruct (carry_split l0 h0 false Q0 R0) as (S1 & V1). cbn [b2z] in S1, V1. rewrite Z.add_0_r in S1, V1.
  set (k1 := M <=? l0 + h0) in *. set (r1 := (l0 + h0) mod M) in *.
  rewrite (D_carrying_add of128 L128) by (change (2 ^ BITS) with M; auto). change (2 ^ BITS) with M.
  destruct (carry_split l1 h1 k1 Q1 R1) as (S2 & V2).
  set (k2 := M <=? l1 + h1 + b2z k1) in *. set (r2 := (l1 + h1 + b2z k1) mod M) in *.
  rewrite (D_carrying_add of128 L128) by (change (2 ^ BITS) with M; auto). change (2 ^ BITS) with M.
  destruct (carry_split l2 h2 k2 Q2 R2) as (S3 & V3).
  set (k3 := M <=? l2 + h2 + b2z k2) in *. set (r3 := (l2 + h2 + b2z k2) mod M) in *.
  rewrite (D_carrying_add of128 L128) by (change (2 ^ BITS) with M; auto). change (2 ^ BITS) with M.
  destruct (carry_split c3 h3 k3 C3 R3) as (S4 & V4).
  set (k4 := M <=? c3 + h3 + b2z k3) in *. set (r4 := (c3 + h3 + b2z k3) mod M) in *.
  clearbody k1 k2 k3 k4 r1 r2 r3 r4.
  rewrite (D_incr_if of128 L128) by (change (2 ^ BITS) with M; auto). change (2 ^ BITS) with M.
  pose proof (columns M p0 l0 l1 l2 c3 h0 h1 h2 h3 d3 (b2z k1) (b2z k2) (b2z k3) (b2z k4) r1 r2 r3 r4
    ltac:(lia) P0 V1 V2 V3 V4 S1 S2 S3 S4) as EQ. rewrite <- ET in EQ.
  change (M * M * M * M) with (2 ^ 512) in EQ. rewrite EQ. f_equal.
  assert (HQ : a * b / 2 ^ 512 < M * M).
  { apply Z.div_lt_upper_bound. lia. change (M * M) with (2 ^ 256). clear - Ha Hb. nia. }
  rewrite EQ in HQ.
  rewrite Z.mod_small. 2: { assert (0 <= b2z k4) by (destruct k4; cbn; lia). clear - HQ V4 D3 H. nia. }
  symmetry. unfold of256. apply of_uint_eq; auto.
Qed.

(** ** The loops *)

Lemma lt256 a b : 0 <= a < 2 ^ 256 -> 0 <= b < 2 ^ 256 -> ult (of256 a) (of256 b) = (a <? b).
Proof. intros. apply (D_ult of256 L256); change (2 ^ BITS) with (2 ^ 256); auto. Qed.
Lemma gt256 a b : 0 <= a < 2 ^ 256 -> 0 <= b < 2 ^ 256 -> ugt (of256 a) (of256 b) = (b <? a).
Proof. intros. apply (D_ugt of256 L256); change (2 ^ BITS) with (2 ^ 256); auto. Qed.

Lemma div_le a b : 0 <= a -> 0 < b -> 0 <= a / b <= a.
Proof. intros. split. apply Z.div_pos; lia. apply Z.div_le_upper_bound. lia. nia. Qed.

Lemma div_pow10_next a j : 0 <= j -> a / 10 / 10 ^ j = a / 10 ^ (j + 1).
Proof.
  intros Hj. rewrite Z.div_div by (try lia; apply Z.pow_pos_nonneg; lia).
  f_equal. rewrite Z.pow_add_r by lia. ring.
Qed.

(** What a loop leaves: [j] digits are removed, the last of [s] is [rd]. *)
Definition last_digit (s j rd : Z) : Prop := rd = s / 10 ^ (j - 1) mod 10.

Lemma mod_next l j : 0 <= j -> (l mod 10 =? 0) && (l / 10 mod 10 ^ j =? 0) = (l mod 10 ^ (j + 1) =? 0).
Proof.
  intros Hj. assert (PT : 0 < 10 ^ j) by (apply Z.pow_pos_nonneg; lia).
  replace (10 ^ (j + 1)) with (10 * 10 ^ j) by (rewrite Z.pow_add_r by lia; ring).
  rewrite Z.rem_mul_r by lia. pose proof (Z.mod_pos_bound l 10 ltac:(lia)).
  pose proof (Z.mod_pos_bound (l / 10) (10 ^ j) PT).
  destruct (Z.eqb_spec (l mod 10) 0), (Z.eqb_spec (l / 10 mod 10 ^ j) 0); cbn [andb]; symmetry;
    first [apply Z.eqb_eq; lia | apply Z.eqb_neq; lia].
Qed.

Lemma digit_next s j rd : 0 < j -> last_digit (s / 10) j rd -> last_digit s (j + 1) rd.
Proof.
  unfold last_digit. intros Hj. rewrite div_pow10_next by lia. replace (j - 1 + 1) with (j + 1 - 1) by lia. auto.
Qed.
Lemma digit_first s : last_digit s (0 + 1) (s mod 10).
Proof. unfold last_digit. change (10 ^ (0 + 1 - 1)) with 1. rewrite Z.div_1_r. reflexivity. Qed.

Lemma shrink_exact_ok fuel : forall l s u rd lrz rz i,
  0 <= l -> 0 <= s < 2 ^ 256 -> l <= u < 2 ^ 256 -> u < 10 ^ Z.of_nat fuel -> 0 <= i <= 1000 - Z.of_nat fuel ->
  exists j rd' rz',
    shrink_exact (S fuel) (of256 l) (of256 s) (of256 u) rd lrz rz i
    = Some (of256 (l / 10 ^ j), of256 (s / 10 ^ j), rd', lrz && (l mod 10 ^ j =? 0), rz', i + j)
    /\ 0 <= j <= Z.of_nat fuel /\ (j = 0 -> rd' = rd /\ rz' = rz)
    /\ (0 < j -> last_digit s j rd' /\ (rz' = true -> rd' = 0) /\ l / 10 ^ j < u / 10 ^ j)
    /\ u / 10 ^ j / 10 <= l / 10 ^ j / 10.
Proof.
  induction fuel as [|fuel IH]; intros l s u rd lrz rz i Hl Hs Hu Hf Hi.
  - change (10 ^ Z.of_nat 0) with 1 in Hf. assert (l = 0) by lia. assert (u = 0) by lia. subst.
    exists 0, rd, rz. cbn [shrink_exact]. rewrite !div_rem_u64_ok by lia. rewrite !bind_Some.
    rewrite lt256 by (cbn; lia). change (0 / 10 <? 0 / 10) with false. cbv iota.
    rewrite Z.pow_0_r, !Z.div_1_r, Z.add_0_r. change (0 mod 1 =? 0) with true. rewrite andb_true_r.
    repeat split; try lia.
  - change (shrink_exact (S (S fuel)) (of256 l) (of256 s) (of256 u) rd lrz rz i) with
      (let! (lq, lr) := div_rem_u64 (of256 l) 10 in
       let! (uq, _) := div_rem_u64 (of256 u) 10 in
       if ult lq uq then
         let! (s, rd) := div_rem_u64 (of256 s) 10 in
         let! i := adds 32 i 1 in
         shrink_exact (S fuel) lq s uq rd (lrz && (lr =? 0)) (rz && (rd =? 0)) i
       else Some (of256 l, of256 s, rd, lrz, rz, i)).
    rewrite (div_rem_u64_ok l), (div_rem_u64_ok u) by lia. rewrite !bind_Some.
    pose proof (div_le l 10 Hl ltac:(lia)). pose proof (div_le u 10 ltac:(lia) ltac:(lia)).
    rewrite lt256 by lia. destruct (Z.ltb_spec (l / 10) (u / 10)) as [C|C].
    + rewrite (div_rem_u64_ok s) by lia. rewrite bind_Some. rewrite adds_ok by lia. rewrite bind_Some.
      pose proof (div_le s 10 ltac:(lia) ltac:(lia)).
      assert (Hf' : u / 10 < 10 ^ Z.of_nat fuel).
      { apply Z.div_lt_upper_bound. lia. rewrite Nat2Z.inj_succ, Z.pow_succ_r in Hf by lia. lia. }
      destruct (IH (l / 10) (s / 10) (u / 10) (s mod 10) (lrz && (l mod 10 =? 0)) (rz && (s mod 10 =? 0)) (i + 1))
        as (j & rd' & rz' & E & Hj & Z0 & Zp & Hq); try lia.
      exists (j + 1), rd', rz'. rewrite E.
      rewrite !div_pow10_next in * by lia. split; [|split; [lia|split; [lia|split]]].
      * rewrite <- andb_assoc, mod_next by lia. rewrite Z.add_assoc, <- (Z.add_assoc i 1 j), (Z.add_comm 1 j), Z.add_assoc.
        reflexivity.
      * intros _. destruct (Z.eq_dec j 0) as [->|J].
        -- destruct (Z0 eq_refl) as [-> ->]. split; [apply digit_first|]. split; [|exact C].
           rewrite andb_true_iff, Z.eqb_eq. tauto.
        -- destruct Zp as (W1 & W2 & W3); [lia|]. split; [apply digit_next; auto; lia|]. auto.
      * exact Hq.
    + exists 0, rd, rz. rewrite Z.pow_0_r, !Z.div_1_r, Z.add_0_r, Z.mod_1_r. cbn [Z.eqb]. rewrite andb_true_r.
      repeat split; lia.
Qed.

Lemma shrink_lower_ok fuel : forall l s rd rz i,
  0 < l < 2 ^ 256 -> 0 <= s < 2 ^ 256 -> l < 10 ^ Z.of_nat fuel -> 0 <= i <= 1000 - Z.of_nat fuel ->
  exists j rd' rz',
    shrink_lower (S fuel) (of256 l) (of256 s) rd rz i = Some (of256 (s / 10 ^ j), rd', rz', i + j)
    /\ 0 <= j <= Z.of_nat fuel /\ l mod 10 ^ j = 0 /\ l / 10 ^ j mod 10 <> 0 /\ (j = 0 -> rd' = rd /\ rz' = rz)
    /\ (0 < j -> last_digit s j rd' /\ (rz' = true -> rd' = 0)).
Proof.
  induction fuel as [|fuel IH]; intros l s rd rz i Hl Hs Hf Hi.
  - change (10 ^ Z.of_nat 0) with 1 in Hf. lia.
  - change (shrink_lower (S (S fuel)) (of256 l) (of256 s) rd rz i) with
      (let! (lq, lr) := div_rem_u64 (of256 l) 10 in
       if (lr =? 0) && negb (u256_is_zero (of256 l)) then
         let! (s, rd) := div_rem_u64 (of256 s) 10 in
         let! i := adds 32 i 1 in
         shrink_lower (S fuel) lq s rd (rz && (rd =? 0)) i
       else Some (of256 s, rd, rz, i)).
    rewrite (div_rem_u64_ok l) by lia. rewrite !bind_Some.
    pose proof (div_le l 10 ltac:(lia) ltac:(lia)).
    replace (u256_is_zero (of256 l)) with false.
    2: { symmetry. unfold u256_is_zero. change (val (hi (of256 l))) with (l / M). change (val (lo (of256 l))) with (l mod M).
         pose proof (Z.div_mod l M ltac:(lia)).
         destruct (Z.eqb_spec (l / M) 0), (Z.eqb_spec (l mod M) 0); cbn; auto; lia. }
    cbn [negb]. rewrite andb_true_r. destruct (Z.eqb_spec (l mod 10) 0) as [C|C].
    + rewrite (div_rem_u64_ok s) by lia. rewrite bind_Some. rewrite adds_ok by lia. rewrite bind_Some.
      pose proof (div_le s 10 ltac:(lia) ltac:(lia)).
      assert (Hf' : l / 10 < 10 ^ Z.of_nat fuel).
      { apply Z.div_lt_upper_bound. lia. rewrite Nat2Z.inj_succ, Z.pow_succ_r in Hf by lia. lia. }
      assert (Hl' : 0 < l / 10). { pose proof (Z.div_mod l 10 ltac:(lia)). lia. }
      destruct (IH (l / 10) (s / 10) (s mod 10) (rz && (s mod 10 =? 0)) (i + 1))
        as (j & rd' & rz' & E & Hj & Hm & Hn & Z0 & Zp); try lia.
      exists (j + 1), rd', rz'. rewrite E.
      rewrite !div_pow10_next in * by lia. split; [|split; [lia|split; [|split; [exact Hn|split; [lia|]]]]].
      * rewrite Z.add_assoc, <- (Z.add_assoc i 1 j), (Z.add_comm 1 j), Z.add_assoc. reflexivity.
      * apply Z.eqb_eq. rewrite <- mod_next by lia. rewrite C, Hm. reflexivity.
      * intros _. destruct (Z.eq_dec j 0) as [->|J].
        -- destruct (Z0 eq_refl) as [-> ->]. split; [apply digit_first|].
           rewrite andb_true_iff, Z.eqb_eq. tauto.
        -- destruct Zp as (W1 & W2); [lia|]. split; [apply digit_next; auto; lia|]. auto.
    + exists 0, rd, rz. rewrite Z.pow_0_r, !Z.div_1_r, Z.add_0_r, Z.mod_1_r. repeat split; auto; lia.
Qed.

Lemma shrink_ok fuel : forall l s u ru i,
  0 <= l -> 0 <= s < 2 ^ 256 -> l <= u < 2 ^ 256 -> u < 10 ^ Z.of_nat fuel -> 0 <= i <= 1000 - Z.of_nat fuel ->
  exists j ru',
    shrink (S fuel) (of256 l) (of256 s) (of256 u) ru i
    = Some (of256 (l / 10 ^ j), of256 (s / 10 ^ j), ru', i + j)
    /\ 0 <= j <= Z.of_nat fuel /\ (j = 0 -> ru' = ru)
    /\ (0 < j -> (exists rd, last_digit s j rd /\ ru' = (5 <=? rd)) /\ l / 10 ^ j < u / 10 ^ j)
    /\ u / 10 ^ j / 10 <= l / 10 ^ j / 10.
Proof.
  induction fuel as [|fuel IH]; intros l s u ru i Hl Hs Hu Hf Hi.
  - change (10 ^ Z.of_nat 0) with 1 in Hf. assert (l = 0) by lia. assert (u = 0) by lia. subst.
    exists 0, ru. cbn [shrink]. rewrite !div_rem_u64_ok by lia. rewrite !bind_Some.
    rewrite gt256 by (cbn; lia). change (0 / 10 <? 0 / 10) with false. cbv iota.
    rewrite Z.pow_0_r, !Z.div_1_r, Z.add_0_r. repeat split; try lia.
  - change (shrink (S (S fuel)) (of256 l) (of256 s) (of256 u) ru i) with
      (let! (lq, _) := div_rem_u64 (of256 l) 10 in
       let! (uq, _) := div_rem_u64 (of256 u) 10 in
       if ugt uq lq then
         let! (s, rd) := div_rem_u64 (of256 s) 10 in
         let! i := adds 32 i 1 in
         shrink (S fuel) lq s uq (5 <=? rd) i
       else Some (of256 l, of256 s, ru, i)).
    rewrite (div_rem_u64_ok l), (div_rem_u64_ok u) by lia. rewrite !bind_Some.
    pose proof (div_le l 10 Hl ltac:(lia)). pose proof (div_le u 10 ltac:(lia) ltac:(lia)).
    rewrite gt256 by lia. destruct (Z.ltb_spec (l / 10) (u / 10)) as [C|C].
    + rewrite (div_rem_u64_ok s) by lia. rewrite bind_Some. rewrite adds_ok by lia. rewrite bind_Some.
      pose proof (div_le s 10 ltac:(lia) ltac:(lia)).
      assert (Hf' : u / 10 < 10 ^ Z.of_nat fuel).
      { apply Z.div_lt_upper_bound. lia. rewrite Nat2Z.inj_succ, Z.pow_succ_r in Hf by lia. lia. }
      destruct (IH (l / 10) (s / 10) (u / 10) (5 <=? s mod 10) (i + 1))
        as (j & ru' & E & Hj & Z0 & Zp & Hq); try lia.
      exists (j + 1), ru'. rewrite E.
      rewrite !div_pow10_next in * by lia. split; [|split; [lia|split; [lia|split]]].
      * rewrite Z.add_assoc, <- (Z.add_assoc i 1 j), (Z.add_comm 1 j), Z.add_assoc. reflexivity.
      * intros _. destruct (Z.eq_dec j 0) as [->|J].
        -- rewrite (Z0 eq_refl). split; [exists (s mod 10); split; [apply digit_first|reflexivity]|exact C].
        -- destruct Zp as ((rd & W1 & W2) & W3); [lia|].
           split; [exists rd; split; [apply digit_next; auto; lia|exact W2]|exact W3].
      * exact Hq.
    + exists 0, ru. rewrite Z.pow_0_r, !Z.div_1_r, Z.add_0_r. repeat split; lia.
Qed.

(** ** Step 4 *)

Lemma div_pow10_add a i j : 0 <= i -> 0 <= j -> a / 10 ^ i / 10 ^ j = a / 10 ^ (i + j).
Proof.
  intros. rewrite Z.div_div by (try apply Z.pow_pos_nonneg; try apply Z.pow_nonzero; lia).
  f_equal. rewrite Z.pow_add_r by lia. reflexivity.
Qed.

Lemma mod_pow10_add l i j : 0 <= i -> 0 <= j -> l mod 10 ^ i = 0 -> l / 10 ^ i mod 10 ^ j = 0 -> l mod 10 ^ (i + j) = 0.
Proof.
  intros Hi Hj H1 H2. rewrite Z.pow_add_r by lia.
  rewrite Z.rem_mul_r by (try apply Z.pow_pos_nonneg; try apply Z.pow_nonzero; lia). rewrite H1, H2. ring.
Qed.

Lemma digit_add s i j rd : 0 <= i -> 0 < j -> last_digit (s / 10 ^ i) j rd -> last_digit s (i + j) rd.
Proof.
  unfold last_digit. intros Hi Hj. rewrite div_pow10_add by lia. replace (i + (j - 1)) with (i + j - 1) by lia. auto.
Qed.

Lemma pow256_78 : 2 ^ 256 <= 10 ^ Z.of_nat 79.
Proof. vm_compute. discriminate. Qed.

Lemma incr256 a : 0 <= a < 2 ^ 256 - 1 -> incr (of256 a) = of256 (a + 1).
Proof.
  intros. rewrite (L_incr _ L256) by (change (2 ^ BITS) with (2 ^ 256); lia). change (2 ^ BITS) with (2 ^ 256).
  rewrite Z.mod_small by lia. reflexivity.
Qed.

Lemma round_incr s j rd rz : 0 <= s < 2 ^ 255 -> 0 <= j -> (j = 0 -> rd = 0) ->
  (0 < j -> last_digit s j rd /\ (rz = true -> rd = 0)) ->
  (if (5 <? rd) || ((rd =? 5) && (negb rz || is_odd (lo (of256 (s / 10 ^ j))))) then incr (of256 (s / 10 ^ j))
   else of256 (s / 10 ^ j)) = of256 (rounded s j).
Proof.
  intros Hs Hj Z0 Zp. unfold rounded.
  assert (B : 0 <= s / 10 ^ j <= s) by (apply div_le; [lia|apply Z.pow_pos_nonneg; lia]).
  destruct (Z.ltb_spec 0 j) as [J|J]; cbn [andb].
  - destruct (Zp J) as (W1 & W2). unfold last_digit in W1. rewrite <- half_digit by lia. rewrite <- W1.
    replace ((5 <? rd) || ((rd =? 5) && (negb rz || is_odd (lo (of256 (s / 10 ^ j)))))) with (5 <=? rd).
    + destruct (5 <=? rd). apply incr256; lia. f_equal; lia.
    + destruct (Z.ltb_spec 5 rd), (Z.eqb_spec rd 5), (Z.leb_spec 5 rd); cbn [orb andb]; auto; try lia.
      destruct rz; [|reflexivity]. specialize (W2 eq_refl). lia.
  - rewrite (Z0 ltac:(lia)). cbn [Z.ltb Z.eqb orb andb Z.compare]. f_equal. lia.
Qed.

Lemma shortest_in_exact l s u lrz rz : lrz || rz = true -> 0 < l -> 0 <= s < 2 ^ 255 -> l <= u < 2 ^ 256 ->
  exists j1 j, shortest_in (of256 l) (of256 s) (of256 u) lrz rz = Some (of256 (rounded s j), j)
    /\ 0 <= j1 <= j /\ j <= 200
    /\ (0 < j1 -> l / 10 ^ j1 < u / 10 ^ j1)
    /\ u / 10 ^ j1 / 10 <= l / 10 ^ j1 / 10
    /\ (j1 < j -> lrz = true /\ l mod 10 ^ j = 0)
    /\ (lrz = true -> l mod 10 ^ j = 0 -> l mod 10 ^ (j + 1) <> 0).
Proof.
  intros Hf Hl Hs Hu. unfold shortest_in. rewrite Hf.
  destruct (shrink_exact_ok 79 l s u 0 lrz rz 0) as (j1 & rd & rz' & E & Hj & Z0 & Zp & Hq);
    [lia|lia|lia|eapply Z.lt_le_trans; [|apply pow256_78]; lia|cbn; lia|].
  change FUEL with 80%nat. rewrite E, bind_Some. clear E. rewrite Z.add_0_l.
  destruct (lrz && (l mod 10 ^ j1 =? 0)) eqn:El.
  - apply andb_true_iff in El. destruct El as (-> & El). apply Z.eqb_eq in El.
    assert (PT : 0 < 10 ^ j1) by (apply Z.pow_pos_nonneg; lia).
    assert (0 < l / 10 ^ j1). { pose proof (Z.div_mod l (10 ^ j1) ltac:(lia)). nia. }
    pose proof (div_le l (10 ^ j1) ltac:(lia) PT). pose proof (div_le s (10 ^ j1) ltac:(lia) PT).
    destruct (shrink_lower_ok 79 (l / 10 ^ j1) (s / 10 ^ j1) rd rz' j1) as (j2 & rd2 & rz2 & E2 & Hj2 & Hm & Hn & Y0 & Yp);
      [lia|lia|eapply Z.lt_le_trans; [|apply pow256_78]; lia|cbn; lia|].
    rewrite E2, bind_Some. clear E2. rewrite div_pow10_add by lia.
    exists j1, (j1 + j2). rewrite round_incr.
    + split; [reflexivity|]. split; [lia|]. split; [lia|]. split; [apply Zp|]. split; [exact Hq|].
      assert (Hlm : l mod 10 ^ (j1 + j2) = 0) by (apply mod_pow10_add; auto; lia).
      split; [intros; split; auto|]. intros _ _ Hc.
      rewrite div_pow10_add in Hn by lia. apply Hn.
      rewrite Z.pow_add_r in Hc by lia. change (10 ^ 1) with 10 in Hc.
      rewrite Z.rem_mul_r in Hc by (try apply Z.pow_pos_nonneg; try apply Z.pow_nonzero; lia).
      assert (P2 : 0 < 10 ^ (j1 + j2)) by (apply Z.pow_pos_nonneg; lia).
      pose proof (Z.mod_pos_bound (l / 10 ^ (j1 + j2)) 10 ltac:(lia)). nia.
    + lia.
    + lia.
    + intros E0. destruct (Y0 ltac:(lia)) as [-> _]. apply Z0. lia.
    + intros Jp. destruct (Z.eq_dec j2 0) as [->|J2].
      * rewrite Z.add_0_r in *. destruct (Y0 eq_refl) as [-> ->]. destruct (Zp Jp) as (? & ? & ?). auto.
      * destruct (Yp ltac:(lia)) as (W1 & W2). split; [apply digit_add; auto; lia|auto].
  - rewrite bind_Some. exists j1, j1. rewrite round_incr; try lia.
    + split; [reflexivity|]. split; [lia|]. split; [lia|]. split; [apply Zp|]. split; [exact Hq|].
      split; [lia|]. intros -> Hc. cbn [andb] in El. apply Z.eqb_neq in El. contradiction.
    + intros Jp. destruct (Zp Jp) as (? & ? & ?). auto.
Qed.

Lemma shortest_in_next l s u : 0 <= l -> 0 <= s < 2 ^ 255 -> l <= u < 2 ^ 256 ->
  exists j, shortest_in (of256 l) (of256 s) (of256 u) false false
    = Some (of256 (if (0 <? j) && (10 ^ j <=? 2 * (s mod 10 ^ j)) || (s / 10 ^ j =? l / 10 ^ j)
                   then s / 10 ^ j + 1 else s / 10 ^ j), j)
    /\ 0 <= j <= 200
    /\ (0 < j -> l / 10 ^ j < u / 10 ^ j)
    /\ u / 10 ^ j / 10 <= l / 10 ^ j / 10.
Proof.
  intros Hl Hs Hu. unfold shortest_in. cbn [orb].
  rewrite !(div_rem_u64_ok l), !(div_rem_u64_ok u) by lia. rewrite !bind_Some.
  pose proof (div_le l 100 Hl ltac:(lia)). pose proof (div_le u 100 ltac:(lia) ltac:(lia)).
  pose proof (div_le s 100 ltac:(lia) ltac:(lia)).
  rewrite gt256 by lia.
  match goal with |- exists j, bind ?m _ = _ /\ _ => assert (G : exists i ru, m
    = Some (of256 (l / 10 ^ i), of256 (s / 10 ^ i), of256 (u / 10 ^ i), ru, i)
    /\ 0 <= i <= 2 /\ ru = ((0 <? i) && (10 ^ i <=? 2 * (s mod 10 ^ i))) /\ (0 < i -> l / 10 ^ i < u / 10 ^ i)) end.
  { destruct (Z.ltb_spec (l / 100) (u / 100)).
    - rewrite div_rem_u64_ok by lia. rewrite bind_Some. exists 2, (50 <=? s mod 100). change (10 ^ 2) with 100.
      repeat split; auto; try lia.
    - exists 0, false. rewrite Z.pow_0_r, !Z.div_1_r. repeat split; lia. }
  destruct G as (i & ru & E & Hi & Eru & Hlui). rewrite E, bind_Some. clear E.
  assert (PT : 0 < 10 ^ i) by (apply Z.pow_pos_nonneg; lia).
  pose proof (div_le l (10 ^ i) ltac:(lia) PT). pose proof (div_le s (10 ^ i) ltac:(lia) PT).
  pose proof (div_le u (10 ^ i) ltac:(lia) PT).
  assert (l / 10 ^ i <= u / 10 ^ i) by (apply Z.div_le_mono; lia).
  destruct (shrink_ok 79 (l / 10 ^ i) (s / 10 ^ i) (u / 10 ^ i) ru i) as (j & ru' & E & Hj & Z0 & Zp & Hq);
    [lia|lia|lia|eapply Z.lt_le_trans; [|apply pow256_78]; lia|cbn; lia|].
  change FUEL with 80%nat. rewrite E, bind_Some. clear E. rewrite !div_pow10_add in * by lia.
  exists (i + j). assert (PT2 : 0 < 10 ^ (i + j)) by (apply Z.pow_pos_nonneg; lia).
  pose proof (div_le l (10 ^ (i + j)) ltac:(lia) PT2). pose proof (div_le s (10 ^ (i + j)) ltac:(lia) PT2).
  split; [|split; [lia|split; [|exact Hq]]].
  - rewrite (L_eqb _ L256) by (change (2 ^ BITS) with (2 ^ 256); lia).
    replace ru' with ((0 <? i + j) && (10 ^ (i + j) <=? 2 * (s mod 10 ^ (i + j)))).
    { destruct (_ || _); [|reflexivity]. rewrite incr256 by lia. reflexivity. }
    destruct (Z.eq_dec j 0) as [->|J].
    + rewrite (Z0 eq_refl), Z.add_0_r. auto.
    + destruct (Zp ltac:(lia)) as ((rd & W1 & ->) & _). rewrite ltb_true by lia. cbn [andb].
      apply digit_add in W1; try lia. unfold last_digit in W1. rewrite W1. symmetry. apply half_digit; lia.
  - intros Hp. destruct (Z.eq_dec j 0) as [->|J]. rewrite Z.add_0_r in *. apply Hlui. lia. apply Zp. lia.
Qed.

End Print.

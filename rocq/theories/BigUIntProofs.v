(** * BigUIntProofs: [uint T] computes integer arithmetic if [T] does *)

From Coq Require Import ZArith Lia Bool List.
From Verif Require Import Base BigUInt ZLemmas BigLaws.
Open Scope Z_scope.

(** ** uint T satisfies the laws if T does *)
Section UInt.
Context {P : profile} {T : Type} {OT : ops T}.
Variable of : Z -> T.
Hypothesis L : laws of.

Local Notation B := (@BITS T OT).
Local Notation M := (2 ^ B).

Definition of_uint (a : Z) : uint T := mk (of (a / M)) (of (a mod M)).

Ltac bnd := pose proof (B_pos of L); pose proof (B_u32 of L); pose proof (M_pos of L); pose proof (M_pos' of L).

Lemma MM : 2 ^ (2 * B) = M * M.
Proof. bnd. replace (2 * B) with (B + B) by lia. apply pow2_add; lia. Qed.

Lemma of_uint_eq v h l : v = h * M + l -> 0 <= l < M -> of_uint v = mk (of h) (of l).
Proof.
  intros E Hl. unfold of_uint. rewrite (div_eq v M h l), (mod_eq v M h l) by auto. reflexivity.
Qed.

(** Decompose a double-width value. *)
Lemma split_val a : 0 <= a < M * M ->
  exists h l, a = h * M + l /\ 0 <= h < M /\ 0 <= l < M /\ of_uint a = mk (of h) (of l).
Proof.
  intros. bnd. exists (a / M), (a mod M). repeat split.
  rewrite Z.mul_comm. apply Z.div_mod; lia.
  apply Z.div_pos; lia. apply Z.div_lt_upper_bound; lia.
  apply Z.mod_pos_bound; lia. apply Z.mod_pos_bound; lia.
Qed.

Ltac split_as a h l E Hh Hl O :=
  destruct (split_val a ltac:(auto)) as (h & l & E & Hh & Hl & O).

Lemma modM' x : 0 <= x mod M < M. Proof. apply Z.mod_pos_bound. bnd; auto. Qed.
Lemma b2zM' b : 0 <= b2z b < M. Proof. bnd. destruct b; cbn [b2z]; lia. Qed.
Local Hint Resolve modM' b2zM' : core.

Lemma H_zero : uint_zero = of_uint 0.
Proof. bnd. rewrite (of_uint_eq 0 0 0) by lia. unfold uint_zero. rewrite (L_zero _ L). reflexivity. Qed.
Lemma H_one : uint_one = of_uint 1.
Proof. bnd. rewrite (of_uint_eq 1 0 1) by lia. unfold uint_one. rewrite (L_zero _ L), (L_one _ L). reflexivity. Qed.
Lemma H_two : uint_two = of_uint 2.
Proof. bnd. rewrite (of_uint_eq 2 0 2) by lia. unfold uint_two. rewrite (L_zero _ L), (L_two _ L). reflexivity. Qed.
Lemma H_max : uint_max = of_uint (M * M - 1).
Proof. bnd. rewrite (of_uint_eq _ (M - 1) (M - 1)) by lia. unfold uint_max. rewrite (L_max _ L). reflexivity. Qed.

Lemma H_eqb a b : 0 <= a < M * M -> 0 <= b < M * M -> uint_eqb (of_uint a) (of_uint b) = (a =? b).
Proof.
  intros Ha Hb. split_as a ah al Ea Hah Hal Oa. split_as b bh bl Eb Hbh Hbl Ob.
  rewrite Oa, Ob. unfold uint_eqb; cbn [hi lo]. rewrite !(L_eqb _ L) by auto.
  destruct (Z.eqb_spec ah bh), (Z.eqb_spec al bl), (Z.eqb_spec a b); try reflexivity; try nia.
Qed.

Lemma H_cmp a b : 0 <= a < M * M -> 0 <= b < M * M -> uint_cmp (of_uint a) (of_uint b) = (a ?= b).
Proof.
  intros Ha Hb. split_as a ah al Ea Hah Hal Oa. split_as b bh bl Eb Hbh Hbl Ob.
  rewrite Oa, Ob. unfold uint_cmp; cbn [hi lo]. rewrite !(L_cmp _ L) by auto.
  destruct (Z.compare_spec ah bh).
  - subst ah. symmetry. destruct (Z.compare_spec al bl); [apply Z.compare_eq_iff|apply Z.compare_lt_iff|apply Z.compare_gt_iff]; lia.
  - symmetry. apply Z.compare_lt_iff. nia.
  - symmetry. apply Z.compare_gt_iff. nia.
Qed.

Lemma M_even : exists k, M = 2 * k.
Proof. bnd. exists (2 ^ (B - 1)). rewrite <- pow2_S by lia. f_equal; lia. Qed.

Lemma H_even a : 0 <= a < M * M -> uint_is_even (of_uint a) = Z.even a.
Proof.
  intros Ha. split_as a ah al Ea Hah Hal Oa. rewrite Oa. unfold uint_is_even; cbn [lo].
  rewrite (L_even _ L) by auto. destruct M_even as [k Hk]. rewrite Ea, Hk.
  replace (ah * (2 * k) + al) with (al + 2 * (ah * k)) by ring. rewrite Z.even_add_mul_2. reflexivity.
Qed.
Lemma H_odd a : 0 <= a < M * M -> uint_is_odd (of_uint a) = Z.odd a.
Proof.
  intros Ha. split_as a ah al Ea Hah Hal Oa. rewrite Oa. unfold uint_is_odd; cbn [lo].
  rewrite (L_odd _ L) by auto. destruct M_even as [k Hk]. rewrite Ea, Hk.
  replace (ah * (2 * k) + al) with (al + 2 * (ah * k)) by ring. rewrite Z.odd_add_mul_2. reflexivity.
Qed.

Lemma H_lz a : 0 <= a < M * M -> uint_leading_zeros (of_uint a) = nlz (2 * B) a.
Proof.
  intros Ha. bnd. split_as a ah al Ea Hah Hal Oa. rewrite Oa. unfold uint_leading_zeros; cbn [lo hi].
  rewrite (D_is_zero of L) by auto. rewrite !(L_lz _ L) by auto.
  unfold nlz. destruct (Z.eqb_spec ah 0); cbn [b2z].
  - subst ah. replace a with al by lia. destruct (Z.eqb_spec al 0); lia.
  - destruct (Z.eqb_spec a 0). nia. rewrite Ea, log2_split by lia. lia.
Qed.

Lemma H_tz a : 0 <= a < M * M -> uint_trailing_zeros (of_uint a) = ntz (2 * B) a.
Proof.
  intros Ha. bnd. split_as a ah al Ea Hah Hal Oa. rewrite Oa. unfold uint_trailing_zeros; cbn [lo hi].
  rewrite (D_is_zero of L) by auto. rewrite !(L_tz _ L) by auto.
  destruct (Z.eqb_spec al 0); cbn [b2z].
  - subst al. destruct (Z.eq_dec ah 0).
    + subst. replace (0 * M + 0) with 0 by lia. unfold ntz. lia.
    + destruct (ntz_spec B ah ltac:(lia)) as (k & E & Hk & Hn).
      symmetry. rewrite Z.mul_1_l. change (ntz B 0) with B.
      pose proof (Z.mul_pos_pos ah M ltac:(lia) ltac:(lia)).
      apply ntz_unique with k; try lia.
      rewrite Ea, Z.add_0_r. rewrite (Z.add_comm B), pow2_add by lia. rewrite E at 1. ring.
  - destruct (ntz_spec B al ltac:(lia)) as (k & E & Hk & Hn).
    pose proof (ntz_lt B al ltac:(lia) ltac:(lia)) as Hlt.
    symmetry. rewrite Z.mul_0_l, Z.add_0_r.
    set (w := ntz B al) in *.
    assert (EM : M = 2 * (2 ^ w * 2 ^ (B - 1 - w))).
    { rewrite <- pow2_add by lia. rewrite <- pow2_S by lia. f_equal; lia. }
    pose proof (Z.mul_nonneg_nonneg ah M ltac:(lia) ltac:(lia)).
    apply ntz_unique with (ah * 2 ^ (B - 1 - w) + k); try lia.
Qed.

Lemma mod_MM x h l : x = h * M + l -> 0 <= l < M -> x mod (M * M) = (h mod M) * M + l.
Proof.
  intros -> Hl. bnd. dm h (2 ^ B). apply mod_eq with q; nia.
Qed.

Lemma H_oadd a b : 0 <= a < M * M -> 0 <= b < M * M ->
  uint_oadd (of_uint a) (of_uint b) = (of_uint ((a + b) mod (M * M)), M * M <=? a + b).
Proof.
  intros Ha Hb. bnd. split_as a ah al Ea Hah Hal Oa. split_as b bh bl Eb Hbh Hbl Ob.
  rewrite Oa, Ob. unfold uint_oadd; cbn [hi lo]. rewrite (L_oadd _ L) by auto.
  rewrite (D_carrying_add of L) by auto.
  set (c := M <=? al + bl).
  assert (Ec : (al + bl) mod M = al + bl - b2z c * M).
  { unfold c. destruct (Z.leb_spec M (al + bl)); cbn [b2z]; [apply mod_eq with 1|apply mod_eq with 0]; lia. }
  assert (ES : a + b = (ah + bh + b2z c) * M + (al + bl) mod M) by lia.
  pose proof (modM' (al + bl)). pose proof (b2z_01 c).
  rewrite (mod_MM _ _ _ ES) by auto.
  erewrite (of_uint_eq (_ * M + _)) by (try reflexivity; auto). f_equal.
  destruct (Z.leb_spec M (ah + bh + b2z c)), (Z.leb_spec (M * M) (a + b)); auto; nia.
Qed.

Lemma H_wadd a b : 0 <= a < M * M -> 0 <= b < M * M ->
  uint_wadd (of_uint a) (of_uint b) = of_uint ((a + b) mod (M * M)).
Proof.
  intros Ha Hb. bnd. split_as a ah al Ea Hah Hal Oa. split_as b bh bl Eb Hbh Hbl Ob.
  rewrite Oa, Ob. unfold uint_wadd; cbn [hi lo]. rewrite (L_oadd _ L) by auto.
  rewrite (L_wadd _ L) by auto. rewrite (D_incr_if of L) by auto. rewrite Zplus_mod_idemp_l.
  set (c := M <=? al + bl).
  assert (Ec : (al + bl) mod M = al + bl - b2z c * M).
  { unfold c. destruct (Z.leb_spec M (al + bl)); cbn [b2z]; [apply mod_eq with 1|apply mod_eq with 0]; lia. }
  assert (ES : a + b = (ah + bh + b2z c) * M + (al + bl) mod M) by lia.
  rewrite (mod_MM _ _ _ ES) by auto.
  erewrite (of_uint_eq (_ * M + _)) by (try reflexivity; auto). reflexivity.
Qed.

Lemma H_osub a b : 0 <= a < M * M -> 0 <= b < M * M ->
  uint_osub (of_uint a) (of_uint b) = (of_uint ((a - b) mod (M * M)), a <? b).
Proof.
  intros Ha Hb. bnd. split_as a ah al Ea Hah Hal Oa. split_as b bh bl Eb Hbh Hbl Ob.
  rewrite Oa, Ob. unfold uint_osub; cbn [hi lo]. rewrite (L_osub _ L) by auto.
  rewrite (D_borrowing_sub of L) by auto.
  set (c := al <? bl).
  assert (Ec : (al - bl) mod M = al - bl + b2z c * M).
  { unfold c. destruct (Z.ltb_spec al bl); cbn [b2z]; [apply mod_eq with (-1)|apply mod_eq with 0]; lia. }
  assert (ES : a - b = (ah - bh - b2z c) * M + (al - bl) mod M) by lia.
  pose proof (modM' (al - bl)). pose proof (b2z_01 c).
  rewrite (mod_MM _ _ _ ES) by auto.
  erewrite (of_uint_eq (_ * M + _)) by (try reflexivity; auto). f_equal.
  destruct (Z.ltb_spec ah (bh + b2z c)), (Z.ltb_spec a b); auto; nia.
Qed.

Lemma H_wsub a b : 0 <= a < M * M -> 0 <= b < M * M ->
  uint_wsub (of_uint a) (of_uint b) = of_uint ((a - b) mod (M * M)).
Proof.
  intros Ha Hb. bnd. split_as a ah al Ea Hah Hal Oa. split_as b bh bl Eb Hbh Hbl Ob.
  rewrite Oa, Ob. unfold uint_wsub; cbn [hi lo]. rewrite (L_osub _ L) by auto.
  rewrite (L_wsub _ L) by auto. rewrite (D_decr_if of L) by auto. rewrite Zminus_mod_idemp_l.
  set (c := al <? bl).
  assert (Ec : (al - bl) mod M = al - bl + b2z c * M).
  { unfold c. destruct (Z.ltb_spec al bl); cbn [b2z]; [apply mod_eq with (-1)|apply mod_eq with 0]; lia. }
  assert (ES : a - b = (ah - bh - b2z c) * M + (al - bl) mod M) by lia.
  rewrite (mod_MM _ _ _ ES) by auto.
  erewrite (of_uint_eq (_ * M + _)) by (try reflexivity; auto). reflexivity.
Qed.

Lemma H_incr a : 0 <= a < M * M -> uint_incr (of_uint a) = of_uint ((a + 1) mod (M * M)).
Proof.
  intros Ha. bnd. split_as a ah al Ea Hah Hal Oa. rewrite Oa. unfold uint_incr; cbn [hi lo].
  rewrite (L_one _ L), (L_wadd _ L) by lia. rewrite (D_is_zero of L) by auto.
  rewrite (D_incr_if of L) by auto.
  set (c := (al + 1) mod M =? 0).
  assert (Ec : (al + 1) mod M = al + 1 - b2z c * M).
  { unfold c. destruct (Z.eq_dec (al + 1) M) as [E|E].
    rewrite E, Z.mod_same by lia. change (0 =? 0) with true. cbn [b2z]. lia.
    rewrite Z.mod_small by lia. destruct (Z.eqb_spec (al + 1) 0); cbn [b2z]; lia. }
  assert (ES : a + 1 = (ah + b2z c) * M + (al + 1) mod M) by lia.
  rewrite (mod_MM _ _ _ ES) by auto.
  erewrite (of_uint_eq (_ * M + _)) by (try reflexivity; auto). reflexivity.
Qed.

Lemma H_decr a : 0 <= a < M * M -> uint_decr (of_uint a) = of_uint ((a - 1) mod (M * M)).
Proof.
  intros Ha. bnd. split_as a ah al Ea Hah Hal Oa. rewrite Oa. unfold uint_decr; cbn [hi lo].
  rewrite (L_one _ L), (L_wsub _ L) by lia. rewrite (D_is_zero of L) by auto.
  rewrite (D_decr_if of L) by auto.
  set (c := al =? 0).
  assert (Ec : (al - 1) mod M = al - 1 + b2z c * M).
  { unfold c. destruct (Z.eqb_spec al 0); cbn [b2z]; [apply mod_eq with (-1)|apply mod_eq with 0]; lia. }
  assert (ES : a - 1 = (ah - b2z c) * M + (al - 1) mod M) by lia.
  rewrite (mod_MM _ _ _ ES) by auto.
  erewrite (of_uint_eq (_ * M + _)) by (try reflexivity; auto). reflexivity.
Qed.

Lemma cmul_bound a b c : 0 <= a < M -> 0 <= b < M -> 0 <= c < M ->
  0 <= (a * b + c) / M < M.
Proof. intros. bnd. apply div_bound; nia. Qed.

Lemma omul_flag ah bh k1 k2 : 0 <= ah -> 0 <= bh -> 0 <= k1 -> 0 <= k2 ->
  (k1 =? 0) && (k2 =? 0) && ((ah =? 0) || (bh =? 0)) = (ah * bh + k1 + k2 =? 0).
Proof.
  intros. destruct (Z.eqb_spec k1 0), (Z.eqb_spec k2 0), (Z.eqb_spec ah 0), (Z.eqb_spec bh 0);
  cbn [andb orb]; symmetry; rewrite ?Z.eqb_eq, ?Z.eqb_neq; nia.
Qed.
Lemma ovfl_flag k r m : 0 <= k -> 0 <= r -> r < m -> negb (k =? 0) = (m <=? k * m + r).
Proof. intros. destruct (Z.eqb_spec k 0), (Z.leb_spec m (k * m + r)); cbn [negb]; nia. Qed.

Lemma H_omul a b : 0 <= a < M * M -> 0 <= b < M * M ->
  uint_omul (of_uint a) (of_uint b)
  = Some (of_uint ((a * b) mod (M * M)), M * M <=? a * b).
Proof.
  intros Ha Hb. bnd. split_as a ah al Ea Hah Hal Oa. split_as b bh bl Eb Hbh Hbl Ob.
  rewrite Oa, Ob. unfold uint_omul; cbn [hi lo]. rewrite (L_wmul _ L) by auto. rewrite bind_Some.
  assert (B1 := cmul_bound al bl 0 Hal Hbl ltac:(lia)). rewrite Z.add_0_r in B1.
  rewrite (D_carrying_mul of L) by auto. rewrite bind_Some.
  assert (B2 := cmul_bound al bh _ Hal Hbh B1).
  rewrite (D_carrying_mul of L) by auto. rewrite bind_Some.
  assert (B3 := cmul_bound ah bl _ Hah Hbl (modM' (al * bh + al * bl / M))).
  rewrite !(D_is_zero of L) by auto.
  dm (al * bl) (2 ^ B). rename q into k0, r into r0.
  dm (al * bh + k0) (2 ^ B). rename q into k1, r into r1.
  dm (ah * bl + r1) (2 ^ B). rename q into k2, r into r2.
  assert (EP : a * b = (ah * bh + k1 + k2) * (M * M) + (r2 * M + r0)) by nia.
  assert (R : 0 <= r2 * M + r0 < M * M) by (apply cat_bound; auto).
  f_equal. f_equal.
  - rewrite (mod_eq _ _ _ _ EP) by auto. symmetry. apply of_uint_eq; auto.
  - rewrite (omul_flag ah bh k1 k2) by lia. rewrite EP. apply ovfl_flag; [nia|lia|nia].
Qed.

Lemma H_wmul a b : 0 <= a < M * M -> 0 <= b < M * M ->
  uint_wmul (of_uint a) (of_uint b)
  = Some (of_uint ((a * b) mod (M * M)), of_uint ((a * b) / (M * M))).
Proof.
  intros Ha Hb. bnd. split_as a ah al Ea Hah Hal Oa. split_as b bh bl Eb Hbh Hbl Ob.
  rewrite Oa, Ob. unfold uint_wmul; cbn [hi lo]. rewrite (L_wmul _ L) by auto. rewrite bind_Some.
  assert (B1 := cmul_bound al bl 0 Hal Hbl ltac:(lia)). rewrite Z.add_0_r in B1.
  rewrite (D_carrying_mul of L) by auto. rewrite bind_Some.
  assert (B2 := cmul_bound al bh _ Hal Hbh B1).
  rewrite (D_carrying_mul of L) by auto. rewrite bind_Some.
  assert (B3 := cmul_bound ah bl _ Hah Hbl (modM' (al * bh + al * bl / M))).
  rewrite (L_oadd _ L) by auto.
  dm (al * bl) (2 ^ B). rename q into k0, r into r0.
  dm (al * bh + k0) (2 ^ B). rename q into k1, r into r1.
  dm (ah * bl + r1) (2 ^ B). rename q into k2, r into r2.
  set (c := M <=? k1 + k2).
  assert (Ec : (k1 + k2) mod M = k1 + k2 - b2z c * M).
  { unfold c. destruct (Z.leb_spec M (k1 + k2)); cbn [b2z]; [apply mod_eq with 1|apply mod_eq with 0]; lia. }
  pose proof (modM' (k1 + k2)) as Bs.
  rewrite (D_carrying_mul of L) by auto. rewrite bind_Some.
  assert (B4 := cmul_bound ah bh _ Hah Hbh Bs).
  rewrite (D_incr_if of L) by auto.
  set (s := (k1 + k2) mod M) in *. clearbody s.
  dm (ah * bh + s) (2 ^ B). rename q into k3, r into r3.
  pose proof (b2z_01 c).
  assert (EP : a * b = ((k3 + b2z c) * M + r3) * (M * M) + (r2 * M + r0)) by nia.
  assert (R : 0 <= r2 * M + r0 < M * M) by (apply cat_bound; auto).
  assert (UP : a * b <= (M * M - 1) * (M * M - 1)) by (apply Z.mul_le_mono_nonneg; lia).
  assert (K : (k3 + b2z c) * M + r3 < M * M).
  { clear - EP R UP H2. nia. }
  assert (K' : k3 + b2z c < M) by (apply cat_inv with r3; auto; lia).
  rewrite (Z.mod_small (k3 + b2z c)) by lia.
  rewrite (mod_eq _ _ _ _ EP), (div_eq _ _ _ _ EP) by auto.
  f_equal. f_equal; symmetry; apply of_uint_eq; auto.
Qed.

Lemma H_add a b : 0 <= a < M * M -> 0 <= b < M * M -> a + b < M * M ->
  uint_add (of_uint a) (of_uint b) = Some (of_uint (a + b)).
Proof.
  intros Ha Hb Hab. unfold uint_add. rewrite H_oadd by auto.
  rewrite leb_false by lia. cbn. rewrite Z.mod_small by lia. reflexivity.
Qed.

(** Overflowing additions and subtractions panic in every profile. *)
Lemma H_add_panic a b : 0 <= a < M * M -> 0 <= b < M * M -> M * M <= a + b ->
  uint_add (of_uint a) (of_uint b) = None.
Proof.
  intros Ha Hb Hab. unfold uint_add. rewrite H_oadd by auto.
  rewrite leb_true by lia. reflexivity.
Qed.

Lemma H_sub a b : 0 <= a < M * M -> 0 <= b < M * M -> b <= a ->
  uint_sub (of_uint a) (of_uint b) = Some (of_uint (a - b)).
Proof.
  intros Ha Hb Hab. unfold uint_sub. rewrite H_osub by auto.
  rewrite ltb_false by lia. cbn. rewrite Z.mod_small by lia. reflexivity.
Qed.

Lemma H_sub_panic a b : 0 <= a < M * M -> 0 <= b < M * M -> a < b ->
  uint_sub (of_uint a) (of_uint b) = None.
Proof.
  intros Ha Hb Hab. unfold uint_sub. rewrite H_osub by auto.
  rewrite ltb_true by lia. reflexivity.
Qed.

Lemma mul_fits m ah al bh bl q r : 0 < m -> 0 <= ah -> 0 <= al -> 0 <= bh -> 0 <= bl ->
  al * bl = m * q + r -> 0 <= r < m -> 0 <= q ->
  (ah * m + al) * (bh * m + bl) < m * m ->
  (ah = 0 \/ bh = 0) /\ 0 <= al * bh /\ 0 <= ah * bl /\ q + al * bh + ah * bl < m
  /\ (ah * m + al) * (bh * m + bl) = (q + al * bh + ah * bl) * m + r.
Proof.
  intros Hm Hah Hal Hbh Hbl E Hr Hq Hlt.
  assert (A1 : 0 <= al * bh) by nia. assert (A2 : 0 <= ah * bl) by nia.
  assert (EQ : (ah * m + al) * (bh * m + bl) = (ah * bh) * (m * m) + (q + al * bh + ah * bl) * m + r) by nia.
  assert (A3 : ah * bh = 0).
  { assert (0 <= ah * bh) by nia. destruct (Z.eq_dec (ah * bh) 0); auto.
    exfalso. assert (1 <= ah * bh) by lia.
    assert (m * m <= ah * bh * (m * m)) by nia. nia. }
  rewrite A3 in EQ. split. nia. repeat split; auto; nia.
Qed.

Lemma H_mul a b : 0 <= a < M * M -> 0 <= b < M * M -> a * b < M * M ->
  uint_mul (of_uint a) (of_uint b) = Some (of_uint (a * b)).
Proof.
  intros Ha Hb Hab. bnd. split_as a ah al Ea Hah Hal Oa. split_as b bh bl Eb Hbh Hbl Ob.
  rewrite Oa, Ob. unfold uint_mul; cbn [hi lo].
  rewrite (L_zero _ L), !(L_eqb _ L) by lia.
  assert (B1 := cmul_bound al bl 0 Hal Hbl ltac:(lia)). rewrite Z.add_0_r in B1.
  rewrite (L_wmul _ L) by auto.
  dm (al * bl) (2 ^ B).
  destruct (mul_fits M ah al bh bl q r) as (Z0 & N1 & N2 & LT & EQ); try lia.
  replace ((ah =? 0) || (bh =? 0)) with true.
  2: { destruct Z0 as [-> | ->]; cbn; auto. symmetry; apply orb_true_r. }
  cbn [assert]. rewrite !bind_Some.
  rewrite (L_omul _ L) by auto. rewrite bind_Some. rewrite leb_false by lia. cbn [negb assert]. rewrite bind_Some.
  rewrite (Z.mod_small (al * bh)) by lia.
  rewrite (L_oadd _ L) by lia. rewrite leb_false by lia. cbn [negb assert]. rewrite bind_Some.
  rewrite (L_omul _ L) by auto. rewrite bind_Some. rewrite leb_false by lia. cbn [negb assert]. rewrite bind_Some.
  rewrite (Z.mod_small (ah * bl)), (Z.mod_small (q + al * bh)) by lia.
  rewrite (L_oadd _ L) by lia. rewrite leb_false by lia. cbn [negb assert]. rewrite bind_Some.
  rewrite Z.mod_small by lia. f_equal. symmetry. apply of_uint_eq. congruence. lia.
Qed.

Lemma H_mul_panic a b : 0 <= a < M * M -> 0 <= b < M * M -> M * M <= a * b ->
  uint_mul (of_uint a) (of_uint b) = None.
Proof.
  intros Ha Hb Hab. bnd. split_as a ah al Ea Hah Hal Oa. split_as b bh bl Eb Hbh Hbl Ob.
  rewrite Oa, Ob. unfold uint_mul; cbn [hi lo].
  rewrite (L_zero _ L), !(L_eqb _ L) by lia.
  assert (B1 := cmul_bound al bl 0 Hal Hbl ltac:(lia)). rewrite Z.add_0_r in B1.
  rewrite (L_wmul _ L) by auto.
  dm (al * bl) (2 ^ B).
  destruct (Z.eqb_spec ah 0), (Z.eqb_spec bh 0); cbn [orb assert]; try reflexivity; rewrite ?bind_Some.
  - exfalso. subst ah bh. clear - Hab Ea Eb Hal Hbl. nia.
  - rewrite (L_omul _ L) by auto. rewrite bind_Some.
    destruct (Z.leb_spec M (al * bh)); cbn [negb assert bind]. reflexivity.
    assert (0 <= al * bh) by (clear - Hal Hbh; nia).
    rewrite (Z.mod_small (al * bh)) by lia.
    rewrite (L_oadd _ L) by lia. rewrite leb_true. reflexivity.
    subst ah. assert (a * b = (q + al * bh) * M + r) by (rewrite Ea, Eb; clear - E; nia).
    clear - Hab H5 Rg H2. nia.
  - subst bh. rewrite (L_omul _ L) by lia. rewrite bind_Some. rewrite Z.mul_0_r.
    rewrite leb_false by lia. cbn [negb assert]. rewrite bind_Some.
    rewrite Z.mod_0_l by lia. rewrite (L_oadd _ L) by lia. rewrite Z.add_0_r.
    rewrite leb_false by lia. cbn [negb assert]. rewrite bind_Some.
    rewrite (L_omul _ L) by lia. rewrite bind_Some.
    destruct (Z.leb_spec M (ah * bl)); cbn [negb assert bind]. reflexivity.
    assert (0 <= ah * bl) by (clear - Hah Hbl; nia).
    rewrite (Z.mod_small (ah * bl)), (Z.mod_small q) by lia.
    rewrite (L_oadd _ L) by lia. rewrite leb_true. reflexivity.
    assert (a * b = (q + ah * bl) * M + r) by (rewrite Ea, Eb; clear - E; nia).
    clear - Hab H5 Rg H2. nia.
Qed.

Lemma H_shl a n : 0 <= a < M * M -> 0 <= n < 2 * B ->
  uint_shl (of_uint a) n = Some (of_uint ((a * 2 ^ n) mod (M * M))).
Proof.
  intros Ha Hn. bnd. split_as a ah al Ea Hah Hal Oa. rewrite Oa. unfold uint_shl, uint_bits; cbn [hi lo].
  rewrite dassert_ok by (apply ltb_true; lia). rewrite bind_Some.
  destruct (Z.ltb_spec 0 n), (Z.ltb_spec n B); cbn [andb].
  - rewrite (D_widening_shl of L) by lia. rewrite bind_Some.
    assert (EM : M = 2 ^ n * 2 ^ (B - n)) by (apply pow2_split; lia).
    assert (0 < 2 ^ (B - n)) by (apply pow2_pos; lia).
    assert (0 < 2 ^ n) by (apply pow2_pos; lia).
    rewrite (D_carrying_shl of L); try lia. 2: apply div_bound; lia.
    rewrite bind_Some. f_equal.
    set (N := 2 ^ n) in *. set (K := 2 ^ (B - n)) in *.
    assert (El : (al * N) mod M = (al mod K) * N) by (apply shl_mod; lia).
    assert (Eh : (ah * N) mod M = (ah mod K) * N) by (apply shl_mod; lia).
    rewrite El, Eh. dm al K. dm ah K.
    assert (ES : (a * N) mod (M * M) = (r0 * N + q) * M + r * N).
    { apply mod_eq with q0. rewrite Ea, E0, E, EM. ring.
      assert (0 <= q < N). { clear - E Rg Hal EM H5 H6. nia. }
      apply cat_bound; rewrite EM. clear - Rg0 H7. nia. clear - Rg H6. nia. }
    assert (0 <= q < N). { clear - E Rg Hal EM H5 H6. nia. }
    rewrite ES. symmetry. apply of_uint_eq. reflexivity. rewrite EM. clear - Rg H6. nia.
  - destruct (Z.eqb_spec n B).
    + f_equal. subst n. rewrite (mod_MM _ (al + ah * M) 0) by nia.
      rewrite Z.mod_add, Z.mod_small by lia. rewrite (L_zero _ L). symmetry. apply of_uint_eq; lia.
    + rewrite ltb_true by lia. rewrite (L_shl _ L) by lia. rewrite bind_Some. f_equal.
      rewrite (mod_MM _ (a * 2 ^ (n - B)) 0).
      2: rewrite (pow2_split B n) by lia; ring.
      2: lia.
      rewrite (L_zero _ L). symmetry. rewrite (of_uint_eq _ ((a * 2 ^ (n - B)) mod M) 0) by lia.
      f_equal. f_equal. rewrite Ea. rewrite <- (Z.mul_mod_idemp_l (ah * M + al)) by lia.
      rewrite (Z.add_comm (ah * M)), Z.mod_add, (Z.mod_small al) by lia. reflexivity.
  - destruct (Z.eqb_spec n B); [lia|]. rewrite ltb_false by lia.
    assert (n = 0) by lia. subst n. rewrite Z.pow_0_r, Z.mul_1_r, Z.mod_small by lia. rewrite Oa. reflexivity.
  - lia.
Qed.

Lemma H_shr a n : 0 <= a < M * M -> 0 <= n < 2 * B ->
  uint_shr (of_uint a) n = Some (of_uint (a / 2 ^ n)).
Proof.
  intros Ha Hn. bnd. split_as a ah al Ea Hah Hal Oa. rewrite Oa. unfold uint_shr, uint_bits; cbn [hi lo].
  rewrite dassert_ok by (apply ltb_true; lia). rewrite bind_Some.
  destruct (Z.ltb_spec 0 n), (Z.ltb_spec n B); cbn [andb].
  - rewrite (D_widening_shr of L) by lia. rewrite bind_Some.
    assert (EM : M = 2 ^ n * 2 ^ (B - n)) by (apply pow2_split; lia).
    assert (0 < 2 ^ (B - n)) by (apply pow2_pos; lia).
    assert (0 < 2 ^ n) by (apply pow2_pos; lia).
    rewrite shl_mod by lia. replace (B - (B - n)) with n by lia.
    rewrite (D_carrying_shr of L); try lia. 2: apply Z.mod_pos_bound; lia.
    rewrite bind_Some. f_equal.
    set (N := 2 ^ n) in *. set (K := 2 ^ (B - n)) in *.
    dm ah N. dm al N.
    assert (ES : a / N = q * M + (r * K + q0)).
    { apply div_eq with r0. rewrite Ea, E0, E, EM. ring. lia. }
    assert (0 <= q0 < K). { clear - E0 Rg0 Hal EM H5 H6. nia. }
    rewrite ES. symmetry. apply of_uint_eq. reflexivity. rewrite EM, Z.mul_comm. clear - Rg H7 H5. nia.
  - destruct (Z.eqb_spec n B).
    + f_equal. subst n. rewrite (div_eq a M ah al) by lia. rewrite (L_zero _ L). symmetry. apply of_uint_eq; lia.
    + rewrite ltb_true by lia. rewrite (L_shr _ L) by lia. rewrite bind_Some. f_equal.
      rewrite (pow2_split B n) by lia. rewrite <- Z.div_div by (try apply pow2_pos; lia).
      rewrite (div_eq a M ah al) by lia. rewrite (L_zero _ L). symmetry. apply of_uint_eq. lia.
      pose proof (pow2_pos (n - B) ltac:(lia)).
      split. apply Z.div_pos; lia. apply Z.le_lt_trans with ah; [|lia]. apply Z.div_le_upper_bound; nia.
  - destruct (Z.eqb_spec n B); [lia|]. rewrite ltb_false by lia.
    assert (n = 0) by lia. subst n. rewrite Z.pow_0_r, Z.div_1_r by lia. rewrite Oa. reflexivity.
  - lia.
Qed.

Lemma H_and a b : 0 <= a < M * M -> 0 <= b < M * M ->
  uint_and (of_uint a) (of_uint b) = of_uint (Z.land a b).
Proof.
  intros Ha Hb. bnd. split_as a ah al Ea Hah Hal Oa. split_as b bh bl Eb Hbh Hbl Ob.
  rewrite Oa, Ob. unfold uint_and; cbn [hi lo]. rewrite !(L_and _ L) by auto.
  rewrite Ea, Eb, land_split by lia. symmetry. apply of_uint_eq. reflexivity. apply land_bound; lia.
Qed.
Lemma H_or a b : 0 <= a < M * M -> 0 <= b < M * M ->
  uint_or (of_uint a) (of_uint b) = of_uint (Z.lor a b).
Proof.
  intros Ha Hb. bnd. split_as a ah al Ea Hah Hal Oa. split_as b bh bl Eb Hbh Hbl Ob.
  rewrite Oa, Ob. unfold uint_or; cbn [hi lo]. rewrite !(L_or _ L) by auto.
  rewrite Ea, Eb, lor_split by lia. symmetry. apply of_uint_eq. reflexivity. apply lor_bound; lia.
Qed.

Lemma H_of_u128 v : 0 <= v < 2 ^ 128 -> uint_of_u128 v = of_uint v.
Proof.
  intros. bnd. unfold uint_of_u128. rewrite (L_zero _ L), (L_of_u128 _ L) by auto.
  symmetry. apply of_uint_eq; lia.
Qed.

Lemma H_hi a : 0 <= a < M * M -> uint_hi (of_uint a) = of_uint (a / M).
Proof.
  intros Ha. bnd. split_as a ah al Ea Hah Hal Oa. rewrite Oa. unfold uint_hi; cbn [hi lo].
  rewrite (L_zero _ L). rewrite (div_eq a M ah al) by auto. symmetry. apply of_uint_eq; lia.
Qed.
Lemma H_lo a : 0 <= a < M * M -> uint_lo (of_uint a) = of_uint (a mod M).
Proof.
  intros Ha. bnd. split_as a ah al Ea Hah Hal Oa. rewrite Oa. unfold uint_lo; cbn [hi lo].
  rewrite (L_zero _ L). rewrite (mod_eq a M ah al) by auto. symmetry. apply of_uint_eq; lia.
Qed.
Lemma H_lolo a b : 0 <= a < M * M -> 0 <= b < M * M ->
  uint_lolo (of_uint a) (of_uint b) = of_uint ((a mod M) * M + b mod M).
Proof.
  intros Ha Hb. bnd. split_as a ah al Ea Hah Hal Oa. split_as b bh bl Eb Hbh Hbl Ob.
  rewrite Oa, Ob. unfold uint_lolo; cbn [hi lo].
  rewrite (mod_eq a M ah al), (mod_eq b M bh bl) by auto. symmetry. apply of_uint_eq; lia.
Qed.

Lemma fold_vec l : forall acc,
  fold_left (fun acc d => acc * 2 ^ 128 + d) l acc = acc * 2 ^ (128 * Z.of_nat (length l)) + vec_val l.
Proof.
  unfold vec_val. induction l as [|d l IH]; intros acc; cbn [fold_left length].
  - change (128 * Z.of_nat 0) with 0. lia.
  - rewrite IH. rewrite (IH (0 * 2 ^ 128 + d)).
    replace (128 * Z.of_nat (S (length l))) with (128 + 128 * Z.of_nat (length l)) by lia.
    rewrite pow2_add by lia. ring.
Qed.

Lemma vec_val_app l1 l2 : vec_val (l1 ++ l2) = vec_val l1 * 2 ^ (128 * Z.of_nat (length l2)) + vec_val l2.
Proof. unfold vec_val at 1. rewrite fold_left_app. apply fold_vec. Qed.

Lemma vec_val_bound l : Forall digit128 l -> 0 <= vec_val l < 2 ^ (128 * Z.of_nat (length l)).
Proof.
  induction l as [|d l IH]; intros F.
  - cbn. lia.
  - inversion F as [|? ? Hd Hl]; subst. specialize (IH Hl).
    change (d :: l) with ([d] ++ l). rewrite vec_val_app, app_length.
    change (vec_val [d]) with (0 * 2 ^ 128 + d). change (length [d]) with 1%nat.
    replace (128 * Z.of_nat (1 + length l)) with (128 + 128 * Z.of_nat (length l)) by lia.
    rewrite pow2_add by lia. unfold digit128 in Hd. nia.
Qed.

Lemma H_vec a : 0 <= a < M * M ->
  vec_val (uint_as_vec (of_uint a)) = a /\ Forall digit128 (uint_as_vec (of_uint a))
  /\ Z.of_nat (length (uint_as_vec (of_uint a))) * 128 = 2 * B.
Proof.
  intros Ha. bnd. split_as a ah al Ea Hah Hal Oa. rewrite Oa. unfold uint_as_vec; cbn [hi lo].
  destruct (L_vec _ L ah Hah) as (V1 & F1 & N1). destruct (L_vec _ L al Hal) as (V2 & F2 & N2).
  split; [|split].
  - rewrite vec_val_app, V1, V2. rewrite (Z.mul_comm 128), N2. lia.
  - apply Forall_app; auto.
  - rewrite app_length. lia.
Qed.

Lemma H_of_vec l : Forall digit128 l -> Z.of_nat (length l) * 128 = 2 * B ->
  uint_of_vec l = Some (of_uint (vec_val l)).
Proof.
  intros F N. bnd. unfold uint_of_vec.
  set (n := Nat.div2 (length l)).
  pose proof (L_bits _ L) as EB.
  assert (Hn : Z.of_nat n * 128 = B /\ length l = (n + n)%nat).
  { assert (Hm : exists m, B = Z.of_nat m * 128).
    { destruct (L_vec _ L 0 ltac:(lia)) as (_ & _ & K). eexists; symmetry; exact K. }
    destruct Hm as [m Hm]. assert (length l = (m + m)%nat) by lia.
    assert (n = m). { unfold n. rewrite H3. replace (m + m)%nat with (2 * m)%nat by lia. apply Nat.div2_double. }
    subst m. split; lia. }
  destruct Hn as [Hn1 Hn2].
  assert (L1 : length (firstn n l) = n) by (rewrite firstn_length; lia).
  assert (L2 : length (skipn n l) = n) by (rewrite skipn_length; lia).
  rewrite <- (firstn_skipn n l) in F. apply Forall_app in F. destruct F as [F1 F2].
  rewrite (L_of_vec _ L) by (auto; rewrite L1; lia). rewrite bind_Some.
  rewrite (L_of_vec _ L) by (auto; rewrite L2; lia). rewrite bind_Some. f_equal.
  rewrite <- (firstn_skipn n l) at 3. rewrite vec_val_app, L2.
  replace (128 * Z.of_nat n) with B by lia.
  symmetry. apply of_uint_eq. reflexivity.
  pose proof (vec_val_bound _ F2) as V. rewrite L2 in V. replace (128 * Z.of_nat n) with B in V by lia. exact V.
Qed.

(** *** Division *)

Local Notation n := (B / 2).

Lemma nB : B = 2 * n. Proof. exact (L_bits _ L). Qed.
Lemma n_pos : 64 <= n. Proof. pose proof nB. bnd. lia. Qed.
Lemma M_nn : M = 2 ^ n * 2 ^ n.
Proof. pose proof n_pos. rewrite <- pow2_add by lia. f_equal. pose proof nB. lia. Qed.

Lemma special_pure s q rhat xd y1 y0 X : 0 <= xd < s -> 0 <= y0 < s -> 0 <= q <= s + 1 ->
  1 <= q -> q * y1 + rhat = X -> s <= rhat + y1 ->
  (q - 1) * (y1 * s + y0) <= X * s + xd.
Proof.
  intros. assert ((q - 1) * y1 = X - (rhat + y1)) by lia.
  assert ((q - 1) * y0 <= s * y0) by nia.
  assert (s * y0 <= s * s) by nia.
  replace ((q - 1) * (y1 * s + y0)) with ((q - 1) * y1 * s + (q - 1) * y0) by ring.
  rewrite H5. nia.
Qed.

Section Special.
(** Normalised divisor y = y1 * S + y0 with S = 2^n. *)
Local Notation S := (2 ^ n).
Variables y1 y0 : Z.
Hypothesis Hy1 : 2 ^ (n - 1) <= y1 < S.
Hypothesis Hy0 : 0 <= y0 < S.

Lemma S2 : S = 2 * 2 ^ (n - 1).
Proof. pose proof n_pos. rewrite <- pow2_S by lia. f_equal; lia. Qed.

(** The correction loop finds the true quotient digit. *)
Lemma special_loop_ok fuel : forall q rhat X xd,
  0 <= xd < S -> 0 <= X -> X < y1 * S + y0 ->
  q * y1 + rhat = X -> 0 <= rhat < S -> 0 <= q <= S + 1 ->
  (X * S + xd) / (y1 * S + y0) <= q ->
  S <= rhat + Z.of_nat fuel * 2 ^ (n - 1) ->
  exists rhat', special_loop fuel (of q) (of rhat) (of y1) (of y0) (of S) (of xd)
    = Some (of ((X * S + xd) / (y1 * S + y0)), rhat').
Proof.
  pose proof n_pos. pose proof nB. pose proof S2. pose proof M_nn as EM.
  assert (S0 : 0 < 2 ^ (n - 1)) by (apply pow2_pos; lia).
  assert (S4 : 4 <= S). { rewrite S2. assert (2 ^ 1 <= 2 ^ (n - 1)) by (apply pow2_le; lia). lia. }
  assert (SM : S + 2 < M) by (rewrite EM; clear - S4; nia).
  induction fuel as [|fuel IH]; intros q rhat X xd Hxd HX HXy Eq Hr Hq Hle Hf.
  { exfalso. lia. }
  cbn [special_loop].
  set (y := y1 * S + y0) in *. set (N := X * S + xd) in *.
  assert (Hy : 0 < y) by (unfold y; clear - Hy1 Hy0 S0 S4; nia).
  assert (HN : 0 <= N < y * S) by (unfold N; clear - HXy HX Hxd; nia).
  assert (Hqt : 0 <= N / y < S).
  { split. apply Z.div_pos; lia. apply Z.div_lt_upper_bound; lia. }
  assert (qlo : forall q', q' * y <= N -> q' <= N / y).
  { intros q' E. apply Z.div_le_lower_bound; lia. }
  assert (qhi : forall q', N < q' * y -> N / y <= q' - 1).
  { intros q' E. cut (N / y < q'). lia. apply Z.div_lt_upper_bound; lia. }
  (* the loop condition decides q > N / y *)
  assert (COND : (if uge (of q) (of S) then Some true
       else let! a := umul (of q) (of y0) in let! b := umul (of rhat) (of S) in
            let! b := uadd b (of xd) in Some (ugt a b))
       = Some (if S <=? q then true else N <? q * y)).
  { rewrite (D_uge of L) by lia. destruct (Z.leb_spec S q); auto.
    assert (R1 : 0 <= q * y0 < M) by (rewrite EM; clear - Hq Hy0 H2; nia).
    assert (R2 : 0 <= rhat * S + xd < M) by (rewrite EM; apply cat_bound; lia).
    assert (R3 : 0 <= rhat * S) by (clear - Hr S4; nia).
    rewrite (L_mul _ L) by lia. rewrite bind_Some.
    rewrite (L_mul _ L) by lia. rewrite bind_Some.
    rewrite (L_add _ L) by lia. rewrite bind_Some.
    rewrite (D_ugt of L) by lia. f_equal.
    replace N with (q * y1 * S + (rhat * S + xd)) by (unfold N; rewrite <- Eq; ring).
    replace (q * y) with (q * y1 * S + q * y0) by (unfold y; ring).
    destruct (Z.ltb_spec (rhat * S + xd) (q * y0)), (Z.ltb_spec (q * y1 * S + (rhat * S + xd)) (q * y1 * S + q * y0)); auto; lia. }
  rewrite COND, bind_Some.
  destruct (if S <=? q then true else N <? q * y) eqn:EC.
  - assert (Hlt : N / y <= q - 1).
    { destruct (Z.leb_spec S q). lia. apply qhi. apply Z.ltb_lt in EC. lia. }
    assert (1 <= q) by lia.
    rewrite (L_decr _ L) by lia. rewrite (Z.mod_small (q - 1)) by lia.
    assert (2 * S <= M) by (rewrite EM; clear - S4; nia).
    rewrite (L_add _ L) by lia. rewrite bind_Some.
    rewrite (D_uge of L) by lia.
    destruct (Z.leb_spec S (rhat + y1)).
    + exists (of (rhat + y1)). do 2 f_equal. f_equal.
      assert (q - 1 <= N / y); [|lia].
      apply qlo. apply (special_pure S q rhat xd y1 y0 X); lia.
    + rewrite Nat2Z.inj_succ, Z.mul_succ_l in Hf. apply IH; try lia. exact Hlt.
  - exists (of rhat). do 2 f_equal. f_equal.
    destruct (Z.leb_spec S q); [discriminate|]. apply Z.ltb_ge in EC.
    assert (q <= N / y) by (apply qlo; lia). lia.
Qed.

(** One digit of the division: estimate and correction. *)
Lemma special_digit X xd : 0 <= xd < S -> 0 <= X -> X < y1 * S + y0 ->
  exists rhat',
  (let! (q, rhat) := div_rem (of X) (of y1) in
   special_loop 4 q rhat (of y1) (of y0) (of S) (of xd))
  = Some (of ((X * S + xd) / (y1 * S + y0)), rhat').
Proof.
  intros Hxd HX HXy. pose proof n_pos. pose proof S2. pose proof M_nn as EM.
  assert (S0 : 0 < 2 ^ (n - 1)) by (apply pow2_pos; lia).
  assert (XM : X < M). { rewrite EM. pose proof (cat_bound y1 y0 S). lia. }
  rewrite (L_div_half _ L) by lia. rewrite bind_Some.
  assert (Hq : 0 <= X / y1 <= S + 1).
  { split. apply Z.div_pos; lia. cut (X / y1 < S + 2). lia. apply Z.div_lt_upper_bound. lia.
    clear - HXy Hy0 Hy1 H0. nia. }
  dm X y1.
  apply special_loop_ok; try lia.
  cut ((X * S + xd) / (y1 * S + y0) < q + 1). lia.
  assert (0 < y1 * S + y0) by (clear - Hy1 Hy0 S0; nia).
  apply Z.div_lt_upper_bound. lia.
  assert (X + 1 <= (q + 1) * y1) by lia.
  clear - Hxd H2 Hy0 Hq. nia.
Qed.

End Special.

Lemma special_t_pure s m x32 x1 y qd t :
  m = s * s -> 0 < s -> 0 <= x1 < s -> x32 * s + x1 = y * qd + t -> 0 <= t < m ->
  (x32 mod s * s + x1 mod s - (qd * y) mod m) mod m = t.
Proof.
  intros -> Hs Hx1 E Ht. rewrite Zminus_mod_idemp_r. rewrite (Z.mod_small x1) by lia.
  apply mod_eq with (- (x32 / s)); auto.
  pose proof (Z.div_mod x32 s ltac:(lia)). nia.
Qed.

(** Knuth division of a double-width value by a single-width one whose quotient
    fits. *)
Lemma special_ok a b : 0 <= a -> 0 < b < M -> a < b * M ->
  div_rem_special (of_uint a) (of b) = Some (of_uint (a / b), of (a mod b)).
Proof.
  intros Ha Hb Hab. bnd. pose proof n_pos as Hn. pose proof nB as HnB. pose proof M_nn as EM.
  set (S := 2 ^ n) in *.
  assert (Ha' : 0 <= a < M * M) by (clear - Ha Hab Hb; nia).
  destruct (split_val a Ha') as (ah & al & Ea & Hah & Hal & Oa).
  unfold div_rem_special. change (hi (of_uint a)) with (of (a / M)).
  rewrite (div_eq a M ah al) by auto.
  rewrite (D_ult of L) by lia.
  rewrite dassert_ok. 2: { apply ltb_true. clear - Hab Ea Hal H2. nia. }
  rewrite bind_Some. rewrite (L_one _ L), (L_shl _ L) by lia. rewrite bind_Some.
  rewrite Z.mul_1_l, (Z.mod_small (2 ^ n)) by (split; [apply Z.pow_nonneg; lia|apply pow2_lt; lia]).
  fold S. rewrite (L_lz _ L) by lia.
  pose proof (nlz_lt B b ltac:(lia) Hb) as Hs.
  pose proof (nlz_shift B b ltac:(lia) Hb) as Hy.
  set (sh := nlz B b) in *. clearbody sh.
  rewrite H_shl by lia. rewrite bind_Some. rewrite (L_shl _ L) by lia. rewrite bind_Some.
  assert (H127 : 0 < 2 ^ (B - 1)) by (apply pow2_pos; lia).
  rewrite (Z.mod_small (b * 2 ^ sh)) by lia.
  assert (P0 : 0 < 2 ^ sh) by (apply pow2_pos; lia).
  assert (Hx : 0 <= a * 2 ^ sh < b * 2 ^ sh * M) by (clear - Ha Hab P0; nia).
  set (y := b * 2 ^ sh) in *.
  assert (HxMM : a * 2 ^ sh < M * M) by (clear - Hx Hy H2; nia).
  rewrite (Z.mod_small (a * 2 ^ sh)) by lia.
  destruct (split_val (a * 2 ^ sh) ltac:(lia)) as (x32 & xl & Ex & Hx32 & Hxl & Ox).
  rewrite Ox. cbn [hi lo].
  rewrite (L_hi _ L), (L_lo _ L), (L_hi _ L), (L_lo _ L) by lia. fold S.
  assert (S0 : 0 < S) by (apply pow2_pos; lia).
  assert (Hx1 : 0 <= xl / S < S) by (apply div_bound; lia).
  assert (Hy1 : 2 ^ (n - 1) <= y / S < S).
  { split. apply Z.div_le_lower_bound. lia.
    replace (S * 2 ^ (n - 1)) with (2 ^ (B - 1)). lia. unfold S. rewrite <- pow2_add by lia. f_equal. lia.
    apply Z.div_lt_upper_bound; lia. }
  pose proof (Z.mod_pos_bound y S S0) as Hy0.
  pose proof (Z.mod_pos_bound xl S S0) as Hx0.
  pose proof (Z.div_mod y S ltac:(lia)) as Ey. rewrite (Z.mul_comm S) in Ey.
  pose proof (Z.div_mod xl S ltac:(lia)) as Exl.
  set (y1 := y / S) in *. set (y0 := y mod S) in *. set (x1 := xl / S) in *. set (x0 := xl mod S) in *.
  clearbody y1 y0 x1 x0.
  assert (HXy' : x32 < y) by (clear - Hx Ex Hxl H2; nia).
  assert (HXy : x32 < y1 * S + y0) by lia.
  destruct (special_digit y1 y0 Hy1 Hy0 x32 x1 ltac:(lia) ltac:(lia) HXy) as [rh1 D1].
  fold S in D1.
  destruct (div_rem (of x32) (of y1)) as [[q1e r1e]|] eqn:ED1; [|discriminate D1].
  rewrite ?bind_Some in D1. rewrite ?bind_Some. rewrite D1, bind_Some. clear D1 ED1.
  rewrite <- Ey.
  assert (SM : S <= M) by (rewrite EM; clear - S0; nia).
  set (N1 := x32 * S + x1).
  assert (HN1 : 0 <= N1 < y * S) by (apply cat_bound2; lia).
  assert (Hq1 : 0 <= N1 / y < S) by (split; [apply Z.div_pos|apply Z.div_lt_upper_bound]; lia).
  rewrite (L_lolo _ L) by lia. fold S.
  rewrite (D_wrapping_mul of L) by lia. rewrite bind_Some.
  assert (B0 : 0 <= x32 mod S * S + x1 mod S < M).
  { pose proof (Z.mod_pos_bound x32 S S0). pose proof (Z.mod_pos_bound x1 S S0). rewrite EM. apply cat_bound; lia. }
  rewrite (L_wsub _ L) by (auto; lia).
  pose proof (Z.mod_pos_bound N1 y ltac:(lia)) as Ht.
  pose proof (Z.div_mod N1 y ltac:(lia)) as EN1.
  assert (Et : (x32 mod S * S + x1 mod S - (N1 / y * y) mod M) mod M = N1 mod y).
  { apply special_t_pure; auto. lia. }
  rewrite Et. set (t := N1 mod y) in *. set (q1 := N1 / y) in *. clearbody t q1.
  assert (HTy : t < y1 * S + y0) by lia.
  destruct (special_digit y1 y0 Hy1 Hy0 t x0 ltac:(lia) ltac:(lia) HTy) as [rh0 D0].
  fold S in D0.
  destruct (div_rem (of t) (of y1)) as [[q0e r0e]|] eqn:ED0; [|discriminate D0].
  rewrite ?bind_Some in D0. rewrite ?bind_Some. rewrite D0, bind_Some. clear D0 ED0.
  rewrite <- Ey.
  set (N0 := t * S + x0).
  assert (HN0 : 0 <= N0 < y * S) by (apply cat_bound2; lia).
  assert (Hq0 : 0 <= N0 / y < S) by (split; [apply Z.div_pos|apply Z.div_lt_upper_bound]; lia).
  rewrite (L_shl _ L) by lia. rewrite bind_Some. fold S.
  pose proof (cat_bound q1 (N0 / y) S Hq1 Hq0) as CB. rewrite <- EM in CB.
  assert (0 <= q1 * S) by (clear - Hq1 S0; nia).
  rewrite (Z.mod_small (q1 * S)) by lia.
  rewrite (L_add _ L) by lia. rewrite bind_Some.
  rewrite (L_lolo _ L) by lia. fold S.
  rewrite (D_wrapping_mul of L) by lia. rewrite bind_Some.
  assert (B1 : 0 <= t mod S * S + x0 mod S < M).
  { pose proof (Z.mod_pos_bound t S S0). pose proof (Z.mod_pos_bound x0 S S0). rewrite EM. apply cat_bound; lia. }
  rewrite (L_wsub _ L) by (auto; lia).
  pose proof (Z.mod_pos_bound N0 y ltac:(lia)) as Hr.
  pose proof (Z.div_mod N0 y ltac:(lia)) as EN0.
  assert (Er : (t mod S * S + x0 mod S - (N0 / y * y) mod M) mod M = N0 mod y).
  { apply special_t_pure; auto. lia. }
  rewrite Er. rewrite (L_shr _ L) by lia. rewrite bind_Some.
  (* the whole division *)
  assert (EA : a * 2 ^ sh = (q1 * S + N0 / y) * y + N0 mod y).
  { rewrite Ex, EM, Exl. unfold N1 in EN1. set (q0 := N0 / y) in *. set (r0 := N0 mod y) in *.
    unfold N0 in EN0. clear - EN1 EN0.
    replace (x32 * (S * S) + (S * x1 + x0)) with ((x32 * S + x1) * S + x0) by ring.
    rewrite EN1. replace ((y * q1 + t) * S + x0) with (y * q1 * S + (t * S + x0)) by ring. rewrite EN0. ring. }
  assert (Er2 : N0 mod y = (a mod b) * 2 ^ sh).
  { rewrite <- (mod_eq _ _ _ _ EA) by lia. unfold y. apply Z.mul_mod_distr_r; lia. }
  assert (Eq2 : q1 * S + N0 / y = a / b).
  { rewrite <- (div_eq _ _ _ _ EA) by lia. unfold y. apply Z.div_mul_cancel_r; lia. }
  rewrite Er2, Eq2, Z.div_mul by lia.
  rewrite (L_zero _ L). do 2 f_equal. symmetry. apply of_uint_eq. lia. lia.
Qed.

(** Division by the half-width type, given that the half-width type itself
    divides correctly where that is used. *)
Lemma div_rem_sub_ok a b : 0 <= a < M * M -> 0 < b < M ->
  (a < M -> div_rem (of a) (of b) = Some (of (a / b), of (a mod b))) ->
  (b <= a / M -> div_rem (of (a / M)) (of b) = Some (of (a / M / b), of ((a / M) mod b))) ->
  div_rem_sub (of_uint a) (of b) = Some (of_uint (a / b), of (a mod b)).
Proof.
  intros Ha Hb D1 D2. bnd. destruct (split_val a Ha) as (ah & al & Ea & Hah & Hal & Oa).
  rewrite Oa. unfold div_rem_sub; cbn [hi lo].
  rewrite (D_is_zero of L) by auto. rewrite (D_ult of L) by lia.
  assert (EM : a / M = ah) by (apply div_eq with al; auto).
  destruct (Z.eqb_spec ah 0).
  - assert (a = al) by lia. subst al. rewrite D1 by lia. rewrite bind_Some.
    rewrite (L_zero _ L). do 2 f_equal. symmetry. apply of_uint_eq. lia.
    split. apply Z.div_pos; lia. apply Z.le_lt_trans with a; [|lia]. apply Z.div_le_upper_bound; [lia|]. clear - Ha Hb. nia.
  - destruct (Z.ltb_spec ah b).
    + rewrite <- Oa. apply special_ok; try lia. rewrite Ea. clear - Hal H3 H2. nia.
    + unfold urem. rewrite EM in D2. rewrite D2 by lia. rewrite !bind_Some.
      pose proof (Z.mod_pos_bound ah b ltac:(lia)).
      assert (Hh : 0 <= ah / b < M).
      { split. apply Z.div_pos; lia. apply Z.le_lt_trans with ah; [|lia]. apply Z.div_le_upper_bound; [lia|]. clear - Hah Hb. nia. }
      rewrite <- (of_uint_eq ((ah mod b) * M + al) (ah mod b) al) by auto.
      assert (Hx : 0 <= (ah mod b) * M + al < b * M) by (apply cat_bound2; lia).
      rewrite special_ok by lia. rewrite !bind_Some.
      set (x := ah mod b * M + al) in *.
      assert (Hq : 0 <= x / b < M) by (apply div_bound; lia).
      rewrite (of_uint_eq (x / b) 0 (x / b)) by lia. cbn [lo].
      assert (EA : a = (ah / b * M + x / b) * b + x mod b).
      { pose proof (Z.div_mod ah b ltac:(lia)). pose proof (Z.div_mod x b ltac:(lia)).
        assert (EE : a = ah / b * M * b + x). { unfold x. clear - Ea H5. set (q := ah / b) in *. set (r := ah mod b) in *. rewrite Ea, H5. ring. }
        rewrite EE. rewrite H6 at 1. ring. }
      pose proof (Z.mod_pos_bound x b ltac:(lia)).
      rewrite (mod_eq _ _ _ _ EA), (div_eq _ _ _ _ EA) by auto.
      do 2 f_equal. symmetry. apply of_uint_eq; auto.
Qed.

(** Division by a normalised half-width value. *)
Lemma H_div_half_fuel f a b : 0 <= a < M * M -> 2 ^ (B - 1) <= b < M ->
  uint_div_rem_fuel (S f) (of_uint a) (of_uint b) = Some (of_uint (a / b), of_uint (a mod b)).
Proof.
  intros Ha Hb. bnd. assert (0 < 2 ^ (B - 1)) by (apply pow2_pos; lia).
  cbn [uint_div_rem_fuel].
  assert (M <= M * M) by (clear - H2; nia). rewrite H_zero, H_eqb by lia. rewrite dassert_ok by (destruct (Z.eqb_spec b 0); lia).
  rewrite bind_Some. rewrite (of_uint_eq b 0 b) by lia. cbn [hi lo].
  rewrite (D_is_zero of L) by lia. change (0 =? 0) with true. cbv iota.
  rewrite div_rem_sub_ok; try lia.
  - rewrite bind_Some, (L_zero _ L). do 2 f_equal. symmetry. apply of_uint_eq. lia.
    pose proof (Z.mod_pos_bound a b). lia.
  - intros. apply (L_div_full _ L); lia.
  - intros. apply (L_div_full _ L); try lia. apply div_bound; lia.
Qed.

Lemma H_div_half a b : 0 <= a < M * M -> 2 ^ (B - 1) <= b < M ->
  uint_div_rem (of_uint a) (of_uint b) = Some (of_uint (a / b), of_uint (a mod b)).
Proof. exact (H_div_half_fuel 63 a b). Qed.

Lemma shl_fits m sh b ah h l : 0 < m -> 0 <= sh <= b -> m = 2 ^ b -> ah * 2 ^ sh < m -> 0 <= h <= ah -> 0 <= l < m ->
  (h * m + l) * 2 ^ sh < m * m.
Proof.
  intros Hm Hsh Em Hah Hh Hl.
  assert (EM : m = 2 ^ sh * 2 ^ (b - sh)) by (rewrite Em; apply pow2_split; lia).
  assert (0 < 2 ^ sh) by (apply pow2_pos; lia). assert (0 < 2 ^ (b - sh)) by (apply pow2_pos; lia).
  set (p := 2 ^ sh) in *. set (k := 2 ^ (b - sh)) in *.
  assert (ah + 1 <= k) by (clear - Hah EM H; nia).
  assert (h * m + l < k * m) by (clear - Hh Hl H1; nia).
  replace (m * m) with ((k * m) * p) by (rewrite EM at 3; ring). nia.
Qed.

Lemma shl_div_bounds m p h l : 0 < m -> 0 < p -> 0 <= l < m ->
  h * p <= (h * m + l) * p / m < h * p + p.
Proof.
  intros. split. apply Z.div_le_lower_bound. lia. nia. apply Z.div_lt_upper_bound. lia. nia.
Qed.

(** Dividing a smaller by a larger full-width value. *)
Lemma div_rem_lt fuel a b : 0 <= a -> a < b -> M <= b < M * M ->
  uint_div_rem_fuel (S (S (S fuel))) (of_uint a) (of_uint b) = Some (of_uint 0, of_uint a).
Proof.
  intros Ha Hab Hb. bnd. assert (MMM : M <= M * M) by (clear - H2; nia).
  assert (step1 : forall fuel a, 0 <= a -> a / M < b / M ->
            uint_div_rem_fuel (S fuel) (of_uint a) (of_uint b) = Some (of_uint 0, of_uint a)).
  { intros f a' Ha' Hlt. cbn [uint_div_rem_fuel].
    assert (Hbb : b / M < M) by (apply Z.div_lt_upper_bound; lia).
    assert (a' < M * M).
    { assert (a' / M < M) by lia. pose proof (Z.div_mod a' M ltac:(lia)). pose proof (modM' a').
      clear - H3 H4 H5. nia. }
    rewrite H_zero, H_eqb by lia. rewrite dassert_ok by (destruct (Z.eqb_spec b 0); lia). rewrite bind_Some.
    destruct (split_val b ltac:(lia)) as (bh & bl & Eb & Hbh & Hbl & Ob).
    destruct (split_val a' ltac:(lia)) as (ah & al & Ea & Hah & Hal & Oa).
    rewrite Ob, Oa. cbn [hi lo].
    rewrite (div_eq b M bh bl), (div_eq a' M ah al) in Hlt by auto.
    rewrite (D_is_zero of L) by auto. destruct (Z.eqb_spec bh 0); [lia|].
    rewrite (D_ugt of L) by auto. rewrite ltb_true by lia. rewrite <- H_zero. reflexivity. }
  destruct (Z.lt_ge_cases (a / M) (b / M)) as [Hlt|Hge].
  { apply step1; auto. }
  set (F := S (S fuel)).
  assert (HF : forall a, 0 <= a -> a / M < b / M ->
            uint_div_rem_fuel F (of_uint a) (of_uint b) = Some (of_uint 0, of_uint a)) by (apply step1).
  clearbody F. clear step1.
  destruct (split_val b ltac:(lia)) as (bh & bl & Eb & Hbh & Hbl & Ob).
  destruct (split_val a ltac:(lia)) as (ah & al & Ea & Hah & Hal & Oa).
  rewrite (div_eq b M bh bl) in * by auto. rewrite (div_eq a M ah al) in Hge by auto.
  assert (ah = bh).
  { assert (ah <= bh); [|lia]. clear - Hab Ea Eb Hal Hbl. nia. }
  subst ah.
  assert (Hbh' : 0 < bh) by (clear - Hb Eb Hbh Hbl; nia).
  cbn [uint_div_rem_fuel]. rewrite H_zero, H_eqb by lia.
  rewrite dassert_ok by (destruct (Z.eqb_spec b 0); lia). rewrite bind_Some.
  change (hi (of_uint b)) with (of (b / M)). change (hi (of_uint a)) with (of (a / M)).
  rewrite !(div_eq b M bh bl), !(div_eq a M bh al) by auto.
  rewrite (D_is_zero of L) by auto. destruct (Z.eqb_spec bh 0); [lia|].
  rewrite (D_ugt of L) by auto. rewrite ltb_false by lia.
  rewrite (L_lz _ L) by auto.
  pose proof (nlz_lt B bh ltac:(lia) ltac:(lia)) as Hs.
  pose proof (nlz_shift B bh ltac:(lia) ltac:(lia)) as Hy.
  set (sh := nlz B bh) in *. clearbody sh.
  assert (P0 : 0 < 2 ^ sh) by (apply pow2_pos; lia).
  rewrite !H_shl by lia. rewrite !bind_Some.
  pose proof (shl_fits M sh B bh bh bl ltac:(lia) ltac:(lia) eq_refl ltac:(lia) ltac:(lia) Hbl) as SB.
  pose proof (shl_fits M sh B bh bh al ltac:(lia) ltac:(lia) eq_refl ltac:(lia) ltac:(lia) Hal) as SA.
  rewrite <- Eb in SB. rewrite <- Ea in SA.
  assert (0 <= a * 2 ^ sh) by (clear - Ha P0; nia).
  assert (0 <= b * 2 ^ sh) by (clear - Ha Hab P0; nia).
  rewrite !Z.mod_small by lia.
  change (hi (of_uint (a * 2 ^ sh))) with (of (a * 2 ^ sh / M)).
  change (hi (of_uint (b * 2 ^ sh))) with (of (b * 2 ^ sh / M)).
  pose proof (shl_div_bounds M (2 ^ sh) bh bl H2 P0 Hbl) as Q1.
  pose proof (shl_div_bounds M (2 ^ sh) bh al H2 P0 Hal) as Q2. rewrite <- Eb in Q1. rewrite <- Ea in Q2.
  assert (Mono : a * 2 ^ sh / M <= b * 2 ^ sh / M).
  { apply Z.div_le_mono. lia. clear - Hab P0. nia. }
  unfold udiv.
  assert (U1 : b * 2 ^ sh / M < M) by (apply Z.div_lt_upper_bound; lia).
  assert (0 < 2 ^ (B - 1)) by (apply pow2_pos; lia).
  rewrite (L_div_full _ L) by lia. rewrite !bind_Some.
  set (q := a * 2 ^ sh / M / (b * 2 ^ sh / M)).
  assert (Hqq : q = 0 \/ q = 1).
  { assert (0 <= q) by (apply Z.div_pos; lia). assert (q < 2) by (apply Z.div_lt_upper_bound; lia). lia. }
  rewrite (L_zero _ L). rewrite <- (of_uint_eq q 0 q) by lia.
  assert (BQ : 0 <= b * q <= b) by (destruct Hqq as [-> | ->]; lia).
  rewrite H_mul by lia. rewrite bind_Some. rewrite H_cmp by lia.
  clear BQ. clearbody q.
  destruct Hqq as [-> | ->]; rewrite ?Z.mul_0_r, ?Z.mul_1_r.
  - destruct (Z.compare_spec 0 a); try lia.
    rewrite H_oadd by lia. rewrite leb_false by lia. rewrite H_sub by lia. rewrite bind_Some.
      do 2 f_equal. f_equal. lia.
  - destruct (Z.compare_spec b a); try lia.
    rewrite H_sub by lia. rewrite bind_Some.
    rewrite HF. 2: lia. 2: { rewrite Z.div_small. lia. lia. }
    rewrite bind_Some. rewrite H_incr by lia. rewrite (Z.mod_small (0 + 1)) by lia.
    rewrite (of_uint_eq (0 + 1) 0 1) by lia. cbn [hi].
    rewrite (D_is_zero of L) by lia. rewrite dassert_ok by reflexivity. rewrite bind_Some.
    rewrite <- (of_uint_eq 1 0 1) by lia.
    rewrite H_sub by lia. rewrite bind_Some. rewrite H_mul by lia. rewrite bind_Some.
    rewrite H_sub by lia. rewrite bind_Some. rewrite H_sub by lia. rewrite bind_Some.
    do 2 f_equal; f_equal; lia.
Qed.

(** The quotient estimate of the full-width division. *)
Definition qest (a b : Z) : Z :=
  let sh := nlz B (a / M) in (a * 2 ^ sh / M) / (b * 2 ^ sh / M).

(** Full-width division with a divisor of more than half the width, when the
    estimate is at most one too large, does not overflow and is not misled by an
    exact multiple. *)
Lemma div_rem_full_ok fuel a b : 0 <= a < M * M -> M <= b < M * M ->
  b <= a ->
  udiv (of (a * 2 ^ nlz B (a / M) / M)) (of (b * 2 ^ nlz B (a / M) / M)) = Some (of (qest a b)) ->
  (qest a b = a / b \/ (qest a b = a / b + 1 /\ a mod b <> 0 /\ (a / b + 1) * b < M * M)) ->
  uint_div_rem_fuel (S (S (S (S fuel)))) (of_uint a) (of_uint b) = Some (of_uint (a / b), of_uint (a mod b)).
Proof.
  intros Ha Hb Hab Hud Hq. bnd. assert (MMM : M <= M * M) by (clear - H2; nia).
  set (F := S (S (S fuel))).
  assert (HF : forall a, 0 <= a < b ->
            uint_div_rem_fuel F (of_uint a) (of_uint b) = Some (of_uint 0, of_uint a)).
  { intros. apply div_rem_lt; lia. }
  clearbody F.
  destruct (split_val b ltac:(lia)) as (bh & bl & Eb & Hbh & Hbl & Ob).
  destruct (split_val a ltac:(lia)) as (ah & al & Ea & Hah & Hal & Oa).
  assert (EdA : a / M = ah) by (apply div_eq with al; auto).
  assert (EdB : b / M = bh) by (apply div_eq with bl; auto).
  assert (Hle : bh <= ah) by (rewrite <- EdA, <- EdB; apply Z.div_le_mono; lia).
  assert (Hbh0 : 0 < bh) by (clear - Hb Eb Hbh Hbl; nia).
  cbn [uint_div_rem_fuel]. rewrite H_zero, H_eqb by lia.
  rewrite dassert_ok by (destruct (Z.eqb_spec b 0); lia). rewrite bind_Some.
  change (hi (of_uint b)) with (of (b / M)). change (hi (of_uint a)) with (of (a / M)).
  rewrite EdA, EdB.
  rewrite (D_is_zero of L) by auto. destruct (Z.eqb_spec bh 0); [lia|].
  rewrite (D_ugt of L) by auto. rewrite ltb_false by lia.
  rewrite (L_lz _ L) by auto.
  pose proof (nlz_lt B ah ltac:(lia) ltac:(lia)) as Hs.
  pose proof (nlz_shift B ah ltac:(lia) ltac:(lia)) as Hy.
  unfold qest in *. rewrite EdA in *.
  set (sh := nlz B ah) in *. clearbody sh.
  assert (P0 : 0 < 2 ^ sh) by (apply pow2_pos; lia).
  rewrite !H_shl by lia. rewrite !bind_Some.
  pose proof (shl_fits M sh B ah bh bl ltac:(lia) ltac:(lia) eq_refl ltac:(lia) ltac:(lia) Hbl) as SB.
  pose proof (shl_fits M sh B ah ah al ltac:(lia) ltac:(lia) eq_refl ltac:(lia) ltac:(lia) Hal) as SA.
  rewrite <- Eb in SB. rewrite <- Ea in SA.
  assert (0 <= a * 2 ^ sh) by (clear - Ha P0; nia).
  assert (0 <= b * 2 ^ sh) by (clear - Hb H2 P0; nia).
  rewrite !(Z.mod_small (_ * 2 ^ sh)) by lia.
  change (hi (of_uint (a * 2 ^ sh))) with (of (a * 2 ^ sh / M)).
  change (hi (of_uint (b * 2 ^ sh))) with (of (b * 2 ^ sh / M)).
  rewrite Hud. rewrite bind_Some.
  set (q := a * 2 ^ sh / M / (b * 2 ^ sh / M)) in *. clearbody q.
  pose proof (Z.div_mod a b ltac:(lia)) as Eab. pose proof (Z.mod_pos_bound a b ltac:(lia)) as Bab.
  assert (Hq0 : 1 <= a / b < M).
  { split. apply Z.div_le_lower_bound; lia. apply Z.div_lt_upper_bound. lia. clear - Ha Hb H2. nia. }
  set (q0 := a / b) in *. set (r0 := a mod b) in *. clearbody q0 r0.
  assert (Hqm : 0 <= q < M).
  { destruct Hq as [-> |(-> & _ & X)]; [lia|]. clear - X Hb H2 Hq0. nia. }
  rewrite (L_zero _ L). rewrite <- (of_uint_eq q 0 q) by lia.
  assert (BQ : 0 <= b * q < M * M).
  { destruct Hq as [-> |(-> & _ & X)]. lia. rewrite (Z.mul_comm b). clear - X Hb H2 Hq0. nia. }
  rewrite H_mul by lia. rewrite bind_Some. rewrite H_cmp by lia.
  destruct Hq as [Hq|(Hq & Hnz & Hov)]; rewrite Hq in *.
  - destruct (Z.compare_spec (b * q0) a).
    + assert (Em : r0 = 0) by lia. rewrite Em. reflexivity.
    + rewrite H_oadd by lia.
      destruct (Z.leb_spec (M * M) (b * q0 + b)).
      * rewrite H_sub by lia. rewrite bind_Some. rewrite HF by lia. rewrite bind_Some.
        rewrite (of_uint_eq 0 0 0) by lia. cbn [hi]. rewrite (D_is_zero of L) by lia.
        rewrite dassert_ok by reflexivity. rewrite bind_Some. rewrite <- (of_uint_eq 0 0 0) by lia.
        rewrite H_add by lia. rewrite bind_Some. rewrite H_mul by lia. rewrite bind_Some.
        rewrite H_add by lia. rewrite bind_Some. rewrite H_sub by lia. rewrite bind_Some.
        do 2 f_equal; f_equal; lia.
      * rewrite H_sub by lia. rewrite bind_Some. do 2 f_equal; f_equal; lia.
    + lia.
  - rewrite Z.mul_add_distr_l, Z.mul_1_r in *.
    destruct (Z.compare_spec (b * q0 + b) a); try lia.
    rewrite H_sub by lia. rewrite bind_Some.
    rewrite HF by lia. rewrite bind_Some. rewrite H_incr by lia. rewrite (Z.mod_small (0 + 1)) by lia.
    rewrite (of_uint_eq (0 + 1) 0 1) by lia. cbn [hi].
    rewrite (D_is_zero of L) by lia. rewrite dassert_ok by reflexivity. rewrite bind_Some.
    rewrite <- (of_uint_eq 1 0 1) by lia.
    rewrite H_sub by lia. rewrite bind_Some. rewrite H_mul by lia. rewrite bind_Some.
    rewrite H_sub by lia. rewrite bind_Some. rewrite H_sub by lia. rewrite bind_Some.
    do 2 f_equal; f_equal; lia.
Qed.

(** Division by a normalised full-width value. *)
Lemma H_div_full a b : 0 <= a < M * M -> 2 ^ (2 * B - 1) <= b < M * M ->
  uint_div_rem (of_uint a) (of_uint b) = Some (of_uint (a / b), of_uint (a mod b)).
Proof.
  intros Ha Hb. bnd.
  assert (E2 : M * M = 2 * 2 ^ (2 * B - 1)).
  { rewrite <- MM, <- pow2_S by lia. f_equal; lia. }
  assert (E1 : M * 2 ^ (B - 1) = 2 ^ (2 * B - 1)).
  { rewrite <- pow2_add by lia. f_equal; lia. }
  assert (E3 : M = 2 * 2 ^ (B - 1)) by (rewrite <- pow2_S by lia; f_equal; lia).
  assert (HM : M <= b). { rewrite <- E1 in Hb. clear - Hb E3 H1. nia. }
  destruct (Z.lt_ge_cases a b).
  - rewrite Z.div_small, Z.mod_small by lia. exact (div_rem_lt 61 a b ltac:(lia) ltac:(lia) ltac:(lia)).
  - assert (Ed : a / b = 1) by (apply div_eq with (a - b); lia).
    assert (Hah : 2 ^ (B - 1) <= a / M < M).
    { split. apply Z.div_le_lower_bound; lia. apply Z.div_lt_upper_bound; lia. }
    assert (Hbh : 2 ^ (B - 1) <= b / M < M).
    { split. apply Z.div_le_lower_bound; lia. apply Z.div_lt_upper_bound; lia. }
    assert (Hn : nlz B (a / M) = 0).
    { unfold nlz. destruct (Z.eqb_spec (a / M) 0). lia.
      assert (Z.log2 (a / M) = B - 1). { apply Z.log2_unique. lia. replace (Z.succ (B - 1)) with B by lia. lia. }
      lia. }
    assert (Hmono : b / M <= a / M) by (apply Z.div_le_mono; lia).
    assert (Hqe : qest a b = 1).
    { unfold qest. rewrite Hn. change (2 ^ 0) with 1. rewrite !Z.mul_1_r.
      apply div_eq with (a / M - b / M); lia. }
    refine (div_rem_full_ok 60 a b _ _ _ _ _); try lia.
    rewrite Hqe. rewrite Hn. change (2 ^ 0) with 1. rewrite !Z.mul_1_r.
    unfold udiv. rewrite (L_div_full _ L) by lia. rewrite bind_Some. do 2 f_equal.
    apply div_eq with (a / M - b / M); lia.
Qed.

Theorem uint_laws : 2 * B < 2 ^ 20 -> laws of_uint.
Proof.
  intros Hbits.
  bnd. pose proof MM as EMM. pose proof nB.
  assert (D2 : 2 * B / 2 = B) by (rewrite Z.mul_comm; apply Z.div_mul; lia).
  constructor; cbn [uint_ops BITS uzero uone utwo umax ueqb ucmp is_even is_odd leading_zeros
    trailing_zeros incr decr oadd wadd osub wsub omul wmul uadd usub umul ushl ushr uand uor
    div_rem of_u128 uhi ulo lolo as_vec of_vec]; unfold uint_bits; rewrite ?D2, ?EMM; try lia.
  - exact H_zero.
  - exact H_one.
  - exact H_two.
  - exact H_max.
  - exact H_eqb.
  - exact H_cmp.
  - exact H_even.
  - exact H_odd.
  - exact H_lz.
  - exact H_tz.
  - exact H_incr.
  - exact H_decr.
  - exact H_oadd.
  - exact H_wadd.
  - exact H_osub.
  - exact H_wsub.
  - exact H_omul.
  - exact H_wmul.
  - exact H_add.
  - exact H_sub.
  - exact H_mul.
  - exact H_shl.
  - exact H_shr.
  - exact H_and.
  - exact H_or.
  - exact H_div_half.
  - exact H_div_full.
  - exact H_of_u128.
  - exact H_hi.
  - exact H_lo.
  - exact H_lolo.
  - exact H_vec.
  - exact H_of_vec.
Qed.

End UInt.

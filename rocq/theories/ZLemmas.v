(** * ZLemmas: facts about integers used throughout the proofs *)

From Coq Require Import ZArith Lia Bool List.
From Verif Require Import Base.
Open Scope Z_scope.

Ltac Zify.zify_post_hook ::= idtac.

Lemma pow2_pos n : 0 <= n -> 0 < 2 ^ n.
Proof. intros; apply Z.pow_pos_nonneg; lia. Qed.

Lemma pow2_le a b : 0 <= a <= b -> 2 ^ a <= 2 ^ b.
Proof. intros; apply Z.pow_le_mono_r; lia. Qed.

Lemma pow2_lt a b : 0 <= a < b -> 2 ^ a < 2 ^ b.
Proof. intros; apply Z.pow_lt_mono_r; lia. Qed.

Lemma pow2_add a b : 0 <= a -> 0 <= b -> 2 ^ (a + b) = 2 ^ a * 2 ^ b.
Proof. intros; apply Z.pow_add_r; lia. Qed.

Lemma pow2_split a b : 0 <= a <= b -> 2 ^ b = 2 ^ a * 2 ^ (b - a).
Proof. intros; rewrite <- pow2_add by lia. f_equal; lia. Qed.

Lemma pow2_S a : 0 <= a -> 2 ^ (a + 1) = 2 * 2 ^ a.
Proof. intros. rewrite pow2_add by lia. lia. Qed.

Lemma mod_eq x m q r : x = q * m + r -> 0 <= r < m -> x mod m = r.
Proof. intros -> Hr. rewrite Z.add_comm, Z.mod_add by lia. apply Z.mod_small; lia. Qed.

Lemma div_eq x m q r : x = q * m + r -> 0 <= r < m -> x / m = q.
Proof. intros -> Hr. rewrite Z.add_comm, Z.div_add by lia. rewrite Z.div_small by lia. lia. Qed.

Lemma div_bound a m k : 0 < m -> 0 <= a < k * m -> 0 <= a / m < k.
Proof.
  intros Hm Ha. split. apply Z.div_pos; lia.
  apply Z.div_lt_upper_bound; lia.
Qed.

(** Quotient and remainder as fresh variables. *)
Ltac dm x m :=
  let q := fresh "q" in let r := fresh "r" in
  let E := fresh "E" in let Rg := fresh "Rg" in
  pose proof (Z.div_mod x m ltac:(lia)) as E;
  pose proof (Z.mod_pos_bound x m ltac:(lia)) as Rg;
  set (q := x / m) in *; set (r := x mod m) in *; clearbody q r.

Lemma cat_bound h l m : 0 <= h < m -> 0 <= l < m -> 0 <= h * m + l < m * m.
Proof. nia. Qed.
Lemma cat_bound2 h l a m : 0 <= h < a -> 0 <= l < m -> 0 <= h * m + l < a * m.
Proof. nia. Qed.
Lemma cat_inv h l m : 0 <= l -> 0 < m -> h * m + l < m * m -> h < m.
Proof. nia. Qed.

Lemma lor_add a b n : 0 <= n -> 0 <= b < 2 ^ n -> Z.lor (a * 2 ^ n) b = a * 2 ^ n + b.
Proof.
  intros Hn Hb.
  assert (Hl : Z.land (a * 2 ^ n) b = 0).
  { apply Z.bits_inj'. intros k Hk. rewrite Z.land_spec, Z.bits_0.
    destruct (Z.lt_ge_cases k n).
    - rewrite Z.mul_pow2_bits_low by lia. reflexivity.
    - replace (Z.testbit b k) with false. apply andb_false_r.
      symmetry. destruct (Z.eq_dec b 0) as [->|]. apply Z.bits_0.
      apply Z.bits_above_log2. lia.
      apply Z.lt_le_trans with n; [|lia]. apply Z.log2_lt_pow2; lia. }
  symmetry. rewrite <- Z.lxor_lor by exact Hl. apply Z.add_nocarry_lxor. exact Hl.
Qed.

Lemma lor_add' a b n : 0 <= n -> 0 <= b < 2 ^ n -> Z.lor b (a * 2 ^ n) = a * 2 ^ n + b.
Proof. intros. rewrite Z.lor_comm. apply lor_add; auto. Qed.

Lemma testbit_split h l n k : 0 <= n -> 0 <= l < 2 ^ n -> 0 <= k ->
  Z.testbit (h * 2 ^ n + l) k = if k <? n then Z.testbit l k else Z.testbit h (k - n).
Proof.
  intros Hn Hl Hk. rewrite <- lor_add by lia. rewrite Z.lor_spec.
  destruct (Z.ltb_spec k n).
  - rewrite Z.mul_pow2_bits_low by lia. reflexivity.
  - rewrite Z.mul_pow2_bits by lia.
    replace (Z.testbit l k) with false. apply orb_false_r.
    symmetry. destruct (Z.eq_dec l 0) as [->|]. apply Z.bits_0.
    apply Z.bits_above_log2. lia.
    apply Z.lt_le_trans with n; [|lia]. apply Z.log2_lt_pow2; lia.
Qed.

Lemma land_bound a b n : 0 <= n -> 0 <= a < 2 ^ n -> 0 <= b -> 0 <= Z.land a b < 2 ^ n.
Proof.
  intros Hn Ha Hb. split. apply Z.land_nonneg; lia.
  destruct (Z.eq_dec (Z.land a b) 0) as [->|]. apply pow2_pos; lia.
  apply Z.log2_lt_pow2. pose proof (proj2 (Z.land_nonneg a b)); lia.
  eapply Z.le_lt_trans. apply Z.log2_land; lia.
  apply Z.le_lt_trans with (Z.log2 a). lia.
  destruct (Z.eq_dec a 0) as [->|]. rewrite Z.land_0_l in *; lia.
  apply Z.log2_lt_pow2; lia.
Qed.

Lemma lor_bound a b n : 0 <= n -> 0 <= a < 2 ^ n -> 0 <= b < 2 ^ n -> 0 <= Z.lor a b < 2 ^ n.
Proof.
  intros Hn Ha Hb. split. apply Z.lor_nonneg; lia.
  destruct (Z.eq_dec (Z.lor a b) 0) as [->|]. apply pow2_pos; lia.
  apply Z.log2_lt_pow2. pose proof (proj2 (Z.lor_nonneg a b)); lia.
  rewrite Z.log2_lor by lia.
  apply Z.max_lub_lt.
  - destruct (Z.eq_dec a 0) as [->|]. 2: apply Z.log2_lt_pow2; lia.
    destruct (Z.eq_dec n 0) as [->|]. assert (b = 0) by lia. subst. cbn in *. lia. cbn; lia.
  - destruct (Z.eq_dec b 0) as [->|]. 2: apply Z.log2_lt_pow2; lia.
    destruct (Z.eq_dec n 0) as [->|]. assert (a = 0) by lia. subst. cbn in *. lia. cbn; lia.
Qed.

Lemma land_split ah al bh bl n : 0 <= n -> 0 <= al < 2 ^ n -> 0 <= bl < 2 ^ n ->
  Z.land (ah * 2 ^ n + al) (bh * 2 ^ n + bl) = Z.land ah bh * 2 ^ n + Z.land al bl.
Proof.
  intros Hn Ha Hb. apply Z.bits_inj'. intros k Hk.
  rewrite Z.land_spec, !testbit_split; try lia.
  2: apply land_bound; lia.
  destruct (k <? n); rewrite Z.land_spec; reflexivity.
Qed.

Lemma lor_split ah al bh bl n : 0 <= n -> 0 <= al < 2 ^ n -> 0 <= bl < 2 ^ n ->
  Z.lor (ah * 2 ^ n + al) (bh * 2 ^ n + bl) = Z.lor ah bh * 2 ^ n + Z.lor al bl.
Proof.
  intros Hn Ha Hb. apply Z.bits_inj'. intros k Hk.
  rewrite Z.lor_spec, !testbit_split; try lia.
  2: apply lor_bound; lia.
  destruct (k <? n); rewrite Z.lor_spec; reflexivity.
Qed.

Lemma land_pow2_ones a n : 0 <= n -> Z.land a (2 ^ n - 1) = a mod 2 ^ n.
Proof.
  intros. rewrite <- Z.land_ones by lia. rewrite Z.ones_equiv. f_equal; lia.
Qed.

Lemma land_1 a : Z.land a 1 = a mod 2.
Proof. change 1 with (2 ^ 1 - 1). rewrite land_pow2_ones by lia. reflexivity. Qed.

Lemma odd_mod a : Z.odd a = (a mod 2 =? 1).
Proof. rewrite Zmod_odd. destruct (Z.odd a); reflexivity. Qed.

Lemma even_mod a : Z.even a = (a mod 2 =? 0).
Proof. rewrite Zmod_even. destruct (Z.even a); reflexivity. Qed.

Lemma log2_split h l n : 0 <= n -> 0 < h -> 0 <= l < 2 ^ n ->
  Z.log2 (h * 2 ^ n + l) = n + Z.log2 h.
Proof.
  intros Hn Hh Hl. pose proof (Z.log2_spec h Hh) as [A B].
  pose proof (Z.log2_nonneg h). apply Z.log2_unique. lia.
  rewrite Z.pow_succ_r in * by lia. rewrite Z.pow_add_r by lia. pose proof (pow2_pos n Hn). nia.
Qed.

Lemma nlz_bound w a : 0 <= w -> 0 <= a < 2 ^ w -> 0 <= nlz w a <= w.
Proof.
  intros Hw Ha. unfold nlz. destruct (Z.eqb_spec a 0). lia.
  assert (Z.log2 a < w) by (apply Z.log2_lt_pow2; lia).
  pose proof (Z.log2_nonneg a). lia.
Qed.

Lemma nlz_lt w a : 0 <= w -> 0 < a < 2 ^ w -> 0 <= nlz w a < w.
Proof.
  intros Hw Ha. unfold nlz. destruct (Z.eqb_spec a 0). lia.
  assert (Z.log2 a < w) by (apply Z.log2_lt_pow2; lia).
  pose proof (Z.log2_nonneg a). lia.
Qed.

(** Shifting by the number of leading zeros normalises. *)
Lemma nlz_shift w a : 0 < w -> 0 < a < 2 ^ w ->
  2 ^ (w - 1) <= a * 2 ^ nlz w a < 2 ^ w.
Proof.
  intros Hw Ha. unfold nlz. destruct (Z.eqb_spec a 0). lia.
  assert (Z.log2 a < w) by (apply Z.log2_lt_pow2; lia).
  pose proof (Z.log2_nonneg a).
  pose proof (Z.log2_spec a ltac:(lia)) as [A B].
  set (l := Z.log2 a) in *.
  assert (E1 : 2 ^ (w - 1) = 2 ^ l * 2 ^ (w - 1 - l)) by (rewrite <- pow2_add by lia; f_equal; lia).
  assert (E2 : 2 ^ w = 2 ^ Z.succ l * 2 ^ (w - 1 - l)) by (rewrite <- pow2_add by lia; f_equal; lia).
  pose proof (pow2_pos (w - 1 - l) ltac:(lia)). nia.
Qed.

Lemma ctz_pos_spec p : exists k, Zpos p = (2 * k + 1) * 2 ^ ctz_pos p /\ 0 <= k /\ 0 <= ctz_pos p.
Proof.
  induction p as [p IH|p IH|].
  - exists (Zpos p). cbn [ctz_pos]. rewrite Pos2Z.inj_xI. change (2 ^ 0) with 1. lia.
  - destruct IH as (k & E & A & B). exists k. cbn [ctz_pos].
    rewrite Pos2Z.inj_xO, E. rewrite (Z.add_comm 1), pow2_S by lia. lia.
  - exists 0. cbn. lia.
Qed.

Lemma ntz_spec w a : 0 < a -> exists k, a = (2 * k + 1) * 2 ^ ntz w a /\ 0 <= k /\ 0 <= ntz w a.
Proof. destruct a; try lia. intros _. apply ctz_pos_spec. Qed.

Lemma odd_pow2_unique k1 n1 k2 n2 : 0 <= n1 -> 0 <= n2 ->
  (2 * k1 + 1) * 2 ^ n1 = (2 * k2 + 1) * 2 ^ n2 -> n1 = n2.
Proof.
  intros H1 H2 E. destruct (Z.lt_trichotomy n1 n2) as [L|[?|L]]; auto; exfalso.
  - rewrite (pow2_split n1 n2) in E by lia.
    assert (E' : 2 * k1 + 1 = (2 * k2 + 1) * 2 ^ (n2 - n1)).
    { apply Z.mul_reg_r with (2 ^ n1). pose proof (pow2_pos n1); lia. lia. }
    replace (n2 - n1) with (n2 - n1 - 1 + 1) in E' by lia. rewrite pow2_S in E' by lia. lia.
  - rewrite (pow2_split n2 n1) in E by lia.
    assert (E' : 2 * k2 + 1 = (2 * k1 + 1) * 2 ^ (n1 - n2)).
    { apply Z.mul_reg_r with (2 ^ n2). pose proof (pow2_pos n2); lia. lia. }
    replace (n1 - n2) with (n1 - n2 - 1 + 1) in E' by lia. rewrite pow2_S in E' by lia. lia.
Qed.

Lemma ntz_unique w a k n : 0 <= n -> 0 < a -> a = (2 * k + 1) * 2 ^ n -> ntz w a = n.
Proof.
  intros Hn Ha E. destruct (ntz_spec w a Ha) as (k' & E' & _ & Hn').
  apply odd_pow2_unique with k' k; auto. congruence.
Qed.

Lemma ntz_lt w a : 0 < a < 2 ^ w -> 0 <= w -> 0 <= ntz w a < w.
Proof.
  intros Ha Hw. destruct (ntz_spec w a ltac:(lia)) as (k & E & A & B). split; auto.
  destruct (Z.lt_ge_cases (ntz w a) w); auto.
  pose proof (pow2_le w (ntz w a)). nia.
Qed.

(** Checked arithmetic that does not overflow. *)
Lemma chku_ok `{profile} w r : 0 <= r < 2 ^ w -> chku w r = Some r.
Proof.
  intros. unfold chku. destruct (Z.leb_spec 0 r); destruct (Z.ltb_spec r (2 ^ w)); try lia.
  reflexivity.
Qed.

Lemma addu_ok `{profile} w a b : 0 <= a + b < 2 ^ w -> addu w a b = Some (a + b).
Proof. apply chku_ok. Qed.
Lemma subu_ok `{profile} w a b : 0 <= a - b < 2 ^ w -> subu w a b = Some (a - b).
Proof. apply chku_ok. Qed.
Lemma mulu_ok `{profile} w a b : 0 <= a * b < 2 ^ w -> mulu w a b = Some (a * b).
Proof. apply chku_ok. Qed.

Lemma chks_ok `{profile} w r : - 2 ^ (w - 1) <= r < 2 ^ (w - 1) -> chks w r = Some r.
Proof.
  intros. unfold chks. destruct (Z.leb_spec (- 2 ^ (w - 1)) r); destruct (Z.ltb_spec r (2 ^ (w - 1))); try lia.
  reflexivity.
Qed.
Lemma adds_ok `{profile} w a b : - 2 ^ (w - 1) <= a + b < 2 ^ (w - 1) -> adds w a b = Some (a + b).
Proof. apply chks_ok. Qed.
Lemma subs_ok `{profile} w a b : - 2 ^ (w - 1) <= a - b < 2 ^ (w - 1) -> subs w a b = Some (a - b).
Proof. apply chks_ok. Qed.
Lemma muls_ok `{profile} w a b : - 2 ^ (w - 1) <= a * b < 2 ^ (w - 1) -> muls w a b = Some (a * b).
Proof. apply chks_ok. Qed.

Lemma dassert_ok `{profile} b : b = true -> dassert b = Some tt.
Proof. intros ->. unfold dassert. destruct debug; reflexivity. Qed.

Lemma shlu_ok `{profile} w a n : n < w -> shlu w a n = Some ((a * 2 ^ n) mod 2 ^ w).
Proof. intros. unfold shlu. destruct (Z.ltb_spec n w); try lia. reflexivity. Qed.
Lemma shru_ok `{profile} w a n : n < w -> shru w a n = Some (a / 2 ^ n).
Proof. intros. unfold shru. destruct (Z.ltb_spec n w); try lia. reflexivity. Qed.

Lemma wraps_ok w r : 0 < w -> - 2 ^ (w - 1) <= r < 2 ^ (w - 1) -> wraps w r = r.
Proof.
  intros Hw H. unfold wraps. rewrite Z.mod_small. lia.
  replace (2 ^ w) with (2 * 2 ^ (w - 1)). lia. rewrite <- pow2_S by lia. f_equal; lia.
Qed.

Lemma castu_ok w r : 0 <= r < 2 ^ w -> castu w r = r.
Proof. apply Z.mod_small. Qed.

Lemma bind_Some {A B} (a : A) (k : A -> option B) : bind (Some a) k = k a.
Proof. reflexivity. Qed.

(** (a * 2^n) mod 2^w, as a multiple of 2^n *)
Lemma shl_mod a n w : 0 <= n <= w -> (a * 2 ^ n) mod 2 ^ w = (a mod 2 ^ (w - n)) * 2 ^ n.
Proof.
  intros. rewrite (pow2_split n w) by lia. rewrite (Z.mul_comm (2 ^ n)).
  apply Z.mul_mod_distr_r; pose proof (pow2_pos n); pose proof (pow2_pos (w - n)); lia.
Qed.

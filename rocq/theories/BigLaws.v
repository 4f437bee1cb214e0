(** * BigLaws: the wide-integer dictionaries compute integer arithmetic

    [laws of] says that the dictionary of [T] implements arithmetic modulo
    [2 ^ BITS] through the representation [of : Z -> T].  The laws hold for U128
    and are preserved by [uint]. *)

From Coq Require Import ZArith Lia Bool List.
From Verif Require Import Base BigUInt ZLemmas.
Open Scope Z_scope.

(** Value of a big-endian list of 128-bit chunks. *)
Definition vec_val (l : list Z) : Z := fold_left (fun acc d => acc * 2 ^ 128 + d) l 0.

Definition digit128 (d : Z) : Prop := 0 <= d < 2 ^ 128.

Section LawsDef.
Context {P : profile} {T : Type} {OT : ops T}.
Variable of : Z -> T.

Let M := 2 ^ BITS.
Let h := BITS / 2.

Record laws : Prop := Laws {
  L_bits : BITS = 2 * (BITS / 2);
  L_bits_lo : 128 <= BITS;
  L_bits_hi : BITS < 2 ^ 20;
  L_zero : uzero = of 0;
  L_one : uone = of 1;
  L_two : utwo = of 2;
  L_max : umax = of (M - 1);
  L_eqb : forall a b, 0 <= a < M -> 0 <= b < M -> ueqb (of a) (of b) = (a =? b);
  L_cmp : forall a b, 0 <= a < M -> 0 <= b < M -> ucmp (of a) (of b) = (a ?= b);
  L_even : forall a, 0 <= a < M -> is_even (of a) = Z.even a;
  L_odd : forall a, 0 <= a < M -> is_odd (of a) = Z.odd a;
  L_lz : forall a, 0 <= a < M -> leading_zeros (of a) = nlz BITS a;
  L_tz : forall a, 0 <= a < M -> trailing_zeros (of a) = ntz BITS a;
  L_incr : forall a, 0 <= a < M -> incr (of a) = of ((a + 1) mod M);
  L_decr : forall a, 0 <= a < M -> decr (of a) = of ((a - 1) mod M);
  L_oadd : forall a b, 0 <= a < M -> 0 <= b < M ->
    oadd (of a) (of b) = (of ((a + b) mod M), M <=? a + b);
  L_wadd : forall a b, 0 <= a < M -> 0 <= b < M -> wadd (of a) (of b) = of ((a + b) mod M);
  L_osub : forall a b, 0 <= a < M -> 0 <= b < M ->
    osub (of a) (of b) = (of ((a - b) mod M), a <? b);
  L_wsub : forall a b, 0 <= a < M -> 0 <= b < M -> wsub (of a) (of b) = of ((a - b) mod M);
  L_omul : forall a b, 0 <= a < M -> 0 <= b < M ->
    omul (of a) (of b) = Some (of ((a * b) mod M), M <=? a * b);
  L_wmul : forall a b, 0 <= a < M -> 0 <= b < M ->
    wmul (of a) (of b) = Some (of ((a * b) mod M), of ((a * b) / M));
  L_add : forall a b, 0 <= a < M -> 0 <= b < M -> a + b < M ->
    uadd (of a) (of b) = Some (of (a + b));
  L_sub : forall a b, 0 <= a < M -> 0 <= b < M -> b <= a ->
    usub (of a) (of b) = Some (of (a - b));
  L_mul : forall a b, 0 <= a < M -> 0 <= b < M -> a * b < M ->
    umul (of a) (of b) = Some (of (a * b));
  L_shl : forall a n, 0 <= a < M -> 0 <= n < BITS ->
    ushl (of a) n = Some (of ((a * 2 ^ n) mod M));
  L_shr : forall a n, 0 <= a < M -> 0 <= n < BITS ->
    ushr (of a) n = Some (of (a / 2 ^ n));
  L_and : forall a b, 0 <= a < M -> 0 <= b < M -> uand (of a) (of b) = of (Z.land a b);
  L_or : forall a b, 0 <= a < M -> 0 <= b < M -> uor (of a) (of b) = of (Z.lor a b);
  L_div_half : forall a b, 0 <= a < M -> 2 ^ (h - 1) <= b < 2 ^ h ->
    div_rem (of a) (of b) = Some (of (a / b), of (a mod b));
  L_div_full : forall a b, 0 <= a < M -> 2 ^ (BITS - 1) <= b < M ->
    div_rem (of a) (of b) = Some (of (a / b), of (a mod b));
  L_of_u128 : forall v, 0 <= v < 2 ^ 128 -> of_u128 v = of v;
  L_hi : forall a, 0 <= a < M -> uhi (of a) = of (a / 2 ^ h);
  L_lo : forall a, 0 <= a < M -> ulo (of a) = of (a mod 2 ^ h);
  L_lolo : forall a b, 0 <= a < M -> 0 <= b < M ->
    lolo (of a) (of b) = of ((a mod 2 ^ h) * 2 ^ h + b mod 2 ^ h);
  L_vec : forall a, 0 <= a < M ->
    vec_val (as_vec (of a)) = a /\ Forall digit128 (as_vec (of a))
    /\ Z.of_nat (length (as_vec (of a))) * 128 = BITS;
  L_of_vec : forall l, Forall digit128 l -> Z.of_nat (length l) * 128 = BITS ->
    of_vec l = Some (of (vec_val l))
}.

End LawsDef.

(** ** Consequences for the provided trait methods *)
Section Derived.
Context {P : profile} {T : Type} {OT : ops T}.
Variable of : Z -> T.
Hypothesis L : laws of.

Local Notation B := (@BITS T OT).
Local Notation M := (2 ^ B).

Lemma B_pos : 128 <= B. Proof. exact (L_bits_lo _ L). Qed.
Lemma B_u32 : B < 2 ^ 32. Proof. pose proof (L_bits_hi _ L). lia. Qed.
Lemma M_pos : 2 ^ 128 <= M. Proof. apply pow2_le. pose proof B_pos; lia. Qed.
Lemma M_pos' : 0 < M. Proof. apply pow2_pos. pose proof B_pos; lia. Qed.

Ltac bnd := pose proof B_pos; pose proof B_u32; pose proof M_pos; pose proof M_pos'.
Local Hint Resolve M_pos M_pos' : core.

Lemma modM x : 0 <= x mod M < M. Proof. apply Z.mod_pos_bound. auto. Qed.

Lemma D_is_zero a : 0 <= a < M -> is_zero (of a) = (a =? 0).
Proof. intros. bnd. unfold is_zero. rewrite (L_zero _ L). apply (L_eqb _ L); lia. Qed.

Lemma D_ult a b : 0 <= a < M -> 0 <= b < M -> ult (of a) (of b) = (a <? b).
Proof. intros. unfold ult. rewrite (L_cmp _ L) by auto. unfold Z.ltb. destruct (a ?= b); reflexivity. Qed.
Lemma D_ugt a b : 0 <= a < M -> 0 <= b < M -> ugt (of a) (of b) = (b <? a).
Proof. intros. unfold ugt. rewrite (L_cmp _ L) by auto. rewrite Z.compare_antisym. unfold Z.ltb. destruct (b ?= a); reflexivity. Qed.
Lemma D_ule a b : 0 <= a < M -> 0 <= b < M -> ule (of a) (of b) = (a <=? b).
Proof. intros. unfold ule. rewrite (L_cmp _ L) by auto. unfold Z.leb. destruct (a ?= b); reflexivity. Qed.
Lemma D_uge a b : 0 <= a < M -> 0 <= b < M -> uge (of a) (of b) = (b <=? a).
Proof. intros. unfold uge. rewrite (L_cmp _ L) by auto. rewrite Z.compare_antisym. unfold Z.leb. destruct (b ?= a); reflexivity. Qed.

Lemma D_msb a : 0 < a < M -> msb (of a) = Some (Z.log2 a).
Proof.
  intros. bnd. unfold msb. rewrite D_is_zero by lia.
  rewrite dassert_ok by (destruct (Z.eqb_spec a 0); lia). rewrite bind_Some.
  rewrite (L_lz _ L) by lia.
  pose proof (nlz_lt B a ltac:(lia) ltac:(lia)).
  rewrite subu_ok by lia. rewrite bind_Some. rewrite subu_ok by lia.
  unfold nlz. destruct (Z.eqb_spec a 0); [lia|]. f_equal. lia.
Qed.

Lemma of_b2z b : of_u128 (b2z b) = of (b2z b).
Proof. apply (L_of_u128 _ L). destruct b; cbn; lia. Qed.
Lemma b2z_M b : 0 <= b2z b < M.
Proof. pose proof M_pos. destruct b; cbn [b2z]; lia. Qed.
Lemma b2z_01 b : 0 <= b2z b <= 1.
Proof. destruct b; cbn; lia. Qed.
Local Hint Resolve b2z_M modM : core.

Lemma D_incr_if a b : 0 <= a < M -> incr_if (of a) b = of ((a + b2z b) mod M).
Proof. intros. unfold incr_if. rewrite of_b2z. apply (L_wadd _ L); auto. Qed.
Lemma D_decr_if a b : 0 <= a < M -> decr_if (of a) b = of ((a - b2z b) mod M).
Proof. intros. unfold decr_if. rewrite of_b2z. apply (L_wsub _ L); auto. Qed.

Lemma leb_true a b : a <= b -> (a <=? b) = true. Proof. apply Z.leb_le. Qed.
Lemma leb_false a b : b < a -> (a <=? b) = false. Proof. apply Z.leb_gt. Qed.
Lemma ltb_true a b : a < b -> (a <? b) = true. Proof. apply Z.ltb_lt. Qed.
Lemma ltb_false a b : b <= a -> (a <? b) = false. Proof. apply Z.ltb_ge. Qed.

Lemma D_carrying_add a b c : 0 <= a < M -> 0 <= b < M ->
  carrying_add (of a) (of b) c = (of ((a + b + b2z c) mod M), M <=? a + b + b2z c).
Proof.
  intros. bnd. unfold carrying_add. rewrite (L_oadd _ L) by auto. rewrite of_b2z.
  rewrite (L_oadd _ L) by auto. pose proof (b2z_01 c).
  rewrite Zplus_mod_idemp_l. f_equal.
  assert (E : (a + b) mod M = a + b - M * b2z (M <=? a + b)).
  { destruct (Z.leb_spec M (a + b)); cbn [b2z].
    apply mod_eq with 1; lia. apply mod_eq with 0; lia. }
  rewrite E. destruct (Z.leb_spec M (a + b)); cbn [b2z orb].
  - symmetry. apply leb_true. lia.
  - f_equal. lia.
Qed.

Lemma D_borrowing_sub a b c : 0 <= a < M -> 0 <= b < M ->
  borrowing_sub (of a) (of b) c = (of ((a - b - b2z c) mod M), a <? b + b2z c).
Proof.
  intros. bnd. unfold borrowing_sub. rewrite (L_osub _ L) by auto. rewrite of_b2z.
  rewrite (L_osub _ L) by auto. pose proof (b2z_01 c).
  rewrite Zminus_mod_idemp_l. f_equal.
  assert (E : (a - b) mod M = a - b + M * b2z (a <? b)).
  { destruct (Z.ltb_spec a b); cbn [b2z].
    apply mod_eq with (-1); lia. apply mod_eq with 0; lia. }
  rewrite E. destruct (Z.ltb_spec a b); cbn [b2z orb].
  - symmetry. apply ltb_true. lia.
  - destruct (Z.ltb_spec a (b + b2z c)). apply ltb_true; lia. apply ltb_false; lia.
Qed.

Lemma mul_range a b : 0 <= a < M -> 0 <= b < M -> 0 <= a * b <= (M - 1) * (M - 1).
Proof. nia. Qed.

Lemma D_carrying_mul a b c : 0 <= a < M -> 0 <= b < M -> 0 <= c < M ->
  carrying_mul (of a) (of b) (of c)
  = Some (of ((a * b + c) mod M), of ((a * b + c) / M)).
Proof.
  intros Ha Hb Hc. bnd. unfold carrying_mul. rewrite (L_wmul _ L) by auto. rewrite bind_Some.
  rewrite (L_oadd _ L) by auto.
  pose proof (mul_range a b Ha Hb) as R.
  assert (0 <= a * b / M < M) by (apply div_bound; nia).
  rewrite D_incr_if by auto.
  rewrite Zplus_mod_idemp_l. do 2 f_equal. f_equal.
  dm (a * b) (2 ^ B). destruct (Z.leb_spec M (r + c)); cbn [b2z].
  - replace ((a * b + c) / M) with (q + 1). 2: symmetry; apply div_eq with (r + c - M); lia.
    apply Z.mod_small. split. lia. nia.
  - replace ((a * b + c) / M) with q. 2: symmetry; apply div_eq with (r + c); lia.
    rewrite Z.add_0_r. apply Z.mod_small. lia.
Qed.

Lemma D_wrapping_mul a b : 0 <= a < M -> 0 <= b < M ->
  wrapping_mul (of a) (of b) = Some (of ((a * b) mod M)).
Proof. intros. unfold wrapping_mul. rewrite (L_wmul _ L) by auto. reflexivity. Qed.

Lemma D_truncating_mul a b : 0 <= a < M -> 0 <= b < M ->
  truncating_mul (of a) (of b) = Some (of ((a * b) / M)).
Proof. intros. unfold truncating_mul. rewrite (L_wmul _ L) by auto. reflexivity. Qed.

Lemma D_widening_shl a n : 0 <= a < M -> 0 <= n < B ->
  widening_shl (of a) n = Some (of ((a * 2 ^ n) mod M), of (a / 2 ^ (B - n))).
Proof.
  intros Ha Hn. bnd. unfold widening_shl. rewrite dassert_ok by (apply ltb_true; lia).
  rewrite bind_Some. destruct (Z.eqb_spec n 0).
  - subst. rewrite Z.sub_0_r, Z.mul_1_r, Z.mod_small, (Z.div_small a) by lia.
    rewrite (L_zero _ L). reflexivity.
  - rewrite (L_shl _ L) by lia. rewrite bind_Some. rewrite subu_ok by lia. rewrite bind_Some.
    rewrite (L_shr _ L) by lia. reflexivity.
Qed.

Lemma D_widening_shr a n : 0 <= a < M -> 0 <= n < B ->
  widening_shr (of a) n = Some (of (a / 2 ^ n), of ((a * 2 ^ (B - n)) mod M)).
Proof.
  intros Ha Hn. bnd. unfold widening_shr. rewrite dassert_ok by (apply ltb_true; lia).
  rewrite bind_Some. destruct (Z.eqb_spec n 0).
  - subst. rewrite Z.sub_0_r, Z.div_1_r, Z.mod_mul by lia.
    rewrite (L_zero _ L). reflexivity.
  - rewrite (L_shr _ L) by lia. rewrite bind_Some. rewrite subu_ok by lia. rewrite bind_Some.
    rewrite (L_shl _ L) by lia. reflexivity.
Qed.

Lemma D_carrying_shl a n c : 0 <= a < M -> 0 < n < B -> 0 <= c < 2 ^ n ->
  carrying_shl (of a) n (of c) = Some (of ((a * 2 ^ n) mod M + c), of (a / 2 ^ (B - n))).
Proof.
  intros Ha Hn Hc. bnd. unfold carrying_shl. rewrite dassert_ok by (apply ltb_true; lia).
  rewrite bind_Some.
  assert (2 ^ n < M) by (apply pow2_lt; lia).
  replace (if debug then _ else _) with (Some tt).
  2: { destruct debug; auto. rewrite (L_one _ L), (L_shl _ L) by lia. rewrite bind_Some.
       rewrite Z.mul_1_l, Z.mod_small by lia. rewrite D_ult by lia.
       rewrite dassert_ok; auto. apply ltb_true; lia. }
  rewrite bind_Some, (L_shl _ L) by lia. rewrite bind_Some. rewrite subu_ok by lia. rewrite bind_Some.
  rewrite (L_shr _ L) by lia. rewrite bind_Some.
  rewrite (L_or _ L) by (auto; lia). do 3 f_equal.
  rewrite shl_mod by lia. apply lor_add; lia.
Qed.

Lemma D_carrying_shr a n c : 0 <= a < M -> 0 < n < B -> 0 <= c < 2 ^ n ->
  carrying_shr (of a) n (of (c * 2 ^ (B - n)))
  = Some (of (c * 2 ^ (B - n) + a / 2 ^ n), of ((a * 2 ^ (B - n)) mod M)).
Proof.
  intros Ha Hn Hc. bnd. unfold carrying_shr. rewrite dassert_ok by (apply ltb_true; lia).
  rewrite bind_Some.
  assert (E : M = 2 ^ n * 2 ^ (B - n)) by (apply pow2_split; lia).
  assert (0 < 2 ^ (B - n)) by (apply pow2_pos; lia).
  assert (0 < 2 ^ n) by (apply pow2_pos; lia).
  assert (0 <= c * 2 ^ (B - n) < M) by nia.
  replace (if debug then _ else _) with (Some tt).
  2: { destruct debug; auto. rewrite (L_shl _ L) by lia. rewrite bind_Some.
       rewrite D_is_zero by auto. rewrite dassert_ok; auto. apply Z.eqb_eq.
       apply mod_eq with c; lia. }
  rewrite bind_Some, (L_shr _ L) by lia. rewrite bind_Some. rewrite subu_ok by lia. rewrite bind_Some.
  rewrite (L_shl _ L) by lia. rewrite bind_Some.
  assert (0 <= a / 2 ^ n < 2 ^ (B - n)) by (apply div_bound; lia).
  rewrite (L_or _ L) by nia. do 3 f_equal.
  apply lor_add; lia.
Qed.

End Derived.

(** ** U128 satisfies the laws *)
Section U128.
Context {P : profile}.

Lemma u128_wmul_ok a b : 0 <= a < 2 ^ 128 -> 0 <= b < 2 ^ 128 ->
  u128_wmul a b = Some ((a * b) mod 2 ^ 128, (a * b) / 2 ^ 128).
Proof.
  intros Ha Hb. unfold u128_wmul, u128_hi, u128_lo.
  set (S := 2 ^ 64) in *. assert (HS : 2 ^ 128 = S * S) by reflexivity.
  assert (S0 : 2 < S) by reflexivity.
  rewrite HS in *.
  assert (Hah : 0 <= a / S < S) by (apply div_bound; lia).
  assert (Hbh : 0 <= b / S < S) by (apply div_bound; lia).
  assert (chk : forall r, 0 <= r < S * S -> chku 128 r = Some r) by (intros; apply chku_ok; rewrite HS; auto).
  dm a S. dm b S.
  unfold mulu, addu, shlu. change (64 <? 128) with true. cbv iota.
  fold S. rewrite HS.
  assert (0 <= r * r0 <= (S-1)*(S-1)) by nia.
  assert (0 <= r * q0 <= (S-1)*(S-1)) by nia.
  assert (0 <= q * r0 <= (S-1)*(S-1)) by nia.
  assert (0 <= q * q0 <= (S-1)*(S-1)) by nia.
  rewrite (chk (r * r0)) by nia. rewrite bind_Some.
  rewrite (chk (r * q0)) by nia. rewrite bind_Some.
  rewrite (chk (q * r0)) by nia. rewrite bind_Some.
  rewrite (chk (q * q0)) by nia. rewrite bind_Some.
  set (c1 := b2z (S * S <=? r * q0 + q * r0)).
  set (t := (r * q0 + q * r0) mod (S * S)).
  assert (Et : r * q0 + q * r0 = c1 * (S * S) + t /\ 0 <= t < S * S /\ 0 <= c1 <= 1).
  { unfold c1, t. destruct (Z.leb_spec (S * S) (r * q0 + q * r0)); cbn [b2z].
    - split; [|split; [apply Z.mod_pos_bound|]]; try lia.
      rewrite (mod_eq _ (S * S) 1 (r * q0 + q * r0 - S * S)); nia.
    - rewrite Z.mod_small; nia. }
  clearbody c1 t. destruct Et as (Et & Bt & Bc).
  rewrite bind_Some.
  rewrite (Z.mod_small (c1 * S)) by nia.
  assert (0 <= t / S < S) by (apply div_bound; lia).
  dm t S.
  assert (Hc : 0 <= c1 * S + q1 < S * S) by nia.
  rewrite (chk (c1 * S + q1)) by nia. rewrite bind_Some.
  (* the full product *)
  assert (EP : a * b = (q * q0 + c1 * S + q1) * (S * S) + (r1 * S + r * r0)).
  { replace (a * b) with (q * q0 * (S * S) + (r * q0 + q * r0) * S + r * r0) by (rewrite E, E0; ring).
    rewrite Et, E1. ring. }
  assert (UP : a * b <= (S * S - 1) * (S * S - 1)) by (apply Z.mul_le_mono_nonneg; lia).
  assert (B1 : 0 <= r1 * S <= (S - 1) * S).
  { split; [apply Z.mul_nonneg_nonneg; lia|apply Z.mul_le_mono_nonneg_r; lia]. }
  assert (B2 : (S - 1) * S = S * S - S) by ring. assert (B3 : (S - 1) * (S - 1) = S * S - 2 * S + 1) by ring.
  assert (S2 : 2 < S * S) by (clear - S0; nia).
  replace (q * q0 + (c1 * S + q1)) with (q * q0 + c1 * S + q1) by ring.
  assert (GE : 0 <= q * q0 + c1 * S + q1) by (clear - H2 Hc; lia).
  rewrite (Z.mod_small (r1 * S)) by (clear - B1 B2 S0; lia).
  assert (LB : 0 <= r1 * S + r * r0 < 2 * (S * S)) by (clear - B1 B2 B3 H S0; lia).
  match goal with |- bind ?X _ = ?Y => change (bind X (fun rh => bind (chku 128 (rh + b2z (S * S <=? r * r0 + r1 * S)))
    (fun rh0 => Some ((r * r0 + r1 * S) mod (S * S), rh0))) = Y) end.
  rewrite (Z.add_comm (r * r0)).
  clear - chk EP UP GE LB S2. revert chk EP UP GE LB S2.
  generalize (q * q0 + c1 * S + q1) (r1 * S + r * r0) (a * b) (S * S). intros hi lo ab M chk EP UP GE LB S2.
  assert (HH : hi < M - 1) by (clear - EP UP LB S2; nia).
  rewrite (chk hi) by lia. rewrite !bind_Some.
  destruct (Z.leb_spec M lo); cbn [b2z].
  - rewrite chk by lia. rewrite bind_Some. do 2 f_equal.
    + rewrite (mod_eq ab M (hi + 1) (lo - M)) by lia. apply mod_eq with 1; lia.
    + symmetry. rewrite (div_eq ab M (hi + 1) (lo - M)) by lia. lia.
  - rewrite chk by lia. rewrite bind_Some. do 2 f_equal.
    + rewrite (mod_eq ab M hi lo) by lia. rewrite Z.mod_small; lia.
    + symmetry. rewrite (div_eq ab M hi lo) by lia. lia.
Qed.

Lemma U128_laws : laws mk128.
Proof.
  assert (P127 : 0 < 2 ^ 127) by reflexivity.
  constructor; cbn [U128_ops BITS uzero uone utwo umax ueqb ucmp is_even is_odd leading_zeros
    trailing_zeros incr decr oadd wadd osub wsub omul wmul uadd usub umul ushl ushr uand uor
    div_rem of_u128 uhi ulo lolo as_vec of_vec val]; intros; try reflexivity; try lia.
  - rewrite land_1, even_mod. reflexivity.
  - rewrite land_1, odd_mod. reflexivity.
  - rewrite u128_wmul_ok by auto. reflexivity.
  - rewrite addu_ok by lia. reflexivity.
  - rewrite subu_ok by lia. reflexivity.
  - rewrite mulu_ok by nia. reflexivity.
  - rewrite shlu_ok by lia. reflexivity.
  - rewrite shru_ok by lia. reflexivity.
  - change (128 / 2 - 1) with 63 in *. unfold divu, remu. destruct (Z.eqb_spec b 0). lia. reflexivity.
  - unfold divu, remu. destruct (Z.eqb_spec b 0). change (128 - 1) with 127 in *. lia. reflexivity.
  - change (128 / 2) with 64. unfold u128_lo. f_equal. apply lor_add. lia. apply Z.mod_pos_bound; lia.
  - cbn. split; [lia|]. split; [|lia]. constructor; [exact H|constructor].
  - destruct l as [|v [|w l]]; cbn [length] in *; try lia. reflexivity.
Qed.

End U128.


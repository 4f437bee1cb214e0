(** * BigExtra: instances of the laws (U256, U512, U1024) and the functions built
    on top of them *)

From Coq Require Import ZArith Lia Bool List.
From Verif Require Import Base BigUInt ZLemmas BigLaws BigUIntProofs.
From Verif Require Export Spec.
Open Scope Z_scope.


Notation of128 := mk128.
Notation of256 := (of_uint mk128).
Notation of512 := (of_uint (of_uint mk128)).
Notation of1024 := (of_uint (of_uint (of_uint mk128))).

Section Instances.
Context {P : profile}.

Lemma L128 : laws of128. Proof. exact U128_laws. Qed.
Lemma L256 : laws of256. Proof. apply uint_laws. exact L128. reflexivity. Qed.
Lemma L512 : laws of512. Proof. apply uint_laws. exact L256. reflexivity. Qed.
Lemma L1024 : laws of1024. Proof. apply uint_laws. exact L512. reflexivity. Qed.

(** Every U256, U512, ... with in-range components is [of v]. *)
Definition wf128 (x : U128) : Prop := 0 <= val x < 2 ^ 128.
Definition wf256 (x : U256) : Prop := wf128 (hi x) /\ wf128 (lo x).
Definition v256 (x : U256) : Z := val (hi x) * 2 ^ 128 + val (lo x).

Lemma of128_val x : mk128 (val x) = x. Proof. reflexivity. Qed.

Lemma v256_bound x : wf256 x -> 0 <= v256 x < 2 ^ 256.
Proof.
  intros [H1 H2]. unfold v256, wf128 in *. change (2 ^ 256) with (2 ^ 128 * 2 ^ 128).
  apply cat_bound; auto.
Qed.

Lemma of256_v256 x : wf256 x -> of256 (v256 x) = x.
Proof.
  intros [H1 H2]. unfold v256. erewrite (of_uint_eq mk128 _ (val (hi x)) (val (lo x))); eauto.
Qed.

Lemma of256_eq h l : 0 <= l < 2 ^ 128 -> of256 (h * 2 ^ 128 + l) = u256 h l.
Proof. intros. apply (of_uint_eq mk128 _ h l); auto. Qed.

Lemma wf256_of a : 0 <= a < 2 ^ 256 -> wf256 (of256 a).
Proof.
  intros. unfold wf256, wf128, of_uint; cbn [hi lo val BITS U128_ops]. split.
  apply div_bound. lia. change (2 ^ 128 * 2 ^ 128) with (2 ^ 256). lia.
  apply Z.mod_pos_bound; lia.
Qed.

Lemma v256_of a : v256 (of256 a) = a.
Proof.
  unfold v256, of_uint; cbn [hi lo val BITS U128_ops].
  rewrite Z.mul_comm. symmetry. apply Z.div_mod. lia.
Qed.

End Instances.

Section Generic.
Context {P : profile} {T : Type} {OT : ops T}.
Variable of : Z -> T.
Hypothesis L : laws of.
Hypothesis LL : laws (of_uint of).

Local Notation B := (@BITS T OT).
Local Notation M := (2 ^ B).

Ltac bnd := pose proof (B_pos of L) as HB; pose proof (B_u32 of L) as HB32;
  pose proof (M_pos of L) as HM; pose proof (M_pos' of L) as HM0.

Lemma bits_uint : @BITS (uint T) uint_ops = 2 * B. Proof. reflexivity. Qed.

Lemma rne_div_pow2_shift a n w : 0 < n < w -> 0 <= a ->
  ((2 ^ (w - 1) <? (a * 2 ^ (w - n)) mod 2 ^ w) = (2 ^ n <? 2 * (a mod 2 ^ n)))
  /\ (((a * 2 ^ (w - n)) mod 2 ^ w =? 2 ^ (w - 1)) = (2 * (a mod 2 ^ n) =? 2 ^ n)).
Proof.
  intros Hn Ha. rewrite shl_mod by lia. replace (w - (w - n)) with n by lia.
  assert (E : 2 ^ (w - 1) * 2 = 2 ^ n * 2 ^ (w - n)).
  { rewrite <- pow2_add by lia. rewrite Z.mul_comm, <- pow2_S by lia. f_equal; lia. }
  assert (P1 : 0 < 2 ^ (w - n)) by (apply pow2_pos; lia).
  set (r := a mod 2 ^ n). set (k := 2 ^ (w - n)) in *. set (t := 2 ^ (w - 1)) in *. set (m := 2 ^ n) in *.
  clearbody r k t m. clear - E P1.
  split.
  - destruct (Z.ltb_spec t (r * k)), (Z.ltb_spec m (2 * r)); auto; nia.
  - destruct (Z.eqb_spec (r * k) t), (Z.eqb_spec (2 * r) m); auto; nia.
Qed.

Lemma incr_small a : 0 <= a -> a + 1 < 2 ^ (2 * B) -> uint_incr (of_uint of a) = of_uint of (a + 1).
Proof.
  intros. bnd. pose proof (MM of L) as E. rewrite (H_incr of L) by lia. rewrite Z.mod_small by lia. reflexivity.
Qed.

Lemma rounding_div_pow2_ok a n : 0 <= a < 2 ^ (2 * B) -> 0 <= n < 2 * B -> (n = 0 \/ 0 < n) ->
  rounding_div_pow2 (of_uint of a) n = Some (of_uint of (rne_div a (2 ^ n))).
Proof.
  intros Ha Hn _. bnd. pose proof (MM of L) as E2.
  unfold rounding_div_pow2. rewrite subu_ok by lia. rewrite bind_Some.
  rewrite (L_one _ L), (L_shl _ L) by lia. rewrite bind_Some.
  assert (HT : 2 ^ (B - 1) * 2 = M) by (rewrite Z.mul_comm, <- pow2_S by lia; f_equal; lia).
  assert (HT0 : 0 < 2 ^ (B - 1)) by (apply pow2_pos; lia).
  rewrite Z.mul_1_l, (Z.mod_small (2 ^ (B - 1))) by lia. rewrite (L_zero _ L).
  rewrite <- (of_uint_eq of (2 ^ (B - 1) * M) (2 ^ (B - 1)) 0) by lia.
  replace (2 ^ (B - 1) * M) with (2 ^ (2 * B - 1)) by (rewrite <- pow2_add by lia; f_equal; lia).
  assert (HT2 : 2 ^ (2 * B - 1) * 2 = 2 ^ (2 * B)) by (rewrite Z.mul_comm, <- pow2_S by lia; f_equal; lia).
  assert (HT20 : 0 < 2 ^ (2 * B - 1)) by (apply pow2_pos; lia).
  rewrite (D_widening_shr _ LL) by (rewrite bits_uint; lia). rewrite bind_Some. rewrite bits_uint.
  pose proof (Z.mod_pos_bound (a * 2 ^ (2 * B - n)) (2 ^ (2 * B)) ltac:(lia)).
  rewrite (D_ugt _ LL) by (rewrite bits_uint; lia).
  rewrite (L_eqb _ LL) by (rewrite bits_uint; lia).
  change (is_odd (lo (of_uint of (a / 2 ^ n)))) with (uint_is_odd (of_uint of (a / 2 ^ n))).
  assert (P0 : 0 < 2 ^ n) by (apply pow2_pos; lia).
  assert (HQ : 0 <= a / 2 ^ n <= a).
  { split. apply Z.div_pos; lia. apply Z.div_le_upper_bound. lia. clear - Ha P0. nia. }
  rewrite (H_odd of L) by lia.
  unfold rne_div.
  destruct (Z.eq_dec n 0) as [->|Hn0].
  - rewrite Z.sub_0_r, Z.mod_mul by lia. change (2 ^ 0) with 1. rewrite Z.div_1_r, Z.mod_1_r.
    rewrite ltb_false by lia. replace (0 =? 2 ^ (2 * B - 1)) with false by (symmetry; apply Z.eqb_neq; lia).
    reflexivity.
  - destruct (rne_div_pow2_shift a n (2 * B)) as [-> ->]; try lia.
    set (c := _ || _). destruct c; auto.
    f_equal. apply incr_small. lia.
    assert (a / 2 ^ n <= 2 ^ (2 * B - 1) - 1); [|lia].
    cut (a / 2 ^ n < 2 ^ (2 * B - 1)). lia.
    apply Z.div_lt_upper_bound. lia.
    assert (2 ^ 1 <= 2 ^ n) by (apply pow2_le; lia). clear - H0 HT2 Ha HT20. nia.
Qed.

Lemma rem_pow2_ok a n : 0 <= a < 2 ^ (2 * B) -> 0 <= n ->
  rem_pow2 (of_uint of a) n = Some (of_uint of (a mod 2 ^ n)).
Proof.
  intros Ha Hn. bnd. pose proof (MM of L) as E2.
  unfold rem_pow2, uint_bits. change (hi (of_uint of a)) with (of (a / M)). change (lo (of_uint of a)) with (of (a mod M)).
  pose proof (Z.mod_pos_bound a M HM0) as Hl.
  assert (Hh : 0 <= a / M < M) by (apply div_bound; lia).
  destruct (Z.eqb_spec n 0).
  { subst. change (2 ^ 0) with 1. rewrite Z.mod_1_r. rewrite (H_zero of L). reflexivity. }
  destruct (Z.ltb_spec n B).
  { rewrite (L_shl _ L) by lia. rewrite bind_Some. rewrite shl_mod by lia.
    replace (B - (B - n)) with n by lia.
    assert (P1 : 0 < 2 ^ (B - n)) by (apply pow2_pos; lia).
    assert (P2 : 0 < 2 ^ n) by (apply pow2_pos; lia).
    assert (EM : M = 2 ^ n * 2 ^ (B - n)) by (apply pow2_split; lia).
    pose proof (Z.mod_pos_bound (a mod M) (2 ^ n) P2).
    rewrite (L_shr _ L) by (try lia; clear - H0 EM P1; nia). rewrite bind_Some.
    rewrite Z.div_mul by lia. rewrite (L_zero _ L). f_equal. symmetry.
    rewrite <- (of_uint_eq of (a mod M mod 2 ^ n) 0).
    2: lia. 2: { pose proof (pow2_lt n B). lia. }
    f_equal. rewrite EM. apply Znumtheory.Zmod_div_mod; try lia.
    exists (2 ^ (B - n)). lia. }
  destruct (Z.eqb_spec n B).
  { subst n. rewrite (L_zero _ L). f_equal. symmetry. apply of_uint_eq; auto. }
  destruct (Z.ltb_spec n (2 * B)).
  { set (k := n - B). replace (2 * B - n) with (B - k) by lia.
    rewrite (L_shl _ L) by lia. rewrite bind_Some. rewrite shl_mod by lia.
    replace (B - (B - k)) with k by lia.
    assert (P1 : 0 < 2 ^ (B - k)) by (apply pow2_pos; lia).
    assert (P2 : 0 < 2 ^ k) by (apply pow2_pos; lia).
    assert (EM : M = 2 ^ k * 2 ^ (B - k)) by (apply pow2_split; lia).
    pose proof (Z.mod_pos_bound (a / M) (2 ^ k) P2) as Hmk.
    rewrite (L_shr _ L) by (try lia; clear - Hmk EM P1; nia). rewrite bind_Some.
    rewrite Z.div_mul by lia. f_equal. symmetry. apply of_uint_eq; auto.
    replace (2 ^ n) with (2 ^ k * M) by (rewrite <- pow2_add by lia; f_equal; lia).
    rewrite (Z.mul_comm (2 ^ k)), Z.rem_mul_r by lia. lia. }
  f_equal. f_equal. symmetry. apply Z.mod_small. pose proof (pow2_le (2 * B) n). lia.
Qed.

End Generic.

Section Div128.
Context {P : profile}.

Lemma div128 a b : 0 <= a < 2 ^ 128 -> 0 < b < 2 ^ 128 ->
  div_rem (mk128 a) (mk128 b) = Some (mk128 (a / b), mk128 (a mod b)).
Proof.
  intros. cbn [div_rem U128_ops val]. unfold divu, remu. destruct (Z.eqb_spec b 0). lia. reflexivity.
Qed.

(** U256 by U128 *)
Lemma div256_128 a b : 0 <= a < 2 ^ 256 -> 0 < b < 2 ^ 128 ->
  div_rem_sub (of256 a) (of128 b) = Some (of256 (a / b), of128 (a mod b)).
Proof.
  intros. change (2 ^ 256) with (2 ^ 128 * 2 ^ 128) in *. apply (div_rem_sub_ok of128 L128); auto.
  - change (2 ^ BITS) with (2 ^ 128). intros. apply div128; lia.
  - change (2 ^ BITS) with (2 ^ 128). intros. apply div128; try lia. apply div_bound; lia.
Qed.

(** U256 by U256 whose high part is zero *)
Lemma div256_256lo f a b : 0 <= a < 2 ^ 256 -> 0 < b < 2 ^ 128 ->
  uint_div_rem_fuel (S f) (of256 a) (of256 b) = Some (of256 (a / b), of256 (a mod b)).
Proof.
  intros Ha Hb. cbn [uint_div_rem_fuel]. rewrite (H_zero of128 L128), (H_eqb of128 L128).
  2,3: change (2 ^ BITS * 2 ^ BITS) with (2 ^ 256); lia.
  rewrite dassert_ok by (destruct (Z.eqb_spec b 0); lia). rewrite bind_Some.
  rewrite (of_uint_eq of128 b 0 b) by (change (2 ^ BITS) with (2 ^ 128); lia). cbn [hi lo].
  change (is_zero (of128 0)) with true. cbv iota.
  rewrite div256_128 by auto. rewrite bind_Some. do 2 f_equal. symmetry.
  pose proof (Z.mod_pos_bound a b).
  apply (of_uint_eq of128); [|change (2 ^ BITS) with (2 ^ 128)]; lia.
Qed.

Lemma div_chunks_ok b : 0 < b < 2 ^ 128 -> forall l rem, Forall digit128 l -> 0 <= rem < b ->
  let v := rem * 2 ^ (128 * Z.of_nat (length l)) + vec_val l in
  exists l', div_chunks (mk128 rem) (mk128 b) l = Some (l', mk128 (v mod b))
    /\ Forall digit128 l' /\ length l' = length l /\ vec_val l' = v / b.
Proof.
  intros Hb. induction l as [|c l IH]; intros rem F Hr.
  - cbn [div_chunks length]. change (128 * Z.of_nat 0) with 0. change (2 ^ 0) with 1.
    change (vec_val []) with 0. cbv zeta. rewrite Z.mul_1_r, Z.add_0_r.
    exists []. rewrite Z.mod_small, Z.div_small by lia. repeat split; auto.
  - inversion F as [|? ? Hc Fl]; subst. cbn [div_chunks].
    unfold digit128 in Hc.
    assert (E : mk (mk128 rem) (mk128 c) = of256 (rem * 2 ^ 128 + c)).
    { symmetry. apply (of_uint_eq of128 _ rem c); auto. }
    rewrite E.
    assert (R : 0 <= rem * 2 ^ 128 + c < b * 2 ^ 128) by (apply cat_bound2; auto).
    rewrite div256_128. 2: { change (2 ^ 256) with (2 ^ 128 * 2 ^ 128). clear - R Hb. nia. } 2: auto.
    rewrite bind_Some.
    set (w := rem * 2 ^ 128 + c) in *.
    assert (Hq : 0 <= w / b < 2 ^ 128) by (apply div_bound; lia).
    rewrite (of_uint_eq of128 (w / b) 0 (w / b)) by (auto; lia). cbn [hi lo val].
    change (is_zero (of128 0)) with true. rewrite dassert_ok by reflexivity. rewrite bind_Some.
    pose proof (Z.mod_pos_bound w b ltac:(lia)) as Hm.
    destruct (IH (w mod b) Fl Hm) as (l' & El & Fl' & Nl & Vl). rewrite El, bind_Some.
    exists (w / b :: l').
    assert (EV : rem * 2 ^ (128 * Z.of_nat (length (c :: l))) + vec_val (c :: l)
                 = w * 2 ^ (128 * Z.of_nat (length l)) + vec_val l).
    { change (c :: l) with ([c] ++ l). rewrite vec_val_app, app_length.
      change (length [c]) with 1%nat. change (vec_val [c]) with (0 * 2 ^ 128 + c).
      replace (128 * Z.of_nat (1 + length l)) with (128 + 128 * Z.of_nat (length l)) by lia.
      rewrite pow2_add by lia. unfold w. ring. }
    rewrite EV. cbv zeta in Vl.
    set (K := 2 ^ (128 * Z.of_nat (length l))) in *. set (V := vec_val l) in *.
    pose proof (Z.div_mod w b ltac:(lia)) as Ew.
    assert (EVV : w * K + V = (w / b * K) * b + (w mod b * K + V)) by (rewrite Ew at 1; ring).
    repeat split.
    + do 3 f_equal. rewrite EVV. rewrite (Z.add_comm (w / b * K * b)), Z.mod_add by lia. reflexivity.
    + constructor; auto.
    + cbn [length]. lia.
    + change (w / b :: l') with ([w / b] ++ l'). rewrite vec_val_app, Nl, Vl.
      change (vec_val [w / b]) with (0 * 2 ^ 128 + w / b). fold K.
      rewrite EVV. rewrite (Z.add_comm (w / b * K * b)), Z.div_add by lia. lia.
Qed.

End Div128.

Section DivU128.
Context {P : profile} {T : Type} {OT : ops T}.
Variable of : Z -> T.
Hypothesis L : laws of.

Lemma div_rem_u128_ok a b : 0 <= a < 2 ^ (2 * BITS) -> 0 < b < 2 ^ 128 ->
  div_rem_u128 (of_uint of a) b = Some (of_uint of (a / b), a mod b).
Proof.
  intros Ha Hb. pose proof (MM of L) as E2. rewrite E2 in Ha.
  pose proof (B_pos of L) as HB.
  destruct (H_vec of L a Ha) as (V & F & N).
  unfold div_rem_u128. change (@as_vec (uint T) uint_ops) with (@uint_as_vec T OT).
  destruct (uint_as_vec (of_uint of a)) as [|c l] eqn:EL.
  { cbn [length] in N. lia. }
  inversion F as [|? ? Hc Fl]; subst. unfold digit128 in Hc.
  unfold remu, divu. destruct (Z.eqb_spec b 0); [lia|]. rewrite !bind_Some.
  pose proof (Z.mod_pos_bound c b ltac:(lia)).
  destruct (div_chunks_ok b Hb l (c mod b) Fl ltac:(lia)) as (l' & El & Fl' & Nl & Vl).
  rewrite El, bind_Some. cbn [val].
  assert (Hcq : 0 <= c / b <= c).
  { split. apply Z.div_pos; lia. apply Z.div_le_upper_bound. lia. clear - Hc Hb. nia. }
  rewrite (H_of_vec of L).
  2: { constructor; auto. unfold digit128. lia. }
  2: { cbn [length] in *. lia. }
  rewrite bind_Some.
  set (K := 2 ^ (128 * Z.of_nat (length l))) in *.
  assert (EV : vec_val (c :: l) = c * K + vec_val l).
  { change (c :: l) with ([c] ++ l). rewrite vec_val_app. change (vec_val [c]) with (0 * 2 ^ 128 + c). fold K. ring. }
  assert (EQ : vec_val (c / b :: l') = c / b * K + vec_val l').
  { change (c / b :: l') with ([c / b] ++ l'). rewrite vec_val_app, Nl. change (vec_val [c / b]) with (0 * 2 ^ 128 + c / b). fold K. ring. }
  pose proof (Z.div_mod c b ltac:(lia)) as Ec.
  assert (EVV : vec_val (c :: l) = (c / b * K) * b + (c mod b * K + vec_val l)) by (rewrite EV; rewrite Ec at 1; ring).
  cbv zeta in Vl.
  do 2 f_equal; [f_equal|].
  - rewrite EQ, Vl, EVV. rewrite (Z.add_comm (c / b * K * b)), Z.div_add by lia. lia.
  - rewrite EVV. rewrite (Z.add_comm (c / b * K * b)), Z.mod_add by lia. reflexivity.
Qed.

End DivU128.

Section U256fn.
Context {P : profile}.

Lemma shift_left_ok a n : 0 <= a < 2 ^ 256 -> 0 <= n < 256 ->
  shift_left (of256 a) n = Some (of256 ((a * 2 ^ n) mod 2 ^ 256)).
Proof.
  intros Ha Hn. unfold shift_left. rewrite dassert_ok by (apply ltb_true; lia). rewrite bind_Some.
  set (h := a / 2 ^ 128). set (l := a mod 2 ^ 128).
  change (val (hi (of256 a))) with h. change (val (lo (of256 a))) with l.
  assert (Ea : a = h * 2 ^ 128 + l) by (unfold h, l; rewrite Z.mul_comm; apply Z.div_mod; lia).
  assert (Hl : 0 <= l < 2 ^ 128) by (apply Z.mod_pos_bound; lia).
  assert (Hh : 0 <= h < 2 ^ 128). { apply div_bound. lia. change (2 ^ 128 * 2 ^ 128) with (2 ^ 256). lia. }
  pose proof (H_shl of128 L128 a n Ha ltac:(change (2 * BITS) with 256; lia)) as HS.
  change (2 ^ BITS * 2 ^ BITS) with (2 ^ 256) in HS.
  rewrite <- HS. unfold uint_shl, uint_bits. change (2 * BITS) with 256. change (@BITS U128 U128_ops) with 128.
  rewrite dassert_ok by (apply ltb_true; lia). rewrite bind_Some.
  change (hi (of256 a)) with (of128 h). change (lo (of256 a)) with (of128 l).
  destruct (Z.leb_spec 1 n), (Z.leb_spec n 127); cbn [andb].
  - rewrite (ltb_true 0 n), (ltb_true n 128) by lia. cbn [andb].
    rewrite (D_widening_shl of128 L128) by (change (2 ^ BITS) with (2 ^ 128); change (@BITS U128 U128_ops) with 128; lia).
    rewrite bind_Some. change (2 ^ BITS) with (2 ^ 128); change (@BITS U128 U128_ops) with 128.
    assert (0 < 2 ^ n) by (apply pow2_pos; lia).
    assert (0 < 2 ^ (128 - n)) by (apply pow2_pos; lia).
    assert (EM : 2 ^ 128 = 2 ^ n * 2 ^ (128 - n)) by (apply pow2_split; lia).
    rewrite (D_carrying_shl of128 L128).
    2: exact Hh. 2: change (@BITS U128 U128_ops) with 128; lia.
    2: apply div_bound; lia.
    rewrite !shlu_ok, !shru_ok by lia. rewrite !bind_Some.
    f_equal. unfold u256. f_equal. f_equal. change (2 ^ BITS) with (2 ^ 128).
    rewrite shl_mod by lia. apply lor_add. lia. apply div_bound; lia.
  - destruct (Z.eqb_spec n 128).
    + subst n. reflexivity.
    + rewrite (ltb_false n 128) by lia. rewrite andb_false_r.
      rewrite (leb_true 129 n), (leb_true n 255) by lia. cbn [andb].
      rewrite (ltb_true 128 n) by lia.
      rewrite shlu_ok by lia. rewrite bind_Some.
      rewrite (L_shl _ L128) by (change (2 ^ BITS) with (2 ^ 128); change (@BITS U128 U128_ops) with 128; lia).
      reflexivity.
  - assert (n = 0) by lia. subst n. reflexivity.
  - lia.
Qed.

Lemma div_rem_u64_ok a b : 0 <= a < 2 ^ 256 -> 0 < b < 2 ^ 64 ->
  div_rem_u64 (of256 a) b = Some (of256 (a / b), a mod b).
Proof.
  intros Ha Hb. unfold div_rem_u64.
  set (h := a / 2 ^ 128). set (l := a mod 2 ^ 128).
  change (hi (of256 a)) with (of128 h). change (lo (of256 a)) with (of128 l).
  assert (Ea : a = h * 2 ^ 128 + l) by (unfold h, l; rewrite Z.mul_comm; apply Z.div_mod; lia).
  assert (Hl : 0 <= l < 2 ^ 128) by (apply Z.mod_pos_bound; lia).
  assert (Hh : 0 <= h < 2 ^ 128). { apply div_bound. lia. change (2 ^ 128 * 2 ^ 128) with (2 ^ 256). lia. }
  clearbody h l.
  rewrite div128 by lia. rewrite bind_Some.
  pose proof (Z.mod_pos_bound h b ltac:(lia)).
  rewrite <- (of_uint_eq of128 (h mod b * 2 ^ 128 + l) (h mod b) l) by auto.
  assert (R : 0 <= h mod b * 2 ^ 128 + l < b * 2 ^ 128) by (apply cat_bound2; auto).
  rewrite (div_rem_u128_ok of128 L128).
  2: { change (2 ^ (2 * BITS)) with (2 ^ 128 * 2 ^ 128). clear - R Hb. nia. }
  2: lia.
  rewrite bind_Some. set (w := h mod b * 2 ^ 128 + l) in *.
  assert (Hq : 0 <= w / b < 2 ^ 128) by (apply div_bound; lia).
  rewrite (of_uint_eq of128 (w / b) 0 (w / b)) by (auto; lia). cbn [hi lo].
  change (is_zero (of128 0)) with true. rewrite dassert_ok by reflexivity. rewrite bind_Some.
  pose proof (Z.mod_pos_bound w b ltac:(lia)).
  rewrite castu_ok by lia.
  pose proof (Z.div_mod h b ltac:(lia)) as Eh.
  pose proof (Z.div_mod w b ltac:(lia)) as Ew.
  assert (EA : a = (h / b * 2 ^ 128 + w / b) * b + w mod b).
  { replace ((h / b * 2 ^ 128 + w / b) * b + w mod b) with (h / b * 2 ^ 128 * b + (b * (w / b) + w mod b)) by ring.
    rewrite <- Ew. unfold w. rewrite Ea. rewrite Eh at 1. ring. }
  rewrite (div_eq _ _ _ _ EA), (mod_eq _ _ _ _ EA) by auto.
  do 2 f_equal. symmetry. apply (of_uint_eq of128); auto.
Qed.

Lemma imul10_add_ok a d : 0 <= a -> 0 <= d < 10 -> 10 * a + d < 2 ^ 256 ->
  imul10_add (of256 a) d = Some (of256 (10 * a + d)).
Proof.
  intros Ha Hd Hlt. unfold imul10_add.
  set (X := u256 _ _).
  assert (EX : X = of256 11579208923731619542357098500868790785326998466564056403945758400791312963993).
  { symmetry. apply (of_uint_eq of128); [reflexivity|]. split; reflexivity || discriminate. }
  rewrite EX. clear X EX.
  assert (Ha2 : 0 <= a < 2 ^ 256) by lia.
  rewrite (D_ule of256 L256) by (change (2 ^ BITS) with (2 ^ 256); lia).
  rewrite dassert_ok by (apply leb_true; lia). rewrite bind_Some.
  rewrite dassert_ok by (apply ltb_true; lia). rewrite bind_Some.
  change (val (hi (of256 a))) with (a / 2 ^ 128). change (val (lo (of256 a))) with (a mod 2 ^ 128).
  unfold u128_hi, u128_lo.
  set (S := 2 ^ 64).
  assert (SS : 2 ^ 128 = S * S) by reflexivity.
  assert (S4 : 2 ^ 256 = S * S * S * S) by reflexivity.
  assert (HS : 1000 < S) by reflexivity.
  rewrite SS. rewrite S4 in *.
  pose proof (Z.div_mod a (S * S) ltac:(lia)) as E0.
  pose proof (Z.mod_pos_bound a (S * S) ltac:(lia)) as R0.
  assert (Rq : 0 <= a / (S * S) < S * S) by (apply div_bound; lia).
  set (h := a / (S * S)) in *. set (l := a mod (S * S)) in *. clearbody h l.
  pose proof (Z.div_mod h S ltac:(lia)) as E1. pose proof (Z.mod_pos_bound h S ltac:(lia)) as R1.
  assert (R1q : 0 <= h / S < S) by (apply div_bound; lia).
  pose proof (Z.div_mod l S ltac:(lia)) as E2. pose proof (Z.mod_pos_bound l S ltac:(lia)) as R2.
  assert (R2q : 0 <= l / S < S) by (apply div_bound; lia).
  set (hh := h / S) in *. set (hl := h mod S) in *. set (lh := l / S) in *. set (ll := l mod S) in *.
  clearbody hh hl lh ll.
  assert (CH : forall x, 0 <= x < S * S -> chku 128 x = Some x) by (intros; apply chku_ok; rewrite SS; auto).
  unfold mulu, addu. assert (SH : forall x, shlu 128 x 64 = Some ((x * S) mod (S * S))) by reflexivity.
  assert (BIG : 1000 * S < S * S) by (clear - HS; nia).
  rewrite (CH (ll * 10)) by lia. rewrite bind_Some. rewrite (CH (ll * 10 + d)) by lia. rewrite bind_Some.
  pose proof (Z.div_mod (ll * 10 + d) S ltac:(lia)) as T1. pose proof (Z.mod_pos_bound (ll * 10 + d) S ltac:(lia)) as B1.
  set (c1 := (ll * 10 + d) / S) in *. set (r1 := (ll * 10 + d) mod S) in *. clearbody c1 r1.
  assert (C1 : 0 <= c1 < 10) by (clear - T1 B1 R2 Hd HS; nia).
  rewrite (CH (lh * 10)) by lia. rewrite bind_Some. rewrite (CH (lh * 10 + c1)) by lia. rewrite bind_Some.
  rewrite SH, bind_Some. rewrite Z.mul_mod_distr_r by lia.
  pose proof (Z.div_mod (lh * 10 + c1) S ltac:(lia)) as T2. pose proof (Z.mod_pos_bound (lh * 10 + c1) S ltac:(lia)) as B2.
  set (c2 := (lh * 10 + c1) / S) in *. set (r2 := (lh * 10 + c1) mod S) in *. clearbody c2 r2.
  assert (C2 : 0 <= c2 < 10) by (clear - T2 B2 R2q C1 HS; nia).
  pose proof (cat_bound r2 r1 S B2 B1) as K1.
  rewrite (CH (r1 + r2 * S)) by lia. rewrite bind_Some.
  rewrite (CH (hl * 10)) by lia. rewrite bind_Some. rewrite (CH (hl * 10 + c2)) by lia. rewrite bind_Some.
  pose proof (Z.div_mod (hl * 10 + c2) S ltac:(lia)) as T3. pose proof (Z.mod_pos_bound (hl * 10 + c2) S ltac:(lia)) as B3.
  set (c3 := (hl * 10 + c2) / S) in *. set (r3 := (hl * 10 + c2) mod S) in *. clearbody c3 r3.
  assert (C3 : 0 <= c3 < 10) by (clear - T3 B3 R1 C2 HS; nia).
  rewrite (CH (hh * 10)) by lia. rewrite bind_Some. rewrite (CH (hh * 10 + c3)) by lia. rewrite bind_Some.
  rewrite SH, bind_Some. rewrite Z.mul_mod_distr_r by lia.
  assert (EA : 10 * a + d = (hh * 10 + c3) * (S * S * S) + r3 * (S * S) + (r2 * S + r1)).
  { rewrite E0, E1, E2. clear - T1 T2 T3.
    replace (10 * (S * S * (S * hh + hl) + (S * lh + ll)) + d)
      with (S * S * S * (hh * 10) + S * S * (hl * 10) + S * (lh * 10) + (ll * 10 + d)) by ring.
    rewrite T1. replace (S * (lh * 10) + (S * c1 + r1)) with (S * (lh * 10 + c1) + r1) by ring.
    replace (S * S * S * (hh * 10) + S * S * (hl * 10) + S * (lh * 10) + (S * c1 + r1))
      with (S * S * S * (hh * 10) + S * S * (hl * 10) + S * (lh * 10 + c1) + r1) by ring.
    rewrite T2.
    replace (S * S * S * (hh * 10) + S * S * (hl * 10) + S * (S * c2 + r2) + r1)
      with (S * S * S * (hh * 10) + S * S * (hl * 10 + c2) + S * r2 + r1) by ring.
    rewrite T3. ring. }
  assert (HH : hh * 10 + c3 < S).
  { assert (0 <= r3 * (S * S)) by (clear - B3 HS; nia).
    assert ((hh * 10 + c3) * (S * S * S) < S * (S * S * S)) by lia.
    clear - H0 HS. nia. }
  rewrite (Z.mod_small (hh * 10 + c3)) by lia.
  pose proof (cat_bound (hh * 10 + c3) r3 S ltac:(lia) B3) as K2.
  rewrite (CH (r3 + (hh * 10 + c3) * S)) by lia. rewrite bind_Some.
  f_equal. symmetry. apply (of_uint_eq of128).
  - change (2 ^ BITS) with (S * S). rewrite EA. ring.
  - change (2 ^ BITS) with (S * S). lia.
Qed.

Lemma rne_div_bound n d : 0 <= n -> 0 < d -> 0 <= rne_div n d <= n / d + 1.
Proof.
  intros. unfold rne_div. assert (0 <= n / d) by (apply Z.div_pos; lia).
  destruct (_ || _); lia.
Qed.

Lemma incr512 a : 0 <= a -> a + 1 < 2 ^ 512 -> incr (of512 a) = of512 (a + 1).
Proof. intros. apply (incr_small of256 L256); auto. Qed.

Lemma div_pow10_chunks_ok k : forall a z, 0 <= a < 2 ^ 512 ->
  div_pow10_chunks k (of512 a) z
  = Some (of512 (a / 10 ^ (38 * Z.of_nat k)), z && (a mod 10 ^ (38 * Z.of_nat k) =? 0)).
Proof.
  induction k as [|k IH]; intros a z Ha.
  - cbn [div_pow10_chunks]. change (10 ^ (38 * Z.of_nat 0)) with 1.
    rewrite Z.div_1_r, Z.mod_1_r. cbn. rewrite andb_true_r. reflexivity.
  - cbn [div_pow10_chunks]. rewrite (div_rem_u128_ok of256 L256) by (auto; lia). rewrite bind_Some.
    assert (P38 : 0 < 10 ^ 38) by lia.
    rewrite IH.
    2: { split. apply Z.div_pos; lia. apply Z.le_lt_trans with a; [|lia]. apply Z.div_le_upper_bound; lia. }
    assert (Pk : 0 < 10 ^ (38 * Z.of_nat k)) by (apply Z.pow_pos_nonneg; lia).
    replace (10 ^ (38 * Z.of_nat (S k))) with (10 ^ 38 * 10 ^ (38 * Z.of_nat k)).
    2: { rewrite <- Z.pow_add_r by lia. f_equal. lia. }
    rewrite Z.div_div by lia. do 2 f_equal.
    rewrite <- andb_assoc. f_equal.
    rewrite Z.rem_mul_r by lia.
    set (K := 10 ^ (38 * Z.of_nat k)) in *.
    pose proof (Z.mod_pos_bound a (10 ^ 38) P38). pose proof (Z.mod_pos_bound (a / 10 ^ 38) K Pk).
    set (r := a mod 10 ^ 38) in *. set (s := (a / 10 ^ 38) mod K) in *. clearbody r s.
    clear - H H0 P38.
    destruct (Z.eqb_spec r 0), (Z.eqb_spec s 0), (Z.eqb_spec (r + 10 ^ 38 * s) 0); cbn [andb]; auto; lia.
Qed.

Lemma rounding_div_pow10_ok a n : 0 <= a < 2 ^ 512 -> 0 < n < 2 ^ 32 ->
  rounding_div_pow10 (of512 a) n = Some (of512 (rne_div a (10 ^ n))).
Proof.
  intros Ha Hn. unfold rounding_div_pow10.
  rewrite dassert_ok by (destruct (Z.eqb_spec n 0); auto; lia). rewrite bind_Some.
  assert (Hdiv : forall m, 2 <= m -> 0 <= a / m /\ a / m + 1 < 2 ^ 512).
  { intros m Hm. split. apply Z.div_pos; lia.
    change (2 ^ 512) with (2 * 2 ^ 511) in *. assert (1 < 2 ^ 511) by reflexivity.
    cut (a / m < 2 ^ 511). clear - H. intros; lia. apply Z.div_lt_upper_bound. lia.
    clear - Hm Ha H. nia. }
  assert (P10 : forall m, 0 < m -> 10 <= 10 ^ m).
  { intros m Hm. change 10 with (10 ^ 1) at 1. apply Z.pow_le_mono_r; lia. }
  assert (EV : forall m, 0 < m -> 10 ^ m = 2 * (10 ^ m / 2)).
  { intros m Hm. replace (10 ^ m) with (2 * (5 * 10 ^ (m - 1))).
    rewrite Z.mul_comm at 2. rewrite Z.div_mul by lia. lia.
    replace m with (m - 1 + 1) at 2 by lia. rewrite Z.pow_add_r by lia. lia. }
  destruct (Z.leb_spec n 38).
  - assert (U : 10 ^ n < 2 ^ 128).
    { apply Z.le_lt_trans with (10 ^ 38). apply Z.pow_le_mono_r; lia. reflexivity. }
    pose proof (P10 n ltac:(lia)).
    rewrite (div_rem_u128_ok of256 L256) by (auto; lia). rewrite bind_Some. f_equal.
    rewrite (L_odd _ L512) by (change (2 ^ BITS) with (2 ^ 512); pose proof (Hdiv (10 ^ n)); lia).
    unfold rne_div. pose proof (EV n ltac:(lia)) as E. pose proof (Hdiv (10 ^ n) ltac:(lia)) as [D1 D2].
    set (d := 10 ^ n) in *. set (t := d / 2) in *. clearbody t d.
    replace (t <? a mod d) with (d <? 2 * (a mod d)) by (destruct (Z.ltb_spec d (2 * (a mod d))), (Z.ltb_spec t (a mod d)); auto; lia).
    replace (a mod d =? t) with (2 * (a mod d) =? d) by (destruct (Z.eqb_spec (2 * (a mod d)) d), (Z.eqb_spec (a mod d) t); auto; lia).
    destruct (_ || _); auto. apply incr512; auto.
  - set (k := (n - 1) / 38).
    pose proof (Z.div_mod (n - 1) 38 ltac:(lia)) as Ek. pose proof (Z.mod_pos_bound (n - 1) 38 ltac:(lia)) as Rk.
    fold k in Ek.
    assert (Hk : 0 <= k) by (apply Z.div_pos; lia).
    rewrite div_pow10_chunks_ok by auto. rewrite bind_Some. rewrite Z2Nat.id by lia.
    set (m := n - k * 38). assert (Hm : 0 < m <= 38) by lia.
    pose proof (P10 m ltac:(lia)).
    assert (U : 10 ^ m < 2 ^ 128).
    { apply Z.le_lt_trans with (10 ^ 38). apply Z.pow_le_mono_r; lia. reflexivity. }
    assert (Pk : 0 < 10 ^ (38 * k)) by (apply Z.pow_pos_nonneg; lia).
    rewrite (div_rem_u128_ok of256 L256).
    2: { change (2 ^ (2 * BITS)) with (2 ^ 512). split. apply Z.div_pos; lia. apply Z.le_lt_trans with a; [|lia]. apply Z.div_le_upper_bound. lia. clear - Pk Ha. nia. }
    2: lia.
    rewrite bind_Some.
    assert (En : 10 ^ n = 10 ^ (38 * k) * 10 ^ m) by (rewrite <- Z.pow_add_r by lia; f_equal; lia).
    rewrite Z.div_div by lia. rewrite <- En.
    assert (P10n : 10 <= 10 ^ n) by (apply P10; lia).
    pose proof (Hdiv (10 ^ n) ltac:(lia)) as [D1 D2].
    rewrite (L_odd _ L512) by (change (2 ^ BITS) with (2 ^ 512); lia).
    f_equal. unfold rne_div.
    pose proof (EV m ltac:(lia)) as E.
    assert (ER : a mod 10 ^ n = a mod 10 ^ (38 * k) + 10 ^ (38 * k) * ((a / 10 ^ (38 * k)) mod 10 ^ m)).
    { rewrite En. apply Z.rem_mul_r; lia. }
    pose proof (Z.mod_pos_bound a (10 ^ (38 * k)) Pk) as R1.
    pose proof (Z.mod_pos_bound (a / 10 ^ (38 * k)) (10 ^ m) ltac:(lia)) as R2.
    rewrite En in ER |- *. rewrite ER.
    set (r1 := a mod 10 ^ (38 * k)) in *. set (r2 := (a / 10 ^ (38 * k)) mod 10 ^ m) in *.
    set (K := 10 ^ (38 * k)) in *. set (d := 10 ^ m) in *. set (t := d / 2) in *.
    rewrite <- En. set (odd := Z.odd (a / 10 ^ n)). cbn [andb].
    rewrite En. fold d K. clearbody r1 r2 K d t odd.
    replace ((t <? r2) || (r2 =? t) && (odd || negb (r1 =? 0)))
      with ((K * d <? 2 * (r1 + K * r2)) || (2 * (r1 + K * r2) =? K * d) && odd).
    + rewrite <- En. destruct (_ || _); auto. apply incr512; auto.
    + clear - E R1 R2 Pk.
      destruct (Z.ltb_spec t r2) as [A|A]; cbn [orb].
      * rewrite (proj2 (Z.ltb_lt _ _)). reflexivity. rewrite E. nia.
      * destruct (Z.eqb_spec r2 t) as [A2|A2]; cbn [andb].
        -- subst r2. destruct (Z.eqb_spec r1 0); cbn [negb orb].
           ++ subst r1. rewrite (proj2 (Z.ltb_ge _ _)), (proj2 (Z.eqb_eq _ _)) by (rewrite E; nia).
              cbn. rewrite orb_false_r. reflexivity.
           ++ rewrite (proj2 (Z.ltb_lt _ _)) by (rewrite E; nia). rewrite orb_true_r. reflexivity.
        -- rewrite (proj2 (Z.ltb_ge _ _)), (proj2 (Z.eqb_neq _ _)) by (rewrite E; nia). reflexivity.
Qed.

End U256fn.

(** * PrintText: the digits of an integer, and the text of the printer as a literal *)

From Coq Require Import ZArith List Bool Lia.
From Verif Require Import Base ZLemmas BigUInt BigLaws BigUIntProofs BigExtra F256 F256Lemmas Spec Parse SpecParse ChunkLemmas
  ParseProofs ReadProofs Print.
Import ListNotations.
Open Scope Z_scope.

Local Notation len l := (Z.of_nat (length l)).
Lemma dval_app a b : dval (a ++ b) = dval a * 10 ^ len b + dval b.
Proof. exact (ParseProofs.dval_app a b). Qed.
Lemma dval_bound ds : is_dec ds -> 0 <= dval ds < 10 ^ len ds.
Proof. exact (ParseProofs.dval_bound ds). Qed.

(** The decimal digits of [v] without leading zeros (zero has one digit) *)
Definition digits_for (v : Z) (ds : list Z) : Prop :=
  is_dec ds /\ dval ds = v /\ ds <> [] /\ (v <> 0 -> 10 ^ (len ds - 1) <= v) /\ (v = 0 -> ds = [0]).

Lemma ascii_app a b : ascii (a ++ b) = ascii a ++ ascii b.
Proof. apply map_app. Qed.
Lemma ascii_len a : length (ascii a) = length a.
Proof. apply map_length. Qed.
Lemma ascii_zeroes n : repeat 48 n = ascii (repeat 0 n).
Proof. unfold ascii. induction n; cbn [repeat map]; [auto|rewrite IHn; auto]. Qed.
Lemma is_dec_app a b : is_dec a -> is_dec b -> is_dec (a ++ b).
Proof. intros. apply Forall_app. auto. Qed.
Lemma is_dec_zeros n : is_dec (repeat 0 n).
Proof. induction n; constructor; auto. lia. Qed.
Lemma len_app (a b : list Z) : len (a ++ b) = len a + len b.
Proof. rewrite app_length. lia. Qed.
Lemma len_repeat (x : Z) n : len (repeat x n) = Z.of_nat n.
Proof. rewrite repeat_length. auto. Qed.

Lemma digits_one v : 0 <= v < 10 -> digits_for v [v].
Proof.
  intros Hv. split; [constructor; [lia|constructor]|]. split; [change (dval [v]) with (10 * 0 + v); lia|].
  split; [discriminate|]. split; [|intros ->; auto]. change (10 ^ (len [v] - 1)) with 1. lia.
Qed.

Lemma dec_digits_ok fuel : forall v acc, 0 <= v < 10 ^ Z.of_nat (S fuel) ->
  exists ds, dec_digits_of (S fuel) v acc = ascii ds ++ acc /\ digits_for v ds.
Proof.
  induction fuel as [|fuel IH]; intros v acc Hv.
  - change (10 ^ Z.of_nat 1) with 10 in Hv. exists [v]. cbn [dec_digits_of].
    rewrite Z.mod_small, Z.div_small by lia. split; [reflexivity|].
    apply digits_one. lia.
  - change (dec_digits_of (S (S fuel)) v acc) with
      (let acc := (48 + v mod 10) :: acc in if v / 10 =? 0 then acc else dec_digits_of (S fuel) (v / 10) acc).
    cbv zeta. pose proof (Z.mod_pos_bound v 10 ltac:(lia)) as M. pose proof (Z.div_mod v 10 ltac:(lia)) as D.
    assert (0 <= v / 10) by (apply Z.div_pos; lia).
    destruct (Z.eqb_spec (v / 10) 0) as [E|E].
    + assert (v mod 10 = v) by lia. exists [v]. split. { rewrite H0. reflexivity. }
      apply digits_one. lia.
    + destruct (IH (v / 10) ((48 + v mod 10) :: acc)) as (ds & Ed & Dd & Dv & Dn & Dl & Dz).
      { rewrite Nat2Z.inj_succ, Z.pow_succ_r in Hv by lia. split; [lia|]. apply Z.div_lt_upper_bound; lia. }
      exists (ds ++ [v mod 10]). split.
      { rewrite Ed, ascii_app. rewrite <- app_assoc. reflexivity. }
      split; [apply is_dec_app; auto; constructor; [lia|constructor]|].
      split; [rewrite dval_snoc, Dv; lia|]. split; [destruct ds; discriminate|]. split; [|lia].
      intros _. specialize (Dl E).
      replace (len (ds ++ [v mod 10]) - 1) with (len ds - 1 + 1) by (rewrite app_length; cbn [length]; lia).
      assert (0 < len ds) by (destruct ds; [congruence|cbn [length]; lia]).
      rewrite Z.pow_add_r by lia. change (10 ^ 1) with 10. lia.
Qed.

Lemma pow128_39 : 2 ^ 128 <= 10 ^ Z.of_nat 39.
Proof. vm_compute. discriminate. Qed.

Lemma u128_text_ok v : 0 <= v < 2 ^ 128 -> exists ds, u128_text v = ascii ds /\ digits_for v ds.
Proof.
  intros Hv. destruct (dec_digits_ok 38 v []) as (ds & E & D).
  { split; [lia|]. eapply Z.lt_le_trans; [|apply pow128_39]. lia. }
  exists ds. split; auto. unfold u128_text. rewrite E, app_nil_r. reflexivity.
Qed.

Lemma digits_len v ds k : digits_for v ds -> 0 <= v < 10 ^ k -> 1 <= k -> len ds <= k.
Proof.
  intros (_ & _ & Dn & Dl & Dz) Hv Hk. destruct (Z.eq_dec v 0) as [E|N].
  - rewrite (Dz E). cbn. lia.
  - specialize (Dl N). destruct (Z.le_gt_cases (len ds) k); auto.
    assert (10 ^ k <= 10 ^ (len ds - 1)) by (apply Z.pow_le_mono_r; lia). lia.
Qed.

Lemma u128_text38_ok v : 0 <= v < 10 ^ 38 -> exists ds, u128_text38 v = ascii ds /\ is_dec ds /\ dval ds = v /\ len ds = 38.
Proof.
  intros Hv. destruct (u128_text_ok v) as (ds & E & D); [lia|].
  pose proof (digits_len v ds 38 D Hv ltac:(lia)) as L. destruct D as (D1 & D2 & _).
  exists (repeat 0 (38 - length ds) ++ ds). unfold u128_text38. rewrite E, ascii_app, ascii_len, ascii_zeroes.
  split; [reflexivity|]. split; [apply is_dec_app; auto; apply is_dec_zeros|]. split; [rewrite dval_repeat0; auto|].
  rewrite len_app, len_repeat. lia.
Qed.

Section Text.
Context {P : profile}.

Lemma u256_is_zero_ok a : 0 <= a < 2 ^ 256 -> u256_is_zero (of256 a) = (a =? 0).
Proof.
  intros Ha. unfold u256_is_zero. change (val (hi (of256 a))) with (a / 2 ^ 128). change (val (lo (of256 a))) with (a mod 2 ^ 128).
  pose proof (Z.div_mod a (2 ^ 128) ltac:(lia)). pose proof (Z.mod_pos_bound a (2 ^ 128) ltac:(lia)).
  destruct (Z.eqb_spec (a / 2 ^ 128) 0), (Z.eqb_spec (a mod 2 ^ 128) 0), (Z.eqb_spec a 0); cbn [andb]; auto; try lia.
Qed.

Lemma seg_step fuel t acc : 0 < t < 2 ^ 256 ->
  segments (S fuel) (of256 t) acc = segments fuel (of256 (t / 10 ^ 38)) (t mod 10 ^ 38 :: acc).
Proof.
  intros Ht. cbn [segments]. rewrite u256_is_zero_ok by lia. rewrite (proj2 (Z.eqb_neq t 0)) by lia.
  rewrite (div_rem_u128_ok of128 L128) by (change (2 ^ (2 * BITS)) with (2 ^ 256); lia). rewrite bind_Some. reflexivity.
Qed.
Lemma seg_stop fuel acc : segments (S fuel) (of256 0) acc = Some acc.
Proof. cbn [segments]. rewrite u256_is_zero_ok by lia. reflexivity. Qed.

Lemma digits_app v h a b : digits_for h a -> 0 < h -> is_dec b -> v = h * 10 ^ len b + dval b -> digits_for v (a ++ b).
Proof.
  intros (D1 & D2 & D3 & D4 & D5) Hh Db ->.
  pose proof (dval_bound b Db) as Bb. assert (0 < 10 ^ len b) by (apply Z.pow_pos_nonneg; lia).
  split; [apply is_dec_app; auto|]. split; [rewrite dval_app, D2; reflexivity|].
  split; [destruct a; [congruence|discriminate]|]. split; [|intros; nia].
  intros _. assert (0 < len a) by (destruct a; [congruence|cbn [length]; lia]).
  rewrite len_app. replace (len a + len b - 1) with (len a - 1 + len b) by lia.
  rewrite Z.pow_add_r by lia. specialize (D4 ltac:(lia)).
  assert (10 ^ (len a - 1) * 10 ^ len b <= h * 10 ^ len b) by (apply Z.mul_le_mono_nonneg_r; lia). lia.
Qed.

Lemma u256_text_ok w : 0 <= w < 2 ^ 256 -> exists ds, u256_text (of256 w) = Some (ascii ds) /\ digits_for w ds.
Proof.
  intros Hw. unfold u256_text.
  change (is_zero (hi (of256 w))) with (w / 2 ^ 128 =? 0). change (val (lo (of256 w))) with (w mod 2 ^ 128).
  destruct (Z.eqb_spec (w / 2 ^ 128) 0) as [E|E].
  - assert (w < 2 ^ 128). { pose proof (Z.div_mod w (2 ^ 128) ltac:(lia)). pose proof (Z.mod_pos_bound w (2 ^ 128) ltac:(lia)). lia. }
    rewrite Z.mod_small by lia. destruct (u128_text_ok w) as (ds & -> & D); [lia|]. exists ds. auto.
  - assert (HW : 2 ^ 128 <= w).
    { destruct (Z.le_gt_cases (2 ^ 128) w); auto. rewrite Z.div_small in E by lia. congruence. }
    rewrite seg_step by lia. set (w1 := w / 10 ^ 38). set (r0 := w mod 10 ^ 38).
    assert (R0 : 0 <= r0 < 10 ^ 38) by (apply Z.mod_pos_bound; lia).
    assert (E0 : w = w1 * 10 ^ 38 + r0) by (unfold w1, r0; rewrite Z.mul_comm; apply Z.div_mod; lia).
    assert (H1 : 0 < w1 < 10 ^ 40).
    { split. unfold w1. apply Z.div_str_pos. lia. unfold w1. apply Z.div_lt_upper_bound; lia. }
    clearbody w1 r0. rewrite seg_step by lia. set (w2 := w1 / 10 ^ 38). set (r1 := w1 mod 10 ^ 38).
    assert (R1 : 0 <= r1 < 10 ^ 38) by (apply Z.mod_pos_bound; lia).
    assert (E1 : w1 = w2 * 10 ^ 38 + r1) by (unfold w2, r1; rewrite Z.mul_comm; apply Z.div_mod; lia).
    assert (H2 : 0 <= w2 < 10 ^ 2).
    { split. unfold w2. apply Z.div_pos; lia. unfold w2. apply Z.div_lt_upper_bound; lia. }
    clearbody w2 r1.
    destruct (u128_text38_ok r0 R0) as (d0 & T0 & I0 & V0 & L0).
    destruct (Z.eq_dec w2 0) as [->|N2].
    + rewrite seg_stop, bind_Some. rewrite Z.mul_0_l, Z.add_0_l in E1. subst r1.
      destruct (u128_text_ok w1) as (d1 & T1 & D1); [lia|].
      exists (d1 ++ d0). cbn [flat_map]. rewrite T1, T0, app_nil_r, ascii_app. split; [reflexivity|].
      apply digits_app with w1; auto; try lia. rewrite L0, V0. lia.
    + rewrite seg_step by lia. rewrite (Z.div_small w2), (Z.mod_small w2) by lia. rewrite seg_stop, bind_Some.
      destruct (u128_text_ok w2) as (d2 & T2 & D2); [lia|].
      destruct (u128_text38_ok r1 R1) as (d1 & T1 & I1 & V1 & L1).
      exists (d2 ++ (d1 ++ d0)). cbn [flat_map]. rewrite T2, T1, T0, app_nil_r, !ascii_app. split; [reflexivity|].
      apply digits_app with w2; auto; try lia. apply is_dec_app; auto. rewrite dval_app, len_app, L0, L1, V0, V1.
      change (38 + 38) with 76. lia.
Qed.

(** ** The positional format *)

Lemma firstn_skipn_dec n ds : is_dec ds -> is_dec (firstn n ds) /\ is_dec (skipn n ds).
Proof. intros H. rewrite <- (firstn_skipn n ds) in H. apply Forall_app in H. auto. Qed.

Lemma ascii_firstn n ds : firstn n (ascii ds) = ascii (firstn n ds).
Proof. unfold ascii. apply firstn_map. Qed.
Lemma ascii_skipn n ds : skipn n (ascii ds) = ascii (skipn n ds).
Proof. unfold ascii. apply skipn_map. Qed.

Lemma dval_zeros_end ds n : dval (ds ++ repeat 0 n) = dval ds * 10 ^ Z.of_nat n.
Proof.
  rewrite dval_app, len_repeat. assert (dval (repeat 0 n) = 0); [|lia].
  apply dval_zeros. clear. induction n; constructor; auto.
Qed.

Lemma display_parts_ok s w k : 0 < w < 2 ^ 256 -> -100000 <= k <= 100000 ->
  exists i f, display_parts (DecRepr s k (of256 w)) = Some (ascii i ++ frac_text f)
    /\ is_dec i /\ is_dec (match f with Some f => f | None => [] end) /\ i <> []
    /\ dval (i ++ match f with Some f => f | None => [] end) = w * 10 ^ Z.max 0 k
    /\ len (match f with Some f => f | None => [] end) = Z.max 0 (- k).
Proof.
  intros Hw Hk. unfold display_parts. cbn [p_signif10 p_exp10].
  destruct (u256_text_ok w ltac:(lia)) as (ds & E & D). rewrite E, bind_Some. clear E.
  assert (HL : len ds <= 78). { apply (digits_len w ds 78 D); lia. }
  destruct D as (D1 & D2 & D3 & D4 & _).
  assert (L1 : 1 <= len ds) by (destruct ds; [congruence|cbn [length]; lia]).
  rewrite ascii_len. rewrite casts_ok by lia. rewrite adds_ok by lia. rewrite bind_Some.
  rewrite subs_ok by lia. rewrite bind_Some. rewrite Z.sub_0_l.
  destruct (Z.ltb_spec (len ds) (Z.max 0 (len ds + k))) as [A|A].
  - (* trailing zeros *)
    assert (0 < k) by lia. rewrite bind_Some. rewrite (ltb_false 0) by lia. rewrite bind_Some.
    exists (ds ++ repeat 0 (Z.to_nat k)), None. cbn [frac_text]. rewrite !app_nil_r. split.
    { rewrite ascii_app. unfold zeroes. rewrite <- ascii_zeroes.
      replace (Z.max 0 (len ds + k) - len ds) with k by lia. reflexivity. }
    split; [apply is_dec_app; auto; apply is_dec_zeros|]. split; [constructor|].
    split; [destruct ds; [congruence|discriminate]|]. split; [|cbn; lia].
    rewrite dval_zeros_end, D2, Z2Nat.id by lia. f_equal. f_equal. lia.
  - destruct (Z.ltb_spec 0 (Z.max 0 (len ds + k))) as [A2|A2].
    + (* a point between digits, or none *)
      unfold slice_to, slice_from. rewrite ascii_len. rewrite leb_true by lia. rewrite bind_Some. rewrite ascii_firstn, ascii_skipn.
      set (n := Z.to_nat (Z.max 0 (len ds + k))).
      destruct (firstn_skipn_dec n ds D1) as [F1 F2].
      assert (Nf : firstn n ds <> []).
      { destruct ds; [congruence|]. destruct n eqn:En; [unfold n in En; lia|discriminate]. }
      destruct (Z.ltb_spec 0 (Z.max 0 (- k))) as [A3|A3].
      * rewrite ltb_false by lia. rewrite bind_Some. rewrite bind_Some.
        exists (firstn n ds), (Some (skipn n ds)). cbn [frac_text]. split; [reflexivity|].
        split; [exact F1|]. split; [exact F2|]. split; [exact Nf|]. rewrite firstn_skipn.
        split; [rewrite D2, Z.max_l by lia; lia|]. rewrite skipn_length. unfold n. lia.
      * rewrite bind_Some. assert (k = 0) by lia. subst k.
        assert (Hn : firstn n ds = ds). { apply firstn_all2. unfold n. lia. }
        exists ds, None. cbn [frac_text]. rewrite Hn, !app_nil_r. split; [reflexivity|]. split; [exact D1|].
        split; [constructor|]. split; [exact D3|]. cbn. lia.
    + (* leading zeros *)
      rewrite bind_Some. rewrite ltb_true by lia.
      assert (G : exists r, (if len ds <? Z.max 0 (- k) then Some (46 :: zeroes (Z.max 0 (- k) - len ds) ++ ascii ds)
         else bind (slice_from (ascii ds) (Z.max 0 (len ds + k))) (fun r => Some (46 :: r)))
         = Some (46 :: ascii r) /\ is_dec r /\ dval r = w /\ len r = Z.max 0 (- k)).
      { destruct (Z.ltb_spec (len ds) (Z.max 0 (- k))).
        - exists (repeat 0 (Z.to_nat (Z.max 0 (- k) - len ds)) ++ ds). split.
          { rewrite ascii_app, <- ascii_zeroes. reflexivity. }
          split; [apply is_dec_app; auto; apply is_dec_zeros|]. split; [rewrite dval_repeat0; auto|].
          rewrite len_app, len_repeat. lia.
        - unfold slice_from. rewrite ascii_len. rewrite leb_true by lia. rewrite bind_Some.
          replace (Z.max 0 (len ds + k)) with 0 by lia. cbn [Z.to_nat skipn]. exists ds. repeat split; auto. lia. }
      destruct G as (r & Er & R1 & R2 & R3). rewrite Er, bind_Some.
      exists [0], (Some r). cbn [frac_text]. split; [reflexivity|]. split; [constructor; [lia|constructor]|].
      split; [exact R1|]. split; [discriminate|]. split; [|exact R3].
      rewrite Z.max_l by lia. change ([0] ++ r) with (repeat 0 1 ++ r). rewrite dval_repeat0. lia.
Qed.

(** ** The scientific format *)

Lemma i32_text_ok v : -200000 <= v <= 200000 -> exists sg ds, i32_text v = sign_text sg ++ ascii ds
  /\ is_dec ds /\ ds <> [] /\ (match sg with Minus => - dval ds | _ => dval ds end) = v.
Proof.
  intros Hv. unfold i32_text. destruct (Z.ltb_spec v 0).
  - destruct (u128_text_ok (- v)) as (ds & E & D1 & D2 & D3 & _); [lia|]. exists Minus, ds. rewrite E. repeat split; auto. lia.
  - destruct (u128_text_ok v) as (ds & E & D1 & D2 & D3 & _); [lia|]. exists NoSign, ds. rewrite E. repeat split; auto.
Qed.

Lemma scientific_parts_ok mark s w k : 0 < w < 2 ^ 256 -> -100000 <= k <= 100000 ->
  exists i f sg ds, scientific_parts mark (DecRepr s k (of256 w)) = Some (ascii i ++ frac_text f ++ mark :: sign_text sg ++ ascii ds)
    /\ is_dec i /\ is_dec (match f with Some f => f | None => [] end) /\ i <> [] /\ is_dec ds /\ ds <> []
    /\ dval (i ++ match f with Some f => f | None => [] end) = w
    /\ (match sg with Minus => - dval ds | _ => dval ds end) - len (match f with Some f => f | None => [] end) = k.
Proof.
  intros Hw Hk. unfold scientific_parts. cbn [p_signif10 p_exp10].
  destruct (u256_text_ok w ltac:(lia)) as (ds & E & D). rewrite E, bind_Some. clear E.
  assert (HL : len ds <= 78). { apply (digits_len w ds 78 D); lia. }
  destruct D as (D1 & D2 & D3 & D4 & _).
  destruct ds as [|d ds]; [congruence|]. rewrite ascii_len in *. cbn [length] in *.
  rewrite casts_ok by lia. rewrite adds_ok by lia. rewrite bind_Some. rewrite subs_ok by lia. rewrite bind_Some.
  destruct (i32_text_ok (k + Z.of_nat (S (length ds)) - 1) ltac:(lia)) as (sg & es & E & G1 & G2 & G3).
  unfold slice_to, slice_from. rewrite ascii_len. cbn [length]. rewrite leb_true by lia. rewrite bind_Some.
  change (Z.to_nat 1) with 1%nat. cbn [ascii map firstn skipn]. inversion_clear D1 as [|? ? Dd Ds].
  destruct (Z.ltb_spec 1 (Z.of_nat (S (length ds)))) as [A|A].
  - rewrite !bind_Some. exists [d], (Some ds), sg, es. rewrite E. split; [reflexivity|].
    split; [constructor; [exact Dd|constructor]|]. split; [exact Ds|]. split; [discriminate|]. split; [exact G1|]. split; [exact G2|].
    split; [exact D2|]. lia.
  - rewrite !bind_Some. assert (ds = []) as -> by (destruct ds; [auto|cbn [length] in A; lia]).
    exists [d], None, sg, es. rewrite E. split; [reflexivity|].
    split; [constructor; [exact Dd|constructor]|]. split; [constructor|]. split; [discriminate|]. split; [exact G1|]. split; [exact G2|].
    split; [exact D2|]. cbn [length] in *. lia.
Qed.

End Text.

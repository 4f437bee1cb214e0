(** * FixedText: rounding up a text of digits *)

From Coq Require Import ZArith List Bool Lia.
From Verif Require Import Base ZLemmas BigUInt BigLaws BigUIntProofs BigExtra F256Lemmas BasicProofs CodecProofs Spec SpecLemmas Parse SpecParse ParseProofs ReadProofs Print PrintText PrintFixed SpecFixed.
Import ListNotations.
Open Scope Z_scope.

Local Notation len l := (Z.of_nat (length l)).

Lemma u64_text_ok v n : 0 <= v < 10 ^ n -> 1 <= n <= 19 ->
  exists ds, u64_text v n = ascii ds /\ is_dec ds /\ dval ds = v /\ len ds = n.
Proof.
  intros Hv Hn. destruct (u128_text_ok v) as (ds & E & D).
  { assert (10 ^ n <= 10 ^ 19) by (apply Z.pow_le_mono_r; lia). lia. }
  pose proof (digits_len v ds n D Hv ltac:(lia)) as L. destruct D as (D1 & D2 & _).
  exists (repeat 0 (Z.to_nat n - length ds) ++ ds). unfold u64_text. rewrite E, ascii_app, ascii_len, ascii_zeroes.
  split; [reflexivity|]. split; [apply is_dec_app; auto; apply is_dec_zeros|]. split; [rewrite dval_repeat0; auto|].
  rewrite len_app, len_repeat. lia.
Qed.

Lemma rev_ascii ds : rev (ascii ds) = ascii (rev ds).
Proof. symmetry. apply map_rev. Qed.

(** All digits are nines and the carry leaves, or the digits are incremented. *)
Lemma round_up_digits ds : is_dec ds ->
  (dval ds + 1 = 10 ^ len ds /\ exists zs, is_dec zs /\ dval zs = 0 /\ len zs = len ds
     /\ forall rest, round_up_rev (rev (ascii ds) ++ rest) = bind (round_up_rev rest) (fun r => Some (rev (ascii zs) ++ r)))
  \/ (exists ds', is_dec ds' /\ dval ds' = dval ds + 1 /\ len ds' = len ds
     /\ forall rest, round_up_rev (rev (ascii ds) ++ rest) = Some (rev (ascii ds') ++ rest)).
Proof.
  induction ds as [|d ds IH] using rev_ind; intros D.
  - left. split; [reflexivity|]. exists []. split; [constructor|]. split; [reflexivity|]. split; [reflexivity|].
    intros rest. cbn [ascii map rev app]. destruct (round_up_rev rest); reflexivity.
  - apply Forall_app in D. destruct D as [D Dd]. inversion Dd as [|? ? Hd _]; subst.
    assert (RA : forall l x, rev (ascii (l ++ [x])) = (48 + x) :: rev (ascii l)).
    { intros. rewrite ascii_app, rev_app_distr. reflexivity. }
    assert (DE : forall x, 0 <= x < 10 -> is_dec [x]) by (intros; constructor; [auto|constructor]).
    destruct (Z.eq_dec d 9) as [->|N].
    + assert (ST : forall rest, round_up_rev (rev (ascii (ds ++ [9])) ++ rest)
                     = bind (round_up_rev (rev (ascii ds) ++ rest)) (fun r => Some (48 :: r))).
      { intros rest. rewrite RA. reflexivity. }
      destruct (IH D) as [(V & zs & Z1 & Z2 & Z3 & Z4)|(ds' & Z1 & Z2 & Z3 & Z4)].
      * left. split. { rewrite dval_snoc, len_app. change (len [9]) with 1. rewrite Z.pow_add_r by lia. lia. }
        exists (zs ++ [0]). split; [apply is_dec_app; auto; apply DE; lia|]. split; [rewrite dval_snoc, Z2; reflexivity|].
        split; [rewrite !len_app, Z3; reflexivity|].
        intros rest. rewrite ST, Z4, RA. destruct (round_up_rev rest); reflexivity.
      * right. exists (ds' ++ [0]). split; [apply is_dec_app; auto; apply DE; lia|].
        split; [rewrite !dval_snoc, Z2; lia|]. split; [rewrite !len_app, Z3; reflexivity|].
        intros rest. rewrite ST, Z4, RA. reflexivity.
    + right. exists (ds ++ [d + 1]). split; [apply is_dec_app; auto; apply DE; lia|].
      split; [rewrite !dval_snoc; lia|]. split; [rewrite !len_app; reflexivity|].
      intros rest. rewrite !RA. cbn [app round_up_rev].
      destruct (Z.eqb_spec (48 + d) 57); [lia|]. destruct (Z.eqb_spec (48 + d) 46); [lia|].
      do 2 f_equal. lia.
Qed.

(** Digits with a point in front of the last [p] of them *)
Definition fix_text (a b : list Z) : list Z := ascii a ++ frac_text (match b with [] => None | _ => Some b end).

Lemma fix_text_nil a : fix_text a [] = ascii a.
Proof. apply app_nil_r. Qed.
Lemma fix_text_cons a b : b <> [] -> fix_text a b = ascii a ++ 46 :: ascii b.
Proof. destruct b; [congruence|]. reflexivity. Qed.

Lemma round_up_text a b : is_dec a -> is_dec b -> dval (a ++ b) + 1 < 10 ^ len (a ++ b) ->
  exists a' b', round_up_fixed_point (fix_text a b) = Some (fix_text a' b')
    /\ is_dec a' /\ is_dec b' /\ len a' = len a /\ len b' = len b /\ dval (a' ++ b') = dval (a ++ b) + 1.
Proof.
  intros Da Db V. unfold round_up_fixed_point.
  assert (A : dval a + 1 < 10 ^ len a ->
     exists a', is_dec a' /\ dval a' = dval a + 1 /\ len a' = len a
       /\ forall rest, round_up_rev (rev (ascii a) ++ rest) = Some (rev (ascii a') ++ rest)).
  { intros H. destruct (round_up_digits a Da) as [(V1 & _)|S]; [lia|auto]. }
  destruct b as [|d0 b0].
  - rewrite app_nil_r in V. destruct (A V) as (a' & A1 & A2 & A3 & A4).
    exists a', []. rewrite !fix_text_nil, !app_nil_r. specialize (A4 []). rewrite !app_nil_r in A4.
    rewrite A4, bind_Some, rev_involutive. repeat (split; [auto|]). auto.
  - set (b := d0 :: b0) in *. assert (Nb : b <> []) by discriminate. clearbody b. clear d0 b0.
    assert (NL : forall l : list Z, len l = len b -> l <> []).
    { intros l H ->. destruct b; [congruence|]. cbn [length] in H. lia. }
    rewrite (fix_text_cons a b Nb).
    replace (rev (ascii a ++ 46 :: ascii b)) with (rev (ascii b) ++ 46 :: rev (ascii a))
      by (rewrite rev_app_distr; cbn [rev]; rewrite <- app_assoc; reflexivity).
    destruct (round_up_digits b Db) as [(V1 & zs & Z1 & Z2 & Z3 & Z4)|(b' & Z1 & Z2 & Z3 & Z4)].
    + rewrite dval_app, len_app in V. rewrite Z.pow_add_r in V by lia.
      assert (PB : 0 < 10 ^ len b) by (apply Z.pow_pos_nonneg; lia).
      destruct A as (a' & A1 & A2 & A3 & A4). { clear - V V1 PB. nia. }
      exists a', zs. rewrite (fix_text_cons a' zs (NL zs Z3)). rewrite Z4.
      change (round_up_rev (46 :: rev (ascii a))) with (bind (round_up_rev (rev (ascii a))) (fun r => Some (46 :: r))).
      specialize (A4 []). rewrite !app_nil_r in A4. rewrite A4, !bind_Some.
      rewrite rev_app_distr. cbn [rev]. rewrite !rev_involutive, <- app_assoc.
      split; [reflexivity|]. split; [auto|]. split; [auto|]. split; [auto|]. split; [auto|].
      rewrite !dval_app, A2, Z2, Z3. lia.
    + exists a, b'. rewrite (fix_text_cons a b' (NL b' Z3)). rewrite Z4, bind_Some.
      rewrite rev_app_distr. cbn [rev]. rewrite !rev_involutive, <- app_assoc.
      split; [reflexivity|]. split; [auto|]. split; [auto|]. split; [auto|]. split; [auto|].
      rewrite !dval_app, Z2, Z3. lia.
Qed.

Lemma ends_odd_ok a b : is_dec a -> is_dec b -> a ++ b <> [] -> ends_odd (fix_text a b) = Z.odd (dval (a ++ b)).
Proof.
  intros Da Db N.
  assert (L : forall t l d, 0 <= d < 10 -> ends_odd (t ++ [48 + d]) = Z.odd (dval (l ++ [d]))).
  { intros t l d Hd. unfold ends_odd. rewrite rev_app_distr. cbn [rev app]. rewrite dval_snoc.
    rewrite Z.odd_add, Z.odd_mul. change (Z.odd 10) with false. rewrite ?andb_false_l, ?andb_false_r, xorb_false_l.
    clear - Hd.
    assert (d = 0 \/ d = 1 \/ d = 2 \/ d = 3 \/ d = 4 \/ d = 5 \/ d = 6 \/ d = 7 \/ d = 8 \/ d = 9) as H by lia.
    repeat destruct H as [->|H]; try reflexivity. subst d. reflexivity. }
  destruct b as [|d b _] using rev_ind.
  - rewrite fix_text_nil, app_nil_r in *. destruct a as [|d a _] using rev_ind; [congruence|].
    apply Forall_app in Da. destruct Da as [_ Da]. inversion Da; subst. rewrite ascii_app. apply L. auto.
  - rewrite fix_text_cons by (destruct b; discriminate). rewrite ascii_app.
    apply Forall_app in Db. destruct Db as [_ Db]. inversion Db; subst.
    rewrite app_comm_cons, !app_assoc. change (ascii [d]) with [48 + d]. apply L. auto.
Qed.

(** Leading digit *)
Lemma head_nonzero i : is_dec i -> i <> [] -> 10 ^ (len i - 1) <= dval i -> hd 0 i <> 0.
Proof.
  intros D N H E. destruct i as [|d r]; [congruence|]. cbn [hd] in E. subst d.
  inversion D; subst. pose proof (dval_bound r H3). change (0 :: r) with ([0] ++ r) in H. rewrite dval_app, len_app in H.
  change (len [0]) with 1 in H. change (dval [0]) with 0 in H. replace (1 + len r - 1) with (len r) in H by lia. lia.
Qed.

Lemma cons_dval d l : dval (d :: l) = d * 10 ^ len l + dval l.
Proof. change (d :: l) with ([d] ++ l). rewrite dval_app. reflexivity. Qed.

(** The text of a literal *)
Lemma literal_intro U x p a b : U = 2 ^ UNITe -> 0 <= x < 2 ^ 256 -> 0 <= p -> is_dec a -> is_dec b -> a <> [] -> len b = p ->
  a = [0] \/ hd 0 a <> 0 -> dval (a ++ b) = rne_div (mag_val (mag x) * 10 ^ p) U ->
  exists l, fixed_literal x p l /\ pad_parts (negb (sgn x =? 0)) (fix_text a b) = text l.
Proof.
  intros EU Hx Hp Da Db Na Lb Ha V.
  exists (Literal (if sgn x =? 1 then Minus else NoSign) a (match b with [] => None | _ => Some b end) None).
  assert (FD : match (match b with [] => None | _ => Some b end) with Some f => f | None => [] end = b) by (destruct b; reflexivity).
  split.
  - unfold fixed_literal, documented, all_decimal, frac_digits, exp_digits, lit_signif, frac_digits. cbn [l_int l_frac l_exp l_sign].
    rewrite FD, <- EU. clear EU. split; [split; [split; [auto|split; [auto|constructor]]|split; [destruct a; [congruence|discriminate]|auto]]|].
    split; [auto|]. split; [auto|]. split; [|auto].
    destruct b; cbn [length] in Lb; split; intros; try lia; try discriminate; auto.
  - unfold text, pad_parts, fix_text. cbn [l_int l_frac l_exp l_sign]. cbn [exp_text]. rewrite app_nil_r. f_equal.
    pose proof (sgn_bound x Hx). destruct (Z.eqb_spec (sgn x) 0), (Z.eqb_spec (sgn x) 1); try lia; reflexivity.
Qed.

Definition strip (s : list Z) : list Z := match s with 48 :: s => s | _ => s end.

Lemma strip_zero a b : strip (fix_text (0 :: a) b) = fix_text a b.
Proof. reflexivity. Qed.
Lemma strip_other d a b : 0 < d < 10 -> strip (fix_text (d :: a) b) = fix_text (d :: a) b.
Proof.
  intros Hd. unfold fix_text. cbn [ascii map app]. unfold strip.
  assert (d = 1 \/ d = 2 \/ d = 3 \/ d = 4 \/ d = 5 \/ d = 6 \/ d = 7 \/ d = 8 \/ d = 9) as H by lia.
  repeat destruct H as [->|H]; try reflexivity. subst d. reflexivity.
Qed.

(** The text with a zero in front, rounded up or not, and with the zero removed *)
Lemma fixed_assemble U x p N i fd r Z : U = 2 ^ UNITe -> 0 <= x < 2 ^ 256 -> 0 <= p ->
  digits_for N i -> is_dec fd -> len fd = p -> 0 <= N ->
  Z = mag_val (mag x) * 10 ^ p ->
  N * 10 ^ p + dval fd = Z / U ->
  (match r with
   | Up => U < 2 * (Z mod U)
   | ToEven => 2 * (Z mod U) = U
   | Down => 2 * (Z mod U) < U end) ->
  exists l, fixed_literal x p l
   /\ (let! s := (if (match r with Up => true | ToEven => ends_odd (fix_text (0 :: i) fd) | Down => false end)
       then round_up_fixed_point (fix_text (0 :: i) fd) else Some (fix_text (0 :: i) fd)) in
       Some (pad_parts (negb (sgn x =? 0)) (strip s))) = Some (text l).
Proof.
  intros EU Hx Hp (I1 & I2 & I3 & I4 & I5) Df Lf HN EZ EV HR.
  assert (VV : dval ((0 :: i) ++ fd) = Z / U).
  { rewrite <- EV, dval_app, cons_dval, I2, Lf. lia. }
  assert (VV' : dval (i ++ fd) = Z / U). { rewrite <- EV, dval_app, I2, Lf. reflexivity. }
  assert (D0 : is_dec (0 :: i)) by (constructor; [lia|auto]).
  rewrite (ends_odd_ok (0 :: i) fd D0 Df), VV by (clear; discriminate).
  assert (RN : rne_div Z (U) = Z / U +
     b2z (match r with Up => true | ToEven => Z.odd (Z / U) | Down => false end)).
  { unfold rne_div. cbv zeta. destruct r.
    - rewrite (ltb_true _ _ HR). reflexivity.
    - rewrite (ltb_false (U)) by (clear - HR; lia). rewrite (proj2 (Z.eqb_eq _ _) HR). cbn [orb andb].
      destruct (Z.odd (Z / U)); cbn [b2z]; lia.
    - rewrite (ltb_false (U)) by (clear - HR; lia). rewrite (proj2 (Z.eqb_neq _ _)) by (clear - HR; lia). cbn [orb andb b2z]. lia. }
  set (up := match r with Up => true | ToEven => Z.odd (Z / U) | Down => false end) in *.
  clearbody up. clear HR r. subst Z.
  assert (PP : 0 < 10 ^ p) by (apply Z.pow_pos_nonneg; lia).
  assert (LI : 1 <= len i) by (destruct i; [congruence|cbn [length]; lia]).
  destruct up; cbn [b2z] in RN.
  - assert (B : dval (i ++ fd) < 10 ^ len (i ++ fd)) by (apply dval_bound; apply is_dec_app; auto).
    destruct (round_up_text (0 :: i) fd D0 Df) as (a' & b' & -> & A1 & B1 & A2 & B2 & V').
    { rewrite VV, <- VV'. cbn [app]. cbn [length]. rewrite Nat2Z.inj_succ, Z.pow_succ_r by lia. lia. }
    rewrite bind_Some. rewrite VV, <- RN in V'.
    destruct a' as [|d0 i']; [cbn [length] in A2; lia|]. pose proof (Forall_inv A1) as Hd. pose proof (Forall_inv_tail A1) as Di. cbv beta in Hd.
    assert (LI' : len i' = len i) by (cbn [length] in A2; lia).
    destruct (Z.eq_dec d0 0) as [->|Nd].
    + rewrite strip_zero.
      destruct (literal_intro U x p i' b' EU Hx Hp Di B1) as (l & F & T).
      * intros ->. cbn in LI'. clear - LI LI'. lia.
      * clear - B2 Lf.  lia.
      * clear EU Hx VV VV' B D0.
        destruct (Z.eq_dec N 0) as [E0|N0].
        { specialize (I5 E0). subst i. destruct i' as [|d1 [|]]; cbn in LI'; try lia.
          destruct (Z.eq_dec d1 0); [left; subst; auto|right; auto]. }
        right. apply head_nonzero; auto.
        { intros ->. cbn in LI'. lia. }
        rewrite LI'. specialize (I4 N0).
        change (0 :: i') with ([0] ++ i') in V'. rewrite <- app_assoc in V'. rewrite dval_app in V'. change (dval [0]) with 0 in V'.
        rewrite dval_app in V'. pose proof (dval_bound b' B1) as Bb. pose proof (dval_bound fd Df) as Bf. rewrite B2, Lf in *.
        rewrite RN, <- EV in V'. clear - V' I4 PP Bb Bf. set (T := 10 ^ p) in *. nia.
      * rewrite <- V'. change ((0 :: i') ++ b') with (0 :: (i' ++ b')). rewrite cons_dval. clear. lia.
      * exists l. split; [exact F|]. rewrite T. reflexivity.
    + rewrite strip_other by (clear - Hd Nd; lia).
      destruct (literal_intro U x p (d0 :: i') b' EU Hx Hp A1 B1) as (l & F & T).
      * clear. discriminate.
      * clear - B2 Lf. lia.
      * right. exact Nd.
      * exact V'.
      * exists l. split; [exact F|]. rewrite T. reflexivity.
  - rewrite bind_Some, strip_zero.
    destruct (literal_intro U x p i fd EU Hx Hp I1 Df I3 Lf) as (l & F & T).
    + clear - I1 I2 I3 I4 I5. destruct (Z.eq_dec N 0) as [E0|N0]; [left; auto|right]. subst N. apply head_nonzero; auto.
    + rewrite VV', RN. clear. lia.
    + exists l. split; [exact F|]. rewrite T. reflexivity.
Qed.

(** * FixedFinal: the lemmas behind C32 *)

From Coq Require Import ZArith List Bool Lia.
From Verif Require Import Base ZLemmas BigUInt BigLaws BigUIntProofs BigExtra F256 F256Lemmas CodecProofs BasicProofs
  Arith Spec SpecLemmas Interface LiftProofs Parse SpecParse ParseProofs ReadProofs Print SpecPrint PrintText PrintFinal
  PrintFixed SpecFixed FixedText FixedChunks FixedProofs.
Import ListNotations.
Open Scope Z_scope.

Local Notation len l := (Z.of_nat (length l)).

Section Fixed.
Context {P : profile}.

Lemma special_mag x : 0 <= x < 2 ^ 256 -> finb x = true -> zerob x = false -> 0 < mag x < INFm.
Proof.
  intros Hx F Z. unfold finb in F. unfold zerob in Z. apply Z.ltb_lt in F. apply Z.eqb_neq in Z.
  pose proof (mag_bound x). lia.
Qed.

Lemma fixed_ok_u u lt ct x p : u = UNITe -> tables_ok lt -> chunks_ok ct -> 0 <= x < 2 ^ 256 -> finb x = true -> zerob x = false ->
  0 <= p <= 75 -> mag_val (mag x) < 2 ^ (237 + u) ->
  mag_val (mag x) mod 2 ^ u = 0 \/ 2 ^ (u - 83) <= mag_val (mag x) mod 2 ^ u \/ mag_val (mag x) < 2 ^ (u - 275) ->
  exists l, fixed_literal x p l /\ display_prec lt ct (bits x) p = Some (text l).
Proof.
  intros Eu LT CT Hx F Z Hp HN HF. rewrite bits_of. unfold display_prec.
  rewrite is_special_of, F, Z by auto. cbn [orb negb].
  unfold format_exact. rewrite leb_true by (unfold MAX_PREC; lia). rewrite abs_ok.
  rewrite is_sign_positive_of by auto.
  destruct (bin_fixed_ok u lt ct (mag x) (mag_val (mag x)) p Eu LT CT (special_mag x Hx F Z) eq_refl Hp HN HF)
    as (N & i & fd & r & HN0 & Di & Df & Lf & V & HR & E).
  rewrite E. clear E HF HN.
  destruct (fixed_assemble (2 ^ u) x p N i fd r (mag_val (mag x) * 10 ^ p)) as (l & FL & T).
  - rewrite Eu. reflexivity.
  - exact Hx.
  - lia.
  - exact Di.
  - exact Df.
  - exact Lf.
  - exact HN0.
  - reflexivity.
  - exact V.
  - unfold round_cond in HR. destruct r; exact HR.
  - exists l. split; [exact FL|]. rewrite <- T. reflexivity.
Qed.

Lemma fixed_ok lt ct x p : tables_ok lt -> chunks_ok ct -> 0 <= x < 2 ^ 256 -> finb x = true -> zerob x = false ->
  0 <= p <= 75 -> mag_val (mag x) < 2 ^ (237 + UNITe) ->
  mag_val (mag x) mod 2 ^ UNITe = 0 \/ 2 ^ (UNITe - 83) <= mag_val (mag x) mod 2 ^ UNITe \/ mag_val (mag x) < 2 ^ (UNITe - 275) ->
  exists l, fixed_literal x p l /\ display_prec lt ct (bits x) p = Some (text l).
Proof. exact (fixed_ok_u UNITe lt ct x p eq_refl). Qed.

(** Zeros *)
Lemma rne_div_0 d : 0 < d -> rne_div 0 d = 0.
Proof. intros H. apply (rne_div_exact 0 d H). Qed.

Lemma fixed_zero_u u lt ct x p : u = UNITe -> 0 <= x < 2 ^ 256 -> zerob x = true -> 0 <= p <= 75 ->
  exists l, fixed_literal x p l /\ display_prec lt ct (bits x) p = Some (text l).
Proof.
  intros Eu Hx Z Hp. rewrite bits_of. unfold display_prec.
  rewrite is_special_of, Z by auto. cbn [orb].
  unfold format_special. rewrite eq_zero_of, Z by auto. rewrite is_sign_positive_of by auto.
  rewrite Z.min_l by (unfold MAX_PREC; lia). destruct (zeros_frac p ltac:(lia)) as (Z1 & Z2 & Z3 & Z4).
  destruct (literal_intro (2 ^ u) x p [0] (repeat 0 (Z.to_nat p)) ltac:(rewrite Eu; reflexivity) Hx ltac:(lia)) as (l & F & T).
  - constructor; [lia|constructor].
  - exact Z1.
  - discriminate.
  - exact Z2.
  - left. reflexivity.
  - unfold zerob in Z. apply Z.eqb_eq in Z. rewrite Z. change (mag_val 0) with 0. rewrite Z.mul_0_l, rne_div_0.
    + rewrite dval_app, Z3. change (dval [0]) with 0. lia.
    + apply pow2_pos. rewrite Eu. unfold UNITe. lia.
  - exists l. split; [exact F|]. rewrite <- T. do 2 f_equal. rewrite Z4.
    destruct (Z.ltb_spec 0 p) as [G|G].
    + rewrite fix_text_cons by (intros E; rewrite E in Z2; cbn in Z2; lia). reflexivity.
    + assert (p = 0) by lia. subst p. reflexivity.
Qed.

Lemma fixed_zero lt ct x p : 0 <= x < 2 ^ 256 -> zerob x = true -> 0 <= p <= 75 ->
  exists l, fixed_literal x p l /\ display_prec lt ct (bits x) p = Some (text l).
Proof. exact (fixed_zero_u UNITe lt ct x p eq_refl). Qed.

(** Other special values are printed as without a precision. *)
Lemma fixed_special lt ct x p : 0 <= x < 2 ^ 256 -> finb x = false -> display_prec lt ct (bits x) p = display lt (bits x).
Proof.
  intros Hx F. rewrite bits_of. unfold display_prec, display. rewrite is_special_of, F by auto. rewrite orb_true_r.
  unfold format_special. rewrite eq_zero_of by auto.
  assert (zerob x = false) as ->; [|reflexivity].
  unfold zerob. apply Z.eqb_neq. intros E. unfold finb in F. rewrite E in F. discriminate.
Qed.

(** A larger precision panics, as documented. *)
Lemma fixed_panics lt ct x p : 0 <= x < 2 ^ 256 -> finb x = true -> zerob x = false -> 75 < p ->
  display_prec lt ct (bits x) p = None.
Proof.
  intros Hx F Z Hp. rewrite bits_of. unfold display_prec. rewrite is_special_of, F, Z by auto. cbn [orb negb].
  unfold format_exact. destruct (Z.leb_spec p MAX_PREC) as [H|H]; [unfold MAX_PREC in H; lia|reflexivity].
Qed.

End Fixed.

(** ** The table of the generator *)

Lemma count_chunks_ge fuel : forall k n acc, 0 <= k <= Z.of_nat fuel -> 10 ^ (19 * k) <= n -> acc + k <= count_chunks fuel n acc.
Proof.
  induction fuel as [|fuel IH]; intros k n acc Hk Hn; cbn [count_chunks]; [lia|].
  destruct (Z.eq_dec k 0) as [->|Nk].
  - destruct (n <? 10 ^ 19); [lia|]. assert (G : acc + 1 + 0 <= count_chunks fuel (n / 10 ^ 19) (acc + 1)); [|lia].
    assert (L : forall f m a, a <= count_chunks f m a).
    { clear. induction f as [|f IH]; intros m a; cbn [count_chunks]; [lia|]. destruct (m <? 10 ^ 19); [lia|].
      specialize (IH (m / 10 ^ 19) (a + 1)). lia. }
    specialize (L fuel (n / 10 ^ 19) (acc + 1)). lia.
  - assert (E : 10 ^ (19 * k) = 10 ^ 19 * 10 ^ (19 * (k - 1))) by (rewrite <- Z.pow_add_r by lia; f_equal; lia).
    assert (PT : 0 < 10 ^ (19 * (k - 1))) by (apply Z.pow_pos_nonneg; lia).
    rewrite E in Hn. assert (M : 10 ^ (19 * (k - 1)) <= n / 10 ^ 19) by (apply Z.div_le_lower_bound; lia).
    set (T := 10 ^ 19) in *. assert (0 < T) by (subst T; lia). clearbody T.
    destruct (Z.ltb_spec n T) as [G|G]; [clear - Hn G PT H; nia|].
    specialize (IH (k - 1) (n / T) (acc + 1) ltac:(lia) M). lia.
Qed.

Lemma count_chunks_le fuel : forall k n acc, 0 <= k -> 0 <= n < 10 ^ (19 * (k + 1)) -> count_chunks fuel n acc <= acc + k.
Proof.
  induction fuel as [|fuel IH]; intros k n acc Hk Hn; cbn [count_chunks]; [lia|].
  destruct (Z.ltb_spec n (10 ^ 19)) as [G|G]; [lia|].
  destruct (Z.eq_dec k 0) as [->|Nk]; [change (19 * (0 + 1)) with 19 in Hn; lia|].
  assert (E : 10 ^ (19 * (k + 1)) = 10 ^ 19 * 10 ^ (19 * k)) by (rewrite <- Z.pow_add_r by lia; f_equal; lia).
  rewrite E in Hn.
  assert (M : 0 <= n / 10 ^ 19 < 10 ^ (19 * (k - 1 + 1))).
  { replace (k - 1 + 1) with k by lia. split; [apply Z.div_pos; lia|apply Z.div_lt_upper_bound; lia]. }
  specialize (IH (k - 1) (n / 10 ^ 19) (acc + 1) ltac:(lia) M). lia.
Qed.

Lemma gen_zero_chunks_range up : -262624 <= up <= -512 -> 4 <= gen_zero_chunks up < 10000.
Proof.
  intros Hu. unfold gen_zero_chunks. rewrite ltb_true by lia. split.
  - apply (count_chunks_ge (Z.to_nat (- up)) 4 (2 ^ (- (up + 237))) 0); [lia|].
    apply Z.le_trans with (2 ^ 275); [vm_compute; discriminate|]. apply Z.pow_le_mono_r; lia.
  - assert (L : count_chunks (Z.to_nat (- up)) (2 ^ (- (up + 237))) 0 <= 0 + 9999); [|lia].
    apply count_chunks_le; [lia|].
    split; [apply Z.lt_le_incl, pow2_pos; lia|].
    apply Z.lt_le_trans with (4 ^ 131250).
    + change 4 with (2 ^ 2). rewrite <- Z.pow_mul_r by lia. apply Z.pow_lt_mono_r; lia.
    + apply Z.le_trans with (10 ^ 131250); [apply Z.pow_le_mono_l; lia|apply Z.pow_le_mono_r; lia].
Qed.

Lemma gen_chunks_seg e : -262615 <= e <= -237 ->
  seg gen_chunks e = Some (- e / 32 - 7, (gen_zero_chunks (- (32 * (- e / 32))), 273 - 32 * (- e / 32))).
Proof.
  intros He. pose proof (Z.div_mod (- e) 32 ltac:(lia)). pose proof (Z.mod_pos_bound (- e) 32 ltac:(lia)).
  unfold gen_chunks. cbn [seg]. rewrite !leb_true by lia. cbn [andb].
  replace (- (- e / 32 - 7 + 7) * 32) with (- (32 * (- e / 32))) by lia. do 3 f_equal. lia.
Qed.

Lemma gen_chunks_ok : chunks_ok gen_chunks.
Proof.
  split.
  - intros e He. exists (- e / 32 - 7). cbv zeta. rewrite gen_chunks_seg by lia.
    pose proof (Z.div_mod (- e) 32 ltac:(lia)) as D. pose proof (Z.mod_pos_bound (- e) 32 ltac:(lia)) as M.
    assert (C : - e / 32 = 7 \/ - e / 32 = 8 \/ - e / 32 = 9) by lia.
    assert (ZC : gen_zero_chunks (- (32 * (- e / 32))) = 0) by (destruct C as [->|[->| ->]]; vm_compute; reflexivity).
    rewrite ZC. split; [reflexivity|]. intros j Hj.
    set (q := - e / 32) in *. clearbody q. set (s := 273 - 32 * q).
    set (V := (10 ^ (19 * (j + 1)) * 2 ^ Z.max 0 s / 2 ^ Z.max 0 (- s)) mod (10 ^ 19 * 2 ^ 304)).
    assert (VB : 0 <= V < 10 ^ 19 * 2 ^ 304) by (apply Z.mod_pos_bound; lia).
    exists (V / 2 ^ 256), (V / 2 ^ 128 mod 2 ^ 128), (V mod 2 ^ 128).
    assert (EV : entry gen_chunks (q - 7) j = Some (V / 2 ^ 256, V / 2 ^ 128 mod 2 ^ 128, V mod 2 ^ 128)).
    { unfold gen_chunks. cbn [entry]. rewrite (leb_true 0 (q - 7)), (leb_true (q - 7)), (leb_true 0 j), (ltb_true j) by lia. cbn [andb].
      cbv zeta. replace (- (q - 7 + 7) * 32) with (- (32 * q)) by lia. rewrite ZC.
      assert (EG : gen_entry (304 + - (32 * q) - 31) (0 + 1 + j) = V); [|rewrite EG; reflexivity].
      unfold gen_entry, V, s. replace (304 + - (32 * q) - 31) with (273 - 32 * q) by lia. do 4 f_equal. lia. }
    split; [exact EV|]. clear EV. clearbody V. clear - VB.
    pose proof (Z.div_mod V (2 ^ 256) ltac:(lia)). pose proof (Z.mod_pos_bound V (2 ^ 256) ltac:(lia)).
    pose proof (Z.mod_pos_bound V (2 ^ 128) ltac:(lia)). pose proof (Z.mod_pos_bound (V / 2 ^ 128) (2 ^ 128) ltac:(lia)).
    pose proof (Z.div_mod V (2 ^ 128) ltac:(lia)). pose proof (Z.div_mod (V / 2 ^ 128) (2 ^ 128) ltac:(lia)) as D2.
    rewrite Z.div_div in D2 by lia. change (2 ^ 128 * 2 ^ 128) with (2 ^ 256) in D2.
    split; [split; [apply Z.div_pos; lia|apply Z.div_lt_upper_bound; lia]|]. split; [lia|]. split; [lia|]. lia.
  - intros e He. pose proof (Z.div_mod (- e) 32 ltac:(lia)). pose proof (Z.mod_pos_bound (- e) 32 ltac:(lia)).
    exists (- e / 32 - 7), (gen_zero_chunks (- (32 * (- e / 32)))), (273 - 32 * (- e / 32)).
    split; [apply gen_chunks_seg; lia|]. split; [apply gen_zero_chunks_range; lia|]. lia.
Qed.

(** The values of the counterexamples *)
Lemma rne_scaled_u u c e p : u = UNITe -> -200000 <= e <= 0 -> 0 <= p -> 2 ^ 236 <= c < 2 ^ 237 ->
  rne_div (mag_val ((e + u) * 2 ^ 236 + c) * 10 ^ p) (2 ^ u) = rne_div (c * 10 ^ p) (2 ^ (- e)).
Proof.
  intros Eu He Hp Hc. assert (HU : u = 262378) by (rewrite Eu; reflexivity).
  rewrite mag_val_any by lia.
  replace (c * 2 ^ (e + u) * 10 ^ p) with (c * 10 ^ p * 2 ^ (e + u)) by ring.
  replace (2 ^ u) with (2 ^ (- e) * 2 ^ (e + u)) by (rewrite <- Z.pow_add_r by lia; f_equal; lia).
  apply rne_div_mul; apply pow2_pos; lia.
Qed.
Lemma rne_scaled c e p : -200000 <= e <= 0 -> 0 <= p -> 2 ^ 236 <= c < 2 ^ 237 ->
  rne_div (mag_val ((e + UNITe) * 2 ^ 236 + c) * 10 ^ p) (2 ^ UNITe) = rne_div (c * 10 ^ p) (2 ^ (- e)).
Proof. exact (rne_scaled_u UNITe c e p eq_refl). Qed.
Lemma rne_large_u u c e : u = UNITe -> 0 <= e <= 200000 -> 2 ^ 236 <= c < 2 ^ 237 ->
  rne_div (mag_val ((e + u) * 2 ^ 236 + c) * 10 ^ 0) (2 ^ u) = c * 2 ^ e.
Proof.
  intros Eu He Hc. assert (HU : u = 262378) by (rewrite Eu; reflexivity).
  rewrite mag_val_any by lia. rewrite Z.pow_add_r by lia. change (10 ^ 0) with 1. rewrite Z.mul_1_r, Z.mul_assoc.
  apply rne_div_exact. apply pow2_pos. lia.
Qed.
Lemma rne_large c e : 0 <= e <= 200000 -> 2 ^ 236 <= c < 2 ^ 237 ->
  rne_div (mag_val ((e + UNITe) * 2 ^ 236 + c) * 10 ^ 0) (2 ^ UNITe) = c * 2 ^ e.
Proof. exact (rne_large_u UNITe c e eq_refl). Qed.

(** Numbers below one that meet the conditions of the theorem *)
Lemma fixed_range_u u c e : u = UNITe -> -319 <= e <= -237 -> 2 ^ 236 <= c < 2 ^ 237 ->
  mag_val ((e + u) * 2 ^ 236 + c) < 2 ^ (237 + u)
  /\ 2 ^ (u - 83) <= mag_val ((e + u) * 2 ^ 236 + c) mod 2 ^ u.
Proof.
  intros Eu He Hc. assert (HU : u = 262378) by (rewrite Eu; reflexivity).
  rewrite mag_val_any by lia. pose proof (pow2_pos (e + u) ltac:(lia)) as PE.
  assert (B1 : c * 2 ^ (e + u) < 2 ^ u).
  { assert (2 ^ 237 * 2 ^ (e + u) <= 2 ^ u) by (rewrite <- Z.pow_add_r by lia; apply Z.pow_le_mono_r; lia).
    clear - Hc PE H. nia. }
  assert (B2 : 2 ^ (u - 83) <= c * 2 ^ (e + u)).
  { assert (2 ^ (u - 83) <= 2 ^ 236 * 2 ^ (e + u)) by (rewrite <- Z.pow_add_r by lia; apply Z.pow_le_mono_r; lia).
    clear - Hc PE H. nia. }
  assert (B3 : 2 ^ u <= 2 ^ (237 + u)) by (apply Z.pow_le_mono_r; lia).
  pose proof (pow2_pos (u - 83) ltac:(lia)). rewrite Z.mod_small by lia. lia.
Qed.

(** * PrintFinal: lemmas behind the theorems about printing *)

From Coq Require Import ZArith List Bool Lia.
From Verif Require Import Base ZLemmas BigUInt BigLaws BigUIntProofs BigExtra F256 F256Lemmas CodecProofs BasicProofs
  Spec SpecLemmas Interface Parse SpecParse ChunkLemmas ParseProofs ReadProofs FromStrProofs Print SpecPrint
  PrintArith PrintProofs PrintRound PrintValue PrintText.
Import ListNotations.
Open Scope Z_scope.

Lemma bits_of {P : profile} v : bits v = of256 v. Proof. reflexivity. Qed.

(** ** The tables as generated *)

Lemma parts_wf v : 0 <= v < 2 ^ 512 -> entry_wf (parts_of v) /\ entry_value (parts_of v) = v.
Proof.
  intros Hv. unfold parts_of, entry_wf, entry_value. change (2 ^ 384) with (2 ^ 256 * 2 ^ 128). change (2 ^ 256) with (2 ^ 128 * 2 ^ 128).
  change (2 ^ 512) with (2 ^ 128 * 2 ^ 128 * 2 ^ 128 * 2 ^ 128) in Hv.
  assert (HM : 0 < 2 ^ 128) by lia. set (M := 2 ^ 128) in *. clearbody M.
  rewrite <- !Z.div_div by nia.
  pose proof (Z.div_mod v M ltac:(lia)) as D1. pose proof (Z.mod_pos_bound v M HM) as R1.
  set (a := v / M) in *. set (r := v mod M) in *. clearbody a r.
  pose proof (Z.div_mod a M ltac:(lia)) as D2. pose proof (Z.mod_pos_bound a M HM) as R2.
  set (b := a / M) in *. set (r2 := a mod M) in *. clearbody b r2.
  pose proof (Z.div_mod b M ltac:(lia)) as D3. pose proof (Z.mod_pos_bound b M HM) as R3.
  set (c := b / M) in *. set (r3 := b mod M) in *. clearbody c r3.
  assert (A : 0 <= a < M * M * M) by (subst v; nia).
  assert (B : 0 <= b < M * M) by (subst a; nia).
  assert (C : 0 <= c < M) by (subst b; nia).
  split; [lia|]. subst v a b. ring.
Qed.

Lemma gen_tables_ok : tables_ok gen_luts.
Proof.
  split.
  - intros g Hg. exists (parts_of (gen_pow2_div_pow5 g)). split.
    { cbn [gen_luts pow2_div_pow5]. rewrite !leb_true by lia. reflexivity. }
    assert (P5 : 0 < 5 ^ g) by (apply Z.pow_pos_nonneg; lia). destruct (Z.log2_spec (5 ^ g) P5) as (L1 & L2).
    pose proof (Z.log2_nonneg (5 ^ g)) as L0.
    unfold gen_pow2_div_pow5. set (l := Z.log2 (5 ^ g)) in *. set (d := 5 ^ g) in *. clearbody d.
    assert (E : 2 ^ (l + 503) = 4 * 2 ^ (l + 501)). { replace (l + 503) with (2 + (l + 501)) by lia. rewrite Z.pow_add_r by lia. reflexivity. }
    assert (P2 : 0 < 2 ^ l) by (apply pow2_pos; lia).
    assert (E2 : 2 ^ (l + 501) = 2 ^ l * 2 ^ 501) by (apply Z.pow_add_r; lia).
    pose proof (Z.div_mod (2 ^ (l + 501)) d ltac:(lia)) as D. pose proof (Z.mod_pos_bound (2 ^ (l + 501)) d P5) as R.
    set (q := 2 ^ (l + 501) / d) in *. set (r := 2 ^ (l + 501) mod d) in *. clearbody q r.
    assert (Q : 0 <= q <= 2 ^ 501). { rewrite E2 in D. clear - D R L1 P2 P5. set (K := 2 ^ 501) in *. assert (0 < K) by (subst K; lia). clearbody K. nia. }
    destruct (parts_wf (4 * (q + 1))) as (W & V).
    { clear - Q. change (2 ^ 512) with (2048 * 2 ^ 501). assert (1 <= 2 ^ 501) by lia. set (K := 2 ^ 501) in *. clearbody K. lia. }
    split; [exact W|]. rewrite V, E. split; lia.
  - intros i Hi. exists (parts_of (gen_pow5_div_pow2 i)). split.
    { cbn [gen_luts pow5_div_pow2]. rewrite !leb_true by lia. reflexivity. }
    assert (P5 : 0 < 5 ^ i) by (apply Z.pow_pos_nonneg; lia). destruct (Z.log2_spec (5 ^ i) P5) as (L1 & L2).
    pose proof (Z.log2_nonneg (5 ^ i)) as L0.
    assert (L3 : Z.log2 (5 ^ i) <= 501).
    { change 501 with (Z.log2 (5 ^ 216)). apply Z.log2_le_mono, Z.pow_le_mono_r; lia. }
    unfold gen_pow5_div_pow2. set (l := Z.log2 (5 ^ i)) in *. set (d := 5 ^ i) in *. clearbody d. clearbody l.
    rewrite (Z.max_r 0 (2 - (l + 1 - 501))), (Z.max_l 0 (l + 1 - 501 - 2)) by lia. rewrite Z.pow_0_r, Z.div_1_r.
    replace (2 - (l + 1 - 501)) with (502 - l) by lia.
    destruct (parts_wf (d * 2 ^ (502 - l))) as (W & V).
    { assert (0 < 2 ^ (502 - l)) by (apply pow2_pos; lia). split; [nia|].
      apply Z.lt_le_trans with (2 ^ Z.succ l * 2 ^ (502 - l)); [nia|]. rewrite <- Z.pow_add_r by lia. apply Z.pow_le_mono_r; lia. }
    split; [exact W|exact V].
Qed.

(** ** The value of a printed text *)

Lemma dec_rnd_max s w k : 0 <= w -> dec_rnd s (w * 10 ^ Z.max 0 k) (- Z.max 0 (- k)) = dec_rnd s w k.
Proof.
  intros Hw. replace (- Z.max 0 (- k)) with (k - Z.max 0 k) by lia. apply dec_rnd_shift; lia.
Qed.

(** Integrality in terms of the significand *)
Lemma nonint_integral_u u c e : 0 < c -> 0 <= e + u -> 0 <= u -> nonint c (e - 2) = false -> (c * 2 ^ (e + u)) mod 2 ^ u = 0.
Proof.
  intros Hc He Hu N. unfold nonint in N. apply Z.ltb_ge in N.
  destruct (ntz_spec 256 (4 * c) ltac:(lia)) as (k & E & _ & H0). set (z := ntz 256 (4 * c)) in *. clearbody z.
  assert (P : 0 < 2 ^ u) by (apply pow2_pos; lia).
  assert (Z2 : 2 <= z).
  { destruct (Z.eq_dec z 0) as [->|]. { change (2 ^ 0) with 1 in E. lia. }
    destruct (Z.eq_dec z 1) as [->|]; [change (2 ^ 1) with 2 in E; lia|lia]. }
  assert (Ec : c = (2 * k + 1) * 2 ^ (z - 2)).
  { assert (2 ^ z = 4 * 2 ^ (z - 2)). { replace z with (2 + (z - 2)) at 1 by lia. rewrite Z.pow_add_r by lia. reflexivity. } lia. }
  rewrite Ec. rewrite <- Z.mul_assoc, <- Z.pow_add_r by lia.
  replace (z - 2 + (e + u)) with (z - 2 + e + u) by lia. rewrite (Z.pow_add_r 2 (z - 2 + e) u) by lia.
  rewrite Z.mul_assoc. apply Z.mod_mul. lia.
Qed.

Lemma nonint_integral c e : 0 < c -> 0 <= e + UNITe -> nonint c (e - 2) = false -> (c * 2 ^ (e + UNITe)) mod 2 ^ UNITe = 0.
Proof. intros. apply nonint_integral_u; auto. unfold UNITe; lia. Qed.

Section Print.
Context {P : profile}.

Lemma in_range x : 0 <= x < 2 ^ 256 -> -474 <= expo x <= 427 ->
  exists c e, mag x = (e + UNITe) * 2 ^ 236 + c /\ sg (mag x) = c /\ qe (mag x) - 262378 = e
    /\ -710 <= e <= 191 /\ 2 ^ 236 <= c < 2 ^ 237
    /\ finb x = true /\ zerob x = false /\ (power_of_two x <-> c = 2 ^ 236) /\ expo x = e + 236.
Proof.
  intros Hx He. pose proof (mag_bound x) as B. unfold expo, power_of_two in *.
  pose proof (Z.div_mod (mag x) (2 ^ 236) ltac:(lia)) as D. pose proof (Z.mod_pos_bound (mag x) (2 ^ 236) ltac:(lia)) as R.
  set (m := mag x) in *. set (q := m / 2 ^ 236) in *. set (r := m mod 2 ^ 236) in *.
  exists (2 ^ 236 + r), (q - 1 - 262378). unfold UNITe.
  assert (Q : qe m = q - 1) by (unfold qe; fold q; lia).
  assert (S : sg m = 2 ^ 236 + r) by (unfold sg; rewrite ltb_false by lia; reflexivity).
  rewrite Q, S. clearbody q r.
  repeat split; try lia.
  - unfold finb, INFm. fold m. apply Z.ltb_lt. lia.
  - unfold zerob. fold m. apply Z.eqb_neq. lia.
Qed.

Lemma print_core t x : tables_ok t -> 0 <= x < 2 ^ 256 -> -474 <= expo x <= 427 ->
  exists w k, shortest_from_f256 t (of256 x) = Some (DecRepr (sgn x) k (of256 w))
    /\ 0 < w < 2 ^ 256 /\ -1000 <= k <= 1000
    /\ (~ power_of_two x \/ 245 <= expo x -> dec_rnd (sgn x) w k = x)
    /\ (~ integral x -> ~ power_of_two x -> forall n q d, 0 <= n < 10 ^ d -> 0 <= d ->
         dec_rnd (sgn x) n q = x -> w < 10 ^ d).
Proof.
  intros T Hx He. destruct (in_range x Hx He) as (c & e & Em & Sg & Qe & Re & Rc & Fi & Nz & Pw & Ex).
  destruct (value_of t (sgn x) c e T Re Rc) as (w & k & E & Hw & Hk & V & F).
  assert (EX : mkf (sgn x) ((e + UNITe) * 2 ^ 236 + c) = x).
  { rewrite <- Em. unfold mkf. pose proof (sgn_mag x). lia. }
  rewrite EX in *. exists w, k. split.
  - unfold shortest_from_f256. rewrite is_finite_of, eq_zero_of, Fi, Nz. cbn [andb negb].
    rewrite dassert_ok by reflexivity. rewrite bind_Some.
    rewrite quantum_exponent_ok, Nz, bind_Some by auto. rewrite integral_significand_ok, bind_Some by auto.
    rewrite Qe, Sg, E, bind_Some. rewrite sign_of by auto. reflexivity.
  - split; [exact Hw|]. split; [exact Hk|]. split.
    + intros H. apply V. destruct H as [H|H]; [left|right; lia].
      destruct (Z.eq_dec c (2 ^ 236)); [tauto|lia].
    + intros Ni Np n q d Hn Hd Hr. apply (F) with n q; auto; try lia.
      * destruct (nonint c (e - 2)) eqn:N; auto. exfalso. apply Ni. unfold integral.
        rewrite Em. rewrite mag_val_any; [apply nonint_integral; auto; unfold UNITe; lia|unfold UNITe; lia|lia|lia].
      * destruct (Z.eq_dec c (2 ^ 236)); [tauto|lia].
Qed.

Lemma not_special x : 0 <= x < 2 ^ 256 -> -474 <= expo x <= 427 -> is_special (of256 x) = false.
Proof.
  intros Hx He. destruct (in_range x Hx He) as (c & e & _ & _ & _ & _ & _ & Fi & Nz & _).
  rewrite is_special_of, Fi, Nz. reflexivity.
Qed.

Lemma sgn01 x : 0 <= x < 2 ^ 256 -> sgn x = 0 \/ sgn x = 1.
Proof. intros H. pose proof (sgn_bound x H). lia. Qed.

Definition sign_lit (x : Z) : lsign := if sgn x =? 1 then Minus else NoSign.

Lemma print_display t x : tables_ok t -> 0 <= x < 2 ^ 256 -> -474 <= expo x <= 427 ->
  exists l, documented l /\ display t (bits x) = Some (text l)
    /\ (~ power_of_two x \/ 245 <= expo x -> spec_parse l = x)
    /\ (~ integral x -> ~ power_of_two x -> forall n q d, 0 <= n < 10 ^ d -> 0 <= d ->
         dec_rnd (sgn x) n q = x -> significant l d).
Proof.
  intros T Hx He. destruct (print_core t x T Hx He) as (w & k & E & Hw & Hk & V & F).
  destruct (display_parts_ok (sgn x) w k Hw ltac:(lia)) as (i & f & Ed & D1 & D2 & D3 & D4 & D5).
  exists (Literal (sign_lit x) i f None).
  assert (LN : lit_negative (Literal (sign_lit x) i f None) = sgn x).
  { unfold lit_negative, sign_lit. cbn [l_sign]. destruct (sgn01 x Hx) as [-> | ->]; reflexivity. }
  split; [split; [split; [exact D1|split; [exact D2|constructor]]|split; [|exact I]]|].
  { cbn [l_int]. destruct i; [congruence|discriminate]. }
  split; [|split].
  - unfold display. rewrite bits_of, not_special by auto. rewrite E, bind_Some, Ed, bind_Some. cbn [p_sign].
    unfold text, sign_lit, pad_parts. cbn [l_sign l_int l_frac l_exp exp_text]. rewrite app_nil_r.
    destruct (sgn01 x Hx) as [-> | ->]; reflexivity.
  - intros H. transitivity (dec_rnd (sgn x) w k); [|exact (V H)]. rewrite (spec_parse_eq _ (sgn x) (w * 10 ^ Z.max 0 k) (- Z.max 0 (- k)));
      [apply dec_rnd_max; lia|exact LN|exact D4|].
    unfold lit_exp10, lit_expo. cbn [l_exp]. change (frac_digits _) with (match f with Some f => f | None => [] end).
    rewrite D5. lia.
  - intros Ni Np n q d Hn Hd Hr. exists w, (Z.max 0 k). split; [exact D4|]. split; [lia|].
    specialize (F Ni Np n q d Hn Hd Hr). lia.
Qed.

Lemma print_exp t up x : tables_ok t -> 0 <= x < 2 ^ 256 -> -474 <= expo x <= 427 ->
  exists l, documented l /\ display_exp t (if up : bool then 69 else 101) (bits x) = Some (text l)
    /\ (~ power_of_two x \/ 245 <= expo x -> spec_parse l = x)
    /\ (~ integral x -> ~ power_of_two x -> forall n q d, 0 <= n < 10 ^ d -> 0 <= d ->
         dec_rnd (sgn x) n q = x -> significant l d).
Proof.
  intros T Hx He. destruct (print_core t x T Hx He) as (w & k & E & Hw & Hk & V & F).
  destruct (scientific_parts_ok (if up then 69 else 101) (sgn x) w k Hw ltac:(lia))
    as (i & f & sg & ds & Ed & D1 & D2 & D3 & D4 & D5 & D6 & D7).
  exists (Literal (sign_lit x) i f (Some (up, sg, ds))).
  assert (LN : lit_negative (Literal (sign_lit x) i f (Some (up, sg, ds))) = sgn x).
  { unfold lit_negative, sign_lit. cbn [l_sign]. destruct (sgn01 x Hx) as [-> | ->]; reflexivity. }
  split; [split; [split; [exact D1|split; [exact D2|exact D4]]|split; [|exact D5]]|].
  { cbn [l_int]. destruct i; [congruence|discriminate]. }
  split; [|split].
  - unfold display_exp. rewrite bits_of, not_special by auto. rewrite E, bind_Some, Ed, bind_Some. cbn [p_sign].
    unfold text, sign_lit, pad_parts. cbn [l_sign l_int l_frac l_exp exp_text].
    destruct (sgn01 x Hx) as [-> | ->]; reflexivity.
  - intros H. transitivity (dec_rnd (sgn x) w k); [|exact (V H)]. apply spec_parse_eq; [exact LN|exact D6|].
    unfold lit_exp10, lit_expo. cbn [l_exp]. change (frac_digits _) with (match f with Some f => f | None => [] end).
    destruct sg; exact D7.
  - intros Ni Np n q d Hn Hd Hr. exists w, 0. change (10 ^ 0) with 1. split; [rewrite Z.mul_1_r; exact D6|].
    split; [lia|]. specialize (F Ni Np n q d Hn Hd Hr). lia.
Qed.

(** ** Special values *)

Lemma print_zero t x : 0 <= x < 2 ^ 256 -> zerob x = true ->
  exists l l', documented l /\ documented l' /\ display t (bits x) = Some (text l) /\ display_exp t 101 (bits x) = Some (text l')
    /\ spec_parse l = x /\ spec_parse l' = x.
Proof.
  intros Hx Hz. exists (Literal (sign_lit x) [0] None None), (Literal (sign_lit x) [0] None (Some (false, NoSign, [0]))).
  split; [apply lit_check_ok; reflexivity|]. split; [apply lit_check_ok; reflexivity|].
  unfold display, display_exp, format_special. rewrite bits_of, is_special_of, eq_zero_of, is_sign_positive_of, Hz by auto.
  cbn [orb].
  assert (EX : mkf (sgn x) 0 = x).
  { unfold zerob in Hz. apply Z.eqb_eq in Hz. unfold mkf. pose proof (sgn_mag x). lia. }
  assert (LN : forall f, lit_negative (Literal (sign_lit x) [0] None f) = sgn x).
  { intros f. unfold lit_negative, sign_lit. cbn [l_sign]. destruct (sgn01 x Hx) as [-> | ->]; reflexivity. }
  unfold text, sign_lit, pad_parts. cbn [l_sign].
  split; [destruct (sgn01 x Hx) as [-> | ->]; reflexivity|]. split; [destruct (sgn01 x Hx) as [-> | ->]; reflexivity|].
  fold (sign_lit x). split.
  - rewrite (spec_parse_eq _ (sgn x) 0 0); [|apply LN|reflexivity|reflexivity]. rewrite dec_rnd_zero. exact EX.
  - rewrite (spec_parse_eq _ (sgn x) 0 0); [|apply LN|reflexivity|reflexivity]. rewrite dec_rnd_zero. exact EX.
Qed.

Lemma print_inf t x : 0 <= x < 2 ^ 256 -> infb x = true ->
  exists s, display t (bits x) = Some s /\ display_exp t 101 (bits x) = Some s
    /\ inf_text s (if sgn x =? 1 then Minus else NoSign).
Proof.
  intros Hx Hi. unfold display, display_exp, format_special.
  assert (mag x = INFm) by (apply Z.eqb_eq; exact Hi).
  rewrite bits_of, is_special_of, eq_zero_of, is_sign_positive_of, is_nan_of by auto.
  unfold zerob, finb, nanb. rewrite H. change (INFm =? 0) with false. rewrite Z.ltb_irrefl. cbn [orb negb].
  eexists. split; [reflexivity|]. split; [reflexivity|].
  left. exists [105; 110; 102]. split; [|reflexivity]. destruct (sgn01 x Hx) as [-> | ->]; reflexivity.
Qed.

Lemma print_nan t x : 0 <= x < 2 ^ 256 -> nanb x = true ->
  exists s, display t (bits x) = Some s /\ display_exp t 101 (bits x) = Some s /\ nan_text s.
Proof.
  intros Hx Hn. unfold display, display_exp, format_special.
  assert (INFm < mag x) by (unfold nanb in Hn; lia).
  rewrite bits_of, is_special_of, eq_zero_of, is_sign_positive_of, is_nan_of, Hn by auto.
  unfold zerob, finb. rewrite (ltb_false (mag x)) by lia. rewrite (proj2 (Z.eqb_neq (mag x) 0)) by (unfold INFm in H; lia).
  cbn [orb negb]. eexists. split; [reflexivity|]. split; [reflexivity|].
  exists NoSign, [78; 97; 78]. split; reflexivity.
Qed.

End Print.

(** ** Rounding a given decimal *)

(** For counterexamples: k <= 0 and e <= 0 *)
Lemma dec_rnd_small_u u s w k c e : u = UNITe -> 0 <= w -> k <= 0 -> -200000 <= e <= 0 -> 2 ^ 236 < c < 2 ^ 237 ->
  (2 * c - 1) * 10 ^ (- k) < w * 2 ^ (1 - e) < (2 * c + 1) * 10 ^ (- k) ->
  mkf s (rnd_mag (w * 10 ^ Z.max 0 k * 2 ^ u) (10 ^ Z.max 0 (- k))) = mkf s ((e + u) * 2 ^ 236 + c).
Proof.
  intros Eu Hw Hk He Hc H. assert (HU : u = 262378) by (rewrite Eu; reflexivity). clear Eu.
  f_equal. rewrite Z.max_l, Z.max_r by lia. rewrite Z.pow_0_r, Z.mul_1_r.
  assert (P10 : 0 < 10 ^ (- k)) by (apply Z.pow_pos_nonneg; lia).
  assert (E2 : 2 ^ u = 2 ^ (1 - e) * 2 ^ (e + u - 1)) by (rewrite <- Z.pow_add_r by lia; f_equal; lia).
  assert (PU : 0 < 2 ^ (e + u - 1)) by (apply pow2_pos; lia).
  rewrite E2. set (Q := 2 ^ (e + u - 1)) in *. set (d := 10 ^ (- k)) in *. set (v := 2 ^ (1 - e)) in *.
  assert (PV : 0 < v) by (apply pow2_pos; lia). clearbody d v.
  assert (L : (2 * c - 1) * Q * d < w * (v * Q) < (2 * c + 1) * Q * d).
  { replace ((2 * c - 1) * Q * d) with ((2 * c - 1) * d * Q) by ring. replace ((2 * c + 1) * Q * d) with ((2 * c + 1) * d * Q) by ring.
    rewrite (Z.mul_assoc w v Q). split; apply Z.mul_lt_mono_pos_r; lia. }
  apply round_inside.
  - exact P10.
  - apply Z.mul_nonneg_nonneg; [lia|]. apply Z.mul_nonneg_nonneg; lia.
  - lia.
  - exact Hc.
  - unfold INFm. lia.
  - fold Q. lia.
  - intros _. fold Q. lia.
Qed.
Lemma dec_rnd_small s w k c e : 0 <= w -> k <= 0 -> -200000 <= e <= 0 -> 2 ^ 236 < c < 2 ^ 237 ->
  (2 * c - 1) * 10 ^ (- k) < w * 2 ^ (1 - e) < (2 * c + 1) * 10 ^ (- k) ->
  dec_rnd s w k = mkf s ((e + UNITe) * 2 ^ 236 + c).
Proof. exact (dec_rnd_small_u UNITe s w k c e eq_refl). Qed.

(** k >= 0 and e >= 1 *)
Lemma dec_rnd_large_u u s w k c e : u = UNITe -> 0 <= w -> 0 <= k -> 1 <= e <= 200000 -> 2 ^ 236 < c < 2 ^ 237 ->
  (2 * c - 1) * 2 ^ (e - 1) <= w * 10 ^ k <= (2 * c + 1) * 2 ^ (e - 1) ->
  (Z.odd c = true -> (2 * c - 1) * 2 ^ (e - 1) < w * 10 ^ k < (2 * c + 1) * 2 ^ (e - 1)) ->
  mkf s (rnd_mag (w * 10 ^ Z.max 0 k * 2 ^ u) (10 ^ Z.max 0 (- k))) = mkf s ((e + u) * 2 ^ 236 + c).
Proof.
  intros Eu Hw Hk He Hc H1 H2. assert (HU : u = 262378) by (rewrite Eu; reflexivity). clear Eu.
  f_equal. rewrite Z.max_r, Z.max_l by lia. rewrite Z.pow_0_r.
  assert (P10 : 0 < 10 ^ k) by (apply Z.pow_pos_nonneg; lia).
  assert (E2 : 2 ^ (e + u - 1) = 2 ^ (e - 1) * 2 ^ u) by (rewrite <- Z.pow_add_r by lia; f_equal; lia).
  assert (PU : 0 < 2 ^ u) by (apply pow2_pos; lia).
  assert (L : forall a b, a <= b -> a * 2 ^ u * 1 <= b * 2 ^ u * 1) by (intros; rewrite !Z.mul_1_r; apply Z.mul_le_mono_nonneg_r; lia).
  assert (L2 : forall a b, a < b -> a * 2 ^ u * 1 < b * 2 ^ u * 1) by (intros; rewrite !Z.mul_1_r; apply Z.mul_lt_mono_pos_r; lia).
  apply round_inside.
  - lia.
  - apply Z.mul_nonneg_nonneg; [apply Z.mul_nonneg_nonneg; lia|lia].
  - lia.
  - exact Hc.
  - unfold INFm. lia.
  - rewrite E2. rewrite !Z.mul_assoc. rewrite <- (Z.mul_1_r (w * 10 ^ k * 2 ^ u)). split; apply L; lia.
  - intros O. specialize (H2 O). rewrite E2. rewrite !Z.mul_assoc. rewrite <- (Z.mul_1_r (w * 10 ^ k * 2 ^ u)).
    split; apply L2; lia.
Qed.
Lemma dec_rnd_large s w k c e : 0 <= w -> 0 <= k -> 1 <= e <= 200000 -> 2 ^ 236 < c < 2 ^ 237 ->
  (2 * c - 1) * 2 ^ (e - 1) <= w * 10 ^ k <= (2 * c + 1) * 2 ^ (e - 1) ->
  (Z.odd c = true -> (2 * c - 1) * 2 ^ (e - 1) < w * 10 ^ k < (2 * c + 1) * 2 ^ (e - 1)) ->
  dec_rnd s w k = mkf s ((e + UNITe) * 2 ^ 236 + c).
Proof. exact (dec_rnd_large_u UNITe s w k c e eq_refl). Qed.

Lemma not_significant W z0 l d : 0 <= z0 -> W mod 10 <> 0 -> 10 ^ d <= W -> lit_signif l = W * 10 ^ z0 -> ~ significant l d.
Proof.
  intros Hz Hm HW E (w & z & E2 & H0 & Hw). rewrite E in E2. clear E.
  destruct (Z.le_gt_cases z z0) as [L|L].
  - replace z0 with (z0 - z + z) in E2 by lia. rewrite Z.pow_add_r in E2 by lia.
    assert (0 < 10 ^ z) by (apply Z.pow_pos_nonneg; lia). assert (0 < 10 ^ (z0 - z)) by (apply Z.pow_pos_nonneg; lia).
    rewrite Z.mul_assoc in E2. apply Z.mul_reg_r in E2; [|lia]. nia.
  - replace z with (z - z0 - 1 + 1 + z0) in E2 by lia. rewrite !Z.pow_add_r in E2 by lia.
    assert (0 < 10 ^ z0) by (apply Z.pow_pos_nonneg; lia). rewrite Z.mul_assoc in E2. apply Z.mul_reg_r in E2; [|lia].
    apply Hm. rewrite E2. rewrite Z.mul_assoc. apply Z.mod_mul. lia.
Qed.

(** 3/2 is no integral number. *)
Lemma half_not_integral_u u : 1 <= u -> (3 * 2 ^ (u - 1)) mod 2 ^ u <> 0.
Proof.
  intros Hu. assert (E : 2 ^ u = 2 * 2 ^ (u - 1)). { replace u with (1 + (u - 1)) at 1 by lia. rewrite Z.pow_add_r by lia. reflexivity. }
  assert (0 < 2 ^ (u - 1)) by (apply pow2_pos; lia). rewrite E. set (a := 2 ^ (u - 1)) in *. clearbody a.
  rewrite (mod_eq (3 * a) (2 * a) 1 a) by lia. lia.
Qed.
Lemma half_not_integral : ~ integral (ONEm + 2 ^ 235).
Proof.
  unfold integral. change (mag (ONEm + 2 ^ 235)) with ((-236 + UNITe) * 2 ^ 236 + 3 * 2 ^ 235).
  rewrite mag_val_any; [|unfold UNITe; lia|lia|lia].
  assert (E : forall u, 1000 <= u -> 3 * 2 ^ 235 * 2 ^ (-236 + u) = 3 * 2 ^ (u - 1)).
  { intros u Hu. rewrite <- Z.mul_assoc, <- Z.pow_add_r by lia. f_equal. f_equal. lia. }
  rewrite E by (unfold UNITe; lia). apply half_not_integral_u. unfold UNITe; lia.
Qed.

Section Props.
Context {P : profile}.

Lemma L_display t x : tables_ok t -> 0 <= x < 2 ^ 256 -> -474 <= expo x <= 427 -> ~ power_of_two x \/ 245 <= expo x ->
  exists l, documented l /\ display t (bits x) = Some (text l) /\ spec_parse l = x.
Proof. intros T Hx He C. destruct (print_display t x T Hx He) as (l & A & B & D & _). exists l. auto. Qed.
Lemma L_display_exp t up x : tables_ok t -> 0 <= x < 2 ^ 256 -> -474 <= expo x <= 427 -> ~ power_of_two x \/ 245 <= expo x ->
  exists l, documented l /\ display_exp t (if up : bool then 69 else 101) (bits x) = Some (text l) /\ spec_parse l = x.
Proof. intros T Hx He C. destruct (print_exp t up x T Hx He) as (l & A & B & D & _). exists l. auto. Qed.
Lemma L_total t up x : tables_ok t -> 0 <= x < 2 ^ 256 -> -474 <= expo x <= 427 ->
  (exists l, documented l /\ display t (bits x) = Some (text l))
  /\ (exists l, documented l /\ display_exp t (if up : bool then 69 else 101) (bits x) = Some (text l)).
Proof.
  intros T Hx He. destruct (print_display t x T Hx He) as (l & A & B & _). destruct (print_exp t up x T Hx He) as (l' & A' & B' & _).
  split; [exists l|exists l']; auto.
Qed.
Lemma L_shortest t x : tables_ok t -> 0 <= x < 2 ^ 256 -> -474 <= expo x <= 427 -> ~ power_of_two x -> ~ integral x ->
  exists l, documented l /\ display t (bits x) = Some (text l) /\ spec_parse l = x
    /\ forall n q d, 0 <= d -> 0 <= n < 10 ^ d -> dec_rnd (sgn x) n q = x -> significant l d.
Proof.
  intros T Hx He C I. destruct (print_display t x T Hx He) as (l & A & B & D & F). exists l.
  repeat split; auto; try apply A; eauto.
Qed.
Lemma L_shortest_exp t up x : tables_ok t -> 0 <= x < 2 ^ 256 -> -474 <= expo x <= 427 -> ~ power_of_two x -> ~ integral x ->
  exists l, documented l /\ display_exp t (if up : bool then 69 else 101) (bits x) = Some (text l) /\ spec_parse l = x
    /\ forall n q d, 0 <= d -> 0 <= n < 10 ^ d -> dec_rnd (sgn x) n q = x -> significant l d.
Proof.
  intros T Hx He C I. destruct (print_exp t up x T Hx He) as (l & A & B & D & F). exists l.
  repeat split; auto; try apply A; eauto.
Qed.

End Props.

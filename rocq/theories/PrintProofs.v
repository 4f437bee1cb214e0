(** * PrintProofs: the decimal found by the printer lies in the rounding interval *)

From Coq Require Import ZArith List Bool Lia Znumtheory Zpow_facts.
From Verif Require Import Base ZLemmas BigUInt BigLaws BigUIntProofs BigExtra F256 F256Lemmas Print SpecPrint
  PrintArith PrintLoops.
Import ListNotations.
Open Scope Z_scope.

(** ** The search in terms of the interval *)

(** [w * 10^j * K] lies between the neighbours of [X]; [c] odd means the bounds are not
    part of the interval. *)
Definition inside (c X B K w j : Z) : Prop :=
  2 * X - B <= w * 10 ^ j * K <= B
  /\ (Z.odd c = true -> 2 * X - B < w * 10 ^ j * K < B).

(** No multiple of the next power of ten lies in the interval. *)
Definition no_shorter (c A B K j : Z) : Prop :=
  forall n, A <= n * 10 ^ (j + 1) * K <= B -> (Z.odd c = true -> A < n * 10 ^ (j + 1) * K < B) -> False.

Section Print.
Context {P : profile}.

Lemma lu_lt A B K u j : 0 < K -> 2 * K < B - A -> B <= (u + 1) * K -> 0 <= A -> 0 <= j -> (0 < j -> A / K / 10 ^ j < u / 10 ^ j) ->
  A / K / 10 ^ j < u / 10 ^ j.
Proof.
  intros HK W HB HA Hj H. destruct (Z.eq_dec j 0) as [->|]; [|apply H; lia].
  rewrite Z.pow_0_r, !Z.div_1_r. apply Z.div_lt_upper_bound; nia.
Qed.

Lemma pow10_S j : 0 <= j -> 10 ^ (j + 1) = 10 * 10 ^ j.
Proof. intros. rewrite Z.pow_add_r by lia. change (10 ^ 1) with 10. ring. Qed.

Lemma comb_exact c A X B K lrz rz : lrz || rz = true -> 0 < K -> K <= A -> A < X -> X < B -> X - A <= B - X ->
  K <= B - X -> 2 * K < B - A ->
  X / K < 2 ^ 255 -> B / K < 2 ^ 256 ->
  (lrz = true -> Z.odd c = false /\ A = A / K * K) ->
  (Z.odd c = true -> forall n, n * 10 * K <> B) ->
  exists w j, shortest_in (of256 (A / K)) (of256 (X / K)) (of256 (B / K)) lrz rz = Some (of256 w, j)
    /\ 0 <= j <= 200 /\ inside c X B K w j
    /\ ((lrz = false -> Z.odd c = false -> forall n, n * 10 * K <> A) -> no_shorter c A B K j).
Proof.
  intros Hf HK HKA HA HX Sym Wide W2 Bs Bu Hl Hb.
  assert (Hl0 : 0 < A / K) by (apply Z.div_str_pos; lia).
  assert (Hs0 : 0 <= X / K) by (apply Z.div_pos; lia).
  assert (Hlu : A / K <= B / K) by (apply Z.div_le_mono; lia).
  destruct (shortest_in_exact (A / K) (X / K) (B / K) lrz rz Hf Hl0 ltac:(lia) ltac:(lia))
    as (j1 & j & E & Hj & Hj2 & Hlt & Hq & Hlow & Hlast).
  pose proof (Z.div_mod B K ltac:(lia)) as EB. pose proof (Z.mod_pos_bound B K HK) as RB.
  assert (HuB : B / K * K <= B < (B / K + 1) * K). { clear - EB RB. set (q := B / K) in *. clearbody q. nia. }
  clear EB RB.
  exists (rounded (X / K) j), j. split; [exact E|]. split; [lia|]. split.
  - destruct (Z.eq_dec j j1) as [->|Nj].
    + assert (L : A / K / 10 ^ j1 < B / K / 10 ^ j1) by (apply lu_lt with B; auto; lia).
      destruct (core_near A X B K HK HX Sym Wide (B / K) ltac:(lia) j1 ltac:(lia) L _ eq_refl) as [N1 N2].
      assert (rounded (X / K) j1 * 10 ^ j1 * K <= B / K * K) by (apply Z.mul_le_mono_nonneg_r; lia).
      split; [lia|]. intros Od. split; [lia|].
      assert (rounded (X / K) j1 * 10 ^ j1 * K <> B); [|lia].
      destruct (Z.eq_dec j1 0) as [->|].
      * unfold rounded. cbn [Z.ltb Z.compare andb]. rewrite Z.pow_0_r, Z.div_1_r.
        pose proof (Z.mul_div_le X K HK). lia.
      * specialize (Hb Od (rounded (X / K) j1 * 10 ^ (j1 - 1))). intros C. apply Hb. rewrite <- C.
        replace (10 ^ j1) with (10 ^ (j1 - 1) * 10) by (rewrite <- (Z.mul_comm 10), <- pow10_S by lia; f_equal; lia). ring.
    + destruct (Hlow ltac:(lia)) as [-> Hm]. destruct (Hl eq_refl) as [Ev EA].
      assert (R : rounded (X / K) j * 10 ^ j * K = A).
      { apply (core_lower A X B K (B / K) j1 j (A / K) (X / K)); auto; try lia.
        rewrite <- !div_pow10_step by lia. auto. }
      split; [lia|congruence].
  - intros NL n Hn1 Hn2.
    assert (P10 : 0 < 10 ^ (j + 1)) by (apply Z.pow_pos_nonneg; lia).
    assert (Hnu : n * 10 ^ (j + 1) <= B / K) by (apply Z.div_le_lower_bound; lia).
    assert (Epow : 10 ^ (j + 1) = 10 ^ (j - j1) * 10 ^ (j1 + 1)) by (rewrite <- Z.pow_add_r by lia; f_equal; lia).
    destruct (Z.eq_dec A (n * 10 ^ (j + 1) * K)) as [EA|NA].
    + destruct (Z.odd c) eqn:Od. { specialize (Hn2 eq_refl). lia. }
      destruct lrz.
      * assert (El : A / K = n * 10 ^ (j + 1)). { rewrite EA. apply Z.div_mul. lia. }
        assert (Z1 : A / K mod 10 ^ (j + 1) = 0) by (rewrite El; apply Z.mod_mul; lia).
        assert (Z2 : A / K mod 10 ^ j = 0).
        { rewrite El. rewrite pow10_S by lia. replace (n * (10 * 10 ^ j)) with (n * 10 * 10 ^ j) by ring.
          apply Z.mod_mul. apply Z.pow_nonzero; lia. }
        exact (Hlast eq_refl Z2 Z1).
      * apply (NL eq_refl eq_refl (n * 10 ^ j)). rewrite EA, pow10_S by lia. ring.
    + apply (core_none A K (B / K) j1 (A / K) (n * 10 ^ (j - j1))); auto; try lia;
        replace (n * 10 ^ (j - j1) * 10 ^ (j1 + 1)) with (n * 10 ^ (j + 1)) by (rewrite Epow; ring); lia.
Qed.

Lemma comb_next c A X B K u : 0 < K -> K <= A -> A < X -> X < B -> X - A <= B - X -> K <= B - X -> 2 * K < B - A ->
  X / K < 2 ^ 255 -> u < 2 ^ 256 -> u * K <= B <= (u + 1) * K ->
  (Z.odd c = true -> u * K <> B) ->
  exists w j, shortest_in (of256 (A / K)) (of256 (X / K)) (of256 u) false false = Some (of256 w, j)
    /\ 0 <= j <= 200 /\ inside c X B K w j /\ A < w * 10 ^ j * K
    /\ ((Z.odd c = false -> forall n, n * 10 * K <> A) -> u = B / K -> no_shorter c A B K j).
Proof.
  intros HK HKA HA HX Sym Wide W2 Bs Bu Hu Hb.
  assert (Hl0 : 0 < A / K) by (apply Z.div_str_pos; lia).
  assert (Hs0 : 0 <= X / K) by (apply Z.div_pos; lia).
  assert (Hlu : A / K <= u). { assert (A / K < u + 1); [|lia]. apply Z.div_lt_upper_bound; lia. }
  destruct (shortest_in_next (A / K) (X / K) u ltac:(lia) ltac:(lia) ltac:(lia)) as (j & E & Hj & Hlt & Hq).
  match type of E with _ = Some (of256 ?t, _) => set (w := t) in E end.
  exists w, j. split; [exact E|]. split; [lia|].
  assert (L : A / K / 10 ^ j < u / 10 ^ j) by (apply lu_lt with B; auto; lia).
  destruct (core_next A X B K HK ltac:(lia) HX Sym u ltac:(lia) j ltac:(lia) L w eq_refl) as [N1 N2].
  assert (w * 10 ^ j * K <= u * K) by (apply Z.mul_le_mono_nonneg_r; lia).
  split; [|split; [exact N1|]].
  - split; [lia|]. intros Od. specialize (Hb Od). lia.
  - intros NL Eu n Hn1 Hn2.
    assert (P10 : 0 < 10 ^ (j + 1)) by (apply Z.pow_pos_nonneg; lia).
    assert (Hnu : n * 10 ^ (j + 1) <= u) by (rewrite Eu; apply Z.div_le_lower_bound; lia).
    destruct (Z.eq_dec A (n * 10 ^ (j + 1) * K)) as [EA|NA].
    + destruct (Z.odd c) eqn:Od. { specialize (Hn2 eq_refl). lia. }
      apply (NL eq_refl (n * 10 ^ j)). rewrite EA, pow10_S by lia. ring.
    + apply (core_none A K u j (A / K) n); auto; lia.
Qed.

(** The branch with the decremented significand *)
Lemma comb_decr c A x h l K : 0 < K -> Z.odd c = true -> 0 < c -> x = 2 * c * h ->
  h = 10 \/ h = 50 \/ h = 25 \/ h = 125 -> x < 2 ^ 255 ->
  0 <= A -> l = A / K -> x - h <= l -> l < x -> 0 < l ->
  exists w j, shortest_in (of256 l) (of256 (x - 1)) (of256 (x + h)) false true = Some (of256 w, j)
    /\ 0 <= j <= 200 /\ inside c (x * K) ((x + h) * K) K w j
    /\ no_shorter c A ((x + h) * K) K j.
Proof.
  intros HK Od Hc Ex Hh Bx HA El Hl1 Hl2 Hl3.
  destruct (shortest_in_exact l (x - 1) (x + h) false true eq_refl Hl3 ltac:(lia) ltac:(lia))
    as (j1 & j & E & Hj & Hj2 & Hlt & Hq & Hlow & _).
  assert (j1 = j). { destruct (Z.eq_dec j1 j); auto. destruct Hlow as [? _]; [lia|discriminate]. }
  subst j1. exists (rounded (x - 1) j), j. split; [exact E|]. split; [lia|].
  assert (C2 : c mod 2 = 1) by (rewrite Zmod_odd, Od; reflexivity).
  pose proof (core_decr x h c l (x + h) j ltac:(lia) C2 Hc Ex eq_refl Hl1 Hl2 Hh Hlt) as D.
  set (v := rounded (x - 1) j * 10 ^ j) in *. split.
  - split; [|intros _]; unfold inside; clear - D HK; nia.
  - intros n Hn1 Hn2. specialize (Hn2 Od).
    apply (core_none A K (x + h) j l n); auto; try lia.
    clear - Hn1 HK. nia.
Qed.

(** ** The interval *)

Lemma ppf_check : forallb (fun n => match nth_error PrintTable.PRINT_POWERS_OF_FIVE n with
   | Some (h, l) => (h * 2 ^ 128 + l =? 5 ^ Z.of_nat n) && (0 <=? l) && (l <? 2 ^ 128) | None => false end) (seq 0 103) = true.
Proof. vm_compute. reflexivity. Qed.

Lemma print_power_of_five_ok n : 0 <= n <= 102 -> print_power_of_five n = Some (of256 (5 ^ n)).
Proof.
  intros Hn. unfold print_power_of_five. rewrite dassert_ok by (apply Z.leb_le; lia). rewrite bind_Some.
  pose proof ppf_check as H. rewrite forallb_forall in H.
  specialize (H (Z.to_nat n)). rewrite in_seq in H. specialize (H ltac:(lia)).
  rewrite Z2Nat.id in H by lia. destruct (nth_error _ _) as [[h l]|]; [|discriminate].
  rewrite bind_Some. rewrite !andb_true_iff in H. destruct H as ((H1 & H2) & H3).
  apply Z.eqb_eq in H1. apply Z.leb_le in H2. apply Z.ltb_lt in H3.
  rewrite u256_of by lia. rewrite H1. reflexivity.
Qed.

Lemma pow5_lt n : 0 <= n <= 55 -> 0 < 5 ^ n < 2 ^ 128.
Proof.
  intros. split. apply Z.pow_pos_nonneg; lia. apply Z.le_lt_trans with (5 ^ 55).
  apply Z.pow_le_mono_r; lia. vm_compute. reflexivity.
Qed.

Lemma is_multiple_ok x e : 0 <= x < 2 ^ 256 -> 0 <= e <= 55 ->
  is_multiple_of_pow5 (of256 x) e = Some (x mod 5 ^ e =? 0).
Proof.
  intros Hx He. unfold is_multiple_of_pow5.
  destruct (Z.eqb_spec e 0) as [->|]. { rewrite Z.pow_0_r, Z.mod_1_r. reflexivity. }
  destruct (Z.eqb_spec e 1) as [->|].
  { rewrite (div_rem_u128_ok of128 L128) by (change (2 ^ (2 * BITS)) with (2 ^ 256); lia). rewrite bind_Some. reflexivity. }
  pose proof (pow5_lt e He) as P5.
  rewrite print_power_of_five_ok by lia. rewrite bind_Some. rewrite leb_true by lia.
  change (lo (of256 (5 ^ e))) with (mk128 (5 ^ e mod 2 ^ 128)). rewrite Z.mod_small by lia.
  rewrite div256_128 by lia. rewrite bind_Some. reflexivity.
Qed.

Lemma parts_512 v : entry_wf v -> 0 <= entry_value v < 2 ^ 512 /\ u512_of_parts v = of512 (entry_value v).
Proof.
  destruct v as (((a, b), c), d). unfold entry_wf, entry_value. intros (Ha & Hb & Hc & Hd). split; [lia|].
  unfold u512_of_parts. rewrite !u256_of by lia.
  set (h := a * 2 ^ 128 + b). set (l := c * 2 ^ 128 + d).
  symmetry.
  apply (of_uint_eq of256 _ h l); change (2 ^ BITS) with (2 ^ 256); unfold h, l; lia.
Qed.

(** One product: y * N / K, where K = 5^g and the entry is slightly larger than 2^(h+2) / K *)
Lemma scaled_ge y N K t D E2 : 0 <= y -> 0 < N -> 0 < K -> 0 < D -> 0 < E2 ->
  D < K * t <= D + 4 * K -> y * N * (4 * K) < D ->
  y * N * t / D = y * N / K.
Proof.
  intros Hy HN HK HD _ Ht Hs.
  pose proof (Z.div_mod (y * N) K ltac:(lia)) as E. pose proof (Z.mod_pos_bound (y * N) K HK) as R.
  set (q := y * N / K) in *. set (r := y * N mod K) in *. clearbody q r. set (v := y * N) in *.
  assert (0 <= v) by (unfold v; nia). clearbody v. clear y N Hy HN.
  apply div_eq with (v * t - q * D). ring.
  set (d := K * t - D). assert (Hd : 0 < d <= 4 * K) by (unfold d; lia).
  assert (V1 : v * t * K = v * D + v * d) by (unfold d; ring).
  assert (V2 : v * D = q * K * D + r * D) by (rewrite E; ring).
  assert (V3 : (v * t - q * D) * K = r * D + v * d). { rewrite Z.mul_sub_distr_r, V1, V2. ring. }
  assert (v * d <= v * (4 * K)) by (apply Z.mul_le_mono_nonneg_l; lia).
  assert (0 <= v * d) by (apply Z.mul_nonneg_nonneg; lia).
  assert (r * D <= (K - 1) * D) by (apply Z.mul_le_mono_nonneg_r; lia).
  assert (0 <= r * D) by (apply Z.mul_nonneg_nonneg; lia).
  set (z := v * t - q * D) in *. clearbody z. clear - V3 H0 H1 H2 H3 Hs HK HD. nia.
Qed.

Definition ge_g (e2 : Z) : Z := floor_log10_pow2 e2 - b2z (3 <? e2).

Definition ge_check (e2 : Z) : bool :=
  let g := ge_g e2 in
  let f := Z.log2 (5 ^ g) in
  let sh := e2 - g - (f + 501) + 510 in
  (-2 <=? floor_log10_pow2 e2) && (floor_log10_pow2 e2 <=? 100)
  && (0 <=? g) && (g <=? 55) && (0 <=? sh) && (sh <=? 16) && (0 <=? f) && (f <=? 200) && (g <=? e2)
  && (5 ^ g <=? 2 ^ (e2 - g)) && (2 ^ (e2 - g) <=? 2 ^ 15 * 5 ^ g)
  && (casts 32 (castu 64 g * 81695582054029 / 2 ^ 45) =? f)
  && (2 ^ 240 * 2 ^ (e2 - g) * (4 * 5 ^ g) <=? 2 ^ (f + 503))
  && (implb (7 <=? e2) (1 <=? g)).

Lemma ge_checks : forallb (fun n => ge_check (Z.of_nat n)) (seq 0 190) = true.
Proof. vm_compute. reflexivity. Qed.

Lemma ge_facts e2 : 0 <= e2 <= 189 -> ge_check e2 = true.
Proof.
  intros H. pose proof ge_checks as C. rewrite forallb_forall in C. specialize (C (Z.to_nat e2)).
  rewrite in_seq, Z2Nat.id in C by lia. apply C. lia.
Qed.

Lemma pow5_odd_coprime g a y : 0 <= g -> 0 <= a -> (y * 2 ^ a) mod 5 ^ g = 0 -> y mod 5 ^ g = 0.
Proof.
  intros Hg Ha H. assert (P5 : 0 < 5 ^ g) by (apply Z.pow_pos_nonneg; lia).
  apply Z.mod_divide in H; [|lia]. apply Z.mod_divide; [lia|].
  apply Znumtheory.Gauss with (2 ^ a). rewrite Z.mul_comm. exact H.
  apply rel_prime_Zpower; auto. apply Znumtheory.Zgcd_1_rel_prime. reflexivity.
Qed.

Lemma shl256 y sh : 0 <= y < 2 ^ 240 -> 0 <= sh <= 16 -> ushl (of256 y) sh = Some (of256 (y * 2 ^ sh)) /\ 0 <= y * 2 ^ sh < 2 ^ 256.
Proof.
  intros Hy Hs. assert (0 < 2 ^ sh <= 2 ^ 16) by (split; [apply pow2_pos; lia|apply pow2_le; lia]).
  assert (0 <= y * 2 ^ sh < 2 ^ 256) by nia. split; auto.
  rewrite (L_shl _ L256) by (change (2 ^ BITS) with (2 ^ 256); change BITS with 256; lia).
  change (2 ^ BITS) with (2 ^ 256). rewrite Z.mod_small by auto. reflexivity.
Qed.

Lemma floor_log2_ok g f : 0 <= g <= 500 -> casts 32 (castu 64 g * 81695582054029 / 2 ^ 45) = f -> floor_log2_pow5 g = Some f.
Proof.
  intros Hg Hf. unfold floor_log2_pow5. rewrite !dassert_ok by (apply Z.leb_le; lia). rewrite !bind_Some.
  rewrite castu_ok in * by lia. rewrite mulu_ok by lia. rewrite bind_Some, Hf. reflexivity.
Qed.

Lemma mod5_step x y g : 0 <= g -> 1 <= g -> x mod 5 = 0 -> y = x + 2 -> y mod 5 ^ g <> 0.
Proof.
  intros _ Hg Hx -> H. assert (E : 5 ^ g = 5 ^ (g - 1) * 5).
  { replace g with (g - 1 + 1) at 1 by lia. rewrite Z.pow_add_r by lia. reflexivity. }
  assert (P5 : 0 < 5 ^ (g - 1)) by (apply Z.pow_pos_nonneg; lia).
  apply Z.mod_divide in H; [|lia]. destruct H as [k Hk].
  rewrite E, Z.mul_assoc in Hk. assert (C : (x + 2) mod 5 = 0) by (rewrite Hk; apply Z.mod_mul; lia).
  rewrite Z.add_mod, Hx in C by lia. discriminate.
Qed.

Lemma interval_ge t c e2 : tables_ok t -> 0 <= e2 <= 189 -> 0 < c < 2 ^ 237 ->
  let g := ge_g e2 in let K := 5 ^ g in let N := 2 ^ (e2 - g) in
  let A := (4 * c - 1) * N in let X := 4 * c * N in let B := (4 * c + 2) * N in
  0 <= g <= 55 /\ g <= e2 /\ 0 < K <= N /\ N <= 2 ^ 15 * K /\
  exists u lrz rz,
    decimal_interval t (Z.even c) (of256 (4 * c)) e2 = Some (g, of256 (A / K), of256 (X / K), of256 u, lrz, rz)
    /\ u * K <= B <= (u + 1) * K /\ u < 2 ^ 256
    /\ (lrz || rz = true -> u = B / K /\ (Z.odd c = true -> forall n, n * 10 * K <> B))
    /\ (lrz || rz = false -> Z.odd c = true -> u * K <> B)
    /\ (lrz = true -> Z.odd c = false /\ A = A / K * K)
    /\ (c = 2 ^ 236 -> 7 <= e2 -> lrz || rz = false).
Proof.
  intros (TG & _) He Hc. intros g K N A X B.
  pose proof (ge_facts e2 He) as F. unfold ge_check in F. fold g in F. cbv zeta in F.
  rewrite !andb_true_iff in F. destruct F as (((((((((((((F1 & F2) & F3) & F4) & F5) & F6) & F7) & F8) & F9) & F10) & F11) & F12) & F13) & F14).
  apply Z.leb_le in F1, F2, F3, F4, F5, F6, F7, F8, F9, F10, F11, F13. apply Z.eqb_eq in F12.
  fold K in F10, F11, F13. fold N in F10, F11, F13.
  set (f := Z.log2 (5 ^ g)) in *. set (sh := e2 - g - (f + 501) + 510) in *.
  assert (PK : 0 < K) by (apply Z.pow_pos_nonneg; lia).
  assert (PN : 0 < N) by (apply pow2_pos; lia).
  split; [lia|]. split; [lia|]. split; [lia|]. split; [lia|].
  destruct (TG g ltac:(lia)) as (v & Ev & Wv & Bv). fold f in Bv. fold K in Bv.
  destruct (parts_512 v Wv) as [Rv Pv].
  assert (SC : forall y, 0 <= y < 2 ^ 240 ->
    bind (ushl (of256 y) sh) (fun y0 => u256_truncating_mul_u512 y0 (u512_of_parts v)) = Some (of256 (y * N / K))).
  { intros y Hy. destruct (shl256 y sh Hy ltac:(lia)) as [-> Ry]. rewrite bind_Some, Pv.
    rewrite trunc_mul_ok by auto. do 2 f_equal.
    pose proof (pow2_pos (f + 503) ltac:(lia)) as PD.
    rewrite <- (scaled_ge y N K (entry_value v) (2 ^ (f + 503)) 1); auto; try lia.
    - assert (EQ : 2 ^ sh * 2 ^ (f + 503) = 2 ^ (e2 - g) * 2 ^ 512).
      { rewrite <- !Z.pow_add_r by lia. f_equal. unfold sh. lia. }
      fold N in EQ. pose proof (pow2_pos sh ltac:(lia)).
      rewrite <- (Z.div_mul_cancel_r (y * 2 ^ sh * entry_value v) (2 ^ 512) N) by lia.
      rewrite (Z.mul_comm (2 ^ 512) N), <- EQ.
      replace (y * 2 ^ sh * entry_value v * N) with (y * N * entry_value v * 2 ^ sh) by ring.
      rewrite (Z.mul_comm (2 ^ sh)). apply Z.div_mul_cancel_r; lia.
    - apply Z.lt_le_trans with (2 ^ 240 * N * (4 * K)); [|exact F13].
      repeat apply Zmult_lt_compat_r; lia. }
  assert (HA : A / K < 2 ^ 255) by (apply Z.div_lt_upper_bound; [lia|unfold A; clear - Hc PK PN F11; nia]).
  assert (HX : X / K < 2 ^ 255) by (apply Z.div_lt_upper_bound; [lia|unfold X; clear - Hc PK PN F11; nia]).
  assert (HB : B / K < 2 ^ 255) by (apply Z.div_lt_upper_bound; [lia|unfold B; clear - Hc PK PN F11; nia]).
  assert (DB : B / K * K <= B < (B / K + 1) * K).
  { pose proof (Z.div_mod B K ltac:(lia)). pose proof (Z.mod_pos_bound B K PK). set (q := B / K) in *. clearbody q. lia. }
  assert (HB0 : 0 < B / K) by (apply Z.div_str_pos; unfold B; clear - Hc PK PN F10; nia).
  assert (Dv : forall y, (y mod K =? 0) = true -> y * N = y * N / K * K).
  { intros y Hy. apply Z.eqb_eq in Hy. apply Z.mod_divide in Hy; [|lia]. destruct Hy as [k ->].
    replace (k * K * N) with (k * N * K) by ring. rewrite Z.div_mul by lia. reflexivity. }
  assert (Nd : forall y, (y mod K =? 0) = false -> forall n, n * K <> y * N).
  { intros y Hy n Hn. apply Z.eqb_neq in Hy. apply Hy. apply (pow5_odd_coprime g (e2 - g)); auto; try lia.
    fold N. rewrite <- Hn. apply Z.mod_mul. lia. }
  (* the computation *)
  unfold decimal_interval. rewrite (L_tz _ L256) by (change (2 ^ BITS) with (2 ^ 256); lia).
  change BITS with 256.
  pose proof (ntz_lt 256 (4 * c) ltac:(lia) ltac:(lia)) as TZ.
  rewrite casts_ok by lia. rewrite subs_ok by lia. rewrite bind_Some. rewrite ltb_false by lia.
  cbn [b2z]. change (1 + 0) with 1. rewrite (L_of_u128 _ L256) by lia. rewrite (L_two _ L256).
  rewrite (L_sub _ L256) by (change (2 ^ BITS) with (2 ^ 256); lia). rewrite bind_Some.
  rewrite (L_add _ L256) by (change (2 ^ BITS) with (2 ^ 256); lia). rewrite bind_Some.
  cbv zeta. rewrite leb_true by lia.
  rewrite subs_ok by (destruct (3 <? e2); cbn [b2z]; lia). rewrite bind_Some. fold (ge_g e2). fold g.
  rewrite (floor_log2_ok g f) by (auto; lia). rewrite bind_Some.
  rewrite adds_ok by lia. rewrite bind_Some.
  rewrite subs_ok by lia. rewrite bind_Some. rewrite subs_ok by lia. rewrite bind_Some. rewrite adds_ok by lia. rewrite bind_Some.
  fold sh. rewrite !(castu_ok 32 sh) by lia. rewrite (castu_ok 64 g) by lia. rewrite Ev, bind_Some.
  rewrite !SC by lia. rewrite !bind_Some. fold A X B.
  rewrite leb_true by lia. rewrite div256_128 by lia. rewrite bind_Some.
  change (is_zero (of128 ((4 * c) mod 5))) with ((4 * c) mod 5 =? 0).
  rewrite (castu_ok 32 g) by lia.
  destruct ((4 * c) mod 5 =? 0) eqn:M5.
  - rewrite is_multiple_ok by lia. rewrite bind_Some. fold K.
    exists (B / K), false, (4 * c mod K =? 0). split; [reflexivity|]. cbn [orb].
    apply Z.eqb_eq in M5.
    split; [lia|]. split; [lia|]. split; [intros Rz; split; [reflexivity|]|].
    + intros _ n Hn. assert (HH : (4 * c + 2) mod 5 = 0).
      { replace 5 with (5 ^ 1) by reflexivity. apply (pow5_odd_coprime 1 (e2 - g)); try lia. fold N. fold B. rewrite <- Hn.
        replace (n * 10 * K) with (2 * n * K * 5 ^ 1) by ring. apply Z.mod_mul. lia. }
      rewrite Z.add_mod, M5 in HH by lia. discriminate.
    + split; [|split; [discriminate|]].
      * intros Rz _. apply Nd. apply Z.eqb_neq.
        destruct (Z.eq_dec g 0) as [G0|]. { unfold K in Rz. rewrite G0, Z.pow_0_r, Z.mod_1_r in Rz. discriminate. }
        apply mod5_step with (4 * c); auto; lia.
      * intros -> _. clear - M5. vm_compute in M5. discriminate.
  - destruct (Z.even c) eqn:Ev2.
    + rewrite is_multiple_ok by lia. rewrite bind_Some. fold K.
      assert (Od : Z.odd c = false) by (rewrite <- Z.negb_even, Ev2; reflexivity).
      exists (B / K), ((4 * c - 1) mod K =? 0), false. split; [reflexivity|]. rewrite orb_false_r.
      split; [lia|]. split; [lia|]. split; [intros _; split; [reflexivity|congruence]|].
      split; [congruence|]. split; [intros HH; split; [auto|apply Dv; auto]|].
      intros -> H7. rewrite (proj2 (Z.leb_le 7 e2) H7) in F14. cbn [implb] in F14. apply Z.leb_le in F14.
      apply Z.eqb_neq. intros HH. clear - HH F14 PK.
      apply Z.mod_divide in HH; [|lia]. destruct HH as [k Hk].
      assert (E5 : K = 5 ^ (g - 1) * 5).
      { unfold K. replace g with (g - 1 + 1) at 1 by lia. rewrite Z.pow_add_r by lia. reflexivity. }
      assert (Z5 : (4 * 2 ^ 236 - 1) mod 5 = 0).
      { rewrite Hk, E5. rewrite Z.mul_assoc. apply Z.mod_mul. lia. }
      vm_compute in Z5. discriminate.
    + rewrite is_multiple_ok by lia. rewrite bind_Some. fold K.
      destruct ((4 * c + 2) mod K =? 0) eqn:RU.
      * exists (B / K - 1), false, false. split.
        { rewrite (L_decr _ L256) by (change (2 ^ BITS) with (2 ^ 256); lia). change (2 ^ BITS) with (2 ^ 256).
          rewrite Z.mod_small by lia. reflexivity. }
        pose proof (Dv _ RU) as DB2. fold B in DB2.
        split; [clear - DB2 PK; nia|]. split; [lia|]. split; [discriminate|]. split; [|split; discriminate || auto].
        intros _ _. clear - DB2 PK. nia.
      * exists (B / K), false, false. split; [reflexivity|]. split; [lia|]. split; [lia|]. split; [discriminate|].
        split; [intros _ _; apply Nd; auto|]. split; [discriminate|auto].
Qed.

Definition lt_g (n : Z) : Z := casts 32 (castu 128 n * 24592820711491 / 2 ^ 45) - b2z (negb (n =? 1)).

Definition lt_check (n : Z) : bool :=
  let g := lt_g n in
  let i := n - g in
  let f := Z.log2 (5 ^ i) in
  let sh := 510 - g + (f + 1 - 501) in
  (0 <=? g) && (g <=? 500) && (0 <=? i) && (i <=? 216) && (0 <=? sh) && (sh <=? 16) && (0 <=? f) && (f <=? 502)
  && (2 ^ g <=? 5 ^ i) && (5 ^ i <=? 2 ^ 15 * 2 ^ g)
  && (casts 32 (castu 64 i * 81695582054029 / 2 ^ 45) =? f)
  && (if n <=? 4 then (n =? 1) && (g =? 0) && (i =? 1) || (n =? 2) && (g =? 0) && (i =? 2)
        || (n =? 3) && (g =? 1) && (i =? 2) || (n =? 4) && (g =? 1) && (i =? 3)
      else 2 <=? g).

Lemma lt_checks : forallb (fun n => lt_check (Z.of_nat n)) (seq 1 712) = true.
Proof. vm_compute. reflexivity. Qed.

Lemma lt_facts n : 1 <= n <= 712 -> lt_check n = true.
Proof.
  intros H. pose proof lt_checks as C. rewrite forallb_forall in C. specialize (C (Z.to_nat n)).
  rewrite in_seq, Z2Nat.id in C by lia. apply C. lia.
Qed.

Lemma pow5_odd i : 0 <= i -> Z.odd (5 ^ i) = true.
Proof.
  intros. destruct (Z.eq_dec i 0) as [->|]; [reflexivity|]. rewrite Z.odd_pow by lia. reflexivity.
Qed.

(** Twice an odd number is no multiple of four. *)
Lemma not_mult4 a i g n : 0 <= i -> 2 <= g -> Z.odd a = true -> n * 2 ^ g <> 2 * a * 5 ^ i.
Proof.
  intros Hi Hg Oa H.
  assert (E : 2 ^ g = 2 * (2 * 2 ^ (g - 2))).
  { replace g with (1 + (1 + (g - 2))) at 1 by lia. rewrite !Z.pow_add_r by lia. reflexivity. }
  rewrite E in H. assert (O : a * 5 ^ i = 2 * (n * 2 ^ (g - 2))) by lia.
  assert (C : Z.odd (a * 5 ^ i) = Z.odd (2 * (n * 2 ^ (g - 2)))) by (f_equal; exact O).
  rewrite !Z.odd_mul, Oa, pow5_odd in C by lia. cbn in C. discriminate.
Qed.

Definition nonint (c e2 : Z) : bool := e2 <? - ntz 256 (4 * c).

Lemma interval_lt t c e2 : tables_ok t -> -712 <= e2 <= -1 -> 0 < c < 2 ^ 237 ->
  let g := lt_g (- e2) in let i := - e2 - g in let K := 2 ^ g in let N := 5 ^ i in
  let A := (4 * c - (1 + b2z (nonint c e2))) * N in let X := 4 * c * N in let B := (4 * c + 2) * N in
  0 <= g <= 500 /\ 0 <= i <= 216 /\ 0 < K <= N /\ N <= 2 ^ 15 * K /\
  exists s lrz rz,
    decimal_interval t (Z.even c) (of256 (4 * c)) e2 = Some (e2 + g, of256 (A / K), of256 s, of256 (B / K), lrz, rz)
    /\ (lrz = true -> Z.odd c = false /\ A = A / K * K)
    /\ (s = X / K
         /\ (Z.odd c = true -> forall n, n * K <> B)
         /\ (nonint c e2 = true -> Z.odd c = false -> lrz = false -> forall n, n * K <> A)
       \/ -4 <= e2 /\ Z.odd c = true /\ s = X / K - 1 /\ lrz = false /\ rz = true).
Proof.
  intros (_ & TL) He Hc. intros g i K N A X B.
  pose proof (lt_facts (- e2) ltac:(lia)) as F. unfold lt_check in F. fold g in F. cbv zeta in F. fold i in F.
  rewrite !andb_true_iff in F. destruct F as (((((((((((F1 & F2) & F3) & F4) & F5) & F6) & F7) & F8) & F9) & F10) & F11) & F12).
  apply Z.leb_le in F1, F2, F3, F4, F5, F6, F7, F8, F9, F10. apply Z.eqb_eq in F11.
  fold K N in F9, F10. fold N in F7, F8, F5, F6, F11. set (f := Z.log2 N) in *.
  set (sh := 510 - g + (f + 1 - 501)) in *.
  assert (PK : 0 < K) by (apply pow2_pos; lia).
  assert (PN : 0 < N) by (apply Z.pow_pos_nonneg; lia).
  split; [lia|]. split; [lia|]. split; [lia|]. split; [lia|].
  destruct (TL i ltac:(lia)) as (v & Ev & Wv & Bv). fold N in Bv. fold f in Bv.
  destruct (parts_512 v Wv) as [Rv Pv].
  assert (SC : forall y, 0 <= y < 2 ^ 240 ->
    bind (ushl (of256 y) sh) (fun y0 => u256_truncating_mul_u512 y0 (u512_of_parts v)) = Some (of256 (y * N / K))).
  { intros y Hy. destruct (shl256 y sh Hy ltac:(lia)) as [-> Ry]. rewrite bind_Some, Pv.
    rewrite trunc_mul_ok by auto. do 2 f_equal. rewrite Bv.
    assert (EQ : 2 ^ sh * 2 ^ (502 - f) * K = 2 ^ 512).
    { unfold K. rewrite <- !Z.pow_add_r by lia. f_equal. unfold sh. lia. }
    pose proof (pow2_pos sh ltac:(lia)). pose proof (pow2_pos (502 - f) ltac:(lia)).
    rewrite <- EQ. replace (y * 2 ^ sh * (N * 2 ^ (502 - f))) with (2 ^ sh * 2 ^ (502 - f) * (y * N)) by ring.
    apply Z.div_mul_cancel_l. lia. nia. }
  assert (HX : X / K < 2 ^ 255) by (apply Z.div_lt_upper_bound; [lia|unfold X; clear - Hc PK PN F10; nia]).
  assert (HX0 : 0 < X / K) by (apply Z.div_str_pos; unfold X; clear - Hc PK PN F9; nia).
  assert (Eod : Z.odd c = negb (Z.even c)) by (rewrite Z.negb_even; reflexivity).
  (* the computation *)
  unfold decimal_interval. rewrite (L_tz _ L256) by (change (2 ^ BITS) with (2 ^ 256); lia).
  change BITS with 256.
  pose proof (ntz_lt 256 (4 * c) ltac:(lia) ltac:(lia)) as TZ.
  rewrite casts_ok by lia. rewrite subs_ok by lia. rewrite bind_Some. rewrite Z.sub_0_l. fold (nonint c e2).
  pose proof (b2z_01 (nonint c e2)) as Hb.
  rewrite (L_of_u128 _ L256) by lia. rewrite (L_two _ L256).
  rewrite (L_sub _ L256) by (change (2 ^ BITS) with (2 ^ 256); lia). rewrite bind_Some.
  rewrite (L_add _ L256) by (change (2 ^ BITS) with (2 ^ 256); lia). rewrite bind_Some.
  cbv zeta. rewrite leb_false by lia.
  rewrite subs_ok by lia. rewrite bind_Some. rewrite Z.sub_0_l.
  unfold floor_log10_pow5. rewrite !dassert_ok by (apply Z.leb_le; lia). rewrite !bind_Some.
  rewrite mulu_ok by (rewrite castu_ok by lia; lia). rewrite !bind_Some.
  replace (negb (e2 =? -1)) with (negb (- e2 =? 1))
    by (destruct (Z.eqb_spec (- e2) 1), (Z.eqb_spec e2 (-1)); auto; lia).
  rewrite subs_ok by (change (casts 32 (castu 128 (- e2) * 24592820711491 / 2 ^ 45) - b2z (negb (- e2 =? 1))) with g; lia).
  change (casts 32 (castu 128 (- e2) * 24592820711491 / 2 ^ 45) - b2z (negb (- e2 =? 1))) with g.
  rewrite bind_Some. rewrite adds_ok by lia. rewrite bind_Some. rewrite subs_ok by lia. rewrite bind_Some. fold i.
  unfold ceil_log2_pow5. rewrite (floor_log2_ok i f) by (auto; lia). rewrite !bind_Some.
  rewrite adds_ok by lia. rewrite bind_Some. rewrite subs_ok by lia. rewrite bind_Some.
  rewrite subs_ok by lia. rewrite bind_Some. rewrite adds_ok by lia. rewrite bind_Some. fold sh.
  rewrite (castu_ok 32 sh), (castu_ok 64 i) by lia. rewrite Ev, bind_Some.
  rewrite !SC by lia. rewrite !bind_Some. fold A X B.
  destruct (Z.leb_spec (- e2) 4) as [S4|S4].
  - assert (G1 : (g <=? 1) = true).
    { clear - F12. repeat rewrite orb_true_iff in F12. rewrite !andb_true_iff, !Z.eqb_eq in F12. apply Z.leb_le. lia. }
    rewrite G1.
    assert (KE : K = 1 \/ K = 2).
    { apply Z.leb_le in G1. assert (g = 0 \/ g = 1) as [->| ->] by lia; auto. }
    destruct (Z.even c) eqn:Evc; cbn [negb] in Eod.
    + exists (X / K), (nonint c e2), true. split; [reflexivity|].
      split.
      * intros Ni. split; [auto|]. unfold A. rewrite Ni. change (1 + b2z true) with 2.
        destruct KE as [->| ->]. rewrite Z.div_1_r. lia.
        replace ((4 * c - 2) * N) with ((2 * c - 1) * N * 2) by ring. rewrite Z.div_mul by lia. reflexivity.
      * left. split; [reflexivity|]. split; [congruence|]. congruence.
    + exists (X / K - 1), false, true. split.
      { rewrite (L_decr _ L256) by (change (2 ^ BITS) with (2 ^ 256); lia). change (2 ^ BITS) with (2 ^ 256).
        rewrite Z.mod_small by lia. reflexivity. }
      split; [discriminate|]. right. split; [lia|]. auto.
  - apply Z.leb_le in F12. rewrite (leb_false g 1) by lia.
    assert (T : forall lrz rz, lrz = false ->
      (lrz = true -> Z.odd c = false /\ A = A / K * K) /\
      (X / K = X / K
         /\ (Z.odd c = true -> forall n, n * K <> B)
         /\ (nonint c e2 = true -> Z.odd c = false -> lrz = false -> forall n, n * K <> A)
       \/ -4 <= e2 /\ Z.odd c = true /\ X / K = X / K - 1 /\ lrz = false /\ rz = true)).
    { intros lrz rz ->. split; [discriminate|]. left. split; [reflexivity|]. split.
      - intros _ n. unfold B, N, K. replace (4 * c + 2) with (2 * (2 * c + 1)) by ring. apply not_mult4; auto.
        rewrite Z.odd_add, Z.odd_mul. reflexivity.
      - intros Ni _ _ n. unfold A. rewrite Ni. unfold N, K. change (1 + b2z true) with 2.
        replace (4 * c - 2) with (2 * (2 * c - 1)) by ring. apply not_mult4; auto.
        rewrite Z.odd_sub, Z.odd_mul. reflexivity. }
    destruct (g <=? 238).
    + eexists _, _, _. split; [reflexivity|]. apply T. reflexivity.
    + eexists _, _, _. split; [reflexivity|]. apply T. reflexivity.
Qed.

End Print.

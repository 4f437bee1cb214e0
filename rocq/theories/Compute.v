(** * Compute: evaluating the specification on concrete data

    The exact values of the specification are integers of up to half a million bits; these
    lemmas reduce a concrete rounding to arithmetic on small numbers. *)

From Coq Require Import ZArith Lia Bool.
From Verif Require Import Base ZLemmas BigLaws Spec SpecFns SpecLemmas SpecAlg.
Open Scope Z_scope.

(** Rounding of c * 2^k. *)
Definition rnd_fast (c k : Z) : Z :=
  let e := Z.max 0 (Z.log2 c + k - 236) in
  Z.min INFm (e * 2 ^ 236 + (if e <=? k then c * 2 ^ (k - e) else rne_div c (2 ^ (e - k)))).

Lemma rnd_fast_ok c a b : 0 < c -> 0 <= a -> 0 <= b -> rnd_mag (c * 2 ^ a) (2 ^ b) = rnd_fast c (a - b).
Proof.
  intros Hc Ha Hb. unfold rnd_fast. set (e := Z.max 0 (Z.log2 c + (a - b) - 236)).
  assert (He : e = Z.max 0 (Z.log2 c + (a - b) - 236)) by reflexivity. clearbody e.
  destruct (Z.log2_spec c Hc) as [L1 L2]. pose proof (Z.log2_nonneg c) as L0. set (L := Z.log2 c) in *. clearbody L.
  pose proof (pow2_pos a Ha) as Pa. pose proof (pow2_pos b Hb) as Pb. pose proof (pow2_pos e ltac:(lia)) as Pe.
  rewrite (rnd_mag_at _ _ e).
  - f_equal. f_equal. rewrite <- pow2_add by lia. destruct (Z.leb_spec e (a - b)) as [C|C].
    + replace a with ((a - b - e) + (b + e)) at 1 by ring. rewrite pow2_add by lia. rewrite Z.mul_assoc.
      rewrite rne_div_exact. f_equal. apply pow2_pos; lia.
    + replace (b + e) with ((e - (a - b)) + a) by ring. rewrite pow2_add by lia. apply rne_div_mul; auto. apply pow2_pos; lia.
  - auto.
  - apply Z.mul_nonneg_nonneg; lia.
  - lia.
  - apply Z.le_trans with (2 ^ (Z.succ L) * 2 ^ a). apply Z.mul_le_mono_nonneg_r; lia.
    rewrite <- !pow2_add by lia. apply pow2_le. lia.
  - destruct (Z.eq_dec e 0); [left; auto|right]. apply Z.le_trans with (2 ^ L * 2 ^ a).
    rewrite <- !pow2_add by lia. apply pow2_le; lia. apply Z.mul_le_mono_nonneg_r; lia.
Qed.

Lemma rnd_fast_sticky S n a b : 2 ^ 239 <= S -> 0 <= n -> 0 <= a -> 0 <= b -> odd_rep S n (2 ^ a) ->
  rnd_mag n (2 ^ b) = rnd_fast S (a - b).
Proof.
  intros HS Hn Ha Hb H. unfold rnd_fast. set (e := Z.max 0 (Z.log2 S + (a - b) - 236)).
  assert (He : e = Z.max 0 (Z.log2 S + (a - b) - 236)) by reflexivity. clearbody e.
  assert (Hc : 0 < S) by lia.
  destruct (Z.log2_spec S Hc) as [L1 L2]. pose proof (Z.log2_le_mono _ _ HS) as L0. rewrite Z.log2_pow2 in L0 by lia.
  set (L := Z.log2 S) in *. clearbody L.
  set (k := e - (a - b)) in *. assert (Hk : 3 <= k) by lia.
  pose proof (pow2_pos a Ha) as Pa. pose proof (pow2_pos b Hb) as Pb. pose proof (pow2_pos e ltac:(lia)) as Pe.
  pose proof (pow2_pos k ltac:(lia)) as Pk.
  rewrite (rnd_mag_sticky S n (2 ^ b) e k); auto; try lia.
  - destruct (Z.leb_spec e (a - b)); [unfold k in Hk; lia|]. reflexivity.
  - replace (2 ^ b * 2 ^ e) with (2 ^ a * 2 ^ k). apply odd_rep_scale; auto.
    rewrite <- !pow2_add by lia. f_equal. unfold k. lia.
  - apply Z.lt_le_trans with (2 ^ Z.succ L); auto. apply pow2_le. unfold k in *. lia.
  - destruct (Z.eq_dec e 0); [left; auto|right]. apply Z.le_trans with (2 ^ L); auto. apply pow2_le. unfold k in *; lia.
Qed.

(** The fields of a finite datum, checkable by computation. *)
Definition fields (v E m : Z) : bool :=
  (mag v =? E * 2 ^ 236 + m) && (0 <=? E) && (0 <? m) && (m <? 2 ^ 237) && ((E =? 0) || (2 ^ 236 <=? m)) && (E <? 524286).
Lemma fields_ok v E m : fields v E m = true ->
  mag_val (mag v) = m * 2 ^ E /\ 0 <= E /\ 0 < m < 2 ^ 237 /\ finb v = true /\ zerob v = false.
Proof.
  unfold fields. rewrite !andb_true_iff, orb_true_iff, Z.eqb_eq, Z.eqb_eq, !Z.leb_le, !Z.ltb_lt.
  intros (((((H1 & H2) & H3) & H4) & H5) & H6). split. rewrite H1. apply mag_val_any; auto; lia.
  split. auto. split. lia. unfold finb, zerob, INFm. rewrite H1. split. apply Z.ltb_lt. nia. apply Z.eqb_neq. nia.
Qed.

Lemma spec_mul_fields x y Ex mx Ey my : fields x Ex mx = true -> fields y Ey my = true ->
  spec_mul x y = mkf (xors (sgn x) (sgn y)) (rnd_fast (mx * my) (Ex + Ey - UNITe)).
Proof.
  intros Hx Hy. apply fields_ok in Hx as (Vx & Ex0 & Bx & Fx & Zx). apply fields_ok in Hy as (Vy & Ey0 & By & Fy & Zy).
  unfold spec_mul. destruct (finb_kinds x Fx) as [-> ->], (finb_kinds y Fy) as [-> ->]. cbn [orb].
  f_equal. rewrite Vx, Vy. replace (mx * 2 ^ Ex * (my * 2 ^ Ey)) with (mx * my * 2 ^ (Ex + Ey)) by (rewrite pow2_add by lia; ring).
  apply rnd_fast_ok. nia. lia. unfold UNITe. lia.
Qed.

(** A sum of squares whose second term is far below the last place of the first. *)
Lemma spec_sos_fields x y Ex mx Ey my : fields x Ex mx = true -> fields y Ey my = true ->
  2 ^ 236 <= mx -> Ey + 238 <= Ex ->
  spec_sos x y = mkf 0 (rnd_fast (4 * (mx * mx) + 1) (Ex + Ex - 2 - UNITe)).
Proof.
  intros Hx Hy. apply fields_ok in Hx as (Vx & Ex0 & Bx & Fx & Zx). apply fields_ok in Hy as (Vy & Ey0 & By & Fy & Zy).
  intros Nx C. unfold spec_sos. destruct (finb_kinds x Fx) as [-> ->], (finb_kinds y Fy) as [-> ->]. cbn [orb].
  f_equal. rewrite Vx, Vy. apply rnd_fast_sticky. nia. 2: lia. 2: unfold UNITe; lia.
  { pose proof (pow2_pos Ex Ex0). pose proof (pow2_pos Ey Ey0). nia. }
  right. split. rewrite Z.odd_add, Z.odd_mul. reflexivity.
  replace (mx * 2 ^ Ex * (mx * 2 ^ Ex)) with (4 * (mx * mx) * 2 ^ (Ex + Ex - 2)).
  2: { replace (mx * 2 ^ Ex * (mx * 2 ^ Ex)) with (mx * mx * 2 ^ (Ex + Ex)) by (rewrite pow2_add by lia; ring).
       replace (Ex + Ex) with ((Ex + Ex - 2) + 2) at 2 by ring. rewrite pow2_add by lia. change (2 ^ 2) with 4. ring. }
  assert (T : 0 < my * 2 ^ Ey * (my * 2 ^ Ey) < 2 * 2 ^ (Ex + Ex - 2)).
  { pose proof (pow2_pos Ey Ey0) as PE. split. nia.
    replace (my * 2 ^ Ey * (my * 2 ^ Ey)) with (my * my * 2 ^ (Ey + Ey)) by (rewrite pow2_add by lia; ring).
    apply Z.lt_le_trans with (2 ^ 474 * 2 ^ (Ey + Ey)).
    apply Z.mul_lt_mono_pos_r. apply pow2_pos; lia. change (2 ^ 474) with (2 ^ 237 * 2 ^ 237). nia.
    replace (2 * 2 ^ (Ex + Ex - 2)) with (2 ^ (1 + (Ex + Ex - 2))) by (rewrite pow2_add by lia; ring).
    rewrite <- !pow2_add by lia. apply pow2_le. lia. }
  rewrite Z.mul_add_distr_r, Z.mul_1_l. split. lia. lia.
Qed.

(** A product far below the least positive number, added to a subnormal number. *)
Lemma spec_fma_tiny x y a Ex mx Ey my : fields x Ex mx = true -> fields y Ey my = true ->
  sgn x = 0 -> sgn y = 0 -> 0 < a < 2 ^ 236 -> Ex + Ey + 476 <= UNITe -> spec_fma x y a = a.
Proof.
  intros Hx Hy. apply fields_ok in Hx as (Vx & Ex0 & Bx & Fx & Zx). apply fields_ok in Hy as (Vy & Ey0 & By & Fy & Zy).
  intros Sx Sy Ba C.
  assert (Ma : mag a = a) by (unfold mag; apply Z.mod_small; lia). assert (Sa : sgn a = 0) by (unfold sgn; apply Z.div_small; lia).
  assert (Fa : finb a = true) by (unfold finb; rewrite Ma; apply Z.ltb_lt; unfold INFm; lia).
  unfold spec_fma. destruct (finb_kinds x Fx) as [-> ->], (finb_kinds y Fy) as [-> ->], (finb_kinds a Fa) as [-> ->]. cbn [orb].
  rewrite Sx, Sy, Vx, Vy. change (xors 0 0) with 0. change (1 - 2 * 0) with 1. rewrite Z.mul_1_l.
  assert (HA : sval a = a) by (unfold sval; rewrite Sa, Ma, mag_val_sub by lia; ring). rewrite HA. clear HA.
  assert (T : 0 < mx * 2 ^ Ex * (my * 2 ^ Ey) /\ 2 * (mx * 2 ^ Ex * (my * 2 ^ Ey)) < 2 ^ UNITe).
  { pose proof (pow2_pos Ex Ex0) as P1. pose proof (pow2_pos Ey Ey0) as P2. split. apply Z.mul_pos_pos; nia.
    replace (mx * 2 ^ Ex * (my * 2 ^ Ey)) with (mx * my * 2 ^ (Ex + Ey)) by (rewrite pow2_add by lia; ring).
    apply Z.lt_le_trans with (2 * (2 ^ 474 * 2 ^ (Ex + Ey))).
    apply Z.mul_lt_mono_pos_l. lia. apply Z.mul_lt_mono_pos_r. apply pow2_pos; lia. change (2 ^ 474) with (2 ^ 237 * 2 ^ 237). nia.
    replace (2 * (2 ^ 474 * 2 ^ (Ex + Ey))) with (2 ^ (475 + (Ex + Ey))) by (change 475 with (1 + 474); rewrite !pow2_add by lia; ring).
    apply pow2_le. lia. }
  set (p := mx * 2 ^ Ex * (my * 2 ^ Ey)) in *. clearbody p. pose proof unit_pos as PU. revert T PU. generalize (2 ^ UNITe). intros K [T1 T2] PU.
  unfold rnd_signed. assert (0 < p + a * K) by nia. destruct (Z.eqb_spec (p + a * K) 0); [lia|]. destruct (Z.ltb_spec (p + a * K) 0); [lia|].
  rewrite Z.abs_eq by lia. rewrite (rnd_mag_at _ _ 0); auto; try lia.
  2: { change (237 + 0) with 237. change (2 ^ 237) with (2 * 2 ^ 236). nia. }
  change (2 ^ 0) with 1. rewrite Z.mul_1_r, (rne_div_unique (p + a * K) K a); try nia.
  unfold mkf, INFm. lia.
Qed.

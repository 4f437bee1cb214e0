(** * SosProofs: sum of squares *)

From Coq Require Import ZArith Lia Bool.
From Verif Require Import Base BigUInt ZLemmas BigLaws BigUIntProofs BigExtra Spec F256 Arith
  SpecLemmas SpecProps F256Lemmas RoundLemmas AddProofs DivProofs MulProofs BasicProofs SpecAlg FmaSpecial.
Open Scope Z_scope.

(** The one way [sum_of_squares] can go wrong: the exact sum n / d (in units of 2^-262378)
    exceeds the midpoint between the neighbours [m] and [m + 1] by less than a 2^-237th part
    of it; the result is then [m] though [m + 1] is nearer. *)
Definition sos_miss (n d m : Z) : Prop :=
  let mid := mag_val m + mag_val (m + 1) in
  rnd_mag n d = m + 1 /\ Z.odd m = false
  /\ mid * d < 2 * n /\ (2 * n - mid * d) * 2 ^ 237 < mid * d.

(** Rounding after truncation. *)
Lemma trunc_rne N D z k : 0 < D -> 1 <= k -> z * D <= N < (z + 1) * D ->
  rne_div N (D * 2 ^ k) = rne_div z (2 ^ k)
  \/ (let m := rne_div z (2 ^ k) in
      rne_div N (D * 2 ^ k) = m + 1 /\ Z.odd m = false /\ 2 * z = (2 * m + 1) * 2 ^ k /\ z * D < N).
Proof.
  intros HD Hk HN. pose proof (pow2_pos (k - 1) ltac:(lia)) as Ph.
  assert (ET : 2 ^ k = 2 * 2 ^ (k - 1)) by (rewrite <- pow2_S by lia; f_equal; lia).
  set (h := 2 ^ (k - 1)) in *. clearbody h. rewrite ET. clear ET.
  pose proof (rne_div_spec z (2 * h) ltac:(lia)) as (A & B & C).
  set (m := rne_div z (2 * h)) in *. clearbody m. cbv zeta.
  assert (X : 2 * N - 2 * (D * (2 * h)) * m = 2 * (N - z * D) + (2 * z - 2 * (2 * h) * m) * D) by ring.
  set (t := 2 * z - 2 * (2 * h) * m) in *. assert (Et : t = 2 * (z - 2 * h * m)) by (unfold t; ring).
  destruct (Z.eq_dec t (2 * h)) as [E|E].
  - specialize (B E). destruct (Z.eq_dec (z * D) N) as [EN|EN].
    + left. apply rne_div_unique. nia. rewrite X. nia. auto. auto.
    + right. split. 2: { split. auto. split. unfold t in E. lia. lia. }
      assert (O : Z.odd (m + 1) = negb (Z.odd m)) by (rewrite Z.odd_add; destruct (Z.odd m); reflexivity).
      assert (X1 : 2 * N - 2 * (D * (2 * h)) * (m + 1) = 2 * (N - z * D) - 2 * h * D).
      { replace (2 * N - 2 * (D * (2 * h)) * (m + 1)) with (2 * N - 2 * (D * (2 * h)) * m - 2 * (D * (2 * h))) by ring.
        rewrite X, E. ring. }
      apply rne_div_unique. nia. rewrite X1. nia. rewrite X1. intros; exfalso; nia. rewrite X1. intros; exfalso; nia.
  - left. assert (t <= 2 * h - 2) by lia. apply rne_div_unique. nia. rewrite X. nia.
    rewrite X. intros; exfalso; nia. rewrite X. intros E2. apply C. clear - A E2 HN HD. nia.
Qed.

(** Rounding of the sticky representation [W] of n / D0 truncated by [s] places. *)
Lemma trunc_sticky_rne W n D s k : 0 < D -> 0 <= s -> 2 <= k -> odd_rep W n D ->
  let z := W / 2 ^ s in
  rne_div n (D * 2 ^ s * 2 ^ k) = rne_div z (2 ^ k)
  \/ (let m := rne_div z (2 ^ k) in
      rne_div n (D * 2 ^ s * 2 ^ k) = m + 1 /\ Z.odd m = false /\ 2 * z = (2 * m + 1) * 2 ^ k
      /\ z * (D * 2 ^ s) < n < (z + 1) * (D * 2 ^ s)).
Proof.
  intros HD Hs Hk H z. pose proof (pow2_pos s Hs) as Ps.
  destruct (Z.eq_dec s 0) as [->|Ns].
  { left. unfold z. change (2 ^ 0) with 1. rewrite Z.mul_1_r, Z.div_1_r. apply odd_rep_rne; auto. }
  assert (F : z * (D * 2 ^ s) <= n < (z + 1) * (D * 2 ^ s)).
  { unfold z. pose proof (Z.div_mod W (2 ^ s) ltac:(lia)) as E. pose proof (Z.mod_pos_bound W (2 ^ s) Ps) as B.
    set (q := W / 2 ^ s) in *. set (r := W mod 2 ^ s) in *. clearbody q r.
    destruct H as [->|[O H]]. { rewrite E. nia. }
    assert (0 < r).
    { destruct (Z.eq_dec r 0) as [->|]; [|lia]. exfalso.
      rewrite E, (pow2_split 1 s), Z.add_0_r in O by lia. change (2 ^ 1) with 2 in O. rewrite !Z.odd_mul in O. discriminate. }
    assert (2 ^ s * q <= W - 1) by lia. assert (W + 1 <= 2 ^ s * q + 2 ^ s) by lia. clear - H H1 H2 HD Ps. nia. }
  destruct (trunc_rne n (D * 2 ^ s) z k ltac:(nia) ltac:(lia) F) as [E|(E1 & E2 & E3 & E4)].
  - left. exact E.
  - right. cbv zeta. repeat (split; auto). lia.
Qed.

Lemma sos_round_u u W n q : u = 262378 -> 0 <= n -> 0 <= q -> odd_rep W (n * 2 ^ 20) (2 ^ (2 * q)) -> 2 ^ 492 <= W < 2 ^ 495 ->
  let ez := 2 * q - 262142 in
  let E := Z.max 0 (ez + (Z.log2 W - 492)) in
  let z := W / 2 ^ (E - ez) in
  let m := Z.min INFm (E * 2 ^ 236 + rne_div z (2 ^ 256)) in
  0 <= z < 2 ^ 493 /\ (m = rnd_mag n (2 ^ u) \/ sos_miss n (2 ^ u) m).
Proof.
  intros Eu Hn Hq HO HW ez E z m.
  assert (HL : 492 <= Z.log2 W <= 494).
  { split. apply Z.log2_le_pow2; lia. assert (Z.log2 W < 495) by (apply Z.log2_lt_pow2; lia). lia. }
  destruct (Z.log2_spec W ltac:(lia)) as [L1 L2]. set (L := Z.log2 W) in *. clearbody L.
  assert (HE : E = Z.max 0 (ez + (L - 492))) by reflexivity. assert (Hez : ez = 2 * q - 262142) by reflexivity.
  clearbody E ez. set (s := E - ez) in *. assert (Hs : s = E - ez) by reflexivity. clearbody s.
  assert (S0 : L - 492 <= s) by lia. assert (SE : 0 < E -> s = L - 492) by lia.
  assert (US : 2 * q + s + 256 = u + 20 + E) by lia. assert (E0 : 0 <= E) by lia. assert (u0 : 0 <= u) by lia. assert (s0 : 0 <= s) by lia.
  clear HE Hez Hs Eu ez.
  pose proof (pow2_pos s s0) as Ps. pose proof (pow2_pos E E0) as PE. pose proof (pow2_pos u u0) as Pu.
  pose proof (pow2_pos (2 * q) ltac:(lia)) as Pq.
  assert (Hz : 0 <= z < 2 ^ 493).
  { unfold z. split. apply Z.div_pos; lia. apply Z.div_lt_upper_bound. lia. rewrite Z.mul_comm, <- pow2_add by lia.
    apply Z.lt_le_trans with (1 := L2). apply pow2_le. lia. }
  assert (Hz2 : 0 < E -> 2 ^ 492 <= z).
  { intros C. unfold z. apply Z.div_le_lower_bound. lia. rewrite Z.mul_comm, <- pow2_add by lia. rewrite (SE C).
    apply Z.le_trans with (2 := L1). apply pow2_le. lia. }
  split. auto.
  (* the exact rounding *)
  pose proof (odd_rep_bound _ _ _ Pq HO) as WB.
  assert (N2 : n * 2 ^ 20 <= 2 ^ (L + 1) * 2 ^ (2 * q)).
  { apply Z.le_trans with ((W + 1) * 2 ^ (2 * q)). lia. apply Z.mul_le_mono_nonneg_r. lia. unfold Z.succ in L2. lia. }
  assert (N1 : 2 ^ L * 2 ^ (2 * q) <= n * 2 ^ 20).
  { destruct HO as [->|[O HB]]. apply Z.mul_le_mono_nonneg_r; lia.
    assert (2 ^ L <= W - 1).
    { destruct (Z.eq_dec W (2 ^ L)); [|lia]. exfalso. subst W. rewrite (pow2_split 1 L) in O by lia.
      change (2 ^ 1) with 2 in O. rewrite Z.odd_mul in O. discriminate. }
    apply Z.le_trans with ((W - 1) * 2 ^ (2 * q)). apply Z.mul_le_mono_nonneg_r; lia. lia. }
  assert (R : rnd_mag n (2 ^ u) = Z.min INFm (E * 2 ^ 236 + rne_div n (2 ^ u * 2 ^ E))).
  { apply rnd_mag_at; auto.
    - apply Z.mul_le_mono_pos_r with (2 ^ 20). lia. apply Z.le_trans with (1 := N2). rewrite <- !pow2_add by lia. apply pow2_le. lia.
    - destruct (Z.eq_dec E 0); [left; auto|right]. apply Z.mul_le_mono_pos_r with (2 ^ 20). lia.
      apply Z.le_trans with (2 := N1). rewrite <- !pow2_add by lia. apply pow2_le. specialize (SE ltac:(lia)). lia. }
  assert (D : 2 ^ (2 * q) * 2 ^ s * 2 ^ 256 = 2 ^ u * 2 ^ E * 2 ^ 20).
  { rewrite <- !pow2_add by lia. f_equal. lia. }
  pose proof (trunc_sticky_rne W (n * 2 ^ 20) (2 ^ (2 * q)) s 256 Pq s0 ltac:(lia) HO) as T. fold z in T.
  cbv zeta in T. rewrite D, rne_div_mul in T by (try apply Z.mul_pos_pos; lia).
  set (r := rne_div z (2 ^ 256)) in *. rewrite R. unfold m.
  destruct T as [T|(T1 & T2 & T3 & T4)]; [left; rewrite T; reflexivity|].
  rewrite T1 in *. clear T1.
  destruct (Z.le_gt_cases INFm (E * 2 ^ 236 + r)) as [C|C].
  { left. rewrite !Z.min_l by lia. reflexivity. }
  right. rewrite (Z.min_r INFm (E * 2 ^ 236 + r)) by lia.
  assert (Br : 0 <= r < 2 ^ 237) by (clear - T3 Hz; lia).
  assert (Br2 : E = 0 \/ 2 ^ 236 <= r).
  { destruct (Z.eq_dec E 0); [left; auto|right]. specialize (Hz2 ltac:(lia)). clear - T3 Hz2. lia. }
  assert (Br3 : r + 1 < 2 ^ 237).
  { destruct (Z.eq_dec (r + 1) (2 ^ 237)); [|lia]. exfalso. replace r with (2 ^ 237 - 1) in T2 by lia. discriminate. }
  unfold sos_miss. cbv zeta. rewrite <- Z.add_assoc.
  rewrite (mag_val_any E r), (mag_val_any E (r + 1)) by (auto; lia).
  split. { rewrite R. rewrite Z.min_r. reflexivity. lia. }
  split. { rewrite Z.odd_add, Z.odd_mul, T2. change (Z.odd (2 ^ 236)) with false. rewrite andb_false_r. reflexivity. }
  assert (DD : 2 ^ (2 * q) * 2 ^ s * 2 ^ 236 = 2 ^ u * 2 ^ E).
  { apply Z.mul_reg_r with (2 ^ 20). lia. rewrite <- D. change (2 ^ 256) with (2 ^ 236 * 2 ^ 20). ring. }
  set (G := 2 ^ (2 * q) * 2 ^ s) in *. assert (PG : 0 < G) by (apply Z.mul_pos_pos; lia).
  replace ((r * 2 ^ E + (r + 1) * 2 ^ E) * 2 ^ u) with ((2 * r + 1) * (2 ^ u * 2 ^ E)) by ring. rewrite <- DD.
  clearbody G. clear - T3 T4 PG Br.
  change (2 ^ 256) with (2 ^ 236 * 2 ^ 20) in *.
  assert (E2 : 2 * (z * G) = (2 * r + 1) * (2 ^ 236 * 2 ^ 20) * G) by (rewrite <- T3; ring).
  assert (E3 : (z + 1) * G = z * G + G) by ring. rewrite E3 in T4. set (zG := z * G) in *. clearbody zG.
  set (t := 2 * r + 1) in *. assert (1 <= t) by (unfold t; lia). clearbody t. nia.
Qed.

Lemma sos_round W n q : 0 <= n -> 0 <= q -> odd_rep W (n * 2 ^ 20) (2 ^ (2 * q)) -> 2 ^ 492 <= W < 2 ^ 495 ->
  let ez := 2 * q - 262142 in
  let E := Z.max 0 (ez + (Z.log2 W - 492)) in
  let z := W / 2 ^ (E - ez) in
  let m := Z.min INFm (E * 2 ^ 236 + rne_div z (2 ^ 256)) in
  0 <= z < 2 ^ 493 /\ (m = rnd_mag n (2 ^ UNITe) \/ sos_miss n (2 ^ UNITe) m).
Proof. exact (sos_round_u UNITe W n q eq_refl). Qed.

Section Sos.
Context {P : profile}.

Lemma lz512 a : 0 <= a < 2 ^ 512 -> leading_zeros (of512 a) = nlz 512 a.
Proof. intros. apply (L_lz _ L512); auto. Qed.
Lemma add512 a b : 0 <= a -> 0 <= b -> a + b < 2 ^ 512 -> uadd (of512 a) (of512 b) = Some (of512 (a + b)).
Proof. intros. apply (L_add _ L512); change (2 ^ BITS) with (2 ^ 512); lia. Qed.
Lemma wshr512 a n : 0 <= a < 2 ^ 512 -> 0 <= n < 512 ->
  widening_shr (of512 a) n = Some (of512 (a / 2 ^ n), of512 ((a * 2 ^ (512 - n)) mod 2 ^ 512)).
Proof. intros. apply (D_widening_shr _ L512); auto. Qed.
Lemma is_zero512 a : 0 <= a < 2 ^ 512 -> is_zero (of512 a) = (a =? 0).
Proof. intros. apply (D_is_zero _ L512); auto. Qed.
Lemma of512_join h l : 0 <= l < 2 ^ 256 -> mk (of256 h) (of256 l) = of512 (h * 2 ^ 256 + l).
Proof.
  intros Hl. change (of512 (h * 2 ^ 256 + l)) with (mk (of256 ((h * 2 ^ 256 + l) / 2 ^ 256)) (of256 ((h * 2 ^ 256 + l) mod 2 ^ 256))).
  rewrite (div_eq _ _ h l), (mod_eq _ _ h l) by lia. reflexivity.
Qed.
Lemma of512_split a : mk (of256 (a / 2 ^ 256)) (of256 (a mod 2 ^ 256)) = of512 a.
Proof. reflexivity. Qed.

Definition sos_align (y2 : U512) (d : Z) : option U512 :=
  if d <=? 19 then ushl y2 (20 - d)
  else if d =? 20 then Some y2
  else if d <=? 494 then
    let! (q, t) := widening_shr y2 (d - 20) in
    Some (mk (hi q) (u256 (xhi (lo q)) (Z.lor (xlo (lo q)) (b2z (negb (is_zero t))))))
  else Some uint_one.

Definition sos_tail (z : U512) (ez : Z) : option f256 :=
  let nlz := casts 32 (leading_zeros z) in
  let shr := Z.max (- ez) (EXP_BITS - nlz) in
  let shl := iclamp (Z.max (ez - EXP_MAX) (nlz - EXP_BITS)) 0 236 in
  let! z := ushr z (iclamp shr 0 511) in
  let! z := ushl z shl in
  let! e := subs 32 shr shl in
  let! e := adds 32 e (b2z (HI_FRACTION_MASK <? xhi (hi z))) in
  let! ez := adds 32 ez e in
  if EXP_MAX <=? ez then Some INFINITY
  else
    let e1 := iclamp (ez - 1) 0 EXP_MAX in
    let rnd_bits := Z.lor (Z.lor (castu 32 (shrc (xhi (lo z)) 125))
                                 (b2z (negb (shlc 128 (xhi (lo z)) 3 =? 0))))
                          (b2z (negb (xlo (lo z) =? 0))) in
    let! bh := addu 128 (xhi (hi z)) (shlc 128 e1 HI_FRACTION_BITS) in
    let bz := u256 bh (xlo (hi z)) in
    Some (if (4 <? rnd_bits) || ((rnd_bits =? 4) && is_odd (lo bz)) then incr bz else bz).

Definition sos_fin (ax ay : U256) : option f256 :=
  let! sx := ushl (signif ax) 10 in
  let! (l, h) := wmul sx sx in
  let! (l2, h2) := wmul (signif ay) (signif ay) in
  let! t1 := subs 32 (casts 32 (exp_bits ax)) (casts 32 (norm_bit ax)) in
  let! t1 := muls 32 2 t1 in
  let! t2 := subs 32 (casts 32 (exp_bits ay)) (casts 32 (norm_bit ay)) in
  let! t2 := muls 32 2 t2 in
  let! d := subs 32 t1 t2 in
  let! y2 := sos_align (mk h2 l2) (castu 32 d) in
  let! z := uadd (mk h l : U512) y2 in
  let! ez := adds 32 t1 EMIN in
  sos_tail z ez.

Lemma sos_eq x y : sos x y =
  let ax := abs_bits x in
  let ay := abs_bits y in
  let tx := abs_bits_sticky ax in
  let ty := abs_bits_sticky ay in
  if any_non_normal2 tx ty then
    let mx := Z.max tx ty in
    if mx <=? HI_FRACTION_MASK then Some ZERO
    else if HI_EXP_MASK <? mx then Some NAN
    else if tx <=? HI_FRACTION_MASK then square y
    else if ty <=? HI_FRACTION_MASK then square x
    else Some INFINITY
  else if ult ax ay then sos_fin ay ax else sos_fin ax ay.
Proof. unfold sos, sos_fin. cbv zeta. destruct (any_non_normal2 _ _); [reflexivity|]. destruct (ult _ _); reflexivity. Qed.

Lemma sos_align_ok c d : 0 < c < 2 ^ 474 -> 0 <= d ->
  exists y, sos_align (of512 c) d = Some (of512 y) /\ 0 < y < 2 ^ 494 /\ odd_rep y (c * 2 ^ 20) (2 ^ d).
Proof.
  intros Hc Hd. unfold sos_align. destruct (Z.leb_spec d 19).
  { exists (c * 2 ^ (20 - d)). pose proof (pow2_pos (20 - d) ltac:(lia)) as P1. pose proof (pow2_le (20 - d) 20 ltac:(lia)) as P2.
    assert (c * 2 ^ (20 - d) < 2 ^ 494).
    { apply Z.lt_le_trans with (2 ^ 474 * 2 ^ (20 - d)). apply Z.mul_lt_mono_pos_r; lia.
      change (2 ^ 494) with (2 ^ 474 * 2 ^ 20). apply Z.mul_le_mono_nonneg_l; lia. }
    split. apply shl512s; lia. split. nia. left. rewrite <- Z.mul_assoc, <- pow2_add by lia. do 2 f_equal. lia. }
  destruct (Z.eqb_spec d 20). { exists c. split. auto. split. lia. left. subst d. reflexivity. }
  destruct (Z.leb_spec d 494).
  - exists (shr_sticky c (d - 20)). set (k := d - 20). assert (Hk : 1 <= k <= 474) by lia.
    pose proof (pow2_pos k ltac:(lia)) as Pk.
    assert (OR : odd_rep (shr_sticky c k) (c * 2 ^ 20) (2 ^ d)).
    { replace (2 ^ d) with (2 ^ k * 2 ^ 20) by (rewrite <- pow2_add by lia; f_equal; lia).
      apply odd_rep_scale. lia. pose proof (odd_rep_shr c c 1 k ltac:(lia) ltac:(lia) ltac:(left; ring)) as X.
      rewrite Z.mul_1_l in X. auto. }
    split; [|split; [|exact OR]].
    + rewrite wshr512 by lia. rewrite bind_Some. cbv beta iota.
      rewrite is_zero512 by (apply Z.mod_pos_bound; lia).
      assert (Q : 0 <= c / 2 ^ k < 2 ^ 512).
      { split. apply Z.div_pos; lia. apply Z.div_lt_upper_bound; nia. }
      pose proof (Z.div_mod c (2 ^ k) ltac:(lia)) as Ec. pose proof (Z.mod_pos_bound c (2 ^ k) Pk) as Bc.
      replace ((c * 2 ^ (512 - k)) mod 2 ^ 512) with (c mod 2 ^ k * 2 ^ (512 - k)).
      2: { replace (2 ^ 512) with (2 ^ k * 2 ^ (512 - k)) by (rewrite <- pow2_add by lia; f_equal; lia).
           pose proof (pow2_pos (512 - k) ltac:(lia)). rewrite Z.mul_mod_distr_r by lia. reflexivity. }
      pose proof (pow2_pos (512 - k) ltac:(lia)) as Pk2. unfold shr_sticky.
      set (q := c / 2 ^ k) in *. set (r := c mod 2 ^ k) in *. clearbody q r.
      rewrite hi512, lo512, xhi_of, xlo_of.
      destruct (Z.eqb_spec r 0) as [->|Nr].
      * rewrite Z.mul_0_l. cbn [negb Z.eqb b2z]. rewrite Z.lor_0_r.
        rewrite u256_of by (apply Z.mod_pos_bound; lia). rewrite <- of512_split. do 2 f_equal. apply of256_ext.
        pose proof (Z.div_mod (q mod 2 ^ 256) (2 ^ 128) ltac:(lia)). lia.
      * destruct (Z.eqb_spec (r * 2 ^ (512 - k)) 0). nia. cbn [negb b2z].
        pose proof (Z.mod_pos_bound (q mod 2 ^ 256) (2 ^ 128) ltac:(lia)) as B1.
        rewrite lor_1 by lia.
        pose proof (Z.div_mod (q mod 2 ^ 256) (2 ^ 128) ltac:(lia)) as D1.
        pose proof (Z.div_mod q (2 ^ 256) ltac:(lia)) as D2. pose proof (Z.mod_pos_bound q (2 ^ 256) ltac:(lia)) as B2.
        set (qh := q / 2 ^ 256) in *. set (ql := q mod 2 ^ 256) in *. set (qlh := ql / 2 ^ 128) in *. set (qll := ql mod 2 ^ 128) in *.
        clearbody qh ql qlh qll.
        pose proof (Z.div_mod qll 2 ltac:(lia)) as D3. pose proof (Z.mod_pos_bound qll 2 ltac:(lia)) as B3.
        assert (E2 : q / 2 = qh * 2 ^ 255 + qlh * 2 ^ 127 + qll / 2).
        { apply div_eq with (r := qll mod 2). lia. change (2 ^ 256) with (2 * 2 ^ 255) in D2. change (2 ^ 128) with (2 * 2 ^ 127) in D1. lia. }
        rewrite E2. rewrite u256_of by (split; [lia|]; change (2 ^ 128) with (2 * 2 ^ 127) in *; lia).
        assert (0 <= qlh) by (clear - D1 B2 B1; nia).
        rewrite of512_join. f_equal. f_equal.
        change (2 ^ 256) with (2 * 2 ^ 255). change (2 ^ 128) with (2 * 2 ^ 127). ring.
        change (2 ^ 256) with (2 ^ 128 * (2 * 2 ^ 127)) in *. change (2 ^ 128) with (2 * 2 ^ 127) in *. clear - D1 B1 B2 D3 B3 H1. nia.
    + unfold shr_sticky. pose proof (Z.div_mod c (2 ^ k) ltac:(lia)) as Ec. pose proof (Z.mod_pos_bound c (2 ^ k) Pk) as Bc.
      assert (0 <= c / 2 ^ k) by (apply Z.div_pos; lia).
      assert (c / 2 ^ k < 2 ^ 474) by (apply Z.div_lt_upper_bound; nia).
      set (q := c / 2 ^ k) in *. set (r := c mod 2 ^ k) in *. clearbody q r.
      pose proof (Z.div_mod q 2 ltac:(lia)). pose proof (Z.mod_pos_bound q 2 ltac:(lia)).
      destruct (Z.eqb_spec r 0); [|lia]. split; [|lia]. destruct (Z.eq_dec q 0); [|lia]. subst. lia.
  - exists 1. split. reflexivity. split. lia. right. split. auto. change (1 + 1) with 2. rewrite Z.sub_diag, Z.mul_0_l. split. lia.
    apply Z.lt_le_trans with (2 ^ 474 * 2 ^ 20). lia. rewrite <- pow2_S, <- pow2_add by lia. apply pow2_le. lia.
Qed.

Lemma rnd3 lw o : 0 <= lw < 2 ^ 256 ->
  let rb := Z.lor (Z.lor (castu 32 (shrc (lw / 2 ^ 128) 125)) (b2z (negb (shlc 128 (lw / 2 ^ 128) 3 =? 0))))
                  (b2z (negb (lw mod 2 ^ 128 =? 0))) in
  (4 <? rb) || ((rb =? 4) && o) = (2 ^ 255 <? lw) || ((lw =? 2 ^ 255) && o).
Proof.
  intros Hl. unfold shrc, shlc.
  pose proof (Z.div_mod lw (2 ^ 128) ltac:(lia)) as D1. pose proof (Z.mod_pos_bound lw (2 ^ 128) ltac:(lia)) as B1.
  set (h := lw / 2 ^ 128) in *. set (l := lw mod 2 ^ 128) in *. clearbody h l.
  assert (Hh : 0 <= h < 2 ^ 128) by nia.
  pose proof (Z.div_mod h (2 ^ 125) ltac:(lia)) as D2. pose proof (Z.mod_pos_bound h (2 ^ 125) ltac:(lia)) as B2.
  replace ((h * 2 ^ 3) mod 2 ^ 128) with (h mod 2 ^ 125 * 2 ^ 3).
  2: { change (2 ^ 128) with (2 ^ 125 * 2 ^ 3). rewrite Z.mul_mod_distr_r by lia. reflexivity. }
  set (t := h / 2 ^ 125) in *. set (r := h mod 2 ^ 125) in *. clearbody t r.
  assert (Ht : 0 <= t < 8) by (change (2 ^ 128) with (2 ^ 125 * 8) in Hh; lia).
  rewrite castu_ok by lia. cbv zeta.
  assert (X : exists s, 0 <= s <= 1 /\ Z.lor (Z.lor t (b2z (negb (r * 2 ^ 3 =? 0)))) (b2z (negb (l =? 0))) = Z.lor t s
              /\ (s = 0 <-> r = 0 /\ l = 0)).
  { destruct (Z.eqb_spec (r * 2 ^ 3) 0), (Z.eqb_spec l 0); cbn [negb b2z]; rewrite <- ?Z.lor_assoc.
    exists 0. cbn [Z.lor]. repeat split; lia.
    exists 1. cbn [Z.lor]. repeat split; lia.
    exists 1. cbn [Z.lor]. repeat split; lia.
    exists 1. cbn [Z.lor]. repeat split; lia. }
  destruct X as (s & Hs & -> & E0).
  assert (C : 2 ^ 255 < lw <-> (4 < t \/ (t = 4 /\ s = 1))).
  { change (2 ^ 128) with (2 ^ 125 * 8) in *. change (2 ^ 255) with (4 * (2 ^ 125 * (2 ^ 125 * 8))). 
    assert (Es : s = 1 <-> (0 < r \/ 0 < l)) by lia. rewrite Es. clear E0 Es Hs. split; [|nia]. intros. destruct (Z.lt_ge_cases 4 t). auto.
    right. assert (t = 4) by nia. split. auto. subst t. nia. }
  assert (C2 : lw = 2 ^ 255 <-> t = 4 /\ s = 0).
  { rewrite E0. change (2 ^ 128) with (2 ^ 125 * 8) in *. change (2 ^ 255) with (4 * (2 ^ 125 * (2 ^ 125 * 8))).
    clear - D1 D2 B1 B2 Ht. split; [|nia]. intros. assert (t = 4) by nia. subst t. split; [auto|]. split; nia. }
  clear - C C2 Hs Ht.
  destruct (Z.ltb_spec (2 ^ 255) lw) as [G|G], (Z.eqb_spec lw (2 ^ 255)) as [G2|G2]; try lia.
  all: assert (T : t = 0 \/ t = 1 \/ t = 2 \/ t = 3 \/ t = 4 \/ t = 5 \/ t = 6 \/ t = 7) by lia.
  all: assert (S : s = 0 \/ s = 1) by lia.
  all: destruct S as [S|S]; subst s; repeat (destruct T as [T|T]; [subst t; try (exfalso; clear - C C2 G G2; lia); reflexivity|]);
       subst t; try (exfalso; clear - C C2 G G2; lia); reflexivity.
Qed.

Lemma sos_tail_ok W ez : 2 ^ 492 <= W < 2 ^ 495 -> - 262142 <= ez <= 786428 ->
  let E := Z.max 0 (ez + (Z.log2 W - 492)) in
  let z := W / 2 ^ (E - ez) in
  0 <= z < 2 ^ 493 ->
  sos_tail (of512 W) ez = Some (of256 (Z.min INFm (E * 2 ^ 236 + rne_div z (2 ^ 256)))).
Proof.
  intros HW Hez E z Hz. unfold sos_tail.
  assert (HL : 492 <= Z.log2 W <= 494).
  { split. apply Z.log2_le_pow2; lia. assert (Z.log2 W < 495) by (apply Z.log2_lt_pow2; lia). lia. }
  destruct (Z.log2_spec W ltac:(lia)) as [L1 L2].
  rewrite lz512 by lia. unfold nlz. destruct (Z.eqb_spec W 0); [lia|].
  set (L := Z.log2 W) in *. clearbody L. rewrite casts_ok by lia.
  unfold EXP_BITS. replace (19 - (512 - 1 - L)) with (L - 492) by lia. replace (512 - 1 - L - 19) with (492 - L) by lia.
  assert (Es : Z.max (- ez) (L - 492) = E - ez) by (unfold E; lia). rewrite Es.
  assert (HE : E = Z.max 0 (ez + (L - 492))) by reflexivity. clearbody E. clear Es.
  assert (Ec : iclamp (E - ez) 0 511 = Z.min (E - ez) 511).
  { unfold iclamp. destruct (Z.ltb_spec (E - ez) 0); [lia|]. destruct (Z.ltb_spec 511 (E - ez)); lia. }
  rewrite Ec. rewrite shr512 by lia. rewrite bind_Some.
  replace (W / 2 ^ Z.min (E - ez) 511) with z.
  2: { destruct (Z.le_gt_cases (E - ez) 511). rewrite Z.min_l by lia. reflexivity. rewrite Z.min_r by lia. unfold z.
       rewrite !Z.div_small; auto. lia. split. lia. apply Z.lt_le_trans with (2 ^ 511). lia. apply pow2_le; lia. }
  assert (Hz2 : 0 < E -> 2 ^ 492 <= z).
  { intros C. unfold z. pose proof (pow2_pos (E - ez) ltac:(lia)). apply Z.div_le_lower_bound. lia. rewrite Z.mul_comm, <- pow2_add by lia.
    replace (E - ez) with (L - 492) by lia. replace (492 + (L - 492)) with L by lia. lia. }
  clearbody z. clear Ec. unfold EXP_MAX.
  pose proof (Z.div_mod z (2 ^ 256) ltac:(lia)) as Dz. pose proof (Z.mod_pos_bound z (2 ^ 256) ltac:(lia)) as Bz.
  pose proof (rne_div_pow2_bits z 256 (z / 2 ^ 256) (z mod 2 ^ 256) ltac:(lia) ltac:(lia) Bz) as R.
  rewrite R. clear R. change (256 - 1) with 255.
  assert (Hq : 0 <= z / 2 ^ 256 < 2 ^ 237) by (split; [apply Z.div_pos; lia | apply Z.div_lt_upper_bound; lia]).
  destruct (Z.le_gt_cases ez 524287) as [C|C].
  - assert (Ecl : iclamp (Z.max (ez - 524287) (492 - L)) 0 236 = 0).
    { unfold iclamp. destruct (Z.ltb_spec (Z.max (ez - 524287) (492 - L)) 0); [lia|].
      destruct (Z.ltb_spec 236 (Z.max (ez - 524287) (492 - L))); lia. }
    rewrite Ecl. rewrite shl512s by lia. rewrite bind_Some. change (2 ^ 0) with 1. rewrite Z.mul_1_r.
    rewrite hi512, lo512.
    rewrite subs_ok by lia. rewrite bind_Some.
    assert (Eb : (HI_FRACTION_MASK <? xhi (of256 (z / 2 ^ 256))) = (2 ^ 236 <=? z / 2 ^ 256)).
    { rewrite xhi_of. unfold HI_FRACTION_MASK, HI_FRACTION_BITS, shlc. 
      destruct (Z.leb_spec (2 ^ 236) (z / 2 ^ 256)).
      apply Z.ltb_lt. apply Z.lt_le_trans with (2 ^ 108). reflexivity. apply Z.div_le_lower_bound. lia. lia.
      apply Z.ltb_ge. assert (z / 2 ^ 256 / 2 ^ 128 < 2 ^ 108) by (apply Z.div_lt_upper_bound; lia).
      match goal with |- _ <= ?c => change c with (2 ^ 108 - 1) end. lia. }
    rewrite Eb. pose proof (b2z_bound (2 ^ 236 <=? z / 2 ^ 256)) as Bb.
    rewrite adds_ok by lia. rewrite bind_Some. rewrite adds_ok by lia. rewrite bind_Some.
    replace (ez + (E - ez - 0 + b2z (2 ^ 236 <=? z / 2 ^ 256))) with (E + b2z (2 ^ 236 <=? z / 2 ^ 256)) by lia.
    assert (B1 : 0 < E -> b2z (2 ^ 236 <=? z / 2 ^ 256) = 1).
    { intros G. rewrite (proj2 (Z.leb_le _ _)). reflexivity. apply Z.div_le_lower_bound. lia. apply Hz2; auto. }
    assert (B2 : 0 < E -> 2 ^ 236 <= z / 2 ^ 256) by (intros G; apply Z.div_le_lower_bound; [lia|apply Hz2; auto]).
    set (q := z / 2 ^ 256) in *. set (lw := z mod 2 ^ 256) in *. clearbody q lw. set (b := b2z (2 ^ 236 <=? q)) in *. clearbody b.
    clear Eb Ecl.
    destruct (Z.leb_spec 524287 (E + b)) as [I|I].
    + rewrite Z.min_l. reflexivity. unfold INFm. specialize (B2 ltac:(lia)). destruct (_ || _); lia.
    + assert (Ee : iclamp (E + b - 1) 0 524287 = E).
      { unfold iclamp. destruct (Z.ltb_spec (E + b - 1) 0), (Z.ltb_spec 524287 (E + b - 1)); lia. }
      rewrite Ee. rewrite !xhi_of, !xlo_of. cbv zeta.
      assert (HQ : E * 2 ^ 236 + q + 1 <= INFm) by (unfold INFm; change (2 ^ 237) with (2 * 2 ^ 236) in Hq; destruct (Z.eq_dec E 0); lia).
      assert (HI : INFm < 2 ^ 255) by reflexivity.
      pose proof (asm_add q E ltac:(lia) ltac:(lia) ltac:(lia)) as AA. rewrite xhi_of, xlo_of in AA.
      destruct (addu 128 (q / 2 ^ 128) (shlc 128 E HI_FRACTION_BITS)) as [hh|]; [|discriminate].
      rewrite bind_Some in AA |- *. assert (AB : u256 hh (q mod 2 ^ 128) = of256 (E * 2 ^ 236 + q)) by congruence.
      rewrite AB. rewrite rnd3 by auto. rewrite odd_lo by lia.
      assert (OO : Z.odd (E * 2 ^ 236 + q) = Z.odd q).
      { rewrite Z.odd_add, Z.odd_mul. change (Z.odd (2 ^ 236)) with false. rewrite andb_false_r. destruct (Z.odd q); reflexivity. }
      rewrite OO. f_equal. destruct (_ || _).
      * rewrite incr256 by lia. apply of256_ext. lia.
      * apply of256_ext. lia.
  - assert (Ecl : iclamp (Z.max (ez - 524287) (492 - L)) 0 236 = Z.min (ez - 524287) 236).
    { unfold iclamp. destruct (Z.ltb_spec (Z.max (ez - 524287) (492 - L)) 0); [lia|].
      destruct (Z.ltb_spec 236 (Z.max (ez - 524287) (492 - L))); lia. }
    rewrite Ecl. rewrite shl512 by lia. rewrite bind_Some. rewrite subs_ok by lia. rewrite bind_Some.
    match goal with |- context [b2z ?c] => pose proof (b2z_bound c) as Bb; set (b := b2z c) in *; clearbody b end.
    rewrite adds_ok by lia. rewrite bind_Some. rewrite adds_ok by lia. rewrite bind_Some.
    match goal with |- context [524287 <=? ?c] => destruct (Z.leb_spec 524287 c); [|lia] end.
    rewrite Z.min_l. reflexivity. unfold INFm. destruct (_ || _); lia.
Qed.

Lemma sos_fin_ok a b : 2 ^ 236 <= b <= a -> a < INFm ->
  let n := mag_val a * mag_val a + mag_val b * mag_val b in
  exists m, sos_fin (of256 a) (of256 b) = Some (of256 m) /\ 0 <= m <= INFm
    /\ (m = rnd_mag n (2 ^ UNITe) \/ sos_miss n (2 ^ UNITe) m).
Proof.
  intros Hb Ha n. unfold sos_fin.
  destruct (exp_sub_norm a ltac:(lia)) as (E1 & E2 & E3 & E4 & E5). destruct (exp_sub_norm b ltac:(lia)) as (F1 & F2 & F3 & F4 & F5).
  assert (HI : INFm < 2 ^ 255) by reflexivity.
  rewrite !signif_of by lia. rewrite E1, E2, F1, F2.
  pose proof (b2z_bound (2 ^ 236 <=? a)). pose proof (b2z_bound (2 ^ 236 <=? b)).
  rewrite !casts_ok by lia. rewrite (subs_ok 32 (a / 2 ^ 236)) by lia. rewrite (subs_ok 32 (b / 2 ^ 236)) by lia. rewrite E3, F3.
  clear E1 E2 E3 E5 F1 F2 F3 F5 H H0.
  pose proof (sg_bound a ltac:(lia)) as SA. pose proof (sg_norm a ltac:(lia)) as NA.
  pose proof (sg_bound b ltac:(lia)) as SB. pose proof (sg_norm b ltac:(lia)) as NB.
  assert (QQ : qe b <= qe a).
  { destruct (sg_qe a ltac:(lia)) as [Ea _], (sg_qe b ltac:(lia)) as [Eb _]. nia. }
  unfold n. rewrite !mag_val_sg by lia. clear n.
  set (qa := qe a) in *. set (qb := qe b) in *. set (sa := sg a) in *. set (sb := sg b) in *. clearbody qa qb sa sb.
  rewrite shl256s by lia. rewrite bind_Some. rewrite wmul256 by lia. rewrite bind_Some. cbv beta iota.
  rewrite wmul256 by lia. rewrite bind_Some. cbv beta iota.
  rewrite !bind_Some. rewrite (muls_ok 32 2 qa) by lia. rewrite bind_Some. rewrite bind_Some. rewrite (muls_ok 32 2 qb) by lia. rewrite bind_Some.
  rewrite subs_ok by lia. rewrite bind_Some. rewrite castu_ok by lia.
  rewrite !of512_split.
  destruct (sos_align_ok (sb * sb) (2 * qa - 2 * qb)) as (y & -> & By & Oy).
  { change (2 ^ 474) with (2 ^ 237 * 2 ^ 237). nia. } { lia. }
  rewrite bind_Some. set (x := sa * 2 ^ 10 * (sa * 2 ^ 10)).
  assert (Ex : x = sa * sa * 2 ^ 20) by (unfold x; change (2 ^ 20) with (2 ^ 10 * 2 ^ 10); ring).
  assert (Bx : 2 ^ 492 <= x < 2 ^ 494).
  { rewrite Ex. change (2 ^ 492) with (2 ^ 236 * 2 ^ 236 * 2 ^ 20). change (2 ^ 494) with (2 ^ 237 * 2 ^ 237 * 2 ^ 20).
    clear - SA NA. split; [apply Z.mul_le_mono_nonneg_r|apply Z.mul_lt_mono_pos_r]; nia. }
  assert (Vx : Z.even x = true) by (rewrite Ex, Z.even_mul; change (Z.even (2 ^ 20)) with true; apply orb_true_r).
  clearbody x. rewrite add512 by lia. rewrite bind_Some. rewrite adds_ok by (unfold EMIN; lia). rewrite bind_Some.
  change (2 * qa + EMIN) with (2 * qa - 262142).
  set (n := sa * 2 ^ qa * (sa * 2 ^ qa) + sb * 2 ^ qb * (sb * 2 ^ qb)).
  pose proof (pow2_pos qa ltac:(lia)) as Pa. pose proof (pow2_pos qb ltac:(lia)) as Pb.
  assert (OW : odd_rep (x + y) (n * 2 ^ 20) (2 ^ (2 * qa))).
  { pose proof (odd_rep_add x y (sb * sb * 2 ^ 20) (2 ^ (2 * qa - 2 * qb)) ltac:(apply pow2_pos; lia) Vx Oy) as X.
    apply (odd_rep_scale _ _ _ (2 ^ (2 * qb))) in X. 2: apply pow2_pos; lia.
    rewrite <- pow2_add in X by lia. replace (2 * qa - 2 * qb + 2 * qb) with (2 * qa) in X by lia.
    replace (n * 2 ^ 20) with ((x * 2 ^ (2 * qa - 2 * qb) + sb * sb * 2 ^ 20) * 2 ^ (2 * qb)). exact X.
    rewrite Z.mul_add_distr_r, <- (Z.mul_assoc x), <- pow2_add by lia.
    replace (2 * qa - 2 * qb + 2 * qb) with (qa + qa) by lia. replace (2 * qb) with (qb + qb) by lia.
    rewrite !pow2_add by lia. unfold n. rewrite Ex. ring. }
  assert (Hn : 0 <= n) by (unfold n; nia). 
  destruct (sos_round (x + y) n qa Hn ltac:(lia) OW ltac:(lia)) as [Z1 Z2].
  rewrite sos_tail_ok; [|lia|lia|exact Z1].
  eexists. split. reflexivity. split. 2: exact Z2.
  split. 2: lia. apply Z.min_glb. lia. pose proof (rne_div_nonneg _ (2 ^ 256) (proj1 Z1) ltac:(lia)). lia.
Qed.

(** Adding less than the spacing of the tie points to a sum. *)
Lemma rnd_delta_u u n g : u = 262378 -> 0 <= n -> (2 ^ 472 | n) -> 0 <= g < 2 ^ 472 ->
  rnd_mag (n + g) (2 ^ u) = rnd_mag n (2 ^ u) \/ sos_miss (n + g) (2 ^ u) (rnd_mag n (2 ^ u)).
Proof.
  intros Eu Hn (z & Ez) Hg. assert (u0 : 1000 <= u) by lia. clear Eu.
  pose proof (pow2_pos u ltac:(lia)) as Pu. set (d := 2 ^ u) in *.
  assert (Hp : 0 <= n / d) by (apply Z.div_pos; lia).
  set (e := Z.max 0 (Z.log2 (n / d) - 236)). assert (He : 0 <= e) by lia.
  pose proof (pow2_pos e He) as Pe.
  assert (U1 : n < 2 ^ (237 + e) * d).
  { pose proof (Z.div_mod n d ltac:(lia)) as D. pose proof (Z.mod_pos_bound n d Pu) as B.
    assert (n / d < 2 ^ (237 + e)).
    { destruct (Z.eq_dec (n / d) 0) as [->|N]. apply pow2_pos; lia.
      apply Z.log2_lt_pow2. lia. unfold e. lia. }
    clear - H D B Pu. nia. }
  assert (U2 : e = 0 \/ 2 ^ (236 + e) * d <= n).
  { destruct (Z.eq_dec e 0); [left; auto|right]. 
    pose proof (Z.div_mod n d ltac:(lia)) as D. pose proof (Z.mod_pos_bound n d Pu) as B.
    assert (N : 0 < n / d). { destruct (Z.eq_dec (n / d) 0) as [N|]; [|lia]. unfold e in n0. rewrite N in n0. cbn in n0. lia. }
    pose proof (Z.log2_spec _ N) as [L1 _]. replace (236 + e) with (Z.log2 (n / d)) by lia. clear - L1 D B Pu. nia. }
  clearbody e. set (k := u + e - 472). assert (Hk : 1 <= k) by lia.
  assert (GK : 2 ^ 472 * 2 ^ k = d * 2 ^ e) by (unfold d; rewrite <- !pow2_add by lia; f_equal; lia).
  assert (U3 : n + g <= 2 ^ (237 + e) * d).
  { replace (2 ^ (237 + e) * d) with (2 ^ (237 + k) * 2 ^ 472) in *.
    2: { rewrite !pow2_add by lia. rewrite (Z.mul_comm (2 ^ 237 * 2 ^ k)), Z.mul_assoc, (Z.mul_comm (2 ^ 472)), <- Z.mul_assoc, GK. ring. }
    subst n. set (T := 2 ^ (237 + k)) in *. clearbody T. clear - U1 Hg. nia. }
  rewrite (rnd_mag_at n d e), (rnd_mag_at (n + g) d e) by (auto; lia).
  assert (RZ : rne_div n (d * 2 ^ e) = rne_div z (2 ^ k)).
  { subst n. rewrite <- GK, (Z.mul_comm (2 ^ 472)). apply rne_div_mul. apply pow2_pos; lia. lia. }
  rewrite RZ. rewrite <- GK.
  destruct (trunc_rne (n + g) (2 ^ 472) z k ltac:(lia) Hk) as [T|T]. { subst n. lia. }
  { left. rewrite T. reflexivity. }
  cbv zeta in T. set (r := rne_div z (2 ^ k)) in *. destruct T as (T1 & T2 & T3 & T4). rewrite T1.
  destruct (Z.le_gt_cases INFm (e * 2 ^ 236 + r)) as [C|C]. { left. lia. }
  right. rewrite Z.min_r by lia.
  assert (ET : 2 * n = (2 * r + 1) * (d * 2 ^ e)).
  { rewrite <- GK, (Z.mul_comm (2 ^ 472)), Z.mul_assoc, <- T3. subst n. ring. }
  assert (PD : 0 < d * 2 ^ e) by nia.
  assert (Br : 0 <= r < 2 ^ 237).
  { rewrite pow2_add in U1 by lia. replace (2 ^ 237 * 2 ^ e * d) with (2 ^ 237 * (d * 2 ^ e)) in U1 by ring.
    set (D := d * 2 ^ e) in *. clearbody D. clear - ET U1 PD Hn. nia. }
  assert (Br2 : e = 0 \/ 2 ^ 236 <= r).
  { destruct U2 as [U2|U2]; [left; auto|right].
    rewrite pow2_add in U2 by lia. replace (2 ^ 236 * 2 ^ e * d) with (2 ^ 236 * (d * 2 ^ e)) in U2 by ring.
    set (D := d * 2 ^ e) in *. clearbody D. clear - ET U2 PD Hn. nia. }
  assert (Br3 : r + 1 < 2 ^ 237).
  { destruct (Z.eq_dec (r + 1) (2 ^ 237)); [|lia]. exfalso. replace r with (2 ^ 237 - 1) in T2 by lia. discriminate. }
  unfold sos_miss. cbv zeta. rewrite <- Z.add_assoc.
  rewrite (mag_val_any e r), (mag_val_any e (r + 1)) by (auto; lia).
  split. { rewrite (rnd_mag_at (n + g) d e) by (auto; lia). rewrite <- GK, T1. lia. }
  split. { rewrite Z.odd_add, Z.odd_mul, T2. change (Z.odd (2 ^ 236)) with false. rewrite andb_false_r. reflexivity. }
  replace ((r * 2 ^ e + (r + 1) * 2 ^ e) * d) with (2 * n) by (rewrite ET; ring).
  assert (UL : 2 ^ 710 <= d) by (apply pow2_le; lia).
  assert (d <= 2 * n). { rewrite ET. clear - Br Pe Pu. nia. }
  split. lia. change (2 ^ 710) with (2 * 2 ^ 472 * 2 ^ 237) in UL. clear - H UL Hg. lia.
Qed.

Lemma sos_small_u u a b : u = 262378 -> 2 ^ 236 <= a -> 0 <= b < 2 ^ 236 ->
  let n := mag_val a * mag_val a in
  let g := mag_val b * mag_val b in
  (rnd_mag n (2 ^ u) = 0 /\ rnd_mag (n + g) (2 ^ u) = 0)
  \/ rnd_mag (n + g) (2 ^ u) = rnd_mag n (2 ^ u) \/ sos_miss (n + g) (2 ^ u) (rnd_mag n (2 ^ u)).
Proof.
  intros Eu Ha Hb n g. assert (Hg : 0 <= g < 2 ^ 472).
  { unfold g. rewrite mag_val_sub by lia. change (2 ^ 472) with (2 ^ 236 * 2 ^ 236). nia. }
  clearbody g. clear Hb. pose proof (sg_bound a ltac:(lia)) as SA. pose proof (qe_nonneg a) as Q0.
  assert (En : n = sg a * sg a * 2 ^ (2 * qe a)).
  { unfold n. rewrite mag_val_sg by lia. replace (2 * qe a) with (qe a + qe a) by lia. rewrite pow2_add by lia. ring. }
  clearbody n. set (s := sg a) in *. set (q := qe a) in *. clearbody s q.
  assert (Hn : 0 <= n). { subst n. pose proof (pow2_pos (2 * q) ltac:(lia)). nia. }
  destruct (Z.le_gt_cases 236 q) as [C|C].
  - right. apply rnd_delta_u; auto. subst n. exists (s * s * 2 ^ (2 * q - 472)).
    replace (2 * q) with ((2 * q - 472) + 472) at 1 by lia. rewrite pow2_add by lia. apply Z.mul_assoc.
  - left.
    assert (NB : n < 2 ^ 946).
    { subst n. apply Z.lt_le_trans with (2 ^ 474 * 2 ^ (2 * q)). apply Z.mul_lt_mono_pos_r. apply pow2_pos; lia.
      change (2 ^ 474) with (2 ^ 237 * 2 ^ 237). nia. rewrite <- pow2_add by lia. apply pow2_le. lia. }
    assert (UL : 2 ^ 950 <= 2 ^ u) by (apply pow2_le; lia). set (d := 2 ^ u) in *. clearbody d. clear Eu.
    assert (R : forall x, 0 <= x < 2 ^ 947 -> rnd_mag x d = 0).
    { intros x Hx. change (2 ^ 950) with (8 * 2 ^ 947) in UL. rewrite (rnd_mag_at x d 0); try lia.
      change (2 ^ 0) with 1. rewrite Z.mul_1_r, (rne_div_unique x d 0) by lia. reflexivity. }
    change (2 ^ 947) with (2 * 2 ^ 946) in R. change (2 ^ 946) with (2 ^ 472 * 2 ^ 474) in *.
    split; apply R; lia.
Qed.

Lemma sos_mul_miss_u u n g m : u = 262378 -> 0 <= n -> 0 <= g < 2 ^ 472 -> 0 <= m -> mul_miss n (2 ^ u) m ->
  rnd_mag (n + g) (2 ^ u) = m + 1 -> sos_miss (n + g) (2 ^ u) m.
Proof.
  intros Eu Hn Hg Hm (M1 & M2 & M3 & M4 & M5) R.
  assert (UL : 2 ^ 711 <= 2 ^ u) by (apply pow2_le; lia). set (d := 2 ^ u) in *. clearbody d. clear Eu u.
  unfold sos_miss. cbv zeta.
  assert (Bm : m + 1 <= 2 ^ 236).
  { rewrite <- M2. rewrite (rnd_mag_at n d 0); try lia.
    change (2 ^ 0) with 1. rewrite Z.mul_1_r. pose proof (rne_div_le_bound n d (2 ^ 236) ltac:(lia) ltac:(lia)). lia. }
  assert (V0 : mag_val m = m) by (apply mag_val_sub; lia).
  assert (V1 : mag_val (m + 1) = m + 1).
  { pose proof (mag_val_any 0 (m + 1) ltac:(lia) ltac:(lia) ltac:(auto)) as X. cbn [Z.mul Z.add] in X. rewrite X.
    change (2 ^ 0) with 1. lia. }
  rewrite V0, V1. replace (m + (m + 1)) with (2 * m + 1) by ring.
  split. auto. split. auto. split. lia.
  assert (d <= (2 * m + 1) * d) by nia. set (mid := (2 * m + 1) * d) in *. clearbody mid.
  change (2 ^ 711) with (2 * 2 ^ 472 * 2 ^ 238) in UL. change (2 ^ 238) with (2 * 2 ^ 237) in *. lia.
Qed.

Lemma sos_small_ok x y a b : 0 <= x < 2 ^ 256 -> mag x = a -> mag y = b -> 2 ^ 236 <= a < INFm -> b < 2 ^ 236 ->
  let n := mag_val a * mag_val a + mag_val b * mag_val b in
  exists m, square (of256 x) = Some (of256 m) /\ 0 <= m <= INFm
    /\ (m = rnd_mag n (2 ^ UNITe) \/ sos_miss n (2 ^ UNITe) m).
Proof.
  intros Hx Ea Eb Ha Hb n. unfold square.
  assert (Hb0 : 0 <= b) by (rewrite <- Eb; apply mag_bound).
  assert (NN : 0 <= mag_val a * mag_val a) by (apply Z.mul_nonneg_nonneg; apply mag_val_nonneg; lia).
  assert (Hg : 0 <= mag_val b * mag_val b < 2 ^ 472).
  { rewrite mag_val_sub by lia. change (2 ^ 472) with (2 ^ 236 * 2 ^ 236). nia. }
  pose proof (sos_small_u UNITe a b eq_refl ltac:(lia) ltac:(lia)) as S. cbv zeta in S. fold n in S.
  pose proof (sos_mul_miss_u UNITe (mag_val a * mag_val a) (mag_val b * mag_val b)) as MM. fold n in MM.
  assert (F : finb x = true) by (unfold finb; rewrite Ea; apply Z.ltb_lt; lia).
  destruct (finb_kinds x F) as [K1 K2].
  assert (SX : xors (sgn x) (sgn x) = 0).
  { destruct (mkf_split x Hx) as (_ & [Q|Q] & _); rewrite Q; reflexivity. }
  destruct (mul_ok x x Hx Hx) as [E|(_ & _ & m & M & E)].
  - exists (rnd_mag (mag_val a * mag_val a) (2 ^ UNITe)). rewrite E. unfold spec_mul. rewrite K1, K2, SX, Ea. cbn [orb]. split.
    reflexivity. pose proof unit_pos as PU. revert PU S. clear MM. generalize (2 ^ UNITe). intros d PU S. split. apply rnd_mag_bounds; auto.
    destruct S as [[S1 S2]|[S|S]]. left. congruence. left. congruence. right. exact S.
  - rewrite Ea in *. rewrite SX in E. exists m. split. rewrite E. reflexivity.
    pose proof unit_pos as PU. specialize (MM m eq_refl NN Hg). revert PU S MM M. generalize (2 ^ UNITe). intros d PU S MM M.
    pose proof M as (M1 & M2 & M3 & M4 & M5).
    assert (Hm : 0 <= m <= INFm).
    { pose proof (rnd_mag_bounds (mag_val a * mag_val a) d NN PU) as B. rewrite M2 in B. split; [|lia].
      clear - M4 M5 PU B. destruct (Z.le_gt_cases 0 m). auto. replace m with (-1) in * by lia. nia. }
    split. exact Hm. right. rewrite M2 in S.
    destruct S as [[S1 S2]|[S|S]]. lia. apply MM; auto. lia.
    exfalso. destruct S as (_ & O & _). rewrite Z.odd_add, M3 in O. discriminate.
Qed.

Theorem sos_ok x y : 0 <= x < 2 ^ 256 -> 0 <= y < 2 ^ 256 ->
  let n := mag_val (mag x) * mag_val (mag x) + mag_val (mag y) * mag_val (mag y) in
  exists r, sos (of256 x) (of256 y) = Some (of256 r) /\ 0 <= r < 2 ^ 256
   /\ (r = spec_sos x y \/ (finb x = true /\ finb y = true /\ sos_miss n (2 ^ UNITe) r)).
Proof.
  intros Hx Hy n. rewrite sos_eq. cbv zeta. rewrite !abs_bits_of. fold (mag x) (mag y).
  pose proof (mag_bound x) as Mx. pose proof (mag_bound y) as My.
  rewrite !sticky_of by lia. unfold any_non_normal2, any_special2, any_subnormal2.
  rewrite !stk_special, !stk_sub by lia.
  assert (HI : INFm < 2 ^ 255) by reflexivity. assert (HI2 : 2 ^ 236 < INFm) by reflexivity.
  assert (HNAN : 0 <= QNAN < 2 ^ 256) by (split; [discriminate|reflexivity]).
  assert (MX : forall c, Z.max (stk (mag x)) (stk (mag y)) <=? c = (stk (mag x) <=? c) && (stk (mag y) <=? c)).
  { intros c. destruct (Z.leb_spec (stk (mag x)) c), (Z.leb_spec (stk (mag y)) c); cbn [andb];
      (apply Z.leb_le; lia) || (apply Z.leb_gt; lia). }
  assert (MG : forall c, c <? Z.max (stk (mag x)) (stk (mag y)) = (c <? stk (mag x)) || (c <? stk (mag y))).
  { intros c. destruct (Z.ltb_spec c (stk (mag x))), (Z.ltb_spec c (stk (mag y))); cbn [orb];
      (apply Z.ltb_lt; lia) || (apply Z.ltb_ge; lia). }
  rewrite MX, MG. rewrite !stk_sub by lia. change HI_EXP_MASK with INF_HI. rewrite !stk_gt_inf by lia. clear MX MG.
  assert (SS : (INFm < mag x \/ INFm < mag y) /\ spec_sos x y = QNAN
    \/ (mag x <= INFm /\ mag y <= INFm /\ (mag x = INFm \/ mag y = INFm) /\ spec_sos x y = INFm)
    \/ (mag x < INFm /\ mag y < INFm /\ spec_sos x y = rnd_mag n (2 ^ UNITe))).
  { unfold spec_sos, nanb, infb. fold n.
    destruct (Z.ltb_spec INFm (mag x)); [left; split; [auto|reflexivity]|].
    destruct (Z.ltb_spec INFm (mag y)); [left; split; [auto|reflexivity]|]. cbn [orb].
    destruct (Z.eqb_spec (mag x) INFm); [right; left; split; [lia|]; split; [lia|]; split; [lia|reflexivity]|].
    destruct (Z.eqb_spec (mag y) INFm); [right; left; split; [lia|]; split; [lia|]; split; [lia|reflexivity]|].
    right. right. split. lia. split. lia. cbn [orb]. unfold mkf. rewrite Z.mul_0_l. reflexivity. }
  destruct (Z.ltb_spec (mag x) (2 ^ 236)) as [X1|X1], (Z.ltb_spec (mag y) (2 ^ 236)) as [Y1|Y1]; cbn [andb orb].
  - (* both below the normal range *)
    rewrite orb_true_r. exists 0. split. reflexivity. split. lia. left.
    destruct SS as [[C _]|[(_ & _ & C & _)|(_ & _ & ->)]]; [lia|lia|].
    unfold n. rewrite !mag_val_sub by lia.
    assert (U : forall u, u = 262378 -> 0 = rnd_mag (mag x * mag x + mag y * mag y) (2 ^ u)).
    { intros u Eu. assert (UL : 2 ^ 500 <= 2 ^ u) by (apply pow2_le; lia). set (d := 2 ^ u) in *. clearbody d. clear Eu.
      assert (mag x * mag x < 2 ^ 236 * 2 ^ 236) by nia. assert (mag y * mag y < 2 ^ 236 * 2 ^ 236) by nia.
      assert (0 <= mag x * mag x) by nia. assert (0 <= mag y * mag y) by nia.
      change (2 ^ 500) with (4 * (2 ^ 236 * 2 ^ 236) * 2 ^ 26) in UL.
      rewrite (rnd_mag_at _ d 0); try lia.
      change (2 ^ 0) with 1. rewrite Z.mul_1_r, (rne_div_unique _ d 0) by lia. reflexivity. }
    exact (U UNITe eq_refl).
  - rewrite !orb_true_r.
    destruct (Z.ltb_spec INFm (mag x)); [lia|]. destruct (Z.ltb_spec INFm (mag y)) as [Y2|Y2]; cbn [orb].
    { exists QNAN. split. reflexivity. split. auto. left. destruct SS as [[_ ->]|[(_ & C & _)|(_ & C & _)]]; [auto|lia|lia]. }
    destruct (Z.eq_dec (mag y) INFm) as [Y3|Y3].
    { exists INFm. split. 2: { split. lia. left. destruct SS as [[C _]|[(_ & _ & _ & ->)|(_ & C & _)]]; [lia|auto|lia]. }
      unfold square. destruct (mul_ok y y Hy Hy) as [->|(F & _)]. 2: { unfold finb in F. apply Z.ltb_lt in F. lia. }
      unfold spec_mul, nanb, infb, zerob. rewrite Y3.
      replace (xors (sgn y) (sgn y)) with 0 by (destruct (mkf_split y Hy) as (_ & [Q|Q] & _); rewrite Q; reflexivity).
      reflexivity. }
    destruct (sos_small_ok y x (mag y) (mag x) Hy eq_refl eq_refl ltac:(lia) ltac:(lia)) as (m & -> & Hm & HM).
    rewrite Z.add_comm in HM. fold n in HM.
    exists m. split. reflexivity. split. lia. destruct SS as [[C _]|[(_ & _ & C & _)|(C1 & C2 & ->)]]; [lia|lia|].
    destruct HM as [HM|HM]; [left; exact HM|right]. unfold finb. split. apply Z.ltb_lt; lia. split. apply Z.ltb_lt; lia. exact HM.
  - rewrite !orb_true_r.
    destruct (Z.ltb_spec INFm (mag y)); [lia|]. destruct (Z.ltb_spec INFm (mag x)) as [X2|X2]; cbn [orb].
    { exists QNAN. split. reflexivity. split. auto. left. destruct SS as [[_ ->]|[(C & _)|(C & _)]]; [auto|lia|lia]. }
    destruct (Z.eq_dec (mag x) INFm) as [X3|X3].
    { exists INFm. split. 2: { split. lia. left. destruct SS as [[C _]|[(_ & _ & _ & ->)|(C & _)]]; [lia|auto|lia]. }
      unfold square. destruct (mul_ok x x Hx Hx) as [->|(F & _)]. 2: { unfold finb in F. apply Z.ltb_lt in F. lia. }
      unfold spec_mul, nanb, infb, zerob. rewrite X3.
      replace (xors (sgn x) (sgn x)) with 0 by (destruct (mkf_split x Hx) as (_ & [Q|Q] & _); rewrite Q; reflexivity).
      reflexivity. }
    destruct (sos_small_ok x y (mag x) (mag y) Hx eq_refl eq_refl ltac:(lia) ltac:(lia)) as (m & -> & Hm & HM). fold n in HM.
    exists m. split. reflexivity. split. lia. destruct SS as [[C _]|[(_ & _ & C & _)|(C1 & C2 & ->)]]; [lia|lia|].
    destruct HM as [HM|HM]; [left; exact HM|right]. unfold finb. split. apply Z.ltb_lt; lia. split. apply Z.ltb_lt; lia. exact HM.
  - rewrite !orb_false_r. destruct (Z.eqb_spec (mag x) 0); [lia|]. destruct (Z.eqb_spec (mag y) 0); [lia|]. cbn [orb].
    destruct (Z.leb_spec INFm (mag x)) as [X2|X2], (Z.leb_spec INFm (mag y)) as [Y2|Y2]; cbn [orb].
    4: { rewrite ult256 by lia.
      assert (R : forall r, 0 <= r <= INFm -> (r = rnd_mag n (2 ^ UNITe) \/ sos_miss n (2 ^ UNITe) r) ->
        0 <= r < 2 ^ 256 /\ (r = spec_sos x y \/ finb x = true /\ finb y = true /\ sos_miss n (2 ^ UNITe) r)).
      { intros r Hr HR. split. lia. destruct SS as [[C _]|[(_ & _ & C & _)|(C1 & C2 & ->)]]; [lia|lia|].
        destruct HR as [HR|HR]; [left; exact HR|right]. unfold finb. split. apply Z.ltb_lt; lia. split. apply Z.ltb_lt; lia. exact HR. }
      destruct (Z.ltb_spec (mag x) (mag y)).
      - destruct (sos_fin_ok (mag y) (mag x) ltac:(lia) ltac:(lia)) as (m & -> & Hm & HM). rewrite Z.add_comm in HM. fold n in HM.
        exists m. split. reflexivity. apply R; auto.
      - destruct (sos_fin_ok (mag x) (mag y) ltac:(lia) ltac:(lia)) as (m & -> & Hm & HM). fold n in HM.
        exists m. split. reflexivity. apply R; auto. }
    all: destruct (Z.ltb_spec INFm (mag x)) as [X3|X3], (Z.ltb_spec INFm (mag y)) as [Y3|Y3]; cbn [orb].
    all: first [exists QNAN; split; [reflexivity|]; split; [exact HNAN|]; left; destruct SS as [[_ SS]|[(C1 & C2 & _)|(C1 & C2 & _)]]; [auto|lia|lia]
      | exists INFm; split; [reflexivity|]; split; [lia|]; left; destruct SS as [[C _]|[(_ & _ & _ & SS)|(C1 & C2 & _)]]; [lia|auto|lia]].
Qed.
End Sos.

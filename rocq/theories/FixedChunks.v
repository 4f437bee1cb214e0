(** * FixedChunks: the digits of the fraction, 19 at a time *)

From Coq Require Import ZArith List Bool Lia.
From Verif Require Import Base ZLemmas BigUInt BigLaws BigUIntProofs BigExtra F256 F256Lemmas CodecProofs BasicProofs
  SosProofs Spec SpecLemmas Parse SpecParse ParseProofs ReadProofs Print PrintText PrintFixed SpecFixed FixedText.
Import ListNotations.
Open Scope Z_scope.

Local Notation len l := (Z.of_nat (length l)).

Section Fixed.
Context {P : profile}.

Lemma mul_shift_mod_ok x T k : 0 <= x < 2 ^ 256 -> 0 <= T < 2 ^ 384 -> 256 < k <= 304 ->
  mul_shift_mod (of256 x) (of512 T) k = Some ((x * T / 2 ^ k) mod 10 ^ 19).
Proof.
  intros Hx HT Hk. unfold mul_shift_mod. rewrite dassert_ok by (apply ltb_true; lia). rewrite bind_Some.
  rewrite <- of512_split. cbn [hi lo].
  pose proof (Z.div_mod T (2 ^ 256) ltac:(lia)) as DT. pose proof (Z.mod_pos_bound T (2 ^ 256) ltac:(lia)) as MT.
  set (a := T / 2 ^ 256) in *. set (b := T mod 2 ^ 256) in *.
  assert (Ha : 0 <= a < 2 ^ 128). { split; [apply Z.div_pos; lia|apply Z.div_lt_upper_bound; lia]. }
  clearbody a b.
  rewrite (L_wmul _ L256) by (change (2 ^ BITS) with (2 ^ 256); lia). rewrite bind_Some.
  rewrite (L_wmul _ L256) by (change (2 ^ BITS) with (2 ^ 256); lia). rewrite bind_Some.
  change (2 ^ BITS) with (2 ^ 256).
  pose proof (Z.div_mod (x * a) (2 ^ 256) ltac:(lia)) as D1. pose proof (Z.mod_pos_bound (x * a) (2 ^ 256) ltac:(lia)) as M1.
  set (h := x * a / 2 ^ 256) in *. set (l := (x * a) mod 2 ^ 256) in *.
  assert (Hxa : 0 <= x * a < 2 ^ 256 * 2 ^ 128) by (clear - Hx Ha; nia).
  assert (Hh : 0 <= h < 2 ^ 128) by lia.
  set (h2 := x * b / 2 ^ 256).
  assert (Hh2 : 0 <= h2 < 2 ^ 256).
  { unfold h2. split; [apply Z.div_pos; [clear - Hx MT; nia|lia]|]. apply Z.div_lt_upper_bound; [lia|]. clear - Hx MT. nia. }
  rewrite (L_oadd _ L256) by (change (2 ^ BITS) with (2 ^ 256); lia). change (2 ^ BITS) with (2 ^ 256).
  assert (EX : x * T / 2 ^ 256 = h * 2 ^ 256 + l + h2).
  { unfold h2. replace (x * T) with (x * b + (x * a) * 2 ^ 256) by (rewrite DT; ring).
    rewrite Z.div_add by lia. lia. }
  assert (ER : mk (if 2 ^ 256 <=? l + h2 then incr (of256 h) else of256 h) (of256 ((l + h2) mod 2 ^ 256)) = of512 (x * T / 2 ^ 256)).
  { rewrite EX, <- of512_split. destruct (Z.leb_spec (2 ^ 256) (l + h2)) as [G|G].
    - rewrite (L_incr _ L256) by (change (2 ^ BITS) with (2 ^ 256); lia). change (2 ^ BITS) with (2 ^ 256).
      f_equal; f_equal.
      + rewrite Z.mod_small by lia. symmetry. apply div_eq with (l + h2 - 2 ^ 256); lia.
      + transitivity (l + h2 - 2 ^ 256); [|symmetry]. apply mod_eq with 1; lia. apply mod_eq with (h + 1); lia.
    - f_equal; f_equal.
      + symmetry. apply div_eq with (l + h2); lia.
      + transitivity (l + h2); [|symmetry]. apply mod_eq with 0; lia. apply mod_eq with h; lia. }
  assert (B : 0 <= x * T / 2 ^ 256 < 2 ^ 512) by (rewrite EX; lia).
  cbv beta iota zeta. rewrite subu_ok by lia. rewrite bind_Some.
  match goal with |- context [ushr ?t _] => replace t with (of512 (x * T / 2 ^ 256)) by (symmetry; exact ER) end.
  rewrite (L_shr _ L512) by (change (2 ^ BITS) with (2 ^ 512); change BITS with 512; lia). rewrite bind_Some.
  rewrite Z.div_div by lia. rewrite <- Z.pow_add_r by lia. replace (256 + (k - 256)) with k by lia.
  assert (B2 : 0 <= x * T / 2 ^ k < 2 ^ 512).
  { assert (0 <= x * T) by (clear - Hx HT; nia). split; [apply Z.div_pos; lia|].
    apply Z.le_lt_trans with (x * T / 2 ^ 256); [|lia]. apply Z.div_le_compat_l; [lia|]. split; [lia|]. apply Z.pow_le_mono_r; lia. }
  rewrite (div_rem_u128_ok of256 L256) by (change (2 ^ (2 * BITS)) with (2 ^ 512); unfold CHUNK_BASE; lia). rewrite bind_Some.
  unfold CHUNK_BASE. f_equal. pose proof (Z.mod_pos_bound (x * T / 2 ^ k) (10 ^ 19) ltac:(lia)). apply castu_ok; lia.
Qed.

(** A chunk only needs the table modulo 10^19 * 2^304. *)
Lemma div_mod_period a b k M : 0 <= k <= 304 -> 0 < M -> a mod (M * 2 ^ 304) = b mod (M * 2 ^ 304) ->
  (a / 2 ^ k) mod M = (b / 2 ^ k) mod M.
Proof.
  intros Hk HM H.
  assert (PK : 0 < 2 ^ k) by (apply pow2_pos; lia).
  assert (PT : 0 < M * 2 ^ 304) by (clear - HM; nia).
  pose proof (Z.div_mod a (M * 2 ^ 304) ltac:(lia)) as Da. pose proof (Z.div_mod b (M * 2 ^ 304) ltac:(lia)) as Db.
  rewrite H in Da. set (r := b mod (M * 2 ^ 304)) in *. set (qa := a / (M * 2 ^ 304)) in *. set (qb := b / (M * 2 ^ 304)) in *.
  clearbody r qa qb.
  assert (E : 2 ^ 304 = 2 ^ (304 - k) * 2 ^ k) by (rewrite <- Z.pow_add_r by lia; f_equal; lia).
  assert (G : forall q, (M * 2 ^ 304 * q + r) / 2 ^ k mod M = (r / 2 ^ k) mod M).
  { intros q. rewrite E. replace (M * (2 ^ (304 - k) * 2 ^ k) * q + r) with (r + q * 2 ^ (304 - k) * M * 2 ^ k) by ring.
    rewrite Z.div_add by lia. apply Z.mod_add. lia. }
  rewrite Da, Db, !G. reflexivity.
Qed.

Lemma chunk_value c e s n T : -319 <= e <= -237 -> s = 273 - 32 * (- e / 32) -> 19 <= n ->
  T = (10 ^ n * 2 ^ Z.max 0 s / 2 ^ Z.max 0 (- s)) mod (10 ^ 19 * 2 ^ 304) ->
  (c * T / 2 ^ (s - e)) mod 10 ^ 19 = (c * 10 ^ n / 2 ^ (- e)) mod 10 ^ 19.
Proof.
  intros He Es Hn ET.
  assert (K : 273 <= s - e <= 304 /\ -15 <= s).
  { pose proof (Z.div_mod (- e) 32 ltac:(lia)). pose proof (Z.mod_pos_bound (- e) 32 ltac:(lia)). lia. }
  clear Es. set (G := 10 ^ n * 2 ^ Z.max 0 s / 2 ^ Z.max 0 (- s)) in *.
  assert (EG : G * 2 ^ Z.max 0 (- s) = 10 ^ n * 2 ^ Z.max 0 s).
  { unfold G. set (m := Z.max 0 (- s)). assert (0 <= m <= 15) by lia.
    replace (10 ^ n) with (5 ^ n * 2 ^ (n - m) * 2 ^ m).
    - replace (5 ^ n * 2 ^ (n - m) * 2 ^ m * 2 ^ Z.max 0 s) with (5 ^ n * 2 ^ (n - m) * 2 ^ Z.max 0 s * 2 ^ m) by ring.
      rewrite Z.div_mul; [reflexivity|]. pose proof (pow2_pos m). lia.
    - rewrite <- Z.mul_assoc, <- Z.pow_add_r by lia. replace (n - m + m) with n by lia. rewrite <- Z.pow_mul_l. reflexivity. }
  clearbody G.
  rewrite (div_mod_period (c * T) (c * G) (s - e) (10 ^ 19)) by (try lia; rewrite ET; apply Zmult_mod_idemp_r).
  f_equal. destruct (Z.le_gt_cases 0 s) as [S|S].
  - rewrite Z.max_l in EG by lia. rewrite (Z.max_r 0 s) in EG by lia. change (2 ^ 0) with 1 in EG. rewrite Z.mul_1_r in EG.
    rewrite EG, Z.mul_assoc. replace (s - e) with (- e + s) by lia. rewrite Z.pow_add_r by lia.
    apply Z.div_mul_cancel_r. pose proof (pow2_pos (- e)). lia. pose proof (pow2_pos s). lia.
  - rewrite (Z.max_r 0 (- s)) in EG by lia. rewrite (Z.max_l 0 s) in EG by lia. change (2 ^ 0) with 1 in EG. rewrite Z.mul_1_r in EG.
    rewrite <- EG, Z.mul_assoc. replace (- e) with (s - e + - s) by lia. rewrite Z.pow_add_r by lia.
    symmetry. apply Z.div_mul_cancel_r. pose proof (pow2_pos (s - e)). lia. pose proof (pow2_pos (- s)). lia.
Qed.

(** One more group of digits *)
Lemma next_group y Q m : 0 < Q -> 0 < m -> y * m / Q = (y / Q) * m + (y * m / Q) mod m.
Proof.
  intros HQ Hm. pose proof (Z.div_mod (y * m / Q) m ltac:(lia)) as D.
  rewrite Z.div_div in D by lia. rewrite Z.div_mul_cancel_r in D by lia. lia.
Qed.
Lemma group_rem y Q m : 0 < Q -> 0 < m -> (y * m / Q) mod m = (y mod Q) * m / Q.
Proof.
  intros HQ Hm. pose proof (Z.div_mod y Q ltac:(lia)) as D. pose proof (Z.mod_pos_bound y Q HQ) as B.
  set (q := y / Q) in *. set (r := y mod Q) in *. clearbody q r.
  replace (y * m) with (r * m + q * m * Q) by (rewrite D; ring). rewrite Z.div_add by lia. rewrite Z.mod_add by lia.
  apply Z.mod_small. split; [apply Z.div_pos; nia|apply Z.div_lt_upper_bound; nia].
Qed.

(** The comparison with the tie *)
Lemma group_round F Q h : 0 < Q -> 0 < h -> 0 <= F ->
  (h < F * (2 * h) / Q -> Q < 2 * F) /\ (F * (2 * h) / Q < h -> 2 * F < Q) /\ (F * (2 * h) / Q = h -> Q <= 2 * F).
Proof.
  intros HQ Hh HF. pose proof (Z.div_mod (F * (2 * h)) Q ltac:(lia)) as D. pose proof (Z.mod_pos_bound (F * (2 * h)) Q HQ) as B.
  set (q := F * (2 * h) / Q) in *. set (r := (F * (2 * h)) mod Q) in *. clearbody q r. repeat split; intros; nia.
Qed.

Lemma tie_exact c e p z k : 0 < c -> 0 <= p -> p < - e -> 0 <= z -> c = (2 * k + 1) * 2 ^ z ->
  (- e - p - 1 <= z <-> (2 * (c * 10 ^ p)) mod 2 ^ (- e) = 0).
Proof.
  intros Hc Hp He Hz Ec.
  assert (E2 : 2 * (c * 10 ^ p) = (2 * k + 1) * 5 ^ p * 2 ^ (z + p + 1)).
  { rewrite Ec. replace (10 ^ p) with (5 ^ p * 2 ^ p) by (rewrite <- Z.pow_mul_l; reflexivity).
    rewrite !Z.pow_add_r by lia. change (2 ^ 1) with 2. ring. }
  rewrite E2. split; intros H.
  - replace (z + p + 1) with (z + p + 1 - - e + - e) by lia. rewrite Z.pow_add_r by lia. rewrite Z.mul_assoc.
    apply Z.mod_mul. pose proof (pow2_pos (- e)). lia.
  - destruct (Z.le_gt_cases (- e - p - 1) z) as [|G]; auto. exfalso.
    pose proof (pow2_pos (z + p + 1) ltac:(lia)) as PZ.
    assert (PE : 2 ^ (- e) = 2 ^ (- e - (z + p + 1)) * 2 ^ (z + p + 1)) by (rewrite <- Z.pow_add_r by lia; f_equal; lia). rewrite PE in H.
    rewrite Z.mul_mod_distr_r in H by (try lia; pose proof (pow2_pos (- e - (z + p + 1))); lia).
    assert (X : ((2 * k + 1) * 5 ^ p) mod 2 ^ (- e - (z + p + 1)) = 0) by (clear - H PZ; nia).
    apply Z.mod_divide in X; [|pose proof (pow2_pos (- e - (z + p + 1))); lia].
    destruct X as [t X]. replace (- e - (z + p + 1)) with (Z.succ (- e - (z + p + 1) - 1)) in X by lia.
    rewrite Z.pow_succ_r in X by lia.
    assert (O : Z.odd ((2 * k + 1) * 5 ^ p) = true).
    { rewrite Z.odd_mul. replace (2 * k + 1) with (1 + 2 * k) by lia. rewrite Z.odd_add_mul_2.
      change (Z.odd 1) with true. rewrite andb_true_l.
      destruct (Z.eq_dec p 0) as [->|Np]; [reflexivity|]. rewrite Z.odd_pow by lia. reflexivity. }
    rewrite X in O. replace (t * (2 * 2 ^ (- e - (z + p + 1) - 1))) with (0 + 2 * (t * 2 ^ (- e - (z + p + 1) - 1))) in O by ring.
    rewrite Z.odd_add_mul_2 in O. discriminate.
Qed.

Definition round_cond (r : round) (A Q : Z) : Prop :=
  match r with Up => Q < 2 * (A mod Q) | ToEven => 2 * (A mod Q) = Q | Down => 2 * (A mod Q) < Q end.

Lemma entry_of x y z : 0 <= x < 2 ^ 128 -> 0 <= y < 2 ^ 128 -> 0 <= z < 2 ^ 128 ->
  mk (u256 0 x) (u256 y z) = of512 ((x * 2 ^ 128 + y) * 2 ^ 128 + z).
Proof.
  intros Hx Hy Hz. rewrite <- of512_split. f_equal.
  - replace (((x * 2 ^ 128 + y) * 2 ^ 128 + z) / 2 ^ 256) with x by (symmetry; apply div_eq with (y * 2 ^ 128 + z); lia).
    rewrite u256_of by lia. f_equal; lia.
  - replace (((x * 2 ^ 128 + y) * 2 ^ 128 + z) mod 2 ^ 256) with (y * 2 ^ 128 + z) by (symmetry; apply mod_eq with x; lia).
    rewrite u256_of by lia. reflexivity.
Qed.

Lemma chunk_ok t i j c e s x y z : -319 <= e <= -237 -> s = 273 - 32 * (- e / 32) -> 0 < c < 2 ^ 237 -> 0 <= j ->
  entry t i j = Some (x, y, z) -> 0 <= x < 2 ^ 128 -> 0 <= y < 2 ^ 128 -> 0 <= z < 2 ^ 128 ->
  (x * 2 ^ 128 + y) * 2 ^ 128 + z = (10 ^ (19 * (j + 1)) * 2 ^ Z.max 0 s / 2 ^ Z.max 0 (- s)) mod (10 ^ 19 * 2 ^ 304) ->
  exists yy, pow10_div_pow2 t i j = Some yy
    /\ mul_shift_mod (of256 c) yy (s - e) = Some ((c * 10 ^ (19 * (j + 1)) / 2 ^ (- e)) mod 10 ^ 19).
Proof.
  intros He Es Hc Hj EE Hx Hy Hz EV. unfold pow10_div_pow2. rewrite EE, bind_Some. eexists. split; [reflexivity|].
  rewrite entry_of by auto.
  assert (KB : 273 <= s - e <= 304) by (pose proof (Z.div_mod (- e) 32 ltac:(lia)); pose proof (Z.mod_pos_bound (- e) 32 ltac:(lia)); lia).
  rewrite mul_shift_mod_ok by lia. f_equal. apply (chunk_value c e s (19 * (j + 1)) _ He Es ltac:(lia) EV).
Qed.

Lemma fract_chunks_ok t i s c e p : chunks_ok t -> -319 <= e <= -237 -> 0 < c < 2 ^ 237 -> 0 <= p <= 75 ->
  s = 273 - 32 * (- e / 32) ->
  (forall j, 0 <= j <= 3 -> exists a b c, entry t i j = Some (a, b, c)
          /\ 0 <= a < 2 ^ 128 /\ 0 <= b < 2 ^ 128 /\ 0 <= c < 2 ^ 128
          /\ (a * 2 ^ 128 + b) * 2 ^ 128 + c
             = (10 ^ (19 * (j + 1)) * 2 ^ Z.max 0 s / 2 ^ Z.max 0 (- s)) mod (10 ^ 19 * 2 ^ 304)) ->
  forall n j b, j + Z.of_nat (S n) = p / 19 + 1 -> 0 <= j -> is_dec b -> len b = 19 * j ->
  dval b = c * 10 ^ (19 * j) / 2 ^ (- e) ->
  exists ds r, fract_chunks t (of256 c) e p (p / 19 + 1) i (s - e) (S n) j (ascii b) = Some (ascii ds, r)
    /\ is_dec ds /\ len ds = p /\ dval ds = c * 10 ^ p / 2 ^ (- e) /\ round_cond r (c * 10 ^ p) (2 ^ (- e)).
Proof.
  intros CT He Hc Hp Es HE n. induction n as [|n IH]; intros j b Hj J0 Db Lb Vb;
  assert (PQ : 0 < 2 ^ (- e)) by (apply pow2_pos; lia);
  assert (PD : 0 <= p / 19 <= 3) by (split; [apply Z.div_pos; lia|apply Z.lt_succ_r; apply Z.div_lt_upper_bound; lia]);
  pose proof (Z.div_mod p 19 ltac:(lia)) as DM; pose proof (Z.mod_pos_bound p 19 ltac:(lia)) as MB;
  destruct (HE j ltac:(lia)) as (x & y & z & EE & Hx & Hy & Hz & EV);
  assert (KB : 273 <= s - e <= 304) by (pose proof (Z.div_mod (- e) 32 ltac:(lia)); pose proof (Z.mod_pos_bound (- e) 32 ltac:(lia)); lia);
  destruct (chunk_ok t i j c e s _ _ _ He Es ltac:(lia) J0 EE Hx Hy Hz EV) as (yy & EY & CH).
  - (* the last chunk *)
    cbn [fract_chunks]. rewrite EY, bind_Some, CH, bind_Some. clear CH EY HE EE EV Hx Hy Hz x y z yy CT.
    assert (Ej : j = p / 19) by lia.
    unfold CHUNK_SIZE. rewrite subu_ok by lia. rewrite bind_Some. rewrite mulu_ok by lia. rewrite bind_Some.
    rewrite castu_ok by lia. rewrite subu_ok by lia. rewrite bind_Some.
    replace (p - (p / 19 + 1 - 1) * 19) with (p mod 19) by lia. set (nd := p mod 19) in *. clearbody nd.
    rewrite dassert_ok by (apply leb_true; lia). rewrite bind_Some. rewrite subu_ok by lia. rewrite bind_Some.
    cbv zeta. set (A := c * 10 ^ p). set (Q := 2 ^ (- e)) in *.
    set (h := 5 * 10 ^ (19 - nd - 1)).
    assert (Ph : 0 < h) by (unfold h; pose proof (Z.pow_pos_nonneg 10 (19 - nd - 1)); lia).
    assert (Ed : 10 ^ (19 - nd) = 2 * h).
    { unfold h. replace (19 - nd) with (1 + (19 - nd - 1)) at 1 by lia. rewrite Z.pow_add_r by lia. change (10 ^ 1) with 10. ring. }
    assert (EA : c * 10 ^ (19 * (j + 1)) = A * (2 * h)).
    { unfold A. rewrite <- Ed, <- Z.mul_assoc, <- Z.pow_add_r by lia. do 2 f_equal. lia. }
    assert (E19 : 10 ^ 19 = 10 ^ nd * (2 * h)).
    { rewrite <- Ed, <- Z.pow_add_r by lia. f_equal. lia. }
    assert (PN : 0 < 10 ^ nd) by (apply Z.pow_pos_nonneg; lia).
    assert (PA : 0 <= A). { unfold A. pose proof (Z.pow_pos_nonneg 10 p). lia. }
    rewrite EA, E19, Ed.
    assert (R1 : (A * (2 * h) / Q) mod (10 ^ nd * (2 * h)) mod (2 * h) = (A mod Q) * (2 * h) / Q).
    { rewrite <- group_rem by lia. symmetry. apply Znumtheory.Zmod_div_mod; [lia|nia|]. exists (10 ^ nd). reflexivity. }
    assert (R2 : (A * (2 * h) / Q) mod (10 ^ nd * (2 * h)) / (2 * h) = (A / Q) mod 10 ^ nd).
    { rewrite (Z.mul_comm (10 ^ nd)). rewrite Z.rem_mul_r by lia.
      rewrite (Z.mul_comm (2 * h) (_ mod _)). rewrite Z.div_add by lia.
      rewrite Z.div_small by (apply Z.mod_pos_bound; lia).
      rewrite Z.div_div by lia. rewrite Z.div_mul_cancel_r by lia. lia. }
    assert (R3 : 2 * h / 2 = h) by (apply div_eq with 0; lia).
    rewrite R1, R2, R3.
    (* digits *)
    assert (VV : dval b * 10 ^ nd + (A / Q) mod 10 ^ nd = A / Q).
    { rewrite Vb. assert (EP : A = c * 10 ^ (19 * j) * 10 ^ nd).
      { unfold A. rewrite <- Z.mul_assoc, <- Z.pow_add_r by lia. do 2 f_equal. lia. }
      rewrite EP. symmetry. apply next_group; lia. }
    assert (DG : exists ds, (if 0 <? nd then ascii b ++ u64_text ((A / Q) mod 10 ^ nd) nd else ascii b) = ascii ds
       /\ is_dec ds /\ len ds = p /\ dval ds = A / Q).
    { destruct (Z.ltb_spec 0 nd) as [G|G].
      - destruct (u64_text_ok ((A / Q) mod 10 ^ nd) nd) as (ds & E1 & E2 & E3 & E4); [apply Z.mod_pos_bound; lia|lia|].
        exists (b ++ ds). rewrite E1, ascii_app. split; [reflexivity|]. split; [apply is_dec_app; auto|].
        split; [rewrite len_app; lia|]. rewrite dval_app, E3, E4. exact VV.
      - assert (nd = 0) by lia. subst nd. exists b. split; [reflexivity|]. split; [auto|]. split; [lia|].
        change (10 ^ 0) with 1 in VV. rewrite Z.mod_1_r in VV. lia. }
    destruct DG as (ds & EG & Dd & Ld & Vd). rewrite EG. clear EG.
    pose proof (Z.mod_pos_bound A Q PQ) as FB.
    destruct (group_round (A mod Q) Q h PQ Ph ltac:(lia)) as (G1 & G2 & G3).
    destruct (Z.ltb_spec h (A mod Q * (2 * h) / Q)) as [C1|C1].
    { exists ds, Up. rewrite bind_Some. split; [reflexivity|]. unfold round_cond. auto 10. }
    destruct (Z.eqb_spec (A mod Q * (2 * h) / Q) h) as [C2|C2].
    + rewrite subs_ok by lia. rewrite bind_Some. rewrite casts_ok by lia. rewrite subs_ok by lia. rewrite bind_Some.
      rewrite subs_ok by lia. rewrite !bind_Some.
      rewrite (L_tz _ L256) by (change (2 ^ BITS) with (2 ^ 256); lia). change BITS with 256.
      pose proof (ntz_lt 256 c ltac:(lia) ltac:(lia)) as TB. destruct (ntz_spec 256 c ltac:(lia)) as (k & Ek & Hk & Hz).
      rewrite casts_ok by lia. set (z := ntz 256 c) in *. clearbody z.
      pose proof (tie_exact c e p z k ltac:(lia) ltac:(lia) ltac:(lia) Hz Ek) as TE. fold A Q in TE.
      assert (M2 : (2 * A) mod Q = 0 <-> 2 * (A mod Q) = Q).
      { pose proof (Z.div_mod A Q ltac:(lia)) as DA. specialize (G3 C2). split; intros HH.
        - replace (2 * A) with (2 * (A mod Q) + 2 * (A / Q) * Q) in HH by lia. rewrite Z.mod_add in HH by lia.
          replace (2 * (A mod Q)) with (2 * (A mod Q) - Q + 1 * Q) in HH by lia. rewrite Z.mod_add in HH by lia.
          rewrite Z.mod_small in HH by lia. lia.
        - replace (2 * A) with (0 + (2 * (A / Q) + 1) * Q) by lia. rewrite Z.mod_add by lia. apply Z.mod_0_l. lia. }
      rewrite Z.sub_0_l.
      destruct (Z.leb_spec (- e - p - 1) z) as [C3|C3].
      * exists ds, ToEven. split; [reflexivity|]. unfold round_cond. split; auto. split; auto. split; auto. apply M2, TE. lia.
      * exists ds, Up. split; [reflexivity|]. unfold round_cond. split; auto. split; auto. split; auto.
        specialize (G3 C2). assert (2 * (A mod Q) <> Q); [|lia]. intros HH. apply M2, TE in HH. lia.
    + rewrite bind_Some. exists ds, Down. split; [reflexivity|]. unfold round_cond. split; auto. split; auto. split; auto.
      apply G2. lia.
  - (* a chunk with all its digits *)
    assert (VB : 0 <= (c * 10 ^ (19 * (j + 1)) / 2 ^ (- e)) mod 10 ^ 19 < 10 ^ 19) by (apply Z.mod_pos_bound; lia).
    destruct (u64_text_ok _ 19 VB ltac:(lia)) as (ds & E1 & E2 & E3 & E4).
    destruct (IH (j + 1) (b ++ ds)) as (ds' & r & E & R); try lia.
    + apply is_dec_app; auto.
    + rewrite len_app. lia.
    + rewrite dval_app, E3, E4, Vb.
      replace (19 * (j + 1)) with (19 * j + 19) by lia. rewrite Z.pow_add_r by lia. rewrite Z.mul_assoc.
      symmetry. apply next_group; lia.
    + exists ds', r. split; [|exact R]. rewrite <- E. rewrite ascii_app, <- E1.
      change (fract_chunks t (of256 c) e p (p / 19 + 1) i (s - e) (S (S n)) j (ascii b)) with
        (bind (pow10_div_pow2 t i j) (fun y => bind (mul_shift_mod (of256 c) y (s - e)) (fun chunk =>
          fract_chunks t (of256 c) e p (p / 19 + 1) i (s - e) (S n) (j + 1) (ascii b ++ u64_text chunk CHUNK_SIZE)))).
      rewrite EY, bind_Some, CH, bind_Some. reflexivity.
Qed.

Lemma fract_ok t c e p : chunks_ok t -> -319 <= e <= -237 -> 0 < c < 2 ^ 237 -> 0 <= p <= 75 ->
  exists ds r, bin_fract_2_dec_str t (of256 c) e p = Some (ascii ds, r)
    /\ is_dec ds /\ len ds = p /\ dval ds = c * 10 ^ p / 2 ^ (- e) /\ round_cond r (c * 10 ^ p) (2 ^ (- e)).
Proof.
  intros CT He Hc Hp. destruct (proj1 CT e He) as (i & HS). cbv zeta in HS. destruct HS as [ES HE].
  unfold bin_fract_2_dec_str. rewrite castu_ok by lia. unfold CHUNK_SIZE. rewrite ES, bind_Some.
  assert (KB : 273 <= 273 - 32 * (- e / 32) - e <= 304)
    by (pose proof (Z.div_mod (- e) 32 ltac:(lia)); pose proof (Z.mod_pos_bound (- e) 32 ltac:(lia)); lia).
  remember (273 - 32 * (- e / 32)) as s eqn:Es.
  assert (PD : 0 <= p / 19 <= 3) by (split; [apply Z.div_pos; lia|apply Z.lt_succ_r; apply Z.div_lt_upper_bound; lia]).
  rewrite dassert_ok by (apply ltb_true; lia). rewrite bind_Some. rewrite subs_ok by lia. rewrite bind_Some.
  rewrite (castu_ok _ (s - e)) by lia. cbv zeta. destruct (Z.leb_spec (p / 19 + 1) 0); [lia|].
  rewrite mulu_ok by lia. rewrite bind_Some. rewrite subu_ok by lia. rewrite bind_Some. unfold CHUNK_CUTOFF.
  rewrite dassert_ok by (apply leb_true; lia). rewrite bind_Some. rewrite Z.sub_0_r.
  change (zeroes (0 * 19)) with (ascii []).
  replace (Z.to_nat (p / 19 + 1)) with (S (Z.to_nat (p / 19))) by lia.
  apply (fract_chunks_ok t i s c e p CT He Hc Hp Es HE); try lia.
  - constructor.
  - reflexivity.
  - change (10 ^ (19 * 0)) with 1. rewrite Z.mul_1_r. symmetry. apply Z.div_small.
    assert (2 ^ 237 <= 2 ^ (- e)) by (apply Z.pow_le_mono_r; lia). lia.
Qed.

Lemma tiny_ok t c e p : chunks_ok t -> -262615 <= e <= -512 -> 0 <= p <= 75 ->
  bin_fract_2_dec_str t (of256 c) e p = Some (zeroes p, Down).
Proof.
  intros CT He Hp. destruct (proj2 CT e He) as (i & z & s & ES & Hz & Hs).
  unfold bin_fract_2_dec_str. rewrite castu_ok by lia. unfold CHUNK_SIZE. rewrite ES, bind_Some.
  rewrite dassert_ok by (apply ltb_true; lia). rewrite bind_Some. rewrite subs_ok by lia. rewrite bind_Some.
  cbv zeta. assert (PD : p / 19 <= 3) by (apply Z.lt_succ_r; apply Z.div_lt_upper_bound; lia).
  destruct (Z.leb_spec (p / 19 + 1) z); [reflexivity|lia].
Qed.

End Fixed.

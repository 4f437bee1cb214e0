(** * RoundLemmas: normalisation and final rounding shared by mul and div *)

From Coq Require Import ZArith Lia Bool.
From Verif Require Import Base BigUInt ZLemmas BigLaws BigUIntProofs BigExtra F256 Arith
  SpecLemmas F256Lemmas.
Open Scope Z_scope.

Section Round.
Context {P : profile}.

Lemma log2_bound a k : 0 < a < 2 ^ k -> 0 <= Z.log2 a < k.
Proof. intros. split. apply Z.log2_nonneg. apply Z.log2_lt_pow2; lia. Qed.

(** [a] shifted so that its highest bit is bit [k]. *)
Lemma norm_shift_bound a k : 0 < a -> Z.log2 a <= k ->
  2 ^ k <= a * 2 ^ (k - Z.log2 a) < 2 ^ (k + 1).
Proof.
  intros Ha Hk. pose proof (Z.log2_spec a Ha) as [A B]. pose proof (Z.log2_nonneg a) as C.
  rewrite Z.pow_succ_r in B by lia. rewrite pow2_S by lia.
  rewrite (pow2_split (Z.log2 a) k) by lia.
  assert (0 < 2 ^ (k - Z.log2 a)) by (apply pow2_pos; lia).
  set (u := 2 ^ Z.log2 a) in *. set (w := 2 ^ (k - Z.log2 a)) in *. clearbody u w. clear - A B H. nia.
Qed.

Lemma norm_signif_ok a : 0 < a < INFm ->
  norm_signif (of256 a) = Some (of256 (sg a * 2 ^ (236 - Z.log2 (sg a))), 236 - Z.log2 (sg a)).
Proof.
  intros Ha. unfold INFm in Ha. unfold norm_signif.
  pose proof (sg_bound a ltac:(lia)). pose proof (sg_pos a ltac:(lia)).
  pose proof (log2_bound (sg a) 237 ltac:(lia)).
  rewrite is_zero256 by lia. rewrite dassert_ok by (destruct (Z.eqb_spec a 0); [lia|reflexivity]).
  rewrite bind_Some. rewrite signif_of by lia. rewrite msb256 by lia. rewrite bind_Some.
  unfold FRACTION_BITS. rewrite subu_ok by lia. rewrite bind_Some.
  rewrite shift_left_ok by lia. rewrite bind_Some.
  pose proof (norm_shift_bound (sg a) 236 ltac:(lia) ltac:(lia)). change (236 + 1) with 237 in *.
  rewrite Z.mod_small by lia. reflexivity.
Qed.

Lemma left_adj_ok a : 0 < a < INFm ->
  left_adj_signif (of256 a) = Some (of256 (sg a * 2 ^ (255 - Z.log2 (sg a))), 255 - Z.log2 (sg a)).
Proof.
  intros Ha. unfold INFm in Ha. unfold left_adj_signif.
  pose proof (sg_bound a ltac:(lia)). pose proof (sg_pos a ltac:(lia)).
  pose proof (log2_bound (sg a) 237 ltac:(lia)).
  rewrite is_zero256 by lia. rewrite dassert_ok by (destruct (Z.eqb_spec a 0); [lia|reflexivity]).
  rewrite bind_Some. rewrite signif_of by lia. rewrite lz256 by lia.
  unfold nlz. destruct (Z.eqb_spec (sg a) 0); [lia|].
  change (256 - 1) with 255.
  rewrite shift_left_ok by lia. rewrite bind_Some.
  pose proof (norm_shift_bound (sg a) 255 ltac:(lia) ltac:(lia)). change (255 + 1) with 256 in *.
  rewrite Z.mod_small by lia. reflexivity.
Qed.

(** Rounding decision from two bits, the lower one sticky. *)
Definition rup (r : Z) (odd : bool) : bool := (2 <? r) || ((r =? 2) && odd).

Lemma rne_div4 S : rne_div S (2 ^ 2) = S / 4 + b2z (rup (S mod 4) (Z.odd (S / 4))).
Proof.
  pose proof (Z.div_mod S 4 ltac:(lia)). pose proof (Z.mod_pos_bound S 4 ltac:(lia)).
  rewrite (rne_div_pow2_bits S 2 (S / 4) (S mod 4)) by (change (2 ^ 2) with 4; lia).
  unfold rup. change (2 ^ (2 - 1)) with 2. destruct (_ || _); cbn [b2z]; lia.
Qed.

Lemma round2_ok w s r : 0 <= w -> w + 1 < 2 ^ 255 -> (s = 0 \/ s = 1) ->
  round2 (or_hi (of256 w) (s * 2 ^ 127)) r = of256 (s * 2 ^ 255 + (w + b2z (rup r (Z.odd w)))).
Proof.
  intros Hw H Hs. rewrite or_hi_sign by lia. unfold round2. fold (rup r (is_odd (lo (of256 (s * 2 ^ 255 + w))))).
  rewrite odd_lo by (destruct Hs; subst s; lia).
  replace (Z.odd (s * 2 ^ 255 + w)) with (Z.odd w).
  2: { rewrite Z.odd_add, Z.odd_mul. change (Z.odd (2 ^ 255)) with false. rewrite andb_false_r. destruct (Z.odd w); reflexivity. }
  destruct (rup r (Z.odd w)); cbn [b2z].
  - rewrite incr256 by (destruct Hs; subst s; lia). f_equal. lia.
  - f_equal. lia.
Qed.

(** The two rounding bits of z 2^-sh with the sticky information c. *)
Lemma shr_sticky_4 z c sh : 0 <= z -> 0 <= c < 4 -> 1 <= sh ->
  shr_sticky (4 * z + c) sh / 4 = z / 2 ^ sh
  /\ forall o, rup (shr_sticky (4 * z + c) sh mod 4) o
     = rup (2 * b2z (2 ^ (sh - 1) <=? z mod 2 ^ sh)
            + b2z ((2 ^ (sh - 1) <? z mod 2 ^ sh) || negb (c =? 0))) o.
Proof.
  intros Hz Hc Hs. pose proof (pow2_pos (sh - 1) ltac:(lia)) as Pt.
  assert (E2 : 2 ^ sh = 2 * 2 ^ (sh - 1)) by (rewrite <- pow2_S by lia; f_equal; lia).
  set (t := 2 ^ (sh - 1)) in *.
  (* S = 4z + c = q (4 * 2^sh) ... *)
  pose proof (Z.div_mod z (2 ^ sh) ltac:(lia)) as Dz. pose proof (Z.mod_pos_bound z (2 ^ sh) ltac:(lia)) as Bz.
  set (q := z / 2 ^ sh) in *. set (r := z mod 2 ^ sh) in *.
  set (S := 4 * z + c).
  assert (HS : S = (4 * q) * 2 ^ sh + (4 * r + c)) by (unfold S; lia).
  pose proof (Z.div_mod (4 * r + c) (2 ^ sh) ltac:(lia)) as Du. pose proof (Z.mod_pos_bound (4 * r + c) (2 ^ sh) ltac:(lia)) as Bu.
  set (u := (4 * r + c) / 2 ^ sh) in *. set (l := (4 * r + c) mod 2 ^ sh) in *.
  assert (Hu : 0 <= u < 4).
  { split. apply Z.div_pos; lia. apply Z.div_lt_upper_bound; lia. }
  assert (D1 : S / 2 ^ sh = 4 * q + u) by (apply div_eq with l; lia).
  assert (D2 : S mod 2 ^ sh = l) by (apply mod_eq with (4 * q + u); lia).
  unfold shr_sticky. rewrite D1, D2.
  pose proof (Z.div_mod u 2 ltac:(lia)) as Du2. pose proof (Z.mod_pos_bound u 2 ltac:(lia)) as Bu2.
  assert (Dq : (4 * q + u) / 2 = 2 * q + u / 2) by (apply div_eq with (u mod 2); lia).
  rewrite Dq.
  assert (Hu2 : 0 <= u / 2 < 2) by (split; [apply Z.div_pos|apply Z.div_lt_upper_bound]; lia).
  set (v := u / 2) in *. set (b := u mod 2) in *.
  assert (X : (if l =? 0 then 4 * q + u else 2 * (2 * q + v) + 1) = 4 * q + (if l =? 0 then u else 2 * v + 1)).
  { destruct (l =? 0); ring. }
  rewrite X.
  assert (Y : 0 <= (if l =? 0 then u else 2 * v + 1) < 4) by (destruct (l =? 0); lia).
  split. { apply div_eq with (if l =? 0 then u else 2 * v + 1); lia. }
  intros o. rewrite (mod_eq _ 4 q (if l =? 0 then u else 2 * v + 1)) by lia.
  clearbody q r u l v b S t. rewrite E2 in *. clear X Y D1 D2 HS Dq.
  clear E2 Dz Hz Hs z sh. unfold rup.
  assert (U : u = 0 /\ v = 0 \/ u = 1 /\ v = 0 \/ u = 2 /\ v = 1 \/ u = 3 /\ v = 1) by lia.
  clear Du2 Bu2 Hu Hu2 b.
  destruct (Z.leb_spec t r), (Z.ltb_spec t r), (Z.eqb_spec c 0), (Z.eqb_spec l 0); cbn [b2z orb negb Z.mul Z.add];
    destruct U as [[-> ->]|[[-> ->]|[[-> ->]|[-> ->]]]];
    try (exfalso; lia); try reflexivity.
Qed.

Lemma lor_small a b : 0 <= a < 4 -> 0 <= b <= 1 -> Z.lor a b = if b =? 0 then a else 2 * (a / 2) + 1.
Proof.
  intros Ha Hb. destruct (Z.eqb_spec b 0) as [->|]. apply Z.lor_0_r.
  replace b with 1 by lia. apply lor_1. lia.
Qed.

Lemma b2z_bound b : 0 <= b2z b <= 1. Proof. destruct b; cbn; lia. Qed.

Lemma rnd_bits_or r t (c : bool) o : 0 < t -> 0 <= r < 2 * t -> forall k, 2 * k = t \/ (t = 1 /\ False) ->
  rup (Z.lor (Z.lor (r / k) (b2z (t <? r))) (b2z c)) o
  = rup (2 * b2z (t <=? r) + b2z ((t <? r) || c)) o.
Proof.
  intros Ht Hr k [Hk|[_ []]]. subst t.
  pose proof (Z.div_mod r k ltac:(lia)) as D. pose proof (Z.mod_pos_bound r k ltac:(lia)) as B.
  assert (Hq : 0 <= r / k < 4) by (split; [apply Z.div_pos|apply Z.div_lt_upper_bound]; lia).
  set (q := r / k) in *. set (l := r mod k) in *. clearbody q l.
  assert (U : q = 0 \/ q = 1 \/ q = 2 \/ q = 3) by lia.
  destruct (Z.leb_spec (2 * k) r), (Z.ltb_spec (2 * k) r), c;
    destruct U as [->|[->|[->| ->]]]; try (exfalso; lia); reflexivity.
Qed.

Lemma adjust_ok z c sh : 0 <= z < 2 ^ 237 -> 0 <= c < 4 -> 1 <= sh <= 238 ->
  exists r, adjust_rnd_bits (of256 z) c sh = Some r
  /\ forall o, rup r o = rup (shr_sticky (4 * z + c) sh mod 4) o.
Proof.
  intros Hz Hc Hs. destruct (shr_sticky_4 z c sh ltac:(lia) Hc ltac:(lia)) as [_ HR].
  unfold adjust_rnd_bits.
  pose proof (pow2_pos (sh - 1) ltac:(lia)) as Pt.
  assert (E2 : 2 ^ sh = 2 * 2 ^ (sh - 1)) by (rewrite <- pow2_S by lia; f_equal; lia).
  pose proof (Z.mod_pos_bound z (2 ^ sh) ltac:(lia)) as Bz.
  destruct (Z.eqb_spec sh 1) as [->|N1].
  { eexists. split. reflexivity. intros o. rewrite HR.
    change 1 with (2 ^ 1 - 1) at 1. rewrite xlo_land by lia. change (2 ^ (1 - 1)) with 1. change (2 ^ 1) with 2 in *.
    assert (C : z mod 2 = 0 \/ z mod 2 = 1) by lia. destruct C as [-> | ->], (Z.eqb_spec c 0); destruct o; reflexivity. }
  destruct (Z.eqb_spec sh 2) as [->|N2].
  { eexists. split. reflexivity. intros o. rewrite HR.
    change 3 with (2 ^ 2 - 1) at 1. rewrite xlo_land by lia. change (2 ^ (2 - 1)) with 2. change (2 ^ 2) with 4 in *.
    assert (C : z mod 4 = 0 \/ z mod 4 = 1 \/ z mod 4 = 2 \/ z mod 4 = 3) by lia.
    destruct C as [-> |[-> |[-> | ->]]], (Z.eqb_spec c 0); destruct o; reflexivity. }
  assert (E4 : 2 ^ (sh - 1) = 2 * 2 ^ (sh - 2)) by (rewrite <- pow2_S by lia; f_equal; lia).
  assert (Pk : 0 < 2 ^ (sh - 2)) by (apply pow2_pos; lia).
  assert (Hq : 0 <= z mod 2 ^ sh / 2 ^ (sh - 2) < 4) by (split; [apply Z.div_pos|apply Z.div_lt_upper_bound]; lia).
  rewrite leb_true by lia. cbn [andb].
  rewrite rem_pow2_256 by lia.
  destruct (Z.leb_spec sh 127) as [C|C].
  - rewrite bind_Some. rewrite xlo_of.
    assert (2 ^ sh <= 2 ^ 127) by (apply pow2_le; lia).
    rewrite (Z.mod_small (z mod 2 ^ sh) (2 ^ 128)) by lia.
    rewrite !subu_ok by lia. rewrite !bind_Some. rewrite shru_ok, shlu_ok by lia. rewrite !bind_Some.
    rewrite Z.mul_1_l, (Z.mod_small (2 ^ (sh - 1))) by lia.
    eexists. split. reflexivity. intros o. rewrite HR. rewrite castu_ok by lia.
    apply rnd_bits_or; lia.
  - rewrite bind_Some. assert (2 ^ sh <= 2 ^ 238) by (apply pow2_le; lia).
    rewrite !subu_ok by lia. rewrite !bind_Some. rewrite shr256 by lia. rewrite !bind_Some.
    change uint_one with (of256 1). rewrite shl256s by lia. rewrite bind_Some.
    eexists. split. reflexivity. intros o. rewrite HR. rewrite xlo_of.
    rewrite (Z.mod_small _ (2 ^ 128)) by lia. rewrite castu_ok by lia.
    rewrite ugt256 by lia. rewrite Z.mul_1_l.
    apply rnd_bits_or; lia.
Qed.

(** The final assembly followed by rounding. *)
Lemma assemble_ok z e r s : 0 <= z -> 0 <= e -> z + e * 2 ^ 236 + 1 < 2 ^ 255 -> (s = 0 \/ s = 1) ->
  (let! h := addu 128 (xhi (of256 z)) (shlc 128 e HI_FRACTION_BITS) in
   Some (round2 (or_hi (u256 h (xlo (of256 z))) (s * 2 ^ 127)) r))
  = Some (of256 (s * 2 ^ 255 + (e * 2 ^ 236 + z + b2z (rup r (Z.odd z))))).
Proof.
  intros Hz He H Hs. pose proof (asm_add z e Hz He ltac:(lia)) as A.
  destruct (addu _ _ _) as [h|]; cbn [bind] in *; [|discriminate]. apply (f_equal (fun o => match o with Some x => x | None => of256 0 end)) in A. rewrite A.
  rewrite round2_ok by lia. do 5 f_equal.
  rewrite Z.odd_add, Z.odd_mul. change (Z.odd (2 ^ 236)) with false. rewrite andb_false_r. destruct (Z.odd z); reflexivity.
Qed.

Lemma sign_xor vx vy : 0 <= vx < 2 ^ 256 -> 0 <= vy < 2 ^ 256 ->
  Z.land (Z.lxor (xhi (of256 vx)) (xhi (of256 vy))) HI_SIGN_MASK = xors (sgn vx) (sgn vy) * 2 ^ 127.
Proof.
  intros Hx Hy. rewrite !xhi_of. unfold HI_SIGN_MASK.
  assert (Bx : 0 <= vx / 2 ^ 128 < 2 ^ 128) by (apply div_bound; [lia|]; change (2 ^ 128 * 2 ^ 128) with (2 ^ 256); lia).
  assert (By : 0 <= vy / 2 ^ 128 < 2 ^ 128) by (apply div_bound; [lia|]; change (2 ^ 128 * 2 ^ 128) with (2 ^ 256); lia).
  assert (Hxy : Z.land (Z.lxor (vx / 2 ^ 128) (vy / 2 ^ 128)) (2 ^ 127)
    = Z.lxor (Z.land (vx / 2 ^ 128) (2 ^ 127)) (Z.land (vy / 2 ^ 128) (2 ^ 127))).
  { apply Z.bits_inj'. intros k Hk. rewrite ?Z.land_spec, ?Z.lxor_spec, ?Z.land_spec.
    destruct (Z.testbit (2 ^ 127) k); rewrite ?andb_true_r, ?andb_false_r; reflexivity. }
  rewrite Hxy, !land_sign by auto. rewrite !Z.div_div by lia. change (2 ^ 128 * 2 ^ 127) with (2 ^ 255).
  fold (sgn vx) (sgn vy). unfold xors.
  destruct (mkf_split vx Hx) as (_ & Sx & _). destruct (mkf_split vy Hy) as (_ & Sy & _).
  destruct Sx as [-> | ->], Sy as [-> | ->]; reflexivity.
Qed.

End Round.

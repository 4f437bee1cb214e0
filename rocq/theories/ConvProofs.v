(** * ConvProofs: conversions from integers and floats are exact *)

From Coq Require Import ZArith Bool List Lia.
From Verif Require Import Base BigUInt ZLemmas BigLaws BigUIntProofs Spec SpecFns BigExtra F256 Arith SpecLemmas
  F256Lemmas BasicProofs CodecProofs SpecAlg Interface LiftProofs LiftAlg SpecConv Conv.
Open Scope Z_scope.

(** The magnitude of c * 2^k units, for c below 2^237 *)
Definition xmag (c k : Z) : Z := (k + Z.log2 c - 236) * 2 ^ 236 + c * 2 ^ (236 - Z.log2 c).

Lemma xmag_ok c k : 0 < c < 2 ^ 237 -> 236 <= k + Z.log2 c -> k + Z.log2 c <= 524521 ->
  0 <= xmag c k < INFm /\ (0 <= k -> mag_val (xmag c k) = c * 2 ^ k).
Proof.
  intros Hc Hk Hk2. destruct (Z.log2_spec c ltac:(lia)) as [L1 L2]. pose proof (Z.log2_nonneg c) as L0.
  assert (L3 : Z.log2 c < 237) by (apply Z.log2_lt_pow2; lia).
  unfold xmag. set (L := Z.log2 c) in *. clearbody L. 
  assert (M : 2 ^ 236 <= c * 2 ^ (236 - L) < 2 ^ 237).
  { replace (2 ^ 236) with (2 ^ L * 2 ^ (236 - L)) at 1 by (rewrite <- pow2_add by lia; f_equal; lia).
    replace (2 ^ 237) with (2 ^ (Z.succ L) * 2 ^ (236 - L)) by (rewrite <- pow2_add by lia; f_equal; lia).
    pose proof (pow2_pos (236 - L) ltac:(lia)). nia. }
  split. unfold INFm. lia. intros Hk0. rewrite mag_val_any by lia. rewrite <- Z.mul_assoc, <- pow2_add by lia. do 2 f_equal. lia.
Qed.

Section C.
Context {P : profile}.

Lemma new_int s i c : (s = 0 \/ s = 1) -> 0 < i < 2 ^ 237 -> c = i * 2 ^ (236 - Z.log2 i) ->
  new s (Z.log2 i) (of256 c) = Some (of256 (mkf s (xmag i 262378))).
Proof.
  intros Hs Hi ->. destruct (Z.log2_spec i ltac:(lia)) as [L1 L2]. pose proof (Z.log2_nonneg i) as L0.
  assert (L3 : Z.log2 i < 237) by (apply Z.log2_lt_pow2; lia).
  unfold xmag. set (L := Z.log2 i) in *. clearbody L.
  assert (M : 2 ^ 236 <= i * 2 ^ (236 - L) < 2 ^ 237).
  { replace (2 ^ 236) with (2 ^ L * 2 ^ (236 - L)) at 1 by (rewrite <- pow2_add by lia; f_equal; lia).
    replace (2 ^ 237) with (2 ^ (Z.succ L) * 2 ^ (236 - L)) by (rewrite <- pow2_add by lia; f_equal; lia).
    pose proof (pow2_pos (236 - L) ltac:(lia)). nia. }
  rewrite new_ok by (auto; lia). do 3 f_equal.
  rewrite (mod_eq (i * 2 ^ (236 - L)) (2 ^ 236) 1 (i * 2 ^ (236 - L) - 2 ^ 236)) by lia. lia.
Qed.

Definition int_conv (i : Z) (m : option f256) : Prop :=
  returns_in m (fun r => finb r = true /\ sval r = i * U1 /\ (i = 0 -> r = 0)).

Lemma sval_mkf s m : (s = 0 \/ s = 1) -> 0 <= m < 2 ^ 255 -> sval (mkf s m) = (1 - 2 * s) * mag_val m.
Proof. intros Hs Hm. unfold sval. rewrite sgn_mkf, mag_mkf by auto. reflexivity. Qed.

Lemma int_conv_k i m s k : k = 262378 -> i <> 0 -> Z.abs i < 2 ^ 237 -> s = b2z (i <? 0) ->
  m = Some (of256 (mkf s (xmag (Z.abs i) k))) -> 
  returns_in m (fun r => finb r = true /\ sval r = i * 2 ^ k /\ (i = 0 -> r = 0)).
Proof.
  intros Hk Hi Hl Es ->.
  assert (L3 : Z.log2 (Z.abs i) < 237) by (apply Z.log2_lt_pow2; lia). pose proof (Z.log2_nonneg (Z.abs i)).
  destruct (xmag_ok (Z.abs i) k ltac:(lia) ltac:(lia) ltac:(lia)) as [X1 X2]. specialize (X2 ltac:(lia)).
  pose proof INFm_lt as Hinf.
  assert (Hs : s = 0 \/ s = 1) by (subst s; destruct (_ <? _); [right|left]; reflexivity).
  apply returns_in_of. eexists. split. reflexivity. split. apply mkf_bound. exact Hs. lia.
  set (a := xmag (Z.abs i) k) in *. clearbody a.
  split. unfold finb. rewrite mag_mkf by lia. apply Z.ltb_lt. lia.
  split; [|lia]. rewrite sval_mkf by (auto; lia). rewrite X2. generalize (2 ^ k). intros u. subst s.
  destruct (Z.ltb_spec i 0); cbn [b2z]. rewrite Z.abs_neq by lia. ring. rewrite Z.abs_eq by lia. ring.
Qed.

Lemma int_conv_of i m s : i <> 0 -> Z.abs i < 2 ^ 237 -> s = b2z (i <? 0) ->
  m = Some (of256 (mkf s (xmag (Z.abs i) 262378))) -> int_conv i m.
Proof. exact (int_conv_k i m s 262378 eq_refl). Qed.

Lemma int_conv_0 : int_conv 0 (Some ZERO).
Proof.
  apply returns_in_of. exists 0. split. reflexivity. split. lia. split. reflexivity. split; [|auto].
  rewrite Z.mul_0_l. vm_compute. reflexivity.
Qed.

Lemma conv_hi j : 0 < j < 2 ^ 108 ->
  u256 ((j * 2 ^ (108 - Z.log2 j)) mod 2 ^ 128) 0 = of256 (j * 2 ^ (236 - Z.log2 j)).
Proof.
  intros Hj. destruct (Z.log2_spec j ltac:(lia)) as [L1 L2]. pose proof (Z.log2_nonneg j) as L0.
  assert (L3 : Z.log2 j < 108) by (apply Z.log2_lt_pow2; lia). set (L := Z.log2 j) in *. clearbody L.
  assert (j * 2 ^ (108 - L) < 2 ^ 109).
  { replace (2 ^ 109) with (2 ^ (Z.succ L) * 2 ^ (108 - L)) by (rewrite <- pow2_add by lia; f_equal; lia).
    pose proof (pow2_pos (108 - L) ltac:(lia)). nia. }
  pose proof (pow2_pos (108 - L) ltac:(lia)).
  rewrite Z.mod_small by nia. rewrite <- of256_eq by lia. f_equal.
  replace (236 - L) with (108 - L + 128) by lia. rewrite pow2_add by lia. ring.
Qed.

Lemma conv_64 i (s := b2z (i <? 0)) : i <> 0 -> Z.abs i < 2 ^ 64 ->
  int_conv i (let! msb := subu 32 127 (nlz 128 (Z.abs i)) in
    let! sh := subu 32 HI_FRACTION_BITS msb in
    let! h := shlu 128 (Z.abs i) sh in
    new s (casts 32 msb) (u256 h 0)).
Proof.
  intros Hi Hl. assert (L3 : Z.log2 (Z.abs i) < 64) by (apply Z.log2_lt_pow2; lia). pose proof (Z.log2_nonneg (Z.abs i)) as L0.
  unfold nlz. destruct (Z.eqb_spec (Z.abs i) 0); [lia|].
  rewrite subu_ok by lia. rewrite bind_Some. unfold HI_FRACTION_BITS. rewrite subu_ok by lia. rewrite bind_Some.
  rewrite shlu_ok by lia. rewrite bind_Some.
  replace (127 - (128 - 1 - Z.log2 (Z.abs i))) with (Z.log2 (Z.abs i)) by lia.
  unfold casts. rewrite wraps_ok by lia. rewrite conv_hi by lia.
  apply int_conv_of with s; auto. lia. apply new_int; auto. unfold s; destruct (_ <? _); auto. lia.
Qed.

Lemma conv_256 i j (s := b2z (i <? 0)) : i <> 0 -> Z.abs i = j -> j < 2 ^ 237 ->
  int_conv i (let! sh := subu 32 FRACTION_BITS (Z.log2 j) in
    let! c := shift_left (of256 j) sh in
    new s (casts 32 (Z.log2 j)) c).
Proof.
  intros Hi <- Hl. assert (L3 : Z.log2 (Z.abs i) < 237) by (apply Z.log2_lt_pow2; lia). pose proof (Z.log2_nonneg (Z.abs i)) as L0.
  unfold FRACTION_BITS. rewrite subu_ok by lia. rewrite bind_Some. rewrite shift_left_ok by lia. rewrite bind_Some.
  destruct (Z.log2_spec (Z.abs i) ltac:(lia)) as [L1 L2].
  rewrite Z.mod_small.
  2: { pose proof (pow2_pos (236 - Z.log2 (Z.abs i)) ltac:(lia)). split. nia.
       apply Z.lt_trans with (2 ^ 237); [|lia].
       replace (2 ^ 237) with (2 ^ (Z.succ (Z.log2 (Z.abs i))) * 2 ^ (236 - Z.log2 (Z.abs i))) by (rewrite <- pow2_add by lia; f_equal; lia). nia. }
  unfold casts. rewrite wraps_ok by lia.
  apply int_conv_of with s; auto. apply new_int; auto. unfold s; destruct (_ <? _); auto. lia.
Qed.

Lemma K_i64 i : - 2 ^ 63 <= i < 2 ^ 63 -> int_conv i (from_i64 i).
Proof.
  intros H. unfold from_i64. destruct (Z.eqb_spec i 0) as [->|N]. apply int_conv_0. apply (conv_64 i); auto. lia.
Qed.
Lemma K_u64 i : 0 <= i < 2 ^ 64 -> int_conv i (from_u64 i).
Proof.
  intros H. unfold from_u64. destruct (Z.eqb_spec i 0) as [->|N]. apply int_conv_0.
  pose proof (conv_64 i N ltac:(lia)) as K. rewrite Z.abs_eq in K by lia.
  replace (i <? 0) with false in K by (symmetry; apply Z.ltb_ge; lia). exact K.
Qed.

Lemma K_i128 i : - 2 ^ 127 <= i < 2 ^ 127 -> int_conv i (from_i128 i).
Proof.
  intros H. unfold from_i128. destruct (Z.eqb_spec i 0) as [->|N]. apply int_conv_0.
  assert (E : (if i =? - 2 ^ 127 then castu 128 i else Z.abs i) = Z.abs i).
  { destruct (Z.eqb_spec i (- 2 ^ 127)) as [->|]; reflexivity. }
  cbv zeta. rewrite E. clear E.
  assert (L3 : Z.log2 (Z.abs i) < 128) by (apply Z.log2_lt_pow2; lia). pose proof (Z.log2_nonneg (Z.abs i)) as L0.
  unfold nlz. destruct (Z.eqb_spec (Z.abs i) 0); [lia|].
  rewrite subu_ok by lia. rewrite bind_Some. replace (127 - (128 - 1 - Z.log2 (Z.abs i))) with (Z.log2 (Z.abs i)) by lia.
  change (u256 0 (Z.abs i)) with (u256 0 (Z.abs i)). rewrite <- of256_eq by lia. change (0 * 2 ^ 128 + Z.abs i) with (Z.abs i).
  apply (conv_256 i (Z.abs i)); auto. lia.
Qed.

Lemma K_u128 i : 0 <= i < 2 ^ 128 -> int_conv i (from_u128 i).
Proof.
  intros H. unfold from_u128. destruct (Z.eqb_spec i 0) as [->|N]. apply int_conv_0.
  assert (L3 : Z.log2 i < 128) by (apply Z.log2_lt_pow2; lia). pose proof (Z.log2_nonneg i) as L0.
  unfold nlz. destruct (Z.eqb_spec i 0); [lia|].
  rewrite subu_ok by lia. rewrite bind_Some. replace (127 - (128 - 1 - Z.log2 i)) with (Z.log2 i) by lia.
  rewrite <- of256_eq by lia. change (0 * 2 ^ 128 + i) with i.
  pose proof (conv_256 i i N ltac:(lia) ltac:(lia)) as K.
  replace (i <? 0) with false in K by (symmetry; apply Z.ltb_ge; lia). exact K.
Qed.

Lemma K_prim t i : fst (prim_range t) <= i < snd (prim_range t) -> int_conv i (from_prim t i).
Proof.
  destruct t; cbn [prim_range fst snd from_prim]; intros H;
  first [apply K_i64; lia | apply K_i128; lia | apply K_u64; lia | apply K_u128; lia].
Qed.

Lemma K_u256 x : wf256 x -> v256 x < 2 ^ 237 -> int_conv (v256 x) (from_u256 x).
Proof.
  intros W Hl. pose proof (v256_bound x W) as H. rewrite <- (of256_v256 x W). rewrite v256_of. set (v := v256 x) in *. clearbody v. unfold from_u256.
  rewrite dassert_ok.
  2: { apply Z.leb_le. unfold EXP_BITS. rewrite xhi_of. unfold nlz. destruct (Z.eqb_spec (v / 2 ^ 128) 0). lia.
       assert (v / 2 ^ 128 < 2 ^ 109) by (apply Z.div_lt_upper_bound; lia).
       assert (0 <= v / 2 ^ 128) by (apply Z.div_pos; lia).
       assert (Z.log2 (v / 2 ^ 128) < 109) by (apply Z.log2_lt_pow2; lia). lia. }
  rewrite bind_Some, is_zero256 by lia. destruct (Z.eqb_spec v 0) as [->|N]. apply int_conv_0.
  rewrite (D_msb of256 L256 v) by (change (2 ^ BITS) with (2 ^ 256); lia). rewrite bind_Some.
  pose proof (conv_256 v v N ltac:(lia) ltac:(lia)) as K.
  replace (v <? 0) with false in K by (symmetry; apply Z.ltb_ge; lia). exact K.
Qed.

(** Injectivity *)
Lemma K_inj t i j x : fst (prim_range t) <= i < snd (prim_range t) -> fst (prim_range t) <= j < snd (prim_range t) ->
  from_prim t i = Some x -> from_prim t j = Some x -> i = j.
Proof.
  intros Hi Hj Ei Ej. destruct (K_prim t i Hi) as (z & E & _ & _ & V & _). destruct (K_prim t j Hj) as (z' & E' & _ & _ & V' & _).
  rewrite Ei in E. rewrite Ej in E'. injection E as <-. injection E' as <-. rewrite V in V'. 
  revert V'. unfold U1, UNITe. pose proof (pow2_pos 262378 ltac:(lia)) as Q. revert Q. generalize (2 ^ 262378). intros u Q V'.
  apply Z.mul_reg_r with u; lia.
Qed.

(** ** f32 and f64 *)

Lemma enc_exact s t c : (s = 0 \/ s = 1) -> 0 < c < 2 ^ 128 -> -2000 <= t <= 2000 ->
  encode s t (u256 0 c) = Some (of256 (mkf s (xmag c (t + UNITe)))) /\ 0 <= xmag c (t + UNITe) < INFm
  /\ mag_val (xmag c (t + UNITe)) = c * 2 ^ (t + UNITe).
Proof.
  intros Hs Hc Ht. assert (L3 : Z.log2 c < 128) by (apply Z.log2_lt_pow2; lia). pose proof (Z.log2_nonneg c) as L0.
  destruct (xmag_ok c (t + UNITe) ltac:(lia) ltac:(unfold UNITe; lia) ltac:(unfold UNITe; lia)) as [X1 X2].
  specialize (X2 ltac:(unfold UNITe; lia)).
  assert (R : rnd_scaled c t = xmag c (t + UNITe)) by (apply rnd_scaled_exact; auto; unfold UNITe; lia).
  split; [|split; auto]. rewrite <- of256_eq by lia. change (0 * 2 ^ 128 + c) with c. rewrite <- R. apply encode_ok; auto. lia.
  rewrite R; lia. left. unfold UNITe; lia.
Qed.

Lemma from_float_ok pl w f b : (pl = 5 /\ w = 8 /\ f = 23 \/ pl = 6 /\ w = 11 /\ f = 52) -> 0 <= b < 2 ^ (1 + w + f) ->
  returns_in (from_float pl b) (same_float w f b).
Proof.
  intros C Hb.
  assert (K : fl_total_bits pl = 1 + w + f /\ fl_fraction_bits pl = f /\ fl_exp_bias_adj pl = 2 ^ (w - 1) - 1 + f
     /\ fl_sign_shift pl = w + f /\ fl_abs_mask pl = 2 ^ 64 - 1 - 2 ^ (w + f) /\ fl_inf pl = (2 ^ w - 1) * 2 ^ f
     /\ fl_fraction_bias pl = 2 ^ f /\ fl_fraction_mask pl = 2 ^ f - 1).
  { destruct C as [(-> & -> & ->)|(-> & -> & ->)]; vm_compute; repeat split. }
  destruct K as (_ & K1 & K2 & K3 & K4 & K5 & K6 & K7).
  assert (R : 8 <= w <= 11 /\ 23 <= f <= 52 /\ w + f <= 63 /\ 2 ^ w <= 2048 /\ 2 ^ (w - 1) <= 1024 /\ 128 <= 2 ^ (w - 1)).
  { destruct C as [(-> & -> & ->)|(-> & -> & ->)]; vm_compute; repeat split; congruence. }
  clear C. destruct R as (R1 & R2 & R3 & R4 & R5 & R6).
  unfold from_float. cbv zeta. rewrite K1, K2, K3, K4, K5, K6, K7.
  pose proof (pow2_pos (w + f) ltac:(lia)) as Pwf. pose proof (pow2_pos f ltac:(lia)) as Pf. pose proof (pow2_pos w ltac:(lia)) as Pw.
  assert (P63 : 2 ^ (w + f) <= 2 ^ 63) by (apply pow2_le; lia).
  assert (P8 : 2 ^ 8 <= 2 ^ w) by (apply pow2_le; lia).
  set (m := b mod 2 ^ (w + f)). assert (Hm : 0 <= m < 2 ^ (w + f)) by (apply Z.mod_pos_bound; lia).
  set (s := b / 2 ^ (w + f)).
  assert (Es : b = s * 2 ^ (w + f) + m) by (unfold s, m; rewrite Z.mul_comm; apply Z.div_mod; lia).
  replace (1 + w + f) with (1 + (w + f)) in Hb by lia. rewrite pow2_add in Hb by lia. change (2 ^ 1) with 2 in Hb.
  assert (Hs : s = 0 \/ s = 1) by nia.
  assert (A : Z.land b (2 ^ 64 - 1 - 2 ^ (w + f)) = m).
  { replace (2 ^ 64 - 1 - 2 ^ (w + f)) with ((2 ^ (64 - (w + f)) - 2) * 2 ^ (w + f) + (2 ^ (w + f) - 1)).
    2: { replace (2 ^ 64) with (2 ^ (64 - (w + f)) * 2 ^ (w + f)) by (rewrite <- pow2_add by lia; f_equal; lia). ring. }
    rewrite Es. rewrite land_split by lia. rewrite land_pow2_ones, Z.mod_small by lia.
    assert (E0 : Z.land s (2 ^ (64 - (w + f)) - 2) = 0).
    { destruct Hs as [-> | ->]. reflexivity.
      rewrite Z.land_comm, land_1.
      replace (64 - (w + f)) with (1 + (63 - (w + f))) by lia. rewrite pow2_add by lia. change (2 ^ 1) with 2.
      replace (2 * 2 ^ (63 - (w + f)) - 2) with ((2 ^ (63 - (w + f)) - 1) * 2) by ring. apply Z.mod_mul. lia. }
    rewrite E0. lia. }
  rewrite A. clear A. rewrite shru_ok by lia. rewrite bind_Some. fold s. rewrite castu_ok by lia.
  set (e := m / 2 ^ f). set (fr := m mod 2 ^ f).
  assert (Em : m = e * 2 ^ f + fr) by (unfold e, fr; rewrite Z.mul_comm; apply Z.div_mod; lia).
  assert (Hfr : 0 <= fr < 2 ^ f) by (apply Z.mod_pos_bound; lia).
  assert (He : 0 <= e < 2 ^ w) by (apply div_bound; rewrite <- ?pow2_add by lia; lia).
  assert (Af : Z.land b (2 ^ f - 1) = fr).
  { rewrite land_pow2_ones by lia. apply mod_eq with (s * 2 ^ w + e); auto. rewrite Es, Em, pow2_add by lia. ring. }
  rewrite Af. assert (P52 : 2 ^ f <= 2 ^ 52) by (apply pow2_le; lia).
  unfold casts. rewrite !wraps_ok by lia.
  assert (SF : forall r, same_float w f b r <-> (sgn r = s /\ if e =? 2 ^ w - 1 then (if fr =? 0 then infb r = true else nanb r = true)
     else finb r = true /\ mag_val (mag r) = (if e =? 0 then fr else 2 ^ f + fr) * 2 ^ (Z.max e 1 - (2 ^ (w - 1) - 1) - f + UNITe))) by (intros; reflexivity).
  assert (B1 : (2 ^ f <=? m) = negb (e =? 0)).
  { destruct (Z.leb_spec (2 ^ f) m), (Z.eqb_spec e 0) as [Q|Q]; try reflexivity; exfalso; clear - H Em Hfr He Q Pf; nia. }
  assert (B2 : (m <? (2 ^ w - 1) * 2 ^ f) = negb (e =? 2 ^ w - 1)).
  { destruct (Z.ltb_spec m ((2 ^ w - 1) * 2 ^ f)), (Z.eqb_spec e (2 ^ w - 1)) as [Q|Q]; try reflexivity; exfalso; clear - H Em Hfr He Q Pf; nia. }
  rewrite B1, B2. pose proof INFm_lt as Hinf.
  assert (ENC : forall t c, 0 < c < 2 ^ 53 -> -2000 <= t <= 2000 -> t = Z.max e 1 - (2 ^ (w - 1) - 1) - f -> e <> 2 ^ w - 1 ->
     c = (if e =? 0 then fr else 2 ^ f + fr) -> returns_in (encode s t (u256 0 c)) (same_float w f b)).
  { intros t c Hc Ht Et Ne Ec. destruct (enc_exact s t c Hs ltac:(lia) Ht) as (E1 & E2 & E3).
    apply returns_in_of. eexists. split. exact E1. split. apply mkf_bound; auto; lia.
    apply SF. rewrite sgn_mkf, mag_mkf by lia. split. auto. destruct (Z.eqb_spec e (2 ^ w - 1)); [contradiction|].
    split. unfold finb. rewrite mag_mkf by lia. apply Z.ltb_lt; lia. rewrite E3, <- Ec, <- Et. reflexivity. }
  assert (PK : forall x y, 0 <= x < 2 ^ 256 -> 0 <= y < 2 ^ 256 -> same_float w f b (if s =? 0 then x else y) ->
      returns_in (pick (of256 x) (of256 y) s) (same_float w f b)).
  { intros x y Hx Hy HQ. apply returns_in_of. exists (if s =? 0 then x else y). split. apply pick_ok; auto.
    split; auto. destruct (s =? 0); auto. }
  destruct (Z.eqb_spec e 0) as [E0|E0]; cbn [negb andb].
  - destruct (Z.eqb_spec m 0) as [M0|M0].
    + assert (fr = 0) by nia. apply (PK 0 (2 ^ 255)); try lia. apply SF.
      replace (e =? 2 ^ w - 1) with false by (symmetry; apply Z.eqb_neq; lia). rewrite E0, H. rewrite Z.mul_0_l.
      clear - Hs. destruct Hs as [-> | ->]; vm_compute; repeat split.
    + replace (m <? 2 ^ f) with true by (symmetry; apply Z.ltb_lt; nia).
      rewrite subs_ok by lia. rewrite bind_Some. apply ENC.
      clear - Em E0 M0 Hfr P52. nia. lia. rewrite E0. change (Z.max 0 1) with 1. lia.
      lia. reflexivity.
  - destruct (Z.eqb_spec e (2 ^ w - 1)) as [E1|E1]; cbn [negb andb].
    + replace (m =? 0) with false by (symmetry; apply Z.eqb_neq; nia).
      replace (m <? 2 ^ f) with false by (symmetry; apply Z.ltb_ge; nia).
      destruct (Z.eqb_spec m ((2 ^ w - 1) * 2 ^ f)) as [M1|M1].
      * assert (fr = 0) by nia. apply (PK INFm (2 ^ 255 + INFm)); try (unfold INFm; lia). apply SF.
        rewrite H.
        clear - Hs. destruct Hs as [-> | ->]; vm_compute; repeat split.
      * assert (fr <> 0) by nia. apply (PK QNAN (2 ^ 255 + QNAN)); try (unfold QNAN; lia). apply SF.
        replace (fr =? 0) with false by (symmetry; apply Z.eqb_neq; auto).
        clear - Hs. destruct Hs as [-> | ->]; vm_compute; repeat split.
    + rewrite shru_ok by lia. rewrite bind_Some. fold e. rewrite !wraps_ok by lia. rewrite subs_ok by lia. rewrite bind_Some.
      assert (LO : Z.lor fr (2 ^ f) = 2 ^ f + fr).
      { rewrite <- (Z.mul_1_l (2 ^ f)) at 1. rewrite lor_add' by lia. lia. }
      rewrite LO. apply ENC; auto. lia. lia. rewrite Z.max_l by lia. lia.
Qed.

Lemma K_f32 b : 0 <= b < 2 ^ 32 -> returns_in (from_f32 b) (same_float 8 23 b).
Proof. intros. apply from_float_ok; auto. Qed.
Lemma K_f64 b : 0 <= b < 2 ^ 64 -> returns_in (from_f64 b) (same_float 11 52 b).
Proof. intros. apply from_float_ok; auto. Qed.

End C.

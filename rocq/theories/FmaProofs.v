(** * FmaProofs: fused multiply-add *)

From Coq Require Import ZArith Lia Bool.
From Verif Require Import Base BigUInt ZLemmas BigLaws BigUIntProofs BigExtra Spec F256 Arith
  SpecLemmas F256Lemmas RoundLemmas AddProofs DivProofs MulProofs BasicProofs.
Open Scope Z_scope.

Section Fma.
Context {P : profile}.

(** ** 768-bit integers *)

Definition of768 (z : Z) : u768 :=
  mk768 (of256 (z / 2 ^ 512)) (of256 (z / 2 ^ 256 mod 2 ^ 256)) (of256 (z mod 2 ^ 256)).

Lemma of768_parts h m l : 0 <= m < 2 ^ 256 -> 0 <= l < 2 ^ 256 ->
  mk768 (of256 h) (of256 m) (of256 l) = of768 (h * 2 ^ 512 + m * 2 ^ 256 + l).
Proof.
  intros Hm Hl. unfold of768.
  change (2 ^ 512) with (2 ^ 256 * 2 ^ 256).
  rewrite (div_eq (h * (2 ^ 256 * 2 ^ 256) + m * 2 ^ 256 + l) (2 ^ 256 * 2 ^ 256) h (m * 2 ^ 256 + l)) by nia.
  rewrite (div_eq (h * (2 ^ 256 * 2 ^ 256) + m * 2 ^ 256 + l) (2 ^ 256) (h * 2 ^ 256 + m) l) by nia.
  rewrite (mod_eq (h * (2 ^ 256 * 2 ^ 256) + m * 2 ^ 256 + l) (2 ^ 256) (h * 2 ^ 256 + m) l) by nia.
  rewrite (mod_eq (h * 2 ^ 256 + m) (2 ^ 256) h m) by lia. reflexivity.
Qed.

Lemma parts768 z : 0 <= z < 2 ^ 768 -> exists h m l, z = h * 2 ^ 512 + m * 2 ^ 256 + l
  /\ 0 <= h < 2 ^ 256 /\ 0 <= m < 2 ^ 256 /\ 0 <= l < 2 ^ 256 /\ of768 z = mk768 (of256 h) (of256 m) (of256 l).
Proof.
  intros Hz. exists (z / 2 ^ 512), (z / 2 ^ 256 mod 2 ^ 256), (z mod 2 ^ 256).
  pose proof (Z.div_mod z (2 ^ 256) ltac:(lia)) as D. pose proof (Z.mod_pos_bound z (2 ^ 256) ltac:(lia)) as B.
  pose proof (Z.div_mod (z / 2 ^ 256) (2 ^ 256) ltac:(lia)) as D2.
  pose proof (Z.mod_pos_bound (z / 2 ^ 256) (2 ^ 256) ltac:(lia)) as B2.
  rewrite Z.div_div in D2 by lia. change (2 ^ 256 * 2 ^ 256) with (2 ^ 512) in D2.
  split. change (2 ^ 512) with (2 ^ 256 * 2 ^ 256) in *. lia.
  split. { apply div_bound. lia. change (2 ^ 512 * 2 ^ 256) with (2 ^ 768). lia. }
  repeat split; try lia.
Qed.

Ltac parts z H h m l E :=
  let Hh := fresh "H" h in let Hm := fresh "H" m in let Hl := fresh "H" l in let O := fresh "O" in
  destruct (parts768 z H) as (h & m & l & E & Hh & Hm & Hl & O); rewrite O; clear O.

Lemma cadd256 a b c : 0 <= a < 2 ^ 256 -> 0 <= b < 2 ^ 256 ->
  carrying_add (of256 a) (of256 b) c = (of256 ((a + b + b2z c) mod 2 ^ 256), 2 ^ 256 <=? a + b + b2z c).
Proof. intros. apply (D_carrying_add _ L256); auto. Qed.
Lemma bsub256 a b c : 0 <= a < 2 ^ 256 -> 0 <= b < 2 ^ 256 ->
  borrowing_sub (of256 a) (of256 b) c = (of256 ((a - b - b2z c) mod 2 ^ 256), a <? b + b2z c).
Proof. intros. apply (D_borrowing_sub _ L256); auto. Qed.
Lemma oadd256 a b : 0 <= a < 2 ^ 256 -> 0 <= b < 2 ^ 256 ->
  oadd (of256 a) (of256 b) = (of256 ((a + b) mod 2 ^ 256), 2 ^ 256 <=? a + b).
Proof. intros. apply (L_oadd _ L256); auto. Qed.
Lemma osub256 a b : 0 <= a < 2 ^ 256 -> 0 <= b < 2 ^ 256 ->
  osub (of256 a) (of256 b) = (of256 ((a - b) mod 2 ^ 256), a <? b).
Proof. intros. apply (L_osub _ L256); auto. Qed.

Lemma mod_carry a M : 0 < M -> 0 <= a < 2 * M -> a = a mod M + M * b2z (M <=? a).
Proof.
  intros HM Ha. destruct (Z.leb_spec M a); cbn [b2z].
  rewrite (mod_eq a M 1 (a - M)) by lia. lia. rewrite Z.mod_small; lia.
Qed.
Lemma mod_borrow a b M : 0 < M -> - M <= a - b < M -> a - b = (a - b) mod M - M * b2z (a <? b).
Proof.
  intros HM Ha. destruct (Z.ltb_spec a b); cbn [b2z].
  rewrite (mod_eq (a - b) M (-1) (a - b + M)) by lia. lia. rewrite Z.mod_small; lia.
Qed.

Lemma iadd_ok a b : 0 <= a < 2 ^ 768 -> 0 <= b < 2 ^ 768 -> a + b < 2 ^ 768 ->
  iadd768 (of768 a) (of768 b) = of768 (a + b).
Proof.
  intros Ha Hb Hab. parts a Ha ah am al Ea. parts b Hb bh bm bl Eb.
  unfold iadd768. cbn [h768 m768 l768].
  rewrite oadd256, cadd256 by auto. rewrite cadd256 by auto.
  pose proof (mod_carry (al + bl) (2 ^ 256) ltac:(lia) ltac:(lia)) as E1.
  set (c := 2 ^ 256 <=? al + bl) in *. pose proof (b2z_bound c) as Bc.
  pose proof (mod_carry (am + bm + b2z c) (2 ^ 256) ltac:(lia) ltac:(lia)) as E2.
  set (c2 := 2 ^ 256 <=? am + bm + b2z c) in *. pose proof (b2z_bound c2) as Bc2.
  set (l := (al + bl) mod 2 ^ 256) in *. set (m := (am + bm + b2z c) mod 2 ^ 256) in *.
  assert (0 <= l < 2 ^ 256) by (apply Z.mod_pos_bound; lia).
  assert (0 <= m < 2 ^ 256) by (apply Z.mod_pos_bound; lia).
  clearbody l m c c2. change (2 ^ 768) with (2 ^ 256 * 2 ^ 512) in *.
  change (2 ^ 512) with (2 ^ 256 * 2 ^ 256) in *.
  rewrite Z.mod_small.
  - rewrite of768_parts by auto. f_equal. subst a b. change (2 ^ 512) with (2 ^ 256 * 2 ^ 256). nia.
  - split. lia. subst a b. nia.
Qed.

Lemma isub_ok a b : 0 <= b <= a -> a < 2 ^ 768 -> isub768 (of768 a) (of768 b) = of768 (a - b).
Proof.
  intros Hb Ha. parts a (conj (Z.le_trans _ _ _ (proj1 Hb) (proj2 Hb)) Ha) ah am al Ea.
  parts b (conj (proj1 Hb) (Z.le_lt_trans _ _ _ (proj2 Hb) Ha)) bh bm bl Eb.
  unfold isub768. cbn [h768 m768 l768].
  rewrite osub256, bsub256 by auto. rewrite bsub256 by auto.
  pose proof (mod_borrow al bl (2 ^ 256) ltac:(lia) ltac:(lia)) as E1.
  set (c := al <? bl) in *. pose proof (b2z_bound c) as Bc.
  pose proof (mod_borrow am (bm + b2z c) (2 ^ 256) ltac:(lia) ltac:(lia)) as E2.
  rewrite Z.sub_add_distr in E2.
  set (c2 := am <? bm + b2z c) in *. pose proof (b2z_bound c2) as Bc2.
  set (l := (al - bl) mod 2 ^ 256) in *. set (m := (am - bm - b2z c) mod 2 ^ 256) in *.
  assert (0 <= l < 2 ^ 256) by (apply Z.mod_pos_bound; lia).
  assert (0 <= m < 2 ^ 256) by (apply Z.mod_pos_bound; lia).
  clearbody l m c c2. change (2 ^ 768) with (2 ^ 256 * 2 ^ 512) in *.
  change (2 ^ 512) with (2 ^ 256 * 2 ^ 256) in *.
  rewrite Z.mod_small.
  - rewrite of768_parts by auto. f_equal. subst a b. change (2 ^ 512) with (2 ^ 256 * 2 ^ 256). nia.
  - subst a b. split; [|lia]. nia.
Qed.

Lemma lz768_ok z : 0 <= z < 2 ^ 768 -> lz768 (of768 z) = nlz 768 z.
Proof.
  intros Hz. parts z Hz h m l E. unfold lz768. cbn [h768 m768 l768].
  rewrite !is_zero256, !lz256 by auto. unfold nlz.
  change (2 ^ 768) with (2 ^ 256 * 2 ^ 512) in *.
  destruct (Z.eqb_spec h 0) as [->|Nh]; cbn [b2z andb].
  - destruct (Z.eqb_spec m 0) as [->|Nm]; cbn [b2z].
    + replace z with l by lia. destruct (Z.eqb_spec l 0); lia.
    + destruct (Z.eqb_spec z 0). lia.
      replace (Z.log2 z) with (256 + Z.log2 m). lia. symmetry.
      pose proof (Z.log2_spec m ltac:(lia)) as [A B]. pose proof (Z.log2_nonneg m).
      apply Z.log2_unique. lia. rewrite <- Z.add_succ_r, !pow2_add by lia. nia.
  - destruct (Z.eqb_spec z 0). nia.
    replace (Z.log2 z) with (512 + Z.log2 h). lia. symmetry.
    pose proof (Z.log2_spec h ltac:(lia)) as [A B]. pose proof (Z.log2_nonneg h).
    apply Z.log2_unique. lia. rewrite <- Z.add_succ_r, !pow2_add by lia.
    change (2 ^ 512) with (2 ^ 256 * 2 ^ 256) in *. nia.
Qed.

Lemma ge768_ok a b : 0 <= a < 2 ^ 768 -> 0 <= b < 2 ^ 768 -> ge768 (of768 a) (of768 b) = (b <=? a).
Proof.
  intros Ha Hb. parts a Ha ah am al Ea. parts b Hb bh bm bl Eb.
  unfold ge768. cbn [h768 m768 l768]. rewrite !ucmp256, uge256 by auto.
  change (2 ^ 512) with (2 ^ 256 * 2 ^ 256) in *.
  destruct (Z.compare_spec ah bh) as [Eh|L|G].
  - destruct (Z.compare_spec am bm) as [Em|L|G].
    + subst. destruct (Z.leb_spec bl al); symmetry; [apply Z.leb_le|apply Z.leb_gt]; lia.
    + symmetry. apply Z.leb_gt. nia.
    + symmetry. apply Z.leb_le. nia.
  - symmetry. apply Z.leb_gt. nia.
  - symmetry. apply Z.leb_le. nia.
Qed.

Lemma wshl256 a n : 0 <= a < 2 ^ 256 -> 0 <= n < 256 ->
  widening_shl (of256 a) n = Some (of256 ((a * 2 ^ n) mod 2 ^ 256), of256 (a / 2 ^ (256 - n))).
Proof. intros. apply (D_widening_shl _ L256); auto. Qed.
Lemma cshl256 a n c : 0 <= a < 2 ^ 256 -> 0 < n < 256 -> 0 <= c < 2 ^ n ->
  carrying_shl (of256 a) n (of256 c) = Some (of256 ((a * 2 ^ n) mod 2 ^ 256 + c), of256 (a / 2 ^ (256 - n))).
Proof. intros. apply (D_carrying_shl _ L256); auto. Qed.

(** One limb shifted left: what stays and what is carried out. *)
Lemma shl_parts a n : 0 <= a < 2 ^ 256 -> 0 <= n <= 256 -> exists q r,
  (a * 2 ^ n) mod 2 ^ 256 = r * 2 ^ n /\ a / 2 ^ (256 - n) = q
  /\ a = q * 2 ^ (256 - n) + r /\ 0 <= r < 2 ^ (256 - n) /\ 0 <= q < 2 ^ n
  /\ 2 ^ 256 = 2 ^ n * 2 ^ (256 - n) /\ 0 < 2 ^ n /\ 0 < 2 ^ (256 - n).
Proof.
  intros Ha Hn. exists (a / 2 ^ (256 - n)), (a mod 2 ^ (256 - n)).
  assert (E : 2 ^ 256 = 2 ^ n * 2 ^ (256 - n)) by (apply pow2_split; lia).
  assert (P1 : 0 < 2 ^ n) by (apply pow2_pos; lia). assert (P2 : 0 < 2 ^ (256 - n)) by (apply pow2_pos; lia).
  pose proof (Z.div_mod a (2 ^ (256 - n)) ltac:(lia)) as D.
  pose proof (Z.mod_pos_bound a (2 ^ (256 - n)) ltac:(lia)) as B.
  assert (0 <= a / 2 ^ (256 - n) < 2 ^ n) by (apply div_bound; nia).
  split. { rewrite E, Z.mul_comm. rewrite Z.mul_mod_distr_l by lia. ring. }
  repeat split; lia.
Qed.

Lemma uint_zero256 : (uint_zero : U256) = of256 0. Proof. reflexivity. Qed.

Lemma part_lt N K r q : 0 < N -> 0 <= r < K -> 0 <= q < N -> 0 <= r * N + q < N * K.
Proof. intros. nia. Qed.
Lemma part_lt0 N K r : 0 < N -> 0 <= r < K -> 0 <= r * N < N * K.
Proof. intros. nia. Qed.
Lemma top_zero h z X : 0 <= h -> 0 < X -> h * X <= z -> z < X -> h = 0.
Proof. intros. nia. Qed.
Lemma lt_of_mul z N A X : A <= N -> 0 < A -> 0 <= X -> z * N < A * X -> z < X.
Proof. intros. destruct (Z_lt_le_dec z X) as [|L]; auto. exfalso. nia. Qed.
Lemma part_zero N K X h q r z : 0 < N -> 0 < K -> 0 < X -> 0 <= q -> 0 <= r -> h = q * K + r -> h * X <= z ->
  z * N < N * K * X -> q = 0.
Proof.
  intros HN HK HX Hq Hr Eh Hz HU. destruct (Z.eq_dec q 0) as [|E]; auto. exfalso.
  assert (K <= h) by (clear - HK Hq Hr Eh E; nia).
  assert (K * X <= z) by (clear - H Hz HX; nia). clear - H0 HN HU. nia.
Qed.

Lemma shl768_ok z n : 0 <= z -> 0 <= n < 768 -> z * 2 ^ n < 2 ^ 768 -> shl768 (of768 z) n = Some (of768 (z * 2 ^ n)).
Proof.
  intros Hz Hn HU. assert (Pn : 0 < 2 ^ n) by (apply pow2_pos; lia).
  assert (Hz' : 0 <= z < 2 ^ 768) by nia.
  unfold shl768. replace (assert (n <? 768)) with (Some tt) by (symmetry; unfold assert; rewrite (proj2 (Z.ltb_lt n 768)) by lia; reflexivity). rewrite bind_Some.
  destruct (Z.eqb_spec n 0) as [->|]. { do 2 f_equal. change (2 ^ 0) with 1. lia. }
  parts z Hz' h m l E. cbn [h768 m768 l768].
  change (2 ^ 768) with (2 ^ 256 * 2 ^ 512) in *.
  destruct (Z.leb_spec n 255).
  { rewrite wshl256 by lia. rewrite bind_Some. cbv beta iota.
    destruct (shl_parts l n Hl ltac:(lia)) as (ql & rl & -> & -> & El & Rl & Ql & EP & _ & Pk).
    rewrite cshl256 by lia. rewrite bind_Some. cbv beta iota.
    destruct (shl_parts m n Hm ltac:(lia)) as (qm & rm & -> & -> & Em & Rm & Qm & _ & _ & _).
    rewrite cshl256 by lia. rewrite bind_Some. cbv beta iota.
    destruct (shl_parts h n Hh ltac:(lia)) as (qh & rh & -> & _ & Eh & Rh & Qh & _ & _ & _).
    rewrite of768_parts by (rewrite EP; first [apply part_lt|apply part_lt0]; assumption). do 2 f_equal.
    assert (Zh : qh = 0).
    { apply (part_zero (2 ^ n) (2 ^ (256 - n)) (2 ^ 512) h qh rh z);
        [assumption|assumption|reflexivity|apply Qh|apply Rh|assumption|lia|rewrite <- EP; exact HU]. }
    subst z h m l qh. change (2 ^ 512) with (2 ^ 256 * 2 ^ 256). rewrite EP. ring. }
  destruct (Z.eqb_spec n 256) as [->|].
  { rewrite uint_zero256. rewrite of768_parts by lia. do 2 f_equal.
    assert (h = 0).
    { apply (top_zero h z (2 ^ 512)); [lia|reflexivity|lia|].
      apply (lt_of_mul z (2 ^ 256) (2 ^ 256) (2 ^ 512)); [lia|reflexivity|lia|exact HU]. }
    subst h. subst z. change (2 ^ 512) with (2 ^ 256 * 2 ^ 256). ring. }
  assert (Eh : h = 0).
  { apply (top_zero h z (2 ^ 512)); [lia|reflexivity|lia|].
    assert (2 ^ 256 < 2 ^ n) by (apply pow2_lt; lia).
    apply (lt_of_mul z (2 ^ n) (2 ^ 256) (2 ^ 512)); [lia|reflexivity|lia|exact HU]. }
  subst h. destruct (Z.leb_spec n 511).
  { cbv zeta. rewrite wshl256 by lia. rewrite bind_Some. cbv beta iota.
    destruct (shl_parts l (n - 256) Hl ltac:(lia)) as (ql & rl & -> & -> & El & Rl & Ql & EP & Pn' & Pk).
    rewrite cshl256 by lia. rewrite bind_Some. cbv beta iota.
    destruct (shl_parts m (n - 256) Hm ltac:(lia)) as (qm & rm & -> & _ & Em & Rm & Qm & _ & _ & _).
    rewrite uint_zero256, of768_parts by (try lia; rewrite EP; first [apply part_lt|apply part_lt0]; assumption). do 2 f_equal.
    assert (En : 2 ^ n = 2 ^ 256 * 2 ^ (n - 256)) by (apply pow2_split; lia). rewrite En in *.
    assert (Zm : qm = 0).
    { apply (part_zero (2 ^ (n - 256)) (2 ^ (256 - (n - 256))) (2 ^ 256) m qm rm z);
        [assumption|assumption|reflexivity|apply Qm|apply Rm|assumption|lia|].
      rewrite <- EP. change (2 ^ 512) with (2 ^ 256 * 2 ^ 256) in HU.
      apply (Z.mul_lt_mono_pos_l (2 ^ 256)); [reflexivity|]. clear - HU. lia. }
    subst z m l qm. change (2 ^ 512) with (2 ^ 256 * 2 ^ 256). rewrite EP. ring. }
  assert (Em : m = 0).
  { apply (top_zero m z (2 ^ 256)); [lia|reflexivity|lia|].
    assert (2 ^ 512 <= 2 ^ n) by (apply pow2_le; lia).
    apply (lt_of_mul z (2 ^ n) (2 ^ 512) (2 ^ 256)); [lia|reflexivity|lia|lia]. }
  subst m. destruct (Z.eqb_spec n 512) as [->|].
  { rewrite uint_zero256. rewrite of768_parts by lia. do 2 f_equal. subst z. ring. }
  assert (En : 2 ^ n = 2 ^ 512 * 2 ^ (n - 512)) by (apply pow2_split; lia). rewrite En in *.
  rewrite shl256s by (try lia; subst z; nia). rewrite bind_Some.
  rewrite uint_zero256. rewrite of768_parts by lia. do 2 f_equal. subst z. ring.
Qed.

(** [from_u256_shifted]: the operand stands [shr] bits below the top limb; bits
    lost below the lowest limb are kept as a sticky bit. *)
Lemma shifted_ok u s : 0 <= u < 2 ^ 256 -> 0 <= s < 768 ->
  from_u256_shifted (of256 u) s = Some (of768 (if s <=? 512 then u * 2 ^ (512 - s) else shr_sticky u (s - 512))).
Proof.
  intros Hu Hs. unfold from_u256_shifted. rewrite dassert_ok by (apply Z.ltb_lt; lia). rewrite bind_Some.
  rewrite uint_zero256.
  destruct (Z.eqb_spec s 0) as [->|].
  { rewrite of768_parts by lia. do 2 f_equal. change (512 - 0) with 512. cbn [Z.leb Z.compare]. lia. }
  destruct (Z.leb_spec s 255).
  { rewrite shr256, shl256 by lia. rewrite !bind_Some. rewrite of768_parts by (try apply Z.mod_pos_bound; lia).
    do 2 f_equal. destruct (Z.leb_spec s 512); [|lia].
    destruct (shl_parts u (256 - s) Hu ltac:(lia)) as (q & r & -> & Eq & E & _ & _ & EP & _ & _).
    replace (256 - (256 - s)) with s in * by lia. rewrite Eq.
    rewrite (pow2_split 256 (512 - s)) by lia. replace (512 - s - 256) with (256 - s) by lia.
    rewrite E. change (2 ^ 512) with (2 ^ 256 * 2 ^ 256). rewrite EP. ring. }
  destruct (Z.eqb_spec s 256) as [->|].
  { rewrite of768_parts by lia. do 2 f_equal. change (512 - 256) with 256. cbn [Z.leb Z.compare Pos.compare Pos.compare_cont]. lia. }
  destruct (Z.leb_spec s 511).
  { rewrite shr256, shl256 by lia. rewrite !bind_Some.
    destruct (shl_parts u (512 - s) Hu ltac:(lia)) as (q & r & -> & Eq & E & R & Q & EP & _ & _).
    replace (256 - (512 - s)) with (s - 256) in * by lia. rewrite Eq.
    assert (0 <= q < 2 ^ 256). { split. lia. nia. }
    rewrite of768_parts by nia.
    do 2 f_equal. destruct (Z.leb_spec s 512); [|lia]. rewrite E. rewrite EP. ring. }
  destruct (Z.eqb_spec s 512) as [->|].
  { rewrite of768_parts by lia. do 2 f_equal. change (512 - 512) with 0. cbn [Z.leb Z.compare Pos.compare Pos.compare_cont]. lia. }
  destruct (Z.leb_spec s 512); [lia|]. destruct (Z.leb_spec s 768); [|lia].
  rewrite shl256 by lia. rewrite bind_Some.
  rewrite is_zero256 by (apply Z.mod_pos_bound; lia). rewrite shr256 by lia. rewrite bind_Some.
  destruct (shl_parts u (256 - (s - 512)) Hu ltac:(lia)) as (q & r & -> & Eq & E & R & Q & EP & PA & PB).
  replace (256 - (256 - (s - 512))) with (s - 512) in * by lia.
  unfold shr_sticky. rewrite Eq. rewrite (mod_eq u (2 ^ (s - 512)) q r) by lia.
  assert (HQ : 0 <= q < 2 ^ 256) by nia.
  rewrite xhi_of, xlo_of.
  assert (X : u256 (q / 2 ^ 128) (Z.lor (q mod 2 ^ 128) (b2z (negb (r * 2 ^ (256 - (s - 512)) =? 0))))
              = of256 (if r =? 0 then q else 2 * (q / 2) + 1)).
  { pose proof (Z.mod_pos_bound q (2 ^ 128) ltac:(lia)). pose proof (Z.div_mod q (2 ^ 128) ltac:(lia)) as D.
    destruct (Z.eqb_spec r 0) as [->|Nr].
    - rewrite Z.mul_0_l. cbn [Z.eqb negb b2z]. rewrite Z.lor_0_r, u256_of by lia. f_equal. lia.
    - replace (r * 2 ^ (256 - (s - 512)) =? 0) with false by (symmetry; apply Z.eqb_neq; nia). cbn [negb b2z].
      rewrite lor_1 by lia. 
      pose proof (Z.div_mod (q mod 2 ^ 128) 2 ltac:(lia)) as D2. pose proof (Z.mod_pos_bound (q mod 2 ^ 128) 2 ltac:(lia)).
      rewrite u256_of by lia. f_equal.
      replace (q / 2) with (q / 2 ^ 128 * 2 ^ 127 + q mod 2 ^ 128 / 2). 2: { symmetry. apply div_eq with (q mod 2 ^ 128 mod 2); lia. }
      change (2 ^ 128) with (2 * 2 ^ 127) at 2. ring. }
  rewrite X.
  set (w := if r =? 0 then q else 2 * (q / 2) + 1).
  assert (0 <= w < 2 ^ 256).
  { unfold w. destruct (r =? 0). auto. pose proof (Z.div_mod q 2 ltac:(lia)). pose proof (Z.mod_pos_bound q 2 ltac:(lia)).
    assert (q / 2 < 2 ^ 255) by (apply Z.div_lt_upper_bound; lia). lia. }
  rewrite of768_parts by lia. do 2 f_equal.
Qed.

(** ** The final rounding *)

Lemma top3 T (c : bool) : 0 <= T < 8 ->
  (4 <? Z.lor T (b2z c)) = (4 <? T) || ((T =? 4) && c) /\ (Z.lor T (b2z c) =? 4) = (T =? 4) && negb c.
Proof.
  intros H. assert (C : T = 0 \/ T = 1 \/ T = 2 \/ T = 3 \/ T = 4 \/ T = 5 \/ T = 6 \/ T = 7) by lia.
  destruct C as [C|[C|[C|[C|[C|[C|[C|C]]]]]]]; rewrite C; destruct c; split; reflexivity.
Qed.

Lemma wshr128 a n : 0 <= a < 2 ^ 128 -> 0 <= n < 128 ->
  widening_shr (of128 a) n = Some (of128 (a / 2 ^ n), of128 ((a * 2 ^ (128 - n)) mod 2 ^ 128)).
Proof. intros. apply (D_widening_shr _ L128); auto. Qed.

Definition fma_tail (z : u768) (e1 shl sgz : Z) : option f256 :=
  let! z := shl768 z shl in
  let! _ := dassert (EXP_BITS <=? leading_zeros (h768 z)) in
  let! (hb, c) := widening_shr (hi (m768 z)) 125 in
  let rnd_bits := Z.lor (castu 32 (val hb))
    (b2z (negb (val c =? 0) || negb (val (lo (m768 z)) =? 0) || negb (is_zero (l768 z)))) in
  let! bh := addu 128 (xhi (h768 z)) (shlc 128 (castu 128 e1) HI_FRACTION_BITS) in
  let bz := u256 bh (xlo (h768 z)) in
  let bz := if (4 <? rnd_bits) || ((rnd_bits =? 4) && is_odd (lo bz)) then incr bz else bz in
  Some (or_hi bz sgz).

Lemma fma_tail_ok z n e1 s : 0 <= z -> 0 <= n < 768 -> z * 2 ^ n < 2 ^ 749 -> 0 <= e1 <= 524285 -> (s = 0 \/ s = 1) ->
  fma_tail (of768 z) e1 n (s * 2 ^ 127) = Some (of256 (mkf s (e1 * 2 ^ 236 + rne_div (z * 2 ^ n) (2 ^ 512)))).
Proof.
  intros Hz Hn HU He Hs. assert (Pn : 0 < 2 ^ n) by (apply pow2_pos; lia).
  assert (L : 2 ^ 749 < 2 ^ 768) by (apply pow2_lt; lia).
  unfold fma_tail. rewrite shl768_ok by lia. rewrite bind_Some.
  assert (HW : 0 <= z * 2 ^ n) by nia. set (w := z * 2 ^ n) in *. clearbody w. clear z n Hz Hn Pn.
  parts w (conj HW (Z.lt_trans _ _ _ HU L)) h m l E. cbn [h768 m768 l768].
  assert (Hh' : h < 2 ^ 237).
  { change (2 ^ 749) with (2 ^ 237 * 2 ^ 512) in HU. clear - HU E Hm Hl. nia. }
  rewrite lz256 by auto. rewrite dassert_ok.
  2: { apply Z.leb_le. unfold nlz, EXP_BITS. destruct (Z.eqb_spec h 0). lia.
       pose proof (log2_bound h 237 ltac:(lia)). lia. }
  rewrite bind_Some. change (hi (of256 m)) with (of128 (m / 2 ^ 128)).
  change (lo (of256 m)) with (of128 (m mod 2 ^ 128)).
  assert (Bm : 0 <= m / 2 ^ 128 < 2 ^ 128) by (apply div_bound; [lia|]; change (2 ^ 128 * 2 ^ 128) with (2 ^ 256); lia).
  rewrite wshr128 by lia. rewrite bind_Some. cbv beta iota zeta. cbn [val].
  rewrite is_zero256 by auto.
  set (c := _ || _ || negb (l =? 0)).
  assert (Bt : 0 <= m / 2 ^ 128 / 2 ^ 125 < 8) by (apply div_bound; [lia|]; change (2 ^ 125 * 8) with (2 ^ 128); lia).
  rewrite (castu_ok 32) by lia. destruct (top3 (m / 2 ^ 128 / 2 ^ 125) c Bt) as [-> ->].
  set (T := m / 2 ^ 128 / 2 ^ 125) in *.
  rewrite (castu_ok 128) by lia.
  pose proof (asm_add h e1 ltac:(lia) ltac:(lia) ltac:(lia)) as A.
  destruct (addu 128 (xhi (of256 h)) (shlc 128 e1 HI_FRACTION_BITS)) as [bh|]; [|discriminate].
  rewrite bind_Some in A |- *. assert (A' : u256 bh (xlo (of256 h)) = of256 (e1 * 2 ^ 236 + h)) by congruence. rewrite A'.
  rewrite odd_lo by lia.
  replace (Z.odd (e1 * 2 ^ 236 + h)) with (Z.odd h).
  2: { rewrite Z.odd_add, Z.odd_mul. change (Z.odd (2 ^ 236)) with false. rewrite andb_false_r. destruct (Z.odd h); reflexivity. }
  rewrite (rne_div_pow2_bits w 512 h (m * 2 ^ 256 + l)) by (try lia; change (2 ^ 512) with (2 ^ 256 * 2 ^ 256) in *; nia).
  change (512 - 1) with 511.
  assert (C : (4 <? T) || (T =? 4) && c || (T =? 4) && negb c && Z.odd h
    = (2 ^ 511 <? m * 2 ^ 256 + l) || ((m * 2 ^ 256 + l =? 2 ^ 511) && Z.odd h)).
  { assert (Ec : c = negb (m mod 2 ^ 253 * 2 ^ 256 + l =? 0)).
    { unfold c. replace ((m / 2 ^ 128 * 2 ^ (128 - 125)) mod 2 ^ 128) with (m / 2 ^ 128 mod 2 ^ 125 * 2 ^ 3).
      2: { symmetry. change (2 ^ (128 - 125)) with (2 ^ 3). change (2 ^ 128) with (2 ^ 125 * 2 ^ 3) at 2.
           rewrite Z.mul_mod_distr_r by lia. reflexivity. }
      rewrite <- div_mod_pow by lia. change (128 + 125) with 253.
      rewrite <- (mod_mod_pow m 128 253) by lia.
      pose proof (Z.mod_pos_bound m (2 ^ 253) ltac:(lia)). set (m' := m mod 2 ^ 253) in *. clearbody m'. clear - H Hl.
      pose proof (Z.div_mod m' (2 ^ 128) ltac:(lia)). pose proof (Z.mod_pos_bound m' (2 ^ 128) ltac:(lia)).
      assert (0 <= m' / 2 ^ 128) by (apply Z.div_pos; lia).
      destruct (Z.eqb_spec (m' / 2 ^ 128 * 2 ^ 3) 0), (Z.eqb_spec (m' mod 2 ^ 128) 0), (Z.eqb_spec l 0), (Z.eqb_spec (m' * 2 ^ 256 + l) 0);
        cbn [negb orb]; auto; lia. }
    rewrite Ec. clear c Ec. assert (ET : T = m / 2 ^ 253) by (unfold T; rewrite Z.div_div by lia; reflexivity).
    rewrite ET in *. clear ET T.
    pose proof (Z.div_mod m (2 ^ 253) ltac:(lia)). pose proof (Z.mod_pos_bound m (2 ^ 253) ltac:(lia)).
    set (t := m / 2 ^ 253) in *. set (r := m mod 2 ^ 253) in *. clearbody t r.
    change (2 ^ 511) with (4 * 2 ^ 253 * 2 ^ 256).
    clear - H H0 Bt Hl.
    destruct (Z.ltb_spec 4 t), (Z.eqb_spec t 4), (Z.eqb_spec (r * 2 ^ 256 + l) 0), (Z.ltb_spec (4 * 2 ^ 253 * 2 ^ 256) (m * 2 ^ 256 + l)),
      (Z.eqb_spec (m * 2 ^ 256 + l) (4 * 2 ^ 253 * 2 ^ 256)); cbn [negb andb orb]; try reflexivity; try (exfalso; nia); lia. }
  rewrite C. set (u := _ || _).
  replace (if u then incr (of256 (e1 * 2 ^ 236 + h)) else of256 (e1 * 2 ^ 236 + h))
    with (of256 (e1 * 2 ^ 236 + (if u then h + 1 else h))).
  2: { destruct u; auto. rewrite incr256 by lia. f_equal. lia. }
  rewrite or_hi_sign. 2: destruct u; lia. reflexivity.
Qed.

(** ** Sum of the product and the aligned addend *)

Definition sg1 (s : Z) : Z := 1 - 2 * s.

Lemma comb_p p A aex M sp sa : 0 < M -> Z.even p = true -> 0 <= p -> 0 <= A <= p -> odd_rep A aex M -> 0 <= aex ->
  (sp = 0 \/ sp = 1) -> (sa = 0 \/ sa = 1) ->
  let W := if sp =? sa then p + A else p - A in
  let V := sg1 sp * (p * M) + sg1 sa * aex in
  odd_rep W (Z.abs V) M /\ (V <> 0 -> (if V <? 0 then 1 else 0) = sp).
Proof.
  intros HM EV Hp HA HO Haex Hsp Hsa W V.
  assert (D : 0 <= p * M - aex).
  { destruct HO as [->|[O B]]. nia.
    assert (A + 1 <= p). { destruct (Z.eq_dec A p) as [->|]; [|lia]. rewrite <- Z.negb_even, EV in O. discriminate. }
    nia. }
  assert (PM : 0 <= p * M) by nia.
  pose proof (odd_rep_add p A aex M HM EV HO) as OA. pose proof (odd_rep_sub p A aex M HM EV HO) as OS.
  unfold W, V, sg1. clear W V.
  destruct Hsp as [->| ->], Hsa as [->| ->]; cbn [Z.eqb Pos.eqb].
  - split. rewrite Z.abs_eq by lia. replace ((1 - 2 * 0) * (p * M) + (1 - 2 * 0) * aex) with (p * M + aex) by ring. auto.
    intros. rewrite ltb_false by lia. auto.
  - split. rewrite Z.abs_eq by lia. replace ((1 - 2 * 0) * (p * M) + (1 - 2 * 1) * aex) with (p * M - aex) by ring. auto.
    intros. rewrite ltb_false by lia. auto.
  - split. rewrite Z.abs_neq by lia. replace (- ((1 - 2 * 1) * (p * M) + (1 - 2 * 0) * aex)) with (p * M - aex) by ring. auto.
    intros. rewrite ltb_true by lia. auto.
  - split. rewrite Z.abs_neq by lia. replace (- ((1 - 2 * 1) * (p * M) + (1 - 2 * 1) * aex)) with (p * M + aex) by ring. auto.
    intros. rewrite ltb_true by lia. auto.
Qed.

Lemma comb_a p A M sp sa : 0 < M -> 0 <= p <= A ->
  (sp = 0 \/ sp = 1) -> (sa = 0 \/ sa = 1) ->
  let W := if sp =? sa then A + p else A - p in
  let V := sg1 sp * (p * M) + sg1 sa * (A * M) in
  Z.abs V = W * M /\ (V <> 0 -> (if V <? 0 then 1 else 0) = sa).
Proof.
  intros HM Hp Hsp Hsa W V.
  assert (D : 0 <= p * M <= A * M) by nia. set (pm := p * M) in *. set (am := A * M) in *.
  unfold V, W, sg1. clear V W.
  destruct Hsp as [->| ->], Hsa as [->| ->]; cbn [Z.eqb Pos.eqb]; rewrite ?Z.mul_add_distr_r, ?Z.mul_sub_distr_r; fold pm am;
  (split; [lia|]); intros; rewrite ?ltb_false, ?ltb_true by lia; auto.
Qed.

(** ** Normalisation and rounding of the sum *)

Definition fma_norm (z : u768) (ep sgz : Z) : option f256 :=
  let nlz := lz768 z in
  if nlz =? 768 then Some ZERO
  else
    let! n := subu 32 nlz EXP_BITS in
    let! carry := subs 32 REL_OFFSET (casts 32 n) in
    let! t := adds 32 ep carry in
    let! t := adds 32 t 1 in
    if EXP_MAX <=? t then Some (u256 (Z.lor sgz INF_HI) 0)
    else if 1 <=? t then fma_tail z (t - 1) n sgz
    else fma_tail z 0 REL_OFFSET sgz.

Lemma inf_of s : (s = 0 \/ s = 1) -> u256 (Z.lor (s * 2 ^ 127) INF_HI) 0 = of256 (mkf s INFm).
Proof. intros [->| ->]; reflexivity. Qed.

Lemma norm_fact W : 0 < W < 2 ^ 715 ->
  let n := 748 - Z.log2 W in
  lz768 (of768 W) = 19 + n /\ 34 <= n <= 748 /\ 2 ^ 748 <= W * 2 ^ n < 2 ^ 749.
Proof.
  intros HW n. assert (L : 2 ^ 715 < 2 ^ 768) by (apply pow2_lt; lia).
  rewrite lz768_ok by lia. unfold nlz. destruct (Z.eqb_spec W 0); [lia|].
  pose proof (log2_bound W 715 HW). split. unfold n; lia. split. unfold n; lia.
  apply norm_shift_bound; lia.
Qed.

Lemma fma_norm_ok W ep s : 0 < W < 2 ^ 715 -> - 262142 <= ep <= 786430 -> (s = 0 \/ s = 1) ->
  let n := 748 - Z.log2 W in
  let E := ep + 274 - n in
  0 <= E ->
  fma_norm (of768 W) ep (s * 2 ^ 127) = Some (of256 (mkf s (Z.min INFm (E * 2 ^ 236 + rne_div (W * 2 ^ n) (2 ^ 512))))).
Proof.
  intros HW He Hs n E HE. destruct (norm_fact W HW) as (LZ & Bn & BW). fold n in LZ, Bn, BW.
  unfold fma_norm. rewrite LZ. replace (19 + n =? 768) with false by (symmetry; apply Z.eqb_neq; lia).
  unfold EXP_BITS, REL_OFFSET. rewrite subu_ok by lia. rewrite bind_Some.
  replace (19 + n - 19) with n by lia.
  rewrite casts_ok by lia. rewrite subs_ok by (change (2 ^ (32 - 1)) with 2147483648; lia). rewrite bind_Some.
  rewrite adds_ok by (change (2 ^ (32 - 1)) with 2147483648; lia). rewrite bind_Some.
  rewrite adds_ok by (change (2 ^ (32 - 1)) with 2147483648; lia). rewrite bind_Some.
  replace (ep + (274 - n) + 1) with (E + 1) by (unfold E; lia).
  assert (R1 : 2 ^ 236 <= rne_div (W * 2 ^ n) (2 ^ 512)).
  { apply rne_div_ge_bound. lia. change (2 ^ 236 * 2 ^ 512) with (2 ^ 748). lia. }
  assert (R2 : rne_div (W * 2 ^ n) (2 ^ 512) <= 2 ^ 237).
  { apply rne_div_le_bound. lia. change (2 ^ 237 * 2 ^ 512) with (2 ^ 749). lia. }
  unfold EXP_MAX. destruct (Z.leb_spec 524287 (E + 1)).
  - rewrite inf_of by auto. do 3 f_equal. unfold INFm. rewrite Z.min_l; lia.
  - rewrite leb_true by lia. replace (E + 1 - 1) with E by lia.
    rewrite fma_tail_ok by lia. do 3 f_equal. unfold INFm. rewrite Z.min_r; lia.
Qed.

Lemma fma_norm_zero ep sgz : fma_norm (of768 0) ep sgz = Some (of256 0).
Proof.
  unfold fma_norm. rewrite lz768_ok. reflexivity. split. lia. apply pow2_pos. lia.
Qed.

Lemma shr_sticky_lt W k : 1 <= k -> 0 <= W < 2 ^ (k + 1) -> shr_sticky W 1 < 2 ^ k.
Proof.
  intros Hk HW. unfold shr_sticky. change (2 ^ 1) with 2. rewrite (pow2_S k) in HW by lia.
  replace (2 ^ k) with (2 * 2 ^ (k - 1)) in * by (rewrite <- pow2_S by lia; f_equal; lia).
  pose proof (Z.div_mod W 2 ltac:(lia)). pose proof (Z.mod_pos_bound W 2 ltac:(lia)).
  pose proof (Z.div_mod (W / 2) 2 ltac:(lia)). pose proof (Z.mod_pos_bound (W / 2) 2 ltac:(lia)).
  destruct (W mod 2 =? 0); lia.
Qed.
Lemma shr_sticky_ge W k : 1 <= k -> 2 ^ (k + 1) <= W -> 2 ^ k <= shr_sticky W 1.
Proof.
  intros Hk HW. unfold shr_sticky. change (2 ^ 1) with 2. rewrite (pow2_S k) in HW by lia.
  replace (2 ^ k) with (2 * 2 ^ (k - 1)) in * by (rewrite <- pow2_S by lia; f_equal; lia).
  pose proof (Z.div_mod W 2 ltac:(lia)). pose proof (Z.mod_pos_bound W 2 ltac:(lia)).
  pose proof (Z.div_mod (W / 2) 2 ltac:(lia)). pose proof (Z.mod_pos_bound (W / 2) 2 ltac:(lia)).
  destruct (W mod 2 =? 0); lia.
Qed.

(** The rounding carried out is the specified one: [W] may deviate from the exact
    value as long as this does not matter when its last bit is made sticky. *)
Lemma fma_rnd W N K u : 0 <= K -> u = 262380 -> 0 < W < 2 ^ 715 -> 0 <= N ->
  (N = W * 2 ^ K \/ (odd_rep (shr_sticky W 1) N (2 ^ (K + 1)) /\ 2 ^ 239 <= W)) -> 2 ^ (236 + u) <= N ->
  let n := 748 - Z.log2 W in
  let E := K - 261868 - n in
  0 <= E /\ rnd_mag N (2 ^ u) = Z.min INFm (E * 2 ^ 236 + rne_div (W * 2 ^ n) (2 ^ 512)).
Proof.
  intros HK Hu HW HN HX HL n E. destruct (norm_fact W HW) as (_ & Bn & BW). fold n in Bn, BW.
  assert (PK : 0 < 2 ^ K) by (apply pow2_pos; lia). assert (Pn : 0 < 2 ^ n) by (apply pow2_pos; lia).
  assert (Pu : 0 < 2 ^ u) by (apply pow2_pos; lia).
  assert (PK1 : 0 < 2 ^ (K + 1)) by (apply pow2_pos; lia).
  assert (WB : W < 2 ^ (749 - n)).
  { rewrite (pow2_split n 749) in BW by lia. rewrite Z.mul_comm in BW. apply Z.mul_lt_mono_pos_l with (2 ^ n); lia. }
  assert (WL : 2 ^ (748 - n) <= W).
  { rewrite (pow2_split n 748) in BW by lia. rewrite Z.mul_comm in BW. apply Z.mul_le_mono_pos_l with (2 ^ n); lia. }
  assert (BL : 2 ^ 239 <= W -> n <= 509).
  { intros. assert (239 <= Z.log2 W) by (apply Z.log2_le_pow2; lia). unfold n. lia. }
  assert (HE : 0 <= E).
  { destruct (Z.le_gt_cases 0 E) as [|C]; auto. exfalso.
    assert (N < 2 ^ (749 - n + K)).
    { destruct HX as [->|[HO HX]]. rewrite pow2_add by lia. apply Z.mul_lt_mono_pos_r; lia.
      pose proof (odd_rep_bound _ _ _ PK1 HO) as [_ B].
      pose proof (shr_sticky_lt W (748 - n) ltac:(lia)) as SB. replace (748 - n + 1) with (749 - n) in SB by lia.
      specialize (SB ltac:(lia)). eapply Z.lt_le_trans. exact B.
      replace (749 - n + K) with (748 - n + (K + 1)) by lia. rewrite (pow2_add (748 - n)) by lia.
      apply Z.mul_le_mono_nonneg_r; lia. }
    assert (2 ^ (749 - n + K) <= 2 ^ (236 + u)) by (apply pow2_le; unfold E in C; lia). lia. }
  split; auto.
  destruct HX as [HX|[HO HX]].
  - apply (rnd_mag_sticky (W * 2 ^ n) N (2 ^ u) E 512); auto; try lia.
    + left. rewrite HX. rewrite <- !pow2_add by lia. rewrite <- !Z.mul_assoc, <- !pow2_add by lia.
      do 2 f_equal. unfold E. lia.
  - specialize (BL HX).
    replace (rne_div (W * 2 ^ n) (2 ^ 512)) with (rne_div (shr_sticky W 1) (2 ^ (511 - n))).
    2: { rewrite <- (odd_rep_rne (shr_sticky W 1) W (1 * 2 ^ 1) (511 - n)) by (try lia; apply odd_rep_shr; try lia; left; lia).
         replace (2 ^ 512) with (1 * 2 ^ 1 * 2 ^ (511 - n) * 2 ^ n). symmetry. apply rne_div_mul; auto.
         change (1 * 2 ^ 1) with 2. pose proof (pow2_pos (511 - n) ltac:(lia)). lia.
         change (1 * 2 ^ 1) with (2 ^ 1). rewrite <- !pow2_add by lia. f_equal. lia. }
    assert (Pk : 0 < 2 ^ (511 - n)) by (apply pow2_pos; lia).
    apply rnd_mag_sticky; auto; try lia.
    + rewrite <- pow2_add by lia. replace (u + E) with (K + 1 + (511 - n)) by (unfold E; lia).
      rewrite (pow2_add (K + 1)) by lia. apply odd_rep_scale; auto.
    + replace (237 + (511 - n)) with (748 - n) by lia. apply shr_sticky_lt. lia.
      replace (748 - n + 1) with (749 - n) by lia. lia.
    + right. replace (236 + (511 - n)) with (747 - n) by lia. apply shr_sticky_ge. lia.
      replace (747 - n + 1) with (748 - n) by lia. lia.
Qed.

(** The addend dominates: the result is the addend. *)
Lemma fma_rnd_a sa qa r N u : 0 <= qa -> 0 <= u -> 2 ^ 236 <= sa < 2 ^ 237 -> qa * 2 ^ 236 + sa < INFm ->
  0 < r -> 4 * r < 2 ^ (u + qa) ->
  N = sa * 2 ^ (u + qa) + r \/ N = sa * 2 ^ (u + qa) - r ->
  rnd_mag N (2 ^ u) = qa * 2 ^ 236 + sa.
Proof.
  intros Hq Hu Hs HI Hr HR HN. assert (Pu : 0 < 2 ^ u) by (apply pow2_pos; lia).
  assert (Pq : 0 < 2 ^ (u + qa)) by (apply pow2_pos; lia).
  assert (HN0 : 0 <= N) by nia.
  assert (G : forall z E k, 0 <= E -> 2 <= k -> odd_rep z (N * 2 ^ k) (2 ^ u * 2 ^ E) ->
    z < 2 ^ (237 + k) -> E = 0 \/ 2 ^ (236 + k) <= z -> E * 2 ^ 236 + rne_div z (2 ^ k) = qa * 2 ^ 236 + sa ->
    rnd_mag N (2 ^ u) = qa * 2 ^ 236 + sa).
  { intros z E k H1 H2 H3 H4 H5 H6. rewrite (rnd_mag_sticky z N (2 ^ u) E k) by auto. rewrite H6. apply Z.min_r. lia. }
  assert (M4 : rne_div (4 * sa - 1) 4 = sa) by (apply rne_div_unique; lia).
  assert (P4 : rne_div (4 * sa + 1) 4 = sa) by (apply rne_div_unique; lia).
  destruct HN as [HN|HN].
  - apply (G (4 * sa + 1) qa 2); [lia|lia| | | |].
    + rewrite <- pow2_add by lia. right. split. { rewrite Z.odd_add, Z.odd_mul. reflexivity. }
      change (2 ^ 2) with 4. subst N. nia.
    + change (2 ^ (237 + 2)) with (2 ^ 237 * 4). lia.
    + right. change (2 ^ (236 + 2)) with (2 ^ 236 * 4). lia.
    + change (2 ^ 2) with 4. rewrite P4. auto.
  - destruct (Z.eq_dec sa (2 ^ 236)) as [Es|].
    + destruct (Z.eq_dec qa 0) as [->|].
      * apply (G (4 * sa - 1) 0 2); [lia|lia| | | |].
        -- rewrite <- pow2_add by lia. right. split. { rewrite Z.odd_sub, Z.odd_mul. reflexivity. }
           change (2 ^ 2) with 4. subst N. nia.
        -- change (2 ^ (237 + 2)) with (2 ^ 237 * 4). lia.
        -- left; auto.
        -- change (2 ^ 2) with 4. rewrite M4. auto.
      * apply (G (8 * sa - 1) (qa - 1) 2); [lia|lia| | | |].
        -- rewrite <- pow2_add by lia. right. split. { rewrite Z.odd_sub, Z.odd_mul. reflexivity. }
           change (2 ^ 2) with 4. subst N.
           replace (2 ^ (u + qa)) with (2 * 2 ^ (u + (qa - 1))) in *.
           2: { rewrite <- pow2_S by lia. f_equal. lia. } nia.
        -- change (2 ^ (237 + 2)) with (2 ^ 237 * 4). lia.
        -- right. change (2 ^ (236 + 2)) with (2 ^ 236 * 4). lia.
        -- change (2 ^ 2) with 4. replace (rne_div (8 * sa - 1) 4) with (2 * sa).
           2: { symmetry. apply rne_div_unique; lia. } rewrite Es. ring.
    + apply (G (4 * sa - 1) qa 2); [lia|lia| | | |].
      * rewrite <- pow2_add by lia. right. split. { rewrite Z.odd_sub, Z.odd_mul. reflexivity. }
        change (2 ^ 2) with 4. subst N. nia.
      * change (2 ^ (237 + 2)) with (2 ^ 237 * 4). lia.
      * right. change (2 ^ (236 + 2)) with (2 ^ 236 * 4). lia.
      * change (2 ^ 2) with 4. rewrite M4. auto.
Qed.

(** ** Finite non-zero operands *)

(** Exponent difference of addend and product. *)
Definition fma_d (x y a : Z) : Z := qe a - (qe x + qe y - 262142).

Definition fma_p (x y : Z) : Z := sg x * (sg y * 4).

(** The sum of product and addend, with its sign. *)
Definition fma_sel (p sa d sgp sga : Z) : option ((u768 * u768) * Z) :=
  if d <=? ADDEND_TOO_SMALL then
    Some ((of768 p, mk768 uint_zero uint_zero uint_one), sgp)
  else if d <=? -1 then
    let! a := from_u256_shifted (of256 sa) (REL_OFFSET - d) in
    Some ((of768 p, a), sgp)
  else if d <=? 1 then
    let! a := from_u256_shifted (of256 sa) (REL_OFFSET - d) in
    Some (if ge768 (of768 p) a then ((of768 p, a), sgp) else ((a, of768 p), sga))
  else if d <=? ADDEND_ANCHORED then
    let! a := from_u256_shifted (of256 sa) (REL_OFFSET - d) in
    Some ((a, of768 p), sga)
  else
    let! a := from_u256_shifted (of256 sa) 0 in
    Some ((a, of768 p), sga).

Lemma fma_finite_eq x y a sgp sga : 0 < x < INFm -> 0 < y < INFm -> 0 < a < INFm ->
  fma_finite (of256 x) (of256 y) (of256 a) sgp sga
  = let! (zt, sgz) := fma_sel (fma_p x y) (sg a) (fma_d x y a) sgp sga in
    let '(z, t) := zt in
    let z := if sgp =? sga then iadd768 z t else isub768 z t in
    if fma_d x y a <=? 239 then fma_norm z (qe x + qe y - 262142) sgz
    else if lz768 z =? 768 then Some ZERO else fma_tail z (a / 2 ^ 236 - 1) 0 sgz.
Proof.
  intros Hx Hy Ha.
  destruct (exp_sub_norm x Hx) as (X1 & X2 & X3 & X4 & X5). destruct (exp_sub_norm y Hy) as (Y1 & Y2 & Y3 & Y4 & Y5).
  destruct (exp_sub_norm a Ha) as (A1 & A2 & A3 & A4 & A5). unfold INFm in Hx, Hy, Ha.
  pose proof (b2z_bound (2 ^ 236 <=? x)). pose proof (b2z_bound (2 ^ 236 <=? y)). pose proof (b2z_bound (2 ^ 236 <=? a)).
  unfold fma_finite. rewrite X1, X2, Y1, Y2, A1, A2, !casts_ok by lia. rewrite !signif_of by lia.
  pose proof (sg_bound x ltac:(lia)) as SX. pose proof (sg_bound y ltac:(lia)) as SY. pose proof (sg_bound a ltac:(lia)) as SA.
  rewrite shl256s by lia. rewrite bind_Some. change (2 ^ 2) with 4. rewrite wmul256 by lia. rewrite bind_Some. cbv beta iota.
  fold (fma_p x y).
  replace (mk768 uint_zero (of256 (fma_p x y / 2 ^ 256)) (of256 (fma_p x y mod 2 ^ 256))) with (of768 (fma_p x y)).
  2: { assert (0 <= fma_p x y < 2 ^ 512).
       { unfold fma_p. change (2 ^ 512) with (2 ^ 237 * 2 ^ 275). clear - SX SY. nia. }
       rewrite uint_zero256, of768_parts.
       f_equal. pose proof (Z.div_mod (fma_p x y) (2 ^ 256) ltac:(lia)). lia.
       apply div_bound. lia. change (2 ^ 256 * 2 ^ 256) with (2 ^ 512). lia. apply Z.mod_pos_bound; lia. }
  unfold EMIN. 
  rewrite !subs_ok by (change (2 ^ (32 - 1)) with 2147483648; lia). rewrite !bind_Some.
  rewrite X3, Y3, A3.
  rewrite !adds_ok by (change (2 ^ (32 - 1)) with 2147483648; lia). rewrite !bind_Some.
  rewrite !adds_ok by (change (2 ^ (32 - 1)) with 2147483648; lia). rewrite !bind_Some.
  rewrite !subs_ok by (change (2 ^ (32 - 1)) with 2147483648; lia). rewrite !bind_Some.
  change (qe x + qe y + -262142) with (qe x + qe y - 262142).
  fold (fma_d x y a). unfold fma_sel.
  match goal with |- bind ?m _ = bind ?m _ => destruct m as [[[z t] sgz]|]; [|reflexivity] end.
  rewrite !bind_Some. cbv beta iota zeta. unfold fma_norm. change ADDEND_ANCHORED with 239.
  destruct (fma_d x y a <=? 239); [reflexivity|]. reflexivity.
Qed.

Lemma uint_one768 : mk768 uint_zero uint_zero uint_one = of768 1.
Proof. reflexivity. Qed.

Lemma sign_eqb s t : (s = 0 \/ s = 1) -> (t = 0 \/ t = 1) -> (s * 2 ^ 127 =? t * 2 ^ 127) = (s =? t).
Proof. intros [->| ->] [->| ->]; reflexivity. Qed.

(** Everything but a dominating addend: the sum [W] represents the exact value. *)
Lemma fma_sel_ok p sa d sp ss K : 0 <= K -> 0 <= K + 238 + d ->
  (2 ^ 474 <= p \/ (0 < p /\ 0 <= d)) -> p < 2 ^ 476 -> p mod 4 = 0 -> 0 < sa < 2 ^ 237 ->
  (2 ^ 236 <= sa \/ d <= 1) -> d <= 239 -> (sp = 0 \/ sp = 1) -> (ss = 0 \/ ss = 1) ->
  exists z t s W, fma_sel p sa d (sp * 2 ^ 127) (ss * 2 ^ 127) = Some ((z, t), s * 2 ^ 127) /\ (s = 0 \/ s = 1)
  /\ (if sp =? ss then iadd768 z t else isub768 z t) = of768 W /\ 0 <= W < 2 ^ 715
  /\ let V := sg1 sp * (p * 2 ^ K) + sg1 ss * (sa * 2 ^ (K + 238 + d)) in
     (V <> 0 -> (if V <? 0 then 1 else 0) = s)
     /\ (Z.abs V = W * 2 ^ K \/ (odd_rep (shr_sticky W 1) (Z.abs V) (2 ^ (K + 1)) /\ 2 ^ 239 <= W)).
Proof.
  intros HK HKd HP HPu P4 HS HSn HD Hsp Hss.
  assert (L1 : 2 ^ 476 < 2 ^ 714) by (apply pow2_lt; lia). assert (L2 : 2 * 2 ^ 714 = 2 ^ 715) by reflexivity.
  assert (L3 : 2 ^ 715 < 2 ^ 768) by (apply pow2_lt; lia). assert (L4 : 2 ^ 242 < 2 ^ 474) by (apply pow2_lt; lia).
  assert (EV : Z.even p = true). { rewrite <- Z.negb_odd, odd_mod. pose proof (Z.div_mod p 4 ltac:(lia)) as D. rewrite P4 in D.
    rewrite (mod_eq p 2 (2 * (p / 4)) 0) by lia. reflexivity. }
  assert (PK : 0 < 2 ^ K) by (apply pow2_pos; lia). assert (P0 : 0 < p) by lia.
  assert (EX : -238 <= d -> sa * 2 ^ (K + 238 + d) = sa * 2 ^ (238 + d) * 2 ^ K).
  { intros. rewrite <- Z.mul_assoc, <- pow2_add by lia. do 2 f_equal. lia. }
  assert (Paex : 0 < 2 ^ (K + 238 + d)) by (apply pow2_pos; lia).
  assert (AEX : 0 < sa * 2 ^ (K + 238 + d)) by (apply Z.mul_pos_pos; lia).
  set (aex := sa * 2 ^ (K + 238 + d)) in *.
  set (R := fma_sel p sa d (sp * 2 ^ 127) (ss * 2 ^ 127)).
  (* the product first *)
  assert (CP : forall A, 0 <= A <= p ->
     R = Some ((of768 p, of768 A), sp * 2 ^ 127) -> 
     (let W := if sp =? ss then p + A else p - A in
      let V := sg1 sp * (p * 2 ^ K) + sg1 ss * aex in
      (V <> 0 -> (if V <? 0 then 1 else 0) = sp)
     /\ (Z.abs V = W * 2 ^ K \/ (odd_rep (shr_sticky W 1) (Z.abs V) (2 ^ (K + 1)) /\ 2 ^ 239 <= W))) ->
     exists z t s W, R = Some ((z, t), s * 2 ^ 127) /\ (s = 0 \/ s = 1)
  /\ (if sp =? ss then iadd768 z t else isub768 z t) = of768 W /\ 0 <= W < 2 ^ 715
  /\ let V := sg1 sp * (p * 2 ^ K) + sg1 ss * aex in
     (V <> 0 -> (if V <? 0 then 1 else 0) = s)
     /\ (Z.abs V = W * 2 ^ K \/ (odd_rep (shr_sticky W 1) (Z.abs V) (2 ^ (K + 1)) /\ 2 ^ 239 <= W))).
  { intros A HA E HX. exists (of768 p), (of768 A), sp, (if sp =? ss then p + A else p - A).
    split; auto. split; auto.
    split. { destruct (sp =? ss). apply iadd_ok; lia. apply isub_ok; lia. }
    split. { destruct (sp =? ss); lia. } exact HX. }
  (* the addend first *)
  assert (CA : forall A, p <= A < 2 ^ 714 -> aex = A * 2 ^ K ->
     R = Some ((of768 A, of768 p), ss * 2 ^ 127) ->
     exists z t s W, R = Some ((z, t), s * 2 ^ 127) /\ (s = 0 \/ s = 1)
  /\ (if sp =? ss then iadd768 z t else isub768 z t) = of768 W /\ 0 <= W < 2 ^ 715
  /\ let V := sg1 sp * (p * 2 ^ K) + sg1 ss * aex in
     (V <> 0 -> (if V <? 0 then 1 else 0) = s)
     /\ (Z.abs V = W * 2 ^ K \/ (odd_rep (shr_sticky W 1) (Z.abs V) (2 ^ (K + 1)) /\ 2 ^ 239 <= W))).
  { intros A HA HX E. exists (of768 A), (of768 p), ss, (if sp =? ss then A + p else A - p).
    split; auto. split; auto.
    split. { destruct (sp =? ss). apply iadd_ok; lia. apply isub_ok; lia. }
    split. { destruct (sp =? ss); lia. }
    destruct (comb_a p A (2 ^ K) sp ss) as [C1 C2]; auto; try lia.
    cbv zeta in *. rewrite HX. split; auto. }
  assert (CE : forall A, 0 <= A <= p -> aex = A * 2 ^ K ->
      let W := if sp =? ss then p + A else p - A in
      let V := sg1 sp * (p * 2 ^ K) + sg1 ss * aex in
      (V <> 0 -> (if V <? 0 then 1 else 0) = sp)
     /\ (Z.abs V = W * 2 ^ K \/ (odd_rep (shr_sticky W 1) (Z.abs V) (2 ^ (K + 1)) /\ 2 ^ 239 <= W))).
  { intros A HA HX W V. unfold V. rewrite HX. clear V.
    destruct (comb_p p A (A * 2 ^ K) (2 ^ K) sp ss) as [C1 C2]; auto; try lia. left; auto.
    cbv zeta in C1, C2. split; auto. left.
    assert (B : 0 <= A * 2 ^ K <= p * 2 ^ K) by (clear - HA PK; nia). unfold W. clear - B Hsp Hss.
    set (am := A * 2 ^ K) in *. set (pm := p * 2 ^ K) in *. unfold sg1.
    destruct Hsp as [->| ->], Hss as [->| ->]; cbn [Z.eqb Pos.eqb]; rewrite ?Z.mul_add_distr_r, ?Z.mul_sub_distr_r; fold pm am; lia. }
  unfold R, fma_sel in CP, CA |- *. clear R. unfold ADDEND_TOO_SMALL, ADDEND_ANCHORED, REL_OFFSET in *.
  destruct (Z.leb_spec d (-473)).
  { rewrite uint_one768 in CP, CA |- *. assert (HP' : 2 ^ 474 <= p) by lia.
    apply (CP 1); [lia|reflexivity|].
    pose proof (Z.div_mod p 4 ltac:(lia)) as D4. rewrite P4 in D4.
    assert (E2 : 2 ^ (K + 1) = 2 * 2 ^ K) by (apply pow2_S; lia).
    assert (AB : aex < 4 * 2 ^ K).
    { unfold aex. assert (2 ^ (K + 238 + d) * 2 ^ 235 <= 2 ^ K) by (rewrite <- pow2_add by lia; apply pow2_le; lia).
      clear - H0 HS Paex. nia. }
    destruct (comb_p (2 * (p / 4)) 1 aex (2 ^ (K + 1)) sp ss) as [C1 C2]; auto; try lia.
    { rewrite Z.even_mul. reflexivity. }
    { right. split; auto. lia. }
    replace (2 * (p / 4) * 2 ^ (K + 1)) with (p * 2 ^ K) in * by (rewrite E2, D4 at 1; ring).
    cbv zeta in *. split; auto. right. split; [|destruct (sp =? ss); lia].
    replace (shr_sticky (if sp =? ss then p + 1 else p - 1) 1) with (if sp =? ss then 2 * (p / 4) + 1 else 2 * (p / 4) - 1); auto.
    unfold shr_sticky. change (2 ^ 1) with 2. destruct (sp =? ss).
    - rewrite (mod_eq (p + 1) 2 (2 * (p / 4)) 1), (div_eq (p + 1) 2 (2 * (p / 4)) 1) by lia. cbn [Z.eqb].
      rewrite (div_eq (2 * (p / 4)) 2 (p / 4) 0) by lia. reflexivity.
    - rewrite (mod_eq (p - 1) 2 (2 * (p / 4) - 1) 1), (div_eq (p - 1) 2 (2 * (p / 4) - 1) 1) by lia. cbn [Z.eqb].
      rewrite (div_eq (2 * (p / 4) - 1) 2 (p / 4 - 1) 1) by lia. lia. }
  rewrite shifted_ok in CP, CA |- * by lia. rewrite !bind_Some in CP, CA |- *.
  destruct (Z.leb_spec d (-1)).
  { assert (HP' : 2 ^ 474 <= p) by lia.
    destruct (Z.leb_spec (274 - d) 512).
    - assert (AB : 0 <= sa * 2 ^ (512 - (274 - d)) <= p).
      { assert (2 ^ (512 - (274 - d)) <= 2 ^ 237) by (apply pow2_le; lia).
        pose proof (pow2_pos (512 - (274 - d)) ltac:(lia)). change (2 ^ 474) with (2 ^ 237 * 2 ^ 237) in HP'. clear - HP' HS H1 H2. nia. }
      eapply CP; [exact AB|reflexivity|]. apply CE; auto.
      replace (512 - (274 - d)) with (238 + d) by lia. apply EX. lia.
    - set (A := shr_sticky sa (274 - d - 512)).
      assert (PJ : 0 < 2 ^ (274 - d - 512)) by (apply pow2_pos; lia).
      assert (HO : odd_rep A aex (2 ^ K)).
      { apply (odd_rep_unscale _ _ _ (2 ^ (274 - d - 512))); auto.
        replace (aex * 2 ^ (274 - d - 512)) with (sa * 2 ^ K).
        2: { unfold aex. rewrite <- Z.mul_assoc, <- pow2_add by lia. do 2 f_equal. lia. }
        rewrite (Z.mul_comm sa), (Z.mul_comm (2 ^ K)). rewrite (Z.mul_comm (2 ^ K)).
        replace (2 ^ (274 - d - 512) * 2 ^ K) with (1 * 2 ^ (274 - d - 512) * 2 ^ K) by ring.
        apply odd_rep_scale; auto. apply odd_rep_shr; try lia. left. lia. }
      assert (AB : 0 <= A < 2 ^ 238).
      { split. apply (odd_rep_nonneg A aex (2 ^ K)); auto; lia.
        unfold A, shr_sticky. pose proof (Z.div_le_upper_bound sa (2 ^ (274 - d - 512)) (2 ^ 237) PJ ltac:(nia)).
        pose proof (Z.div_mod (sa / 2 ^ (274 - d - 512)) 2 ltac:(lia)).
        pose proof (Z.mod_pos_bound (sa / 2 ^ (274 - d - 512)) 2 ltac:(lia)).
        destruct (_ =? 0); lia. }
      apply (CP A); [lia|reflexivity|].
      destruct (comb_p p A aex (2 ^ K) sp ss) as [C1 C2]; auto; try lia.
      cbv zeta in *. split; auto. right. split.
      + rewrite pow2_add by lia. apply odd_rep_shr; auto; lia.
      + destruct (sp =? ss); lia. }
  rewrite (leb_true (274 - d) 512) in CP, CA |- * by lia.
  replace (512 - (274 - d)) with (238 + d) in * by lia.
  assert (AB : 0 < sa * 2 ^ (238 + d) < 2 ^ 714).
  { pose proof (pow2_pos (238 + d) ltac:(lia)). split. apply Z.mul_pos_pos; lia.
    assert (2 ^ (238 + d) <= 2 ^ 477) by (apply pow2_le; lia). change (2 ^ 714) with (2 ^ 237 * 2 ^ 477). clear - H1 H2 HS. nia. }
  destruct (Z.leb_spec d 1).
  { rewrite ge768_ok in CP, CA |- * by lia. destruct (Z.leb_spec (sa * 2 ^ (238 + d)) p).
    - apply (CP (sa * 2 ^ (238 + d))); [lia|reflexivity|]. apply CE. lia. apply EX; lia.
    - apply (CA (sa * 2 ^ (238 + d))); [lia| |reflexivity]. apply EX; lia. }
  rewrite (leb_true d 239) in CP, CA |- * by lia.
  apply (CA (sa * 2 ^ (238 + d))); [|apply EX; lia|reflexivity].
  split; [|lia]. assert (2 ^ 240 <= 2 ^ (238 + d)) by (apply pow2_le; lia).
  change (2 ^ 476) with (2 ^ 236 * 2 ^ 240) in HPu. clear - H2 HSn H1 HPu. nia.
Qed.

Lemma fma_tail_dom sa p e1 s (b : bool) : 2 ^ 236 <= sa < 2 ^ 237 -> 0 < p < 2 ^ 476 -> 0 <= e1 <= 524285 -> (s = 0 \/ s = 1) ->
  let z := if b then iadd768 (of768 (sa * 2 ^ 512)) (of768 p) else isub768 (of768 (sa * 2 ^ 512)) (of768 p) in
  (if lz768 z =? 768 then Some ZERO else fma_tail z e1 0 (s * 2 ^ 127)) = Some (of256 (mkf s (e1 * 2 ^ 236 + sa))).
Proof.
  intros HS HP He Hs z.
  assert (L1 : 2 ^ 476 < 2 ^ 512) by (apply pow2_lt; lia). assert (L2 : 2 ^ 749 < 2 ^ 768) by (apply pow2_lt; lia).
  assert (E : 2 ^ 237 * 2 ^ 512 = 2 ^ 749) by reflexivity.
  assert (L3 : 0 < 2 ^ 476) by lia. assert (L4 : 2 ^ 476 < 2 ^ 510) by (apply pow2_lt; lia). assert (L5 : 2 ^ 512 = 4 * 2 ^ 510) by reflexivity.
  set (w := if b then sa * 2 ^ 512 + p else sa * 2 ^ 512 - p).
  assert (Bw : 0 < w < 2 ^ 749) by (unfold w; destruct b; nia).
  assert (Ez : z = of768 w).
  { unfold z, w. destruct b. apply iadd_ok; nia. apply isub_ok; nia. }
  rewrite Ez. rewrite lz768_ok by lia.
  assert (nlz 768 w < 768) by (apply nlz_lt; lia).
  replace (nlz 768 w =? 768) with false by (symmetry; apply Z.eqb_neq; lia).
  rewrite fma_tail_ok; try lia.
  do 4 f_equal. change (2 ^ 0) with 1. rewrite Z.mul_1_r.
  unfold w. apply rne_div_unique; [lia| | |]; destruct b; lia.
Qed.

Lemma mag_val_prod4 x y : 0 <= x -> 0 <= y -> 4 * (mag_val x * mag_val y) = fma_p x y * 2 ^ (qe x + qe y).
Proof.
  intros. rewrite !mag_val_sg by auto. rewrite pow2_add by apply qe_nonneg. unfold fma_p. ring.
Qed.

Lemma rnd_signed_4 n u : 0 <= u -> rnd_signed 0 n (2 ^ u) = rnd_signed 0 (4 * n) (2 ^ (u + 2)).
Proof.
  intros Hu. unfold rnd_signed.
  replace (4 * n =? 0) with (n =? 0) by (destruct (Z.eqb_spec n 0), (Z.eqb_spec (4 * n) 0); auto; lia).
  replace (4 * n <? 0) with (n <? 0) by (destruct (Z.ltb_spec n 0), (Z.ltb_spec (4 * n) 0); auto; lia).
  destruct (n =? 0); auto. f_equal.
  rewrite pow2_add by lia. change (2 ^ 2) with 4. rewrite Z.abs_mul. change (Z.abs 4) with 4.
  rewrite (Z.mul_comm 4). symmetry. apply rnd_mag_scale; try lia.
Qed.

Lemma fma_finite_k x y a sp ss u : u = 262378 -> 0 < x < INFm -> 0 < y < INFm -> 0 < a < INFm ->
  (sp = 0 \/ sp = 1) -> (ss = 0 \/ ss = 1) ->
  (2 ^ 236 <= x /\ 2 ^ 236 <= y) \/ 0 <= fma_d x y a ->
  2 ^ 236 <= a \/ fma_d x y a <= 1 ->
  let n := sg1 sp * (mag_val x * mag_val y) + sg1 ss * mag_val a * 2 ^ u in
  240 <= fma_d x y a \/ n = 0 \/ 2 ^ 236 * 2 ^ u <= Z.abs n ->
  fma_finite (of256 x) (of256 y) (of256 a) (sp * 2 ^ 127) (ss * 2 ^ 127) = Some (of256 (rnd_signed 0 n (2 ^ u))).
Proof.
  intros Hu Hx Hy Ha Hsp Hss HXY HA n Hn.
  rewrite fma_finite_eq by auto.
  destruct (exp_sub_norm x Hx) as (_ & _ & _ & X4 & _). destruct (exp_sub_norm y Hy) as (_ & _ & _ & Y4 & _).
  destruct (exp_sub_norm a Ha) as (_ & _ & A3 & A4 & A5).
  pose proof (sg_bound x ltac:(lia)) as SX. pose proof (sg_bound y ltac:(lia)) as SY. pose proof (sg_bound a ltac:(lia)) as SA.
  pose proof (sg_pos x ltac:(lia)) as PX. pose proof (sg_pos y ltac:(lia)) as PY. pose proof (sg_pos a ltac:(lia)) as PA.
  pose proof (sg_qe a ltac:(lia)) as [DA _].
  set (K := qe x + qe y) in *. set (d := fma_d x y a) in *.
  assert (Ed : d = qe a - (K - 262142)) by reflexivity.
  assert (En : 4 * n = sg1 sp * (fma_p x y * 2 ^ K) + sg1 ss * (sg a * 2 ^ (K + 238 + d))).
  { unfold n. pose proof (mag_val_prod4 x y ltac:(lia) ltac:(lia)) as M. fold K in M. rewrite <- M.
    rewrite (mag_val_sg a) by lia. replace (K + 238 + d) with (qe a + u + 2) by lia.
    rewrite !pow2_add by lia. change (2 ^ 2) with 4. ring. }
  rewrite (rnd_signed_4 n) by lia. clearbody n. set (p := fma_p x y) in *.
  assert (P4 : p mod 4 = 0) by (unfold p, fma_p; rewrite Z.mul_assoc; apply Z.mod_mul; lia).
  assert (PU : 0 < p < 2 ^ 476).
  { unfold p, fma_p. change (2 ^ 476) with (2 ^ 237 * (2 ^ 237 * 4)). clear - SX SY PX PY. split. nia.
    apply Z.mul_lt_mono_nonneg; lia. }
  assert (PL : 2 ^ 236 <= x /\ 2 ^ 236 <= y -> 2 ^ 474 <= p).
  { intros [Nx Ny]. apply sg_norm in Nx, Ny. unfold p, fma_p. change (2 ^ 474) with (2 ^ 236 * (2 ^ 236 * 4)).
    clear - Nx Ny. apply Z.mul_le_mono_nonneg; lia. }
  destruct (Z.leb_spec d 239) as [HD|HD].
  - assert (Q1 : 0 <= K) by (clear - X4 Y4; lia). assert (Q2 : 0 <= K + 238 + d) by (clear - X4 Y4 A4 Ed; lia).
    assert (Q3 : 2 ^ 474 <= p \/ (0 < p /\ 0 <= d)).
    { destruct HXY as [H|H]; [left; auto|right]. split; [exact (proj1 PU)|exact H]. }
    assert (Q4 : 2 ^ 236 <= sg a \/ d <= 1) by (destruct HA as [H|H]; [left; apply sg_norm; auto|right; auto]).
    destruct (fma_sel_ok p (sg a) d sp ss K Q1 Q2 Q3 (proj2 PU) P4 (conj PA (proj2 SA)) Q4 HD Hsp Hss)
      as (z & t & s & W & -> & Hs & EW & BW & HV).
    cbv zeta in HV. rewrite <- En in HV. destruct HV as [HS HR].
    rewrite bind_Some. cbv beta iota zeta. rewrite sign_eqb by auto. rewrite EW.
    unfold rnd_signed. destruct (Z.eqb_spec (4 * n) 0) as [Z0|Z0].
    + assert (W = 0).
      { rewrite Z0 in HR. change (Z.abs 0) with 0 in HR. pose proof (pow2_pos K ltac:(lia)).
        destruct HR as [HR|[HR HW]]. clear - HR H; nia.
        exfalso. pose proof (shr_sticky_ge W 238 ltac:(lia) HW). pose proof (odd_rep_bound _ _ _ (pow2_pos (K + 1) ltac:(lia)) HR) as [B _].
        assert (0 < 2 ^ (K + 1)) by (apply pow2_pos; lia). clear - B H0 H1. assert (0 < 2 ^ 238) by (apply pow2_pos; lia). nia. }
      subst W. rewrite fma_norm_zero. reflexivity.
    + rewrite (HS Z0).
      assert (HN : 2 ^ (236 + (u + 2)) <= Z.abs (4 * n)).
      { rewrite Z.abs_mul. change (Z.abs 4) with 4. replace (236 + (u + 2)) with (236 + u + 2) by (clear; lia).
        rewrite !pow2_add by (clear - Hu; lia). change (2 ^ 2) with 4. clear - Hn HD Z0. destruct Hn as [Hn|[Hn|Hn]]; lia. }
      assert (W <> 0).
      { intros ->. destruct HR as [HR|[_ HR]]; [clear - HR Z0; lia|]. revert HR. apply Z.lt_nge. reflexivity. }
      assert (BW' : 0 < W < 2 ^ 715) by (clear - BW H; lia).
      destruct (fma_rnd W (Z.abs (4 * n)) K (u + 2) Q1 ltac:(clear - Hu; lia) BW' (Z.abs_nonneg _) HR HN) as [HE ->].
      assert (EE : K - 261868 - (748 - Z.log2 W) = K - 262142 + 274 - (748 - Z.log2 W)) by (clear; lia).
      rewrite EE in *. apply fma_norm_ok; auto. clear - X4 Y4. lia.
  - assert (NA : 2 ^ 236 <= a) by lia. pose proof (sg_norm a NA) as SN.
    assert (SEL : fma_sel p (sg a) d (sp * 2 ^ 127) (ss * 2 ^ 127) = Some ((of768 (sg a * 2 ^ 512), of768 p), ss * 2 ^ 127)).
    { unfold fma_sel, ADDEND_TOO_SMALL, ADDEND_ANCHORED. rewrite !leb_false by lia.
      rewrite shifted_ok by lia. rewrite bind_Some. reflexivity. }
    rewrite SEL, bind_Some. cbv beta iota zeta. rewrite sign_eqb by auto.
    rewrite leb_true in A3 by auto. cbn [b2z] in A3.
    rewrite fma_tail_dom; [|exact (conj SN (proj2 SA))|exact PU|clear - A3 A4; lia|exact Hss]. rewrite A3.
    assert (PK : 0 < 2 ^ K) by (apply pow2_pos; clear - X4 Y4; lia).
    assert (RB : 4 * (p * 2 ^ K) < 2 ^ (u + 2 + qe a)).
    { assert (2 ^ 478 * 2 ^ K <= 2 ^ (u + 2 + qe a)) by (rewrite <- pow2_add by (clear - X4 Y4; lia); apply pow2_le; clear - Hu HD Ed X4 Y4; lia).
      change (2 ^ 478) with (4 * 2 ^ 476) in H. clear - H PU PK. nia. }
    assert (E3 : 2 ^ (K + 238 + d) = 2 ^ (u + 2 + qe a)) by (f_equal; clear - Ed Hu; lia).
    rewrite E3 in En.
    assert (PQ : 0 < 2 ^ (u + 2 + qe a)) by (apply pow2_pos; clear - Hu A4; lia).
    assert (RP : 0 < p * 2 ^ K) by (apply Z.mul_pos_pos; [exact (proj1 PU)|exact PK]).
    assert (SB : 1 * 2 ^ (u + 2 + qe a) <= sg a * 2 ^ (u + 2 + qe a)) by (apply Z.mul_le_mono_nonneg_r; clear - PQ PA; lia).
    set (r := p * 2 ^ K) in *. set (big := 2 ^ (u + 2 + qe a)) in *. set (ab := sg a * big) in *.
    assert (SGN : 4 * n <> 0 /\ (if 4 * n <? 0 then 1 else 0) = ss /\ (Z.abs (4 * n) = ab + r \/ Z.abs (4 * n) = ab - r)).
    { rewrite En. clear - SB RP RB Hsp Hss. unfold sg1.
      destruct Hsp as [->| ->], Hss as [->| ->]; (split; [lia|split; [|lia]]); [rewrite ltb_false|rewrite ltb_true|rewrite ltb_false|rewrite ltb_true]; lia. }
    destruct SGN as (N0 & NS & NA').
    unfold rnd_signed. replace (4 * n =? 0) with false by (symmetry; apply Z.eqb_neq; auto).
    rewrite NS. do 3 f_equal. symmetry. apply (fma_rnd_a (sg a) (qe a) r _ (u + 2)); auto.
    exact (proj1 A4). clear - Hu; lia. exact (conj SN (proj2 SA)). rewrite <- DA. exact (proj2 Ha).
Qed.

End Fma.

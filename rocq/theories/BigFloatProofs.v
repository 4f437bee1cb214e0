(** * BigFloatProofs: the operations of src/math/big_float.rs in terms of integers *)

From Coq Require Import ZArith Znumtheory Zpow_facts Lia Bool.
From Verif Require Import Base BigUInt BigLaws BigUIntProofs BigExtra ZLemmas SpecLemmas Spec F256 F256Lemmas Arith SpecBig BigFloat RoundLemmas DivProofs BasicProofs SqrtProofs.
Open Scope Z_scope.

Section BigFloatProofs.
Context {P : profile}.

Definition i30 (e : Z) : Prop := - 2 ^ 30 <= e < 2 ^ 30.
Definition nrm (m : Z) : Prop := 2 ^ 254 <= m < 2 ^ 255.
Definition sg1 (s : Z) : Prop := s = 1 \/ s = -1.

Lemma hi256 a : hi (of256 a) = of128 (a / 2 ^ 128).
Proof. reflexivity. Qed.

Lemma lzhi a : 0 <= a < 2 ^ 256 -> leading_zeros (hi (of256 a)) = nlz 128 (a / 2 ^ 128).
Proof.
  intros H. rewrite hi256. apply (L_lz _ L128). change (2 ^ BITS) with (2 ^ 128).
  apply div_bound. lia. change (2 ^ 128 * 2 ^ 128) with (2 ^ 256). lia.
Qed.

Lemma nlz_at w a k : 0 <= k -> 2 ^ k <= a < 2 ^ (k + 1) -> nlz w a = w - 1 - k.
Proof.
  intros Hk H. pose proof (pow2_pos k Hk). unfold nlz. destruct (Z.eqb_spec a 0). lia.
  rewrite (Z.log2_unique a k); auto.
Qed.

Lemma lzhi_at a k : 128 <= k < 256 -> 2 ^ k <= a < 2 ^ (k + 1) -> leading_zeros (hi (of256 a)) = 255 - k.
Proof.
  intros Hk H. assert (2 ^ (k + 1) <= 2 ^ 256) by (apply Z.pow_le_mono_r; lia). assert (0 < 2 ^ k) by (apply pow2_pos; lia).
  rewrite lzhi by lia. rewrite (nlz_at _ _ (k - 128)). lia. lia.
  assert (E : 2 ^ k = 2 ^ 128 * 2 ^ (k - 128)) by (rewrite <- pow2_add by lia; f_equal; lia).
  assert (E' : 2 ^ (k + 1) = 2 ^ 128 * 2 ^ (k - 128 + 1)) by (rewrite <- pow2_add by lia; f_equal; lia).
  split. apply Z.div_le_lower_bound; lia. apply Z.div_lt_upper_bound; lia.
Qed.

Lemma lzhi_nrm a : nrm a -> leading_zeros (hi (of256 a)) = 1.
Proof. intros H. apply (lzhi_at a 254); unfold nrm in *. lia. exact H. Qed.

Lemma lz_at a k : 0 <= k < 256 -> 2 ^ k <= a < 2 ^ (k + 1) -> leading_zeros (of256 a) = 255 - k.
Proof.
  intros Hk H. assert (2 ^ (k + 1) <= 2 ^ 256) by (apply Z.pow_le_mono_r; lia). assert (0 < 2 ^ k) by (apply pow2_pos; lia).
  rewrite lz256 by lia. apply (nlz_at 256); lia.
Qed.

Lemma u256_lit h l : 0 <= l < 2 ^ 128 -> u256 h l = of256 (h * 2 ^ 128 + l).
Proof. apply u256_of. Qed.

Lemma TIE_of : BF_TIE = of256 (2 ^ 255).
Proof. unfold BF_TIE. rewrite u256_of by lia. reflexivity. Qed.

Lemma ONE_of : SIGNIF_ONE = of256 (2 ^ 254).
Proof. unfold SIGNIF_ONE. rewrite u256_of by lia. reflexivity. Qed.

(** ** Multiplication *)

Lemma mk512 a : mk (of256 (a / 2 ^ 256)) (of256 (a mod 2 ^ 256)) = of512 a.
Proof. reflexivity. Qed.

Lemma mk512lo a : 0 <= a < 2 ^ 256 -> (mk uzero (of256 a) : U512) = of512 a.
Proof. intros. rewrite <- mk512. rewrite Z.div_small, Z.mod_small by auto. reflexivity. Qed.

Lemma odd256 a : 0 <= a < 2 ^ 256 -> is_odd (of256 a) = Z.odd a.
Proof. intros. apply (L_odd _ L256). exact H. Qed.

Lemma wmul256 a b : 0 <= a < 2 ^ 256 -> 0 <= b < 2 ^ 256 ->
  wmul (of256 a) (of256 b) = Some (of256 ((a * b) mod 2 ^ 256), of256 ((a * b) / 2 ^ 256)).
Proof. intros. apply (L_wmul _ L256); auto. Qed.

Lemma shl512s a n : 0 <= a -> 0 <= n < 512 -> a * 2 ^ n < 2 ^ 512 -> ushl (of512 a) n = Some (of512 (a * 2 ^ n)).
Proof.
  intros. pose proof (pow2_pos n ltac:(lia)). rewrite (L_shl _ L512); try (change BITS with 512; nia).
  change (2 ^ BITS) with (2 ^ 512). rewrite Z.mod_small by nia. reflexivity.
Qed.

Lemma mul_range x y : nrm x -> nrm y -> 2 ^ 508 <= x * y < 2 ^ 510 - 2 ^ 255.
Proof. unfold nrm. intros. change (2 ^ 508) with (2 ^ 254 * 2 ^ 254). change (2 ^ 510) with (2 ^ 255 * 2 ^ 255). nia. Qed.

Definition mk_k (p : Z) : Z := if p <? 2 ^ 509 then 254 else 255.

Lemma mul_signifs_ok x y : nrm x -> nrm y ->
  bf_mul_signifs (of256 x) (of256 y) = Some (of512 (x * y * 2 ^ (256 - mk_k (x * y))), mk_k (x * y) - 254).
Proof.
  intros Hx Hy. pose proof (mul_range x y Hx Hy) as R. unfold bf_mul_signifs.
  rewrite !lzhi_nrm by auto. rewrite !dassert_ok by reflexivity. rewrite !bind_Some.
  unfold nrm in *. rewrite wmul256 by lia. rewrite bind_Some. cbv beta iota.
  set (p := x * y) in *. clearbody p. rewrite mk512. unfold mk_k.
  destruct (Z.ltb_spec p (2 ^ 509)).
  - rewrite (lz_at _ 252); [|lia|split; [apply Z.div_le_lower_bound|apply Z.div_lt_upper_bound]; lia].
    change (255 - 252) with 3. rewrite subu_ok by lia. rewrite bind_Some. rewrite shl512s by lia. rewrite bind_Some. reflexivity.
  - rewrite (lz_at _ 253); [|lia|split; [apply Z.div_le_lower_bound|apply Z.div_lt_upper_bound]; lia].
    change (255 - 253) with 2. rewrite subu_ok by lia. rewrite bind_Some. rewrite shl512s by lia. rewrite bind_Some. reflexivity.
Qed.

(** Rounding the top half of a 512 bit number *)
Lemma rne_split p k : 0 <= p -> 0 < k <= 256 ->
  let w := p * 2 ^ (256 - k) in
  w / 2 ^ 256 + b2z ((2 ^ 255 <? w mod 2 ^ 256) || ((w mod 2 ^ 256 =? 2 ^ 255) && Z.odd (w / 2 ^ 256))) = rne_div p (2 ^ k).
Proof.
  intros Hp Hk w. pose proof (pow2_pos k ltac:(lia)). pose proof (pow2_pos (256 - k) ltac:(lia)).
  rewrite <- (rne_div_mul p (2 ^ k) (2 ^ (256 - k))) by lia.
  replace (2 ^ k * 2 ^ (256 - k)) with (2 ^ 256) by (rewrite <- pow2_add by lia; f_equal; lia). fold w.
  unfold rne_div. generalize (w / 2 ^ 256). intros q. pose proof (Z.mod_pos_bound w (2 ^ 256) ltac:(lia)). set (r := w mod 2 ^ 256) in *. clearbody r.
  replace (2 ^ 256 <? 2 * r) with (2 ^ 255 <? r) by (destruct (Z.ltb_spec (2 ^ 255) r), (Z.ltb_spec (2 ^ 256) (2 * r)); auto; lia).
  replace (2 * r =? 2 ^ 256) with (r =? 2 ^ 255) by (destruct (Z.eqb_spec r (2 ^ 255)), (Z.eqb_spec (2 * r) (2 ^ 256)); auto; lia).
  destruct (_ || _); cbn [b2z]; lia.
Qed.

Lemma mul_ok s t ex ey x y : sg1 s -> sg1 t -> nrm x -> nrm y -> i30 ex -> i30 ey ->
  let k := mk_k (x * y) in let r := rne_div (x * y) (2 ^ k) in
  bf_mul (BF s ex (of256 x)) (BF t ey (of256 y))
  = Some (BF (s * t) (ex + (ey + (k - 254))) (of256 (if r =? 2 ^ 255 then 2 ^ 254 else r)))
  /\ 2 ^ 254 <= r <= 2 ^ 255.
Proof.
  intros Hs Ht Hx Hy Hex Hey k r. pose proof (mul_range x y Hx Hy) as R.
  assert (Hk : k = 254 /\ x * y < 2 ^ 509 \/ k = 255 /\ 2 ^ 509 <= x * y).
  { subst k. unfold mk_k. destruct (Z.ltb_spec (x * y) (2 ^ 509)); auto. }
  assert (Hr : 2 ^ 254 <= r <= 2 ^ 255).
  { unfold r. split. apply rne_div_ge_bound. apply pow2_pos; lia. 2: apply rne_div_le_bound; [apply pow2_pos; lia|].
    all: destruct Hk as [[-> ?]|[-> ?]]; lia. }
  split; auto. unfold bf_mul. cbn [bf_signum bf_exp bf_signif].
  assert (S1 : s * t = 1 \/ s * t = -1) by (destruct Hs, Ht; subst; lia).
  unfold muls. rewrite chks_ok by lia. rewrite bind_Some.
  destruct (Z.eqb_spec (s * t) 0). lia. rewrite mul_signifs_ok by auto. rewrite bind_Some. cbv beta iota. fold k.
  set (p := x * y) in *. set (w := p * 2 ^ (256 - k)).
  change (hi (of512 w)) with (of256 (w / 2 ^ 256)). change (lo (of512 w)) with (of256 (w mod 2 ^ 256)).
  pose proof (rne_split p k ltac:(lia) ltac:(lia)) as RS. cbv zeta in RS. fold w in RS. fold r in RS.
  pose proof (Z.mod_pos_bound w (2 ^ 256) ltac:(lia)) as MB.
  assert (HW : 2 ^ 254 <= w / 2 ^ 256 < 2 ^ 255).
  { unfold w. split. apply Z.div_le_lower_bound. lia. 2: apply Z.div_lt_upper_bound. 2: lia.
    all: destruct Hk as [[-> ?]|[-> ?]]; lia. }
  rewrite TIE_of. rewrite ugt256, ueqb256, odd256 by lia. rewrite incr_if256 by lia. rewrite RS. clearbody w r p.
  destruct (Z.eqb_spec r (2 ^ 255)) as [->|].
  - rewrite (lzhi_at _ 255) by lia. change (b2z (255 - 255 =? 0)) with 1. rewrite shr256 by lia. rewrite bind_Some.
    unfold i30 in *. rewrite adds_ok by lia. rewrite bind_Some. rewrite adds_ok by lia. rewrite bind_Some. reflexivity.
  - rewrite lzhi_nrm by (unfold nrm; lia). change (b2z (1 =? 0)) with 0. rewrite shr256 by lia. rewrite bind_Some.
    change (2 ^ 0) with 1. rewrite Z.div_1_r.
    unfold i30 in *. rewrite adds_ok by lia. rewrite bind_Some. rewrite adds_ok by lia. rewrite bind_Some. reflexivity.
Qed.

(** ** Division *)

Lemma rem_nrm x y : nrm x -> nrm y -> urem (of256 x) (of256 y) = Some (of256 (if x <? y then x else x - y)).
Proof.
  intros Hx Hy. unfold urem, nrm in *.
  change (div_rem (of256 x) (of256 y)) with (uint_div_rem_fuel 64 (of256 x) (of256 y)).
  destruct (Z.ltb_spec x y).
  - rewrite (div_rem_lt of128 L128 61). reflexivity. lia. lia.
    change (2 ^ BITS * 2 ^ BITS) with (2 ^ 256). change (2 ^ BITS) with (2 ^ 128). lia.
  - assert (E1 : x / y = 1) by (apply div_eq with (x - y); lia).
    assert (E2 : x mod y = x - y) by (apply mod_eq with 1; lia).
    assert (N : nlz 128 (x / 2 ^ 128) = 1).
    { apply (nlz_at 128 _ 126). lia. split; [apply Z.div_le_lower_bound|apply Z.div_lt_upper_bound]; lia. }
    assert (Q1 : 2 ^ 127 <= x * 2 / 2 ^ 128 < 2 ^ 128) by (split; [apply Z.div_le_lower_bound|apply Z.div_lt_upper_bound]; lia).
    assert (Q2 : 2 ^ 127 <= y * 2 / 2 ^ 128 < 2 ^ 128) by (split; [apply Z.div_le_lower_bound|apply Z.div_lt_upper_bound]; lia).
    assert (Q3 : y * 2 / 2 ^ 128 <= x * 2 / 2 ^ 128) by (apply Z.div_le_mono; lia).
    assert (Q : (x * 2 / 2 ^ 128) / (y * 2 / 2 ^ 128) = 1) by (apply div_eq with (x * 2 / 2 ^ 128 - y * 2 / 2 ^ 128); lia).
    rewrite (div_rem_full_ok of128 L128 60 x y).
    + rewrite bind_Some. rewrite E2. reflexivity.
    + change (2 ^ BITS * 2 ^ BITS) with (2 ^ 256). lia.
    + change (2 ^ BITS * 2 ^ BITS) with (2 ^ 256). change (2 ^ BITS) with (2 ^ 128). lia.
    + lia.
    + unfold qest. change (2 ^ BITS) with (2 ^ 128). change (@BITS U128 U128_ops) with 128.
      rewrite N. change (2 ^ 1) with 2. unfold udiv.
      set (a := x * 2 / 2 ^ 128) in *. set (b := y * 2 / 2 ^ 128) in *. clearbody a b.
      change (of128 a) with (mk128 a). change (of128 b) with (mk128 b).
      rewrite div128 by lia. rewrite bind_Some. reflexivity.
    + left. unfold qest. change (2 ^ BITS) with (2 ^ 128). change (@BITS U128 U128_ops) with 128.
      rewrite N. change (2 ^ 1) with 2. rewrite Q, E1. reflexivity.
Qed.

(** A quotient of normal significands is never half way between two numbers of 255 bits. *)
Lemma no_tie y n q : nrm y -> n * 2 ^ 255 <> y * (2 * q + 1).
Proof.
  intros Hy E. assert (D : (2 ^ 255 | y)).
  { apply Gauss with (2 * q + 1). exists n. lia.
    apply rel_prime_sym. apply rel_prime_Zpower_r. lia. apply rel_prime_sym. apply bezout_rel_prime. 
    apply Bezout_intro with (-q) 1. ring. }
  apply Z.divide_pos_le in D; unfold nrm in *; lia.
Qed.

Lemma half_gt y n : nrm y -> (y / 2 <? n * 2 ^ 254 mod y) = (y <? 2 * (n * 2 ^ 254 mod y)) /\ 2 * (n * 2 ^ 254 mod y) <> y.
Proof.
  intros Hy. pose proof (no_tie y n (n * 2 ^ 254 / y) Hy) as T. unfold nrm in *.
  pose proof (Z.div_mod (n * 2 ^ 254) y ltac:(lia)) as D. set (q := n * 2 ^ 254 / y) in *. set (r := n * 2 ^ 254 mod y) in *.
  assert (T' : 2 * r <> y). { intros E. apply T. change (2 ^ 255) with (2 ^ 254 * 2). lia. }
  clearbody q r. split; auto. pose proof (Z.div_mod y 2 ltac:(lia)). pose proof (Z.mod_pos_bound y 2 ltac:(lia)).
  destruct (Z.ltb_spec (y / 2) r), (Z.ltb_spec y (2 * r)); auto; lia.
Qed.

Lemma rne_notie n y : nrm y -> rne_div (n * 2 ^ 254) y = n * 2 ^ 254 / y + b2z (y / 2 <? n * 2 ^ 254 mod y).
Proof.
  intros Hy. destruct (half_gt y n Hy) as [E T]. rewrite E. unfold rne_div.
  replace (2 * (n * 2 ^ 254 mod y) =? y) with false by (symmetry; apply Z.eqb_neq; auto). cbn [andb]. rewrite orb_false_r.
  generalize (n * 2 ^ 254 / y). intros q. generalize (y <? 2 * (n * 2 ^ 254 mod y)). intros [];
  cbn [b2z].
  all: lia.
Qed.

Lemma special512 a b : 0 <= a -> 0 < b < 2 ^ 256 -> a < b * 2 ^ 256 ->
  div_rem_special (of512 a) (of256 b) = Some (of512 (a / b), of256 (a mod b)).
Proof. intros. apply (special_ok of256 L256); auto. Qed.

Lemma div_signifs_ok x y : nrm x -> nrm y ->
  bf_div_signifs (of256 x) (of256 y)
  = Some (of256 (if x <? y then 2 * rne_div (x * 2 ^ 254) y else rne_div (x * 2 ^ 254) y), b2z (x <? y))
  /\ (if x <? y then 2 ^ 253 <= rne_div (x * 2 ^ 254) y < 2 ^ 254 else nrm (rne_div (x * 2 ^ 254) y)).
Proof.
  intros Hx Hy. unfold bf_div_signifs. rewrite !lzhi_nrm by auto. rewrite !(dassert_ok (1 =? 1)) by reflexivity. rewrite !bind_Some.
  rewrite rem_nrm by auto. rewrite ult256 by (unfold nrm in *; lia).
  set (n := if x <? y then x else x - y).
  assert (Hn : 0 <= n < y) by (unfold n, nrm in *; destruct (Z.ltb_spec x y); lia).
  assert (Hq : u256 (shlc 128 (b2z (b2z (x <? y) =? 0)) 126) 0 = of256 (if x <? y then 0 else 2 ^ 254)).
  { rewrite u256_of by lia. destruct (x <? y); reflexivity. }
  rewrite Hq. clear Hq.
  rewrite dassert_ok. 2:{ destruct (x <? y); [|reflexivity]. rewrite orb_true_r by reflexivity. reflexivity. }
  rewrite !bind_Some. unfold nrm in *. rewrite mk512lo by lia.
  unfold BF_FRACTION_BITS. rewrite shl512s by lia. rewrite bind_Some.
  rewrite special512 by lia. rewrite bind_Some. cbv beta iota.
  set (q := n * 2 ^ 254 / y). pose proof (Z.div_mod (n * 2 ^ 254) y ltac:(lia)) as D. pose proof (Z.mod_pos_bound (n * 2 ^ 254) y ltac:(lia)) as B.
  assert (Q : 0 <= q < 2 ^ 254) by (unfold q; split; [apply Z.div_pos|apply Z.div_lt_upper_bound]; lia).
  change (hi (of512 q)) with (of256 (q / 2 ^ 256)). change (lo (of512 q)) with (of256 (q mod 2 ^ 256)).
  rewrite (Z.div_small q), (Z.mod_small q) by lia.
  change (uzero : U256) with (of256 0). rewrite ueqb256 by lia. rewrite dassert_ok by reflexivity. rewrite bind_Some.
  rewrite lz256 by lia. rewrite dassert_ok.
  2:{ apply Z.leb_le. unfold nlz. destruct (Z.eqb_spec q 0); [lia|]. assert (Z.log2 q < 254) by (apply Z.log2_lt_pow2; lia). lia. }
  rewrite bind_Some. rewrite add256 by (destruct (x <? y); lia). rewrite bind_Some. rewrite shr256 by lia. rewrite bind_Some.
  rewrite ugt256 by first [lia | change (2 ^ 1) with 2; split; [apply Z.div_pos|apply Z.div_lt_upper_bound]; lia]. change (2 ^ 1) with 2.
  rewrite incr_if256 by (destruct (x <? y); lia).
  assert (R : (if x <? y then 0 else 2 ^ 254) + q + b2z (y / 2 <? n * 2 ^ 254 mod y) = rne_div (x * 2 ^ 254) y).
  { rewrite rne_notie by auto. unfold q, n. destruct (Z.ltb_spec x y); [lia|].
    replace (x * 2 ^ 254) with ((x - y) * 2 ^ 254 + 2 ^ 254 * y) by ring. rewrite Z.div_add, Z.mod_add by lia. lia. }
  rewrite R. clear R.
  pose proof (rne_div_spec (x * 2 ^ 254) y ltac:(lia)) as (R1 & R2 & _). set (r := rne_div (x * 2 ^ 254) y) in *. clearbody r. clear D B Q. clearbody q n.
  destruct (Z.ltb_spec x y); cbn [b2z].
  - assert (2 ^ 253 <= r < 2 ^ 254) by (clear - R1 R2 H Hx Hy; nia).
    rewrite (lzhi_at r 253) by lia. change (255 - 253) with 2. rewrite subu_ok by lia. rewrite bind_Some.
    rewrite shl256s by lia. rewrite bind_Some. split; auto. do 3 f_equal. lia.
  - assert (2 ^ 254 <= r < 2 ^ 255) by (clear - R1 R2 H Hx Hy; nia).
    rewrite (lzhi_at r 254) by lia. change (255 - 254) with 1. rewrite subu_ok by lia. rewrite bind_Some.
    rewrite shl256s by lia. rewrite bind_Some. split; auto. do 3 f_equal. lia.
Qed.

Lemma div_ok s t ex ey x y : sg1 s -> sg1 t -> nrm x -> nrm y -> i30 ex -> i30 ey ->
  let r := rne_div (x * 2 ^ 254) y in
  bf_div (BF s ex (of256 x)) (BF t ey (of256 y))
  = Some (BF (s * t) (ex - (ey + b2z (x <? y))) (of256 (if x <? y then 2 * r else r))).
Proof.
  intros Hs Ht Hx Hy Hex Hey r. unfold bf_div. unfold bf_is_zero. cbn [bf_signum bf_exp bf_signif].
  replace (t =? 0) with false by (symmetry; apply Z.eqb_neq; destruct Ht; lia). cbn [negb assert]. rewrite bind_Some.
  replace (s =? 0) with false by (symmetry; apply Z.eqb_neq; destruct Hs; lia).
  rewrite muls_ok by (destruct Hs, Ht; subst; lia). rewrite bind_Some.
  destruct (div_signifs_ok x y Hx Hy) as [-> _]. rewrite bind_Some. cbv beta iota. fold r.
  unfold i30 in *. rewrite adds_ok by (destruct (x <? y); cbn [b2z]; lia). rewrite bind_Some.
  rewrite subs_ok by (destruct (x <? y); cbn [b2z]; lia). rewrite bind_Some. reflexivity.
Qed.

(** ** Square root *)

Lemma is_zero512 a : 0 <= a < 2 ^ 512 -> is_zero (of512 a) = (a =? 0).
Proof. intros. apply (D_is_zero _ L512). exact H. Qed.
Lemma ult512 a b : 0 <= a < 2 ^ 512 -> 0 <= b < 2 ^ 512 -> ult (of512 a) (of512 b) = (a <? b).
Proof. intros. apply (D_ult _ L512); auto. Qed.
Lemma add512 a b : 0 <= a -> 0 <= b -> a + b < 2 ^ 512 -> uadd (of512 a) (of512 b) = Some (of512 (a + b)).
Proof. intros. apply (L_add _ L512); change (2 ^ BITS) with (2 ^ 512); lia. Qed.
Lemma sub512 a b : 0 <= b <= a -> a < 2 ^ 512 -> usub (of512 a) (of512 b) = Some (of512 (a - b)).
Proof. intros. apply (L_sub _ L512); try change (2 ^ BITS) with (2 ^ 512); lia. Qed.

Lemma bf_sqrt_loop_ok Y n : forall q r, (n <= 255)%nat ->
  r * 2 ^ 255 = 2 ^ (255 - Z.of_nat n) * (Y - q * q) -> 0 <= r < 2 * q + 2 ^ Z.of_nat n ->
  2 ^ 255 <= q -> q + 2 ^ Z.of_nat n <= 2 ^ 256 ->
  exists q' r', bf_sqrt_loop n (of256 q) (of512 r) (of256 (2 ^ Z.of_nat n)) = Some (of256 q', of512 r')
    /\ q' * q' <= Y < (q' + 1) * (q' + 1) /\ 0 <= r' < 2 ^ 258 /\ (r' = 0 <-> Y = q' * q') /\ 2 ^ 255 <= q' < 2 ^ 256.
Proof.
  induction n; intros q r Hn E Hr Hq Hb.
  - change (Z.of_nat 0) with 0 in *. change (2 ^ 0) with 1 in *. rewrite Z.sub_0_r in E.
    cbn [bf_sqrt_loop]. exists q, r. split; auto.
    assert (r = Y - q * q) by (apply Z.mul_reg_r with (2 ^ 255); lia).
    split; [lia|]. split; lia.
  - cbn [bf_sqrt_loop]. set (k := Z.of_nat n) in *.
    replace (Z.of_nat (S n)) with (k + 1) in * by lia.
    assert (Hk : 0 <= k < 255) by lia.
    assert (Ek : 2 ^ (k + 1) = 2 * 2 ^ k) by (rewrite pow2_S by lia; reflexivity).
    assert (E7 : 2 ^ (255 - k) = 2 * 2 ^ (255 - (k + 1))) by (rewrite <- pow2_S by lia; f_equal; lia).
    assert (Es : 2 ^ (255 - k) * 2 ^ k = 2 ^ 255) by (rewrite <- pow2_add by lia; f_equal; lia).
    pose proof (pow2_pos k ltac:(lia)) as Pk. pose proof (pow2_pos (255 - (k + 1)) ltac:(lia)) as P7.
    rewrite is_zero512 by lia.
    destruct (Z.eqb_spec r 0) as [->|R0].
    { exists q, 0. split; auto. rewrite Z.mul_0_l in E. symmetry in E. apply Z.eq_mul_0_r in E; [|lia].
      assert (Y = q * q) by lia. lia. }
    rewrite shr256 by lia. rewrite bind_Some. change (2 ^ 1) with 2.
    rewrite Ek, Z.mul_comm, Z.div_mul by lia.
    rewrite !mk512lo by lia.
    rewrite shl512s by lia. rewrite bind_Some. rewrite shl512s by lia. rewrite bind_Some. change (2 ^ 1) with 2.
    rewrite add512 by lia. rewrite bind_Some. rewrite ult512 by lia.
    destruct (Z.ltb_spec (r * 2) (q * 2 + 2 ^ k)).
    + apply IHn; try lia.
    + rewrite add256 by lia. rewrite bind_Some. rewrite sub512 by lia. rewrite bind_Some.
      apply IHn; try lia.
      transitivity (2 * (r * 2 ^ 255) - 2 ^ (255 - k) * 2 ^ k * (q * 2 + 2 ^ k)). rewrite Es. ring. rewrite E, E7. ring.
Qed.

Lemma bf_sqrt_ok e x : nrm x -> i30 e ->
  exists w, bf_sqrt (BF 1 e (of256 x)) = Some (BF 1 (e / 2) (of256 w)) /\ nrm w
    /\ let Y := x * 2 ^ (1 + e mod 2) * 2 ^ 255 in (2 * w - 1) * (2 * w - 1) < Y < (2 * w + 1) * (2 * w + 1).
Proof.
  intros Hx He. unfold bf_sqrt. cbn [bf_signum bf_exp bf_signif]. change (0 <=? 1) with true. rewrite dassert_ok by reflexivity. rewrite bind_Some.
  change (1 =? 0) with false. cbv iota. unfold i30, nrm in *.
  pose proof (Z.div_mod e 2 ltac:(lia)) as De. pose proof (Z.mod_pos_bound e 2 ltac:(lia)) as Be.
  set (o := e mod 2) in *. set (e' := e / 2) in *. rewrite subs_ok by lia. rewrite bind_Some.
  replace ((e - o) / 2) with e' by (replace (e - o) with (e' * 2) by lia; rewrite Z.div_mul by lia; reflexivity).
  rewrite ONE_of. rewrite shl256s by lia. rewrite bind_Some. rewrite !mk512lo by lia.
  change (2 ^ 254 * 2 ^ 1) with (2 ^ 255).
  set (X := x * 2 ^ (1 + o)).
  assert (HX : 2 ^ 255 <= X <= 2 ^ 257 - 4).
  { unfold X. assert (O : o = 0 \/ o = 1) by lia. destruct O as [-> | ->].
    change (2 ^ (1 + 0)) with 2. lia. change (2 ^ (1 + 1)) with 4. lia. }
  rewrite shl512s by (fold X; lia). rewrite bind_Some. fold X. rewrite sub512 by lia. rewrite bind_Some.
  destruct (bf_sqrt_loop_ok (X * 2 ^ 255) 255 (2 ^ 255) (X - 2 ^ 255)) as (q & r & EL & HQ & HR & HR0 & HQb).
  { lia. } { change (Z.of_nat 255) with 255. change (2 ^ (255 - 255)) with 1. lia. }
  { change (Z.of_nat 255) with 255. lia. } { lia. } { change (Z.of_nat 255) with 255. lia. }
  change (2 ^ Z.of_nat 255) with (2 ^ 255) in EL. rewrite EL. rewrite bind_Some. cbv beta iota. clear EL.
  assert (EY : Z.even (X * 2 ^ 255) = true). { rewrite Z.even_mul. change (Z.even (2 ^ 255)) with true. apply orb_true_r. }
  change 3 with (2 ^ 2 - 1). rewrite xlo_land by lia. change (2 ^ 2) with 4. change (4 - 1) with 3.
  pose proof (Z.div_mod q 4 ltac:(lia)) as D4. pose proof (Z.mod_pos_bound q 4 ltac:(lia)) as B4.
  rewrite is_zero512 by lia.
  assert (RB : ((q mod 4 =? 3) || ((q mod 4 =? 1) && negb (r =? 0))) = Z.odd q).
  { assert (OQ : Z.odd q = Z.odd (q mod 4)).
    { rewrite D4 at 1. rewrite Z.odd_add, Z.odd_mul. change (Z.odd 4) with false. cbn [andb]. destruct (Z.odd (q mod 4)); reflexivity. }
    rewrite OQ. assert (C : q mod 4 = 0 \/ q mod 4 = 1 \/ q mod 4 = 2 \/ q mod 4 = 3) by lia.
    destruct C as [C|[C|[C|C]]]; rewrite C in *; try reflexivity.
    destruct (Z.eqb_spec r 0) as [R0|R0]; [|reflexivity]. exfalso.
    apply HR0 in R0. rewrite R0 in EY. rewrite Z.even_mul in EY. rewrite <- Z.negb_odd, OQ in EY. discriminate. }
  rewrite RB. clear RB.
  assert (Q1 : q <> 2 ^ 256 - 1).
  { intros ->. assert (X * 2 ^ 255 <= (2 ^ 257 - 4) * 2 ^ 255) by (apply Z.mul_le_mono_nonneg_r; lia). lia. }
  rewrite incr_if256 by lia. pose proof (b2z_bound (Z.odd q)) as BO.
  rewrite shr256 by lia. rewrite bind_Some. change (2 ^ 1) with 2.
  pose proof (sqrt_round (X * 2 ^ 255) q HQ EY ltac:(lia)) as RN. cbv zeta in RN.
  set (w := (q + b2z (Z.odd q)) / 2) in *.
  assert (Hw : 2 ^ 254 <= w < 2 ^ 255).
  { unfold w. split. apply Z.div_le_lower_bound; lia. apply Z.div_lt_upper_bound; lia. }
  exists w. split; [|split; [exact Hw|exact RN]].
  unfold bf_new. rewrite xhi_of, xlo_of. change (mk128 (w / 2 ^ 128)) with (hi (of256 w)).
  rewrite lzhi_nrm by exact Hw. rewrite dassert_ok by reflexivity. rewrite bind_Some. do 2 f_equal.
Qed.

(** ** Conversions *)

Lemma from_f256_ok v : 0 <= v < 2 ^ 256 -> 0 < v mod 2 ^ 255 < INFm ->
  let a := v mod 2 ^ 255 in let L := Z.log2 (sg a) in
  bf_from_f256 (of256 v) = Some (BF (if v / 2 ^ 255 =? 0 then 1 else -1) (qe a + L - 262378) (of256 (sg a * 2 ^ (254 - L))))
  /\ nrm (sg a * 2 ^ (254 - L)) /\ 0 <= qe a < 2 ^ 19 /\ 0 <= L <= 236.
Proof.
  intros Hv Ha a L. fold a in Ha. assert (Ha' : 0 < a < 524287 * 2 ^ 236) by exact Ha.
  pose proof (sg_bound a ltac:(lia)) as SB. pose proof (sg_pos a ltac:(lia)) as SP.
  pose proof (log2_bound (sg a) 237 ltac:(lia)) as LB. fold L in LB.
  pose proof (norm_shift_bound (sg a) 254 ltac:(lia) ltac:(fold L; lia)) as NB. fold L in NB. change (254 + 1) with 255 in NB.
  destruct (exp_sub_norm a Ha) as (E1 & E2 & QE & QB & QA).
  pose proof (b2z_bound (2 ^ 236 <=? a)) as BB.
  split; [|split; [exact NB|lia]].
  unfold bf_from_f256. rewrite eq_zero_of. unfold zerob, mag. fold a. replace (a =? 0) with false by (symmetry; apply Z.eqb_neq; lia).
  rewrite abs_bits_of. fold a. unfold HI_EXP_MASK. rewrite xhi_ltb by lia.
  rewrite dassert_ok by (apply Z.ltb_lt; lia). rewrite bind_Some.
  rewrite is_zero256 by lia. rewrite dassert_ok by (apply negb_true_iff, Z.eqb_neq; lia). rewrite bind_Some.
  rewrite signif_of by lia. rewrite lz256 by lia. unfold nlz. replace (sg a =? 0) with false by (symmetry; apply Z.eqb_neq; lia). fold L.
  unfold BF_FRACTION_BITS, FRACTION_BITS. rewrite subu_ok by lia. rewrite bind_Some.
  replace (256 - 1 - L - (256 - 254 - 1)) with (254 - L) by lia.
  rewrite E1, E2. rewrite !casts_ok by lia.
  rewrite adds_ok by lia. rewrite bind_Some. rewrite subs_ok by lia. rewrite bind_Some. unfold EXP_BIAS. rewrite subs_ok by lia. rewrite bind_Some.
  rewrite subs_ok by lia. rewrite bind_Some. rewrite adds_ok by lia. rewrite bind_Some.
  rewrite shift_left_ok by lia. rewrite bind_Some. rewrite sign_of by auto.
  do 2 f_equal. lia. f_equal. apply Z.mod_small. lia.
Qed.

Lemma rnd_mag_pow m k E : nrm m -> 0 <= E -> E = k + 18 ->
  (if 0 <=? k then rnd_mag (m * 2 ^ k) 1 else rnd_mag m (2 ^ - k)) = Z.min INFm (E * 2 ^ 236 + rne_div m (2 ^ 18)).
Proof.
  intros Hm HE Hk. unfold nrm in Hm. destruct (Z.leb_spec 0 k).
  - pose proof (pow2_pos k ltac:(lia)). rewrite (rnd_mag_at _ _ E); try lia.
    + f_equal. f_equal. rewrite Z.mul_1_l. replace (2 ^ E) with (2 ^ 18 * 2 ^ k) by (rewrite <- pow2_add by lia; f_equal; lia).
      apply rne_div_mul; lia.
    + replace (237 + E) with (255 + k) by lia. rewrite pow2_add by lia. nia.
    + right. replace (236 + E) with (254 + k) by lia. rewrite pow2_add by lia. nia.
  - pose proof (pow2_pos (- k) ltac:(lia)). rewrite (rnd_mag_at _ _ E); try lia.
    + f_equal. f_equal. f_equal. rewrite <- pow2_add by lia. f_equal; lia.
    + rewrite <- pow2_add by lia. replace (237 + E + - k) with 255 by lia. lia.
    + right. rewrite <- pow2_add by lia. replace (236 + E + - k) with 254 by lia. lia.
Qed.

Lemma rne18 m : nrm m ->
  m / 2 ^ 18 + b2z ((2 ^ 255 <? (m * 2 ^ (256 - 18)) mod 2 ^ 256) || (((m * 2 ^ (256 - 18)) mod 2 ^ 256 =? 2 ^ 255) && Z.odd (m / 2 ^ 18)))
  = rne_div m (2 ^ 18).
Proof.
  intros Hm. unfold nrm in Hm. destruct (rne_div_pow2_shift m 18 256 ltac:(lia) ltac:(lia)) as [E1 E2]. change (256 - 1) with 255 in *. rewrite E1, E2.
  unfold rne_div. destruct (_ || _); cbn [b2z]; lia.
Qed.

Lemma wshr256 a n : 0 <= a < 2 ^ 256 -> 0 <= n < 256 ->
  widening_shr (of256 a) n = Some (of256 (a / 2 ^ n), of256 ((a * 2 ^ (256 - n)) mod 2 ^ 256)).
Proof. intros. apply (D_widening_shr _ L256); auto. Qed.

Lemma sign_asm s b : sg1 s -> 0 <= b < 2 ^ 255 ->
  u256 (Z.lor (xhi (of256 b)) (shlc 128 (b2z (s <? 0)) HI_SIGN_SHIFT)) (xlo (of256 b)) = of256 (mkf (if s <? 0 then 1 else 0) b).
Proof.
  intros Hs Hb. pose proof (or_hi_sign b (if s <? 0 then 1 else 0) Hb) as E. unfold or_hi in E. unfold mkf. rewrite <- E.
  destruct Hs as [-> | ->]; reflexivity.
Qed.

Lemma to_f256_ok s e m : sg1 s -> nrm m -> - 2 ^ 31 <= e < 2 ^ 31 -> e <> -262379 \/ m = 2 ^ 254 ->
  f256_of_bf (BF s e (of256 m)) = Some (of256 (spec_of_big s e m)) /\ 0 <= spec_of_big s e m < 2 ^ 256.
Proof.
  intros Hs Hm He Hx.
  assert (K : exists b, 0 <= b < 2 ^ 255 /\ (let k := e - 254 + UNITe in if 0 <=? k then rnd_mag (m * 2 ^ k) 1 else rnd_mag m (2 ^ - k)) = b
    /\ f256_of_bf (BF s e (of256 m)) = Some (u256 (Z.lor (xhi (of256 b)) (shlc 128 (b2z (s <? 0)) HI_SIGN_SHIFT)) (xlo (of256 b)))).
  2:{ destruct K as (b & B & E & F). cbv zeta in E. unfold spec_of_big. cbv zeta. rewrite E, F, sign_asm by auto. split; auto.
      unfold mkf. destruct Hs as [-> | ->]; cbn [Z.ltb Z.compare]; lia. }
  cbv zeta. unfold UNITe. replace (e - 254 + 262378) with (e + 262124) by lia.
  unfold f256_of_bf, bf_is_zero. cbn [bf_signum bf_exp bf_signif].
  replace (s =? 0) with false by (symmetry; apply Z.eqb_neq; destruct Hs; lia).
  unfold EMIN, EMAX, SIGNIFICAND_BITS, BF_FRACTION_BITS, FRACTION_BITS. unfold nrm in Hm.
  destruct (Z.leb_spec e (-262142 - 237)) as [C1|C1].
  - exists 0. split; [lia|]. rewrite bind_Some. split; [|reflexivity].
    destruct (Z.leb_spec 0 (e + 262124)); [lia|]. set (n := - (e + 262124)). assert (Hn : 255 <= n) by lia.
    pose proof (pow2_le 255 n ltac:(lia)). rewrite (rnd_mag_at _ _ 0); try lia.
    rewrite Z.mul_0_l, Z.add_0_l. change (2 ^ 0) with 1. rewrite Z.mul_1_r.
    replace (rne_div m (2 ^ n)) with 0. reflexivity.
    symmetry. unfold rne_div. rewrite Z.div_small, Z.mod_small by lia. change (Z.odd 0) with false. rewrite andb_false_r, orb_false_r.
    destruct (Z.ltb_spec (2 ^ n) (2 * m)) as [C|C]; auto. exfalso.
    destruct (Z.eq_dec n 255) as [N|]. rewrite N in C. unfold n in N. destruct Hx as [Hx|Hx]; [|rewrite Hx in C]; lia.
    pose proof (pow2_le 256 n ltac:(lia)). lia.
  - destruct (Z.leb_spec e (-262142 - 1)) as [C2|C2].
    + rewrite subs_ok by lia. rewrite bind_Some. set (n := - (e + 262124)).
      replace (254 - 236 + (-262142 - e)) with n by lia. rewrite rdp256 by lia. rewrite bind_Some.
      destruct (Z.leb_spec 0 (e + 262124)); [lia|]. fold n. assert (Hn : 19 <= n <= 254) by lia. clearbody n.
      pose proof (pow2_le 19 n ltac:(lia)). 
      exists (rne_div m (2 ^ n)). assert (R : 0 <= rne_div m (2 ^ n) <= 2 ^ 236).
      { split. apply rne_div_ge_bound; lia. apply rne_div_le_bound; lia. }
      split; [lia|]. split; [|reflexivity]. rewrite (rnd_mag_at _ _ 0); try lia.
      rewrite Z.mul_0_l, Z.add_0_l. change (2 ^ 0) with 1. rewrite Z.mul_1_r. unfold INFm. lia.
    + set (E := e + 262142).
      assert (R : 2 ^ 236 <= rne_div m (2 ^ 18) <= 2 ^ 237) by (split; [apply rne_div_ge_bound|apply rne_div_le_bound]; lia).
      rewrite (rnd_mag_pow m (e + 262124) E) by (unfold nrm; lia).
      destruct (Z.leb_spec e 262143) as [C3|C3].
      * exists (E * 2 ^ 236 + rne_div m (2 ^ 18)). split; [lia|]. split; [unfold INFm; lia|].
        rewrite wshr256 by lia. rewrite bind_Some. cbv beta iota.
        rewrite subs_ok by lia. rewrite bind_Some. unfold EXP_BIAS. replace (262143 + (e - 1)) with E by lia.
        change (254 - 236) with 18.
        assert (Q : 2 ^ 236 <= m / 2 ^ 18 < 2 ^ 237) by (split; [apply Z.div_le_lower_bound|apply Z.div_lt_upper_bound]; lia).
        pose proof (asm_add (m / 2 ^ 18) E ltac:(lia) ltac:(lia) ltac:(lia)) as A.
        destruct (addu 128 (xhi (of256 (m / 2 ^ 18))) (shlc 128 E HI_FRACTION_BITS)) as [h|]; [|discriminate].
        rewrite !bind_Some in *.
        assert (A2 : u256 h (xlo (of256 (m / 2 ^ 18))) = of256 (E * 2 ^ 236 + m / 2 ^ 18))
          by exact (f_equal (fun o => match o with Some z => z | None => of256 0 end) A).
        rewrite A2. clear A A2 h.
        rewrite TIE_of. pose proof (Z.mod_pos_bound (m * 2 ^ (256 - 18)) (2 ^ 256) ltac:(lia)).
        rewrite ugt256, ueqb256 by lia. rewrite odd_lo by lia.
        replace (Z.odd (E * 2 ^ 236 + m / 2 ^ 18)) with (Z.odd (m / 2 ^ 18)).
        2:{ rewrite Z.odd_add, Z.odd_mul. change (Z.odd (2 ^ 236)) with false. rewrite andb_false_r. destruct (Z.odd (m / 2 ^ 18)); reflexivity. }
        pose proof (rne18 m Hm) as RR. rewrite <- RR.
        set (c := _ || _). destruct c; cbn [b2z].
        -- rewrite incr256 by lia. replace (E * 2 ^ 236 + m / 2 ^ 18 + 1) with (E * 2 ^ 236 + (m / 2 ^ 18 + 1)) by ring. reflexivity.
        -- rewrite Z.add_0_r. reflexivity.
      * exists INFm. split; [unfold INFm; lia|]. split; [unfold INFm; lia|]. reflexivity.
Qed.

(** ** Addition *)

Lemma add_signifs_ok a b : 0 <= b -> nrm a -> b <= a ->
  bf_add_signifs (of256 a) (of256 b) = Some (if a + b <? 2 ^ 255 then (of256 (a + b), 0) else (of256 ((a + b) / 2), 1)).
Proof.
  intros Hb Ha Hba. unfold bf_add_signifs. rewrite lzhi_nrm by auto. change (1 =? 1) with true. rewrite orb_true_l, dassert_ok by reflexivity. rewrite bind_Some.
  unfold nrm in *. rewrite add256 by lia. rewrite bind_Some. destruct (Z.ltb_spec (a + b) (2 ^ 255)).
  - rewrite lzhi_nrm by (unfold nrm; lia). reflexivity.
  - rewrite (lzhi_at _ 255) by lia. change (255 - 255 =? 0) with true. cbv iota. rewrite shr256 by lia. rewrite bind_Some. reflexivity.
Qed.

Lemma sub_signifs_ok a b : 0 <= b -> nrm a -> b <= a ->
  bf_sub_signifs (of256 a) (of256 b)
  = Some (if a =? b then (of256 0, -255) else (of256 ((a - b) * 2 ^ (254 - Z.log2 (a - b))), - (254 - Z.log2 (a - b)))).
Proof.
  intros Hb Ha Hba. unfold bf_sub_signifs. rewrite lzhi_nrm by auto. unfold nrm in *. rewrite uge256 by lia.
  rewrite dassert_ok by (apply Z.leb_le; auto). rewrite bind_Some. rewrite dassert_ok by reflexivity. rewrite bind_Some.
  rewrite sub256 by lia. rewrite bind_Some. rewrite lz256 by lia. unfold nlz.
  destruct (Z.eqb_spec a b) as [->|N].
  - rewrite Z.sub_diag. change (0 =? 0) with true. cbv iota. rewrite subu_ok by lia. rewrite bind_Some. rewrite shl256s by lia. rewrite bind_Some. reflexivity.
  - destruct (Z.eqb_spec (a - b) 0); [lia|]. set (D := a - b) in *. assert (HD : 0 < D < 2 ^ 255) by lia. clearbody D.
    pose proof (log2_bound D 255 ltac:(lia)) as LB. pose proof (norm_shift_bound D 254 ltac:(lia) ltac:(lia)) as NB. change (254 + 1) with 255 in NB.
    rewrite subu_ok by lia. rewrite bind_Some. replace (256 - 1 - Z.log2 D - 1) with (254 - Z.log2 D) by lia.
    rewrite shl256s by lia. rewrite bind_Some. rewrite casts_ok by lia. reflexivity.
Qed.

Definition ashift (x d : Z) : Z := x / 2 ^ d.

Definition add_res (s t e X Y : Z) : Z * Z * Z :=
  if s =? t then (if X + Y <? 2 ^ 255 then (s, e, X + Y) else (s, e + 1, (X + Y) / 2))
  else if X =? Y then (0, 0, 0)
  else let D := Z.abs (X - Y) in
       (if X <? Y then t else s, e - (254 - Z.log2 D), D * 2 ^ (254 - Z.log2 D)).

Definition bf_of (r : Z * Z * Z) : bigfloat := let '(s, e, m) := r in BF s e (of256 m).

Lemma shift_ok x d : nrm x -> 0 <= d <= 254 -> exists r,
  (if castu 32 d =? 0 then Some (of256 x, uzero) else widening_shr (of256 x) (castu 32 d)) = Some (of256 (ashift x d), r).
Proof.
  intros Hx Hd. unfold nrm in *. rewrite castu_ok by lia. unfold ashift. destruct (Z.eqb_spec d 0) as [->|].
  - change (2 ^ 0) with 1. rewrite Z.div_1_r. eexists. reflexivity.
  - rewrite wshr256 by lia. eexists. reflexivity.
Qed.

Lemma ashift_bound x d : nrm x -> 0 <= d -> 0 <= ashift x d < 2 ^ 255 /\ (d = 0 -> ashift x d = x) /\ (0 < d -> ashift x d < 2 ^ 254).
Proof.
  intros Hx Hd. unfold ashift, nrm in *. pose proof (pow2_pos d Hd). split; [|split].
  - split. apply Z.div_pos; lia. apply Z.div_lt_upper_bound; nia.
  - intros ->. change (2 ^ 0) with 1. apply Z.div_1_r.
  - intros. apply Z.div_lt_upper_bound; auto. pose proof (pow2_le 1 d ltac:(lia)). change (2 ^ 1) with 2 in *. nia.
Qed.

Lemma add_ok s t ex ey x y : sg1 s -> sg1 t -> nrm x -> nrm y -> i30 ex -> i30 ey ->
  let e := Z.max ex ey in
  bf_add (BF s ex (of256 x)) (BF t ey (of256 y))
  = Some (if 254 <? e - ex then BF t ey (of256 y) else if 254 <? e - ey then BF s ex (of256 x)
          else bf_of (add_res s t e (ashift x (e - ex)) (ashift y (e - ey)))).
Proof.
  intros Hs Ht Hx Hy Hex Hey e. unfold bf_add, bf_is_zero. cbn [bf_signum bf_exp bf_signif]. fold e.
  assert (He : i30 e /\ ex <= e /\ ey <= e /\ (e = ex \/ e = ey)) by (unfold i30, e in *; lia).
  destruct He as (He & Lx & Ly & Ed). clearbody e. unfold i30 in *.
  replace (s =? 0) with false by (symmetry; apply Z.eqb_neq; destruct Hs; lia).
  replace (t =? 0) with false by (symmetry; apply Z.eqb_neq; destruct Ht; lia). cbn [orb].
  rewrite subs_ok by lia. rewrite bind_Some. unfold BF_FRACTION_BITS. destruct (Z.ltb_spec 254 (e - ex)); [reflexivity|].
  rewrite subs_ok by lia. rewrite bind_Some. destruct (Z.ltb_spec 254 (e - ey)); [reflexivity|].
  destruct (shift_ok x (e - ex) Hx ltac:(lia)) as (r1 & S1). eapply bind_eq; [exact S1|]. cbv beta iota.
  destruct (shift_ok y (e - ey) Hy ltac:(lia)) as (r2 & S2). eapply bind_eq; [exact S2|]. cbv beta iota.
  destruct (ashift_bound x (e - ex) Hx ltac:(lia)) as (B1 & B2 & B3).
  destruct (ashift_bound y (e - ey) Hy ltac:(lia)) as (C1 & C2 & C3).
  set (X := ashift x (e - ex)) in *. set (Y := ashift y (e - ey)) in *.
  assert (M : nrm X \/ nrm Y). { destruct Ed; [left|right]; [rewrite B2 by lia|rewrite C2 by lia]; auto. }
  clearbody X Y. rewrite ult256 by lia. unfold nrm in *.
  assert (E : exists a b sg, (if X <? Y then ((of256 Y, of256 X, t) : U256 * U256 * Z) else (of256 X, of256 Y, s)) = ((of256 a, of256 b, sg) : U256 * U256 * Z)
    /\ 0 <= b <= a /\ a < 2 ^ 255 /\ 2 ^ 254 <= a /\ sg = (if X <? Y then t else s) /\ a + b = X + Y /\ a - b = Z.abs (X - Y) /\ (a = b <-> X = Y)).
  { destruct (Z.ltb_spec X Y); [exists Y, X, t|exists X, Y, s]; (split; [reflexivity|]); repeat split; try lia. }
  destruct E as (a & b & sg & Epr & Hab & Ha & Ha' & Hsg & Hp & Hm & Heq).
  match goal with |- context [if X <? Y then ?p else ?q] => change (if X <? Y then p else q) with (if X <? Y then ((of256 Y, of256 X, t) : U256 * U256 * Z) else (of256 X, of256 Y, s)) end.
  rewrite Epr. clear Epr. cbv beta iota.
  unfold add_res. destruct (Z.eqb_spec s t) as [<-|NS].
  - rewrite add_signifs_ok by (unfold nrm; lia). rewrite bind_Some. rewrite Hp.
    assert (Esg : sg = s) by (destruct (X <? Y); exact Hsg). clear Hsg. rewrite Esg. clear Esg sg.
    destruct (Z.ltb_spec (X + Y) (2 ^ 255)).
    + rewrite is_zero256 by lia. replace (X + Y =? 0) with false by (symmetry; apply Z.eqb_neq; lia).
      rewrite adds_ok by lia. rewrite bind_Some. rewrite Z.add_0_r. reflexivity.
    + assert (2 ^ 254 <= (X + Y) / 2 < 2 ^ 255) by (split; [apply Z.div_le_lower_bound|apply Z.div_lt_upper_bound]; lia).
      rewrite is_zero256 by lia. destruct (Z.eqb_spec ((X + Y) / 2) 0); [lia|].
      rewrite adds_ok by lia. rewrite bind_Some. reflexivity.
  - rewrite sub_signifs_ok by (unfold nrm; lia). rewrite bind_Some.
    destruct (Z.eqb_spec X Y) as [E|E].
    + replace (a =? b) with true by (symmetry; apply Z.eqb_eq; tauto). rewrite is_zero256 by lia. reflexivity.
    + replace (a =? b) with false by (symmetry; apply Z.eqb_neq; tauto). cbv beta iota. rewrite Hm.
      set (D := Z.abs (X - Y)) in *. assert (HD : 0 < D < 2 ^ 255) by lia. clearbody D.
      pose proof (log2_bound D 255 ltac:(lia)) as LB. pose proof (norm_shift_bound D 254 ltac:(lia) ltac:(lia)) as NB. change (254 + 1) with 255 in NB.
      rewrite is_zero256 by lia. destruct (Z.eqb_spec (D * 2 ^ (254 - Z.log2 D)) 0); [lia|].
      rewrite adds_ok by lia. rewrite bind_Some. unfold bf_of. subst sg. do 2 f_equal.
Qed.

(** ** Truncation *)

Lemma trunc_ok s e m : nrm m -> 0 <= e < 2 ^ 31 ->
  bf_trunc (BF s e (of256 m)) = Some (BF s e (of256 (m / 2 ^ Z.max (254 - e) 0 * 2 ^ Z.max (254 - e) 0))).
Proof.
  intros Hm He. unfold bf_trunc. cbn [bf_signum bf_exp bf_signif]. unfold BF_FRACTION_BITS. rewrite subs_ok by lia. rewrite bind_Some.
  set (n := Z.max (254 - e) 0). assert (Hn : 0 <= n <= 254) by lia. clearbody n. unfold nrm in *.
  rewrite shr256 by lia. rewrite bind_Some. pose proof (pow2_pos n ltac:(lia)).
  pose proof (Z.mul_div_le m (2 ^ n) ltac:(lia)). assert (0 <= m / 2 ^ n) by (apply Z.div_pos; lia).
  rewrite shl256s by lia. rewrite bind_Some. reflexivity.
Qed.

End BigFloatProofs.

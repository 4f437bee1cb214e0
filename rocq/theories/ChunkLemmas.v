(** * ChunkLemmas: what the word-at-a-time digit tests of the parser compute *)

From Coq Require Import ZArith List Bool Lia.
From Verif Require Import Base ZLemmas BigUInt F256 Arith Parse SpecParse.
Open Scope Z_scope.

Notation lanes := of_le_bytes.
Ltac p8 := change (2 ^ 8) with 256 in *; lia.
Definition byte (b : Z) : Prop := 0 <= b < 256.
Definition digc (b : Z) : Prop := 48 <= b < 58.

Lemma digc_byte b : digc b -> byte b.
Proof. unfold digc, byte. lia. Qed.

Lemma is_digit_ok b : byte b -> is_digit b = (48 <=? b) && (b <? 58).
Proof.
  intros Hb. unfold byte in Hb. unfold is_digit, digit_of.
  destruct (Z.leb_spec 48 b).
  - rewrite Z.mod_small by lia. destruct (Z.ltb_spec (b - 48) 10), (Z.ltb_spec b 58); auto; lia.
  - rewrite (mod_eq (b - 48) 256 (-1) (b - 48 + 256)) by lia.
    apply Z.ltb_ge. lia.
Qed.

Lemma is_digit_true b : byte b -> is_digit b = true <-> digc b.
Proof.
  intros Hb. rewrite is_digit_ok by auto. unfold digc.
  rewrite andb_true_iff, Z.leb_le, Z.ltb_lt. lia.
Qed.

Lemma is_digit_false b : byte b -> is_digit b = false <-> ~ digc b.
Proof.
  intros Hb. rewrite <- is_digit_true by auto. destruct (is_digit b); split; congruence.
Qed.

Lemma digit_of_ok b : digc b -> digit_of b = b - 48.
Proof. unfold digc. intros. unfold digit_of. apply Z.mod_small. lia. Qed.

Lemma lanes_bound l : Forall byte l -> 0 <= lanes l < 256 ^ len l.
Proof.
  induction 1 as [|b l Hb Hl IH]; unfold len in *; cbn [of_le_bytes length].
  - cbn. lia.
  - rewrite Nat2Z.inj_succ, Z.pow_succ_r by lia. unfold byte in Hb. lia.
Qed.

Lemma len_cons {A} (a : A) l : len (a :: l) = len l + 1.
Proof. unfold len. cbn [length]. lia. Qed.

Lemma len_nonneg {A} (l : list A) : 0 <= len l.
Proof. unfold len. lia. Qed.

Lemma len_nil {A} : len (@nil A) = 0.
Proof. reflexivity. Qed.

Lemma len_app {A} (a b : list A) : len (a ++ b) = len a + len b.
Proof. unfold len. rewrite app_length. lia. Qed.

Lemma lanes_app a b : lanes (a ++ b) = lanes a + 256 ^ len a * lanes b.
Proof.
  induction a as [|x a IH].
  - cbn [app of_le_bytes]. change (len (@nil Z)) with 0. change (256 ^ 0) with 1. lia.
  - cbn [app of_le_bytes]. pose proof (len_nonneg a); rewrite IH, len_cons, Z.pow_add_r by lia.
    change (256 ^ 1) with 256. ring.
Qed.

Lemma land8 a u b v : byte a -> byte b ->
  Z.land (a + 256 * u) (b + 256 * v) = Z.land a b + 256 * Z.land u v.
Proof.
  unfold byte. intros. replace (a + 256 * u) with (u * 2 ^ 8 + a) by p8.
  replace (b + 256 * v) with (v * 2 ^ 8 + b) by p8.
  rewrite land_split by p8. p8.
Qed.

Lemma lor8 a u b v : byte a -> byte b ->
  Z.lor (a + 256 * u) (b + 256 * v) = Z.lor a b + 256 * Z.lor u v.
Proof.
  unfold byte. intros. replace (a + 256 * u) with (u * 2 ^ 8 + a) by p8.
  replace (b + 256 * v) with (v * 2 ^ 8 + b) by p8.
  rewrite lor_split by p8. p8.
Qed.

Lemma lxor8 a u b v : byte a -> byte b ->
  Z.lxor (a + 256 * u) (b + 256 * v) = Z.lxor a b + 256 * Z.lxor u v.
Proof.
  unfold byte. intros Ha Hb.
  assert (Hx : 0 <= Z.lxor a b < 2 ^ 8).
  { assert (Hn : 0 <= Z.lxor a b) by (apply Z.lxor_nonneg; lia).
    split; auto.
    destruct (Z.eq_dec (Z.lxor a b) 0) as [->|Hne]; [p8|].
    apply Z.log2_lt_pow2; [lia|].
    destruct (Z.eq_dec a 0) as [->|Ha0]; [rewrite Z.lxor_0_l in *; apply Z.log2_lt_pow2; p8|].
    destruct (Z.eq_dec b 0) as [->|Hb0]; [rewrite Z.lxor_0_r in *; apply Z.log2_lt_pow2; p8|].
    pose proof (Z.log2_lxor a b ltac:(lia) ltac:(lia)).
    assert (Z.log2 a < 8) by (apply Z.log2_lt_pow2; p8).
    assert (Z.log2 b < 8) by (apply Z.log2_lt_pow2; p8). lia. }
  replace (a + 256 * u) with (u * 2 ^ 8 + a) by p8.
  replace (b + 256 * v) with (v * 2 ^ 8 + b) by p8.
  replace (Z.lxor a b + 256 * Z.lxor u v) with (Z.lxor u v * 2 ^ 8 + Z.lxor a b) by p8.
  apply Z.bits_inj'. intros k Hk.
  rewrite Z.lxor_spec, !testbit_split by (auto; p8).
  destruct (k <? 8); rewrite Z.lxor_spec; auto.
Qed.

(** The same byte in every lane *)
Fixpoint rep (n : nat) (b : Z) : Z := match n with O => 0 | S n => b + 256 * rep n b end.

Lemma high_bit b : byte b -> Z.land b 128 = if b <? 128 then 0 else 128.
Proof.
  unfold byte. intros Hb.
  assert (forallb (fun b => Z.land b 128 =? if b <? 128 then 0 else 128)
            (map Z.of_nat (seq 0 256)) = true) as H by (vm_compute; reflexivity).
  rewrite forallb_forall in H. apply Z.eqb_eq, (H b), in_map_iff.
  exists (Z.to_nat b). split; [lia|]. apply in_seq. lia.
Qed.

(** ** Eight digits *)

Lemma digits8_gen l : Forall byte l -> forall n, n = length l ->
  (Z.land (Z.lor ((lanes l - rep n 48) mod 256 ^ Z.of_nat n)
                 ((lanes l + rep n 70) mod 256 ^ Z.of_nat n)) (rep n 128) =? 0)
  = forallb is_digit l.
Proof.
  induction 1 as [|b l Hb Hl IH]; intros n ->.
  { cbn. reflexivity. }
  cbn [length of_le_bytes rep forallb].
  specialize (IH _ eq_refl). set (n := length l) in *. set (v := lanes l) in *.
  rewrite Nat2Z.inj_succ, Z.pow_succ_r by lia.
  set (M := 256 ^ Z.of_nat n) in *.
  assert (HM : 0 < M) by (apply Z.pow_pos_nonneg; lia).
  rewrite is_digit_ok by auto. unfold byte in Hb.
  assert (Hdec : forall a c, 0 <= a < 256 ->
            (a + 256 * c) mod (256 * M) = a + 256 * (c mod M)).
  { intros a c Ha. pose proof (Z.mod_pos_bound c M HM).
    apply (mod_eq _ _ (c / M)); [|nia].
    pose proof (Z.div_mod c M ltac:(lia)). nia. }
  destruct (Z.leb_spec 48 b) as [H1|H1]; cbn [andb].
  - destruct (Z.ltb_spec b 58) as [H2|H2]; cbn [andb].
    + (* a digit: no borrow, no carry *)
      replace (b + 256 * v - (48 + 256 * rep n 48)) with ((b - 48) + 256 * (v - rep n 48)) by ring.
      replace (b + 256 * v + (70 + 256 * rep n 70)) with ((b + 70) + 256 * (v + rep n 70)) by ring.
      rewrite !Hdec by lia. rewrite lor8, land8 by (unfold byte; try lia;
        apply (lor_bound _ _ 8); p8).
      assert (Z.land (Z.lor (b - 48) (b + 70)) 128 = 0) as ->.
      { rewrite Z.land_lor_distr_l, !high_bit by (unfold byte; lia).
        destruct (Z.ltb_spec (b - 48) 128), (Z.ltb_spec (b + 70) 128); try lia; reflexivity. }
      rewrite <- IH.
      set (w := Z.land (Z.lor _ _) _).
      destruct (Z.eqb_spec w 0) as [->|]; [reflexivity|].
      apply Z.eqb_neq. lia.
    + (* above '9' *)
      apply Z.eqb_neq. intros E.
      assert (Hy : exists y u, byte y /\ (b + 256 * v + (70 + 256 * rep n 70)) mod (256 * M) = y + 256 * u
                    /\ (b < 186 -> y = b + 70)).
      { destruct (Z.ltb_spec b 186).
        - exists (b + 70), ((v + rep n 70) mod M). split; [unfold byte; lia|]. split; [|auto].
          rewrite <- Hdec by lia. f_equal. ring.
        - exists (b + 70 - 256), ((v + rep n 70 + 1) mod M). split; [unfold byte; lia|]. split; [|lia].
          rewrite <- Hdec by lia. f_equal. ring. }
      destruct Hy as (y & u & Hy & Ey & Hyb). rewrite Ey in E.
      replace (b + 256 * v - (48 + 256 * rep n 48)) with ((b - 48) + 256 * (v - rep n 48)) in E by ring.
      rewrite Hdec in E by lia. rewrite lor8, land8 in E by (unfold byte in *; try lia;
        apply (lor_bound _ _ 8); p8).
      rewrite Z.land_lor_distr_l, !high_bit in E by (unfold byte in *; lia).
      assert (Hw : 0 <= Z.land (Z.lor ((v - rep n 48) mod M) u) (rep n 128)).
      { apply Z.land_nonneg. right. clear. induction n; cbn [rep]; lia. }
      set (w := Z.land (Z.lor ((v - rep n 48) mod M) u) (rep n 128)) in *.
      destruct (Z.ltb_spec (b - 48) 128), (Z.ltb_spec y 128); cbn [Z.lor Pos.lor] in E;
        change (Z.lor 128 128) with 128 in E; try (unfold byte in *; lia).
  - (* below '0' *)
    apply Z.eqb_neq. intros E.
    replace (b + 256 * v - (48 + 256 * rep n 48)) with ((b - 48 + 256) + 256 * (v - rep n 48 - 1)) in E by ring.
    replace (b + 256 * v + (70 + 256 * rep n 70)) with ((b + 70) + 256 * (v + rep n 70)) in E by ring.
    rewrite !Hdec in E by lia. rewrite lor8, land8 in E by (unfold byte in *; try lia;
        apply (lor_bound _ _ 8); p8).
    rewrite Z.land_lor_distr_l, !high_bit in E by (unfold byte in *; lia).
    assert (Hw : 0 <= Z.land (Z.lor ((v - rep n 48 - 1) mod M) ((v + rep n 70) mod M)) (rep n 128)).
    { apply Z.land_nonneg. right. clear. induction n; cbn [rep]; lia. }
    set (w := Z.land (Z.lor _ _) (rep n 128)) in *.
    destruct (Z.ltb_spec (b - 48 + 256) 128), (Z.ltb_spec (b + 70) 128); cbn [Z.lor Pos.lor] in E;
        change (Z.lor 128 128) with 128 in E; try lia.
Qed.

Lemma cc8_ok l : Forall byte l -> length l = 8%nat ->
  chunk_contains_8_digits (lanes l) = forallb is_digit l.
Proof.
  intros Hl Hn. rewrite <- (digits8_gen l Hl 8%nat) by auto. reflexivity.
Qed.

(** ** The value of eight digits *)

Lemma land_mod a n : 0 <= n -> Z.land a (2 ^ n - 1) = a mod 2 ^ n.
Proof. exact (land_pow2_ones a n). Qed.

(** Lanes of [2^w] *)
Lemma landw w a u b v : 0 <= w -> 0 <= a < 2 ^ w -> 0 <= b < 2 ^ w ->
  Z.land (a + 2 ^ w * u) (b + 2 ^ w * v) = Z.land a b + 2 ^ w * Z.land u v.
Proof.
  intros Hw Ha Hb. rewrite (Z.add_comm a), (Z.add_comm b), !(Z.mul_comm (2 ^ w)).
  rewrite land_split by auto. ring.
Qed.

Lemma c2u_ok d0 d1 d2 d3 d4 d5 d6 d7 :
  (forall d, In d [d0; d1; d2; d3; d4; d5; d6; d7] -> 0 <= d < 10) ->
  forall h0 h1 h2 h3 h4 h5 h6 h7,
  (forall h, In h [h0; h1; h2; h3; h4; h5; h6; h7] -> 0 <= h < 16) ->
  chunk_to_u64 (lanes [d0 + 16 * h0; d1 + 16 * h1; d2 + 16 * h2; d3 + 16 * h3;
                       d4 + 16 * h4; d5 + 16 * h5; d6 + 16 * h6; d7 + 16 * h7])
  = dval [d0; d1; d2; d3; d4; d5; d6; d7].
Proof.
  intros Hd h0 h1 h2 h3 h4 h5 h6 h7 Hh.
  pose proof (Hd d0 ltac:(cbn; tauto)) as D0. pose proof (Hd d1 ltac:(cbn; tauto)) as D1.
  pose proof (Hd d2 ltac:(cbn; tauto)) as D2. pose proof (Hd d3 ltac:(cbn; tauto)) as D3.
  pose proof (Hd d4 ltac:(cbn; tauto)) as D4. pose proof (Hd d5 ltac:(cbn; tauto)) as D5.
  pose proof (Hd d6 ltac:(cbn; tauto)) as D6. pose proof (Hd d7 ltac:(cbn; tauto)) as D7.
  pose proof (Hh h0 ltac:(cbn; tauto)) as E0. pose proof (Hh h1 ltac:(cbn; tauto)) as E1.
  pose proof (Hh h2 ltac:(cbn; tauto)) as E2. pose proof (Hh h3 ltac:(cbn; tauto)) as E3.
  pose proof (Hh h4 ltac:(cbn; tauto)) as E4. pose proof (Hh h5 ltac:(cbn; tauto)) as E5.
  pose proof (Hh h6 ltac:(cbn; tauto)) as E6. pose proof (Hh h7 ltac:(cbn; tauto)) as E7.
  clear Hd Hh.
  unfold chunk_to_u64. cbn [of_le_bytes].
  assert (L : forall d h, 0 <= d < 10 -> 0 <= h < 16 -> Z.land (d + 16 * h) 15 = d).
  { intros d h Hd Hh. change 15 with (2 ^ 4 - 1). rewrite land_mod by lia.
    apply (mod_eq _ _ h); change (2 ^ 4) with 16; lia. }
  assert (S1 : Z.land (lanes [d0 + 16 * h0; d1 + 16 * h1; d2 + 16 * h2; d3 + 16 * h3;
                       d4 + 16 * h4; d5 + 16 * h5; d6 + 16 * h6; d7 + 16 * h7])
                 0x0f0f0f0f0f0f0f0f = lanes [d0; d1; d2; d3; d4; d5; d6; d7]).
  { change 0x0f0f0f0f0f0f0f0f with (15 + 256 * (15 + 256 * (15 + 256 * (15 + 256 *
      (15 + 256 * (15 + 256 * (15 + 256 * (15 + 256 * 0)))))))).
    cbn [of_le_bytes]. rewrite !land8 by (unfold byte; lia). rewrite !L by lia. reflexivity. }
  cbn [of_le_bytes] in S1. rewrite S1. clear S1 E0 E1 E2 E3 E4 E5 E6 E7 L h0 h1 h2 h3 h4 h5 h6 h7.
  set (c := d0 + 256 * _). unfold shrc.
  assert (L4 : forall d r, 0 <= d < 10 -> 0 <= r < 256 -> Z.land (d + 256 * r) 15 = d).
  { intros d r Hd Hr. change 15 with (2 ^ 4 - 1). rewrite land_mod by lia.
    apply (mod_eq _ _ (16 * r)); change (2 ^ 4) with 16; lia. }
  assert (A : Z.land c 0x000f000f000f000f
              = d0 + 65536 * (d2 + 65536 * (d4 + 65536 * d6))).
  { change 0x000f000f000f000f with (15 + 2 ^ 16 * (15 + 2 ^ 16 * (15 + 2 ^ 16 * (15 + 2 ^ 16 * 0)))).
    replace c with ((d0 + 256 * d1) + 2 ^ 16 * ((d2 + 256 * d3) + 2 ^ 16 * ((d4 + 256 * d5)
                    + 2 ^ 16 * ((d6 + 256 * d7) + 2 ^ 16 * 0))))
      by (unfold c; change (2 ^ 16) with 65536; ring).
    rewrite !landw by (change (2 ^ 16) with 65536; lia).
    rewrite !L4 by lia. change (2 ^ 16) with 65536. rewrite Z.land_0_l. ring. }
  assert (B : Z.land (c / 2 ^ 8) 0x000f000f000f000f
              = d1 + 65536 * (d3 + 65536 * (d5 + 65536 * d7))).
  { change 0x000f000f000f000f with (15 + 2 ^ 16 * (15 + 2 ^ 16 * (15 + 2 ^ 16 * (15 + 2 ^ 16 * 0)))).
    replace (c / 2 ^ 8) with ((d1 + 256 * d2) + 2 ^ 16 * ((d3 + 256 * d4) + 2 ^ 16 * ((d5 + 256 * d6)
                    + 2 ^ 16 * ((d7 + 256 * 0) + 2 ^ 16 * 0)))).
    2:{ symmetry. apply (div_eq _ _ _ d0); [unfold c; change (2 ^ 16) with 65536; change (2 ^ 8) with 256; ring|].
        change (2 ^ 8) with 256. lia. }
    rewrite !landw by (change (2 ^ 16) with 65536; lia).
    rewrite !L4 by lia. change (2 ^ 16) with 65536. rewrite Z.land_0_l. ring. }
  rewrite A, B. clear A B. change (2 ^ 64) with 18446744073709551616.
  rewrite (Z.mod_small (_ * 10)) by lia.
  rewrite (Z.mod_small ((d0 + 65536 * (d2 + 65536 * (d4 + 65536 * d6))) * 10
            + (d1 + 65536 * (d3 + 65536 * (d5 + 65536 * d7))))) by lia.
  clearbody c. clear c L4.
  set (p0 := 10 * d0 + d1). set (p1 := 10 * d2 + d3). set (p2 := 10 * d4 + d5). set (p3 := 10 * d6 + d7).
  assert (Ec : (d0 + 65536 * (d2 + 65536 * (d4 + 65536 * d6))) * 10
            + (d1 + 65536 * (d3 + 65536 * (d5 + 65536 * d7)))
          = p0 + 65536 * (p1 + 65536 * (p2 + 65536 * p3))) by (unfold p0, p1, p2, p3; ring).
  rewrite Ec. clear Ec.
  assert (P0 : 0 <= p0 < 100) by (unfold p0; lia). assert (P1 : 0 <= p1 < 100) by (unfold p1; lia).
  assert (P2 : 0 <= p2 < 100) by (unfold p2; lia). assert (P3 : 0 <= p3 < 100) by (unfold p3; lia).
  assert (L7 : forall d r, 0 <= d < 100 -> 0 <= r < 65536 -> Z.land (d + 65536 * r) 127 = d).
  { intros d r Hd Hr. change 127 with (2 ^ 7 - 1). rewrite land_mod by lia.
    apply (mod_eq _ _ (512 * r)); change (2 ^ 7) with 128; lia. }
  set (c := p0 + _).
  assert (A : Z.land c 0x0000007f0000007f = p0 + 4294967296 * p2).
  { change 0x0000007f0000007f with (127 + 2 ^ 32 * (127 + 2 ^ 32 * 0)).
    replace c with ((p0 + 65536 * p1) + 2 ^ 32 * ((p2 + 65536 * p3) + 2 ^ 32 * 0))
      by (unfold c; change (2 ^ 32) with 4294967296; ring).
    rewrite !landw by (change (2 ^ 32) with 4294967296; lia).
    rewrite !L7 by lia. change (2 ^ 32) with 4294967296. rewrite Z.land_0_l. ring. }
  assert (B : Z.land (c / 2 ^ 16) 0x0000007f0000007f = p1 + 4294967296 * p3).
  { change 0x0000007f0000007f with (127 + 2 ^ 32 * (127 + 2 ^ 32 * 0)).
    replace (c / 2 ^ 16) with ((p1 + 65536 * p2) + 2 ^ 32 * ((p3 + 65536 * 0) + 2 ^ 32 * 0)).
    2:{ symmetry. apply (div_eq _ _ _ p0); [unfold c; change (2 ^ 16) with 65536; change (2 ^ 32) with 4294967296; ring|].
        change (2 ^ 16) with 65536. lia. }
    rewrite !landw by (change (2 ^ 32) with 4294967296; lia).
    rewrite !L7 by lia. change (2 ^ 32) with 4294967296. rewrite Z.land_0_l. ring. }
  rewrite A, B. clear A B.
  rewrite (Z.mod_small (_ * 100)) by lia.
  rewrite (Z.mod_small ((p0 + 4294967296 * p2) * 100 + (p1 + 4294967296 * p3))) by lia.
  clearbody c. clear c L7.
  assert (Ec : (p0 + 4294967296 * p2) * 100 + (p1 + 4294967296 * p3)
          = (100 * p0 + p1) + 4294967296 * (100 * p2 + p3)) by ring.
  rewrite Ec. clear Ec.
  set (q0 := 100 * p0 + p1). set (q1 := 100 * p2 + p3).
  assert (Q0 : 0 <= q0 < 10000) by (unfold q0; lia). assert (Q1 : 0 <= q1 < 10000) by (unfold q1; lia).
  change 0x3fff with (2 ^ 14 - 1). rewrite !land_mod by lia.
  replace ((q0 + 4294967296 * q1) / 2 ^ 32) with q1
    by (symmetry; apply (div_eq _ _ _ q0); [change (2 ^ 32) with 4294967296; ring|]; change (2 ^ 32) with 4294967296; lia).
  rewrite (mod_eq (q0 + 4294967296 * q1) (2 ^ 14) (262144 * q1) q0)
    by (change (2 ^ 14) with 16384; lia).
  rewrite (Z.mod_small q1) by (change (2 ^ 14) with 16384; lia).
  rewrite (Z.mod_small (q0 * 10000)) by lia. rewrite Z.mod_small by lia.
  unfold dval. cbn [fold_left]. unfold q0, q1, p0, p1, p2, p3. ring.
Qed.

Definition digits_of_bytes (l : list Z) : list Z := map (fun b => b - 48) l.

Lemma c2u_digits l : length l = 8%nat -> Forall digc l ->
  chunk_to_u64 (lanes l) = dval (digits_of_bytes l).
Proof.
  intros Hn Hl. do 8 (destruct l as [|? l]; [discriminate|]). destruct l; [|discriminate].
  repeat match goal with H : Forall _ (_ :: _) |- _ => inversion_clear H end.
  unfold digc in *. cbn [digits_of_bytes map].
  rewrite <- (c2u_ok (z - 48) (z0 - 48) (z1 - 48) (z2 - 48) (z3 - 48) (z4 - 48) (z5 - 48) (z6 - 48)
    ltac:(cbn; intros d Hd; lia) 3 3 3 3 3 3 3 3 ltac:(cbn; intros; lia)).
  f_equal. cbn [of_le_bytes]. ring.
Qed.

(** Seven digits shifted up by one byte *)
Lemma c2u_seven l : length l = 7%nat -> Forall digc l ->
  chunk_to_u64 (lanes (0 :: l)) = dval (digits_of_bytes l).
Proof.
  intros Hn Hl. do 7 (destruct l as [|? l]; [discriminate|]). destruct l; [|discriminate].
  repeat match goal with H : Forall _ (_ :: _) |- _ => inversion_clear H end.
  unfold digc in *. cbn [digits_of_bytes map].
  transitivity (dval (0 :: [z - 48; z0 - 48; z1 - 48; z2 - 48; z3 - 48; z4 - 48; z5 - 48]));
    [|reflexivity].
  rewrite <- (c2u_ok 0 (z - 48) (z0 - 48) (z1 - 48) (z2 - 48) (z3 - 48) (z4 - 48) (z5 - 48)
    ltac:(cbn; intros d Hd; lia) 0 3 3 3 3 3 3 3 ltac:(cbn; intros; lia)).
  f_equal. cbn [of_le_bytes]. ring.
Qed.

(** ** Seven digits and a dot *)

Definition xlanes (l : list Z) : list Z := map (fun b => Z.lxor b 46) l.

Lemma xlanes_ok l : Forall byte l -> Z.lxor (lanes l) (rep (length l) 46) = lanes (xlanes l).
Proof.
  induction 1 as [|b l Hb Hl IH]; [reflexivity|].
  cbn [of_le_bytes xlanes map rep length]. rewrite lxor8 by (auto; unfold byte; lia).
  rewrite IH. reflexivity.
Qed.

Lemma xbyte b : byte b -> byte (Z.lxor b 46) /\ (Z.lxor b 46 = 0 <-> b = 46)
                          /\ (digc b -> 22 <= Z.lxor b 46 < 32).
Proof.
  intros Hb. unfold byte, digc in *.
  assert (forallb (fun b => let x := Z.lxor b 46 in (0 <=? x) && (x <? 256)
            && Bool.eqb (x =? 0) (b =? 46)
            && implb ((48 <=? b) && (b <? 58)) ((22 <=? x) && (x <? 32)))
            (map Z.of_nat (seq 0 256)) = true) as H by (vm_compute; reflexivity).
  rewrite forallb_forall in H. specialize (H b).
  assert (Hin : In b (map Z.of_nat (seq 0 256))).
  { apply in_map_iff. exists (Z.to_nat b). split; [lia|]. apply in_seq. lia. }
  specialize (H Hin). cbv zeta in H. rewrite !andb_true_iff in H. destruct H as [[[A B] C] D].
  apply eqb_prop in C. split; [lia|]. split.
  - split; intros E; [apply Z.eqb_eq; rewrite <- C; apply Z.eqb_eq; auto
                     |apply Z.eqb_eq; rewrite C; apply Z.eqb_eq; auto].
  - intros E. replace ((48 <=? b) && (b <? 58)) with true in D.
    + cbn [implb] in D. apply andb_true_iff in D. lia.
    + symmetry. apply andb_true_iff. lia.
Qed.

(** The marker word of the zero lanes *)
Definition zmark (n : nat) (X bw : Z) : Z :=
  Z.land ((X - rep n 1 - bw) mod 256 ^ Z.of_nat n)
         (Z.land (256 ^ Z.of_nat n - 1 - X) (rep n 128)).

Lemma rep_nonneg n b : 0 <= b -> 0 <= rep n b.
Proof. intros. induction n; cbn [rep]; lia. Qed.

Lemma zmark_cons l x bw : Forall byte l -> byte x -> 0 <= bw <= 1 ->
  zmark (S (length l)) (x + 256 * lanes l) bw
  = (if x - 1 - bw <? 0
     then Z.land (x - 1 - bw + 256) (Z.land (255 - x) 128) + 256 * zmark (length l) (lanes l) 1
     else Z.land (x - 1 - bw) (Z.land (255 - x) 128) + 256 * zmark (length l) (lanes l) 0).
Proof.
  intros Hl Hx Hbw. unfold zmark. pose proof (lanes_bound l Hl) as HB.
  fold (len l) in *. unfold len in HB.
  set (n := length l) in *. set (v := lanes l) in *. cbn [rep].
  rewrite Nat2Z.inj_succ, Z.pow_succ_r by lia. set (M := 256 ^ Z.of_nat n) in *.
  assert (HM : 0 < M) by (apply Z.pow_pos_nonneg; lia).
  assert (Hdec : forall a c, 0 <= a < 256 ->
            (a + 256 * c) mod (256 * M) = a + 256 * (c mod M)).
  { intros a c Ha. pose proof (Z.mod_pos_bound c M HM).
    apply (mod_eq _ _ (c / M)); [|nia].
    pose proof (Z.div_mod c M ltac:(lia)). nia. }
  unfold byte in Hx.
  replace (256 * M - 1 - (x + 256 * v)) with ((255 - x) + 256 * (M - 1 - v)) by ring.
  rewrite (land8 (255 - x)) by (unfold byte; lia).
  assert (Hb : byte (Z.land (255 - x) 128)).
  { unfold byte. apply (land_bound _ _ 8); p8. }
  destruct (Z.ltb_spec (x - 1 - bw) 0).
  - replace (x + 256 * v - (1 + 256 * rep n 1) - bw) with ((x - 1 - bw + 256) + 256 * (v - rep n 1 - 1)) by ring.
    rewrite Hdec, land8 by (unfold byte; auto; lia). reflexivity.
  - replace (x + 256 * v - (1 + 256 * rep n 1) - bw) with ((x - 1 - bw) + 256 * (v - rep n 1 - 0)) by ring.
    rewrite Hdec, land8 by (unfold byte; auto; lia). reflexivity.
Qed.

Lemma zmark_pos l x : Forall byte l -> byte x -> x <> 0 ->
  zmark (S (length l)) (x + 256 * lanes l) 0 = 256 * zmark (length l) (lanes l) 0.
Proof.
  intros Hl Hx H0. rewrite zmark_cons by (auto; lia). unfold byte in Hx.
  destruct (Z.ltb_spec (x - 1 - 0) 0); [lia|].
  rewrite high_bit by (unfold byte; lia). destruct (Z.ltb_spec (255 - x) 128).
  - rewrite Z.land_0_r. lia.
  - rewrite high_bit by (unfold byte; lia). destruct (Z.ltb_spec (x - 1 - 0) 128); lia.
Qed.

Lemma zmark_zero l : Forall byte l ->
  zmark (S (length l)) (0 + 256 * lanes l) 0 = 128 + 256 * zmark (length l) (lanes l) 1.
Proof. intros Hl. rewrite zmark_cons by (auto; unfold byte; lia). reflexivity. Qed.

(** A single mark: the first zero lane *)
Lemma zmark_single l : Forall byte l -> forall m, 0 <= m ->
  zmark (length l) (lanes l) 0 = 2 ^ m ->
  exists pre post, l = pre ++ 0 :: post /\ m = 8 * len pre + 7.
Proof.
  induction 1 as [|x l Hx Hl IH]; intros m Hm E.
  { cbn in E. pose proof (pow2_pos m Hm). unfold zmark in E. cbn in E. lia. }
  cbn [of_le_bytes length] in E. destruct (Z.eq_dec x 0) as [->|H0].
  - rewrite zmark_zero in E by auto. exists [], l. split; auto. change (len (@nil Z)) with 0.
    revert E. generalize (zmark (length l) (lanes l) 1) as w. intros w E. clear - E Hm.
    destruct (Z.ltb_spec m 7).
    + assert (2 ^ 7 = 2 ^ m * 2 ^ (7 - m)) by (apply pow2_split; lia).
      pose proof (pow2_pos m Hm). change (2 ^ 7) with 128 in *.
      assert (1 < 2 ^ (7 - m)). { rewrite <- (Z.pow_0_r 2). apply pow2_lt. lia. }
      assert (w < 0) by nia. nia.
    + destruct (Z.eq_dec m 7); [lia|].
      assert (2 ^ m = 2 ^ 8 * 2 ^ (m - 8)) by (apply pow2_split; lia).
      change (2 ^ 8) with 256 in *. lia.
  - rewrite zmark_pos in E by auto.
    assert (H8 : 8 <= m).
    { destruct (Z.leb_spec 8 m); auto.
      assert (2 ^ 8 = 2 ^ m * 2 ^ (8 - m)) by (apply pow2_split; lia).
      pose proof (pow2_pos m Hm). change (2 ^ 8) with 256 in *.
      assert (1 < 2 ^ (8 - m)). { rewrite <- (Z.pow_0_r 2). apply pow2_lt. lia. }
      revert E. generalize (zmark (length l) (lanes l) 0) as w. intros w E.
      clear - E H H1 H2 H3. nia. }
    assert (E' : zmark (length l) (lanes l) 0 = 2 ^ (m - 8)).
    { assert (2 ^ m = 2 ^ 8 * 2 ^ (m - 8)) by (apply pow2_split; lia).
      change (2 ^ 8) with 256 in *. lia. }
    destruct (IH (m - 8) ltac:(lia) E') as (pre & post & -> & Em).
    exists (x :: pre), post. split; auto. rewrite len_cons. lia.
Qed.

(** Lanes that are neither zero nor large leave no mark, whether or not there is a borrow *)
Lemma zmark_none l bw : 0 <= bw <= 1 -> Forall (fun x => 2 <= x < 128) l ->
  zmark (length l) (lanes l) bw = 0.
Proof.
  intros Hbw Hl. revert bw Hbw. induction Hl as [|x l Hx Hl IH]; intros bw Hbw.
  { unfold zmark. cbn [length rep]. rewrite !Z.land_0_r; reflexivity. }
  cbn [length of_le_bytes].
  rewrite zmark_cons.
  2:{ eapply Forall_impl; [|exact Hl]. unfold byte. intros; lia. }
  2:{ unfold byte; lia. }
  2: lia.
  destruct (Z.ltb_spec (x - 1 - bw) 0); [lia|]. rewrite IH by lia.
  rewrite (high_bit (255 - x)) by (unfold byte; lia). destruct (Z.ltb_spec (255 - x) 128); [lia|].
  rewrite high_bit by (unfold byte; lia). destruct (Z.ltb_spec (x - 1 - bw) 128); lia.
Qed.

Lemma zmark_at pre post : Forall (fun x => 2 <= x < 128) pre -> Forall (fun x => 2 <= x < 128) post ->
  zmark (length (pre ++ 0 :: post)) (lanes (pre ++ 0 :: post)) 0 = 2 ^ (8 * len pre + 7).
Proof.
  intros Hpre Hpost.
  assert (W : forall l, Forall (fun x => 2 <= x < 128) l -> Forall byte l).
  { intros l Hl. eapply Forall_impl; [|exact Hl]. unfold byte. intros; lia. }
  induction Hpre as [|x l Hx Hl IH].
  - cbn [app length of_le_bytes]. rewrite zmark_zero by auto. rewrite zmark_none by (auto; lia).
    change (len (@nil Z)) with 0. reflexivity.
  - cbn [app length of_le_bytes]. rewrite zmark_pos.
    + rewrite IH, len_cons. replace (8 * (len l + 1) + 7) with (8 + (8 * len l + 7)) by lia.
      pose proof (len_nonneg l). rewrite (pow2_add 8) by lia. reflexivity.
    + apply Forall_app. split; auto. constructor; auto. unfold byte; lia.
    + unfold byte; lia.
    + lia.
Qed.

(** ** Populations *)

Lemma popcount_pow2 m : 0 <= m -> popcount (2 ^ m) = 1.
Proof.
  intros Hm. pattern m. apply natlike_ind; auto.
  intros k Hk IH. rewrite Z.pow_succ_r by auto.
  pose proof (pow2_pos k Hk). destruct (2 ^ k); try lia. cbn. cbn in IH. lia.
Qed.

Lemma popcount_pos_pos p : 1 <= popcount_pos p.
Proof. induction p; cbn [popcount_pos]; lia. Qed.

Lemma popcount_one z : 0 <= z -> popcount z = 1 -> exists m, 0 <= m /\ z = 2 ^ m.
Proof.
  destruct z as [|p|p]; cbn [popcount]; try lia. intros _.
  induction p as [p IH|p IH|]; cbn [popcount_pos]; intros E.
  - pose proof (popcount_pos_pos p). lia.
  - destruct (IH E) as (m & Hm & Em). exists (m + 1). split; [lia|].
    rewrite pow2_S by lia. lia.
  - exists 0. cbn. lia.
Qed.

Lemma nlz_pow2 m : 0 <= m < 64 -> nlz 64 (2 ^ m) = 63 - m.
Proof.
  intros Hm. unfold nlz. pose proof (pow2_pos m ltac:(lia)).
  destruct (Z.eqb_spec (2 ^ m) 0); [lia|]. rewrite Z.log2_pow2 by lia. lia.
Qed.

Lemma cc7_mark l : Forall byte l -> length l = 8%nat ->
  Z.land ((Z.lxor (lanes l) 0x2e2e2e2e2e2e2e2e - 0x0101010101010101) mod 2 ^ 64)
         (Z.land (2 ^ 64 - 1 - Z.lxor (lanes l) 0x2e2e2e2e2e2e2e2e) 0x8080808080808080)
  = zmark (length (xlanes l)) (lanes (xlanes l)) 0.
Proof.
  intros Hl Hn.
  assert (length (xlanes l) = 8%nat) as -> by (unfold xlanes; rewrite map_length; auto).
  rewrite <- xlanes_ok, Hn by auto. unfold zmark.
  change (rep 8 46) with 0x2e2e2e2e2e2e2e2e. change (rep 8 1) with 0x0101010101010101.
  change (rep 8 128) with 0x8080808080808080.
  change (256 ^ Z.of_nat 8) with (2 ^ 64). rewrite Z.sub_0_r. reflexivity.
Qed.

Lemma xlanes_bytes l : Forall byte l -> Forall byte (xlanes l).
Proof.
  intros Hl. apply Forall_map. eapply Forall_impl; [|exact Hl]. intros b Hb. apply xbyte, Hb.
Qed.

Lemma lanes_set pre post b : lanes (pre ++ b :: post) = lanes (pre ++ 0 :: post) + 256 ^ len pre * b.
Proof. rewrite !lanes_app. cbn [of_le_bytes]. ring. Qed.

Section Dot.
Context `{P : profile}.

Lemma cc7_found pre post : Forall digc pre -> Forall digc post -> length (pre ++ 46 :: post) = 8%nat ->
  chunk_contains_7_digits_and_a_dot_at (lanes (pre ++ 46 :: post)) = Some (Some (7 - len pre)).
Proof.
  intros Hpre Hpost Hn.
  assert (WB : forall l, Forall digc l -> Forall byte l).
  { intros l Hl. eapply Forall_impl; [|exact Hl]. exact digc_byte. }
  assert (Hb : Forall byte (pre ++ 46 :: post)).
  { apply Forall_app. split; auto. constructor; auto. unfold byte; lia. }
  assert (Hlen : 0 <= len pre <= 7).
  { rewrite app_length in Hn. cbn [length] in Hn. unfold len. lia. }
  unfold chunk_contains_7_digits_and_a_dot_at. cbv zeta.
  rewrite cc7_mark by auto.
  assert (Hx : forall l, Forall digc l -> Forall (fun x => 2 <= x < 128) (xlanes l)).
  { intros l Hl. apply Forall_map. eapply Forall_impl; [|exact Hl]. intros b Hd. cbv beta.
    destruct (xbyte b (digc_byte b Hd)) as (_ & _ & H). specialize (H Hd). lia. }
  replace (xlanes (pre ++ 46 :: post)) with (xlanes pre ++ 0 :: xlanes post)
    by (unfold xlanes; rewrite map_app; reflexivity).
  rewrite zmark_at by auto.
  replace (len (xlanes pre)) with (len pre) by (unfold len, xlanes; rewrite map_length; auto).
  rewrite popcount_pow2, Z.eqb_refl by lia. rewrite nlz_pow2 by lia.
  rewrite subu_ok by (change (2 ^ 32) with 4294967296; lia). rewrite bind_Some.
  rewrite shlu_ok by lia. rewrite bind_Some.
  replace (64 - 8 - (63 - (8 * len pre + 7))) with (8 * len pre) by lia.
  pose proof (lanes_bound (pre ++ 48 :: post)) as HB.
  assert (Hb' : Forall byte (pre ++ 48 :: post)).
  { apply Forall_app. split; auto. constructor; auto. unfold byte; lia. }
  specialize (HB Hb'). rewrite len_app, len_cons in HB.
  assert (E8 : len pre + (len post + 1) = 8).
  { unfold len. rewrite app_length in Hn. cbn [length] in Hn. lia. }
  rewrite E8 in HB. change (256 ^ 8) with (2 ^ 64) in HB.
  assert (Es : lanes (pre ++ 48 :: post) = lanes (pre ++ 46 :: post) + (48 - 46) * 2 ^ (8 * len pre)).
  { rewrite (lanes_set pre post 48), (lanes_set pre post 46).
    rewrite (Z.pow_mul_r 2 8) by lia. change (2 ^ 8) with 256. ring. }
  assert (H0 : 0 <= lanes (pre ++ 46 :: post)) by (apply lanes_bound; auto).
  pose proof (pow2_pos (8 * len pre) ltac:(lia)).
  rewrite (Z.mod_small ((48 - 46) * _)) by lia.
  rewrite addu_ok by lia. rewrite bind_Some. rewrite <- Es. rewrite cc8_ok by
    (auto; rewrite <- Hn, !app_length; reflexivity).
  assert (forallb is_digit (pre ++ 48 :: post) = true) as ->.
  { apply forallb_forall. intros b Hin. apply in_app_iff in Hin.
    rewrite Forall_forall in Hpre, Hpost, Hb'. destruct Hin as [Hin|[<-|Hin]].
    - apply is_digit_true; auto. apply digc_byte; auto.
    - reflexivity.
    - apply is_digit_true; auto. apply digc_byte; auto. }
  do 2 f_equal. replace (63 - (8 * len pre + 7)) with ((7 - len pre) * 8) by lia.
  apply Z.div_mul. lia.
Qed.

Lemma cc7_inv l : Forall byte l -> length l = 8%nat ->
  exists o, chunk_contains_7_digits_and_a_dot_at (lanes l) = Some o
    /\ match o with
       | Some p => exists pre post, l = pre ++ 46 :: post /\ Forall digc pre /\ Forall digc post
                                    /\ p = 7 - len pre
       | None => True
       end.
Proof.
  intros Hl Hn. unfold chunk_contains_7_digits_and_a_dot_at. cbv zeta.
  rewrite cc7_mark by auto. set (z := zmark _ _ _).
  assert (Hz : 0 <= z).
  { unfold z, zmark. apply Z.land_nonneg. left. apply Z.mod_pos_bound.
    apply Z.pow_pos_nonneg; lia. }
  destruct (Z.eqb_spec (popcount z) 1) as [Hp|Hp]; [|exists None; auto].
  destruct (popcount_one z Hz Hp) as (m & Hm & Em).
  destruct (zmark_single (xlanes l) (xlanes_bytes l Hl) m Hm Em) as (xp & xq & El & Emm).
  unfold xlanes in El. symmetry in El.
  assert (Hex : exists pre post, l = pre ++ 46 :: post /\ len pre = len xp).
  { clear - El Hl. revert xp El. induction Hl as [|b l Hb Hl IH]; intros [|x xp] El;
      cbn [map app] in El; try discriminate.
    - exists [], l. injection El as E1 _. split; [|reflexivity].
      symmetry in E1. apply xbyte in E1; auto. subst b. reflexivity.
    - injection El as E1 E2; destruct (IH xp E2) as (pre & post & -> & E3).
      exists (b :: pre), post. split; [reflexivity|]. rewrite !len_cons. lia. }
  destruct Hex as (pre & post & -> & Elen). rewrite <- Elen in Emm. clear xp xq El Elen.
  assert (E8 : len pre + (len post + 1) = 8).
  { unfold len. rewrite app_length in Hn. cbn [length] in Hn. lia. }
  pose proof (len_nonneg pre). pose proof (len_nonneg post).
  rewrite Em. rewrite nlz_pow2 by lia.
  rewrite subu_ok by (change (2 ^ 32) with 4294967296; lia). rewrite bind_Some.
  rewrite shlu_ok by lia. rewrite bind_Some.
  replace (64 - 8 - (63 - m)) with (8 * len pre) by lia.
  assert (Hb' : Forall byte (pre ++ 48 :: post)).
  { apply Forall_app in Hl. destruct Hl as [A B]. inversion_clear B.
    apply Forall_app. split; [auto|]. constructor; [unfold byte; lia|auto]. }
  pose proof (lanes_bound (pre ++ 48 :: post) Hb') as HB. rewrite len_app, len_cons, E8 in HB.
  change (256 ^ 8) with (2 ^ 64) in HB.
  assert (Es : lanes (pre ++ 48 :: post) = lanes (pre ++ 46 :: post) + (48 - 46) * 2 ^ (8 * len pre)).
  { rewrite (lanes_set pre post 48), (lanes_set pre post 46).
    rewrite (Z.pow_mul_r 2 8) by lia. change (2 ^ 8) with 256. ring. }
  assert (H0' : 0 <= lanes (pre ++ 46 :: post)) by (apply lanes_bound; auto).
  pose proof (pow2_pos (8 * len pre) ltac:(lia)).
  rewrite (Z.mod_small ((48 - 46) * _)) by lia.
  rewrite addu_ok by lia. rewrite bind_Some. rewrite <- Es. rewrite cc8_ok by
    (auto; rewrite <- Hn, !app_length; reflexivity).
  eexists. split; [reflexivity|].
  destruct (forallb is_digit (pre ++ 48 :: post)) eqn:Ef; auto.
  exists pre, post. split; auto. rewrite forallb_forall in Ef.
  rewrite Forall_forall in Hb'. split; [|split].
  - apply Forall_forall. intros b Hin.
    assert (In b (pre ++ 48 :: post)) by (apply in_app_iff; auto).
    apply is_digit_true; auto.
  - apply Forall_forall. intros b Hin.
    assert (In b (pre ++ 48 :: post)) by (apply in_app_iff; right; right; auto).
    apply is_digit_true; auto.
  - replace (63 - m) with ((7 - len pre) * 8) by lia. apply Z.div_mul. lia.
Qed.

Lemma eliminate_ok pre post c : Forall byte pre -> Forall byte post -> byte c ->
  length (pre ++ c :: post) = 8%nat ->
  eliminate_byte_from_chunk (lanes (pre ++ c :: post)) (7 - len pre) = lanes (pre ++ post).
Proof.
  intros Hpre Hpost Hc Hn.
  assert (E8 : len pre + (len post + 1) = 8).
  { unfold len. rewrite app_length in Hn. cbn [length] in Hn. lia. }
  pose proof (len_nonneg pre) as G1. pose proof (len_nonneg post) as G2.
  pose proof (lanes_bound pre Hpre) as B1. pose proof (lanes_bound post Hpost) as B2.
  rewrite !lanes_app. cbn [of_le_bytes]. unfold byte in Hc.
  set (a := lanes pre) in *. set (b := lanes post) in *. set (i := len pre) in *.
  unfold eliminate_byte_from_chunk. destruct (Z.eqb_spec (7 - i) 0) as [E0|E0].
  - replace i with 7 in * by lia. replace (len post) with 0 in * by lia.
    change (256 ^ 0) with 1 in *. assert (b = 0) by lia. rewrite H.
    unfold shlc, shrc. rewrite shl_mod by lia. rewrite Z.div_mul by (apply Z.pow_nonzero; lia).
    change (256 ^ 7) with (2 ^ (64 - 8)) in *. change (2 ^ (64 - 8)) with 72057594037927936 in *.
    rewrite (mod_eq _ 72057594037927936 c a) by lia. lia.
  - destruct (Z.leb_spec 1 (7 - i)) as [E1|E1]; [|lia]. cbn [andb].
    destruct (Z.leb_spec (7 - i) 6) as [E2|E2].
    + unfold shrc, shlc.
      set (M := 256 ^ i) in *.
      assert (HM : M = 2 ^ (8 * i)) by (unfold M; rewrite Z.pow_mul_r by lia; reflexivity).
      assert (HM1 : 2 ^ (8 * (i + 1)) = 256 * M).
      { rewrite HM. replace (8 * (i + 1)) with (8 * i + 8) by ring. rewrite pow2_add by lia. p8. }
      set (k := a + M * (c + 256 * b)).
      assert (Hk : 0 <= k < 2 ^ 64).
      { unfold k. replace (256 ^ len post) with (2 ^ (8 * len post)) in B2
          by (rewrite Z.pow_mul_r by lia; reflexivity).
        assert (2 ^ 64 = 256 * M * 2 ^ (8 * len post)).
        { rewrite <- HM1, <- pow2_add by lia. f_equal. lia. }
        nia. }
      assert (X1 : (2 ^ 64 - 1) / 2 ^ (8 * (7 - i + 1)) = 2 ^ (8 * i) - 1).
      { assert (2 ^ 64 = 2 ^ (8 * i) * 2 ^ (8 * (7 - i + 1))).
        { rewrite <- pow2_add by lia. f_equal. lia. }
        pose proof (pow2_pos (8 * (7 - i + 1)) ltac:(lia)).
        apply (div_eq _ _ _ (2 ^ (8 * (7 - i + 1)) - 1)); nia. }
      rewrite X1, land_mod by lia. rewrite <- HM.
      rewrite (mod_eq k M (c + 256 * b) a) by (unfold k; nia).
      assert (X2 : ((2 ^ 64 - 1) * 2 ^ (8 * (8 - (7 - i)))) mod 2 ^ 64
                   = (2 ^ (64 - 8 * (i + 1)) - 1) * 2 ^ (8 * (i + 1))).
      { replace (8 * (8 - (7 - i))) with (8 * (i + 1)) by lia.
        rewrite shl_mod by lia. f_equal.
        assert (2 ^ 64 = 2 ^ (8 * (i + 1)) * 2 ^ (64 - 8 * (i + 1))).
        { rewrite <- pow2_add by lia. f_equal. lia. }
        pose proof (pow2_pos (64 - 8 * (i + 1)) ltac:(lia)).
        pose proof (pow2_pos (8 * (i + 1)) ltac:(lia)).
        apply (mod_eq _ _ (2 ^ (8 * (i + 1)) - 1)); nia. }
      rewrite X2.
      assert (X3 : Z.land k ((2 ^ (64 - 8 * (i + 1)) - 1) * 2 ^ (8 * (i + 1))) = b * (256 * M)).
      { replace k with (b * 2 ^ (8 * (i + 1)) + (a + M * c)) by (rewrite HM1; unfold k; ring).
        assert (Hs : 0 <= a + M * c < 2 ^ (8 * (i + 1))) by (rewrite HM1; nia).
        pose proof (land_split b (a + M * c) (2 ^ (64 - 8 * (i + 1)) - 1) 0 (8 * (i + 1))
          ltac:(lia) Hs ltac:(lia)) as X. rewrite Z.add_0_r in X. rewrite X.
        rewrite Z.land_0_r, land_mod by lia. rewrite Z.mod_small, HM1; [ring|].
        replace (2 ^ (64 - 8 * (i + 1))) with (256 ^ len post); [lia|].
        replace (64 - 8 * (i + 1)) with (8 * len post) by lia. rewrite Z.pow_mul_r by lia. reflexivity. }
      rewrite X3. replace (b * (256 * M) / 2 ^ 8) with (b * 2 ^ (8 * i))
        by (rewrite <- HM; symmetry; apply (div_eq _ _ _ 0); change (2 ^ 8) with 256; lia).
      rewrite lor_add' by lia. rewrite <- HM. ring.
    + replace i with 0 in * by lia. unfold shrc. change (256 ^ 0) with 1 in *.
      assert (a = 0) by lia. rewrite H.
      rewrite (div_eq _ _ b c); change (2 ^ 8) with 256; lia.
Qed.

End Dot.

(** * FixedProofs: the positional format with a given precision *)

From Coq Require Import ZArith List Bool Lia.
From Verif Require Import Base ZLemmas BigUInt BigLaws BigUIntProofs BigExtra F256 F256Lemmas CodecProofs BasicProofs
  MiscProofs Arith Spec SpecFns SpecLemmas Interface LiftProofs Parse SpecParse ParseProofs ReadProofs Print SpecPrint PrintText PrintInt
  PrintFixed SpecFixed FixedText FixedChunks.
Import ListNotations.
Open Scope Z_scope.

Local Notation len l := (Z.of_nat (length l)).

Section Fixed.
Context {P : profile}.

(** The quantum and whether the value is an integer *)
Lemma ntz_divides c z m k : 0 <= z -> 0 <= m -> c = (2 * k + 1) * 2 ^ z -> (m <= z <-> c mod 2 ^ m = 0).
Proof.
  intros Hz Hm Ec. pose proof (pow2_pos m Hm) as PM. split; intros H.
  - replace z with (z - m + m) in Ec by lia. rewrite Z.pow_add_r, Z.mul_assoc in Ec by lia. rewrite Ec. apply Z.mod_mul. lia.
  - destruct (Z.le_gt_cases m z) as [|G]; auto. exfalso.
    apply Z.mod_divide in H; [|lia]. destruct H as [t H].
    replace m with (m - z - 1 + 1 + z) in H by lia. rewrite !Z.pow_add_r in H by lia. change (2 ^ 1) with 2 in H.
    pose proof (pow2_pos z Hz). assert (2 * k + 1 = 2 * (t * 2 ^ (m - z - 1))); [|lia].
    apply Z.mul_reg_r with (2 ^ z); [lia|]. rewrite <- Ec, H. ring.
Qed.

(** Scaling by the unit *)
Lemma scaled_frac u E c p : 0 <= E <= u -> 0 <= p ->
  (c * 2 ^ E) * 10 ^ p / 2 ^ u = c * 10 ^ p / 2 ^ (u - E)
  /\ ((c * 2 ^ E) * 10 ^ p) mod 2 ^ u = ((c * 10 ^ p) mod 2 ^ (u - E)) * 2 ^ E.
Proof.
  intros HE Hp. pose proof (pow2_pos E ltac:(lia)). pose proof (pow2_pos (u - E) ltac:(lia)).
  assert (EU : 2 ^ u = 2 ^ (u - E) * 2 ^ E) by (rewrite <- Z.pow_add_r by lia; f_equal; lia).
  replace (c * 2 ^ E * 10 ^ p) with (c * 10 ^ p * 2 ^ E) by ring. rewrite EU. split.
  - apply Z.div_mul_cancel_r; lia.
  - apply Z.mul_mod_distr_r; lia.
Qed.

Lemma int_plus U N F T : 0 < U -> 0 <= F -> ((N * U + F) * T) / U = N * T + F * T / U /\ ((N * U + F) * T) mod U = (F * T) mod U.
Proof.
  intros HU HF. replace ((N * U + F) * T) with (F * T + N * T * U) by ring.
  rewrite Z.div_add, Z.mod_add by lia. split; [lia|reflexivity].
Qed.

(** Digits of the fractional part *)
Lemma fraction_ok u ct g F p : u = UNITe -> chunks_ok ct -> 0 <= g < 2 ^ 256 -> sgn g = 0 -> finb g = true ->
  mag_val (mag g) = F -> 2 ^ (u - 83) <= F < 2 ^ u -> 0 <= p <= 75 ->
  exists ds r,
    (let! exp2 := quantum_exponent (of256 g) in
     let! signif2 := integral_significand (of256 g) in
     let! (signif2, exp2) :=
       (if exp2 <? EMIN then
          let! m := msb signif2 in
          let! adj := subu 32 237 m in
          let! signif2 := ushl signif2 adj in
          let! exp2 := subs 32 exp2 (casts 32 adj) in
          Some (signif2, exp2)
        else Some (signif2, exp2)) in
     bin_fract_2_dec_str ct signif2 exp2 p) = Some (ascii ds, r)
    /\ is_dec ds /\ len ds = p /\ dval ds = F * 10 ^ p / 2 ^ u /\ round_cond r (F * 10 ^ p) (2 ^ u).
Proof.
  intros Eu CT Hg Sg Fg VF HF Hp. assert (HU : u = 262378) by (rewrite Eu; reflexivity). clear Eu.
  pose proof (mag_bound g) as MB. pose proof (sg_bound (mag g) ltac:(lia)) as Sb. destruct (sg_qe (mag g) ltac:(lia)) as [Em C].
  pose proof (mag_val_sg (mag g) ltac:(lia)) as Vm. rewrite VF in Vm. pose proof (qe_nonneg (mag g)) as Q0.
  rewrite quantum_exponent_ok, bind_Some by auto. rewrite integral_significand_ok, bind_Some by auto.
  set (c := sg (mag g)) in *. set (E := qe (mag g)) in *. clearbody c E.
  pose proof (pow2_pos E Q0) as PE.
  assert (NZ : zerob g = false).
  { unfold zerob. apply Z.eqb_neq. intros Z0. rewrite Z0 in VF. change (mag_val 0) with 0 in VF.
    pose proof (pow2_pos (u - 83) ltac:(lia)). clear - HF VF H. lia. }
  rewrite NZ.
  assert (E1 : u - 319 <= E).
  { destruct (Z.le_gt_cases (u - 319) E); auto. exfalso.
    assert (2 ^ 237 * 2 ^ E <= 2 ^ (u - 83)). { rewrite <- Z.pow_add_r by lia. apply Z.pow_le_mono_r; lia. }
    clear - Vm Sb H0 PE HF. nia. }
  assert (E2 : E <= u - 237).
  { destruct (Z.le_gt_cases E (u - 237)); auto. exfalso.
    assert (2 ^ u <= 2 ^ 236 * 2 ^ E). { rewrite <- Z.pow_add_r by lia. apply Z.pow_le_mono_r; lia. }
    assert (2 ^ 236 <= c) by lia.
    clear - Vm H0 H1 PE HF. nia. }
  replace (E - 262378) with (E - u) by lia.
  destruct (Z.ltb_spec (E - u) EMIN) as [G|G]; [unfold EMIN in G; lia|]. rewrite bind_Some.
  assert (PC : 0 < c). { pose proof (pow2_pos (u - 83) ltac:(lia)). clear - HF Vm H PE. nia. }
  destruct (fract_ok ct c (E - u) p CT ltac:(lia) ltac:(lia) Hp) as (ds & r & Ed & D1 & D2 & D3 & D4).
  exists ds, r. split; [exact Ed|]. split; [exact D1|]. split; [exact D2|].
  replace (- (E - u)) with (u - E) in * by lia.
  destruct (scaled_frac u E c p ltac:(lia) ltac:(lia)) as [S1 S2]. rewrite Vm, S1. split; [exact D3|].
  assert (EU : 2 ^ u = 2 ^ (u - E) * 2 ^ E) by (rewrite <- Z.pow_add_r by lia; f_equal; lia).
  unfold round_cond in *. rewrite S2, EU. set (K := 2 ^ E) in *. clear - D4 PE.
  destruct r; nia.
Qed.

Lemma tiny_fraction_ok u ct g F p : u = UNITe -> chunks_ok ct -> 0 <= g < 2 ^ 256 -> sgn g = 0 -> finb g = true ->
  mag_val (mag g) = F -> 0 < F < 2 ^ (u - 275) -> 0 <= p <= 75 ->
    (let! exp2 := quantum_exponent (of256 g) in
     let! signif2 := integral_significand (of256 g) in
     let! (signif2, exp2) :=
       (if exp2 <? EMIN then
          let! m := msb signif2 in
          let! adj := subu 32 237 m in
          let! signif2 := ushl signif2 adj in
          let! exp2 := subs 32 exp2 (casts 32 adj) in
          Some (signif2, exp2)
        else Some (signif2, exp2)) in
     bin_fract_2_dec_str ct signif2 exp2 p) = Some (zeroes p, Down).
Proof.
  intros Eu CT Hg Sg Fg VF HF Hp. assert (HU : u = 262378) by (rewrite Eu; reflexivity). clear Eu.
  pose proof (mag_bound g) as MB. pose proof (sg_bound (mag g) ltac:(lia)) as Sb. destruct (sg_qe (mag g) ltac:(lia)) as [Em C].
  pose proof (mag_val_sg (mag g) ltac:(lia)) as Vm. rewrite VF in Vm. pose proof (qe_nonneg (mag g)) as Q0.
  rewrite quantum_exponent_ok, bind_Some by auto. rewrite integral_significand_ok, bind_Some by auto.
  set (c := sg (mag g)) in *. set (E := qe (mag g)) in *. clearbody c E.
  pose proof (pow2_pos E Q0) as PE.
  assert (NZ : zerob g = false).
  { unfold zerob. apply Z.eqb_neq. intros Z0. rewrite Z0 in VF. change (mag_val 0) with 0 in VF. clear - HF VF. lia. }
  rewrite NZ.
  assert (PC : 0 < c) by (clear - HF Vm PE; nia).
  assert (E2 : E <= u - 512).
  { destruct (Z.le_gt_cases E (u - 512)); auto. exfalso.
    assert (2 ^ (u - 275) <= 2 ^ 236 * 2 ^ E). { rewrite <- Z.pow_add_r by lia. apply Z.pow_le_mono_r; lia. }
    assert (2 ^ 236 <= c) by lia.
    clear - Vm H0 H1 PE HF. nia. }
  clear HF Vm VF. replace (E - 262378) with (E - u) by lia. unfold EMIN.
  destruct (Z.ltb_spec (E - u) (-262142)) as [G|G].
  - rewrite msb256 by lia. rewrite bind_Some.
    assert (LB : 0 <= Z.log2 c <= 236).
    { split; [apply Z.log2_nonneg|]. apply Z.lt_succ_r. apply Z.log2_lt_pow2; lia. }
    rewrite subu_ok by lia. rewrite bind_Some.
    rewrite (L_shl _ L256) by (change (2 ^ BITS) with (2 ^ 256); change BITS with 256; lia). rewrite bind_Some.
    rewrite casts_ok by lia. rewrite subs_ok by lia. rewrite !bind_Some.
    apply tiny_ok; auto. lia.
  - rewrite bind_Some. apply tiny_ok; auto. lia.
Qed.

Lemma fix_text_model i fd p : len fd = p ->
  (48 :: ascii i ++ (if 0 <? p then [46] else [])) ++ ascii fd = fix_text (0 :: i) fd.
Proof.
  intros L. destruct fd as [|d fd].
  - cbn [length] in L. rewrite ltb_false by lia. rewrite fix_text_nil. cbn [ascii map app]. rewrite !app_nil_r. reflexivity.
  - cbn [length] in L. rewrite ltb_true by lia. rewrite fix_text_cons by discriminate.
    cbn [app]. rewrite <- app_assoc. reflexivity.
Qed.

Lemma zeros_frac p : 0 <= p -> is_dec (repeat 0 (Z.to_nat p)) /\ len (repeat 0 (Z.to_nat p)) = p /\ dval (repeat 0 (Z.to_nat p)) = 0
  /\ zeroes p = ascii (repeat 0 (Z.to_nat p)).
Proof.
  intros Hp. split; [apply is_dec_zeros|]. split; [rewrite len_repeat; lia|].
  split; [|apply ascii_zeroes]. apply dval_zeros. generalize (Z.to_nat p). clear. intros n. induction n; constructor; auto.
Qed.

Definition bin_fixed_result (n p U : Z) (m : option (list Z)) : Prop :=
  exists N i fd r, 0 <= N /\ digits_for N i /\ is_dec fd /\ len fd = p /\ N * 10 ^ p + dval fd = n * 10 ^ p / U
   /\ round_cond r (n * 10 ^ p) U
   /\ m = (if (match r with Up => true | ToEven => ends_odd (fix_text (0 :: i) fd) | Down => false end)
           then round_up_fixed_point (fix_text (0 :: i) fd) else Some (fix_text (0 :: i) fd)).

Lemma sgn_mag0 x : sgn (mag x) = 0.
Proof. unfold sgn. apply Z.div_small. pose proof (mag_bound x). lia. Qed.
Lemma mag_mag x : mag (mag x) = mag x.
Proof. unfold mag at 1. apply Z.mod_small. apply mag_bound. Qed.
Lemma sval_pos g : sgn g = 0 -> sval g = mag_val (mag g).
Proof. intros H. unfold sval. rewrite H. ring. Qed.

(** What the two halves of the function make of an integer and a fraction *)
Lemma bin_fixed_int n p U N i : 0 < U -> 0 <= p -> 0 <= N -> n = N * U -> digits_for N i ->
  bin_fixed_result n p U (Some ((48 :: ascii i ++ (if 0 <? p then [46] else [])) ++ zeroes p)).
Proof.
  intros HU Hp HN -> Di. destruct (zeros_frac p Hp) as (Z1 & Z2 & Z3 & Z4).
  exists N, i, (repeat 0 (Z.to_nat p)), Down. rewrite Z4, fix_text_model by exact Z2.
  split; [exact HN|]. split; [exact Di|]. split; [exact Z1|]. split; [exact Z2|]. rewrite Z3.
  replace (N * U * 10 ^ p) with (N * 10 ^ p * U) by ring. rewrite Z.div_mul by lia. split; [lia|].
  split; [|reflexivity]. unfold round_cond. rewrite Z.mod_mul by lia. lia.
Qed.

Lemma bin_fixed_frac n p U N i F fd r : 0 < U -> 0 <= p -> 0 <= N -> 0 <= F -> n = N * U + F -> digits_for N i ->
  is_dec fd -> len fd = p -> dval fd = F * 10 ^ p / U -> round_cond r (F * 10 ^ p) U ->
  bin_fixed_result n p U
    (if (match r with Up => true | ToEven => ends_odd ((48 :: ascii i ++ (if 0 <? p then [46] else [])) ++ ascii fd) | Down => false end)
     then round_up_fixed_point ((48 :: ascii i ++ (if 0 <? p then [46] else [])) ++ ascii fd)
     else Some ((48 :: ascii i ++ (if 0 <? p then [46] else [])) ++ ascii fd)).
Proof.
  intros HU Hp HN HF -> Di Df Lf Vf HR. exists N, i, fd, r. rewrite !fix_text_model by exact Lf.
  destruct (int_plus U N F (10 ^ p) HU HF) as [I1 I2].
  split; [exact HN|]. split; [exact Di|]. split; [exact Df|]. split; [exact Lf|].
  split; [rewrite I1, Vf; reflexivity|]. split; [|reflexivity]. unfold round_cond in *. rewrite I2. exact HR.
Qed.

Lemma digits_zero : digits_for 0 [0].
Proof. apply digits_one. lia. Qed.

Lemma sval_positive f : 0 <= f < 2 ^ 256 -> 0 < sval f -> sgn f = 0 /\ mag_val (mag f) = sval f.
Proof.
  intros Hf H. pose proof (sgn_bound f Hf) as S. pose proof (mag_bound f) as B.
  assert (M : 0 <= mag_val (mag f)). { rewrite mag_val_sg by lia. pose proof (sg_bound (mag f) ltac:(lia)).
    pose proof (pow2_pos (qe (mag f)) (qe_nonneg _)). nia. }
  unfold sval in *. assert (sgn f = 0 \/ sgn f = 1) as [E|E] by lia; rewrite E in *; split; lia.
Qed.

(** [Ed] is about a prefix of the computation in the goal. *)
Local Ltac prefix Ed :=
  match type of Ed with bind ?m _ = _ => destruct m as [?q|]; [|discriminate Ed] end; rewrite bind_Some in Ed |- *;
  match type of Ed with bind ?m _ = _ => destruct m as [?s|]; [|discriminate Ed] end; rewrite bind_Some in Ed |- *;
  match type of Ed with bind ?m _ = _ => destruct m as [[? ?]|]; [|discriminate Ed] end; rewrite bind_Some in Ed |- *;
  cbv beta iota in Ed |- *; rewrite Ed, !bind_Some; cbv beta iota.

Lemma bin_fixed_ok u lt ct g n p : u = UNITe -> tables_ok lt -> chunks_ok ct -> 0 < g < INFm -> mag_val g = n ->
  0 <= p <= 75 -> n < 2 ^ (237 + u) -> n mod 2 ^ u = 0 \/ 2 ^ (u - 83) <= n mod 2 ^ u \/ n < 2 ^ (u - 275) ->
  bin_fixed_result n p (2 ^ u) (bin_2_dec_fixed_point lt ct (of256 g) p).
Proof.
  intros Eu LT CT Hg Vg Hp HN HF. assert (HU : u = 262378) by (rewrite Eu; reflexivity).
  assert (IB : INFm < 2 ^ 255) by (vm_compute; reflexivity).
  assert (Hg2 : 0 <= g < 2 ^ 256) by lia.
  assert (Mg : mag g = g) by (unfold mag; apply Z.mod_small; lia).
  assert (Sg : sgn g = 0) by (unfold sgn; apply Z.div_small; lia).
  assert (Fg : finb g = true) by (unfold finb; rewrite Mg; apply Z.ltb_lt; lia).
  assert (NZ : zerob g = false) by (unfold zerob; rewrite Mg; apply Z.eqb_neq; lia).
  pose proof (sg_bound g ltac:(lia)) as Sb. destruct (sg_qe g ltac:(lia)) as [Em C].
  pose proof (mag_val_sg g ltac:(lia)) as Vm. rewrite Vg in Vm. pose proof (qe_nonneg g) as Q0.
  pose proof (pow2_pos u ltac:(lia)) as PU.
  unfold bin_2_dec_fixed_point.
  rewrite is_finite_of, Fg by auto. rewrite dassert_ok by reflexivity. rewrite bind_Some.
  rewrite is_sign_positive_of, Sg by auto. rewrite dassert_ok by reflexivity. rewrite bind_Some.
  rewrite quantum_exponent_ok, bind_Some, NZ by auto. rewrite integral_significand_ok, bind_Some by auto.
  rewrite Mg. set (c := sg g) in *. set (E := qe g) in *.
  assert (PC : 0 < c) by (clear - Hg Em C Q0 Sb; lia). pose proof (pow2_pos E Q0) as PE.
  clearbody c E.
  rewrite (L_tz _ L256) by (change (2 ^ BITS) with (2 ^ 256); lia). change BITS with 256.
  pose proof (ntz_lt 256 c ltac:(lia) ltac:(lia)) as TB. destruct (ntz_spec 256 c PC) as (k & Ek & Hk & Hz).
  set (z := ntz 256 c) in *. clearbody z. rewrite casts_ok by lia. rewrite subs_ok by lia. rewrite bind_Some.
  rewrite Z.sub_0_l. replace (E - 262378) with (E - u) by lia.
  assert (EL : E <= u).
  { destruct (Z.le_gt_cases E u); auto. exfalso.
    assert (2 ^ (237 + u) <= 2 ^ 236 * 2 ^ E). { rewrite <- Z.pow_add_r by lia. apply Z.pow_le_mono_r; lia. }
    assert (2 ^ 236 <= c) by lia. clear - Vm H0 H1 PE HN. nia. }
  assert (EU : 2 ^ u = 2 ^ (u - E) * 2 ^ E) by (rewrite <- Z.pow_add_r by lia; f_equal; lia).
  assert (NM : n mod 2 ^ u = (c mod 2 ^ (u - E)) * 2 ^ E).
  { rewrite Vm, EU. apply Z.mul_mod_distr_r; [|lia]. pose proof (pow2_pos (u - E)). lia. }
  assert (INT : - z <= E - u <-> n mod 2 ^ u = 0).
  { rewrite NM. pose proof (ntz_divides c z (u - E) k Hz ltac:(lia) Ek) as D. split; intros H.
    - rewrite (proj1 D) by lia. lia.
    - assert (c mod 2 ^ (u - E) = 0) by (clear - H PE; nia). apply D in H0. lia. }
  clear NM Ek. pose proof (Z.div_mod n (2 ^ u) ltac:(lia)) as DN. pose proof (Z.mod_pos_bound n (2 ^ u) PU) as MN.
  assert (Pn : 0 < n) by (clear - Vm PC PE; nia).
  assert (DB : 0 <= n / 2 ^ u < 2 ^ 237).
  { split; [apply Z.div_pos; lia|]. apply Z.div_lt_upper_bound; [exact PU|]. rewrite Z.pow_add_r in HN by lia. clear - HN. lia. }
  destruct (Z.leb_spec (- z) (E - u)) as [A|A].
  { (* an integer *)
    rewrite bind_Some. apply INT in A. rewrite A in DN.
    destruct (integer_display_u u lt g (n / 2 ^ u) Eu LT Hg2 Sg) as (i & Ei & Di).
    { split; [|lia]. clear - DN Pn PU DB. nia. }
    { rewrite Mg, Vg. clear - DN. lia. }
    rewrite Ei, !bind_Some. apply bin_fixed_int with (n / 2 ^ u); try lia; auto. }
  assert (NF : n mod 2 ^ u <> 0) by (intros H; apply INT in H; lia).
  destruct (Z.ltb_spec (E - u) (-236)) as [B|B].
  - (* below one *)
    rewrite !bind_Some.
    assert (NU : n < 2 ^ u).
    { assert (2 ^ 237 * 2 ^ E <= 2 ^ u). { rewrite <- Z.pow_add_r by lia. apply Z.pow_le_mono_r; lia. }
      clear - Vm Sb H PE. nia. }
    rewrite Z.mod_small in HF, NF by lia.
    destruct HF as [HF|[HF|HF]]; [lia| |].
    + destruct (fraction_ok u ct g n p Eu CT Hg2 Sg Fg ltac:(rewrite Mg; exact Vg) ltac:(lia) Hp) as (ds & r & Ed & D1 & D2 & D3 & D4).
      cbv zeta. prefix Ed.
      apply (bin_fixed_frac n p (2 ^ u) 0 [0] n ds r); auto; try lia. apply digits_zero.
    + pose proof (tiny_fraction_ok u ct g n p Eu CT Hg2 Sg Fg ltac:(rewrite Mg; exact Vg) ltac:(lia) Hp) as Ed.
      cbv zeta. prefix Ed.
      destruct (zeros_frac p ltac:(lia)) as (Z1 & Z2 & Z3 & Z4). rewrite Z4.
      assert (SM : 2 * (n * 10 ^ p) < 2 ^ u).
      { assert (10 ^ p <= 10 ^ 75) by (apply Z.pow_le_mono_r; lia).
        assert (2 ^ u = 2 ^ (u - 275) * 2 ^ 275) by (rewrite <- Z.pow_add_r by lia; f_equal; lia).
        assert (2 * 10 ^ 75 < 2 ^ 275) by (vm_compute; reflexivity). rewrite H0.
        set (T := 10 ^ 75) in *. set (S := 2 ^ 275) in *. clearbody T S. pose proof (Z.pow_pos_nonneg 10 p). clear - HF Pn H H1 H2 Hp. nia. }
      assert (NP : 0 <= n * 10 ^ p) by (pose proof (Z.pow_pos_nonneg 10 p); clear - Pn H Hp; nia).
      apply (bin_fixed_frac n p (2 ^ u) 0 [0] n _ Down); auto; try lia. apply digits_zero.
      * rewrite Z3. symmetry. apply Z.div_small. clear - SM NP. lia.
      * unfold round_cond. rewrite Z.mod_small by (clear - SM NP; lia). exact SM.
  - (* integer and fractional part *)
    destruct (split_ok g Hg2 Fg) as (t & f & _ & ES & _ & Ht & Hf & Ft & Ff & Vt & Vs & Vf).
    rewrite ES, !bind_Some. clear ES.
    assert (U1u : U1 = 2 ^ u) by (unfold U1; rewrite Eu; reflexivity).
    rewrite U1u in Vt, Vf. unfold int_trunc in Vt. rewrite U1u in Vt. rewrite (sval_pos g Sg), Mg, Vg in Vt, Vs.
    rewrite Z.quot_div_nonneg in Vt by lia.
    assert (NL : 2 ^ u <= n).
    { assert (2 ^ u <= 2 ^ 236 * 2 ^ E). { rewrite <- Z.pow_add_r by lia. apply Z.pow_le_mono_r; lia. }
      assert (2 ^ 236 <= c) by lia. clear - Vm H H0 PE. nia. }
    assert (N1 : 1 <= n / 2 ^ u) by (apply Z.div_le_lower_bound; lia).
    assert (SF : sval f = n mod 2 ^ u) by (clear - Vt Vs DN; lia).
    assert (ST : 0 < sval t) by (rewrite Vt; clear - N1 PU; nia).
    assert (Gt : sgn t = 0 /\ mag_val (mag t) = n / 2 ^ u * 2 ^ u).
    { rewrite <- Vt. apply sval_positive; auto. }
    assert (Gf : sgn f = 0 /\ mag_val (mag f) = n mod 2 ^ u).
    { rewrite <- SF. apply sval_positive; auto. clear - SF NF MN. lia. }
    destruct Gt as [Gt1 Gt2]. destruct Gf as [Gf1 Gf2].
    destruct (integer_display_u u lt t (n / 2 ^ u) Eu LT Ht Gt1 ltac:(lia) Gt2) as (i & Ei & Di).
    rewrite Ei, !bind_Some.
    destruct HF as [HF|[HF|HF]]; [congruence| |].
    2: { exfalso. assert (2 ^ (u - 275) <= 2 ^ u) by (apply Z.pow_le_mono_r; lia). lia. }
    destruct (fraction_ok u ct f (n mod 2 ^ u) p Eu CT Hf Gf1 Ff Gf2 ltac:(lia) Hp) as (ds & r & Ed & D1 & D2 & D3 & D4).
    cbv zeta. prefix Ed.
    apply (bin_fixed_frac n p (2 ^ u) (n / 2 ^ u) i (n mod 2 ^ u) ds r); auto; try lia.
Qed.

End Fixed.

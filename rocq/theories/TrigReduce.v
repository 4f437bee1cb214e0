(** * TrigReduce: the argument reduction below 8 *)

From Coq Require Import ZArith Lia Bool Reals Lra List.
From Verif Require Import Base BigUInt ZLemmas BigLaws BigUIntProofs BigExtra Spec SpecFns F256 Arith Conv SpecLemmas SpecAlg
  F256Lemmas BasicProofs CodecProofs AddProofs DivProofs SosProofs MiscProofs SpecLog LogTable Log FpProofs LogProofs LnBound LogReal TrigTable Trig
  TrigPi TrigApprox.
Import ListNotations.
Open Scope Z_scope.

Section Re.
Context {P : profile}.

Lemma pos_mag a : 0 <= a < INFm -> mag a = a /\ sgn a = 0.
Proof. unfold INFm. intros H. unfold mag, sgn. split; [apply Z.mod_small|apply Z.div_small]; lia. Qed.
Lemma pos_fin a : 0 <= a < INFm -> finb a = true /\ nanb a = false.
Proof. intros H. unfold finb, nanb. destruct (pos_mag a H) as [-> _]. split; [apply Z.ltb_lt|apply Z.ltb_ge]; lia. Qed.
Lemma pos_sval a : 0 <= a < INFm -> sval a = mag_val a.
Proof. intros H. unfold sval. destruct (pos_mag a H) as [-> ->]. ring. Qed.

Definition LIMv : Z := 262161 * 2 ^ 236 + 2 ^ 236.
Lemma lim_ok : from_u64 (2 ^ FP_INT_BITS) = Some (of256 LIMv).
Proof. destruct P; vm_compute; reflexivity. Qed.
Definition FOURv : Z := 262144 * 2 ^ 236 + 2 ^ 236.
Lemma four_ok : from_u64 4 = Some (of256 FOURv).
Proof. destruct P; vm_compute; reflexivity. Qed.

Lemma fp_of_f256_ok a V k : k = 261886 -> 0 <= a < INFm -> mag_val a = V * 2 ^ k -> 0 <= V < 2 ^ 511 ->
  fp_of_f256 (of256 a) = Some (fpz V).
Proof.
  intros Hk Ha HV HB. assert (Ha2 : 0 <= a < 2 ^ 256) by (unfold INFm in Ha; lia).
  unfold fp_of_f256. rewrite lim_ok, bind_Some.
  assert (HL : f_lt (of256 a) (of256 LIMv) = true).
  { unfold f_lt. rewrite partial_cmp_of by (auto; unfold LIMv; lia). unfold code_cmp.
    assert (HLv : 0 <= LIMv < INFm) by (unfold LIMv, INFm; lia).
    destruct (pos_fin a Ha) as [_ ->]. destruct (pos_fin _ HLv) as [_ ->]. destruct (pos_mag a Ha) as [_ ->]. cbn [orb Z.eqb andb].
    rewrite !pos_sval by auto. unfold LIMv. rewrite mag_val_signif by lia.
    replace 262161 with (275 + k) by lia. rewrite pow2_add by lia. rewrite HV.
    pose proof (pow2_pos k ltac:(lia)) as PK. set (p := 2 ^ k) in *. clearbody p.
    assert (V * p < 2 ^ 236 * (2 ^ 275 * p)). { rewrite Z.mul_assoc. apply Z.mul_lt_mono_pos_r; lia. }
    destruct (Z.compare_spec (V * p) (2 ^ 236 * (2 ^ 275 * p))); auto; lia. }
  rewrite HL, dassert_ok, bind_Some by auto. clear HL.
  rewrite split_enc_ok by (auto; apply pos_fin; auto). rewrite bind_Some. cbv beta iota. cbn [snd].
  destruct (pos_mag a Ha) as [EM ES]. rewrite EM. rewrite is_sign_negative_of, ES by auto. change (0 =? 1) with false. cbv iota.
  unfold FRACTION_BITS, FP_INT_BITS. change (19 + 1 - 512) with (-492).
  destruct (Z.eqb_spec a 0) as [->|Na].
  - rewrite adds_ok by (change (32 - 1) with 31; lia). rewrite bind_Some. change (sg 0) with 0. change (castu 32 _) with 19.
    rewrite shl256s by lia. rewrite bind_Some. change (Z.abs _) with 0. change uzero with (of256 0). rewrite of512_join by lia.
    rewrite shr512 by lia. rewrite bind_Some. change (mag_val 0) with 0 in HV.
    pose proof (pow2_pos k ltac:(lia)). assert (V = 0) by (symmetry in HV; apply Z.mul_eq_0 in HV; lia). subst V. reflexivity.
  - rewrite mag_val_sg in HV by lia. pose proof (sg_bound a ltac:(lia)) as BS. destruct (sg_qe a ltac:(lia)) as [EA C].
    pose proof (qe_nonneg a) as Q0. assert (HQ : qe a < 524287) by (unfold INFm in Ha; lia).
    assert (S0 : sg a <> 0). { intros E. rewrite E in C. destruct C as [C|C]; [|lia]. rewrite E, C in EA. lia. }
    set (s := sg a) in *. set (q := qe a) in *. clearbody s q. clear EA EM ES Na Ha2.
    rewrite adds_ok by (change (32 - 1) with 31; lia). rewrite bind_Some.
    set (e := q - 262378 + 236). assert (He : q = e + 262142) by (unfold e; lia). clearbody e. subst q.
    destruct (Z.lt_ge_cases e (-492)) as [L|L].
    { exfalso. assert (EE : V * 2 ^ (k - (e + 262142)) = s).
      { apply (Z.mul_cancel_r _ _ (2 ^ (e + 262142))); [pose proof (pow2_pos (e + 262142) Q0); lia|].
        rewrite HV, <- Z.mul_assoc, <- pow2_add by lia. do 2 f_equal. lia. }
      assert (PB : 2 ^ 237 <= 2 ^ (k - (e + 262142))) by (apply pow2_le; lia). set (p := 2 ^ (k - (e + 262142))) in *. clearbody p.
      clear - EE PB BS S0 HB. destruct (Z.eq_dec V 0) as [->|N]; [lia|]. assert (1 * p <= V * p) by (apply Z.mul_le_mono_nonneg_r; lia). lia. }
    assert (HS : 2 ^ 236 <= s) by (destruct C; [lia|auto]).
    assert (EV : e < 0 -> V * 2 ^ (- e) = s * 2 ^ 256).
    { intros N. apply (Z.mul_cancel_r _ _ (2 ^ (e + 262142))); [pose proof (pow2_pos (e + 262142) Q0); lia|].
      rewrite <- (Z.mul_assoc V), <- pow2_add by lia. replace (- e + (e + 262142)) with (k + 256) by lia. rewrite pow2_add by lia.
      rewrite (Z.mul_assoc V), <- HV. ring. }
    destruct (Z.lt_ge_cases e 0) as [N|N].
    + rewrite (Z.max_r e 0), (Z.max_l e (-492)), (Z.min_l e 0) by lia. change (castu 32 (Z.min 0 19)) with 0.
      rewrite shl256s by lia. rewrite bind_Some. change uzero with (of256 0). rewrite of512_join by lia.
      rewrite shr512 by lia. rewrite bind_Some. rewrite fpz_pos by lia. repeat f_equal.
      rewrite Z.abs_neq by lia. apply (div_eq _ _ V 0); [|pose proof (pow2_pos (- e)); lia].
      specialize (EV N). lia.
    + assert (EV2 : V = s * 2 ^ (e + 256)).
      { apply (Z.mul_cancel_r _ _ (2 ^ k)); [pose proof (pow2_pos k); lia|]. rewrite <- HV, <- Z.mul_assoc, <- pow2_add by lia. do 2 f_equal. lia. }
      assert (E19 : e < 19).
      { destruct (Z.lt_ge_cases e 19) as [|G]; auto. exfalso. assert (PB : 2 ^ 275 <= 2 ^ (e + 256)) by (apply pow2_le; lia).
        assert (2 ^ 236 * 2 ^ 275 <= s * 2 ^ (e + 256)) by (apply Z.mul_le_mono_nonneg; lia). lia. }
      assert (PE : 0 < 2 ^ e <= 2 ^ 18) by (split; [apply pow2_pos; lia|apply pow2_le; lia]).
      rewrite (Z.max_l e 0), (Z.min_l e 19), (Z.max_l e (-492)), (Z.min_r e 0) by lia. unfold castu. rewrite Z.mod_small by lia. change (Z.abs 0) with 0.
      rewrite shl256s by (try lia; nia). rewrite bind_Some. change uzero with (of256 0). rewrite of512_join by lia.
      rewrite shr512 by (try lia; nia). rewrite bind_Some. rewrite fpz_pos by lia. repeat f_equal.
      change (2 ^ 0) with 1. rewrite Z.div_1_r, EV2, pow2_add by lia. ring.
Qed.

(** ** Constants *)
Definition PI4u : Z := Eval vm_compute in uc (0x00000c90fdaa22168c234c4c6628b80d, 0xc1cd129024e088a67cc74020bbea63b1, 0x39b22514a08798e3404ddef9519b3cd3, 0xa431b302b0a6df25f14374fe1356d6d5).
Definition PI2u : Z := Eval vm_compute in uc (0x00001921fb54442d18469898cc51701b, 0x839a252049c1114cf98e804177d4c762, 0x73644a29410f31c6809bbdf2a33679a7, 0x48636605614dbe4be286e9fc26adadaa).
Definition PI34u : Z := Eval vm_compute in uc (0x000025b2f8fe6643a469e4e5327a2829, 0x456737b06ea199f37655c06233bf2b13, 0xad166f3de196caa9c0e99cebf4d1b67a, 0xec95190811f49d71d3ca5efa3a04847f).
Definition PIu : Z := Eval vm_compute in uc (0x00003243f6a8885a308d313198a2e037, 0x07344a4093822299f31d0082efa98ec4, 0xe6c89452821e638d01377be5466cf34e, 0x90c6cc0ac29b7c97c50dd3f84d5b5b54).
Definition PI54u : Z := Eval vm_compute in uc (0x00003ed4f452aa70bcb07d7dfecb9844, 0xc9015cd0b862ab406fe440a3ab93f276, 0x207ab96722a5fc7041855ade98083022, 0x34f87f0d73425bbdb65148f660b2322a).
Definition PI74u : Z := Eval vm_compute in uc (0x000017f6efa6ee9dd4f71616cb1d0860, 0x4c9b81f10223bc8d6972c0e52368b9d8, 0x93df039063b52e36c22118d13b3ea9c9, 0x7d5be512d4901a0998d832f2875fdfd4).
Definition PI94u : Z := Eval vm_compute in uc (0x00003118eafb32caed3daeaf976e787b, 0xd035a7114be4cdda630141269b3d813b, 0x07434db9a4c45ffd42bcd6c3de752370, 0xc5bf4b1835ddd8557b5f1ceeae0d8d7e).
Lemma PI4_ok : FP_FRAC_PI_4 = fpz PI4u. Proof. destruct P; vm_compute; reflexivity. Qed.
Lemma PI2_ok : FP_FRAC_PI_2 = fpz PI2u. Proof. destruct P; vm_compute; reflexivity. Qed.
Lemma PI34_ok : FP_FRAC_3_PI_4 = fpz PI34u. Proof. destruct P; vm_compute; reflexivity. Qed.
Lemma PI_ok : FP_PI = fpz PIu. Proof. destruct P; vm_compute; reflexivity. Qed.
Lemma PI54_ok : FP_FRAC_5_PI_4 = fpz PI54u. Proof. destruct P; vm_compute; reflexivity. Qed.
Lemma PI74_ok : FP_FRAC_7_PI_4_M4 = fpz PI74u. Proof. destruct P; vm_compute; reflexivity. Qed.
Lemma PI94_ok : FP_FRAC_9_PI_4_M4 = fpz PI94u. Proof. destruct P; vm_compute; reflexivity. Qed.
Lemma TWO_ok : FP_TWO = fpz (2 ^ 493). Proof. destruct P; vm_compute; reflexivity. Qed.

Lemma fp_sub_ok a b : fp_sub (fpz a) (fpz b) = fpz (a - b).
Proof. unfold fp_sub. rewrite fp_ineg_ok, fp_add_ok. f_equal. Qed.

(** The multiple of pi / 2 that is subtracted *)
Definition redc (j : Z) : Z := (j / 2) * PIu + (j mod 2) * PI2u.

Lemma redc_far j : 1 <= j <= 5 -> 2 ^ 248 <= redc j mod 2 ^ 255 <= 2 ^ 255 - 2 ^ 248.
Proof.
  intros H. assert (E : forallb (fun j => (2 ^ 248 <=? redc j mod 2 ^ 255) && (redc j mod 2 ^ 255 <=? 2 ^ 255 - 2 ^ 248)) [1; 2; 3; 4; 5] = true)
    by (vm_compute; reflexivity).
  rewrite forallb_forall in E. assert (I : In j [1; 2; 3; 4; 5]) by (cbn; lia). apply E in I. rewrite andb_true_iff, !Z.leb_le in I. exact I.
Qed.

Lemma far X t j : X = t * 2 ^ 255 -> 1 <= j <= 5 -> 2 ^ 248 <= Z.abs (X - redc j).
Proof.
  intros -> H. pose proof (redc_far j H) as B. pose proof (Z.div_mod (redc j) (2 ^ 255) ltac:(lia)) as D.
  set (r := redc j mod 2 ^ 255) in *. set (c := redc j) in *. set (d := c / 2 ^ 255) in *. clearbody r c d. clear H. lia.
Qed.

Variable large : Z -> f256 -> option (Z * FP492).

Lemma reduce_ok a X k : k = 261886 -> 0 < a < INFm -> mag_val a = X * 2 ^ k -> X < 2 ^ 495 ->
  exists j V, reduce large (of256 a) = Some (j mod 4, fpz V) /\ 0 <= j <= 5 /\ V = X - redc j /\ Z.abs V <= BND
    /\ (1 <= j -> 2 ^ 491 <= X /\ 2 ^ 248 <= Z.abs V).
Proof.
  intros Hk Ha HX HB. assert (Ha1 : 0 <= a < INFm) by lia. assert (Ha2 : 0 <= a < 2 ^ 256) by (unfold INFm in Ha; lia).
  assert (X0 : 0 < X).
  { pose proof (mag_val_pos a ltac:(lia)) as Pa. pose proof (pow2_pos k ltac:(lia)). clear - Pa HX H. nia. }
  pose proof (fp_of_f256_ok a X k Hk Ha1 HX ltac:(lia)) as FX.
  unfold reduce. destruct (pos_fin a Ha1) as [Fa _]. destruct (pos_mag a Ha1) as [EM ES].
  rewrite is_finite_of, Fa, is_sign_positive_of, ES by auto. change (0 =? 0) with true. rewrite dassert_ok, bind_Some by reflexivity.
  rewrite exponent_ok by auto. unfold zerob. rewrite EM. replace (a =? 0) with false by (symmetry; apply Z.eqb_neq; lia). rewrite bind_Some.
  assert (HX' := HX). rewrite mag_val_sg in HX' by lia. pose proof (sg_bound a ltac:(lia)) as BS. destruct (sg_qe a ltac:(lia)) as [EA C].
  pose proof (qe_nonneg a) as Q0. set (s := sg a) in *. set (q := qe a) in *. clearbody s q.
  set (e := q - 262142) in *. assert (He : q = e + 262142) by (unfold e; lia). clearbody e. subst q.
  destruct (Z.leb_spec e (-2)) as [L|L].
  - rewrite FX, bind_Some. exists 0, X. split; [reflexivity|]. split; [lia|]. split; [unfold redc; cbn; lia|]. split; [|lia].
    assert (X < 2 ^ 491); [|unfold BND; lia].
    apply (Z.mul_lt_mono_pos_r (2 ^ k)); [apply pow2_pos; lia|]. rewrite <- HX', <- pow2_add by lia.
    apply Z.lt_le_trans with (2 ^ 237 * 2 ^ (e + 262142)); [apply Z.mul_lt_mono_pos_r; [apply pow2_pos; lia|lia]|].
    rewrite <- pow2_add by lia. apply pow2_le. lia.
  - assert (EX : X = s * 2 ^ e * 2 ^ 256 \/ e = -1 /\ X = s * 2 ^ 255).
    { destruct (Z.lt_ge_cases e 0) as [N|N]; [right|left].
      - split; [lia|]. apply (Z.mul_cancel_r _ _ (2 ^ k)); [pose proof (pow2_pos k); lia|]. rewrite <- HX', <- Z.mul_assoc, <- pow2_add by lia. do 2 f_equal. lia.
      - apply (Z.mul_cancel_r _ _ (2 ^ k)); [pose proof (pow2_pos k); lia|]. rewrite <- HX', <- !Z.mul_assoc, <- !pow2_add by lia. do 2 f_equal. lia. }
    assert (HS : 2 ^ 236 <= s) by (destruct C; [lia|auto]).
    assert (E3 : e < 3).
    { destruct (Z.lt_ge_cases e 3) as [|G]; auto. exfalso. destruct EX as [EX|[? _]]; [|lia]. assert (2 ^ 3 <= 2 ^ e) by (apply pow2_le; lia).
      assert (2 ^ 236 * 2 ^ 3 <= s * 2 ^ e) by (apply Z.mul_le_mono_nonneg; lia). lia. }
    assert (FR : exists t, X = t * 2 ^ 255).
    { destruct EX as [->|[_ ->]]; [exists (s * 2 ^ e * 2); lia|exists s; lia]. }
    destruct FR as [t FR].
    assert (FIN : forall j V, 1 <= j <= 5 -> V = X - redc j -> 2 ^ 491 <= X -> Z.abs V <= BND ->
       0 <= j <= 5 /\ V = X - redc j /\ Z.abs V <= BND /\ (1 <= j -> 2 ^ 491 <= X /\ 2 ^ 248 <= Z.abs V)).
    { intros j V Hj HV HX1 HV1. split; [lia|]. split; [auto|]. split; [auto|]. intros _. split; [auto|]. rewrite HV. apply (far X t); auto. }
    unfold fp_reduce. rewrite is_sign_positive_of, ES by auto. change (0 =? 0) with true.
    rewrite dassert_ok, bind_Some by (apply Z.leb_le; lia). rewrite dassert_ok, bind_Some by reflexivity.
    assert (HQ : exists Q, Q = e + 262142) by eauto. destruct HQ as [Q HQ]. rewrite <- HQ in *.
    assert (HC : e = -1 \/ e = 0 \/ e = 1 \/ e = 2) by lia.
    destruct HC as [->|[->|[->| ->]]]; cbn [Z.eqb Pos.eqb]; cbv iota.
    + assert (B : 2 ^ 491 <= X < 2 ^ 492) by (destruct EX as [EX|[_ EX]]; [change (2 ^ -1) with 0 in EX; lia|lia]). clear EX.
      rewrite FX, bind_Some. rewrite PI4_ok, fp_le_ok by (unfold PI4u; lia). destruct (Z.leb_spec X PI4u) as [G|G].
      * exists 0, X. split; [reflexivity|]. split; [lia|]. split; [unfold redc; cbn; lia|]. split; [unfold BND, PI4u in *; lia|lia].
      * rewrite PI2_ok, fp_sub_ok. exists 1, (X - PI2u). split; [reflexivity|]. apply FIN; [lia|change (redc 1) with PI2u; lia|lia|unfold BND, PI4u, PI2u in *; lia].
    + change (2 ^ 0) with 1 in EX. assert (B : 2 ^ 492 <= X < 2 ^ 493) by lia. clear EX.
      rewrite FX, bind_Some. rewrite PI2_ok, fp_sub_ok. exists 1, (X - PI2u). split; [reflexivity|].
      apply FIN; [lia|change (redc 1) with PI2u; lia|lia|unfold BND, PI2u in *; lia].
    + change (2 ^ 1) with 2 in EX. assert (B : 2 ^ 493 <= X < 2 ^ 494) by lia. clear EX.
      rewrite FX, bind_Some. rewrite PI34_ok, fp_le_ok by (unfold PI34u; lia). destruct (Z.leb_spec X PI34u) as [G|G].
      * rewrite PI2_ok, fp_sub_ok. exists 1, (X - PI2u). split; [reflexivity|].
        apply FIN; [lia|change (redc 1) with PI2u; lia|lia|unfold BND, PI34u, PI2u in *; lia].
      * rewrite PI54_ok, fp_le_ok by (unfold PI54u; lia). destruct (Z.leb_spec X PI54u) as [G2|G2].
        -- rewrite PI_ok, fp_sub_ok. exists 2, (X - PIu). split; [reflexivity|].
           apply FIN; [lia|change (redc 2) with PIu; lia|lia|unfold BND, PI34u, PI54u, PIu in *; lia].
        -- rewrite PI_ok, PI2_ok, !fp_sub_ok. exists 3, (X - PIu - PI2u). split; [reflexivity|].
           apply FIN; [lia|change (redc 3) with (PIu + PI2u); lia|lia|unfold BND, PI2u, PI54u, PIu in *; lia].
    + change (2 ^ 2) with 4 in EX. assert (B : 2 ^ 494 <= X < 2 ^ 495) by lia. assert (EX2 : X = s * 2 ^ 258) by lia. clear EX.
      rewrite four_ok, bind_Some. rewrite sub_ok by (auto; unfold FOURv; lia). rewrite bind_Some.
      assert (HF4 : 0 <= FOURv < INFm) by (unfold FOURv, INFm; lia).
      assert (V4 : mag_val FOURv = 2 ^ 236 * 2 ^ Q) by (unfold FOURv; replace 262144 with Q by lia; apply mag_val_signif; lia).
      assert (RP : exists y, 0 <= y < INFm /\ spec_sub a FOURv = y /\ mag_val y = (X - 2 ^ 494) * 2 ^ k).
      { unfold spec_sub, spec_add. destruct (kinds_neg FOURv ltac:(unfold FOURv; lia)) as (-> & -> & _).
        destruct (pos_fin FOURv HF4) as [F4 N4]. destruct (finb_kinds _ F4) as [_ I4]. destruct (finb_kinds _ Fa) as [Na Ia]. rewrite N4, I4, Na, Ia.
        cbn [orb andb]. cbv iota. rewrite ES, sval_neg_op by (unfold FOURv; lia). rewrite !pos_sval by auto.
        assert (EV : mag_val a + - mag_val FOURv = (s - 2 ^ 236) * 2 ^ Q) by (rewrite V4, HX, <- HX'; ring).
        assert (EN : (X - 2 ^ 494) * 2 ^ k = (s - 2 ^ 236) * 2 ^ Q).
        { rewrite EX2. replace Q with (258 + k) by lia. rewrite (pow2_add 258 k) by lia. change (2 ^ 494) with (2 ^ 236 * 2 ^ 258). ring. }
        assert (NN : 0 <= mag_val a + - mag_val FOURv) by (rewrite EV; apply Z.mul_nonneg_nonneg; [lia|apply Z.lt_le_incl, pow2_pos; lia]).
        assert (R : rep (mag_val a + - mag_val FOURv)).
        { apply (rep_intro (s - 2 ^ 236) Q _ a); try assumption; [lia|]. rewrite Z.abs_eq by assumption. pose proof (mag_val_nonneg FOURv ltac:(lia)). lia. }
        destruct R as (y & Hy & Ey). exists y. split; [auto|]. split.
        - rewrite (rnd_signed_exact _ _ y); auto. set (n := mag_val a + - mag_val FOURv) in *. clearbody n.
          replace (n <? 0) with false by (symmetry; apply Z.ltb_ge; lia). rewrite Z.mul_0_l. unfold mkf. destruct (n =? 0); lia.
        - rewrite Ey, Z.abs_eq by auto. rewrite EN. exact EV. }
      destruct RP as (y & Hy & Ey & Vy). rewrite Ey. rewrite (fp_of_f256_ok y (X - 2 ^ 494) k Hk Hy Vy ltac:(lia)), bind_Some.
      rewrite PI74_ok, fp_le_ok by (unfold PI74u; lia). destruct (Z.leb_spec (X - 2 ^ 494) PI74u) as [G|G].
      * rewrite PI_ok, PI2_ok, TWO_ok. rewrite fp_add_ok, fp_sub_ok, fp_add_ok, fp_sub_ok. eexists 3, _. split; [reflexivity|].
        apply FIN; [lia|change (redc 3) with (PIu + PI2u); lia|lia|unfold BND, PI74u, PIu, PI2u in *; lia].
      * rewrite PI94_ok, fp_le_ok by (unfold PI94u; lia). destruct (Z.leb_spec (X - 2 ^ 494) PI94u) as [G2|G2].
        -- rewrite PI_ok, TWO_ok. rewrite fp_sub_ok, fp_add_ok, fp_sub_ok, fp_add_ok. eexists 4, _. split; [reflexivity|].
           apply FIN; [lia|change (redc 4) with (2 * PIu + 0); lia|lia|unfold BND, PI74u, PI94u, PIu in *; lia].
        -- rewrite PI_ok, PI2_ok, TWO_ok. rewrite fp_sub_ok, fp_add_ok, fp_sub_ok, fp_add_ok, fp_sub_ok. eexists 5, _. split; [reflexivity|].
           apply FIN; [lia|change (redc 5) with (2 * PIu + 1 * PI2u); lia|lia|unfold BND, PI2u, PI94u, PIu in *; lia].
Qed.

End Re.

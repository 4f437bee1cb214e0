(** * FmaSpecial: fused multiply-add, all operands *)

From Coq Require Import ZArith Lia Bool.
From Verif Require Import Base BigUInt ZLemmas BigLaws BigUIntProofs BigExtra Spec F256 Arith
  SpecLemmas F256Lemmas RoundLemmas AddProofs DivProofs MulProofs BasicProofs FmaProofs.
Open Scope Z_scope.

Section FmaAll.
Context {P : profile}.

(** ** All operands *)

(** Where the encoding stands relative to zero and infinity. *)
Lemma stk_class a : 0 <= a < 2 ^ 255 ->
  (a = 0 /\ stk a = 0) \/ (0 < a < INFm /\ 0 < stk a < INF_HI) \/ (a = INFm /\ stk a = INF_HI)
  \/ (INFm < a /\ INF_HI < stk a).
Proof.
  intros Ha. pose proof (stk_bound a Ha) as B. pose proof (stk_zero a Ha) as Z. pose proof (stk_lt_inf a Ha) as L.
  pose proof (stk_eq_inf a Ha) as Q. pose proof (stk_gt_inf a Ha) as G.
  set (t := stk a) in *. clearbody t. clear - Ha B Z L Q G. pose proof INFm_pos.
  destruct (Z.eqb_spec t 0), (Z.eqb_spec a 0), (Z.ltb_spec t INF_HI), (Z.ltb_spec a INFm), (Z.eqb_spec t INF_HI), (Z.eqb_spec a INFm),
    (Z.ltb_spec INF_HI t), (Z.ltb_spec INFm a); try discriminate; try (exfalso; lia); try lia;
    (left; lia) || (right; left; lia) || (right; right; left; lia) || (right; right; right; lia).
Qed.

Definition fma_product (x y sgp : Z) : option f256 :=
  let! (z, rnd_bits) := mul_abs_finite (of256 x) (of256 y) in
  Some (round2 (or_hi z sgp) rnd_bits).

Lemma land_signs s t : (s = 0 \/ s = 1) -> (t = 0 \/ t = 1) -> u256 (Z.land (s * 2 ^ 127) (t * 2 ^ 127)) 0 = of256 (mkf (s * t) 0).
Proof. intros [->| ->] [->| ->]; reflexivity. Qed.

Lemma NAN_of : NAN = of256 QNAN. Proof. reflexivity. Qed.

Lemma rnd_signed_of_a s0 s m d : 0 < d -> (s = 0 \/ s = 1) -> 0 < m <= INFm ->
  rnd_signed s0 ((1 - 2 * s) * mag_val m * d) d = mkf s m.
Proof.
  intros Hd Hs Hm. pose proof (mag_val_pos m ltac:(lia)) as MP. unfold rnd_signed.
  set (v := mag_val m) in *. assert (VD : 0 < v * d) by nia.
  replace ((1 - 2 * s) * v * d =? 0) with false by (symmetry; apply Z.eqb_neq; destruct Hs; subst s; lia).
  replace ((1 - 2 * s) * v * d <? 0) with (s =? 1).
  2: { destruct Hs; subst s; symmetry; [apply Z.ltb_ge|apply Z.ltb_lt]; lia. }
  replace (Z.abs ((1 - 2 * s) * v * d)) with (v * d) by (destruct Hs; subst s; lia).
  f_equal. destruct Hs; subst s; reflexivity.
  pose proof (rnd_mag_scale v 1 d Hd ltac:(lia) ltac:(lia)) as E. rewrite Z.mul_1_l in E. rewrite E.
  apply rnd_mag_exact. lia.
Qed.

Ltac decide_tests := cbn [negb andb orb];
  repeat (match goal with
  | |- context [?x <? ?y] => first [rewrite (proj2 (Z.ltb_lt x y)) by lia | rewrite (proj2 (Z.ltb_ge x y)) by lia]
  | |- context [?x <=? ?y] => first [rewrite (proj2 (Z.leb_le x y)) by lia | rewrite (proj2 (Z.leb_gt x y)) by lia]
  | |- context [?x =? ?y] => first [rewrite (proj2 (Z.eqb_eq x y)) by lia | rewrite (proj2 (Z.eqb_neq x y)) by lia]
  end; cbn [negb andb orb]).

Theorem fma_of vx vy va : 0 <= vx < 2 ^ 256 -> 0 <= vy < 2 ^ 256 -> 0 <= va < 2 ^ 256 ->
  fma (of256 vx) (of256 vy) (of256 va) =
  if finb vx && finb vy && finb va && negb (zerob vx) && negb (zerob vy) then
    if zerob va then fma_product (mag vx) (mag vy) (xors (sgn vx) (sgn vy) * 2 ^ 127)
    else fma_finite (of256 (mag vx)) (of256 (mag vy)) (of256 (mag va)) (xors (sgn vx) (sgn vy) * 2 ^ 127) (sgn va * 2 ^ 127)
  else Some (of256 (spec_fma vx vy va)).
Proof.
  intros Hx Hy Ha. unfold fma.
  destruct (mkf_split vx Hx) as (Ex & Sx & Mx). destruct (mkf_split vy Hy) as (Ey & Sy & My). destruct (mkf_split va Ha) as (Ea & Sa & Ma).
  rewrite sign_xor by auto. rewrite sign_bits_of by auto. fold (sgn va).
  rewrite !abs_bits_of. fold (mag vx) (mag vy) (mag va). rewrite !sticky_of by lia.
  unfold any_special3. rewrite !stk_special by auto.
  assert (Eva : of256 va = of256 (mkf (sgn va) (mag va))) by (rewrite <- Ea; reflexivity).
  unfold spec_fma, nanb, infb, finb, zerob, sval.
  fold (fma_product (mag vx) (mag vy) (xors (sgn vx) (sgn vy) * 2 ^ 127)).
  rewrite Eva. clear Eva.
  set (a := mag vx) in *. set (b := mag vy) in *. set (c := mag va) in *. set (s := xors (sgn vx) (sgn vy)) in *.
  set (t := sgn va) in *.
  assert (Hs : s = 0 \/ s = 1) by (unfold s, xors; destruct (_ =? _); auto).
  assert (HU0 : 0 < 2 ^ UNITe) by (apply pow2_pos; unfold UNITe; lia). revert HU0. generalize (2 ^ UNITe). intros d Hd.
  clearbody a b c s t. clear Ex Ey Sx Sy Hx Hy Ha vx vy.
  rewrite land_signs, inf_of, NAN_of, sign_eqb by auto.
  assert (V0 : mag_val 0 = 0) by reflexivity.
  assert (RA : forall z, z = 0 -> c = 0 ->
     rnd_signed (s * t) ((1 - 2 * s) * z + (1 - 2 * t) * mag_val c * d) d = mkf (s * t) 0).
  { intros z -> ->. rewrite V0, !Z.mul_0_r, Z.mul_0_l. reflexivity. }
  assert (RB : forall z, z = 0 -> 0 < c < INFm ->
     rnd_signed 0 ((1 - 2 * s) * z + (1 - 2 * t) * mag_val c * d) d = mkf t c).
  { intros z -> HC. rewrite Z.mul_0_r, Z.add_0_l. apply rnd_signed_of_a; auto. lia. }
  assert (ZP : a = 0 \/ b = 0 -> mag_val a * mag_val b = 0).
  { intros [->| ->]; rewrite V0; ring. }
  pose proof (stk_class a Mx) as Ka. pose proof (stk_class b My) as Kb. pose proof (stk_class c Ma) as Kc.
  set (ta := stk a) in *. set (tb := stk b) in *. set (tc := stk c) in *. clearbody ta tb tc.
  assert (IP : 0 < INF_HI) by reflexivity. pose proof INFm_pos as IM.
  revert RA RB ZP. clear - Hs Sa Mx My Ma Ka Kb Kc IP IM Hd V0 Ea. intros RA RB ZP.
  set (I := INF_HI) in *. clearbody I. 
  set (J := INFm) in *. clearbody J. 
  destruct Ka as [[Ka Ka']|[[Ka Ka']|[[Ka Ka']|[Ka Ka']]]];
  destruct Kb as [[Kb Kb']|[[Kb Kb']|[[Kb Kb']|[Kb Kb']]]];
  destruct Kc as [[Kc Kc']|[[Kc Kc']|[[Kc Kc']|[Kc Kc']]]];
  decide_tests; try reflexivity; try (rewrite Ea; reflexivity);
  try (rewrite RA; [reflexivity|apply ZP; lia|assumption]);
  try (rewrite RB; [reflexivity|apply ZP; lia|lia]);
  try (rewrite (Z.eqb_sym t s); destruct (Z.eqb_spec s t) as [<-|]; cbn [negb]; rewrite ?Kc; reflexivity).
Qed.

(** ** The result is correctly rounded *)

Lemma fma_product_ok a b s : 0 < a < INFm -> 0 < b < INFm -> (s = 0 \/ s = 1) ->
  2 ^ 236 * 2 ^ UNITe <= mag_val a * mag_val b ->
  fma_product a b (s * 2 ^ 127) = Some (of256 (mkf s (rnd_mag (mag_val a * mag_val b) (2 ^ UNITe)))).
Proof.
  intros Ha Hb Hs HN. unfold fma_product.
  destruct (mul_abs_ok a b Ha Hb) as (w & r & -> & Hw & Hr & HM). cbv zeta in HM.
  rewrite bind_Some. unfold INFm in Hw. rewrite round2_ok by lia.
  destruct HM as [HM|(HM & _)].
  - unfold mkf. rewrite HM. reflexivity.
  - exfalso. apply (Z.lt_irrefl (2 ^ 236 * 2 ^ UNITe)). eapply Z.le_lt_trans; eassumption.
Qed.

Lemma fma_special vx vy va : 0 <= vx < 2 ^ 256 -> 0 <= vy < 2 ^ 256 -> 0 <= va < 2 ^ 256 ->
  finb vx && finb vy && finb va && negb (zerob vx) && negb (zerob vy) = false ->
  fma (of256 vx) (of256 vy) (of256 va) = Some (of256 (spec_fma vx vy va)).
Proof. intros Hx Hy Ha H. rewrite fma_of, H by auto. reflexivity. Qed.

Lemma fma_conditions x y a u : u = 262378 -> 0 < x < INFm -> 0 < y < INFm -> 0 < a < INFm ->
  (2 ^ 236 <= x /\ 2 ^ 236 <= y /\ (2 ^ 236 <= a \/ 2 ^ 237 * 2 ^ u <= mag_val x * mag_val y))
  \/ (2 ^ 236 <= a /\ 2 ^ 238 * (mag_val x * mag_val y) <= mag_val a * 2 ^ u) ->
  ((2 ^ 236 <= x /\ 2 ^ 236 <= y) \/ 0 <= fma_d x y a) /\ (2 ^ 236 <= a \/ fma_d x y a <= 1).
Proof.
  intros Hu Hx Hy Ha H.
  pose proof (mag_val_prod4 x y ltac:(lia) ltac:(lia)) as M4. pose proof (mag_val_sg a ltac:(lia)) as MA.
  destruct (exp_sub_norm x Hx) as (_ & _ & _ & X4 & _). destruct (exp_sub_norm y Hy) as (_ & _ & _ & Y4 & _).
  destruct (exp_sub_norm a Ha) as (_ & _ & _ & A4 & _).
  pose proof (sg_bound x ltac:(lia)) as SX. pose proof (sg_bound y ltac:(lia)) as SY. pose proof (sg_bound a ltac:(lia)) as SA.
  pose proof (sg_pos x ltac:(lia)) as PX. pose proof (sg_pos y ltac:(lia)) as PY. pose proof (sg_pos a ltac:(lia)) as PA.
  destruct H as [(Nx & Ny & H)|(Na & H)].
  - split. left; split; auto. destruct H as [H|H]; [left; auto|].
    destruct (Z.le_gt_cases (2 ^ 236) a) as [Na|Na]; [left; auto|right].
    assert (Qa : qe a = 0).
    { unfold qe. rewrite Z.div_small by lia. reflexivity. }
    unfold fma_d. rewrite Qa. set (K := qe x + qe y) in *. assert (KB : 0 <= K) by (unfold K; clear - X4 Y4; lia).
    destruct (Z.le_gt_cases 262141 K) as [|C]; [lia|exfalso].
    assert (PU : fma_p x y < 2 ^ 476).
    { unfold fma_p. change (2 ^ 476) with (2 ^ 237 * (2 ^ 237 * 4)). clear - SX SY. apply Z.mul_lt_mono_nonneg; lia. }
    assert (B : 4 * (2 ^ 237 * 2 ^ u) < 2 ^ 476 * 2 ^ K).
    { eapply Z.le_lt_trans. apply Z.mul_le_mono_nonneg_l; [|exact H]. clear; lia. rewrite M4.
      apply Z.mul_lt_mono_pos_r; auto. apply pow2_pos. exact KB. }
    revert B. apply Z.le_ngt. replace (4 * (2 ^ 237 * 2 ^ u)) with (2 ^ (239 + u)).
    rewrite <- pow2_add by (clear - KB; lia). apply pow2_le. clear - C Hu KB. lia.
    rewrite pow2_add by (clear - Hu; lia). change (2 ^ 239) with (4 * 2 ^ 237). ring.
  - split; [right|left; auto].
    unfold fma_d. set (K := qe x + qe y) in *. assert (KB : 0 <= K) by (unfold K; clear - X4 Y4; lia).
    assert (PK : 0 < 2 ^ K) by (apply pow2_pos; exact KB).
    assert (PL : 2 ^ 238 <= fma_p x y \/ K = 0).
    { destruct (Z.le_gt_cases (2 ^ 236) x) as [Nx|Nx]; [|destruct (Z.le_gt_cases (2 ^ 236) y) as [Ny|Ny]].
      - left. apply sg_norm in Nx. unfold fma_p. change (2 ^ 238) with (2 ^ 236 * 4). clear - Nx PY. nia.
      - left. apply sg_norm in Ny. unfold fma_p. change (2 ^ 238) with (2 ^ 236 * 4). clear - Ny PX. nia.
      - right. assert (qe x = 0) by (unfold qe; rewrite Z.div_small by lia; reflexivity).
        assert (qe y = 0) by (unfold qe; rewrite Z.div_small by lia; reflexivity).
        unfold K. clear - H0 H1. lia. }
    destruct PL as [PL|PL]; [|clear - PL A4; lia].
    destruct (Z.le_gt_cases 0 (qe a - (K - 262142))) as [|C]; [assumption|exfalso];
        assert (B : 2 ^ 238 * (2 ^ 238 * 2 ^ K) < 2 ^ 239 * 2 ^ qe a * 2 ^ u);
        [ apply Z.le_lt_trans with (2 ^ 238 * (fma_p x y * 2 ^ K));
          [ apply Z.mul_le_mono_nonneg_l; [clear; lia|]; apply Z.mul_le_mono_nonneg_r; [clear - PK; lia|exact PL]
          | rewrite <- M4; apply Z.le_lt_trans with (4 * (mag_val a * 2 ^ u));
            [ clear - H; lia | rewrite MA; assert (0 < 2 ^ qe a) by (apply pow2_pos; clear - A4; lia);
              assert (0 < 2 ^ u) by (apply pow2_pos; clear - Hu; lia);
              change (2 ^ 239) with (2 ^ 237 * 4); 
              assert (0 < 2 ^ qe a * 2 ^ u) by (apply Z.mul_pos_pos; assumption);
              set (w := 2 ^ qe a * 2 ^ u) in *; replace (4 * (sg a * 2 ^ qe a * 2 ^ u)) with (4 * (sg a * w)) by (unfold w; ring);
              replace (2 ^ 237 * 4 * 2 ^ qe a * 2 ^ u) with (2 ^ 237 * 4 * w) by (unfold w; ring);
              clear - SA H2; nia ] ]
        | revert B; apply Z.le_ngt; rewrite <- !pow2_add by (clear - KB A4 Hu; lia);
          apply pow2_le; clear - C Hu KB A4; lia ].
Qed.

Theorem fma_ok vx vy va : 0 <= vx < 2 ^ 256 -> 0 <= vy < 2 ^ 256 -> 0 <= va < 2 ^ 256 ->
  let xy := mag_val (mag vx) * mag_val (mag vy) in
  let n := (1 - 2 * xors (sgn vx) (sgn vy)) * xy + sval va * 2 ^ UNITe in
  (2 ^ 236 <= mag vx /\ 2 ^ 236 <= mag vy /\ (zerob va = true \/ 2 ^ 236 <= mag va \/ 2 ^ 237 * 2 ^ UNITe <= xy))
  \/ (2 ^ 236 <= mag va /\ 2 ^ 238 * xy <= mag_val (mag va) * 2 ^ UNITe) ->
  n = 0 \/ 2 ^ 236 * 2 ^ UNITe <= Z.abs n ->
  fma (of256 vx) (of256 vy) (of256 va) = Some (of256 (spec_fma vx vy va)).
Proof.
  intros Hx Hy Ha xy n HC Hn.
  destruct (finb vx && finb vy && finb va && negb (zerob vx) && negb (zerob vy)) eqn:F; [|apply fma_special; auto].
  rewrite fma_of by auto. rewrite F.
  assert (Hs : xors (sgn vx) (sgn vy) = 0 \/ xors (sgn vx) (sgn vy) = 1) by (unfold xors; destruct (_ =? _); auto).
  destruct (mkf_split vx Hx) as (_ & _ & Mx). destruct (mkf_split vy Hy) as (_ & _ & My). destruct (mkf_split va Ha) as (_ & Sa & Ma).
  assert (FF : finb vx = true /\ finb vy = true /\ finb va = true /\ zerob vx = false /\ zerob vy = false).
  { revert F. destruct (finb vx), (finb vy), (finb va), (zerob vx), (zerob vy); try discriminate. repeat split. }
  destruct FF as (F1 & F2 & F3 & F4 & F5).
  assert (SF : spec_fma vx vy va = rnd_signed (if zerob va then xors (sgn vx) (sgn vy) * sgn va else 0) n (2 ^ UNITe)).
  { unfold spec_fma, nanb, infb. unfold finb in F1, F2, F3. apply Z.ltb_lt in F1, F2, F3.
    rewrite !ltb_false by (clear - F1 F2 F3; lia). cbn [orb].
    replace (mag vx =? INFm) with false by (symmetry; apply Z.eqb_neq; clear - F1; lia).
    replace (mag vy =? INFm) with false by (symmetry; apply Z.eqb_neq; clear - F2; lia).
    replace (mag va =? INFm) with false by (symmetry; apply Z.eqb_neq; clear - F3; lia). cbn [orb]. reflexivity. }
  rewrite SF.
  apply Z.ltb_lt in F1, F2, F3. apply Z.eqb_neq in F4, F5.
  assert (Px : 0 < mag vx < INFm) by (clear - F1 F4 Mx; lia). assert (Py : 0 < mag vy < INFm) by (clear - F2 F5 My; lia).
  assert (PXY : 0 < xy) by (unfold xy; apply Z.mul_pos_pos; apply mag_val_pos; [exact (proj1 Px)|exact (proj1 Py)]).
  assert (HU0 : 0 < 2 ^ UNITe) by (apply pow2_pos; unfold UNITe; clear; lia).
  destruct (zerob va) eqn:ZA.
  - apply Z.eqb_eq in ZA.
    assert (En : n = (1 - 2 * xors (sgn vx) (sgn vy)) * xy).
    { unfold n, sval. rewrite ZA. change (mag_val 0) with 0. generalize (2 ^ UNITe). intros. ring. }
    clearbody n. subst n.
    assert (An : Z.abs ((1 - 2 * xors (sgn vx) (sgn vy)) * xy) = xy).
    { clear - Hs PXY. destruct Hs as [->| ->]; lia. }
    rewrite fma_product_ok; [|exact Px|exact Py|exact Hs|].
    2: { fold xy. revert Hn. rewrite An. generalize (2 ^ 236 * 2 ^ UNITe). clear - PXY Hs.
         intros z [Hn|Hn]; [|exact Hn]. exfalso. destruct Hs as [E|E]; rewrite E in Hn; lia. }
    fold xy. unfold rnd_signed. rewrite An.
    replace (_ * xy =? 0) with false by (symmetry; apply Z.eqb_neq; clear - PXY Hs; destruct Hs as [->| ->]; lia).
    do 3 f_equal. clear - PXY Hs. destruct Hs as [->| ->]; symmetry; [rewrite ltb_false|rewrite ltb_true]; lia.
  - apply Z.eqb_neq in ZA. assert (Pa : 0 < mag va < INFm) by (clear - F3 ZA Ma; lia).
    destruct (fma_conditions (mag vx) (mag vy) (mag va) UNITe eq_refl Px Py Pa) as [C1 C2].
    { destruct HC as [(H1 & H2 & [H3|H3])|H]; [discriminate H3|left; exact (conj H1 (conj H2 H3))|right; exact H]. }
    exact (fma_finite_k (mag vx) (mag vy) (mag va) _ _ UNITe eq_refl Px Py Pa Hs Sa C1 C2 (or_intror Hn)).
Qed.

End FmaAll.

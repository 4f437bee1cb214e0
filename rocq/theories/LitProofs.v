(** * LitProofs: the literals accepted by [FloatRepr::from_str], and what is read from them *)

From Coq Require Import ZArith List Bool Lia.
From Verif Require Import Base ZLemmas BigUInt BigLaws BigExtra F256 F256Lemmas Arith Parse SpecParse ChunkLemmas ParseProofs ReadProofs.
Import ListNotations.
Open Scope Z_scope.

Section Lit.
Context `{P : profile}.

(** ** The exponent *)

Definition I32MAX : Z := 2 ^ 31 - 1.
Definition esat (e : option (bool * lsign * list Z)) : Z :=
  match e with
  | Some (_, Minus, ds) => - Z.min (dval ds) I32MAX
  | Some (_, _, ds) => Z.min (dval ds) I32MAX
  | None => 0
  end.

(** An exponent without digits is accepted behind a sign. *)
Definition loose_exp (e : option (bool * lsign * list Z)) : Prop :=
  match e with
  | Some (_, s, ds) => is_dec ds /\ (ds = [] -> s <> NoSign)
  | None => True
  end.

Definition no_digit (l : list Z) : Prop := match l with c :: _ => is_digit c = false | [] => True end.

Lemma exponent_digits_ok ds : forall r e, is_dec ds -> no_digit r -> 0 <= e <= I32MAX ->
  exponent_digits (ascii ds ++ r) e = (Z.min (e * 10 ^ len ds + dval ds) I32MAX, r).
Proof.
  induction ds as [|d ds IH]; intros r e Hd Hr He.
  - cbn [ascii map app]. change (len (@nil Z)) with 0. change (10 ^ 0) with 1. change (dval []) with 0.
    replace (Z.min (e * 1 + 0) I32MAX) with e by lia.
    destruct r as [|c r]; [reflexivity|]. cbn [exponent_digits]. cbn [no_digit] in Hr.
    change (digit_of c <? 10) with (is_digit c). rewrite Hr. reflexivity.
  - inversion_clear Hd. cbn [ascii map app exponent_digits].
    rewrite digit_of_ok by (unfold digc; lia). replace (48 + d - 48) with d by lia.
    rewrite (proj2 (Z.ltb_lt d 10)) by lia. unfold ascii in IH.
    unfold I32MAX in *. rewrite IH; auto; [|lia].
    f_equal. rewrite len_cons, dval_cons. pose proof (len_nonneg ds).
    pose proof (dval_bound ds ltac:(auto)) as B.
    assert (1 <= 10 ^ len ds) by (apply (Z.pow_le_mono_r 10 0); lia).
    rewrite (Z.pow_add_r 10 (len ds) 1) by lia. change (10 ^ 1) with 10.
    set (p := 10 ^ len ds) in *. clearbody p. set (v := dval ds) in *. clearbody v.
    set (m := 2 ^ 31 - 1) in *.
    destruct (Z_le_gt_dec (e * 10 + d) m) as [Hle|Hgt].
    + replace (Z.min (Z.min (e * 10) m + d) m) with (e * 10 + d) by lia. f_equal. ring.
    + replace (Z.min (Z.min (e * 10) m + d) m) with m by lia.
      assert (m * p >= m) by (assert (0 <= m) by (unfold m; lia); nia).
      assert (e * (p * 10) + (d * p + v) >= m) by nia. lia.
Qed.

Lemma parse_exponent_text le : loose_exp le -> parse_exponent (exp_text le) = Some (esat le, []).
Proof.
  destruct le as [[[up s] ds]|]; [|reflexivity]. intros [Hd Hn].
  cbn [exp_text parse_exponent].
  assert (E : ((if up : bool then 69 else 101) =? 101) || ((if up then 69 else 101) =? 69) = true) by (destruct up; reflexivity).
  rewrite E. clear E.
  assert (DIG : forall d ds neg, is_dec (d :: ds) ->
     (if digit_of (48 + d) <? 10 then
       let '(e, bs) := exponent_digits (ascii ds) (digit_of (48 + d)) in
       Some (if neg : bool then - e else e, bs) else None)
     = Some (if neg then - Z.min (dval (d :: ds)) I32MAX else Z.min (dval (d :: ds)) I32MAX, [])).
  { intros d l neg H. inversion_clear H. rewrite digit_of_ok by (unfold digc; lia).
    replace (48 + d - 48) with d by lia. rewrite (proj2 (Z.ltb_lt d 10)) by lia.
    rewrite <- (app_nil_r (ascii l)). rewrite exponent_digits_ok; auto; [|exact I|unfold I32MAX; lia].
    rewrite dval_cons. reflexivity. }
  destruct s; cbn [sign_text app esat].
  - destruct ds as [|d ds]; [exfalso; apply Hn; reflexivity|]. cbn [ascii map].
    inversion_clear Hd. rewrite (proj2 (Z.eqb_neq (48 + d) 45)), (proj2 (Z.eqb_neq (48 + d) 43)) by lia.
    apply (DIG d ds false). constructor; auto.
  - change (43 =? 45) with false. change (43 =? 43) with true. cbv iota.
    destruct ds as [|d ds]; [reflexivity|]. cbn [ascii map]. apply (DIG d ds false); auto.
  - change (45 =? 45) with true. cbv iota.
    destruct ds as [|d ds]; [reflexivity|]. cbn [ascii map]. apply (DIG d ds true); auto.
Qed.

Lemma exponent_digits_inv bs : forall e e' r, Forall byte bs -> exponent_digits bs e = (e', r) ->
  exists ds, is_dec ds /\ bs = ascii ds ++ r.
Proof.
  induction bs as [|c t IH]; intros e e' r Hb E; cbn [exponent_digits] in E.
  - injection E as _ <-. exists []. split; [constructor|reflexivity].
  - assert (Bc : byte c) by (inversion_clear Hb; auto).
    assert (Bt : Forall byte t) by (inversion_clear Hb; auto).
    change (digit_of c <? 10) with (is_digit c) in E. destruct (is_digit c) eqn:Ed.
    + apply is_digit_true in Ed; auto. unfold digc in Ed. apply IH in E; auto. destruct E as (ds & D & ->).
      exists (c - 48 :: ds). split; [constructor; auto; lia|]. cbn [ascii map app]. f_equal. lia.
    + injection E as _ <-. exists []. split; [constructor|reflexivity].
Qed.

Lemma parse_exponent_inv bs e : Forall byte bs -> parse_exponent bs = Some (e, []) ->
  exists le, loose_exp le /\ bs = exp_text le.
Proof.
  intros Hb E. destruct bs as [|c t]; [exists None; split; [exact I|reflexivity]|].
  cbn [parse_exponent] in E. assert (Bt : Forall byte t) by (inversion_clear Hb; auto).
  destruct ((c =? 101) || (c =? 69)) eqn:Ec; [|injection E as _ E; discriminate].
  assert (DIG : forall x u, Forall byte (x :: u) ->
    forall neg, (if digit_of x <? 10 then
       let '(e, bs) := exponent_digits u (digit_of x) in
       Some (if neg : bool then - e else e, bs) else None) = Some (e, []) ->
    exists ds, is_dec ds /\ ds <> [] /\ x :: u = ascii ds).
  { intros x u Hx neg H. change (digit_of x <? 10) with (is_digit x) in H.
    assert (Bx : byte x) by (inversion_clear Hx; auto).
    assert (Bu : Forall byte u) by (inversion_clear Hx; auto).
    destruct (is_digit x) eqn:Ed; [|discriminate].
    apply is_digit_true in Ed; auto. unfold digc in Ed.
    destruct (exponent_digits u (digit_of x)) as [e1 r] eqn:E1. injection H as _ ->.
    apply exponent_digits_inv in E1; auto. destruct E1 as (ds & D & E1). rewrite app_nil_r in E1.
    exists (x - 48 :: ds). split; [constructor; auto; lia|]. split; [discriminate|].
    cbn [ascii map]. rewrite E1. f_equal. lia. }
  assert (UP : exists up : bool, c = if up then 69 else 101).
  { apply orb_true_iff in Ec. destruct Ec as [Ec|Ec]; apply Z.eqb_eq in Ec; [exists false|exists true]; auto. }
  destruct UP as (up & ->). clear Ec.
  destruct t as [|x u]; [discriminate|]. assert (Bu : Forall byte u) by (inversion_clear Bt; auto).
  destruct (Z.eqb_spec x 45) as [->|H45]; [|destruct (Z.eqb_spec x 43) as [->|H43]].
  - destruct u as [|y u]; [exists (Some (up, Minus, [])); split; [split; [constructor|discriminate]|reflexivity]|].
    destruct (DIG y u Bu true E) as (ds & D & Dn & ->).
    exists (Some (up, Minus, ds)). split; [split; [auto|discriminate]|reflexivity].
  - destruct u as [|y u]; [exists (Some (up, Plus, [])); split; [split; [constructor|discriminate]|reflexivity]|].
    destruct (DIG y u Bu false E) as (ds & D & Dn & ->).
    exists (Some (up, Plus, ds)). split; [split; [auto|discriminate]|reflexivity].
  - destruct (DIG x u Bt false E) as (ds & D & Dn & ->).
    exists (Some (up, NoSign, ds)). split; [split; [auto|intros; contradiction]|reflexivity].
Qed.

(** ** Whole literals *)

Definition body (l : literal) : list Z := ascii (l_int l) ++ frac_text (l_frac l) ++ exp_text (l_exp l).

Lemma documented_loose l : documented l -> loose l.
Proof.
  intros (D & H & E). split; [exact D|]. split.
  - unfold frac_digits in H. destruct (l_int l); [|left; discriminate].
    destruct (l_frac l); [right; discriminate|]. cbn in H. congruence.
  - destruct (l_exp l) as [[[up s] ds]|]; [intros; contradiction|exact I].
Qed.

Lemma loose_exp_of l : loose l -> loose_exp (l_exp l).
Proof.
  intros ((_ & _ & D) & _ & H). unfold exp_digits in D. destruct (l_exp l) as [[[up s] ds]|]; [|exact I].
  split; auto.
Qed.

Lemma byte_ascii ds : is_dec ds -> Forall byte (ascii ds).
Proof. intros H. apply Forall_map. eapply Forall_impl; [|exact H]. unfold byte. cbv beta. intros; lia. Qed.

Lemma byte_sign s : Forall byte (sign_text s).
Proof. destruct s; repeat constructor; unfold byte; lia. Qed.

Lemma byte_exp le : loose_exp le -> Forall byte (exp_text le).
Proof.
  destruct le as [[[up s] ds]|]; intros H; [|constructor]. destruct H as [H _].
  constructor; [unfold byte; destruct up; lia|]. apply Forall_app. split; [apply byte_sign|apply byte_ascii; auto].
Qed.

Lemma byte_body l : all_decimal l -> loose_exp (l_exp l) -> Forall byte (body l).
Proof.
  intros (D1 & D2 & D3) HE. unfold body. apply Forall_app. split; [apply byte_ascii; auto|].
  apply Forall_app. split; [|apply byte_exp; auto]. unfold frac_text, frac_digits in *.
  destruct (l_frac l); [|constructor]. constructor; [unfold byte; lia|apply byte_ascii; auto].
Qed.

Lemma scan_exp le rp : scan (exp_text le) rp = ([], exp_text le, rp, false).
Proof. destruct le as [[[[] s] ds]|]; reflexivity. Qed.

Lemma scan_body l : all_decimal l ->
  scan (body l) None =
  (l_int l ++ frac_digits l, exp_text (l_exp l),
   match l_frac l with Some f => Some (len f + 1 + len (exp_text (l_exp l))) | None => None end, false).
Proof.
  intros (D1 & D2 & D3). unfold body. rewrite scan_digits by (apply ascii_digc; auto).
  rewrite digits_ascii. unfold frac_text, frac_digits in *. destruct (l_frac l) as [f|].
  - cbn [app]. rewrite scan_dot. rewrite scan_digits by (apply ascii_digc; auto).
    rewrite digits_ascii, scan_exp, app_nil_r. rewrite len_cons, len_app, len_ascii.
    replace (len f + len (exp_text (l_exp l)) + 1) with (len f + 1 + len (exp_text (l_exp l))) by lia. reflexivity.
  - cbn [app]. rewrite scan_exp. reflexivity.
Qed.

Lemma get_sign_text l : all_decimal l -> (l_int l <> [] \/ l_frac l <> None) ->
  get_sign (text l) = (lit_negative l, body l).
Proof.
  intros (D1 & _ & _) HN. unfold text, lit_negative. fold (body l).
  destruct (l_sign l); cbn [sign_text app get_sign].
  - assert (E : get_sign (body l) = (0, body l)); [|exact E].
    unfold body. destruct (l_int l) as [|d ds]; cbn [ascii map app].
    + destruct (l_frac l) as [f|]; [reflexivity|]. destruct HN; congruence.
    + inversion_clear D1. cbn [get_sign].
      rewrite (proj2 (Z.eqb_neq (48 + d) 45)), (proj2 (Z.eqb_neq (48 + d) 43)) by lia. reflexivity.
  - reflexivity.
  - reflexivity.
Qed.

Lemma body_nonempty l : (l_int l <> [] \/ l_frac l <> None) -> len (exp_text (l_exp l)) < len (body l).
Proof.
  intros H. unfold body. rewrite !len_app, len_ascii. pose proof (len_nonneg (l_int l)).
  pose proof (len_nonneg (frac_text (l_frac l))).
  destruct H as [H|H].
  - destruct (l_int l); [congruence|]. rewrite len_cons in *. pose proof (len_nonneg l0). lia.
  - destruct (l_frac l); [|congruence]. cbn [frac_text]. rewrite len_cons. pose proof (len_nonneg (ascii l0)). lia.
Qed.

Lemma text_byte l : loose l -> Forall byte (text l).
Proof.
  intros H. pose proof (loose_exp_of l H). destruct H as (D & _). unfold text. apply Forall_app.
  split; [apply byte_sign|]. apply (byte_body l); auto.
Qed.

Lemma frac_len_body l :
  frac_len (match l_frac l with Some f => Some (len f + 1 + len (exp_text (l_exp l))) | None => None end)
    (exp_text (l_exp l)) = len (frac_digits l).
Proof. unfold frac_len, frac_digits. destruct (l_frac l); [lia|reflexivity]. Qed.

(** What is read from a literal *)
Lemma read_literal l : loose l ->
  (l_exp l = None /\ lit_signif l = 0
   /\ float_repr_from_str (text l) = Some (Number (DecNumRepr 0 0 (of256 0) false)))
  \/ (exists nt nf nz w tr,
       float_repr_from_str (text l) = repr_of (lit_negative l) (esat (l_exp l)) nt nf nz w tr
       /\ 0 <= nt <= len (body l) /\ 0 <= nf <= len (body l) /\ 0 <= nz <= 77
       /\ decimal_prefix (lit_signif l) w (nt - nf + nz + len (frac_digits l)) tr
       /\ ~ (l_exp l = None /\ lit_signif l = 0)).
Proof.
  intros HL. pose proof (loose_exp_of l HL) as HE. pose proof (text_byte l HL) as HB.
  destruct HL as (D & HN & _).
  assert (Hne : body l <> []).
  { intros E. pose proof (body_nonempty l HN) as H. rewrite E in H. change (len (@nil Z)) with 0 in H.
    pose proof (len_nonneg (exp_text (l_exp l))). lia. }
  pose proof (frs_core (text l) (lit_negative l) (body l) _ _ _ _ HB (get_sign_text l D HN) Hne (scan_body l D)) as F.
  cbv iota in F. rewrite (proj2 (Z.eqb_neq _ _)) in F by (pose proof (body_nonempty l HN); lia).
  fold (lit_signif l) in F. destruct F as [(E1 & E2 & E3)|(HZ & F)].
  - left. split; [|auto]. destruct (l_exp l) as [[[up s] ds]|]; [discriminate|reflexivity].
  - right. rewrite parse_exponent_text in F by auto.
    destruct F as (nt & nf & nz & w & tr & F1 & F2 & F3 & F4 & F5).
    rewrite frac_len_body in F5. exists nt, nf, nz, w, tr. repeat (split; [assumption|]).
    intros [E1 E2]. apply HZ. rewrite E1. auto.
Qed.

(** The size of the literal keeps the exponent arithmetic within i32 *)
Lemma small_len l : small l = (len (text l) + Z.abs (lit_expo l) + 100 < 2 ^ 31).
Proof. reflexivity. Qed.

Lemma esat_small l : all_decimal l -> small l -> esat (l_exp l) = lit_expo l.
Proof.
  rewrite small_len. intros (_ & _ & D) H. pose proof (len_nonneg (text l)). unfold esat, lit_expo, exp_digits in *.
  destruct (l_exp l) as [[[up s] ds]|]; [|reflexivity]. pose proof (dval_bound ds D). unfold I32MAX.
  destruct s; lia.
Qed.

Lemma read_small l : loose l -> small l ->
  exists r w, float_repr_from_str (text l) = Some (Number r)
    /\ d_significand r = of256 w
    /\ d_sign r = (match l_exp l with None => if lit_signif l =? 0 then 0 else lit_negative l
                   | Some _ => lit_negative l end)
    /\ decimal_prefix (lit_signif l) w (d_exponent r - lit_exp10 l) (d_truncated r).
Proof.
  intros HL HS. pose proof (len_nonneg (frac_digits l)) as Hf.
  assert (LX : lit_exp10 l = lit_expo l - len (frac_digits l)) by reflexivity.
  destruct (read_literal l HL) as [(E1 & E2 & E3)|(nt & nf & nz & w & tr & F1 & F2 & F3 & F4 & F5 & F6)].
  - exists (DecNumRepr 0 0 (of256 0) false), 0. rewrite E1, E2. cbn [d_sign d_significand d_exponent d_truncated].
    split; [exact E3|]. split; [reflexivity|]. split; [reflexivity|].
    assert (lit_expo l = 0) by (unfold lit_expo; rewrite E1; reflexivity).
    unfold decimal_prefix. assert (0 < 10 ^ (0 - lit_exp10 l)) by (apply Z.pow_pos_nonneg; lia).
    assert (0 < 10 ^ 77) by (apply Z.pow_pos_nonneg; lia).
    repeat split; try lia; auto; discriminate.
  - assert (Hlb : len (body l) <= len (text l)).
    { unfold text. fold (body l). rewrite len_app. pose proof (len_nonneg (sign_text (l_sign l))). lia. }
    assert (He := esat_small l ltac:(apply HL) HS). rewrite He in F1. rewrite small_len in HS.
    unfold repr_of in F1. rewrite !casts_ok in F1 by lia.
    rewrite adds_ok in F1 by (change (2 ^ (32 - 1)) with (2 ^ 31); lia). cbn [bind] in F1.
    rewrite subs_ok in F1 by (change (2 ^ (32 - 1)) with (2 ^ 31); lia). cbn [bind] in F1.
    rewrite adds_ok in F1 by (change (2 ^ (32 - 1)) with (2 ^ 31); lia). cbn [bind] in F1.
    eexists _, w. split; [exact F1|]. cbn [d_sign d_significand d_exponent d_truncated].
    split; [reflexivity|]. split.
    + destruct (l_exp l); auto. destruct (Z.eqb_spec (lit_signif l) 0); auto. exfalso. auto.
    + replace (lit_expo l + nt - nf + nz - lit_exp10 l) with (nt - nf + nz + len (frac_digits l)) by lia. exact F5.
Qed.

(** ** What is not a literal is rejected *)

Lemma lower_upcase c d : byte c -> 97 <= d <= 122 -> (lower c =? d) = (upcase c =? d - 32).
Proof.
  unfold byte. intros Hc Hd. unfold lower, upcase.
  destruct (Z.leb_spec 65 c); destruct (Z.leb_spec c 90); destruct (Z.leb_spec 97 c); destruct (Z.leb_spec c 122);
    cbn [andb]; destruct (Z.eqb_spec c d); destruct (Z.eqb_spec (c + 32) d);
    destruct (Z.eqb_spec c (d - 32)); destruct (Z.eqb_spec (c - 32) (d - 32)); try reflexivity; lia.
Qed.

Lemma eq_ignore_case_ok a : forall t, Forall byte a -> Forall (fun d => 97 <= d <= 122) t ->
  eq_ignore_case a t = true <-> map upcase a = map (fun d => d - 32) t.
Proof.
  induction a as [|c a IH]; intros [|d t] Ha Ht; cbn [eq_ignore_case map].
  - tauto.
  - split; discriminate.
  - split; discriminate.
  - inversion_clear Ha. inversion_clear Ht.
    assert (Ed : lower d = d).
    { unfold lower. destruct (Z.leb_spec c 90); destruct (Z.leb_spec 65 d); destruct (Z.leb_spec d 90); cbn [andb]; lia. }
    rewrite Ed, lower_upcase by auto. rewrite andb_true_iff, Z.eqb_eq, IH by auto.
    split; [intros [-> ->]; reflexivity|]. intros E. injection E as E1 E2. auto.
Qed.

Lemma parse_special_ok bs sg : Forall byte bs ->
  (parse_special bs sg = Nan /\ map upcase bs = NAN_TEXT)
  \/ (parse_special bs sg = Inf sg /\ (map upcase bs = INF_TEXT \/ map upcase bs = INFINITY_TEXT))
  \/ (parse_special bs sg = Invalid /\ map upcase bs <> NAN_TEXT /\ map upcase bs <> INF_TEXT
      /\ map upcase bs <> INFINITY_TEXT).
Proof.
  intros Hb. unfold parse_special.
  assert (F : forall t, Forall (fun d => 97 <= d <= 122) t ->
    eq_ignore_case bs t = false -> map upcase bs <> map (fun d => d - 32) t).
  { intros t Ht E K. apply (eq_ignore_case_ok bs t Hb Ht) in K. congruence. }
  assert (T1 : Forall (fun d => 97 <= d <= 122) [110; 97; 110]) by (repeat constructor; lia).
  assert (T2 : Forall (fun d => 97 <= d <= 122) [105; 110; 102]) by (repeat constructor; lia).
  assert (T3 : Forall (fun d => 97 <= d <= 122) [105; 110; 102; 105; 110; 105; 116; 121]) by (repeat constructor; lia).
  destruct (eq_ignore_case bs [110; 97; 110]) eqn:E1.
  { left. split; auto. apply (eq_ignore_case_ok bs _ Hb T1) in E1. exact E1. }
  destruct (eq_ignore_case bs [105; 110; 102]) eqn:E2; cbn [orb].
  { right. left. split; auto. left. apply (eq_ignore_case_ok bs _ Hb T2) in E2. exact E2. }
  destruct (eq_ignore_case bs [105; 110; 102; 105; 110; 105; 116; 121]) eqn:E3.
  { right. left. split; auto. right. apply (eq_ignore_case_ok bs _ Hb T3) in E3. exact E3. }
  right. right. split; auto. split; [exact (F _ T1 E1)|]. split; [exact (F _ T2 E2)|exact (F _ T3 E3)].
Qed.

Lemma get_sign_inv s sg bs : get_sign s = (sg, bs) ->
  exists ls, s = sign_text ls ++ bs /\ sg = match ls with Minus => 1 | _ => 0 end.
Proof.
  unfold get_sign. destruct s as [|c t].
  - intros E. injection E as <- <-. exists NoSign. auto.
  - destruct (Z.eqb_spec c 45) as [->|]; [intros E; injection E as <- <-; exists Minus; auto|].
    destruct (Z.eqb_spec c 43) as [->|]; [intros E; injection E as <- <-; exists Plus; auto|].
    intros E; injection E as <- <-; exists NoSign; auto.
Qed.

(** Every text is a literal the parser accepts, the name of a special value, or
    rejected. *)
Inductive kind (s : list Z) : Prop :=
| KEmpty : s = [] -> float_repr_from_str s = Some Empty -> kind s
| KLit l : loose l -> s = text l -> kind s
| KNan sg : special_text s NAN_TEXT sg -> float_repr_from_str s = Some Nan -> kind s
| KInf sg : (special_text s INF_TEXT sg \/ special_text s INFINITY_TEXT sg) ->
    float_repr_from_str s = Some (Inf (match sg with Minus => 1 | _ => 0 end)) -> kind s
| KBad : s <> [] -> float_repr_from_str s = Some Invalid -> kind s.

Lemma kind_ok s : Forall byte s -> kind s.
Proof.
  intros Hs. destruct (list_eq_dec Z.eq_dec s []) as [->|Hne]; [apply KEmpty; reflexivity|].
  destruct (get_sign s) as [sg bs] eqn:Eg. destruct (get_sign_inv s sg bs Eg) as (ls & Els & Esg).
  destruct (list_eq_dec Z.eq_dec bs []) as [->|Hbne].
  { apply KBad; auto. unfold float_repr_from_str. destruct s; [congruence|]. rewrite Eg. reflexivity. }
  assert (Hb : Forall byte bs). { rewrite Els in Hs. apply Forall_split in Hs. tauto. }
  destruct (scan bs None) as [[[ds rest] rp'] inv] eqn:Es.
  pose proof (frs_core s sg bs ds rest rp' inv Hs Eg Hbne Es) as F.
  destruct inv; [apply KBad; auto|].
  destruct (Z.eqb_spec (len rest) (len bs)) as [El|El].
  { destruct (parse_special_ok bs sg Hb) as [[E1 E2]|[[E1 E2]|(E1 & _)]]; rewrite E1 in F.
    - apply (KNan s ls); auto. exists bs. auto.
    - apply (KInf s ls); [|rewrite F, Esg; reflexivity].
      destruct E2 as [E2|E2]; [left|right]; exists bs; auto.
    - apply KBad; auto. }
  destruct (scan_shape _ _ _ _ _ _ Hb Es) as (D & Hbr & _ & SH).
  assert (LIT : forall le, loose_exp le -> rest = exp_text le -> kind s).
  { intros le HE ->. destruct rp' as [q|].
    - destruct SH as (a & b & -> & Eb & _). apply Forall_split in D. destruct D as [Da Db].
      apply (KLit s (Literal ls a (Some b) le)).
      + split; [|split].
        * split; [exact Da|]. split; [exact Db|]. unfold exp_digits. cbn [l_exp].
          destruct le as [[[up sx] dx]|]; [apply HE|constructor].
        * right. discriminate.
        * cbn [l_exp]. destruct le as [[[up sx] dx]|]; [apply HE|exact I].
      + rewrite Els, Eb. unfold text. cbn [l_sign l_int l_frac l_exp frac_text app]. reflexivity.
    - destruct SH as [Eb _].
      apply (KLit s (Literal ls ds None le)).
      + split; [|split].
        * split; [exact D|]. split; [constructor|]. unfold exp_digits. cbn [l_exp].
          destruct le as [[[up sx] dx]|]; [apply HE|constructor].
        * left. cbn [l_int]. intros ->. apply El. rewrite Eb. reflexivity.
        * cbn [l_exp]. destruct le as [[[up sx] dx]|]; [apply HE|exact I].
      + rewrite Els, Eb. unfold text. cbn [l_sign l_int l_frac l_exp frac_text app]. reflexivity. }
  destruct F as [(-> & _ & _)|(_ & F)].
  - apply (LIT None); [exact I|reflexivity].
  - destruct (parse_exponent rest) as [[e [|x y]]|] eqn:Ee; [|apply KBad; auto|apply KBad; auto].
    destruct (parse_exponent_inv rest e Hbr Ee) as (le & HE & ->). apply (LIT le); auto.
Qed.

End Lit.

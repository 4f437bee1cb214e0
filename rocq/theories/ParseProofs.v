(** * ParseProofs: what [FloatRepr::from_str] reads *)

From Coq Require Import ZArith List Bool Lia.
From Verif Require Import Base ZLemmas BigUInt BigExtra F256 Arith Parse SpecParse ChunkLemmas.
Import ListNotations.
Open Scope Z_scope.

(** ** Digit lists *)

Lemma dval_snoc ds d : dval (ds ++ [d]) = 10 * dval ds + d.
Proof. unfold dval. rewrite fold_left_app. reflexivity. Qed.

Lemma dval_app a b : dval (a ++ b) = dval a * 10 ^ len b + dval b.
Proof.
  revert a. induction b as [|d b IH] using rev_ind; intros a.
  - rewrite app_nil_r. change (len (@nil Z)) with 0. change (10 ^ 0) with 1. unfold dval at 3.
    cbn [fold_left]. lia.
  - rewrite app_assoc, !dval_snoc, IH, len_app. pose proof (len_nonneg b).
    change (len [d]) with 1. rewrite Z.pow_add_r by lia. change (10 ^ 1) with 10. ring.
Qed.

Lemma dval_bound ds : is_dec ds -> 0 <= dval ds < 10 ^ len ds.
Proof.
  induction ds as [|d ds IH] using rev_ind; intros H.
  - cbn. lia.
  - apply Forall_app in H. destruct H as [H1 H2]. inversion_clear H2.
    rewrite dval_snoc, len_app. change (len [d]) with 1. pose proof (len_nonneg ds).
    rewrite Z.pow_add_r by lia. change (10 ^ 1) with 10. specialize (IH H1). lia.
Qed.

Lemma dval_zero ds : is_dec ds -> dval ds = 0 -> Forall (fun d => d = 0) ds.
Proof.
  induction ds as [|d ds IH] using rev_ind; intros H E; [constructor|].
  apply Forall_app in H. destruct H as [H1 H2]. inversion_clear H2.
  rewrite dval_snoc in E. pose proof (dval_bound ds H1). apply Forall_app.
  split; [apply IH; auto; lia|]. constructor; [lia|constructor].
Qed.

Lemma dval_zeros ds : Forall (fun d => d = 0) ds -> dval ds = 0.
Proof.
  induction ds as [|d ds IH] using rev_ind; intros H; [reflexivity|].
  apply Forall_app in H. destruct H as [H1 H2]. inversion_clear H2.
  rewrite dval_snoc, IH by auto. lia.
Qed.

Lemma ascii_digits l : Forall digc l -> ascii (digits_of_bytes l) = l.
Proof.
  induction 1 as [|b l Hb Hl IH]; [reflexivity|]. cbn [ascii digits_of_bytes map].
  unfold ascii, digits_of_bytes in IH. rewrite IH. f_equal. lia.
Qed.

Lemma digits_dec l : Forall digc l -> is_dec (digits_of_bytes l).
Proof.
  intros H. apply Forall_map. eapply Forall_impl; [|exact H]. unfold digc. cbv beta. intros; lia.
Qed.

Lemma ascii_app a b : ascii (a ++ b) = ascii a ++ ascii b.
Proof. apply map_app. Qed.

Lemma ascii_digc ds : is_dec ds -> Forall digc (ascii ds).
Proof.
  intros H. apply Forall_map. eapply Forall_impl; [|exact H]. unfold digc. cbv beta. intros; lia.
Qed.

Lemma len_ascii ds : len (ascii ds) = len ds.
Proof. unfold len, ascii. rewrite map_length. reflexivity. Qed.

Lemma len_digits l : len (digits_of_bytes l) = len l.
Proof. unfold len, digits_of_bytes. rewrite map_length. reflexivity. Qed.

Lemma digits_ascii ds : digits_of_bytes (ascii ds) = ds.
Proof.
  unfold digits_of_bytes, ascii. rewrite map_map. rewrite <- (map_id ds) at 2.
  apply map_ext. intros; lia.
Qed.

(** ** The reference scanner: digits with at most one radix point *)

Fixpoint scan (bs : list Z) (rp : option Z) : list Z * list Z * option Z * bool :=
  match bs with
  | c :: t =>
    if is_digit c then
      let '(ds, r, rp', i) := scan t rp in (c - 48 :: ds, r, rp', i)
    else if c =? 46 then
      match rp with
      | Some _ => ([], bs, rp, true)
      | None => scan t (Some (len bs))
      end
    else ([], bs, rp, false)
  | [] => ([], [], rp, false)
  end.

Lemma scan_digits l t rp : Forall digc l ->
  scan (l ++ t) rp = let '(ds, r, rp', i) := scan t rp in (digits_of_bytes l ++ ds, r, rp', i).
Proof.
  induction 1 as [|c l Hc Hl IH]; cbn [app scan digits_of_bytes map].
  - destruct (scan t rp) as [[[ds r] rp'] i]. reflexivity.
  - rewrite (proj2 (is_digit_true c (digc_byte c Hc)) Hc). rewrite IH.
    destruct (scan t rp) as [[[ds r] rp'] i]. reflexivity.
Qed.

Lemma scan_dot t : scan (46 :: t) None = scan t (Some (len (46 :: t))).
Proof. reflexivity. Qed.

Lemma scan_dot2 t p : scan (46 :: t) (Some p) = ([], 46 :: t, Some p, true).
Proof. reflexivity. Qed.

(** What is left does not start with a digit; it starts with a dot iff invalid. *)
Definition stops (rest : list Z) (inv : bool) : Prop :=
  match rest with
  | c :: _ => is_digit c = false /\ (inv = true <-> c = 46)
  | [] => inv = false
  end.

Lemma scan_shape bs rp ds rest rp' inv : Forall byte bs ->
  scan bs rp = (ds, rest, rp', inv) ->
  is_dec ds /\ Forall byte rest /\ stops rest inv /\
  match rp, rp' with
  | Some p, Some q => q = p /\ bs = ascii ds ++ rest
  | None, None => bs = ascii ds ++ rest /\ inv = false
  | None, Some q => exists a b, ds = a ++ b /\ bs = ascii a ++ 46 :: ascii b ++ rest
                                /\ q = len b + 1 + len rest
  | Some _, None => False
  end.
Proof.
  intros Hb. revert rp ds rest rp' inv. induction Hb as [|c t Hc Ht IH]; intros rp ds rest rp' inv E.
  - cbn in E. injection E as <- <- <- <-. split; [constructor|]. split; [constructor|].
    split; [reflexivity|]. destruct rp; cbn; auto.
  - cbn [scan] in E. destruct (is_digit c) eqn:Ed.
    + apply is_digit_true in Ed; auto.
      destruct (scan t rp) as [[[ds0 r0] q0] i0] eqn:Es. injection E as <- <- <- <-.
      destruct (IH _ _ _ _ _ Es) as (D & B & S & Hm).
      split; [constructor; auto; unfold digc in Ed; lia|]. split; [auto|]. split; [auto|].
      destruct rp, q0; auto.
      * destruct Hm as [-> ->]. split; auto. cbn [ascii map app]. f_equal. lia.
      * destruct Hm as (a & b & -> & -> & ->). exists (c - 48 :: a), b. split; auto.
        split; [|reflexivity]. cbn [ascii map app]. f_equal. lia.
      * destruct Hm as [-> ->]. split; auto. cbn [ascii map app]. f_equal. lia.
    + destruct (Z.eqb_spec c 46) as [->|Hn].
      * destruct rp as [p|].
        -- injection E as <- <- <- <-. split; [constructor|]. split; [constructor; auto|].
           split; [cbn; auto; tauto|]. split; auto.
        -- destruct (IH _ _ _ _ _ E) as (D & B & S & Hm). split; [auto|]. split; [auto|]. split; [auto|].
           destruct rp' as [q|]; [|contradiction]. destruct Hm as [-> Et].
           exists [], ds. split; auto. split; [cbn [ascii map app]; f_equal; exact Et|].
           rewrite len_cons, Et, len_app, len_ascii. lia.
      * injection E as <- <- <- <-. split; [constructor|]. split; [constructor; auto|].
        split; [cbn; split; auto; split; [discriminate|intros; contradiction]|].
        destruct rp; auto.
Qed.

Lemma scan_len bs rp ds rest rp' inv : scan bs rp = (ds, rest, rp', inv) -> len ds + len rest <= len bs.
Proof.
  revert rp ds rest rp' inv. induction bs as [|c t IH]; intros rp ds rest rp' inv E; cbn [scan] in E.
  - injection E as <- <- <- <-. reflexivity.
  - rewrite len_cons. destruct (is_digit c).
    + destruct (scan t rp) as [[[ds0 r0] q0] i0] eqn:Es. injection E as <- <- <- <-.
      apply IH in Es. rewrite len_cons. lia.
    + destruct (c =? 46).
      * destruct rp; [injection E as <- <- <- <-; rewrite len_cons; change (len (@nil Z)) with 0; lia|].
        apply IH in E. lia.
      * injection E as <- <- <- <-; rewrite len_cons; change (len (@nil Z)) with 0; lia.
Qed.

(** ** Values of partial significands *)

Fixpoint cval (l : list Z) : Z := match l with c :: t => cval t * 10 ^ 8 + c | [] => 0 end.
Definition chunk_ok (c : Z) : Prop := 0 <= c < 10 ^ 8.
Definition pval (p : partial_signif) : Z := cval (p_chunks p) * 10 ^ p_n_rem p + p_rem p.
Definition pwf (p : partial_signif) : Prop :=
  Forall chunk_ok (p_chunks p) /\ len (p_chunks p) <= 9 /\ 0 <= p_n_rem p
  /\ 0 <= p_rem p < 10 ^ p_n_rem p.

Lemma cval_bound l : Forall chunk_ok l -> 0 <= cval l < 10 ^ (8 * len l).
Proof.
  induction 1 as [|c l Hc Hl IH].
  - cbn. lia.
  - cbn [cval]. rewrite len_cons. pose proof (len_nonneg l).
    replace (8 * (len l + 1)) with (8 * len l + 8) by lia. rewrite Z.pow_add_r by lia.
    unfold chunk_ok in Hc. nia.
Qed.

Lemma pval_bound p : pwf p -> 0 <= pval p < 10 ^ (8 * len (p_chunks p) + p_n_rem p).
Proof.
  intros (H1 & H2 & H3 & H4). unfold pval. pose proof (cval_bound _ H1).
  pose proof (len_nonneg (p_chunks p)). rewrite Z.pow_add_r by lia. nia.
Qed.

Section Loops.
Context `{P : profile}.

Lemma chunk_loop_short bs rp n ps : (length bs < 8)%nat ->
  chunk_loop bs rp n ps = Some (RsState bs rp false n ps).
Proof.
  intros H. do 8 (destruct bs as [|? bs]; [cbn [chunk_loop]; destruct (n <=? MAX_N_DIGITS - 8); reflexivity|]).
  cbn [length] in H. lia.
Qed.

Lemma chunk_loop_step l t rp n ps : length l = 8%nat ->
  chunk_loop (l ++ t) rp n ps =
  if n <=? 69 then
    if chunk_contains_8_digits (lanes l) then
      let! ps := add_chunk ps (chunk_to_u64 (lanes l)) in
      chunk_loop t rp (n + 8) ps
    else
      let! o := chunk_contains_7_digits_and_a_dot_at (lanes l) in
      match o with
      | Some p =>
        match rp with
        | Some _ => Some (RsState (l ++ t) rp true n ps)
        | None =>
          let rp := Some (len (l ++ t) - (7 - p)) in
          let last :=
            PartialSignif (p_chunks ps)
              (chunk_to_u64 (shlc 64 (eliminate_byte_from_chunk (lanes l) p) 8)) 7 in
          match t with
          | d :: t' =>
            if is_digit d then
              let k := Z.lor (eliminate_byte_from_chunk (lanes l) p) (shlc 64 d 56) in
              let! ps := add_chunk ps (chunk_to_u64 k) in
              chunk_loop t' rp (n + 8) ps
            else chunk_loop t rp (n + 7) last
          | [] => chunk_loop t rp (n + 7) last
          end
        end
      | None => Some (RsState (l ++ t) rp false n ps)
      end
  else Some (RsState (l ++ t) rp false n ps).
Proof.
  intros H. do 8 (destruct l as [|? l]; [discriminate|]). destruct l; [|discriminate].
  reflexivity.
Qed.

Lemma split8 (bs : list Z) : (8 <= length bs)%nat ->
  exists l t, bs = l ++ t /\ length l = 8%nat.
Proof.
  intros H. exists (firstn 8 bs), (skipn 8 bs). split; [symmetry; apply firstn_skipn|].
  rewrite firstn_length. lia.
Qed.

Definition dots (a b : option Z) : Z :=
  match a, b with None, Some _ => 1 | _, _ => 0 end.

(** What the loops establish: from [(bs, rp, n, value v)] to the state [st], with what the
    reference scanner finds behind it *)
Definition progress (bs : list Z) (rp : option Z) (n v : Z) (st : rs_state)
    (ds rest : list Z) (rp' : option Z) (inv : bool) : Prop :=
  if rs_invalid st then inv = true
  else exists ds1 ds2,
    ds = ds1 ++ ds2
    /\ scan (rs_bytes st) (rs_rp st) = (ds2, rest, rp', inv)
    /\ Forall byte (rs_bytes st)
    /\ rs_n st = n + len ds1
    /\ 8 * len (p_chunks (rs_signif st)) + p_n_rem (rs_signif st) = rs_n st
    /\ pval (rs_signif st) = v * 10 ^ len ds1 + dval ds1
    /\ pwf (rs_signif st)
    /\ rs_n st <= 77
    /\ len bs = len (rs_bytes st) + len ds1 + dots rp (rs_rp st)
    /\ match rs_rp st with Some p => len (rs_bytes st) < p | None => True end
    /\ match rp, rs_rp st with Some p, Some q => p = q | Some _, None => False | None, _ => True end.

Lemma digc_forallb l : Forall byte l -> forallb is_digit l = true -> Forall digc l.
Proof.
  intros Hl Hf. rewrite forallb_forall in Hf. rewrite Forall_forall in *. intros b Hin.
  apply is_digit_true; auto.
Qed.

Lemma forallb_digc l : Forall digc l -> forallb is_digit l = true.
Proof.
  intros Hl. apply forallb_forall. rewrite Forall_forall in Hl. intros b Hin.
  apply is_digit_true; auto. apply digc_byte; auto.
Qed.

(** A scan that finds eight digits starts with an all-digit chunk or with seven digits
    and a dot. *)
Lemma scan_eight l t rp ds rest rp' inv : Forall byte l -> length l = 8%nat ->
  scan (l ++ t) rp = (ds, rest, rp', inv) -> 8 <= len ds ->
  Forall digc l \/
  (rp = None /\ exists pre post, l = pre ++ 46 :: post /\ Forall digc pre /\ Forall digc post).
Proof.
  (* generalised over the number of digits required *)
  assert (G : forall l t rp ds rest rp' inv, Forall byte l ->
    scan (l ++ t) rp = (ds, rest, rp', inv) -> len l <= len ds ->
    Forall digc l \/
    (rp = None /\ exists pre post, l = pre ++ 46 :: post /\ Forall digc pre /\ Forall digc post)).
  { clear. intros l t rp ds rest rp' inv Hl. revert rp ds rest rp' inv.
    induction Hl as [|c l Hc Hl IH]; intros rp ds rest rp' inv E Hn; [left; constructor|].
    cbn [app scan] in E. destruct (is_digit c) eqn:Ed.
    - apply is_digit_true in Ed; auto.
      destruct (scan (l ++ t) rp) as [[[ds0 r0] q0] i0] eqn:Es. injection E as <- <- <- <-.
      rewrite !len_cons in Hn. destruct (IH _ _ _ _ _ Es ltac:(lia)) as [H|(H & pre & post & -> & H1 & H2)].
      + left. constructor; auto.
      + right. split; auto. exists (c :: pre), post. split; [reflexivity|]. split; [constructor; auto|auto].
    - destruct (Z.eqb_spec c 46) as [->|Hn46].
      + destruct rp as [p|].
        * injection E as <- <- <- <-. rewrite len_cons in Hn. change (len (@nil Z)) with 0 in Hn.
          pose proof (len_nonneg l). lia.
        * right. split; auto. exists [], l. split; [reflexivity|]. split; [constructor|].
          clear IH. revert E Hn. generalize (len (46 :: l ++ t)) as q.
          rewrite len_cons. intros q E Hn.
          assert (forall l p ds, Forall byte l -> scan (l ++ t) (Some p) = (ds, rest, rp', inv) ->
                     len l <= len ds -> Forall digc l) as K.
          { clear. intros l p ds Hl. revert ds. induction Hl as [|c l Hc Hl IH]; intros ds E Hn; [constructor|].
            cbn [app scan] in E. destruct (is_digit c) eqn:Ed.
            - apply is_digit_true in Ed; auto.
              destruct (scan (l ++ t) (Some p)) as [[[ds0 r0] q0] i0] eqn:Es. injection E as <- <- <- <-.
              rewrite !len_cons in Hn. constructor; auto. apply (IH ds0); auto. lia.
            - assert (ds = []).
              { destruct (c =? 46); injection E as <- _ _ _; reflexivity. }
              subst ds. rewrite len_cons in Hn. change (len (@nil Z)) with 0 in Hn.
              pose proof (len_nonneg l). lia. }
          eapply (K l q ds); eauto; lia.
      + injection E as <- <- <- <-. rewrite len_cons in Hn. change (len (@nil Z)) with 0 in Hn.
        pose proof (len_nonneg l). lia. }
  intros Hl Hn E H8. apply (G l t rp ds rest rp' inv); auto. unfold len at 1. rewrite Hn. lia.
Qed.

Definition rp_ok (bs : list Z) (rp : option Z) : Prop :=
  match rp with Some p => len bs < p | None => True end.

Lemma progress_stop bs rp n ps ds rest rp' inv :
  Forall byte bs -> scan bs rp = (ds, rest, rp', inv) -> rp_ok bs rp ->
  8 * len (p_chunks ps) + p_n_rem ps = n -> pwf ps -> n <= 77 ->
  progress bs rp n (pval ps) (RsState bs rp false n ps) ds rest rp' inv.
Proof.
  intros Hb E Hr Hn Hw H77. unfold progress. cbn [rs_invalid rs_bytes rs_rp rs_n rs_signif].
  exists [], ds. change (len (@nil Z)) with 0. change (10 ^ 0) with 1. change (dval []) with 0.
  repeat split; auto; try lia; try apply Hw.
  - destruct rp; cbn [dots]; lia.
  - destruct rp; auto.
Qed.

Lemma progress_step bs rp n v da bs2 rp2 st ds ds2 rest rp' inv :
  ds = da ++ ds2 ->
  progress bs2 rp2 (n + len da) (v * 10 ^ len da + dval da) st ds2 rest rp' inv ->
  len bs = len bs2 + len da + dots rp rp2 ->
  match rp, rp2 with Some p, Some q => p = q | Some _, None => False | None, _ => True end ->
  progress bs rp n v st ds rest rp' inv.
Proof.
  unfold progress. intros -> H Hl Hr. destruct (rs_invalid st); auto.
  destruct H as (d1 & d2 & -> & H1 & H2 & H3 & H4 & H5 & H6 & H7 & H8 & H9 & H10).
  exists (da ++ d1), d2. rewrite len_app, dval_app. pose proof (len_nonneg da). pose proof (len_nonneg d1).
  rewrite app_assoc. repeat split; auto; try lia; try apply H6.
  - rewrite H5, Z.pow_add_r by lia. ring.
  - destruct rp as [p|], rp2 as [q|], (rs_rp st); cbn [dots] in *; try contradiction; lia.
  - destruct rp as [p|], rp2 as [q|], (rs_rp st); cbn [dots] in *; try contradiction; auto; lia.
Qed.

Lemma chunk_of_digits l : length l = 8%nat -> Forall digc l -> chunk_ok (dval (digits_of_bytes l)).
Proof.
  intros Hn Hl. unfold chunk_ok. pose proof (dval_bound _ (digits_dec l Hl)) as H.
  rewrite len_digits in H. unfold len in H. rewrite Hn in H. exact H.
Qed.

Lemma lanes_snoc l d : length l = 7%nat -> Forall byte l -> byte d ->
  Z.lor (lanes l) (shlc 64 d 56) = lanes (l ++ [d]).
Proof.
  intros Hn Hl Hd. rewrite lanes_app. unfold len. rewrite Hn. cbn [of_le_bytes].
  pose proof (lanes_bound l Hl) as B. unfold len in B. rewrite Hn in B.
  unfold byte in Hd. unfold shlc. rewrite Z.mul_0_r, Z.add_0_r.
  change (256 ^ Z.of_nat 7) with (2 ^ 56) in *.
  rewrite Z.mod_small by (change (2 ^ 64) with (256 * 2 ^ 56); nia).
  rewrite Z.lor_comm. rewrite lor_add by lia. lia.
Qed.

Lemma lanes_shift l : length l = 7%nat -> Forall byte l ->
  shlc 64 (lanes l) 8 = lanes (0 :: l).
Proof.
  intros Hn Hl. pose proof (lanes_bound l Hl) as B. unfold len in B. rewrite Hn in B.
  unfold shlc. cbn [of_le_bytes]. change (256 ^ Z.of_nat 7) with (2 ^ 56) in *.
  rewrite Z.mod_small; [change (2 ^ 8) with 256; lia|]. change (2 ^ 64) with (2 ^ 8 * 2 ^ 56).
  change (2 ^ 8) with 256. lia.
Qed.

Lemma Forall_split {A} (Q : A -> Prop) a b : Forall Q (a ++ b) -> Forall Q a /\ Forall Q b.
Proof. apply Forall_app. Qed.

Definition tail_short (st : rs_state) : Prop :=
  p_n_rem (rs_signif st) <= 7 /\
  (70 <= rs_n st \/
   forall ds2 r q i, scan (rs_bytes st) (rs_rp st) = (ds2, r, q, i) -> len ds2 <= 7).

Lemma chunk_loop_nondigit c t rp n ps p : Forall byte (c :: t) -> is_digit c = false -> rp = Some p ->
  exists inv, chunk_loop (c :: t) rp n ps = Some (RsState (c :: t) rp inv n ps)
    /\ (inv = true -> c = 46).
Proof.
  intros Hb Hc ->. destruct (Nat.le_gt_cases 8 (length (c :: t))) as [Hl|Hl].
  - destruct (split8 _ Hl) as (l & u & E & Hn). rewrite E in *.
    apply Forall_split in Hb. destruct Hb as [Hbl Hbu].
    destruct l as [|c0 l]; [discriminate|]. injection E as <- ->.
    rewrite chunk_loop_step by auto. destruct (n <=? 69); [|exists false; split; [auto|discriminate]].
    rewrite cc8_ok by auto. cbn [forallb]. rewrite Hc. cbn [andb].
    destruct (cc7_inv (c :: l) Hbl Hn) as (o & -> & Ho). cbn [bind].
    destruct o as [q|]; [|exists false; split; [auto|discriminate]].
    exists true. split; [reflexivity|]. intros _.
    destruct Ho as (pre & post & Ep & Hpre & Hpost & _).
    destruct pre as [|x pre]; [injection Ep; auto|]. injection Ep as <- _.
    inversion_clear Hpre. apply is_digit_false in Hc; [contradiction|]. inversion_clear Hbl; auto.
  - rewrite chunk_loop_short by auto. exists false. split; [auto|discriminate].
Qed.

Lemma chunk_loop_ok m : forall bs rp cs ds rest rp' inv, (length bs <= m)%nat -> Forall byte bs ->
  Forall chunk_ok cs -> len cs <= 9 -> rp_ok bs rp -> scan bs rp = (ds, rest, rp', inv) ->
  exists st, chunk_loop bs rp (8 * len cs) (PartialSignif cs 0 0) = Some st
    /\ progress bs rp (8 * len cs) (cval cs) st ds rest rp' inv
    /\ (rs_invalid st = false -> tail_short st).
Proof.
  induction m as [|m IH]; intros bs rp cs ds rest rp' inv Hm Hb Hcs Hlc Hrp Es.
  - destruct bs; [|cbn [length] in Hm; lia]. rewrite chunk_loop_short by (cbn; lia).
    eexists. split; [reflexivity|]. pose proof (len_nonneg cs). split.
    + replace (cval cs) with (pval (PartialSignif cs 0 0)) by (unfold pval; cbn [p_chunks p_rem p_n_rem]; change (10 ^ 0) with 1; lia).
      apply progress_stop; auto; cbn [p_chunks p_n_rem]; try lia.
      repeat split; cbn [p_chunks p_n_rem p_rem]; auto; change (10 ^ 0) with 1; lia.
    + intros _. split; [cbn; lia|]. right. cbn [rs_bytes scan]. intros ? ? ? ? E. injection E as <- _ _ _.
      change (len (@nil Z)) with 0. lia.
  - pose proof (len_nonneg cs) as Hc0.
    assert (STOP : (8 * len cs < 70 -> forall ds2 r q i, scan bs rp = (ds2, r, q, i) -> len ds2 <= 7) ->
      progress bs rp (8 * len cs) (cval cs) (RsState bs rp false (8 * len cs) (PartialSignif cs 0 0)) ds rest rp' inv
      /\ (rs_invalid (RsState bs rp false (8 * len cs) (PartialSignif cs 0 0)) = false ->
          tail_short (RsState bs rp false (8 * len cs) (PartialSignif cs 0 0)))).
    { intros HS. split.
      - replace (cval cs) with (pval (PartialSignif cs 0 0)) by (unfold pval; cbn [p_chunks p_rem p_n_rem]; change (10 ^ 0) with 1; lia).
        apply progress_stop; auto; cbn [p_chunks p_n_rem]; try lia.
        repeat split; cbn [p_chunks p_n_rem p_rem]; auto; change (10 ^ 0) with 1; lia.
      - intros _. split; [cbn; lia|]. cbn [rs_bytes rs_rp rs_n].
        destruct (Z_lt_le_dec (8 * len cs) 70) as [H70|H70]; [right; exact (HS H70)|left; exact H70]. }
    destruct (Nat.le_gt_cases 8 (length bs)) as [Hl|Hl].
    2:{ rewrite chunk_loop_short by auto. eexists. split; [reflexivity|]. apply STOP.
        intros _ ds2 r q i E. apply scan_len in E. pose proof (len_nonneg r). unfold len in *. lia. }
    destruct (split8 bs Hl) as (l & t & Ebs & Hn).
    assert (Hbl : Forall byte l /\ Forall byte t) by (rewrite Ebs in Hb; apply Forall_split; auto).
    destruct Hbl as [Hbl Hbt].
    assert (Hlt : (length t <= m)%nat) by (rewrite Ebs, app_length in Hm; lia).
    assert (El : len bs = len t + 8) by (rewrite Ebs, len_app; unfold len; rewrite Hn; lia).
    assert (STEP : chunk_loop bs rp (8 * len cs) (PartialSignif cs 0 0)
                   = chunk_loop (l ++ t) rp (8 * len cs) (PartialSignif cs 0 0)) by (rewrite Ebs; reflexivity).
    rewrite chunk_loop_step in STEP by auto. rewrite STEP. clear STEP.
    destruct (Z.leb_spec (8 * len cs) 69) as [H69|H69].
    2:{ rewrite <- Ebs. eexists. split; [reflexivity|]. apply STOP. lia. }
    rewrite cc8_ok by auto. destruct (forallb is_digit l) eqn:Ef.
    { apply digc_forallb in Ef; auto. unfold add_chunk. cbn [p_chunks p_rem p_n_rem].
      rewrite (proj2 (Z.ltb_lt _ _)) by lia. cbn [bind]. rewrite c2u_digits by auto.
      rewrite Ebs in Es. rewrite scan_digits in Es by auto.
      destruct (scan t rp) as [[[ds0 r0] q0] i0] eqn:Et. injection Es as <- <- <- <-.
      destruct (IH t rp (dval (digits_of_bytes l) :: cs) ds0 r0 q0 i0) as (st & E1 & E2 & E3); auto.
      - constructor; auto. apply chunk_of_digits; auto.
      - rewrite len_cons. lia.
      - unfold rp_ok in *. destruct rp; auto. lia.
      - rewrite len_cons in E1, E2. replace (8 * (len cs + 1)) with (8 * len cs + 8) in * by lia.
        exists st. split; [exact E1|]. split; [|auto].
        eapply progress_step with (da := digits_of_bytes l) (bs2 := t) (rp2 := rp); [reflexivity| | |].
        + rewrite len_digits. replace (len l) with 8 by (unfold len; rewrite Hn; reflexivity). exact E2.
        + rewrite len_digits. replace (len l) with 8 by (unfold len; rewrite Hn; reflexivity).
          destruct rp; cbn [dots]; lia.
        + destruct rp; auto. }
    destruct (cc7_inv l Hbl Hn) as (o & Eo & Ho). rewrite Eo. cbn [bind].
    destruct o as [p|].
    2:{ rewrite <- Ebs. eexists. split; [reflexivity|]. apply STOP.
        intros _ ds2 r q i E. destruct (Z_lt_le_dec (len ds2) 8) as [H8|H8]; [lia|exfalso].
        rewrite Ebs in E.
        destruct (scan_eight l t rp ds2 r q i Hbl Hn E H8) as [Hd|(-> & pre & post & -> & H1 & H2)].
        - apply forallb_digc in Hd. congruence.
        - rewrite cc7_found in Eo by auto. discriminate. }
    destruct Ho as (pre & post & Epp & Hpre & Hpost & Hp).
    assert (PB : Forall byte pre /\ Forall byte post).
    { split; eapply Forall_impl; try exact digc_byte; auto. }
    destruct PB as [Bpre Bpost].
    assert (H7 : length (pre ++ post) = 7%nat).
    { rewrite Epp in Hn. rewrite app_length in *. cbn [length] in Hn. lia. }
    assert (D7 : Forall digc (pre ++ post)) by (apply Forall_app; auto).
    assert (B7 : Forall byte (pre ++ post)) by (apply Forall_app; auto).
    destruct rp as [q|].
    { eexists. split; [reflexivity|]. split; [|discriminate].
      unfold progress. cbn [rs_invalid]. rewrite Ebs, Epp in Es. rewrite <- app_assoc in Es.
      rewrite scan_digits in Es by auto. cbn [app] in Es. rewrite scan_dot2 in Es.
      injection Es as _ _ _ <-. reflexivity. }
    (* the radix point is in this chunk *)
    set (q := len (46 :: post ++ t)).
    assert (Eq : len (l ++ t) - (7 - p) = q).
    { unfold q. rewrite Epp, Hp, <- app_assoc, len_app. cbn [app]. lia. }
    rewrite Eq.
    assert (Hq : len t < q). { unfold q. rewrite len_cons, len_app. pose proof (len_nonneg post). lia. }
    assert (Esc : scan bs None = let '(ds, r, rp', i) := scan t (Some q) in
        (digits_of_bytes (pre ++ post) ++ ds, r, rp', i)).
    { rewrite Ebs, Epp, <- app_assoc. rewrite scan_digits by auto. cbn [app]. rewrite scan_dot.
      fold q. rewrite scan_digits by auto. destruct (scan t (Some q)) as [[[? ?] ?] ?].
      unfold digits_of_bytes. rewrite map_app, app_assoc. reflexivity. }
    assert (Elim : eliminate_byte_from_chunk (lanes l) p = lanes (pre ++ post)).
    { rewrite Epp, Hp. apply eliminate_ok; auto. unfold byte; lia. rewrite <- Epp; auto. }
    rewrite Elim. rewrite lanes_shift by auto. rewrite c2u_seven by auto.
    set (last := PartialSignif (p_chunks (PartialSignif cs 0 0)) (dval (digits_of_bytes (pre ++ post))) 7).
    assert (PV : pval last = cval cs * 10 ^ 7 + dval (digits_of_bytes (pre ++ post))) by reflexivity.
    assert (L7 : len (digits_of_bytes (pre ++ post)) = 7).
    { rewrite len_digits. unfold len. rewrite H7. reflexivity. }
    assert (PW : pwf last).
    { pose proof (dval_bound _ (digits_dec _ D7)) as B. rewrite L7 in B.
      unfold last, pwf. cbn [p_chunks p_rem p_n_rem]. repeat split; auto; lia. }
    (* the "last" branch *)
    assert (LAST : forall inv0, (forall d t', t = d :: t' -> is_digit d = false) ->
      (inv0 = true -> exists t', t = 46 :: t') ->
      progress bs None (8 * len cs) (cval cs) (RsState t (Some q) inv0 (8 * len cs + 7) last) ds rest rp' inv
      /\ (inv0 = false -> tail_short (RsState t (Some q) inv0 (8 * len cs + 7) last))).
    { intros inv0 Hnd Hinv. rewrite Esc in Es.
      destruct (scan t (Some q)) as [[[ds0 r0] q0] i0] eqn:Et. injection Es as <- <- <- <-.
      destruct inv0.
      - destruct (Hinv eq_refl) as (t' & ->). rewrite scan_dot2 in Et. injection Et as _ _ _ <-.
        split; [reflexivity|discriminate].
      - split.
        + eapply progress_step with (da := digits_of_bytes (pre ++ post)) (bs2 := t) (rp2 := Some q);
            [reflexivity| | |exact I].
          * rewrite L7, <- PV. apply progress_stop; auto. lia.
          * rewrite L7. cbn [dots]. lia.
        + intros _. split; [cbn; lia|]. right. cbn [rs_bytes rs_rp]. intros ds2 r q1 i1 E.
          enough (ds2 = []) by (subst ds2; change (len (@nil Z)) with 0; lia).
          destruct t as [|d t']; [cbn in E; congruence|]. cbn [scan] in E. rewrite (Hnd d t') in E by auto.
          destruct (d =? 46); congruence. }
    destruct t as [|d t'].
    { rewrite chunk_loop_short by (cbn; lia). eexists. split; [reflexivity|].
      apply LAST; [discriminate|discriminate]. }
    destruct (is_digit d) eqn:Ed.
    2:{ destruct (chunk_loop_nondigit d t' (Some q) (8 * len cs + 7) last q Hbt Ed eq_refl) as (inv0 & EE & Hi).
        rewrite EE. eexists. split; [reflexivity|]. apply LAST.
        - intros ? ? E. injection E as <- _. exact Ed.
        - intros E. exists t'. rewrite (Hi E). reflexivity. }
    assert (Bd : byte d) by (inversion_clear Hbt; auto). apply is_digit_true in Ed; auto.
    rewrite lanes_snoc by auto.
    assert (D8 : Forall digc ((pre ++ post) ++ [d])) by (apply Forall_app; split; auto).
    assert (H8 : length ((pre ++ post) ++ [d]) = 8%nat) by (rewrite app_length, H7; reflexivity).
    unfold add_chunk. cbn [p_chunks p_rem p_n_rem].
    rewrite (proj2 (Z.ltb_lt _ _)) by lia. cbn [bind]. rewrite c2u_digits by auto.
    rewrite Esc in Es. change (d :: t') with ([d] ++ t') in Es.
    rewrite (scan_digits [d] t') in Es by auto.
    destruct (scan t' (Some q)) as [[[ds0 r0] q0] i0] eqn:Et. injection Es as <- <- <- <-.
    rewrite len_cons in El, Hq.
    destruct (IH t' (Some q) (dval (digits_of_bytes ((pre ++ post) ++ [d])) :: cs) ds0 r0 q0 i0) as (st & E1 & E2 & E3); auto.
    + cbn [length] in Hlt. lia.
    + inversion_clear Hbt; auto.
    + constructor; auto. apply chunk_of_digits; auto.
    + rewrite len_cons. lia.
    + cbn [rp_ok]. lia.
    + rewrite len_cons in E1, E2. replace (8 * (len cs + 1)) with (8 * len cs + 8) in * by lia.
      exists st. split; [exact E1|]. split; [|auto].
      assert (L8 : len (digits_of_bytes ((pre ++ post) ++ [d])) = 8).
      { rewrite len_digits. unfold len. rewrite H8. reflexivity. }
      eapply progress_step with (ds2 := ds0) (da := digits_of_bytes ((pre ++ post) ++ [d])) (bs2 := t') (rp2 := Some q);
        [| | |exact I].
      * unfold digits_of_bytes. rewrite !map_app, <- !app_assoc. reflexivity.
      * rewrite L8. exact E2.
      * rewrite L8. cbn [dots]. lia.
Qed.

End Loops.

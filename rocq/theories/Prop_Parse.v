(** * Properties C27, C28, C29: parsing

    All three claims are false as they stand; the witnesses are the theorems [.._refuted].
    The others state what holds of every text.  [loose] is the grammar the parser really
    accepts; [small l]: length of the text plus exponent below 2^31 - 100. *)

From Coq Require Import ZArith Bool List Lia String.
From Verif Require Import Base BigUInt BigExtra Spec SpecFns F256 Arith Interface Parse SpecParse ChunkLemmas
  Compute FromStrProofs.
Import ListNotations.
Open Scope Z_scope.
Open Scope list_scope.

(** ** C28: the grammar *)

(** "." has no digit and is accepted. *)
Theorem C28_refuted : exists s, Forall byte s /\ ~ documented_text s
  /\ forall P : profile, from_str s = Some (Ok (bits 0)).
Proof.
  exists (bytes_of "."). split; [repeat constructor; unfold byte; lia|].
  split; [exact point_not_documented|]. intros []; vm_compute; reflexivity.
Qed.
Print Assumptions C28_refuted.

(** The error values are returned for exactly the texts outside of the wider grammar. *)
Theorem C28_grammar_partial : forall (P : profile) s, Forall byte s ->
  (from_str s = Some ErrEmpty <-> s = [])
  /\ (from_str s = Some ErrInvalid <-> s <> [] /\ ~ loose_text s)
  /\ (forall x, from_str s = Some (Ok x) -> loose_text s)
  /\ (from_str s = None -> loose_text s).
Proof. exact (@L_grammar). Qed.
Print Assumptions C28_grammar_partial.

(** What is documented is not rejected. *)
Theorem C28_documented_partial : forall (P : profile) s, Forall byte s -> documented_text s ->
  from_str s <> Some ErrEmpty /\ from_str s <> Some ErrInvalid.
Proof. exact (@L_documented). Qed.
Print Assumptions C28_documented_partial.

(** The names of the special values, with any capitalisation *)
Theorem C28_nan : forall (P : profile) s, Forall byte s -> nan_text s -> parses (from_str s) QNAN.
Proof. exact (@L_nan). Qed.
Print Assumptions C28_nan.
Theorem C28_inf : forall (P : profile) s sg, Forall byte s -> inf_text s sg ->
  parses (from_str s) (mkf (match sg with Minus => 1 | _ => 0 end) INFm).
Proof. exact (@L_inf). Qed.
Print Assumptions C28_inf.

Example C28_ex : forall P : profile,
  from_str (bytes_of "") = Some ErrEmpty
  /\ from_str (bytes_of "1.2.3") = Some ErrInvalid
  /\ from_str (bytes_of "+") = Some ErrInvalid
  /\ from_str (bytes_of "1e") = Some ErrInvalid
  /\ from_str (bytes_of "12a") = Some ErrInvalid
  /\ from_str (bytes_of "--1") = Some ErrInvalid
  /\ from_str (bytes_of "1e+") = Some (Ok (bits ONEm))
  /\ from_str (bytes_of "-iNfInItY") = Some (Ok (bits (2 ^ 255 + INFm)))
  /\ from_str (bytes_of "nAn") = Some (Ok (bits QNAN)).
Proof. intros []; vm_compute; repeat split. Qed.
Example C28_ex_text : inf_text (bytes_of "-iNfInItY") Minus /\ nan_text (bytes_of "nAn").
Proof.
  split; [right; exists (bytes_of "iNfInItY"); vm_compute; split; reflexivity|].
  exists NoSign, (bytes_of "nAn"). vm_compute. split; reflexivity.
Qed.

(** ** C27: no panics *)

(** 10e2147483647 overflows the exponent (i32) in a debug build. *)
Theorem C27_refuted : exists s, Forall byte s /\ documented_text s /\ @from_str true s = None.
Proof.
  exists (bytes_of "10e2147483647"). split; [repeat constructor; unfold byte; lia|]. split.
  - left. exists (Literal NoSign [1; 0] None (Some (false, NoSign, digits_of "2147483647"))).
    split; [apply lit_check_ok; vm_compute; reflexivity|vm_compute; reflexivity].
  - vm_compute. reflexivity.
Qed.
Print Assumptions C27_refuted.

(** No panic on a text that is not a number; for numbers see the theorems of C29. *)
Theorem C27_no_literal_partial : forall (P : profile) s, Forall byte s ->
  ~ (exists l, loose l /\ s = text l) -> from_str s <> None.
Proof. exact (@L_no_literal). Qed.
Print Assumptions C27_no_literal_partial.

(** ** C29: correct rounding *)

(** -0 is parsed as +0. *)
Theorem C29_sign_refuted : exists l, documented l /\ small l /\ spec_parse l = 2 ^ 255
  /\ forall P : profile, from_str (text l) = Some (Ok (bits 0)).
Proof.
  exists (Literal Minus [0] None None). split; [apply lit_check_ok; vm_compute; reflexivity|].
  split; [vm_compute; reflexivity|]. split.
  { rewrite (spec_parse_eq _ 1 0 0) by reflexivity. rewrite dec_rnd_zero. reflexivity. }
  intros []; vm_compute; reflexivity.
Qed.
Print Assumptions C29_sign_refuted.

(** 2^255 + 2^18 + 1 lies above the midpoint of 2^255 and 2^255 + 2^19 and is parsed as
    2^255: the product with the power of five is truncated before it is compared with the
    midpoint. *)
Theorem C29_tie_refuted : exists l, documented l /\ small l
  /\ lit_signif l = 2 ^ 255 + 2 ^ 18 + 1 /\ lit_exp10 l = 0
  /\ spec_parse l = (262143 + 255) * 2 ^ 236 + 1
  /\ forall P : profile, from_str (text l) = Some (Ok (bits ((262143 + 255) * 2 ^ 236))).
Proof.
  exists (Literal NoSign
    (digits_of "57896044618658097711785492504343953926634992332820282019728792003956565082113") None None).
  split; [apply lit_check_ok; vm_compute; reflexivity|]. split; [vm_compute; reflexivity|].
  split; [vm_compute; reflexivity|]. split; [reflexivity|]. split.
  - rewrite (spec_parse_eq _ 0 (2 ^ 255 + 2 ^ 18 + 1) 0) by (vm_compute; reflexivity).
    rewrite dec_rnd_int by reflexivity. vm_compute. reflexivity.
  - intros []; vm_compute; reflexivity.
Qed.
Print Assumptions C29_tie_refuted.

(** 2^261, written with all its digits, is parsed as 2^261 + 2^25: the slow path shifts
    digits that it had trimmed back into the number. *)
Theorem C29_stale_digits_refuted : exists l, documented l /\ small l
  /\ lit_signif l = 2 ^ 261 /\ lit_exp10 l = 0
  /\ spec_parse l = (262143 + 261) * 2 ^ 236
  /\ forall P : profile, from_str (text l) = Some (Ok (bits ((262143 + 261) * 2 ^ 236 + 1))).
Proof.
  exists (Literal NoSign
    (digits_of "3705346855594118253554271520278013051304639509300498049262642688253220148477952") None None).
  split; [apply lit_check_ok; vm_compute; reflexivity|]. split; [vm_compute; reflexivity|].
  split; [vm_compute; reflexivity|]. split; [reflexivity|]. split.
  - rewrite (spec_parse_eq _ 0 (2 ^ 261) 0) by (vm_compute; reflexivity).
    rewrite dec_rnd_int by reflexivity. vm_compute. reflexivity.
  - intros []; vm_compute; reflexivity.
Qed.
Print Assumptions C29_stale_digits_refuted.

(** 77 nines times 10^-79057 is above the least positive value and is parsed as 0. *)
Theorem C29_cutoff_refuted : exists l, documented l /\ small l /\ 1 <= spec_parse l
  /\ forall P : profile, from_str (text l) = Some (Ok (bits 0)).
Proof.
  exists (Literal NoSign (repeat 9 77) None (Some (false, Minus, digits_of "79057"))).
  split; [apply lit_check_ok; vm_compute; reflexivity|]. split; [vm_compute; reflexivity|]. split.
  - rewrite (spec_parse_eq _ 0 (10 ^ 77 - 1) (-79057)) by (vm_compute; reflexivity).
    apply dec_rnd_nonzero; vm_compute; congruence.
  - intros []; vm_compute; reflexivity.
Qed.
Print Assumptions C29_cutoff_refuted.

(** 10e2147483647 is parsed as 0 in a release build: the exponent wraps around. *)
Theorem C29_wrap_refuted : exists l, documented l /\ spec_parse l = INFm
  /\ @from_str false (text l) = Some (Ok (bits 0)).
Proof.
  exists (Literal NoSign [1; 0] None (Some (false, NoSign, digits_of "2147483647"))).
  split; [apply lit_check_ok; vm_compute; reflexivity|]. split.
  - rewrite (spec_parse_eq _ 0 10 2147483647) by (vm_compute; reflexivity).
    rewrite dec_rnd_big by lia. reflexivity.
  - vm_compute. reflexivity.
Qed.
Print Assumptions C29_wrap_refuted.

(** Zero, except for the sign of -0 without an exponent *)
Theorem C29_zero_partial : forall (P : profile) l, loose l -> small l -> lit_signif l = 0 ->
  l_exp l <> None \/ l_sign l <> Minus -> parses (from_str (text l)) (spec_parse l).
Proof. exact (@L_zero). Qed.
Print Assumptions C29_zero_partial.
Theorem C29_zero_magnitude_partial : forall (P : profile) l, loose l -> small l -> lit_signif l = 0 ->
  exists z, from_str (text l) = Some (Ok z) /\ wf256 z /\ zerob (v256 z) = true.
Proof. exact (@L_zero_magnitude). Qed.
Print Assumptions C29_zero_magnitude_partial.
Example C29_zero_ex : forall P : profile,
  from_str (text (Literal Minus [0] (Some [0; 0]) (Some (true, Plus, [7])))) = Some (Ok (bits (2 ^ 255)))
  /\ loose (Literal Minus [0] (Some [0; 0]) (Some (true, Plus, [7])))
  /\ lit_signif (Literal Minus [0] (Some [0; 0]) (Some (true, Plus, [7]))) = 0.
Proof.
  intros P. split; [destruct P; vm_compute; reflexivity|].
  split; [apply loose_check; vm_compute; reflexivity|vm_compute; reflexivity].
Qed.

(** At least 10^78914: infinity *)
Theorem C29_overflow_partial : forall (P : profile) l, loose l -> small l ->
  0 < lit_signif l -> 78914 <= lit_exp10 l -> parses (from_str (text l)) (spec_parse l).
Proof. exact (@L_big). Qed.
Print Assumptions C29_overflow_partial.
Example C29_overflow_ex : forall P : profile,
  from_str (bytes_of "-0.5e78915") = Some (Ok (bits (2 ^ 255 + INFm))).
Proof. intros []; vm_compute; reflexivity. Qed.
Example C29_overflow_hyp : let l := Literal Minus [0] (Some [5]) (Some (false, NoSign, digits_of "78915")) in
  text l = bytes_of "-0.5e78915" /\ loose l /\ small l /\ 0 < lit_signif l /\ 78914 <= lit_exp10 l.
Proof.
  cbv zeta. split; [vm_compute; reflexivity|]. split; [apply loose_check; vm_compute; reflexivity|].
  vm_compute. repeat split; congruence.
Qed.

(** Below 10^-79056: zero *)
Theorem C29_underflow_partial : forall (P : profile) l, loose l -> small l ->
  0 < lit_signif l -> lit_exp10 l <= -79056 -> lit_signif l < 10 ^ (-79056 - lit_exp10 l) ->
  parses (from_str (text l)) (spec_parse l).
Proof. exact (@L_tiny). Qed.
Print Assumptions C29_underflow_partial.
Example C29_underflow_ex : forall P : profile,
  from_str (bytes_of "-123456.789e-79070") = Some (Ok (bits (2 ^ 255))).
Proof. intros []; vm_compute; reflexivity. Qed.
Example C29_underflow_hyp :
  let l := Literal Minus (digits_of "123456") (Some (digits_of "789")) (Some (false, Minus, digits_of "79070")) in
  text l = bytes_of "-123456.789e-79070" /\ loose l /\ small l /\ 0 < lit_signif l
  /\ lit_exp10 l <= -79056 /\ lit_signif l < 10 ^ (-79056 - lit_exp10 l).
Proof.
  cbv zeta. split; [vm_compute; reflexivity|]. split; [apply loose_check; vm_compute; reflexivity|].
  vm_compute. repeat split; congruence.
Qed.

(** w * 10^k with w < 2^237 and |k| <= 102, in whatever notation: correctly rounded.
    Missing: longer significands and larger powers, where the claim is false in general. *)
Theorem C29_exact_partial : forall (P : profile) l w k, loose l -> small l -> lit_exp10 l <= k ->
  lit_signif l = w * 10 ^ (k - lit_exp10 l) -> 0 < w < 2 ^ 237 -> w mod 10 <> 0 -> Z.abs k <= 102 ->
  parses (from_str (text l)) (spec_parse l).
Proof. exact (@L_exact). Qed.
Print Assumptions C29_exact_partial.

(** 0.1, and 1 followed by zeroes, as an exponent and as digits *)
Example C29_exact_ex : forall P : profile,
  from_str (bytes_of "0.10") = Some (Ok (bits ((262143 - 4) * 2 ^ 236
     + 66256764929189412359373656277859444343530646132835710929560232548473242)))
  /\ from_str (bytes_of "1000e-2") = Some (Ok (bits ((262143 + 3) * 2 ^ 236 + 2 ^ 234)))
  /\ from_str (bytes_of "-7.5") = Some (Ok (bits (2 ^ 255 + (262143 + 2) * 2 ^ 236 + 7 * 2 ^ 233))).
Proof. intros []; vm_compute; repeat split. Qed.
Example C29_exact_hyp : let l := Literal NoSign [0] (Some [1; 0]) None in
  text l = bytes_of "0.10" /\ loose l /\ small l /\ lit_exp10 l <= -1
  /\ lit_signif l = 1 * 10 ^ (-1 - lit_exp10 l).
Proof.
  cbv zeta. split; [vm_compute; reflexivity|]. split; [apply loose_check; vm_compute; reflexivity|].
  vm_compute. repeat split; congruence.
Qed.

(** * Properties C30, C31: printing

    The lookup tables of the printer are generated and not part of the repository.
    [tables_ok t] says what the theorems need of them; [gen_luts] are the tables the generator script describes
    ([C30_tables] shows that they qualify).  Both claims are false as they stand:
    see the theorems [.._refuted].  The others hold for all normal numbers with
    2^-474 <= |x| < 2^428. *)

From Coq Require Import ZArith Bool List Lia String.
From Verif Require Import Base BigUInt BigExtra Spec F256 Interface Parse SpecParse FromStrProofs
  Print SpecPrint PrintFinal.
Import ListNotations.
Open Scope Z_scope.
Open Scope list_scope.

Theorem C30_tables : tables_ok gen_luts.
Proof. exact gen_tables_ok. Qed.
Print Assumptions C30_tables.

(** ** C30: reading the printed text with correct rounding gives the number back. *)

(** 2^-116 is printed as a decimal that is nearer to the number below: the lower bound of
    the interval is taken to be half an ulp although the ulp below a power of two is
    only half as large. *)
Theorem C30_refuted : exists x l, finb x = true /\ documented l
  /\ (forall P : profile, display gen_luts (bits x) = Some (text l)) /\ spec_parse l = x - 1.
Proof.
  exists ((-352 + UNITe) * 2 ^ 236 + 2 ^ 236),
    (Literal NoSign [0] (Some (digits_of
      "0000000000000000000000000000000000120370621524202240815998621411557957408631353013461762202496174722909927"%string)) None).
  split; [vm_compute; reflexivity|]. split; [apply lit_check_ok; vm_compute; reflexivity|].
  split; [intros []; vm_compute; reflexivity|].
  rewrite (spec_parse_eq _ 0 120370621524202240815998621411557957408631353013461762202496174722909927 (-106)).
  - rewrite (dec_rnd_small 0 _ (-106) (2 ^ 237 - 1) (-353)); [|lia|lia|lia|lia|vm_compute; split; reflexivity].
    vm_compute. reflexivity.
  - vm_compute. reflexivity.
  - vm_compute. reflexivity.
  - vm_compute. reflexivity.
Qed.
Print Assumptions C30_refuted.

(** An odd significand whose interval ends at a short decimal: the bound is accepted, and
    reading it gives the neighbour. *)
Theorem C30_tie_refuted : exists x l, finb x = true /\ documented l
  /\ (forall P : profile, display_exp gen_luts 101 (bits x) = Some (text l)) /\ spec_parse l = x + 1.
Proof.
  exists ((212 + UNITe) * 2 ^ 236 + (14 * 5 ^ 101 - 2) / 4),
    (Literal NoSign [9] (Some (digits_of "086519502435948349928368576135168"%string)) (Some (false, NoSign, [1; 3; 4]))).
  split; [vm_compute; reflexivity|]. split; [apply lit_check_ok; vm_compute; reflexivity|].
  split; [intros []; vm_compute; reflexivity|].
  rewrite (spec_parse_eq _ 0 9086519502435948349928368576135168 101).
  - rewrite (dec_rnd_large 0 _ 101 ((14 * 5 ^ 101 - 2) / 4 + 1) 212);
      [|lia|lia|lia|vm_compute; split; reflexivity|vm_compute; split; discriminate|vm_compute; discriminate].
    vm_compute. reflexivity.
  - vm_compute. reflexivity.
  - vm_compute. reflexivity.
  - vm_compute. reflexivity.
Qed.
Print Assumptions C30_tie_refuted.

(** The round trip, for both profiles, with "{}".  Missing: powers of two below 2^245 and
    numbers outside of 2^-474 .. 2^428. *)
Theorem C30_display_partial : forall (P : profile) t x, tables_ok t -> 0 <= x < 2 ^ 256 ->
  -474 <= expo x <= 427 -> ~ power_of_two x \/ 245 <= expo x ->
  exists l, documented l /\ display t (bits x) = Some (text l) /\ spec_parse l = x.
Proof. exact (@L_display). Qed.
Print Assumptions C30_display_partial.

(** The same with "{:e}" and "{:E}" *)
Theorem C30_exp_partial : forall (P : profile) t up x, tables_ok t -> 0 <= x < 2 ^ 256 ->
  -474 <= expo x <= 427 -> ~ power_of_two x \/ 245 <= expo x ->
  exists l, documented l /\ display_exp t (if up : bool then 69 else 101) (bits x) = Some (text l) /\ spec_parse l = x.
Proof. exact (@L_display_exp). Qed.
Print Assumptions C30_exp_partial.

(** Nothing in that range panics, powers of two included. *)
Theorem C30_total_partial : forall (P : profile) t up x, tables_ok t -> 0 <= x < 2 ^ 256 -> -474 <= expo x <= 427 ->
  (exists l, documented l /\ display t (bits x) = Some (text l))
  /\ (exists l, documented l /\ display_exp t (if up : bool then 69 else 101) (bits x) = Some (text l)).
Proof. exact (@L_total). Qed.
Print Assumptions C30_total_partial.

(** Zeros, infinities and NaNs *)
Theorem C30_zero : forall (P : profile) t x, 0 <= x < 2 ^ 256 -> zerob x = true ->
  exists l l', documented l /\ documented l' /\ display t (bits x) = Some (text l)
    /\ display_exp t 101 (bits x) = Some (text l') /\ spec_parse l = x /\ spec_parse l' = x.
Proof. exact (@print_zero). Qed.
Print Assumptions C30_zero.
Theorem C30_inf : forall (P : profile) t x, 0 <= x < 2 ^ 256 -> infb x = true ->
  exists s, display t (bits x) = Some s /\ display_exp t 101 (bits x) = Some s
    /\ inf_text s (if sgn x =? 1 then Minus else NoSign).
Proof. exact (@print_inf). Qed.
Print Assumptions C30_inf.
Theorem C30_nan : forall (P : profile) t x, 0 <= x < 2 ^ 256 -> nanb x = true ->
  exists s, display t (bits x) = Some s /\ display_exp t 101 (bits x) = Some s /\ nan_text s.
Proof. exact (@print_nan). Qed.
Print Assumptions C30_nan.

(** Special values; for others see the other examples. *)
Example C30_ex : forall P : profile,
  display gen_luts (bits 0) = Some (bytes_of "0")
  /\ display gen_luts (bits (2 ^ 255)) = Some (bytes_of "-0")
  /\ display gen_luts (bits (2 ^ 255 + INFm)) = Some (bytes_of "-inf")
  /\ display gen_luts (bits QNAN) = Some (bytes_of "NaN").
Proof. intros []; vm_compute; repeat split. Qed.
(** The hypotheses hold of 1.5 and of 2^245. *)
Example C30_ex_range : (-474 <= expo (ONEm + 2 ^ 235) <= 427 /\ ~ power_of_two (ONEm + 2 ^ 235))
  /\ (-474 <= expo (ONEm + 245 * 2 ^ 236) <= 427 /\ 245 <= expo (ONEm + 245 * 2 ^ 236)).
Proof. vm_compute. repeat split; discriminate. Qed.

(** ** C31: no shorter decimal would do. *)

(** The integer 29 * 2^252 is printed with 73 digits, 72 would do: of the rounding interval only
    the half above the number and a quarter ulp below are searched. *)
Theorem C31_refuted : exists x l n q d, finb x = true
  /\ (forall P : profile, display gen_luts (bits x) = Some (text l))
  /\ 0 <= n < 10 ^ d /\ dec_rnd 0 n q = x /\ ~ significant l d.
Proof.
  exists ((20 + UNITe) * 2 ^ 236 + 29 * 2 ^ 232),
    (Literal NoSign (digits_of
      "209873161742635604205222410328246832984051847206473522321516871014342547500000"%string) None None),
    209873161742635604205222410328246832984051847206473522321516871014342547, 6, 72.
  split; [vm_compute; reflexivity|]. split; [intros []; vm_compute; reflexivity|].
  split; [vm_compute; split; [discriminate|reflexivity]|]. split.
  - rewrite (dec_rnd_large 0 _ 6 (29 * 2 ^ 232) 20);
      [|lia|lia|lia|lia|vm_compute; split; discriminate|vm_compute; discriminate].
    vm_compute. reflexivity.
  - apply (not_significant 2098731617426356042052224103282468329840518472064735223215168710143425475 5); [lia|discriminate|vm_compute; discriminate|vm_compute; reflexivity].
Qed.
Print Assumptions C31_refuted.

(** For numbers that are no integers and no powers of two the printed significand is a shortest
    one: any decimal that reads as x has at least as many significant digits.  Missing: numbers outside of
    2^-474 .. 2^428. *)
Theorem C31_display_partial : forall (P : profile) t x, tables_ok t -> 0 <= x < 2 ^ 256 ->
  -474 <= expo x <= 427 -> ~ power_of_two x -> ~ integral x ->
  exists l, documented l /\ display t (bits x) = Some (text l) /\ spec_parse l = x
    /\ forall n q d, 0 <= d -> 0 <= n < 10 ^ d -> dec_rnd (sgn x) n q = x -> significant l d.
Proof. exact (@L_shortest). Qed.
Print Assumptions C31_display_partial.

Theorem C31_exp_partial : forall (P : profile) t up x, tables_ok t -> 0 <= x < 2 ^ 256 ->
  -474 <= expo x <= 427 -> ~ power_of_two x -> ~ integral x ->
  exists l, documented l /\ display_exp t (if up : bool then 69 else 101) (bits x) = Some (text l) /\ spec_parse l = x
    /\ forall n q d, 0 <= d -> 0 <= n < 10 ^ d -> dec_rnd (sgn x) n q = x -> significant l d.
Proof. exact (@L_shortest_exp). Qed.
Print Assumptions C31_exp_partial.

(** 0.1 rounded to the format is such a number, printed with a single digit. *)
Example C31_ex : let x := (-240 + UNITe) * 2 ^ 236 + (2 ^ 240 + 5) / 10 in
  (-474 <= expo x <= 427 /\ ~ power_of_two x)
  /\ @display false gen_luts (bits x) = Some (bytes_of "0.1").
Proof.
  split; [vm_compute; repeat split; discriminate|vm_compute; reflexivity].
Qed.
Example C31_ex_integral : ~ integral (ONEm + 2 ^ 235).
Proof. exact half_not_integral. Qed.

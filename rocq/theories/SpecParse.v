(** * SpecParse: decimal literals, their grammar and their value (independent of the model)

    docs: src/conv/from_str/mod.rs (the grammar is that of [f64::from_str]). *)

From Coq Require Import ZArith List Bool String Ascii.
From Verif Require Import Spec.
Import ListNotations.
Open Scope Z_scope.
Open Scope list_scope.

(** ** Literals as structured text *)

Inductive lsign := NoSign | Plus | Minus.

(** [l_frac = Some f]: there is a radix point, followed by the digits [f].
    [l_exp = Some (up, s, ds)]: 'E' (up) or 'e', a sign, the digits [ds]. *)
Record literal := Literal {
  l_sign : lsign;
  l_int : list Z;
  l_frac : option (list Z);
  l_exp : option (bool * lsign * list Z) }.

Definition ascii (ds : list Z) : list Z := map (fun d => 48 + d) ds.
Definition sign_text (s : lsign) : list Z :=
  match s with NoSign => [] | Plus => [43] | Minus => [45] end.
Definition frac_text (f : option (list Z)) : list Z :=
  match f with None => [] | Some f => 46 :: ascii f end.
Definition exp_text (e : option (bool * lsign * list Z)) : list Z :=
  match e with
  | None => []
  | Some (up, s, ds) => (if up : bool then 69 else 101) :: sign_text s ++ ascii ds
  end.

(** The bytes of the literal *)
Definition text (l : literal) : list Z :=
  sign_text (l_sign l) ++ ascii (l_int l) ++ frac_text (l_frac l) ++ exp_text (l_exp l).

Definition is_dec (ds : list Z) : Prop := Forall (fun d => 0 <= d < 10) ds.
Definition frac_digits (l : literal) : list Z := match l_frac l with Some f => f | None => [] end.
Definition exp_digits (l : literal) : list Z :=
  match l_exp l with Some (_, _, ds) => ds | None => [] end.
Definition all_decimal (l : literal) : Prop :=
  is_dec (l_int l) /\ is_dec (frac_digits l) /\ is_dec (exp_digits l).

(** The documented grammar: at least one digit in the significand, and at least one in
    the exponent if there is one. *)
Definition documented (l : literal) : Prop :=
  all_decimal l
  /\ l_int l ++ frac_digits l <> []
  /\ match l_exp l with Some (_, _, ds) => ds <> [] | None => True end.

(** A wider grammar: the digits of the significand may be missing
    if there is a radix point, those of the exponent behind a sign. *)
Definition loose (l : literal) : Prop :=
  all_decimal l
  /\ (l_int l <> [] \/ l_frac l <> None)
  /\ match l_exp l with Some (_, s, ds) => ds = [] -> s <> NoSign | None => True end.

(** The bytes of a string, for examples *)
Fixpoint bytes_of (s : string) : list Z :=
  match s with String a t => Z.of_N (N_of_ascii a) :: bytes_of t | EmptyString => [] end.
Definition digits_of (s : string) : list Z := map (fun c => c - 48) (bytes_of s).

(** ** The value of a literal *)

Definition dval (ds : list Z) : Z := fold_left (fun a d => 10 * a + d) ds 0.

Definition lit_negative (l : literal) : Z := match l_sign l with Minus => 1 | _ => 0 end.
(** The digits of the significand as an integer *)
Definition lit_signif (l : literal) : Z := dval (l_int l ++ frac_digits l).
(** The explicit exponent *)
Definition lit_expo (l : literal) : Z :=
  match l_exp l with
  | Some (_, Minus, ds) => - dval ds
  | Some (_, _, ds) => dval ds
  | None => 0
  end.
(** The literal denotes (-1)^lit_negative * lit_signif * 10^lit_exp10 *)
Definition lit_exp10 (l : literal) : Z := lit_expo l - Z.of_nat (List.length (frac_digits l)).

(** The datum nearest to (-1)^s * w * 10^k, ties to even *)
Definition dec_rnd (s w k : Z) : Z :=
  mkf s (rnd_mag (w * 10 ^ Z.max 0 k * 2 ^ UNITe) (10 ^ Z.max 0 (- k))).

Definition spec_parse (l : literal) : Z := dec_rnd (lit_negative l) (lit_signif l) (lit_exp10 l).

(** Length of the text and exponent leave room in 32 bits. *)
Definition small (l : literal) : Prop :=
  Z.of_nat (List.length (text l)) + Z.abs (lit_expo l) + 100 < 2 ^ 31.

(** ** The names of the special values *)

Definition upcase (c : Z) : Z := if (97 <=? c) && (c <=? 122) then c - 32 else c.
(** "NAN", "INF", "INFINITY" *)
Definition NAN_TEXT : list Z := [78; 65; 78].
Definition INF_TEXT : list Z := [73; 78; 70].
Definition INFINITY_TEXT : list Z := [73; 78; 70; 73; 78; 73; 84; 89].

Definition special_text (s : list Z) (t : list Z) (sg : lsign) : Prop :=
  exists w, s = sign_text sg ++ w /\ map upcase w = t.

Definition nan_text (s : list Z) : Prop := exists sg, special_text s NAN_TEXT sg.
Definition inf_text (s : list Z) (sg : lsign) : Prop :=
  special_text s INF_TEXT sg \/ special_text s INFINITY_TEXT sg.
(** A text as the documentation describes it *)
Definition documented_text (s : list Z) : Prop :=
  (exists l, documented l /\ s = text l) \/ nan_text s \/ (exists sg, inf_text s sg).
Definition loose_text (s : list Z) : Prop :=
  (exists l, loose l /\ s = text l) \/ nan_text s \/ (exists sg, inf_text s sg).

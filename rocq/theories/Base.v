(** * Base: the machine-arithmetic vocabulary used by every model file.

    Rust panics are modelled by [None].  The build profile is a parameter of
    the whole model ([debug = true]: overflow checks and [debug_assert!] are
    active, as in [cargo test]; [debug = false]: arithmetic wraps, shift amounts
    are masked and [debug_assert!] is compiled out, as in [cargo build
    --release]).  Theorems are stated for both profiles. *)

From Coq Require Export ZArith List Bool.
Export ListNotations.
Global Open Scope Z_scope.

(** The cargo profile: [debug-assertions] and [overflow-checks] are both on
    (true) or both off (false). *)
Class profile := debug : bool.

(** Sequencing of computations that may panic. *)
Definition bind {A B : Type} (m : option A) (k : A -> option B) : option B :=
  match m with
  | Some a => k a
  | None => None
  end.

Notation "'let!' x := m 'in' k" := (bind m (fun x => k))
  (at level 200, x pattern, m at level 100, k at level 200,
   format "'[v' 'let!'  x  :=  m  'in' '/' k ']'").

(** [assert!(b)]: panics in every profile. *)
Definition assert (b : bool) : option unit := if b then Some tt else None.

(** [debug_assert!(b)]. *)
Definition dassert `{profile} (b : bool) : option unit :=
  if debug then assert b else Some tt.

(** Result of an unsigned [w]-bit operation whose mathematical result is [r]. *)
Definition chku `{profile} (w r : Z) : option Z :=
  if (0 <=? r) && (r <? 2 ^ w) then Some r
  else if debug then None else Some (r mod 2 ^ w).

(** Two's complement wrapping into [w] signed bits. *)
Definition wraps (w r : Z) : Z := (r + 2 ^ (w - 1)) mod 2 ^ w - 2 ^ (w - 1).

(** Result of a signed [w]-bit operation whose mathematical result is [r]. *)
Definition chks `{profile} (w r : Z) : option Z :=
  if (- 2 ^ (w - 1) <=? r) && (r <? 2 ^ (w - 1)) then Some r
  else if debug then None else Some (wraps w r).

Definition addu `{profile} (w a b : Z) := chku w (a + b).
Definition subu `{profile} (w a b : Z) := chku w (a - b).
Definition mulu `{profile} (w a b : Z) := chku w (a * b).
Definition adds `{profile} (w a b : Z) := chks w (a + b).
Definition subs `{profile} (w a b : Z) := chks w (a - b).
Definition muls `{profile} (w a b : Z) := chks w (a * b).

(** [a << n] and [a >> n] on a [w]-bit unsigned primitive.  A shift amount of
    [w] or more panics with overflow checks and is masked without. *)
Definition shlu `{profile} (w a n : Z) : option Z :=
  if n <? w then Some ((a * 2 ^ n) mod 2 ^ w)
  else if debug then None else Some ((a * 2 ^ (n mod w)) mod 2 ^ w).
Definition shru `{profile} (w a n : Z) : option Z :=
  if n <? w then Some (a / 2 ^ n)
  else if debug then None else Some (a / 2 ^ (n mod w)).

(** [a / b] and [a % b] on unsigned primitives: panics for [b = 0]. *)
Definition divu (a b : Z) : option Z := if b =? 0 then None else Some (a / b).
Definition remu (a b : Z) : option Z := if b =? 0 then None else Some (a mod b).

(** [x as u32], [x as u128], ...: truncating cast to [w] unsigned bits;
    [x as i32], ...: truncating cast to [w] signed bits. *)
Definition castu (w x : Z) : Z := x mod 2 ^ w.
Definition casts (w x : Z) : Z := wraps w x.

(** [u{w}::leading_zeros] and [u{w}::trailing_zeros]. *)
Definition nlz (w a : Z) : Z := if a =? 0 then w else w - 1 - Z.log2 a.
Fixpoint ctz_pos (p : positive) : Z :=
  match p with
  | xO p => 1 + ctz_pos p
  | _ => 0
  end.
Definition ntz (w a : Z) : Z :=
  match a with
  | Zpos p => ctz_pos p
  | _ => w
  end.

(** [cond as u32] and friends. *)
Definition b2z (b : bool) : Z := if b then 1 else 0.

(** Orderings as booleans. *)
Definition is_lt (c : comparison) : bool := match c with Lt => true | _ => false end.
Definition is_gt (c : comparison) : bool := match c with Gt => true | _ => false end.
Definition is_le (c : comparison) : bool := match c with Gt => false | _ => true end.
Definition is_ge (c : comparison) : bool := match c with Lt => false | _ => true end.

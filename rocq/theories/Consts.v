(** * Consts: the public constants of the type and of src/consts.rs

    The constants that other functions use are in F256.v; here are those that only users see.
    Left out: GAMMA (src/consts.rs:178-186), about which nothing is claimed. *)

From Coq Require Import ZArith.
From Verif Require Import Base BigUInt BigExtra F256 Conv.
Open Scope Z_scope.

(** src/lib.rs:189-198, 213-226 *)
Definition RADIX : Z := 2.
Definition MANTISSA_DIGITS : Z := SIGNIFICAND_BITS.
Definition SIGNIFICANT_DIGITS : Z := SIGNIFICAND_BITS.
Definition DIGITS : Z := 71.
Definition MAX_EXP : Z := EMAX + 1.
Definition MIN_EXP : Z := EMIN + 1.
Definition MIN_10_EXP : Z := -78912.
(** [MAX_10_EXP] and [MIN_GT_ZERO_10_EXP] are in Parse.v. *)

(** src/lib.rs:179-180 *)
Section Five.
Context {P : profile}.
Definition FIVE : option f256 := from_u64 5.
Definition TEN : option f256 := from_u64 10.
End Five.

(** src/consts.rs:17-22 *)
Definition K_PI : f256 := u256 85070776964233020888379420810864062491 174929234171320688473765933587459524450.
(** src/consts.rs:27-32 *)
Definition K_TAU : f256 := u256 85071101482786679315106203966884638747 174929234171320688473765933587459524450.
(** src/consts.rs:37-44.  [new] is a constant function; that it does not panic is part of what is
    proved of the constant. *)
Section New.
Context {P : profile}.
Definition K_FRAC_3_PI_2 : option f256 := new 0 2 (u256 382314414047586946914081706939412 216267517358725132221168102048536696202).
End New.
(** src/consts.rs:49-54 *)
Definition K_FRAC_PI_2 : f256 := u256 85070452445679362461652637654843486235 174929234171320688473765933587459524450.
(** src/consts.rs:59-64 *)
Definition K_FRAC_PI_3 : f256 := u256 85070282528162007978565120285195957607 230046945087859946803635491535562420119.
(** src/consts.rs:69-74 *)
Definition K_FRAC_PI_4 : f256 := u256 85070127927125704034925854498822909979 174929234171320688473765933587459524450.
(** src/consts.rs:79-84 *)
Definition K_FRAC_PI_6 : f256 := u256 85069958009608349551838337129175381351 230046945087859946803635491535562420119.
(** src/consts.rs:89-94 *)
Definition K_FRAC_PI_8 : f256 := u256 85069803408572045608199071342802333723 174929234171320688473765933587459524450.
(** src/consts.rs:99-104 *)
Definition K_FRAC_1_PI : f256 := u256 85069706845875500327645499421189881510 206986278175927573935717840202627382231.
(** src/consts.rs:109-114 *)
Definition K_FRAC_2_PI : f256 := u256 85070031364429158754372282577210457766 206986278175927573935717840202627382231.
(** src/consts.rs:119-124 *)
Definition K_SQRT_PI : f256 := u256 85070517887287421179178408574669870555 196081862527210367688260911531529420449.
(** src/consts.rs:129-134 *)
Definition K_FRAC_2_SQRT_PI : f256 := u256 85070308873102583148344920635171925375 287655892912639724059401590396951075229.
(** src/consts.rs:139-144 *)
Definition K_SQRT_2 : f256 := u256 85070401631667124460448299797938859689 116743028156957324320397937785460273254.
(** src/consts.rs:149-154 *)
Definition K_FRAC_1_SQRT_2 : f256 := u256 85070077113113466033721516641918283433 116743028156957324320397937785460273254.
(** src/consts.rs:159-164 *)
Definition K_SQRT_5 : f256 := u256 85070630034453927516731555118236173774 293111668962265138556237643962472537356.
(** src/consts.rs:169-174 *)
Definition K_PHI : f256 := u256 85070467775177098303368163540225885646 293111668962265138556237643962472537356.
(** src/consts.rs:189-194 *)
Definition K_E : f256 := u256 85070708278124661195610032245162902759 222802656701688313363499752982718194317.

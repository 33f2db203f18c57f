(** * Decimal numbers written with a point or an exponent

    Specification used by C64; independent of the model's conversions. *)

From Coq Require Import ZArith List Bool QArith Qabs SpecFloat.
From Verif Require Import Py SpecText.
Import ListNotations.
Open Scope list_scope.
Open Scope Z_scope.

(** 10^x for any integer x. *)
Definition p10 (x : Z) : Q := if 0 <=? x then inject_Z (10 ^ x) else (/ inject_Z (10 ^ (- x)))%Q.

(** [s] is a decimal number without sign and [q] its value: digits, possibly a
    fraction, possibly an exponent. *)
Definition denotes (s : pystr) (q : Q) : Prop :=
  exists a b t x,
    s = a ++ (match b with [] => [] | _ => 46 :: b end) ++ t /\
    a <> [] /\ Forall digit a /\ Forall digit b /\
    (t = [] /\ x = 0 \/
     exists ds, ds <> [] /\ Forall digit ds /\ (t = 101 :: 43 :: ds /\ x = numeral ds \/ t = 101 :: 45 :: ds /\ x = - numeral ds)) /\
    (q == inject_Z (numeral (a ++ b)) * p10 (x - len b))%Q.

(** [q] is [x] up to two decimals and double precision. *)
Definition about (q x : Q) : Prop := (Qabs (q - x) <= (1 # 200) + x * (1 # 562949953421312))%Q.

(** Positive doubles m * 2^e, in the form in which each has one representation. *)
Definition canon (m : positive) (e : Z) : Prop :=
  Zpos m < 2 ^ 53 /\ -1074 <= e <= 971 /\ (2 ^ 52 <= Zpos m \/ e = -1074).
Definition dbl (m : positive) (e : Z) : Q :=
  (inject_Z (Zpos m) * (if 0 <=? e then inject_Z (2 ^ e) else / inject_Z (2 ^ (- e))))%Q.
(** Finite doubles that are reported: zeros and canonical numbers. *)
Definition finite64 (f : spec_float) : Prop :=
  match f with S754_zero _ => True | S754_finite _ m e => canon m e | _ => False end.
(** [p] computes 10^x for the negative exponents a byte can hold, up to one unit in
    the last place. *)
Definition pow_ok (p : Z -> spec_float) : Prop :=
  forall x, -128 <= x < 0 -> exists m e, p x = S754_finite false m e /\ canon m e /\
    (Qabs (dbl m e - p10 x) <= p10 x * (1 # 4503599627370496))%Q.
(** [s] shows the number [x]: up to double precision it is rounded to the nearest
    hundredth, and (unless it is very large) it is a multiple of 1/100. *)
Definition printed (s : pystr) (x : Q) : Prop :=
  exists q, denotes s q /\ about q x /\ ((x <= inject_Z (10 ^ 11))%Q -> exists n, (q == inject_Z n / (100 # 1))%Q).

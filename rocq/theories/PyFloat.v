(** * IEEE-754 binary64 arithmetic as used by the modelled code

    Python [float] is modelled by the standard library's [spec_float]; every
    operation rounds the exact rational result to nearest, ties to even, with
    the binary64 exponent range (this is what CPython's [int/int] does by its
    own algorithm and [float*float], [float/float] by the FPU). *)

From Coq Require Import ZArith List Bool SpecFloat.
From Verif Require Import Py.
Import ListNotations.
Open Scope Z_scope.

(** num/(den*2^e) as a pair of integers. *)
Definition scale_num (num e : Z) : Z := if 0 <=? e then num else num * 2 ^ (- e).
Definition scale_den (den e : Z) : Z := if 0 <=? e then den * 2 ^ e else den.

(** Nearest integer to n/d (d > 0), ties to even. *)
Definition rnd_half_even (n d : Z) : Z :=
  let q := n / d in
  let r := n mod d in
  match (2 * r) ?= d with
  | Lt => q
  | Gt => q + 1
  | Eq => if Z.even q then q else q + 1
  end.

(** Exponent of the binary64 number nearest to num/den (num, den > 0): the
    significand has 53 bits unless the subnormal limit -1074 is reached. *)
Definition bin_exp (num den : Z) : Z :=
  let e1 := Z.log2 num - Z.log2 den - 52 in
  let q1 := scale_num num e1 / scale_den den e1 in
  Z.max (if q1 <? 2 ^ 52 then e1 - 1 else e1) (-1074).

(** Round +-num/den to binary64 (num, den > 0). *)
Definition round_pos (s : bool) (num den : Z) : spec_float :=
  let e := bin_exp num den in
  let m := rnd_half_even (scale_num num e) (scale_den den e) in
  let '(m, e) := if m =? 2 ^ 53 then (2 ^ 52, e + 1) else (m, e) in
  match m with
  | Zpos p => if 971 <? e then S754_infinity s else S754_finite s p e
  | _ => S754_zero s
  end.

(** Round the rational num/den, den > 0; [s] is the sign of a zero result. *)
Definition round_q (s : bool) (num den : Z) : spec_float :=
  if num =? 0 then S754_zero s
  else round_pos (num <? 0) (Z.abs num) den.

(** Python [int / int] (true division); the divisor is non-zero. *)
Definition int_div (a b : Z) : spec_float :=
  if b <? 0 then
    (if a =? 0 then S754_zero true else round_q false (- a) (- b))
  else round_q false a b.

(** Python [float(int)]. *)
Definition float_of_Z (z : Z) : spec_float := round_q false z 1.

(** Exact value m*2^e as a fraction. *)
Definition frac_num (m e : Z) : Z := if 0 <=? e then m * 2 ^ e else m.
Definition frac_den (e : Z) : Z := if 0 <=? e then 1 else 2 ^ (- e).

Definition sf_sign (f : spec_float) : bool :=
  match f with
  | S754_zero s => s | S754_infinity s => s | S754_nan => false
  | S754_finite s _ _ => s
  end.

(** Python [float * float]. *)
Definition float_mul (f g : spec_float) : spec_float :=
  match f, g with
  | S754_finite s m e, S754_finite s' m' e' =>
      let num := frac_num (Zpos m) e * frac_num (Zpos m') e' in
      let den := frac_den e * frac_den e' in
      round_pos (xorb s s') num den
  | S754_nan, _ | _, S754_nan => S754_nan
  | S754_zero _, S754_infinity _ | S754_infinity _, S754_zero _ => S754_nan
  | S754_infinity _, _ | _, S754_infinity _ => S754_infinity (xorb (sf_sign f) (sf_sign g))
  | _, _ => S754_zero (xorb (sf_sign f) (sf_sign g))
  end.

(** Python [float / float] with a non-zero finite divisor (the only use in the
    modelled code divides by a positive integer). *)
Definition float_div (f g : spec_float) : spec_float :=
  match f, g with
  | S754_finite s m e, S754_finite s' m' e' =>
      let num := frac_num (Zpos m) e * frac_den e' in
      let den := frac_den e * frac_num (Zpos m') e' in
      round_pos (xorb s s') num den
  | S754_zero s, S754_finite s' _ _ => S754_zero (xorb s s')
  | S754_infinity s, S754_finite s' _ _ => S754_infinity (xorb s s')
  | _, _ => S754_nan
  end.

(** Python [int(float)] for finite floats: truncation toward zero. *)
Definition trunc_float (f : spec_float) : Z :=
  match f with
  | S754_finite s m e => sgnz s (frac_num (Zpos m) e / frac_den e)
  | _ => 0
  end.

(** Python [math.ceil(float)] for finite floats. *)
Definition ceil_float (f : spec_float) : Z :=
  match f with
  | S754_finite s m e =>
      let n := sgnz s (frac_num (Zpos m) e) in
      let d := frac_den e in
      - ((- n) / d)
  | _ => 0
  end.

(** Python [round(x, nd)], nd >= 0: the exact value is rounded half-even to nd
    decimals and converted back to the nearest float (CPython double_round with
    correctly rounding dtoa/strtod). *)
Definition round_nd (nd : Z) (f : spec_float) : spec_float :=
  match f with
  | S754_finite s m e =>
      let n := rnd_half_even (frac_num (Zpos m) e * 10 ^ nd) (frac_den e) in
      if n =? 0 then S754_zero s else round_pos s n (10 ^ nd)
  | _ => f
  end.

(** *** [repr(float)]: shortest decimal string that rounds to the same float. *)

(** Decimal exponent E with 10^(E-1) <= num/den < 10^E, found by counting the
    digits of the integer part, or by counting up for values below 1. *)
Fixpoint dec_exp_small (k : nat) (num den acc : Z) : Z :=
  match k with
  | O => acc
  | S k' => if den <=? num * 10 then acc else dec_exp_small k' (num * 10) den (acc - 1)
  end.

Definition dec_exp (num den : Z) : Z :=
  if den <=? num then ndigits (num / den) else dec_exp_small 400 num den 0.

(** Digits of num/den rounded half-even to [nd] significant digits, together
    with the decimal point position. *)
Definition digits_nd (num den nd : Z) : Z * Z :=
  let E := dec_exp num den in
  let p := nd - E in
  let d := if 0 <=? p then rnd_half_even (num * 10 ^ p) den
           else rnd_half_even num (den * 10 ^ (- p)) in
  if d =? 10 ^ nd then (10 ^ (nd - 1), E + 1) else (d, E).

(** Value d * 10^(E - nd) rounded to a positive float. *)
Definition float_of_digits (d nd E : Z) : spec_float :=
  if 0 <=? E - nd then round_pos false (d * 10 ^ (E - nd)) 1
  else round_pos false d (10 ^ (nd - E)).

Fixpoint shortest (k : nat) (nd : Z) (m : positive) (e : Z) : Z * Z * Z :=
  let num := frac_num (Zpos m) e in
  let den := frac_den e in
  let '(d, E) := digits_nd num den nd in
  match k with
  | O => (d, nd, E)
  | S k' =>
      if float_eqb (float_of_digits d nd E) (S754_finite false m e)
      then (d, nd, E) else shortest k' (nd + 1) m e
  end.

Fixpoint strip0 (l : list Z) : list Z :=
  match l with
  | 48 :: l' => strip0 l'
  | _ => l
  end.

(** Remove trailing '0' characters. *)
Definition strip_trailing0 (s : pystr) : pystr := rev (strip0 (rev s)).

Definition zeros (n : Z) : pystr := repeat 48 (Z.to_nat n).

(** Layout of repr: positional if -4 < decpt <= 16, else exponent form. *)
Definition layout (digits : pystr) (decpt : Z) : pystr :=
  let n := len digits in
  if (-4 <? decpt) && (decpt <=? 16) then
    if decpt <=? 0 then 48 :: 46 :: zeros (- decpt) ++ digits
    else if decpt <? n then slice digits 0 decpt ++ 46 :: slice_from digits decpt
    else digits ++ zeros (decpt - n) ++ [46; 48]
  else
    let ex := decpt - 1 in
    (match digits with
     | c :: [] => [c]
     | c :: r => c :: 46 :: r
     | [] => []
     end) ++ 101 :: (if ex <? 0 then 45 else 43) ::
    (let s := str_of_Z (Z.abs ex) in if len s <? 2 then 48 :: s else s).

Definition repr_float (f : spec_float) : pystr :=
  match f with
  | S754_zero s => (if s then [45] else []) ++ [48; 46; 48]
  | S754_infinity s => (if s then [45] else []) ++ [105; 110; 102]
  | S754_nan => [110; 97; 110]
  | S754_finite s m e =>
      let '(d, _, E) := shortest 16 1 m e in
      (if s then [45] else []) ++ layout (strip_trailing0 (str_of_Z d)) E
  end.

(** *** [float(str)] on the strings produced by [repr_float] / [str(int)]:
    optional sign, digits, optional fraction, optional exponent.  Anything else
    (not produced by the modelled code) is None. *)
Definition is_digit (c : Z) : bool := in_rng c 48 57.

Fixpoint take_digits (s : pystr) (acc : Z) (n : Z) : Z * Z * pystr :=
  match s with
  | c :: s' => if is_digit c then take_digits s' (acc * 10 + (c - 48)) (n + 1)
               else (acc, n, s)
  | [] => (acc, n, [])
  end.

Definition mk_dec (s : bool) (d ex : Z) : spec_float :=
  if d =? 0 then S754_zero s
  else if 0 <=? ex then round_pos s (d * 10 ^ ex) 1
  else round_pos s d (10 ^ (- ex)).

Definition parse_float (s : pystr) : option spec_float :=
  let '(sg, s) := match s with 45 :: s' => (true, s') | _ => (false, s) end in
  let '(ip, n1, s) := take_digits s 0 0 in
  if n1 =? 0 then None else
  let '(d, nf, s) := match s with
                     | 46 :: s' => take_digits s' ip 0
                     | _ => (ip, 0, s)
                     end in
  match s with
  | [] => Some (mk_dec sg d (- nf))
  | 101 :: 45 :: s' =>
      let '(x, n2, r) := take_digits s' 0 0 in
      match r with [] => if n2 =? 0 then None else Some (mk_dec sg d (- x - nf)) | _ => None end
  | 101 :: 43 :: s' =>
      let '(x, n2, r) := take_digits s' 0 0 in
      match r with [] => if n2 =? 0 then None else Some (mk_dec sg d (x - nf)) | _ => None end
  | _ => None
  end.

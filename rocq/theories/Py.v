(** * Python run-time values used by the model

    This file models no jpylyzer function by itself: it fixes how the Python
    values that jpylyzer manipulates are represented in Gallina, and gives the
    few Python primitives (slicing, comparison, [str(int)], UTF-8) that the
    modelled functions use.  Definitions only; all proofs live elsewhere. *)

From Coq Require Import ZArith List String Ascii Bool.
From Coq Require Import Init.Byte.
From Coq Require Import SpecFloat.
From Coq Require DecimalString.
Import ListNotations.
Open Scope Z_scope.

(** Python [bytes] (and the read-only [mmap] object, which supports the same
    slicing): a list of bytes. *)
Definition bytes := list byte.

(** Numeric value of a byte, 0..255. *)
Definition bz (b : byte) : Z := Z.of_N (Byte.to_N b).

(** Python [str]: list of code points (each is an integer in 0..0x10FFFF,
    surrogates included; the range is a hypothesis where it matters). *)
Definition pystr := list Z.

(** Element tags and other literals are Coq strings; [pys] turns an ASCII
    literal into a Python string. *)
Fixpoint pys (s : string) : pystr :=
  match s with
  | EmptyString => []
  | String c s' => Z.of_N (Ascii.N_of_ascii c) :: pys s'
  end.

(** Python [len]. *)
Definition len {A} (l : list A) : Z := Z.of_nat (List.length l).

(** Index clamping done by Python slicing (CPython PySlice_AdjustIndices,
    step 1): negative indices count from the end, then clamp to [0, n]. *)
Definition norm_ix (n i : Z) : Z :=
  if i <? 0 then Z.max 0 (i + n) else Z.min i n.

(** Python [l[a:b]]. *)
Definition slice {A} (l : list A) (a b : Z) : list A :=
  let n := len l in
  let a' := norm_ix n a in
  let b' := norm_ix n b in
  firstn (Z.to_nat (b' - a')) (skipn (Z.to_nat a') l).

(** Python [l[a:]]. *)
Definition slice_from {A} (l : list A) (a : Z) : list A :=
  skipn (Z.to_nat (norm_ix (len l) a)) l.

(** Exceptions that jpylyzer code or the primitives it calls can raise.
    [OSError] is the exact class OSError (= IOError); [OSErrorSub] stands for
    any of its subclasses (PermissionError, FileNotFoundError, ...). *)
Inductive exn :=
| TypeError | ValueError | ZeroDivisionError | UnboundLocalError
| AttributeError | RecursionError | MemoryError | OSError | OSErrorSub
| RuntimeError | IndexError.

(** Result of running a piece of Python: a value, an exception, or "the loop
    budget ran out" ([Diverge]; non-termination is "Diverge for every budget"). *)
Inductive res (A : Type) :=
| Ok (a : A) | Raise (e : exn) | Diverge.
Arguments Ok {A} a.
Arguments Raise {A} e.
Arguments Diverge {A}.

Definition rbind {A B} (x : res A) (f : A -> res B) : res B :=
  match x with Ok a => f a | Raise e => Raise e | Diverge => Diverge end.

(** Values that occur as text of ElementTree nodes, or are compared. *)
Inductive value :=
| VNone
| VBool (b : bool)
| VInt (z : Z)
| VFloat (f : spec_float)
| VBytes (b : bytes)
| VStr (s : pystr).

(** Byte-string equality. *)
Fixpoint bytes_eqb (a b : bytes) : bool :=
  match a, b with
  | [], [] => true
  | x :: a', y :: b' => Byte.eqb x y && bytes_eqb a' b'
  | _, _ => false
  end.

Fixpoint pystr_eqb (a b : pystr) : bool :=
  match a, b with
  | [], [] => true
  | x :: a', y :: b' => (x =? y) && pystr_eqb a' b'
  | _, _ => false
  end.

Definition Zb (b : bool) : Z := if b then 1 else 0.

(** Sign applied to a magnitude. *)
Definition sgnz (s : bool) (z : Z) : Z := if s then - z else z.

(** [float == int] compares the exact values. *)
Definition float_eq_Z (f : spec_float) (z : Z) : bool :=
  match f with
  | S754_zero _ => z =? 0
  | S754_infinity _ => false
  | S754_nan => false
  | S754_finite s m e =>
      if 0 <=? e then sgnz s (Zpos m * 2 ^ e) =? z
      else sgnz s (Zpos m) =? z * 2 ^ (- e)
  end.

Definition float_eqb (f g : spec_float) : bool :=
  match f, g with
  | S754_zero _, S754_zero _ => true
  | S754_infinity s, S754_infinity s' => Bool.eqb s s'
  | S754_finite s m e, S754_finite s' m' e' =>
      if Bool.eqb s s' then
        if e' <=? e then Zpos m * 2 ^ (e - e') =? Zpos m'
        else Zpos m =? Zpos m' * 2 ^ (e' - e)
      else false
  | _, _ => false
  end.

(** Python [==] between two such values (bool/int/float compare numerically,
    everything else only within its own type). *)
Definition py_eqb (a b : value) : bool :=
  match a, b with
  | VNone, VNone => true
  | VBool x, VBool y => Bool.eqb x y
  | VBool x, VInt y => Zb x =? y
  | VInt x, VBool y => x =? Zb y
  | VInt x, VInt y => x =? y
  | VInt x, VFloat y => float_eq_Z y x
  | VFloat x, VInt y => float_eq_Z x y
  | VBool x, VFloat y => float_eq_Z y (Zb x)
  | VFloat x, VBool y => float_eq_Z x (Zb y)
  | VFloat x, VFloat y => float_eqb x y
  | VBytes x, VBytes y => bytes_eqb x y
  | VStr x, VStr y => pystr_eqb x y
  | _, _ => false
  end.

(** Python [x in list]. *)
Definition py_in (x : value) (l : list value) : bool := existsb (py_eqb x) l.

(** Python [list == list]. *)
Fixpoint py_list_eqb (a b : list value) : bool :=
  match a, b with
  | [], [] => true
  | x :: a', y :: b' => py_eqb x y && py_list_eqb a' b'
  | _, _ => false
  end.

(** Python [len(set(l))]. *)
Fixpoint py_dedup (l : list value) : list value :=
  match l with
  | [] => []
  | x :: l' => if py_in x l' then py_dedup l' else x :: py_dedup l'
  end.

(** Use of a value as an integer operand ([-], [<], [>>], [range]): bool is a
    subclass of int; anything but bool/int raises TypeError (floats never reach
    these operations in the modelled code). *)
Definition as_int (v : value) : res Z :=
  match v with
  | VInt z => Ok z
  | VBool b => Ok (Zb b)
  | _ => Raise TypeError
  end.

(** Membership of an integer / byte string in a literal list. *)
Definition Zin (x : Z) (l : list Z) : bool := existsb (Z.eqb x) l.
Definition bin (x : bytes) (l : list bytes) : bool := existsb (bytes_eqb x) l.

(** Python [list.count] on byte strings. *)
Definition bcount (x : bytes) (l : list bytes) : Z :=
  len (filter (bytes_eqb x) l).

(** Python [list.index]: first position, None = ValueError. *)
Fixpoint bindex_from (i : Z) (x : bytes) (l : list bytes) : option Z :=
  match l with
  | [] => None
  | y :: l' => if bytes_eqb x y then Some i else bindex_from (i + 1) x l'
  end.
Definition bindex (x : bytes) (l : list bytes) : option Z := bindex_from 0 x l.

(** Python [str(int)] (also [%s], [%d]). *)
Definition str_of_Z (z : Z) : pystr :=
  pys (DecimalString.NilZero.string_of_int (Z.to_int z)).

(** Number of decimal digits of |z|, as counted for the int->str limit. *)
Definition ndigits (z : Z) : Z := len (str_of_Z (Z.abs z)).

(** [%02d]: zero padded to width 2 (the sign counts). *)
Definition fmt02d (z : Z) : pystr :=
  let s := str_of_Z (Z.abs z) in
  if z <? 0 then 45 :: s
  else if len s <? 2 then 48 :: s else s.

(** Hexadecimal digits. *)
Definition hex_upper (d : Z) : Z := if d <? 10 then 48 + d else 55 + d.
Definition hex_lower (d : Z) : Z := if d <? 10 then 48 + d else 87 + d.

(** Upper-case hexadecimal digits of n >= 0, most significant first, at least
    one digit; the [nat] argument bounds the number of digits. *)
Fixpoint hex_digits (k : nat) (n : Z) (acc : pystr) : pystr :=
  match k with
  | O => acc
  | S k' =>
      let acc' := hex_upper (n mod 16) :: acc in
      if n <? 16 then acc' else hex_digits k' (n / 16) acc'
  end.

Definition hex_of_Z (n : Z) : pystr :=
  hex_digits (S (Z.to_nat (Z.log2 n / 4 + 1))) n [].

Fixpoint pad_left (c : Z) (k : nat) (s : pystr) : pystr :=
  match k with O => s | S k' => c :: pad_left c k' s end.

(** ['{:0wX}'.format(n)] for n >= 0. *)
Definition fmt_hex (w : Z) (n : Z) : pystr :=
  let s := hex_of_Z n in
  pad_left 48 (Z.to_nat (w - len s)) s.

(** *** UTF-8, strict mode (CPython's decoder: no overlong forms, no
    surrogates, nothing above 0x10FFFF). *)
Definition in_rng (b lo hi : Z) : bool := (lo <=? b) && (b <=? hi).
Definition cont (b : Z) : bool := in_rng b 128 191.

(** Decode one character: code point and remaining input. *)
Definition utf8_step (l : list Z) : option (Z * list Z) :=
  match l with
  | [] => None
  | b0 :: r0 =>
      if b0 <? 128 then Some (b0, r0)
      else if in_rng b0 194 223 then
        match r0 with
        | b1 :: r1 =>
            if cont b1 then Some ((b0 - 192) * 64 + (b1 - 128), r1) else None
        | _ => None
        end
      else if in_rng b0 224 239 then
        match r0 with
        | b1 :: b2 :: r2 =>
            if in_rng b1 (if b0 =? 224 then 160 else 128) (if b0 =? 237 then 159 else 191)
               && cont b2
            then Some ((b0 - 224) * 4096 + (b1 - 128) * 64 + (b2 - 128), r2)
            else None
        | _ => None
        end
      else if in_rng b0 240 244 then
        match r0 with
        | b1 :: b2 :: b3 :: r3 =>
            if in_rng b1 (if b0 =? 240 then 144 else 128) (if b0 =? 244 then 143 else 191)
               && cont b2 && cont b3
            then Some ((b0 - 240) * 262144 + (b1 - 128) * 4096
                       + (b2 - 128) * 64 + (b3 - 128), r3)
            else None
        | _ => None
        end
      else None
  end.

Fixpoint utf8_decode_n (k : nat) (l : list Z) : option pystr :=
  match l with
  | [] => Some []
  | _ =>
      match k with
      | O => None
      | S k' =>
          match utf8_step l with
          | Some (c, r) =>
              match utf8_decode_n k' r with
              | Some s => Some (c :: s)
              | None => None
              end
          | None => None
          end
      end
  end.

(** [bytes.decode('utf-8', 'strict')]; None = UnicodeDecodeError. *)
Definition utf8_decode (b : bytes) : option pystr :=
  utf8_decode_n (List.length b) (map bz b).

Definition is_surrogate (c : Z) : bool := in_rng c 55296 57343.

(** UTF-8 bytes (as integers) of one code point that is not a surrogate. *)
Definition utf8_enc1 (c : Z) : list Z :=
  if c <? 128 then [c]
  else if c <? 2048 then [192 + c / 64; 128 + c mod 64]
  else if c <? 65536 then [224 + c / 4096; 128 + (c / 64) mod 64; 128 + c mod 64]
  else [240 + c / 262144; 128 + (c / 4096) mod 64; 128 + (c / 64) mod 64; 128 + c mod 64].

Definition byte_of_Z (z : Z) : byte :=
  match Byte.of_N (Z.to_N z) with Some b => b | None => x00 end.

(** [str.encode('utf-8')]; None = UnicodeEncodeError (a surrogate occurs). *)
Definition utf8_encode (s : pystr) : option bytes :=
  if existsb is_surrogate s then None
  else Some (map byte_of_Z (flat_map utf8_enc1 s)).

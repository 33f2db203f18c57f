(** * Specifications: byte strings, numbers and text

    Definitions in this file are independent of the model; they only use the
    representation types of Py.v ([bytes], [pystr], [bz], [len]). *)

From Coq Require Import ZArith List Bool.
From Coq Require Import Init.Byte.
From Verif Require Import Py.
Import ListNotations.
Open Scope Z_scope.

(** Positional (big-endian) value of a byte string. *)
Fixpoint beval (l : bytes) : Z :=
  match l with
  | [] => 0
  | b :: r => bz b * 256 ^ len r + beval r
  end.

(** Unicode scalar values: code points that are not surrogates. *)
Definition scalar (c : Z) : Prop := 0 <= c <= 1114111 /\ ~ (55296 <= c <= 57343).
Definition codepoint (c : Z) : Prop := 0 <= c <= 1114111.

(** RFC 3629, section 3: octets of one scalar value. *)
Definition utf8_octets (c : Z) : list Z :=
  if c <=? 127 then [c]
  else if c <=? 2047 then [192 + c / 64; 128 + c mod 64]
  else if c <=? 65535 then [224 + c / 4096; 128 + c / 64 mod 64; 128 + c mod 64]
  else [240 + c / 262144; 128 + c / 4096 mod 64; 128 + c / 64 mod 64; 128 + c mod 64].

(** [b] is the UTF-8 form of the string [s]. *)
Definition utf8_of (s : pystr) (b : bytes) : Prop :=
  Forall scalar s /\ map bz b = flat_map utf8_octets s.

(** [s] is [l] with some characters left out. *)
Inductive subseq {A} : list A -> list A -> Prop :=
| sub_nil : subseq [] []
| sub_skip x s l : subseq s l -> subseq s (x :: l)
| sub_keep x s l : subseq s l -> subseq (x :: s) (x :: l).

(** Characters a report may contain: not of category C, or tab / LF / CR. *)
Definition printable (catC : Z -> bool) (c : Z) : Prop :=
  catC c = false \/ c = 9 \/ c = 10 \/ c = 13.

(** ASCII code of a lower-case hexadecimal digit. *)
Definition hexdigit (c : Z) : Prop := 48 <= c <= 57 \/ 97 <= c <= 102.

(** [v] occurs in [l] exactly at the positions of one block. *)
Definition one_block {A} (v : A) (l : list A) : Prop :=
  exists pre n post,
    l = pre ++ repeat v n ++ post /\ ~ In v pre /\ ~ In v post.

(** ** Fields of binary structures *)

(** Value of the big-endian field of [n] bytes at offset [off]; a field that is
    not completely inside the content is reported as -9999. *)
Definition val (c : bytes) (off n : Z) : Z :=
  if off + n <=? len c
  then beval (firstn (Z.to_nat n) (skipn (Z.to_nat off) c))
  else -9999.

(** The bytes of [c] from offset [off], at most [n] of them. *)
Definition sub (c : bytes) (off n : Z) : bytes :=
  firstn (Z.to_nat n) (skipn (Z.to_nat off) c).

(** 0, 1, ..., n-1. *)
Definition zseq (n : Z) : list Z := map Z.of_nat (seq 0 (Z.to_nat n)).

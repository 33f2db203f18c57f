(** * Model of jpylyzer/byteconv.py *)

From Coq Require Import ZArith List Bool String.
From Coq Require Import Init.Byte.
From Verif Require Import Py.
Import ListNotations.
Open Scope Z_scope.

(** Big-endian value accumulated from the left (what struct.unpack with a ">"
    format and int(hexlify(b), 16) compute). *)
Definition be_acc (acc : Z) (l : bytes) : Z :=
  fold_left (fun a b => a * 256 + bz b) l acc.

(** byteconv.py:22-34 [_doConv] for an unsigned format of [n] bytes:
    struct.unpack raises struct.error unless the length is exactly n, and every
    exception yields -9999. *)
Definition doConv (n : Z) (b : bytes) : Z :=
  if len b =? n then be_acc 0 b else -9999.

(** byteconv.py:37-42 *)
Definition bytesToULongLong (b : bytes) : Z := doConv 8 b.
(** byteconv.py:45-50 *)
Definition bytesToUInt (b : bytes) : Z := doConv 4 b.
(** byteconv.py:53-58 *)
Definition bytesToUShortInt (b : bytes) : Z := doConv 2 b.
(** byteconv.py:61-66 *)
Definition bytesToUnsignedChar (b : bytes) : Z := doConv 1 b.

(** byteconv.py:69-74: format "b" is two's complement. *)
Definition bytesToSignedChar (b : bytes) : Z :=
  match b with
  | [x] => if bz x <? 128 then bz x else bz x - 256
  | _ => -9999
  end.

(** byteconv.py:105-107 [bytesToHex] (binascii.hexlify): two lower-case hex
    digits per byte; the result is a bytes object. *)
Definition hex_byte (b : byte) : bytes :=
  [byte_of_Z (hex_lower (bz b / 16)); byte_of_Z (hex_lower (bz b mod 16))].
Definition bytesToHex (b : bytes) : bytes := flat_map hex_byte b.

(** Value of one ASCII hex digit as read by int(_, 16). *)
Definition unhex (b : byte) : option Z :=
  let c := bz b in
  if in_rng c 48 57 then Some (c - 48)
  else if in_rng c 97 102 then Some (c - 87)
  else if in_rng c 65 70 then Some (c - 55)
  else None.

(** int(_, 16) on a non-empty string of hex digits. *)
Fixpoint int16_acc (acc : Z) (l : bytes) : option Z :=
  match l with
  | [] => Some acc
  | b :: l' => match unhex b with
               | Some d => int16_acc (acc * 16 + d) l'
               | None => None
               end
  end.

(** byteconv.py:77-94 [bytesToInteger]: int(hexlify(b), 16); int(b'', 16)
    raises ValueError, hence -9999 for the empty string. *)
Definition bytesToInteger (b : bytes) : Z :=
  match bytesToHex b with
  | [] => -9999
  | h => match int16_acc 0 h with Some z => z | None => -9999 end
  end.

(** byteconv.py:97-102 [isctrl] on a one-byte slice. *)
Definition isctrl (b : byte) : bool := (bz b <? 32) || (bz b =? 127).

(** byteconv.py:110-115 [containsControlCharacters] *)
Definition containsControlCharacters (b : bytes) : bool := existsb isctrl b.

(** byteconv.py:118-126 [removeControlCharacters]; [catC c] stands for
    unicodedata.category(chr(c))[0] == "C". *)
Definition keepChar (catC : Z -> bool) (c : Z) : bool :=
  negb (catC c) || Zin c [9; 10; 13].
Definition removeControlCharacters (catC : Z -> bool) (s : pystr) : pystr :=
  filter (keepChar catC) s.

Fixpoint drop_nul (l : bytes) : bytes :=
  match l with
  | x00 :: l' => drop_nul l'
  | _ => l
  end.

(** byteconv.py:129-132 [removeNullTerminator]: bytes.rstrip(b'\x00'). *)
Definition removeNullTerminator (b : bytes) : bytes := rev (drop_nul (rev b)).

(** byteconv.py:135-152 [bytesToText] *)
Definition bytesToText (catC : Z -> bool) (b : bytes) : pystr :=
  match utf8_decode b with
  | Some s => removeControlCharacters catC s
  | None => []
  end.

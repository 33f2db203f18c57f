(** * Property theorems C01-C09: byte conversion and text *)

From Coq Require Import ZArith List Bool String.
From Coq Require Import Init.Byte.
From Verif Require Import Py ByteConv Shared CheckFile Spec PText.
Import ListNotations.
Open Scope Z_scope.

(** C01 *)
Theorem C01_unsigned_char (b : bytes) :
  (len b = 1 -> bytesToUnsignedChar b = beval b /\ 0 <= beval b <= 255) /\
  (len b <> 1 -> bytesToUnsignedChar b = -9999).
Proof. exact (c01_one b). Qed.
Print Assumptions C01_unsigned_char.
Example C01_unsigned_char_ex : bytesToUnsignedChar [xfe] = 254 /\ bytesToUnsignedChar [] = -9999.
Proof. now vm_compute. Qed.

Theorem C01_ushort (b : bytes) :
  (len b = 2 -> bytesToUShortInt b = beval b /\ 0 <= beval b <= 65535) /\
  (len b <> 2 -> bytesToUShortInt b = -9999).
Proof. exact (c01_two b). Qed.
Print Assumptions C01_ushort.
Example C01_ushort_ex : len [x12; x34] = 2 /\ bytesToUShortInt [x12; x34] = 4660.
Proof. now vm_compute. Qed.

Theorem C01_uint (b : bytes) :
  (len b = 4 -> bytesToUInt b = beval b /\ 0 <= beval b <= 4294967295) /\
  (len b <> 4 -> bytesToUInt b = -9999).
Proof. exact (c01_four b). Qed.
Print Assumptions C01_uint.
Example C01_uint_ex : bytesToUInt [xff; x00; x00; x01] = 4278190081.
Proof. now vm_compute. Qed.

Theorem C01_ulonglong (b : bytes) :
  (len b = 8 -> bytesToULongLong b = beval b /\ 0 <= beval b <= 18446744073709551615) /\
  (len b <> 8 -> bytesToULongLong b = -9999).
Proof. exact (c01_eight b). Qed.
Print Assumptions C01_ulonglong.
Example C01_ulonglong_ex :
  bytesToULongLong [x01; x00; x00; x00; x00; x00; x00; x02] = 72057594037927938.
Proof. now vm_compute. Qed.

Theorem C01_injective :
  (forall a b, len a = 1 -> len b = 1 -> bytesToUnsignedChar a = bytesToUnsignedChar b -> a = b) /\
  (forall a b, len a = 2 -> len b = 2 -> bytesToUShortInt a = bytesToUShortInt b -> a = b) /\
  (forall a b, len a = 4 -> len b = 4 -> bytesToUInt a = bytesToUInt b -> a = b) /\
  (forall a b, len a = 8 -> len b = 8 -> bytesToULongLong a = bytesToULongLong b -> a = b).
Proof. exact c01_inj. Qed.
Print Assumptions C01_injective.
Example C01_injective_ex : bytesToUShortInt [x01; x00] <> bytesToUShortInt [x00; x01].
Proof. now vm_compute. Qed.

Theorem C01_sentinel (b : bytes) :
  (bytesToUnsignedChar b = -9999 <-> len b <> 1) /\
  (bytesToUShortInt b = -9999 <-> len b <> 2) /\
  (bytesToUInt b = -9999 <-> len b <> 4) /\
  (bytesToULongLong b = -9999 <-> len b <> 8).
Proof. exact (c01_sentinel b). Qed.
Print Assumptions C01_sentinel.

(** C02 *)
Theorem C02_signed_char (b : bytes) :
  (len b = 1 -> -128 <= bytesToSignedChar b <= 127
                /\ bytesToSignedChar b mod 256 = beval b) /\
  (len b <> 1 -> bytesToSignedChar b = -9999).
Proof. exact (c02_signed b). Qed.
Print Assumptions C02_signed_char.
Example C02_signed_char_ex : bytesToSignedChar [x80] = -128 /\ bytesToSignedChar [x7f] = 127.
Proof. now vm_compute. Qed.

(** C03 *)
Theorem C03_integer (b : bytes) :
  (b <> [] -> bytesToInteger b = beval b /\ 0 <= beval b < 256 ^ len b) /\
  (bytesToInteger b = -9999 <-> b = []).
Proof. exact (c03_integer b). Qed.
Print Assumptions C03_integer.
Example C03_integer_ex : bytesToInteger [x01; x02; x03] = 66051.
Proof. now vm_compute. Qed.

Theorem C03_agrees (b : bytes) :
  (len b = 1 -> bytesToInteger b = bytesToUnsignedChar b) /\
  (len b = 2 -> bytesToInteger b = bytesToUShortInt b) /\
  (len b = 4 -> bytesToInteger b = bytesToUInt b) /\
  (len b = 8 -> bytesToInteger b = bytesToULongLong b).
Proof. exact (c03_agrees b). Qed.
Print Assumptions C03_agrees.

(** C04 *)
Theorem C04_text (catC : Z -> bool) (b : bytes) :
  (forall s, utf8_of s b ->
     bytesToText catC b = filter (fun c => negb (catC c) || (c =? 9) || (c =? 10) || (c =? 13)) s) /\
  ((~ exists s, utf8_of s b) -> bytesToText catC b = []) /\
  Forall (printable catC) (bytesToText catC b).
Proof. exact (c04_text catC b). Qed.
Print Assumptions C04_text.
Example C04_text_ex :
  bytesToText (fun c => c <? 32) [xc3; xa9; x00; x41] = [233; 65] /\
  bytesToText (fun c => c <? 32) [xc3; x41] = [].
Proof. now vm_compute. Qed.

Theorem C04_decoding_unique (s t : pystr) (b : bytes) : utf8_of s b -> utf8_of t b -> s = t.
Proof. exact (c04_unique s t b). Qed.
Print Assumptions C04_decoding_unique.

Theorem C04_roundtrip (catC : Z -> bool) (s : pystr) (b : bytes) :
  utf8_of s b -> Forall (printable catC) s -> bytesToText catC b = s.
Proof. exact (c04_roundtrip catC s b). Qed.
Print Assumptions C04_roundtrip.
Example C04_roundtrip_ex : utf8_of [8364; 119070] [xe2; x82; xac; xf0; x9d; x84; x9e].
Proof.
  split; [|reflexivity].
  repeat constructor; try discriminate; now intros [? ?].
Qed.

(** C05 *)
Theorem C05_filter (catC : Z -> bool) (s : pystr) :
  subseq (removeControlCharacters catC s) s /\
  (forall c, In c (removeControlCharacters catC s) <-> In c s /\ printable catC c) /\
  (forall c, printable catC c ->
     count_occ Z.eq_dec (removeControlCharacters catC s) c = count_occ Z.eq_dec s c) /\
  removeControlCharacters catC (removeControlCharacters catC s) = removeControlCharacters catC s /\
  (forall t, removeControlCharacters catC (s ++ t) =
             removeControlCharacters catC s ++ removeControlCharacters catC t).
Proof. exact (c05_filter catC s). Qed.
Print Assumptions C05_filter.
Example C05_filter_ex : removeControlCharacters (fun c => c <? 32) [0; 72; 9; 27; 105] = [72; 9; 105].
Proof. now vm_compute. Qed.

Theorem C05_contains (b : bytes) :
  containsControlCharacters b = true <-> exists x, In x b /\ (bz x < 32 \/ bz x = 127).
Proof. exact (ccc_spec b). Qed.
Print Assumptions C05_contains.

(** C06 *)
Theorem C06_null_terminator (b r : bytes) :
  removeNullTerminator b = r <->
  (exists n, b = r ++ repeat x00 n) /\ (forall r', r <> r' ++ [x00]).
Proof. exact (c06_nul b r). Qed.
Print Assumptions C06_null_terminator.
Example C06_null_terminator_ex : removeNullTerminator [x41; x00; x42; x00; x00] = [x41; x00; x42].
Proof. now vm_compute. Qed.

(** C07 *)
Theorem C07_hex (b : bytes) :
  len (bytesToHex b) = 2 * len b /\
  Forall (fun x => hexdigit (bz x)) (bytesToHex b) /\
  (forall b', bytesToHex b = bytesToHex b' -> b = b').
Proof. exact (c07_hex b). Qed.
Print Assumptions C07_hex.
Example C07_hex_ex : bytesToHex [xa0; x0f] = [x61; x30; x30; x66].
Proof. now vm_compute. Qed.

(** C08 *)
Theorem C08_contiguous (l : list bytes) (v : bytes) :
  listOccurrencesAreContiguous l v = true <-> one_block v l.
Proof. exact (contiguous_spec l v). Qed.
Print Assumptions C08_contiguous.
Example C08_contiguous_ex :
  listOccurrencesAreContiguous [[x01]; [x02]; [x02]; [x03]] [x02] = true /\
  listOccurrencesAreContiguous [[x02]; [x01]; [x02]] [x02] = false.
Proof. now vm_compute. Qed.

(** C09 *)
Theorem C09_strip_surrogates (s : pystr) :
  Forall codepoint s ->
  len (stripSurrogatePairs s) = len s /\
  (exists b, utf8_of (stripSurrogatePairs s) b) /\
  (forall i, ~ (55296 <= nth i s 0 <= 57343) ->
     nth i (stripSurrogatePairs s) 0 = nth i s 0) /\
  (forall i, 55296 <= nth i s 0 <= 57343 -> nth i (stripSurrogatePairs s) 0 = 63) /\
  ((exists b, utf8_of s b) -> stripSurrogatePairs s = s).
Proof. exact (c09_strip s). Qed.
Print Assumptions C09_strip_surrogates.
Example C09_strip_surrogates_ex :
  Forall codepoint [97; 56448; 233] /\ stripSurrogatePairs [97; 56448; 233] = [97; 63; 233].
Proof. split; [repeat constructor; discriminate | now vm_compute]. Qed.

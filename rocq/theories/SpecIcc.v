(** * The header of an ICC profile

    After ICC.1:2010 (profile version 4.3), clause 7.2; specification used by C67. *)

From Coq Require Import ZArith List Bool String QArith Qabs.
From Coq Require Import Init.Byte.
From Verif Require Import Py ETree Spec SpecText SpecBox SpecNum SpecNames.
Import ListNotations.
Open Scope string_scope.
Open Scope list_scope.
Open Scope Z_scope.

(** The element [X] has exactly one child called [t]; its text is [s]. *)
Definition gives_text (X : elt) (t : string) (s : pystr) : Prop := map etext (findall [t] X) = [VStr s].
(** Two decimal digits. *)
Definition two (n : Z) : pystr := [48 + n / 10; 48 + n mod 10].
(** dateTimeNumber: year, month, day, hours, minutes, seconds as 16-bit numbers. *)
Definition date_ok (p : bytes) : Prop :=
  1 <= val p 26 2 <= 12 /\ 1 <= val p 28 2 <= 31 /\ 0 <= val p 30 2 <= 23 /\ 0 <= val p 32 2 <= 59 /\ 0 <= val p 34 2 <= 59.
(** s15Fixed16Number. *)
Definition s15Fixed16 (p : bytes) (off : Z) : Q :=
  let x := val p off 4 in Qdiv (inject_Z (if x <? 2 ^ 31 then x else x - 2 ^ 32)) (inject_Z 65536).
(** Bits of a big-endian field are numbered from the least significant one. *)
Definition field_bit (p : bytes) (off n i : Z) : Z := val p off n / 2 ^ i mod 2.
(** [s] is a decimal number with the value [x] rounded to the nearest multiple of 1/10000. *)
Definition rounded4 (s : pystr) (x : Q) : Prop :=
  exists n, denotes s (inject_Z n / (10000 # 1)) /\ (Qabs (inject_Z n / (10000 # 1) - x) <= 1 # 20000)%Q.
(** The profile description of version 2 profiles (textDescriptionType): the tag
    table has an entry 'desc', which points to the signature 'desc', four bytes, the
    number of characters counting a final NUL, and the characters. *)
Definition first_desc_tag (p : bytes) (k : Z) : Prop :=
  0 <= k < val p 128 4 /\ sub p (132 + 12 * k) 4 = list_byte_of_string "desc" /\
  forall i, 0 <= i < k -> sub p (132 + 12 * i) 4 <> list_byte_of_string "desc".
Definition v2_description (p d : bytes) : Prop :=
  exists k x rest, first_desc_tag p k /\ 132 + 12 * k + 12 <= len p /\ val p (132 + 12 * k + 4) 4 + val p (132 + 12 * k + 8) 4 <= len p /\
    sub p (val p (132 + 12 * k + 4) 4) (val p (132 + 12 * k + 8) 4) = list_byte_of_string "desc" ++ repeat x00 4 ++ x ++ d ++ [x00] ++ rest /\
    len x = 4 /\ val x 0 4 = len d + 1.
Definition text_bytes (b : bytes) : Prop := Forall (fun x => 32 <= bz x < 127) b.

(** What is reported of a profile [p] in the element [X], apart from flags and
    attributes. *)
Definition header_shown (p : bytes) (X : elt) : Prop :=
  (exists s, decimal (val p 0 4) s /\ gives_text X "profileSize" s) /\
  (exists a b c, decimal (val p 8 1) a /\ decimal (val p 9 1 / 16) b /\ decimal (val p 9 1 mod 16) c /\
     gives_text X "profileVersion" (a ++ pys "." ++ b ++ pys "." ++ c)) /\
  (date_ok p -> exists y, decimal (val p 24 2) y /\
     gives_text X "dateTimeString" (y ++ pys "/" ++ two (val p 26 2) ++ pys "/" ++ two (val p 28 2) ++ pys ", " ++
                                    two (val p 30 2) ++ pys ":" ++ two (val p 32 2) ++ pys ":" ++ two (val p 34 2))) /\
  (forall t off, In (t, off) [("preferredCMMType", 4); ("colourSpace", 16); ("profileConnectionSpace", 20); ("profileSignature", 36);
                              ("deviceManufacturer", 48); ("deviceModel", 52); ("profileCreator", 80)] ->
     text_bytes (sub p off 4) -> gives_text X t (map bz (sub p off 4))) /\
  (forall t off sig s, In (t, off) [("profileClass", 12); ("primaryPlatform", 40)] -> In (t, sig, s) signatures -> sig <> "SGI " ->
     sub p off 4 = list_byte_of_string sig -> gives_text X t (pys s)) /\
  (forall s, named "renderingIntent" (val p 64 4) s -> gives_text X "renderingIntent" (pys s)) /\
  (forall t off, In (t, off) [("connectionSpaceIlluminantX", 68); ("connectionSpaceIlluminantY", 72); ("connectionSpaceIlluminantZ", 76)] ->
     (0 <= s15Fixed16 p off)%Q -> exists s, gives_text X t s /\ rounded4 s (s15Fixed16 p off)) /\
  gives_text X "profileID" (hexs (sub p 84 16)) /\
  (val p 128 4 <= 4096 -> (forall i, 0 <= i < val p 128 4 -> text_bytes (sub p (132 + 12 * i) 4)) ->
     map etext (findall ["tag"] X) = map (fun i => VStr (map bz (sub p (132 + 12 * i) 4))) (zseq (val p 128 4))) /\
  (val p 128 4 <= 4096 -> forall d, v2_description p d -> text_bytes d -> gives_text X "description" (map bz d)).

(** * Bytes in which a valid file has no choice

    For files written box by box: positions inside the contents of a box. *)

From Coq Require Import ZArith List Bool String.
From Coq Require Import Init.Byte.
From Verif Require Import Py Spec SpecBox SpecMarker SpecWalk SpecSuper SpecCS SpecFile.
Import ListNotations.
Open Scope list_scope.
Open Scope Z_scope.

(** The byte at [i] of the contents [x] of a box of type [t]: the signature; brand and
    minor version; the markers at the beginning and at the end of a codestream. *)
Definition guarded (t x : bytes) (i : Z) : Prop :=
  (t = t_sig /\ 0 <= i < 4) \/ (t = t_ftyp /\ 0 <= i < 8) \/
  (t = t_jp2c /\ (0 <= i < 4 \/ len x - 2 <= i < len x)).
(** The byte at [i] of the contents of the Image Header box: height, width, number of
    components and compression type; the bit depth if there is no Bits Per Component
    box.  [types] are the boxes of the JP2 Header box. *)
Definition guarded_ihdr (types : list bytes) (i : Z) : Prop :=
  0 <= i < 10 \/ i = 11 \/ (i = 10 /\ ~ In t_bpcc types).

(** The bytes at [i] are different. *)
Definition differ (x x' : bytes) (i : Z) : Prop := sub x i 1 <> sub x' i 1.

(** A file in which one box has contents [x]. *)
Definition file_with (bs1 : list (form * bytes * bytes)) (f : form) (t : bytes) (bs2 : list (form * bytes * bytes)) (x : bytes) :=
  bs1 ++ (f, t, x) :: bs2.
Definition bytes_of (bs : list (form * bytes * bytes)) : bytes := List.concat (map box_bytes bs).

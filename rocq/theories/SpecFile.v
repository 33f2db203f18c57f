(** * Specifications: whole JP2 files *)

From Coq Require Import ZArith List Bool String.
From Coq Require Import Init.Byte.
From Verif Require Import Py PyFloat ETree BV Spec SpecBox SpecMarker SpecWalk SpecSuper SpecCS.
Import ListNotations.
Open Scope string_scope.
Open Scope list_scope.
Open Scope Z_scope.

(** [headers bs hs]: for each JP2 Header box among [bs], the boxes inside. *)
Definition headers (bs : list (bytes * bytes)) (hs : list (list (bytes * bytes))) : Prop :=
  Forall2 splits (boxes_of t_jp2h bs) hs.
(** The first Image Header box and the first Bits Per Component box. *)
Definition file_ihdr (hs : list (list (bytes * bytes))) : option bytes :=
  hd_error (flat_map (boxes_of t_ihdr) hs).
Definition file_bpcc (hs : list (list (bytes * bytes))) : option bytes :=
  hd_error (flat_map (boxes_of t_bpcc) hs).
(** Contents of the SIZ segment of the first codestream that has one. *)
Definition file_siz (bs : list (bytes * bytes)) : option bytes :=
  hd_error (flat_map (fun c => if bytes_eqb (sub (cs_second c) 0 2) m_SIZ then [cs_siz c] else [])
                     (boxes_of t_jp2c bs)).

(** Sign or depth ([f]) of each component according to the header boxes. *)
Definition hdr_bpc (f : Z -> Z) (x : bytes) (b : option bytes) : list Z :=
  if val x 10 1 =? 255 then match b with Some y => map (fun z => f (bz z)) y | None => [] end
  else repeat (f (val x 10 1)) (Z.to_nat (val x 8 2)).
(** ... and according to SIZ. *)
Definition siz_bpc (f : Z -> Z) (y : bytes) : list Z :=
  map (fun i => f (val y (38 + 3 * i) 1)) (zseq (val y 36 2)).

Definition agree_tests (x : bytes) (b : option bytes) (y : bytes) : list (string * Prop) :=
  [ ("heightConsistentWithSIZ", val x 0 4 = val y 8 4 - val y 16 4);
    ("widthConsistentWithSIZ", val x 4 4 = val y 4 4 - val y 12 4);
    ("nCConsistentWithSIZ", val x 8 2 = val y 36 2);
    ("bPCSignConsistentWithSIZ", hdr_bpc csign x b = siz_bpc csign y);
    ("bPCDepthConsistentWithSIZ", hdr_bpc cdepth x b = siz_bpc cdepth y) ].

(** The JP2 Header box comes before the first codestream, and not first or second. *)
Definition header_placed (types : list bytes) : Prop :=
  exists a b, types = a ++ t_jp2h :: b /\ ~ In t_jp2h a /\ ~ In t_jp2c a /\ In t_jp2c b /\ 2 <= len a.

Definition jp2_tests (bs : list (bytes * bytes)) (hs : list (list (bytes * bytes))) : list (string * Prop) :=
  let types := map fst bs in
  [ ("containsSignatureBox", In t_sig types); ("containsFileTypeBox", In t_ftyp types);
    ("containsJP2HeaderBox", In t_jp2h types); ("containsContiguousCodestreamBox", In t_jp2c types) ] ++
  (match file_ihdr hs with
   | Some x => if val x 13 1 =? 1 then [ ("containsIntellectualPropertyBox", In t_jp2i types) ] else []
   | None => []
   end) ++
  [ ("firstBoxIsSignatureBox", nth_error types 0 = Some t_sig);
    ("secondBoxIsFileTypeBox", nth_error types 1 = Some t_ftyp);
    ("locationJP2HeaderBoxIsValid", header_placed types);
    ("noMoreThanOneSignatureBox", at_most_one t_sig types);
    ("noMoreThanOneFileTypeBox", at_most_one t_ftyp types);
    ("noMoreThanOneJP2HeaderBox", at_most_one t_jp2h types) ] ++
  match file_ihdr hs, file_siz bs with
  | Some x, Some y => agree_tests x (file_bpcc hs) y
  | _, _ => []
  end.

(** The compression ratio is the only property of its own. *)
Definition jp2_props (fmt : string) (c : bytes) (bs : list (bytes * bytes))
           (hs : list (list (bytes * bytes))) : list elt :=
  match file_ihdr hs, file_siz bs with
  | Some x, Some y =>
      if fmt_is fmt "jp2" || fmt_is fmt "jph"
      then [ leaf "compressionRatio"
               (ratio (len c) (hdr_bpc cdepth x (file_bpcc hs)) (val x 0 4) (val x 4 4)) ]
      else []
  | _, _ => []
  end.

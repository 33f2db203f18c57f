(** * Specifications: superboxes *)

From Coq Require Import ZArith List Bool String.
From Coq Require Import Init.Byte.
From Verif Require Import Py ETree BV Spec SpecBox SpecWalk.
Import ListNotations.
Open Scope string_scope.
Open Scope list_scope.
Open Scope Z_scope.

(** No value occurs twice at different places. *)
Definition at_most_one {A} (x : A) (l : list A) : Prop :=
  forall a b c, l <> a ++ x :: b ++ x :: c.
Definition exactly_one {A} (x : A) (l : list A) : Prop := In x l /\ at_most_one x l.

(** Contents of the boxes of a given type. *)
Definition boxes_of (t : bytes) (bs : list (bytes * bytes)) : list bytes :=
  map snd (filter (fun b => bytes_eqb (fst b) t) bs).
Definition first_of (t : bytes) (bs : list (bytes * bytes)) : option bytes :=
  hd_error (boxes_of t bs).

Definition t_ihdr : bytes := [x69; x68; x64; x72].
Definition t_bpcc : bytes := [x62; x70; x63; x63].
Definition t_colr : bytes := [x63; x6f; x6c; x72].
Definition t_pclr : bytes := [x70; x63; x6c; x72].
Definition t_cmap : bytes := [x63; x6d; x61; x70].
Definition t_cdef : bytes := [x63; x64; x65; x66].
Definition t_res  : bytes := [x72; x65; x73; x20].
Definition t_resc : bytes := [x72; x65; x73; x63].
Definition t_resd : bytes := [x72; x65; x73; x64].
Definition t_uinf : bytes := [x75; x69; x6e; x66].
Definition t_ulst : bytes := [x75; x6c; x73; x74].
Definition t_url  : bytes := [x75; x72; x6c; x20].
Definition t_sig  : bytes := [x6a; x50; x20; x20].
Definition t_ftyp : bytes := [x66; x74; x79; x70].
Definition t_jp2h : bytes := [x6a; x70; x32; x68].
Definition t_jp2i : bytes := [x6a; x70; x32; x69].
Definition t_jp2c : bytes := [x6a; x70; x32; x63].

(** ** JP2 Header box (15444-1 I.5.3) with boxes [bs] inside *)
Definition jp2h_tests (fmt : string) (bs : list (bytes * bytes)) : list (string * Prop) :=
  let types := map fst bs in
  let ihdr := first_of t_ihdr bs in
  [ ("containsImageHeaderBox", In t_ihdr types) ] ++
  (if fmt_is fmt "jp2" then [ ("containsColourSpecificationBox", In t_colr types) ]
   else if fmt_is fmt "jph" then
     (match ihdr with
      | Some x => if val x 12 1 =? 0 then [ ("containsColourSpecificationBox", In t_colr types) ] else []
      | None => []
      end) ++
     (if existsb (bytes_eqb t_colr) types then []
      else [ ("noZeroCTypesIfNoColourBox",
              forall x i, In x (boxes_of t_cdef bs) -> 0 <= i < val x 0 2 -> val x (4 + 6 * i) 2 <> 0) ])
   else []) ++
  (match ihdr with
   | Some x => if val x 10 1 =? 255 then [ ("containsBitsPerComponentBox", In t_bpcc types) ] else []
   | None => []
   end) ++
  [ ("firstJP2HeaderBoxIsImageHeaderBox", hd_error types = Some t_ihdr);
    ("noMoreThanOneImageHeaderBox", at_most_one t_ihdr types);
    ("noMoreThanOneBitsPerComponentBox", at_most_one t_bpcc types);
    ("noMoreThanOnePaletteBox", at_most_one t_pclr types);
    ("noMoreThanOneComponentMappingBox", at_most_one t_cmap types);
    ("noMoreThanOneChannelDefinitionBox", at_most_one t_cdef types);
    ("noMoreThanOneResolutionBox", at_most_one t_res types);
    ("colourSpecificationBoxesAreContiguous", one_block t_colr types);
    ("paletteAndComponentMappingBoxesOnlyTogether", In t_pclr types <-> In t_cmap types) ].

(** ** Resolution box (I.5.3.7) *)
Definition res_super_tests (types : list bytes) : list (string * Prop) :=
  [ ("containsCaptureOrDisplayResolutionBox", In t_resc types \/ In t_resd types);
    ("noMoreThanOneCaptureResolutionBox", at_most_one t_resc types);
    ("noMoreThanOneDisplayResolutionBox", at_most_one t_resd types) ].

(** ** UUID Info box (I.7.3) *)
Definition uinf_tests (types : list bytes) : list (string * Prop) :=
  [ ("containsOneListBox", exactly_one t_ulst types);
    ("containsOneURLBox", exactly_one t_url types) ].

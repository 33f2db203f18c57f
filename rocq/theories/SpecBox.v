(** * Specifications: reports and box contents

    What a user may expect to read in the [tests] and [properties] elements for
    a given box content, written directly in terms of the bytes.  Nothing here
    refers to the validators; only the representation types ([bytes], [elt],
    [value], the result record [bv]) and Spec.v are used. *)

From Coq Require Import ZArith List Bool String.
From Coq Require Import Init.Byte.
From Coq Require SpecFloat.
From Verif Require Import Py PyFloat ETree BV Spec.
Import ListNotations.
Open Scope string_scope.
Open Scope list_scope.
Open Scope Z_scope.

(** ** Reading a report *)

(** [e] is [t] itself or an element somewhere below it. *)
Inductive within (e : elt) : elt -> Prop :=
| within_self : within e e
| within_kid tag a v k x : In x k -> within e x -> within e (Elt tag a v k).

(** No test in the tree failed. *)
Definition all_pass (t : elt) : Prop := forall e, within e t -> etext e <> VBool false.

(** [reports v L k]: the children [k] of a tests element show the outcome of the
    tests [L] (name, condition) in order: failed tests always, passed tests only
    in verbose mode. *)
Inductive reports (verbose : bool) : list (string * Prop) -> list elt -> Prop :=
| rep_nil : reports verbose [] []
| rep_pass n (P : Prop) L k : P -> reports verbose L k ->
    reports verbose ((n, P) :: L) (if verbose then leaf n (VBool true) :: k else k)
| rep_fail n (P : Prop) L k : ~ P -> reports verbose L k ->
    reports verbose ((n, P) :: L) (leaf n (VBool false) :: k).

(** Every condition of a list of tests holds. *)
Definition holds (L : list (string * Prop)) : Prop := Forall snd L.

(** Leaf elements for a list of named values. *)
Definition leaves (L : list (string * value)) : list elt := map (fun '(n, v) => leaf n v) L.

(** Result of the validation of a box with tag [tag]. *)
Definition says (verbose : bool) (tag : string) (L : list (string * Prop))
           (props warns : list elt) (r : bv) : Prop :=
  (exists k, r_tests r = node tag k /\ reports verbose L k) /\
  r_chars r = node tag props /\ r_warns r = node tag warns.

(** Bit [k] (0 = least significant) of a number. *)
Definition bitk (x k : Z) : Z := x / 2 ^ k mod 2.

(** Text of a box type. *)
Definition fmt_is (fmt s : string) : bool := String.eqb fmt s.

Definition ascii4 (a b c d : byte) : bytes := [a; b; c; d].

(** ** Signature box *)
Definition sig_tests (c : bytes) : list (string * Prop) :=
  [ ("boxLengthIsValid", len c = 4);
    ("signatureIsValid", sub c 0 4 = [x0d; x0a; x87; x0a]) ].

(** ** File Type box *)
(** The [i]-th entry of the compatibility list. *)
Definition ftyp_cl (c : bytes) (i : Z) : bytes := sub c (8 + 4 * i) 4.
(** Number of complete entries. *)
Definition ftyp_n (c : bytes) : Z := (len c - 8) / 4.

Definition ftyp_brand (fmt : string) : option bytes :=
  if fmt_is fmt "jp2" then Some [x6a; x70; x32; x20]
  else if fmt_is fmt "jph" then Some [x6a; x70; x68; x20] else None.

Definition ftyp_tests (fmt : string) (c : bytes) : list (string * Prop) :=
  [ ("boxLengthIsValid", len c mod 4 = 0) ] ++
  (match ftyp_brand fmt with
   | Some b => [ ("brandIsValid", sub c 0 4 = b) ] | None => [] end) ++
  [ ("minorVersionIsValid", val c 4 4 = 0) ] ++
  (match ftyp_brand fmt with
   | Some b => [ ("compatibilityListIsValid",
                  exists i, 0 <= i < ftyp_n c /\ ftyp_cl c i = b) ]
   | None => [] end).

Definition ftyp_props (c : bytes) : list (string * value) :=
  [ ("br", VBytes (sub c 0 4)); ("minV", VInt (val c 4 4)) ] ++
  map (fun i => ("cL", VBytes (ftyp_cl c i))) (zseq (ftyp_n c)).

(** ** Image Header box *)
(** Sign and bit depth coded in one byte. *)
Definition csign (b : Z) : Z := bitk b 7.
Definition cdepth (b : Z) : Z := b mod 128 + 1.

Definition ihdr_tests (c : bytes) : list (string * Prop) :=
  [ ("boxLengthIsValid", len c = 14);
    ("heightIsValid", 1 <= val c 0 4 <= 4294967295);
    ("widthIsValid", 1 <= val c 4 4 <= 4294967295);
    ("nCIsValid", 1 <= val c 8 2 <= 16384);
    ("bPCIsValid", val c 10 1 <> -9999);      (* what the code does; see C24 *)
    ("cIsValid", val c 11 1 = 7);
    ("unkCIsValid", val c 12 1 = 0 \/ val c 12 1 = 1);
    ("iPRIsValid", val c 13 1 = 0 \/ val c 13 1 = 1) ].

Definition ihdr_props (c : bytes) : list (string * value) :=
  [ ("height", VInt (val c 0 4)); ("width", VInt (val c 4 4)); ("nC", VInt (val c 8 2));
    ("bPCSign", VInt (csign (val c 10 1))); ("bPCDepth", VInt (cdepth (val c 10 1)));
    ("c", VInt (val c 11 1)); ("unkC", VInt (val c 12 1)); ("iPR", VInt (val c 13 1)) ].

(** The condition on bPC in ISO/IEC 15444-1 (and in the user manual). *)
Definition ihdr_bpc_documented (c : bytes) : Prop :=
  1 <= cdepth (val c 10 1) <= 38 \/ val c 10 1 = 255.

(** ** Bits Per Component box *)
Definition bpcc_tests (c : bytes) : list (string * Prop) :=
  map (fun b => ("bPCIsValid", cdepth (bz b) <= 38)) c.
Definition bpcc_props (c : bytes) : list (string * value) :=
  flat_map (fun b => [("bPCSign", VInt (csign (bz b))); ("bPCDepth", VInt (cdepth (bz b)))]) c.

(** ** Colour Specification box *)
Definition colr_common (fmt : string) (c : bytes) : list (string * Prop) :=
  (if fmt_is fmt "jp2" then [ ("methIsValid", In (val c 0 1) [1; 2]) ]
   else if fmt_is fmt "jph" then [ ("methIsValid", In (val c 0 1) [1; 2; 3; 5]) ]
   else []) ++
  [ ("precIsValid", val c 1 1 = 0); ("approxIsValid", val c 2 1 = 0) ].

(** The enumerated colour space is the whole remainder of the box. *)
Definition colr_enum (c : bytes) : Z := if len c =? 7 then val c 3 4 else -9999.

Definition colr_enum_tests (fmt : string) (c : bytes) : list (string * Prop) :=
  colr_common fmt c ++ [ ("enumCSIsValid", In (colr_enum c) [16; 17; 18]) ].

Definition colr_props (c : bytes) : list (string * value) :=
  [ ("meth", VInt (val c 0 1)); ("prec", VInt (val c 1 1)); ("approx", VInt (val c 2 1)) ].

Definition colr_profile (c : bytes) : bytes := sub c 3 (len c - 3).

(** Number of tag-table entries read (at most 4096) and their signatures. *)
Definition icc_ntags (p : bytes) : Z := Z.min (val p 128 4) 4096.
Definition icc_tag (p : bytes) (i : Z) : bytes := sub p (132 + 12 * i) 4.

Definition colr_icc_tests (fmt : string) (c : bytes) : list (string * Prop) :=
  let p := colr_profile c in
  colr_common fmt c ++
  [ ("iccSizeIsValid", val p 0 4 = len p);
    ("iccPermittedProfileClass",
       sub p 12 4 = [x73; x63; x6e; x72] \/ sub p 12 4 = [x6d; x6e; x74; x72]);
    ("iccNoLUTBasedProfile",
       forall i, 0 <= i < icc_ntags p -> icc_tag p i <> [x41; x32; x42; x30]) ].

Definition colr_param_tests (fmt : string) (c : bytes) : list (string * Prop) :=
  colr_common fmt c ++
  (if fmt_is fmt "jph" then
     [ ("colPrimsIsValid", In (val c 3 2) [1; 2; 4; 5; 6; 7; 8; 9; 10; 11; 12; 22]);
       ("transfCIsValid",
          In (val c 5 2) [1; 2; 4; 5; 6; 7; 8; 9; 10; 11; 12; 13; 14; 15; 16; 17; 18]);
       ("matCoeffsIsValid",
          In (val c 7 2) [0; 1; 2; 4; 5; 6; 7; 8; 9; 10; 11; 12; 13; 14]) ]
   else []).

Definition colr_param_props (c : bytes) : list (string * value) :=
  colr_props c ++
  [ ("colPrims", VInt (val c 3 2)); ("transfC", VInt (val c 5 2));
    ("matCoeffs", VInt (val c 7 2)); ("vidFRng", VInt (bitk (val c 9 1) 7)) ].

(** All tests of a colour specification box. *)
Definition colr_tests (fmt : string) (c : bytes) : list (string * Prop) :=
  let meth := val c 0 1 in
  if meth =? 1 then colr_enum_tests fmt c
  else if meth =? 2 then colr_icc_tests fmt c
  else if meth =? 5 then colr_param_tests fmt c
  else colr_common fmt c.

(** ** Palette box *)
Definition pclr_ncols (c : bytes) : Z := val c 2 1.
Definition pclr_tests (c : bytes) : list (string * Prop) :=
  [ ("nEIsValid", 1 <= val c 0 2 <= 1024); ("nPCIsValid", 1 <= val c 2 1 <= 255) ] ++
  map (fun i => ("bDepthIsValid", cdepth (val c (3 + i) 1) <= 38)) (zseq (pclr_ncols c)).

(** Bytes per entry of a column, position and value of entry [j] of column [i];
    an empty field is reported as -9999, a truncated one by its available bytes.
    The position assumes that all columns have the width of the current one and
    are stored one after the other, as the code does. *)
Definition pclr_width (c : bytes) (i : Z) : Z := (cdepth (val c (3 + i) 1) + 7) / 8.
Definition pclr_entry (c : bytes) (i j : Z) : Z :=
  let w := pclr_width c i in
  let b := sub c (pclr_ncols c + 3 + i * (val c 0 2 * w) + j * w) w in
  match b with [] => -9999 | _ => beval b end.

Definition pclr_props (c : bytes) : list (string * value) :=
  [ ("nE", VInt (val c 0 2)); ("nPC", VInt (val c 2 1)) ] ++
  flat_map (fun i =>
      [ ("bSign", VInt (csign (val c (3 + i) 1))); ("bDepth", VInt (cdepth (val c (3 + i) 1))) ] ++
      map (fun j => ("cP", VInt (pclr_entry c i j))) (zseq (val c 0 2)))
    (zseq (pclr_ncols c)).

(** ** Component Mapping box *)
Definition cmap_tests (c : bytes) : list (string * Prop) :=
  flat_map (fun i =>
      [ ("cMPIsValid", 0 <= val c (4 * i) 2 <= 16384);
        ("mTypIsValid", val c (4 * i + 2) 1 = 0 \/ val c (4 * i + 2) 1 = 1);
        ("pColIsValid", val c (4 * i + 2) 1 = 0 -> val c (4 * i + 3) 1 = 0) ])
    (zseq (len c / 4)).
Definition cmap_props (c : bytes) : list (string * value) :=
  flat_map (fun i =>
      [ ("cMP", VInt (val c (4 * i) 2)); ("mTyp", VInt (val c (4 * i + 2) 1));
        ("pCol", VInt (val c (4 * i + 3) 1)) ])
    (zseq (len c / 4)).

(** ** Channel Definition box *)
Definition cdef_alpha (c : bytes) : list Z :=
  flat_map (fun i => if (val c (4 + 6 * i) 2 =? 1) || (val c (4 + 6 * i) 2 =? 2)
                     then [val c (6 + 6 * i) 2] else []) (zseq (val c 0 2)).

Definition cdef_tests (fmt : string) (c : bytes) : list (string * Prop) :=
  [ ("nIsValid", 1 <= val c 0 2 <= 65535);
    ("boxLengthIsValid", len c - 2 = val c 0 2 * 6) ] ++
  flat_map (fun i =>
      [ ("cNIsValid", 0 <= val c (2 + 6 * i) 2 <= 65535) ] ++
      (if fmt_is fmt "jp2" then [ ("cTypIsValid", In (val c (4 + 6 * i) 2) [0; 1; 2; 65535]) ]
       else if fmt_is fmt "jph"
            then [ ("cTypIsValid", In (val c (4 + 6 * i) 2) [0; 1; 2; 3; 65535]) ]
            else []) ++
      (* what the code does; see C27 *)
      [ ("cAssocIsValid", 0 <= val c (4 + 6 * i) 2 <= 65535) ])
    (zseq (val c 0 2)) ++
  (if fmt_is fmt "jph" then
     ("noMoreThanOneAlphaChannel", len (cdef_alpha c) <= 1) ::
     map (fun a => ("cAssocAlphaChannelIsZero", a = 0)) (cdef_alpha c)
   else []).

Definition cdef_props (c : bytes) : list (string * value) :=
  ("n", VInt (val c 0 2)) ::
  flat_map (fun i => [ ("cN", VInt (val c (2 + 6 * i) 2)); ("cTyp", VInt (val c (4 + 6 * i) 2));
                       ("cAssoc", VInt (val c (6 + 6 * i) 2)) ]) (zseq (val c 0 2)).

(** ** Capture and display resolution boxes; [x] is "c" or "d" *)
(** Two's complement value of one byte. *)
Definition sval (c : bytes) (off : Z) : Z :=
  let v := val c off 1 in if 128 <=? v then v - 256 else v.

Definition res_tests (x : string) (c : bytes) : list (string * Prop) :=
  [ ("boxLengthIsValid", len c = 10);
    ("vR" ++ x ++ "NIsValid", 1 <= val c 0 2 <= 65535);
    ("vR" ++ x ++ "DIsValid", 1 <= val c 2 2 <= 65535);
    ("hR" ++ x ++ "NIsValid", 1 <= val c 4 2 <= 65535);
    ("hR" ++ x ++ "DIsValid", 1 <= val c 6 2 <= 65535);
    ("vR" ++ x ++ "EIsValid", -128 <= sval c 8 <= 127);
    ("hR" ++ x ++ "EIsValid", -128 <= sval c 9 <= 127) ]%string.

(** Pixels per metre as a Python float: numerator / denominator * 10 ** exponent;
    [p10 n] is Python's [10.0 ** n] for n < 0. *)
Definition res_metre (p10 : Z -> SpecFloat.spec_float) (num den ex : Z) : SpecFloat.spec_float :=
  float_mul (int_div num den) (if 0 <=? ex then float_of_Z (10 ^ ex) else p10 ex).
(** 25.4e-3 *)
Definition metres_per_inch : SpecFloat.spec_float := round_pos false 254 10000.

Definition res_props (p10 : Z -> SpecFloat.spec_float) (x : string) (c : bytes)
  : list (string * value) :=
  let v := res_metre p10 (val c 0 2) (val c 2 2) (sval c 8) in
  let h := res_metre p10 (val c 4 2) (val c 6 2) (sval c 9) in
  [ ("vR" ++ x ++ "N", VInt (val c 0 2)); ("vR" ++ x ++ "D", VInt (val c 2 2));
    ("hR" ++ x ++ "N", VInt (val c 4 2)); ("hR" ++ x ++ "D", VInt (val c 6 2));
    ("vR" ++ x ++ "E", VInt (sval c 8)); ("hR" ++ x ++ "E", VInt (sval c 9));
    ("vRes" ++ x ++ "InPixelsPerMeter", VFloat (round_nd 2 v));
    ("hRes" ++ x ++ "InPixelsPerMeter", VFloat (round_nd 2 h));
    ("vRes" ++ x ++ "InPixelsPerInch", VFloat (round_nd 2 (float_mul v metres_per_inch)));
    ("hRes" ++ x ++ "InPixelsPerInch", VFloat (round_nd 2 (float_mul h metres_per_inch))) ]%string.

(** ** UUID list and URL boxes *)
Definition ulst_tests (c : bytes) : list (string * Prop) :=
  [ ("boxLengthIsValid", len c = val c 0 2 * 16 + 2) ].

(** [r] is [b] without its trailing NUL bytes. *)
Definition stripped (b r : bytes) : Prop :=
  (exists n, b = r ++ repeat x00 n) /\ (forall r', r <> r' ++ [x00]).

(** [loc] of a URL box: everything after the first four bytes, without trailing NULs. *)
Definition url_loc (c : bytes) : bytes := sub c 4 (len c - 4).
Definition url_tests (c : bytes) : list (string * Prop) :=
  [ ("versionIsValid", val c 0 1 = 0);
    ("flagIsValid", sub c 1 3 = [x00; x00; x00]);
    ("locHasNullTerminator", exists r, url_loc c = r ++ [x00]);
    ("locIsUTF8", exists r s, stripped (url_loc c) r /\ utf8_of s r) ].

Definition url_props (c : bytes) (loc : bytes) : list (string * value) :=
  [ ("version", VInt (val c 0 1)); ("loc", VBytes loc) ].

(** Canonical text of a UUID: 8-4-4-4-12 lower-case hexadecimal digits. *)
(** Only those of the 16 bytes that are present are shown. *)
Definition hexdig (d : Z) : Z := if d <? 10 then 48 + d else 87 + d.
Definition hex2 (b : byte) : pystr := [hexdig (bz b / 16); hexdig (bz b mod 16)].
Definition hexs (b : bytes) : pystr := flat_map hex2 b.
Definition uuid_text (b : bytes) : pystr :=
  hexs (sub b 0 4) ++ pys "-" ++ hexs (sub b 4 2) ++ pys "-" ++ hexs (sub b 6 2) ++ pys "-" ++
  hexs (sub b 8 2) ++ pys "-" ++ hexs (sub b 10 6).

Definition ulst_props (c : bytes) : list (string * value) :=
  ("nU", VInt (val c 0 2)) ::
  map (fun i => ("uuid", VStr (uuid_text (sub c (2 + 16 * i) 16)))) (zseq (val c 0 2)).

(** Bytes of the UUID that announces XMP metadata. *)
Definition xmp_uuid : bytes :=
  [xbe; x7a; xcf; xcb; x97; xa9; x42; xe8; x9c; x71; x99; x94; x91; xe3; xaf; xac].

(** ** ICC profiles (header, ICC.1:2004-10 section 7.2) *)
Definition icc_fixed (p : bytes) (off : Z) : value :=
  VFloat (round_nd 4 (int_div (val p off 4) 65536)).

(** First tag-table entry with signature 'desc': the text of the description. *)
Fixpoint first_desc (p : bytes) (l : list Z) : value :=
  match l with
  | [] => VStr []
  | i :: r =>
      if bytes_eqb (icc_tag p i) [x64; x65; x73; x63] then
        let off := val p (132 + 12 * i + 4) 4 in
        let size := val p (132 + 12 * i + 8) 4 in
        let tag := slice p off (off + size) in
        VBytes (slice tag 12 (12 + val tag 8 4 - 1))
      else first_desc p r
  end.

Definition icc_props (p : bytes) : list (string * value) :=
  [ ("profileSize", VInt (val p 0 4));
    ("preferredCMMType", VBytes (sub p 4 4));
    ("profileVersion", VStr (str_of_Z (val p 8 1) ++ pys "." ++ str_of_Z (val p 9 1 / 16) ++
                             pys "." ++ str_of_Z (val p 9 1 mod 16)));
    ("profileClass", VBytes (sub p 12 4));
    ("colourSpace", VBytes (sub p 16 4));
    ("profileConnectionSpace", VBytes (sub p 20 4));
    ("dateTimeString",
       VStr (str_of_Z (val p 24 2) ++ pys "/" ++ fmt02d (val p 27 1) ++ pys "/" ++
             fmt02d (val p 29 1) ++ pys ", " ++ fmt02d (val p 31 1) ++ pys ":" ++
             fmt02d (val p 33 1) ++ pys ":" ++ fmt02d (val p 35 1)));
    ("profileSignature", VBytes (sub p 36 4));
    ("primaryPlatform", VBytes (sub p 40 4));
    ("embeddedProfile", VInt (bitk (val p 44 1) 7));
    ("profileCannotBeUsedIndependently", VInt (bitk (val p 44 1) 6));
    ("deviceManufacturer", VBytes (sub p 48 4));
    ("deviceModel", VBytes (sub p 52 4));
    ("transparency", VInt (bitk (val p 56 1) 7));
    ("glossiness", VInt (bitk (val p 56 1) 6));
    ("polarity", VInt (bitk (val p 56 1) 5));
    ("colour", VInt (bitk (val p 56 1) 4));
    ("renderingIntent", VInt (val p 66 2));
    ("connectionSpaceIlluminantX", icc_fixed p 68);
    ("connectionSpaceIlluminantY", icc_fixed p 72);
    ("connectionSpaceIlluminantZ", icc_fixed p 76);
    ("profileCreator", VBytes (sub p 80 4));
    ("profileID", VBytes (map byte_of_Z (hexs (sub p 84 16)))) ] ++
  map (fun i => ("tag", VBytes (icc_tag p i))) (zseq (icc_ntags p)) ++
  [ ("description", first_desc p (zseq (icc_ntags p))) ].

(** ** Embedded XML; [parse] is the XML parser (None = not well-formed) *)
Definition xml_tests (parse : bytes -> option elt) (c : bytes) : list (string * Prop) :=
  [ ("containsWellformedXML", exists e, parse c = Some e) ].

(** The element shown: the parsed document; if it does not parse and the nullxml
    option is set, the document parsed without trailing NULs. *)
Inductive xml_shown (parse : bytes -> option elt) (nullxml : bool) (c : bytes) : list elt -> Prop :=
| xml_ok e : parse c = Some e -> xml_shown parse nullxml c [e]
| xml_nul r e : parse c = None -> nullxml = true -> stripped c r -> parse r = Some e ->
                xml_shown parse nullxml c [e]
| xml_no r : parse c = None -> nullxml = false \/ (stripped c r /\ parse r = None) ->
             xml_shown parse nullxml c [].

(** Properties of a colour specification box. *)
Definition colr_all_props (c : bytes) : list elt :=
  let meth := val c 0 1 in
  if meth =? 1 then leaves (colr_props c ++ [("enumCS", VInt (colr_enum c))])
  else if (meth =? 2) || (meth =? 3)
  then leaves (colr_props c) ++ [node "icc" (leaves (icc_props (colr_profile c)))]
  else if meth =? 5 then leaves (colr_param_props c)
  else leaves (colr_props c).

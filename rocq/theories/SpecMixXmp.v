(** * What MIX output takes from comments and XMP metadata

    Specification used by C68; independent of the code that makes the output. *)

From Coq Require Import ZArith List Bool String.
From Verif Require Import Py ByteConv ETree Spec SpecMix.
Import ListNotations.
Open Scope string_scope.
Open Scope list_scope.
Open Scope Z_scope.

Definition newline : Z := 10.
(** Characters of a version number: digits and dots. *)
Definition version_char (c : Z) : Prop := 48 <= c <= 57 \/ c = 46.
Definition has_dash_v (s : pystr) : Prop := exists x y, s = x ++ pys "-v" ++ y.

(** The comment [s] names codec [a] with version [b]: [a] is the first line with
    "-v" in it up to its last "-v", [b] the digits and dots after that. *)
Definition names_codec (s a b : pystr) : Prop :=
  exists before rest after,
    s = before ++ (a ++ pys "-v" ++ b ++ rest) ++ after /\
    (before = [] \/ exists u, before = u ++ [newline]) /\
    (after = [] \/ exists u, after = newline :: u) /\
    ~ In newline (a ++ b ++ rest) /\
    ~ has_dash_v before /\ ~ has_dash_v (b ++ rest) /\
    Forall version_char b /\ (forall c u, rest = c :: u -> ~ version_char c).

(** The creator tool [s] is program [a] with version [b]: one line, perhaps ended by
    a newline, with digits and dots after its last space. *)
Definition names_tool (s a b : pystr) : Prop :=
  exists e, (e = [] \/ e = [newline]) /\ s = a ++ pys " " ++ b ++ e /\ ~ In newline a /\ Forall version_char b.

(** Attribute [k] of [x] is [s]. *)
Definition attribute (x : elt) (k : string) (s : pystr) : Prop :=
  exists l r, eattrib x = l ++ (k, s) :: r /\ ~ In k (map fst l).

(** The value of XMP property [k]: the text of the first element of that name in an
    rdf:Description; if there is none, that attribute of the first rdf:Description,
    unless it is empty. *)
Inductive xmp_value (rdf : elt) (k : string) : option pystr -> Prop :=
| xv_element x s : ETree.find [xmp_description; k] rdf = Some x -> etext x = VStr s -> xmp_value rdf k (Some s)
| xv_empty x : ETree.find [xmp_description; k] rdf = Some x -> etext x = VNone -> xmp_value rdf k None
| xv_attribute d s : ETree.find [xmp_description; k] rdf = None -> ETree.find [xmp_description] rdf = Some d ->
    attribute d k s -> s <> [] -> xmp_value rdf k (Some s)
| xv_none d : ETree.find [xmp_description; k] rdf = None -> ETree.find [xmp_description] rdf = Some d ->
    (forall s, attribute d k s -> s = []) -> xmp_value rdf k None.

(** Where MIX has the XMP properties. *)
Definition mixICM_ := "mix:ImageCaptureMetadata".
Definition capture_table : list (string * list string) :=
  [("{http://ns.adobe.com/xap/1.0/}CreateDate", [mixICM_; "mix:GeneralCaptureInformation"; "mix:dateTimeCreated"]);
   ("{http://ns.adobe.com/tiff/1.0/}Artist", [mixICM_; "mix:GeneralCaptureInformation"; "mix:imageProducer"]);
   ("{http://ns.adobe.com/tiff/1.0/}Make", [mixICM_; "mix:ScannerCapture"; "mix:scannerManufacturer"]);
   ("{http://ns.adobe.com/tiff/1.0/}Model", [mixICM_; "mix:ScannerCapture"; "mix:ScannerModel"; "mix:scannerModelName"]);
   ("{http://ns.adobe.com/exif/1.0/aux/}SerialNumber", [mixICM_; "mix:ScannerCapture"; "mix:ScannerModel"; "mix:scannerModelSerialNo"])].
Definition creator_tool := "{http://ns.adobe.com/xap/1.0/}CreatorTool".
Definition software_path := [mixICM_; "mix:ScannerCapture"; "mix:ScanningSystemSoftware"].
Definition codec_path := ["mix:BasicImageInformation"; "mix:SpecialFormatCharacteristics"; "mix:JPEG2000"; "mix:CodecCompliance"].

(** The parts of a MIX document, with and without capture metadata, and its
    attributes, for version 1.0 and 2.0. *)
Definition mix_sections (capture : bool) : list string :=
  ["mix:BasicDigitalObjectInformation"; "mix:BasicImageInformation"] ++
  (if capture then [mixICM_] else []) ++ ["mix:ImageAssessmentMetadata"].
Definition mix_attributes (mf : Z) : list (string * string) :=
  if mf =? 1 then
    [("xmlns:mix", "http://www.loc.gov/mix/v10"); ("xmlns:xsi", "http://www.w3.org/2001/XMLSchema-instance");
     ("xsi:schemaLocation", "http://www.loc.gov/mix/v10 http://www.loc.gov/standards/mix/mix10/mix10.xsd")]
  else
    [("xmlns:mix", "http://www.loc.gov/mix/v20"); ("xmlns:xsi", "http://www.w3.org/2001/XMLSchema-instance");
     ("xsi:schemaLocation", "http://www.loc.gov/mix/v20 http://www.loc.gov/standards/mix/mix.xsd")].

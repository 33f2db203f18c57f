(** * The published schema of reports

    xsd/jpylyzer-v-2-2.xsd, element by element, and what it means for a tree to be
    valid (XML Schema 1.0, the part this schema uses). *)

From Coq Require Import ZArith List Bool String.
From Verif Require Import Py ETree Spec SpecText.
Import ListNotations.
Open Scope string_scope.
Open Scope list_scope.
Open Scope Z_scope.

(** ** Simple types (XML Schema part 2) *)
Inductive simple := XString | XInteger | XDecimal | XDouble | XEnum (l : list string) | XUnion (a b : simple).
(** White space around numbers does not count. *)
Definition blank_text (s : pystr) : Prop := Forall (fun c => In c [9; 10; 13; 32]) s.
Definition collapsed (P : pystr -> Prop) (s : pystr) : Prop :=
  exists a m b, s = a ++ m ++ b /\ blank_text a /\ blank_text b /\ P m.
Definition signed (P : pystr -> Prop) (s : pystr) : Prop := P s \/ exists c r, s = c :: r /\ In c [43; 45] /\ P r.
Definition digits (s : pystr) : Prop := s <> [] /\ Forall digit s.
(** Digits with at most one point. *)
Definition fraction (s : pystr) : Prop :=
  digits s \/ exists a b, s = a ++ 46 :: b /\ Forall digit a /\ Forall digit b /\ a ++ b <> [].
Definition scientific (s : pystr) : Prop :=
  signed fraction s \/ exists a e b, s = a ++ e :: b /\ In e [69; 101] /\ signed fraction a /\ signed digits b.
Fixpoint typed (ty : simple) (s : pystr) : Prop :=
  match ty with
  | XString => True
  | XInteger => collapsed (signed digits) s
  | XDecimal => collapsed (signed fraction) s
  | XDouble => collapsed (fun s => scientific s \/ In s [pys "INF"; pys "-INF"; pys "NaN"]) s
  | XEnum l => exists x, In x l /\ s = pys x
  | XUnion a b => typed a s \/ typed b s
  end.
(** The text of an element: none is the empty one. *)
Definition text_is (P : pystr -> Prop) (v : value) : Prop :=
  match v with VNone => P [] | VStr s => P s | _ => False end.

(** ** Content models (XML Schema part 1) *)
Inductive particle :=
| Ref (name : string)                       (* xs:element ref *)
| Any                                       (* xs:any, contents not checked *)
| Seq (l : list particle)                   (* xs:sequence *)
| Choice (l : list particle)                (* xs:choice *)
| Occurs (min : nat) (max : option nat) (p : particle). (* minOccurs, maxOccurs *)
Definition Opt := Occurs 0 (Some 1%nat).
Definition Star := Occurs 0 None.
Definition Plus := Occurs 1 None.

(** [matches V p l]: the elements [l] are what [p] describes; [V]: those referred to
    by name are valid. *)
Inductive matches (V : elt -> Prop) : particle -> list elt -> Prop :=
| m_ref e : V e -> matches V (Ref (etag e)) [e]
| m_any e : matches V Any [e]
| m_nil : matches V (Seq []) []
| m_cons p ps a b : matches V p a -> matches V (Seq ps) b -> matches V (Seq (p :: ps)) (a ++ b)
| m_choice p ps l : In p ps -> matches V p l -> matches V (Choice ps) l
| m_occurs lo hi p ls : (lo <= List.length ls)%nat ->
    match hi with Some n => (List.length ls <= n)%nat | None => True end ->
    Forall (matches V p) ls -> matches V (Occurs lo hi p) (List.concat ls).

(** Declarations: text only, text with a required attribute, or elements only. *)
Inductive decl :=
| Simple (ty : simple)
| Attributed (ty : simple) (name : string) (aty : simple)
| Complex (p : particle).
Definition schema := list (string * decl).
Fixpoint declared (S : schema) (t : string) : option decl :=
  match S with
  | [] => None
  | (n, d) :: r => if String.eqb t n then Some d else declared r t
  end.

Inductive valid (S : schema) : elt -> Prop :=
| valid_simple t ty v : declared S t = Some (Simple ty) -> text_is (typed ty) v -> valid S (Elt t [] v [])
| valid_attributed t ty n aty v s : declared S t = Some (Attributed ty n aty) -> text_is (typed ty) v -> typed aty s ->
    valid S (Elt t [(n, s)] v [])
| valid_complex t p v k : declared S t = Some (Complex p) -> text_is blank_text v -> matches (valid S) p k ->
    valid S (Elt t [] v k).

(** ** xsd/jpylyzer-v-2-2.xsd

    All declarations in order.  xs:any with processContents "skip" is [Any], and so is
    the one with "lax" in propertiesExtension (the schema declares nothing of MIX). *)
Definition allBoxes : particle :=
  Star (Choice [Ref "intellectualPropertyBox"; Ref "xmlBox"; Ref "uuidBox"; Ref "uuidInfoBox";
       Ref "signatureBox"; Ref "fileTypeBox"; Ref "jp2HeaderBox"; Ref "imageHeaderBox";
       Ref "bitsPerComponentBox"; Ref "colourSpecificationBox"; Ref "paletteBox"; Ref "componentMappingBox";
       Ref "channelDefinitionBox"; Ref "resolutionBox"; Ref "contiguousCodestreamBox";
       Ref "captureResolutionBox"; Ref "displayResolutionBox"; Ref "uuidListBox"; Ref "urlBox";
       Ref "unknownBox"; Ref "siz"; Ref "cap"; Ref "prf"; Ref "cpf"; Ref "cod"; Ref "qcd"; Ref "com";
       Ref "coc"; Ref "rgn"; Ref "qcc"; Ref "poc"; Ref "tlm"; Ref "plm"; Ref "ppm"; Ref "crg";
       Ref "tileParts"; Ref "ppmCount"; Ref "plmCount"]).

Definition published : schema :=
  [ ("jpylyzer", Complex (Seq [Ref "toolInfo"; Plus (Ref "file")]));
    ("toolInfo", Complex (Seq [Ref "toolName"; Ref "toolVersion"]));
    ("toolName", Simple XString);
    ("toolVersion", Simple XString);
    ("file", Complex (Seq [Ref "fileInfo"; Ref "statusInfo"; Ref "isValid"; Ref "tests"; Ref "properties";
       Star (Ref "propertiesExtension"); Ref "warnings"]));
    ("fileInfo", Complex (Seq [Ref "fileName"; Ref "filePath"; Ref "fileSizeInBytes";
       Ref "fileLastModified"]));
    ("fileName", Simple XString);
    ("filePath", Simple XString);
    ("fileSizeInBytes", Simple XInteger);
    ("fileLastModified", Simple XString);
    ("statusInfo", Complex (Seq [Ref "success"; Opt (Ref "failureMessage")]));
    ("success", Simple (XEnum ["True"; "False"]));
    ("failureMessage", Simple XString);
    ("isValid", Attributed (XEnum ["True"; "False"]) "format" (XEnum ["jp2"; "jph"; "j2c"; "jhc"]));
    ("tests", Complex (Star (Seq [Any])));
    ("warnings", Complex (Star (Seq [Any])));
    ("properties", Complex (Seq [allBoxes; Choice [Opt (Ref "compressionRatio")]]));
    ("signatureBox", Complex (Occurs 0 (Some 0%nat) (Seq [Any])));
    ("fileTypeBox", Complex (Seq [Ref "br"; Ref "minV"; Plus (Ref "cL")]));
    ("br", Simple XString);
    ("minV", Simple XInteger);
    ("cL", Simple XString);
    ("jp2HeaderBox", Complex allBoxes);
    ("imageHeaderBox", Complex (Seq [Ref "height"; Ref "width"; Ref "nC"; Ref "bPCSign"; Ref "bPCDepth";
       Ref "c"; Ref "unkC"; Ref "iPR"]));
    ("height", Simple XInteger);
    ("width", Simple XInteger);
    ("nC", Simple XInteger);
    ("bPCSign", Simple XString);
    ("bPCDepth", Simple XInteger);
    ("c", Simple XString);
    ("unkC", Simple XString);
    ("iPR", Simple XString);
    ("bitsPerComponentBox", Complex (Plus (Seq [Ref "bPCSign"; Ref "bPCDepth"])));
    ("colourSpecificationBox", Complex (Seq [Ref "meth"; Ref "prec"; Ref "approx"; Opt (Ref "enumCS"); Opt
       (Ref "icc"); Opt (Ref "colPrims"); Opt (Ref "transfC"); Opt (Ref "matCoeffs"); Opt (Ref "vidFRng")]));
    ("meth", Simple XString);
    ("prec", Simple XInteger);
    ("approx", Simple XInteger);
    ("enumCS", Simple XString);
    ("colPrims", Simple XInteger);
    ("transfC", Simple XInteger);
    ("matCoeffs", Simple XInteger);
    ("vidFRng", Simple XInteger);
    ("icc", Complex (Seq [Ref "profileSize"; Ref "preferredCMMType"; Ref "profileVersion"; Ref "profileClass";
       Ref "colourSpace"; Ref "profileConnectionSpace"; Ref "dateTimeString"; Ref "profileSignature";
       Ref "primaryPlatform"; Ref "embeddedProfile"; Ref "profileCannotBeUsedIndependently";
       Ref "deviceManufacturer"; Ref "deviceModel"; Ref "transparency"; Ref "glossiness"; Ref "polarity";
       Ref "colour"; Ref "renderingIntent"; Ref "connectionSpaceIlluminantX";
       Ref "connectionSpaceIlluminantY"; Ref "connectionSpaceIlluminantZ"; Ref "profileCreator";
       Ref "profileID"; Star (Ref "tag"); Ref "description"]));
    ("profileSize", Simple XInteger);
    ("preferredCMMType", Simple XString);
    ("profileVersion", Simple XString);
    ("profileClass", Simple XString);
    ("colourSpace", Simple XString);
    ("profileConnectionSpace", Simple XString);
    ("dateTimeString", Simple XString);
    ("profileSignature", Simple XString);
    ("primaryPlatform", Simple XString);
    ("embeddedProfile", Simple XString);
    ("profileCannotBeUsedIndependently", Simple XString);
    ("deviceManufacturer", Simple XString);
    ("deviceModel", Simple XString);
    ("transparency", Simple XString);
    ("glossiness", Simple XString);
    ("polarity", Simple XString);
    ("colour", Simple XString);
    ("renderingIntent", Simple XString);
    ("connectionSpaceIlluminantX", Simple XDecimal);
    ("connectionSpaceIlluminantY", Simple XDecimal);
    ("connectionSpaceIlluminantZ", Simple XDecimal);
    ("profileCreator", Simple XString);
    ("profileID", Simple XString);
    ("tag", Simple XString);
    ("description", Simple XString);
    ("paletteBox", Complex (Seq [Ref "nE"; Ref "nPC"; Plus (Seq [Ref "bSign"; Ref "bDepth"; Star
       (Ref "cP")])]));
    ("nE", Simple XInteger);
    ("nPC", Simple XInteger);
    ("bSign", Simple XString);
    ("bDepth", Simple XInteger);
    ("cP", Simple XInteger);
    ("componentMappingBox", Complex (Plus (Seq [Ref "cMP"; Ref "mTyp"; Ref "pCol"])));
    ("cMP", Simple XInteger);
    ("mTyp", Simple XString);
    ("pCol", Simple XInteger);
    ("channelDefinitionBox", Complex (Seq [Ref "n"; Plus (Seq [Ref "cN"; Ref "cTyp"; Ref "cAssoc"])]));
    ("n", Simple XInteger);
    ("cN", Simple XInteger);
    ("cTyp", Simple XString);
    ("cAssoc", Simple XString);
    ("resolutionBox", Complex allBoxes);
    ("captureResolutionBox", Complex (Seq [Ref "vRcN"; Ref "vRcD"; Ref "hRcN"; Ref "hRcD"; Ref "vRcE";
       Ref "hRcE"; Ref "vRescInPixelsPerMeter"; Ref "hRescInPixelsPerMeter"; Ref "vRescInPixelsPerInch";
       Ref "hRescInPixelsPerInch"]));
    ("vRcN", Simple XInteger);
    ("vRcD", Simple XInteger);
    ("hRcN", Simple XInteger);
    ("hRcD", Simple XInteger);
    ("vRcE", Simple XInteger);
    ("hRcE", Simple XInteger);
    ("vRescInPixelsPerMeter", Simple XDecimal);
    ("hRescInPixelsPerMeter", Simple XDecimal);
    ("vRescInPixelsPerInch", Simple XDecimal);
    ("hRescInPixelsPerInch", Simple XDecimal);
    ("displayResolutionBox", Complex (Seq [Ref "vRdN"; Ref "vRdD"; Ref "hRdN"; Ref "hRdD"; Ref "vRdE";
       Ref "hRdE"; Ref "vResdInPixelsPerMeter"; Ref "hResdInPixelsPerMeter"; Ref "vResdInPixelsPerInch";
       Ref "hResdInPixelsPerInch"]));
    ("vRdN", Simple XInteger);
    ("vRdD", Simple XInteger);
    ("hRdN", Simple XInteger);
    ("hRdD", Simple XInteger);
    ("vRdE", Simple XInteger);
    ("hRdE", Simple XInteger);
    ("vResdInPixelsPerMeter", Simple XDecimal);
    ("hResdInPixelsPerMeter", Simple XDecimal);
    ("vResdInPixelsPerInch", Simple XDecimal);
    ("hResdInPixelsPerInch", Simple XDecimal);
    ("intellectualPropertyBox", Complex (Star (Seq [Any])));
    ("xmlBox", Complex (Opt (Seq [Any])));
    ("uuidBox", Complex (Opt (Seq [Any])));
    ("uuidInfoBox", Complex allBoxes);
    ("uuidListBox", Complex (Seq [Ref "nU"; Plus (Ref "uuid")]));
    ("nU", Simple XInteger);
    ("uuid", Simple XString);
    ("urlBox", Complex (Seq [Ref "version"; Ref "loc"]));
    ("version", Simple XInteger);
    ("loc", Simple XString);
    ("unknownBox", Complex (Seq [Ref "boxType"]));
    ("boxType", Simple XString);
    ("contiguousCodestreamBox", Complex (Star (Choice [Ref "siz"; Ref "cap"; Ref "prf"; Ref "cpf";
       Ref "ppmCount"; Ref "plmCount"; Ref "cod"; Ref "qcd"; Ref "com"; Ref "coc"; Ref "rgn"; Ref "qcc";
       Ref "poc"; Ref "tlm"; Ref "plm"; Ref "ppm"; Ref "crg"; Ref "tileParts"])));
    ("ppmCount", Simple XInteger);
    ("plmCount", Simple XInteger);
    ("siz", Complex (Seq [Ref "lsiz"; Ref "rsiz"; Ref "capability"; Ref "xsiz"; Ref "ysiz"; Ref "xOsiz";
       Ref "yOsiz"; Ref "xTsiz"; Ref "yTsiz"; Ref "xTOsiz"; Ref "yTOsiz"; Ref "numberOfTiles"; Ref "csiz";
       Plus (Seq [Ref "ssizSign"; Ref "ssizDepth"; Ref "xRsiz"; Ref "yRsiz"])]));
    ("lsiz", Simple XInteger);
    ("rsiz", Simple XInteger);
    ("capability", Simple XString);
    ("xsiz", Simple XInteger);
    ("ysiz", Simple XInteger);
    ("xOsiz", Simple XInteger);
    ("yOsiz", Simple XInteger);
    ("xTsiz", Simple XInteger);
    ("yTsiz", Simple XInteger);
    ("xTOsiz", Simple XInteger);
    ("yTOsiz", Simple XInteger);
    ("numberOfTiles", Simple XInteger);
    ("csiz", Simple XInteger);
    ("ssizSign", Simple XString);
    ("ssizDepth", Simple XInteger);
    ("xRsiz", Simple XInteger);
    ("yRsiz", Simple XInteger);
    ("cap", Complex (Seq [Ref "lcap"; Star (Seq [Ref "pcapPart"]); Opt (Ref "htCodeBlocks"); Opt
       (Ref "htSets"); Opt (Ref "htRegion"); Opt (Ref "htHomogeneous"); Opt (Ref "htReversible"); Opt
       (Ref "htB")]));
    ("lcap", Simple XInteger);
    ("pcapPart", Simple XInteger);
    ("htCodeBlocks", Simple XString);
    ("htSets", Simple XString);
    ("htRegion", Simple XString);
    ("htHomogeneous", Simple XString);
    ("htReversible", Simple XString);
    ("htB", Simple XInteger);
    ("prf", Complex (Seq [Ref "lprf"; Ref "PRFnum"]));
    ("lprf", Simple XInteger);
    ("PRFnum", Simple XInteger);
    ("cpf", Complex (Seq [Ref "lcpf"; Ref "CPFnum"]));
    ("lcpf", Simple XInteger);
    ("CPFnum", Simple XInteger);
    ("cod", Complex (Seq [Ref "lcod"; Ref "precincts"; Ref "sop"; Ref "eph"; Ref "order"; Ref "layers";
       Ref "multipleComponentTransformation"; Ref "levels"; Ref "codeBlockWidth"; Ref "codeBlockHeight";
       Ref "codingBypass"; Opt (Ref "resetOnBoundaries"); Ref "termOnEachPass"; Ref "vertCausalContext"; Opt
       (Ref "predTermination"); Opt (Ref "segmentationSymbols"); Ref "transformation"; Star (Seq
       [Ref "precinctSizeX"; Ref "precinctSizeY"])]));
    ("lcod", Simple XInteger);
    ("precincts", Simple XString);
    ("sop", Simple XString);
    ("eph", Simple XString);
    ("order", Simple XString);
    ("layers", Simple XInteger);
    ("multipleComponentTransformation", Simple XString);
    ("levels", Simple XInteger);
    ("codeBlockWidth", Simple XInteger);
    ("codeBlockHeight", Simple XInteger);
    ("codingBypass", Simple XString);
    ("resetOnBoundaries", Simple XString);
    ("termOnEachPass", Simple XString);
    ("vertCausalContext", Simple XString);
    ("predTermination", Simple XString);
    ("segmentationSymbols", Simple XString);
    ("transformation", Simple XString);
    ("precinctSizeX", Simple XInteger);
    ("precinctSizeY", Simple XInteger);
    ("coc", Complex (Seq [Ref "lcoc"; Ref "ccoc"; Ref "precincts"; Ref "levels"; Ref "codeBlockWidth";
       Ref "codeBlockHeight"; Ref "codingBypass"; Opt (Ref "resetOnBoundaries"); Ref "termOnEachPass";
       Ref "vertCausalContext"; Opt (Ref "predTermination"); Opt (Ref "segmentationSymbols");
       Ref "transformation"; Star (Seq [Ref "precinctSizeX"; Ref "precinctSizeY"])]));
    ("lcoc", Simple XInteger);
    ("ccoc", Simple XInteger);
    ("rgn", Complex (Seq [Ref "lrgn"; Ref "crgn"; Ref "roiStyle"; Ref "roiShift"]));
    ("lrgn", Simple XInteger);
    ("crgn", Simple XInteger);
    ("roiStyle", Simple XString);
    ("roiShift", Simple XInteger);
    ("qcd", Complex (Seq [Ref "lqcd"; Ref "qStyle"; Ref "guardBits"; Choice [Plus (Seq [Ref "epsilon"]); Star
       (Seq [Ref "mu"; Ref "epsilon"])]]));
    ("lqcd", Simple XInteger);
    ("qStyle", Simple XString);
    ("guardBits", Simple XInteger);
    ("mu", Simple XInteger);
    ("epsilon", Simple XInteger);
    ("qcc", Complex (Seq [Ref "lqcc"; Ref "cqcc"; Ref "qStyle"; Ref "guardBits"; Choice [Plus (Seq
       [Ref "epsilon"]); Star (Seq [Ref "mu"; Ref "epsilon"])]]));
    ("lqcc", Simple XInteger);
    ("cqcc", Simple XInteger);
    ("poc", Complex (Seq [Ref "lpoc"; Plus (Seq [Ref "rspoc"; Ref "cspoc"; Ref "lyepoc"; Ref "repoc";
       Ref "cepoc"; Ref "order"])]));
    ("lpoc", Simple XInteger);
    ("rspoc", Simple XInteger);
    ("cspoc", Simple XInteger);
    ("lyepoc", Simple XInteger);
    ("repoc", Simple XInteger);
    ("cepoc", Simple XInteger);
    ("crg", Complex (Seq [Ref "lcrg"; Plus (Seq [Ref "xcrg"; Ref "ycrg"])]));
    ("lcrg", Simple XInteger);
    ("xcrg", Simple XInteger);
    ("ycrg", Simple XInteger);
    ("com", Complex (Seq [Ref "lcom"; Ref "rcom"; Opt (Ref "comment")]));
    ("lcom", Simple XInteger);
    ("rcom", Simple XString);
    ("comment", Simple XString);
    ("tileParts", Complex (Seq [Star (Ref "tilePart")]));
    ("tilePart", Complex (Star (Choice [Ref "sot"; Ref "cod"; Ref "qcd"; Ref "com"; Ref "coc"; Ref "rgn";
       Ref "qcc"; Ref "poc"; Ref "plt"; Ref "ppt"; Ref "crg"; Ref "pltCount"; Ref "pptCount"])));
    ("sot", Complex (Seq [Ref "lsot"; Ref "isot"; Ref "psot"; Ref "tpsot"; Ref "tnsot"]));
    ("lsot", Simple XInteger);
    ("isot", Simple XInteger);
    ("psot", Simple XInteger);
    ("tpsot", Simple XInteger);
    ("tnsot", Simple XInteger);
    ("plm", Complex (Seq [Ref "lplm"; Ref "zplm"; Ref "nplm"; Ref "iplm"]));
    ("lplm", Simple XInteger);
    ("zplm", Simple XInteger);
    ("nplm", Simple XInteger);
    ("iplm", Simple XString);
    ("plt", Complex (Seq [Ref "lplt"; Ref "zplt"; Ref "iplt"]));
    ("lplt", Simple XInteger);
    ("zplt", Simple XInteger);
    ("iplt", Simple XString);
    ("pltCount", Simple XInteger);
    ("pptCount", Simple XInteger);
    ("tlm", Complex (Star (Seq [Any])));
    ("ppm", Complex (Star (Seq [Any])));
    ("ppt", Complex (Star (Seq [Any])));
    ("compressionRatio", Simple XDouble);
    ("propertiesExtension", Complex (Seq [Star Any])) ].

(** ** What reports look like

    The published schema with the declarations below in place of its own.

    - Lists that a truncated or empty box leaves empty: the schema requires an item.
    - vidFRng is "yes" or "no", the schema says xs:integer.
    - A truncated COD or COC segment has the code-block size "0.0", not an xs:integer.
    - Resolutions from 10^16 pixels on are written with an exponent, which xs:decimal
      excludes.
    - Six bytes at the end of a superbox, of which the last two are FF58 or FF61, are
      reported as plt or ppt (a box type of two bytes). *)
Definition anyBoxes : particle := Star (Choice [allBoxes; Ref "plt"; Ref "ppt"]).
(** repr(float) *)
Definition XFloat : simple := XUnion XDouble (XEnum ["inf"; "-inf"; "nan"]).
Definition amended : schema :=
  [ ("properties", Complex (Seq [anyBoxes; Choice [Opt (Ref "compressionRatio")]]));
    ("jp2HeaderBox", Complex anyBoxes);
    ("resolutionBox", Complex anyBoxes);
    ("uuidInfoBox", Complex anyBoxes);
    ("fileTypeBox", Complex (Seq [Ref "br"; Ref "minV"; Star (Ref "cL")]));
    ("bitsPerComponentBox", Complex (Star (Seq [Ref "bPCSign"; Ref "bPCDepth"])));
    ("paletteBox", Complex (Seq [Ref "nE"; Ref "nPC";
       Star (Seq [Ref "bSign"; Ref "bDepth"; Star (Ref "cP")])]));
    ("componentMappingBox", Complex (Star (Seq [Ref "cMP"; Ref "mTyp"; Ref "pCol"])));
    ("channelDefinitionBox", Complex (Seq [Ref "n"; Star (Seq [Ref "cN"; Ref "cTyp"; Ref "cAssoc"])]));
    ("uuidListBox", Complex (Seq [Ref "nU"; Star (Ref "uuid")]));
    ("siz", Complex (Seq [Ref "lsiz"; Ref "rsiz"; Ref "capability"; Ref "xsiz"; Ref "ysiz"; Ref "xOsiz"; Ref "yOsiz";
       Ref "xTsiz"; Ref "yTsiz"; Ref "xTOsiz"; Ref "yTOsiz"; Ref "numberOfTiles"; Ref "csiz";
       Star (Seq [Ref "ssizSign"; Ref "ssizDepth"; Ref "xRsiz"; Ref "yRsiz"])]));
    ("poc", Complex (Seq [Ref "lpoc"; Star (Seq [Ref "rspoc"; Ref "cspoc"; Ref "lyepoc"; Ref "repoc"; Ref "cepoc";
       Ref "order"])]));
    ("crg", Complex (Seq [Ref "lcrg"; Star (Seq [Ref "xcrg"; Ref "ycrg"])]));
    ("vidFRng", Simple (XEnum ["no"; "yes"]));
    ("codeBlockWidth", Simple (XUnion XInteger (XEnum ["0.0"])));
    ("codeBlockHeight", Simple (XUnion XInteger (XEnum ["0.0"])));
    ("vRescInPixelsPerMeter", Simple XFloat);
    ("hRescInPixelsPerMeter", Simple XFloat);
    ("vRescInPixelsPerInch", Simple XFloat);
    ("hRescInPixelsPerInch", Simple XFloat);
    ("vResdInPixelsPerMeter", Simple XFloat);
    ("hResdInPixelsPerMeter", Simple XFloat);
    ("vResdInPixelsPerInch", Simple XFloat);
    ("hResdInPixelsPerInch", Simple XFloat);
    ("compressionRatio", Simple XFloat) ].
Definition actual : schema := amended ++ published.

(** ** Reports that are valid as published *)

(** Elements with contents the schema does not check. *)
Definition opaque : list string :=
  ["tests"; "warnings"; "intellectualPropertyBox"; "xmlBox"; "uuidBox"; "tlm"; "ppm"; "ppt"; "propertiesExtension"; "signatureBox"].
(** [own e x]: [x] is [e] or an element below it that the schema checks. *)
Inductive own : elt -> elt -> Prop :=
| own_here e : own e e
| own_below e k x : ~ In (etag e) opaque -> In k (ekids e) -> own k x -> own e x.
Definition has (e : elt) (n : string) : Prop := exists k, In k (ekids e) /\ etag k = n.
Record regular (e : elt) : Prop := {
  reg_super : In (etag e) ["properties"; "jp2HeaderBox"; "resolutionBox"; "uuidInfoBox"] -> ~ has e "plt" /\ ~ has e "ppt";
  reg_list n : In (etag e, n) [("fileTypeBox", "cL"); ("bitsPerComponentBox", "bPCSign"); ("paletteBox", "bSign");
    ("componentMappingBox", "cMP"); ("channelDefinitionBox", "cN"); ("uuidListBox", "uuid"); ("siz", "ssizSign");
    ("poc", "rspoc"); ("crg", "xcrg")] -> has e n;
  reg_range : etag e <> "vidFRng";
  reg_block : In (etag e) ["codeBlockWidth"; "codeBlockHeight"] -> etext e <> VStr (pys "0.0");
  reg_resolution : In (etag e) ["vRescInPixelsPerMeter"; "hRescInPixelsPerMeter"; "vRescInPixelsPerInch"; "hRescInPixelsPerInch";
    "vResdInPixelsPerMeter"; "hResdInPixelsPerMeter"; "vResdInPixelsPerInch"; "hResdInPixelsPerInch"] -> text_is (typed XDecimal) (etext e);
  reg_ratio : etag e = "compressionRatio" -> text_is (typed XDouble) (etext e) }.

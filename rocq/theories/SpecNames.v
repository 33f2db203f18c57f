(** * Names of codes

    The meaning of coded values according to ISO/IEC 15444-1 and 15444-15, ICC.1 and
    jpylyzer's user manual, listed tag by tag; specification used by C66. *)

From Coq Require Import ZArith List Bool String.
From Verif Require Import Py.
Import ListNotations.
Open Scope string_scope.
Open Scope list_scope.
Open Scope Z_scope.

(** Flags. *)
Definition yes_no_tags : list string :=
  [ "unkC"; "iPR"; "vidFRng";                                              (* header boxes *)
    "embeddedProfile"; "profileCannotBeUsedIndependently";                 (* ICC *)
    "sop"; "eph"; "multipleComponentTransformation"; "codingBypass"; "resetOnBoundaries";
    "termOnEachPass"; "vertCausalContext"; "predTermination"; "segmentationSymbols" ]. (* COD, COC *)
Definition sign_tags : list string := [ "bPCSign"; "bSign"; "ssizSign" ].
(** Consecutive codes from 0 on. *)
Definition numbered : list (string * list string) :=
  [ ("transparency", ["Reflective"; "Transparent"]);
    ("glossiness", ["Glossy"; "Matte"]);
    ("polarity", ["Positive"; "Negative"]);
    ("colour", ["Colour"; "Black and white"]);
    ("renderingIntent", ["Perceptual"; "Media-Relative Colorimetric"; "Saturation"; "ICC-Absolute Colorimetric"]);
    ("mTyp", ["direct use"; "palette mapping"]);
    ("precincts", ["default"; "user defined"]);
    ("order", ["LRCP"; "RLCP"; "RPCL"; "PCRL"; "CPRL"]);
    ("transformation", ["9-7 irreversible"; "5-3 reversible"]);
    ("roiStyle", ["Implicit ROI (maximum shift)"]);
    ("qStyle", ["no quantization"; "scalar derived"; "scalar expounded"]);
    ("rcom", ["binary"; "ISO/IEC 8859-15 (Latin)"]);
    ("htSets", ["SINGLEHT"; "MULTIHT"]);
    ("htRegion", ["RGNFREE"; "RGN"]);
    ("htHomogeneous", ["HOMOGENEOUS"; "HETEROGENEOUS"]);
    ("htReversible", ["HTREV"; "HTIRV"]) ].
Definition others : list (string * Z * string) :=
  [ ("c", 7, "jpeg2000");
    ("meth", 1, "Enumerated"); ("meth", 2, "Restricted ICC"); ("meth", 3, "Any ICC"); ("meth", 4, "Vendor Colour");
    ("meth", 5, "Parameterized Colourspace");
    ("enumCS", 16, "sRGB"); ("enumCS", 17, "greyscale"); ("enumCS", 18, "sYCC");
    ("cTyp", 0, "colour"); ("cTyp", 1, "opacity"); ("cTyp", 2, "premultiplied opacity"); ("cTyp", 3, "application-defined");
    ("cTyp", 65535, "not specified");
    ("cAssoc", 0, "all colours"); ("cAssoc", 65535, "no colours");
    ("htCodeBlocks", 0, "HTONLY"); ("htCodeBlocks", 32768, "HTDECLARED"); ("htCodeBlocks", 49152, "MIXED") ].

(** [named t n s]: the code [n] of property [t] is called [s]. *)
Inductive named : string -> Z -> string -> Prop :=
| named_no t : In t yes_no_tags -> named t 0 "no"
| named_yes t : In t yes_no_tags -> named t 1 "yes"
| named_unsigned t : In t sign_tags -> named t 0 "unsigned"
| named_signed t : In t sign_tags -> named t 1 "signed"
| named_number t l n s : In (t, l) numbered -> nth_error l n = Some s -> named t (Z.of_nat n) s
| named_other t n s : In (t, n, s) others -> named t n s.

(** Four-character codes. *)
Definition signatures : list (string * string * string) :=
  [ ("profileClass", "scnr", "Input Device Profile"); ("profileClass", "mntr", "Display Device Profile");
    ("profileClass", "prtr", "Output Device Profile"); ("profileClass", "link", "DeviceLink Profile");
    ("profileClass", "spac", "ColorSpace Conversion Profile"); ("profileClass", "abst", "Abstract Profile");
    ("profileClass", "nmcl", "Named Colour Profile");
    ("primaryPlatform", "APPL", "Apple Computer, Inc."); ("primaryPlatform", "MSFT", "Microsoft Corporation");
    ("primaryPlatform", "SGI ", "Silicon Graphics, Inc."); ("primaryPlatform", "SUNW", "Sun Microsystems, Inc.") ].

(** * Model of jpylyzer.py:75-280 [generatePropertiesRemapTable] *)

From Coq Require Import ZArith List String.
From Coq Require Import Init.Byte.
From Verif Require Import Py ETree.
Import ListNotations.
Open Scope string_scope.
Open Scope list_scope.
Open Scope Z_scope.

(** jpylyzer.py:82-236: the sub-dictionaries. *)
Definition yesNoMap : list (value * pystr) :=
  [ (VInt 0, pys "no");
    (VInt 1, pys "yes") ].
Definition signMap : list (value * pystr) :=
  [ (VInt 0, pys "unsigned");
    (VInt 1, pys "signed") ].
Definition cMap : list (value * pystr) :=
  [ (VInt 7, pys "jpeg2000") ].
Definition methMap : list (value * pystr) :=
  [ (VInt 1, pys "Enumerated");
    (VInt 2, pys "Restricted ICC");
    (VInt 3, pys "Any ICC");
    (VInt 4, pys "Vendor Colour");
    (VInt 5, pys "Parameterized Colourspace") ].
Definition enumCSMap : list (value * pystr) :=
  [ (VInt 16, pys "sRGB");
    (VInt 17, pys "greyscale");
    (VInt 18, pys "sYCC") ].
Definition profileClassMap : list (value * pystr) :=
  [ (VBytes [x73; x63; x6e; x72], pys "Input Device Profile");
    (VBytes [x6d; x6e; x74; x72], pys "Display Device Profile");
    (VBytes [x70; x72; x74; x72], pys "Output Device Profile");
    (VBytes [x6c; x69; x6e; x6b], pys "DeviceLink Profile");
    (VBytes [x73; x70; x61; x63], pys "ColorSpace Conversion Profile");
    (VBytes [x61; x62; x73; x74], pys "Abstract Profile");
    (VBytes [x6e; x6d; x63; x6c], pys "Named Colour Profile") ].
Definition primaryPlatformMap : list (value * pystr) :=
  [ (VBytes [x41; x50; x50; x4c], pys "Apple Computer, Inc.");
    (VBytes [x4d; x53; x46; x54], pys "Microsoft Corporation");
    (VBytes [x53; x47; x49], pys "Silicon Graphics, Inc.");
    (VBytes [x53; x55; x4e; x57], pys "Sun Microsystems, Inc.") ].
Definition transparencyMap : list (value * pystr) :=
  [ (VInt 0, pys "Reflective");
    (VInt 1, pys "Transparent") ].
Definition glossinessMap : list (value * pystr) :=
  [ (VInt 0, pys "Glossy");
    (VInt 1, pys "Matte") ].
Definition polarityMap : list (value * pystr) :=
  [ (VInt 0, pys "Positive");
    (VInt 1, pys "Negative") ].
Definition colourMap : list (value * pystr) :=
  [ (VInt 0, pys "Colour");
    (VInt 1, pys "Black and white") ].
Definition renderingIntentMap : list (value * pystr) :=
  [ (VInt 0, pys "Perceptual");
    (VInt 1, pys "Media-Relative Colorimetric");
    (VInt 2, pys "Saturation");
    (VInt 3, pys "ICC-Absolute Colorimetric") ].
Definition mTypMap : list (value * pystr) :=
  [ (VInt 0, pys "direct use");
    (VInt 1, pys "palette mapping") ].
Definition cTypMap : list (value * pystr) :=
  [ (VInt 0, pys "colour");
    (VInt 1, pys "opacity");
    (VInt 2, pys "premultiplied opacity");
    (VInt 3, pys "application-defined");
    (VInt 65535, pys "not specified") ].
Definition cAssocMap : list (value * pystr) :=
  [ (VInt 0, pys "all colours");
    (VInt 65535, pys "no colours") ].
Definition precinctsMap : list (value * pystr) :=
  [ (VInt 0, pys "default");
    (VInt 1, pys "user defined") ].
Definition orderMap : list (value * pystr) :=
  [ (VInt 0, pys "LRCP");
    (VInt 1, pys "RLCP");
    (VInt 2, pys "RPCL");
    (VInt 3, pys "PCRL");
    (VInt 4, pys "CPRL") ].
Definition transformationMap : list (value * pystr) :=
  [ (VInt 0, pys "9-7 irreversible");
    (VInt 1, pys "5-3 reversible") ].
Definition roiStyleMap : list (value * pystr) :=
  [ (VInt 0, pys "Implicit ROI (maximum shift)") ].
Definition qStyleMap : list (value * pystr) :=
  [ (VInt 0, pys "no quantization");
    (VInt 1, pys "scalar derived");
    (VInt 2, pys "scalar expounded") ].
Definition registrationMap : list (value * pystr) :=
  [ (VInt 0, pys "binary");
    (VInt 1, pys "ISO/IEC 8859-15 (Latin)") ].
Definition htCodeBlocksMap : list (value * pystr) :=
  [ (VInt 0, pys "HTONLY");
    (VInt 32768, pys "HTDECLARED");
    (VInt 49152, pys "MIXED") ].
Definition htSetsMap : list (value * pystr) :=
  [ (VInt 0, pys "SINGLEHT");
    (VInt 1, pys "MULTIHT") ].
Definition htRegionMap : list (value * pystr) :=
  [ (VInt 0, pys "RGNFREE");
    (VInt 1, pys "RGN") ].
Definition htHomogeneousMap : list (value * pystr) :=
  [ (VInt 0, pys "HOMOGENEOUS");
    (VInt 1, pys "HETEROGENEOUS") ].
Definition htReversibleMap : list (value * pystr) :=
  [ (VInt 0, pys "HTREV");
    (VInt 1, pys "HTIRV") ].

(** jpylyzer.py:238-280: tag name -> sub-dictionary. *)
Definition propertiesRemapTable : remap_table :=
  [ ("unkC", yesNoMap);
    ("iPR", yesNoMap);
    ("profileClass", profileClassMap);
    ("primaryPlatform", primaryPlatformMap);
    ("embeddedProfile", yesNoMap);
    ("vidFRng", yesNoMap);
    ("profileCannotBeUsedIndependently", yesNoMap);
    ("transparency", transparencyMap);
    ("glossiness", glossinessMap);
    ("polarity", polarityMap);
    ("colour", colourMap);
    ("renderingIntent", renderingIntentMap);
    ("bSign", signMap);
    ("mTyp", mTypMap);
    ("precincts", precinctsMap);
    ("sop", yesNoMap);
    ("eph", yesNoMap);
    ("multipleComponentTransformation", yesNoMap);
    ("codingBypass", yesNoMap);
    ("resetOnBoundaries", yesNoMap);
    ("termOnEachPass", yesNoMap);
    ("vertCausalContext", yesNoMap);
    ("predTermination", yesNoMap);
    ("segmentationSymbols", yesNoMap);
    ("bPCSign", signMap);
    ("ssizSign", signMap);
    ("c", cMap);
    ("meth", methMap);
    ("enumCS", enumCSMap);
    ("cTyp", cTypMap);
    ("cAssoc", cAssocMap);
    ("order", orderMap);
    ("roiStyle", roiStyleMap);
    ("transformation", transformationMap);
    ("qStyle", qStyleMap);
    ("rcom", registrationMap);
    ("htCodeBlocks", htCodeBlocksMap);
    ("htSets", htSetsMap);
    ("htRegion", htRegionMap);
    ("htHomogeneous", htHomogeneousMap);
    ("htReversible", htReversibleMap) ].

(** * Model of boxvalidator.py: validators of boxes that contain no other box *)

From Coq Require Import ZArith List Bool String SpecFloat.
From Coq Require Import Init.Byte.
From Verif Require Import Py PyFloat ByteConv Shared ETree BV.
Import ListNotations.
Open Scope string_scope.
Open Scope list_scope.
Open Scope Z_scope.

(** [BoxValidator(self.options, t, c, startOffset, components).validate()]: the
    recursive call, supplied by the dispatcher in VSuper.v. *)
Definition recT := btype -> bytes -> value -> value -> res bv.

Section Validators.
Variable E : env.
Variable rec : recT.
Variable fuel : nat.
Variable f : self.

Let o := s_opts f.
Let c := s_contents f.
Let fmt := o_format o.
Let isfmt (s : string) : bool := String.eqb fmt s.
Let isHT : bool := isfmt "jph" || isfmt "jhc".
Let T (name : string) (b : bool) : M unit := testFor o name b.

(** boxvalidator.py:306-320 [validate_unknownBox].  stderr output omitted. *)
Definition validate_unknownBox : M unit :=
  let '(v, txt) :=
    match s_btype f with
    | BTb b => (VBytes b, bytesToText (catC E) b)
    | BTs s => (VStr (pys s), [])   (* str has no .decode: except branch *)
    end in
  addCharacteristic "boxType" v ;;
  addWarning (pys "ignoring unknown box '" ++ txt ++ pys "'").

(** boxvalidator.py:322-330 *)
Definition validate_signatureBox : M unit :=
  T "boxLengthIsValid" (len c =? 4) ;;
  T "signatureIsValid" (bytes_eqb (slice c 0 4) [x0d; x0a; x87; x0a]).

(** boxvalidator.py:332-382 *)
Definition validate_fileTypeBox : M unit :=
  let nf := int_div (len c - 8) 4 in
  T "boxLengthIsValid" (float_eq_Z nf (trunc_float nf)) ;;
  let br := slice c 0 4 in
  addCharacteristic "br" (VBytes br) ;;
  (if isfmt "jp2" then T "brandIsValid" (bytes_eqb br [x6a; x70; x32; x20])
   else when (isfmt "jph") (T "brandIsValid" (bytes_eqb br [x6a; x70; x68; x20]))) ;;
  let minV := bytesToUInt (slice c 4 8) in
  addInt "minV" minV ;;
  T "minorVersionIsValid" (minV =? 0) ;;
  r <- for_range (trunc_float nf) (@nil bytes, 8) (fun _ '(cLList, offset) =>
         let cL := slice c offset (offset + 4) in
         addCharacteristic "cL" (VBytes cL) ;;
         ret (cLList ++ [cL], offset + 4)) ;;
  let cLList := fst r in
  if isfmt "jp2" then T "compatibilityListIsValid" (bin [x6a; x70; x32; x20] cLList)
  else when (isfmt "jph") (T "compatibilityListIsValid" (bin [x6a; x70; x68; x20] cLList)).

(** boxvalidator.py:496-566 *)
Definition validate_imageHeaderBox : M unit :=
  T "boxLengthIsValid" (len c =? 14) ;;
  let height := bytesToUInt (slice c 0 4) in
  addInt "height" height ;;
  let width := bytesToUInt (slice c 4 8) in
  addInt "width" width ;;
  T "heightIsValid" (in_rng height 1 (2 ^ 32 - 1)) ;;
  T "widthIsValid" (in_rng width 1 (2 ^ 32 - 1)) ;;
  let nC := bytesToUShortInt (slice c 8 10) in
  addInt "nC" nC ;;
  T "nCIsValid" (in_rng nC 1 16384) ;;
  let bPC := bytesToUnsignedChar (slice c 10 11) in
  let bPCSign := getBitValue bPC 1 in
  addInt "bPCSign" bPCSign ;;
  let bPCDepth := Z.land bPC 127 + 1 in
  addInt "bPCDepth" bPCDepth ;;
  let bPCDepthIsWithinAllowedRange := in_rng bPCDepth 1 38 in
  let bitDepthIsVariable := in_rng bPC 1 255 in
  T "bPCIsValid" (bPCDepthIsWithinAllowedRange || bitDepthIsVariable) ;;
  let cc := bytesToUnsignedChar (slice c 11 12) in
  addInt "c" cc ;;
  T "cIsValid" (cc =? 7) ;;
  let unkC := bytesToUnsignedChar (slice c 12 13) in
  addInt "unkC" unkC ;;
  T "unkCIsValid" (in_rng unkC 0 1) ;;
  let iPR := bytesToUnsignedChar (slice c 13 14) in
  addInt "iPR" iPR ;;
  T "iPRIsValid" (in_rng iPR 0 1).

(** boxvalidator.py:568-595 *)
Definition validate_bitsPerComponentBox : M unit :=
  for_range (len c) tt (fun i _ =>
    let bPC := bytesToUnsignedChar (slice c i (i + 1)) in
    addInt "bPCSign" (getBitValue bPC 1) ;;
    let bPCDepth := Z.land bPC 127 + 1 in
    addInt "bPCDepth" bPCDepth ;;
    T "bPCIsValid" (in_rng bPCDepth 1 38)).

(** Run the ICC validator on a profile and attach its properties and warnings
    (boxvalidator.py:655-663 and 693-701); returns the properties element. *)
Definition attachICC (profile : bytes) : M elt :=
  r <- lift (rec (BTs "icc") profile VNone VNone) ;;
  add_char (r_chars r) ;;
  add_warn_ne (r_warns r) ;;
  ret (r_chars r).

(** boxvalidator.py:597-745 *)
Definition validate_colourSpecificationBox : M unit :=
  let length := len c in
  let meth := bytesToUnsignedChar (slice c 0 1) in
  addInt "meth" meth ;;
  (if isfmt "jp2" then T "methIsValid" (Zin meth [1; 2])
   else when (isfmt "jph") (T "methIsValid" (Zin meth [1; 2; 3; 5]))) ;;
  let prec := bytesToUnsignedChar (slice c 1 2) in
  addInt "prec" prec ;;
  T "precIsValid" (prec =? 0) ;;
  let approx := bytesToUnsignedChar (slice c 2 3) in
  addInt "approx" approx ;;
  T "approxIsValid" (approx =? 0) ;;
  if meth =? 1 then
    let enumCS := bytesToUInt (slice c 3 length) in
    addInt "enumCS" enumCS ;;
    T "enumCSIsValid" (Zin enumCS [16; 17; 18])
  else if meth =? 2 then
    let profile := slice c 3 length in
    icc <- attachICC profile ;;
    T "iccSizeIsValid" (py_eqb (findElementText ["profileSize"] icc) (VInt (len profile))) ;;
    T "iccPermittedProfileClass"
      (py_in (findElementText ["profileClass"] icc)
             [VBytes [x73; x63; x6e; x72]; VBytes [x6d; x6e; x74; x72]]) ;;
    T "iccNoLUTBasedProfile"
      (negb (py_in (VBytes [x41; x32; x42; x30]) (findAllText ["tag"] icc)))
  else if meth =? 3 then
    _ <- attachICC (slice c 3 length) ;; ret tt
  else if meth =? 5 then
    let colPrims := bytesToUShortInt (slice c 3 5) in
    addInt "colPrims" colPrims ;;
    when (isfmt "jph")
      (T "colPrimsIsValid" (Zin colPrims [1; 2; 4; 5; 6; 7; 8; 9; 10; 11; 12; 22])) ;;
    let transfC := bytesToUShortInt (slice c 5 7) in
    addInt "transfC" transfC ;;
    when (isfmt "jph")
      (T "transfCIsValid"
         (Zin transfC [1; 2; 4; 5; 6; 7; 8; 9; 10; 11; 12; 13; 14; 15; 16; 17; 18])) ;;
    let matCoeffs := bytesToUShortInt (slice c 7 9) in
    addInt "matCoeffs" matCoeffs ;;
    when (isfmt "jph")
      (T "matCoeffsIsValid" (Zin matCoeffs [0; 1; 2; 4; 5; 6; 7; 8; 9; 10; 11; 12; 13; 14])) ;;
    let vidFRngByte := bytesToUnsignedChar (slice c 9 10) in
    addInt "vidFRng" (getBitValue vidFRngByte 1)
  else ret tt.

(** boxvalidator.py:773-788: version string "major.minor.bugfix". *)
Definition iccVersion : pystr :=
  let major := bytesToUnsignedChar (slice c 8 9) in
  let minorByte := bytesToUnsignedChar (slice c 9 10) in
  str_of_Z major ++ [46] ++ str_of_Z (Z.shiftr minorByte 4) ++ [46]
    ++ str_of_Z (Z.land minorByte 15).

(** boxvalidator.py:805-815: "%d/%02d/%02d, %02d:%02d:%02d". *)
Definition iccDateTime : pystr :=
  let year := bytesToUShortInt (slice c 24 26) in
  let month := bytesToUnsignedChar (slice c 27 28) in
  let day := bytesToUnsignedChar (slice c 29 30) in
  let hour := bytesToUnsignedChar (slice c 31 32) in
  let minute := bytesToUnsignedChar (slice c 33 34) in
  let second := bytesToUnsignedChar (slice c 35 36) in
  str_of_Z year ++ [47] ++ fmt02d month ++ [47] ++ fmt02d day ++ [44; 32]
    ++ fmt02d hour ++ [58] ++ fmt02d minute ++ [58] ++ fmt02d second.

(** boxvalidator.py:863-876: round(bytesToUInt(...) / 65536, 4). *)
Definition iccFixed (b : bytes) : value := VFloat (round_nd 4 (int_div (bytesToUInt b) 65536)).

(** boxvalidator.py:918-947: description from the 'desc' tag; the only exception
    possible in the try block is ValueError of list.index. *)
Definition iccDescription (sigs : list bytes) (offsets sizes : list Z) : value :=
  match bindex [x64; x65; x73; x63] sigs with
  | None => VStr []
  | Some i =>
      let o1 := nth (Z.to_nat i) offsets 0 in
      let s1 := nth (Z.to_nat i) sizes 0 in
      let descTag := slice c o1 (o1 + s1) in
      let n := bytesToUInt (slice descTag 8 12) in
      VBytes (slice descTag 12 (12 + n - 1))
  end.

(** boxvalidator.py:747-947 *)
Definition validate_icc : M unit :=
  addInt "profileSize" (bytesToUInt (slice c 0 4)) ;;
  addCharacteristic "preferredCMMType" (VBytes (slice c 4 8)) ;;
  addCharacteristic "profileVersion" (VStr iccVersion) ;;
  addCharacteristic "profileClass" (VBytes (slice c 12 16)) ;;
  addCharacteristic "colourSpace" (VBytes (slice c 16 20)) ;;
  addCharacteristic "profileConnectionSpace" (VBytes (slice c 20 24)) ;;
  addCharacteristic "dateTimeString" (VStr iccDateTime) ;;
  addCharacteristic "profileSignature" (VBytes (slice c 36 40)) ;;
  addCharacteristic "primaryPlatform" (VBytes (slice c 40 44)) ;;
  let profileFlags := bytesToUnsignedChar (slice c 44 45) in
  addInt "embeddedProfile" (getBitValue profileFlags 1) ;;
  addInt "profileCannotBeUsedIndependently" (getBitValue profileFlags 2) ;;
  addCharacteristic "deviceManufacturer" (VBytes (slice c 48 52)) ;;
  addCharacteristic "deviceModel" (VBytes (slice c 52 56)) ;;
  let deviceAttributes := bytesToUnsignedChar (slice c 56 57) in
  addInt "transparency" (getBitValue deviceAttributes 1) ;;
  addInt "glossiness" (getBitValue deviceAttributes 2) ;;
  addInt "polarity" (getBitValue deviceAttributes 3) ;;
  addInt "colour" (getBitValue deviceAttributes 4) ;;
  addInt "renderingIntent" (bytesToUShortInt (slice c 66 68)) ;;
  addCharacteristic "connectionSpaceIlluminantX" (iccFixed (slice c 68 72)) ;;
  addCharacteristic "connectionSpaceIlluminantY" (iccFixed (slice c 72 76)) ;;
  addCharacteristic "connectionSpaceIlluminantZ" (iccFixed (slice c 76 80)) ;;
  addCharacteristic "profileCreator" (VBytes (slice c 80 84)) ;;
  addCharacteristic "profileID" (VBytes (bytesToHex (slice c 84 100))) ;;
  let tagCount := Z.min (bytesToUInt (slice c 128 132)) 4096 in
  r <- for_range tagCount (@nil bytes, @nil Z, @nil Z, 132)
         (fun _ '(sigs, offsets, sizes, tagStart) =>
            let sg := slice c tagStart (tagStart + 4) in
            let off := bytesToUInt (slice c (tagStart + 4) (tagStart + 8)) in
            let sz := bytesToUInt (slice c (tagStart + 8) (tagStart + 12)) in
            addCharacteristic "tag" (VBytes sg) ;;
            ret (sigs ++ [sg], offsets ++ [off], sizes ++ [sz], tagStart + 12)) ;;
  let '(sigs, offsets, sizes, _) := r in
  addCharacteristic "description" (iccDescription sigs offsets sizes).

(** boxvalidator.py:988-989: number of bytes of a palette entry,
    int(math.ceil(bDepth / 8) * 8 / 8). *)
Definition bytesPadded (bDepth : Z) : Z :=
  int_quot (ceil_float (int_div bDepth 8) * 8) 8.

(** boxvalidator.py:949-1007 *)
Definition validate_paletteBox : M unit :=
  let nE := bytesToUShortInt (slice c 0 2) in
  addInt "nE" nE ;;
  T "nEIsValid" (in_rng nE 1 1024) ;;
  let nPC := bytesToUnsignedChar (slice c 2 3) in
  addInt "nPC" nPC ;;
  T "nPCIsValid" (in_rng nPC 1 255) ;;
  for_range nPC tt (fun i _ =>
    let b := bytesToUnsignedChar (slice c (3 + i) (4 + i)) in
    addInt "bSign" (getBitValue b 1) ;;
    let bDepth := Z.land b 127 + 1 in
    addInt "bDepth" bDepth ;;
    T "bDepthIsValid" (in_rng bDepth 1 38) ;;
    let bp := bytesPadded bDepth in
    let offset := nPC + 3 + i * (nE * bp) in
    _ <- for_range nE offset (fun _ offset =>
           let cP := bytesToInteger (slice c offset (offset + bp)) in
           addInt "cP" cP ;;
           ret (offset + bp)) ;;
    ret tt).

(** boxvalidator.py:1009-1051 *)
Definition validate_componentMappingBox : M unit :=
  _ <- for_range (int_quot (len c) 4) 0 (fun _ offset =>
    let cMP := bytesToUShortInt (slice c offset (offset + 2)) in
    addInt "cMP" cMP ;;
    T "cMPIsValid" (in_rng cMP 0 16384) ;;
    let mTyp := bytesToUnsignedChar (slice c (offset + 2) (offset + 3)) in
    addInt "mTyp" mTyp ;;
    T "mTypIsValid" (in_rng mTyp 0 1) ;;
    let pCol := bytesToUnsignedChar (slice c (offset + 3) (offset + 4)) in
    addInt "pCol" pCol ;;
    T "pColIsValid" (if mTyp =? 0 then pCol =? 0 else true) ;;
    ret (offset + 4)) ;;
  ret tt.

(** Loop over the list of alpha channels' cAssoc values (boxvalidator.py:1114-1115). *)
Fixpoint alphaTests (l : list Z) : M unit :=
  match l with
  | [] => ret tt
  | cAssoc :: l' => T "cAssocAlphaChannelIsZero" (cAssoc =? 0) ;; alphaTests l'
  end.

(** boxvalidator.py:1053-1115.  alphaChannels keeps only the cAssoc component of
    each pair (the cTyp component is never read). *)
Definition validate_channelDefinitionBox : M unit :=
  let n := bytesToUShortInt (slice c 0 2) in
  addInt "n" n ;;
  T "nIsValid" (in_rng n 1 65535) ;;
  T "boxLengthIsValid" (len c - 2 =? n * 6) ;;
  r <- for_range n (@nil Z, 2) (fun _ '(alpha, offset) =>
    let cN := bytesToUShortInt (slice c offset (offset + 2)) in
    addInt "cN" cN ;;
    T "cNIsValid" (in_rng cN 0 65535) ;;
    let cTyp := bytesToUShortInt (slice c (offset + 2) (offset + 4)) in
    addInt "cTyp" cTyp ;;
    (if isfmt "jp2" then T "cTypIsValid" (Zin cTyp [0; 1; 2; 65535])
     else when (isfmt "jph") (T "cTypIsValid" (Zin cTyp [0; 1; 2; 3; 65535]))) ;;
    let cAssoc := bytesToUShortInt (slice c (offset + 4) (offset + 6)) in
    addInt "cAssoc" cAssoc ;;
    T "cAssocIsValid" (in_rng cTyp 0 65535) ;;
    ret (if Zin cTyp [1; 2] then alpha ++ [cAssoc] else alpha, offset + 6)) ;;
  let alpha := fst r in
  when (isfmt "jph")
    (T "noMoreThanOneAlphaChannel" (len alpha <=? 1) ;; alphaTests alpha).

(** (N / D) * 10 ** E as computed at boxvalidator.py:1216-1222 / 1275-1281:
    ZeroDivisionError if D = 0; 10 ** E is an int for E >= 0 and libm pow below. *)
Definition resolutionValue (num den ex : Z) : res spec_float :=
  if den =? 0 then Raise ZeroDivisionError
  else Ok (float_mul (int_div num den)
                     (if 0 <=? ex then float_of_Z (10 ^ ex) else pow10neg E ex)).

(** 25.4e-3 *)
Definition inchFactor : spec_float := round_pos false 254 10000.

(** boxvalidator.py:1173-1230 (x = "c") and 1232-1289 (x = "d"): the two
    validators are textually identical up to the letter c/d in the tag names. *)
Definition resolutionFields (x : string) : M unit :=
  T "boxLengthIsValid" (len c =? 10) ;;
  let vRN := bytesToUShortInt (slice c 0 2) in
  addInt ("vR" ++ x ++ "N")%string vRN ;;
  T ("vR" ++ x ++ "NIsValid")%string (in_rng vRN 1 65535) ;;
  let vRD := bytesToUShortInt (slice c 2 4) in
  addInt ("vR" ++ x ++ "D")%string vRD ;;
  T ("vR" ++ x ++ "DIsValid")%string (in_rng vRD 1 65535) ;;
  let hRN := bytesToUShortInt (slice c 4 6) in
  addInt ("hR" ++ x ++ "N")%string hRN ;;
  T ("hR" ++ x ++ "NIsValid")%string (in_rng hRN 1 65535) ;;
  let hRD := bytesToUShortInt (slice c 6 8) in
  addInt ("hR" ++ x ++ "D")%string hRD ;;
  T ("hR" ++ x ++ "DIsValid")%string (in_rng hRD 1 65535) ;;
  let vRE := bytesToSignedChar (slice c 8 9) in
  addInt ("vR" ++ x ++ "E")%string vRE ;;
  T ("vR" ++ x ++ "EIsValid")%string (in_rng vRE (-128) 127) ;;
  let hRE := bytesToSignedChar (slice c 9 10) in
  addInt ("hR" ++ x ++ "E")%string hRE ;;
  T ("hR" ++ x ++ "EIsValid")%string (in_rng hRE (-128) 127) ;;
  vM <- lift (resolutionValue vRN vRD vRE) ;;
  addCharacteristic ("vRes" ++ x ++ "InPixelsPerMeter")%string (VFloat (round_nd 2 vM)) ;;
  hM <- lift (resolutionValue hRN hRD hRE) ;;
  addCharacteristic ("hRes" ++ x ++ "InPixelsPerMeter")%string (VFloat (round_nd 2 hM)) ;;
  addCharacteristic ("vRes" ++ x ++ "InPixelsPerInch")%string
    (VFloat (round_nd 2 (float_mul vM inchFactor))) ;;
  addCharacteristic ("hRes" ++ x ++ "InPixelsPerInch")%string
    (VFloat (round_nd 2 (float_mul hM inchFactor))).

Definition validate_captureResolutionBox : M unit := resolutionFields "c".
Definition validate_displayResolutionBox : M unit := resolutionFields "d".

(** boxvalidator.py:3267-3295 *)
Definition validate_xmlBox : M unit :=
  match xml_parse E c with
  | Some e =>
      add_char e ;;
      T "containsWellformedXML" true
  | None =>
      when (o_nullxml o)
        (match xml_parse E (removeNullTerminator c) with
         | Some e => add_char e
         | None => ret tt
         end) ;;
      T "containsWellformedXML" false
  end.

(** str(uuid.UUID(bytes=b)): ValueError unless 16 bytes; 8-4-4-4-12 lower-case
    hex digits. *)
Definition uuidStr (b : bytes) : res pystr :=
  if len b =? 16 then
    let h := map bz (bytesToHex b) in
    Ok (slice h 0 8 ++ [45] ++ slice h 8 12 ++ [45] ++ slice h 12 16 ++ [45]
          ++ slice h 16 20 ++ [45] ++ slice h 20 32)
  else Raise ValueError.

Definition xmpUUID : pystr := pys "be7acfcb-97a9-42e8-9c71-999491e3afac".

(** boxvalidator.py:3297-3349 *)
Definition validate_uuidBox : M unit :=
  let boxLength := len c in
  T "boxLengthIsValid" (16 <? boxLength) ;;
  boxUUID <- lift (uuidStr (slice c 0 16)) ;;
  if pystr_eqb boxUUID xmpUUID then
    let data := slice c 16 boxLength in
    match xml_parse E data with
    | Some e =>
        add_char e ;;
        T "containsWellformedXML" true
    | None =>
        when (o_nullxml o)
          (match xml_parse E (removeNullTerminator data) with
           | Some e => add_char e
           | None => ret tt
           end) ;;
        T "containsWellformedXML" false
    end
  else addCharacteristic "uuid" (VStr boxUUID).

(** boxvalidator.py:3398-3416 *)
Definition validate_uuidListBox : M unit :=
  let nU := bytesToUShortInt (slice c 0 2) in
  addInt "nU" nU ;;
  T "boxLengthIsValid" (len c =? nU * 16 + 2) ;;
  _ <- for_range nU 2 (fun _ offset =>
    u <- lift (uuidStr (slice c offset (offset + 16))) ;;
    addCharacteristic "uuid" (VStr u) ;;
    ret (offset + 16)) ;;
  ret tt.

(** bytes.endswith(b'\x00') *)
Definition endsWithNul (b : bytes) : bool :=
  match rev b with x :: _ => Byte.eqb x x00 | [] => false end.

(** boxvalidator.py:3418-3455 *)
Definition validate_urlBox : M unit :=
  let version := bytesToUnsignedChar (slice c 0 1) in
  addInt "version" version ;;
  T "versionIsValid" (version =? 0) ;;
  let flag := slice c 1 4 in
  T "flagIsValid" (bytes_eqb flag [x00; x00; x00]) ;;
  let loc := slice c 4 (len c) in
  T "locHasNullTerminator" (endsWithNul loc) ;;
  let loc := removeNullTerminator loc in
  T "locIsUTF8" (match utf8_decode loc with Some _ => true | None => false end) ;;
  addCharacteristic "loc" (VBytes loc).

End Validators.

(** * Model of boxvalidator.py: superboxes, codestream, tile parts, dispatch *)

From Coq Require Import ZArith List Bool String SpecFloat.
From Coq Require Import Init.Byte.
From Verif Require Import Py PyFloat ByteConv Shared ETree BV VBoxes VMarkers.
Import ListNotations.
Open Scope string_scope.
Open Scope list_scope.
Open Scope Z_scope.

(** *** Box types and markers by name (values of the typeMap keys) *)
Definition tagIHDR : bytes := [x69; x68; x64; x72].
Definition tagBPCC : bytes := [x62; x70; x63; x63].
Definition tagCOLR : bytes := [x63; x6f; x6c; x72].
Definition tagPCLR : bytes := [x70; x63; x6c; x72].
Definition tagCMAP : bytes := [x63; x6d; x61; x70].
Definition tagCDEF : bytes := [x63; x64; x65; x66].
Definition tagRES  : bytes := [x72; x65; x73; x20].
Definition tagRESC : bytes := [x72; x65; x73; x63].
Definition tagRESD : bytes := [x72; x65; x73; x64].
Definition tagULST : bytes := [x75; x6c; x73; x74].
Definition tagURL  : bytes := [x75; x72; x6c; x20].
Definition tagJP   : bytes := [x6a; x50; x20; x20].
Definition tagFTYP : bytes := [x66; x74; x79; x70].
Definition tagJP2H : bytes := [x6a; x70; x32; x68].
Definition tagJP2I : bytes := [x6a; x70; x32; x69].
Definition tagJP2C : bytes := [x6a; x70; x32; x63].

Definition mSOC : bytes := [xff; x4f].
Definition mCAP : bytes := [xff; x50].
Definition mSIZ : bytes := [xff; x51].
Definition mCOD : bytes := [xff; x52].
Definition mCOC : bytes := [xff; x53].
Definition mTLM : bytes := [xff; x55].
Definition mPRF : bytes := [xff; x56].
Definition mPLM : bytes := [xff; x57].
Definition mPLT : bytes := [xff; x58].
Definition mCPF : bytes := [xff; x59].
Definition mQCD : bytes := [xff; x5c].
Definition mQCC : bytes := [xff; x5d].
Definition mRGN : bytes := [xff; x5e].
Definition mPOC : bytes := [xff; x5f].
Definition mPPM : bytes := [xff; x60].
Definition mPPT : bytes := [xff; x61].
Definition mCRG : bytes := [xff; x63].
Definition mCOM : bytes := [xff; x64].
Definition mSOT : bytes := [xff; x90].
Definition mSOD : bytes := [xff; x93].
Definition mEOC : bytes := [xff; xd9].

(** *** Dictionaries with Python values as keys *)
Definition pydict := list (value * value).

Fixpoint dict_get (k : value) (d : pydict) : option value :=
  match d with
  | [] => None
  | (k', v) :: r => if py_eqb k k' then Some v else dict_get k r
  end.

Fixpoint dict_set (k v : value) (d : pydict) : pydict :=
  match d with
  | [] => [(k, v)]
  | (k', v') :: r => if py_eqb k k' then (k', v) :: r else (k', v') :: dict_set k v r
  end.

(** dict == dict: same size, and every key of the first maps to an equal value
    in the second. *)
Definition dict_eqb (a b : pydict) : bool :=
  (len a =? len b) &&
  forallb (fun '(k, v) => match dict_get k b with Some v' => py_eqb v v' | None => false end) a.

(** {0: 0, 1: 0, ..., n-1: 0} *)
Definition dict_zeros (n : Z) : pydict :=
  map (fun i => (VInt (Z.of_nat i), VInt 0)) (seq 0 (Z.to_nat n)).

Section Validators.
Variable E : env.
Variable rec : recT.
Variable fuel : nat.
Variable f : self.

Let o := s_opts f.
Let c := s_contents f.
Let fmt := o_format o.
Let isfmt (s : string) : bool := String.eqb fmt s.
Let T (name : string) (b : bool) : M unit := testFor o name b.

(** The idiom used for every nested box or marker segment, e.g.
    boxvalidator.py:400-416: validate it and append its three trees; the
    properties are kept only if [keep] (1571-1572 etc.: packet markers). *)
Definition attachIf (keep : bool) (t : btype) (contents : bytes) (start csiz : value) : M bv :=
  r <- lift (rec t contents start csiz) ;;
  add_test_ne (r_tests r) ;;
  when keep (add_char (r_chars r)) ;;
  add_warn_ne (r_warns r) ;;
  ret r.
Definition attach := attachIf true.

(** boxvalidator.py:388-416, 1128-1160, 3361-3392, 3475-3509: the loop over the
    sub-boxes (textually identical in the four superboxes); returns the list of
    box types. *)
Definition boxLoop : M (list bytes) :=
  let noBytes := len c in
  loop fuel (fun '(byteStart, boxLengthValue, types) =>
    if (byteStart <? noBytes) && negb (Zin boxLengthValue [0; -9999]) then
      let '(blv, boxType, byteEnd, sub) := getBox c byteStart noBytes in
      _ <- attach (BTb boxType) sub VNone VNone ;;
      ret (inl (byteEnd, blv, types ++ [boxType]))
    else ret (inr types))
  (0, 10, []).

(** boxvalidator.py:384-493 *)
Definition validate_jp2HeaderBox : M unit :=
  types <- boxLoop ;;
  let has t := bin t types in
  T "containsImageHeaderBox" (has tagIHDR) ;;
  chars <- get_chars ;;
  (if isfmt "jp2" then T "containsColourSpecificationBox" (has tagCOLR)
   else when (isfmt "jph")
     (when (py_eqb (findElementText ["imageHeaderBox"; "unkC"] chars) (VInt 0))
        (T "containsColourSpecificationBox" (has tagCOLR)) ;;
      when (negb (has tagCOLR))
        (T "noZeroCTypesIfNoColourBox"
           (negb (py_in (VInt 0) (findAllText ["channelDefinitionBox"; "cTyp"] chars)))))) ;;
  let sign := findElementText ["imageHeaderBox"; "bPCSign"] chars in
  let depth := findElementText ["imageHeaderBox"; "bPCDepth"] chars in
  when (py_eqb sign (VInt 1) && py_eqb depth (VInt 128))
    (T "containsBitsPerComponentBox" (has tagBPCC)) ;;
  T "firstJP2HeaderBoxIsImageHeaderBox"
    (match types with t :: _ => bytes_eqb t tagIHDR | [] => false end) ;;
  T "noMoreThanOneImageHeaderBox" (bcount tagIHDR types <=? 1) ;;
  T "noMoreThanOneBitsPerComponentBox" (bcount tagBPCC types <=? 1) ;;
  T "noMoreThanOnePaletteBox" (bcount tagPCLR types <=? 1) ;;
  T "noMoreThanOneComponentMappingBox" (bcount tagCMAP types <=? 1) ;;
  T "noMoreThanOneChannelDefinitionBox" (bcount tagCDEF types <=? 1) ;;
  T "noMoreThanOneResolutionBox" (bcount tagRES types <=? 1) ;;
  T "colourSpecificationBoxesAreContiguous" (listOccurrencesAreContiguous types tagCOLR) ;;
  T "paletteAndComponentMappingBoxesOnlyTogether"
    (if (has tagPCLR && negb (has tagCMAP)) || (has tagCMAP && negb (has tagPCLR))
     then false else true).

(** boxvalidator.py:1117-1169 *)
Definition validate_resolutionBox : M unit :=
  types <- boxLoop ;;
  T "containsCaptureOrDisplayResolutionBox" (bin tagRESC types || bin tagRESD types) ;;
  T "noMoreThanOneCaptureResolutionBox" (bcount tagRESC types <=? 1) ;;
  T "noMoreThanOneDisplayResolutionBox" (bcount tagRESD types <=? 1).

(** boxvalidator.py:3351-3396 *)
Definition validate_uuidInfoBox : M unit :=
  types <- boxLoop ;;
  T "containsOneListBox" (bcount tagULST types =? 1) ;;
  T "containsOneURLBox" (bcount tagURL types =? 1).

(** Local variables of the main-header loop (boxvalidator.py:1339-1346; the flags
    foundPRFMarker and foundCPFMarker are set but never read, and omitted). *)
Record mh := {
  mh_marker : bytes;
  mh_offset : Z;
  mh_next : Z;
  mh_cap : bool;
  mh_cod : bool;
  mh_qcd : bool;
  mh_plm : Z;
  mh_ppm : Z
}.

(** boxvalidator.py:1349-1590: one iteration of the main-header loop.  The elif
    chain compares [marker] with distinct constants; branches doing the same thing
    are merged. *)
Definition mainHeaderStep (csiz : value) (s : mh) : M mh :=
  let '(marker, _, seg, next) := getMarkerSegment c (mh_offset s) in
  let is m := bytes_eqb marker m in
  (if bin marker [mCOD; mQCD; mCOM; mCAP; mPRF; mCPF; mTLM] then
     _ <- attach (BTb marker) seg VNone VNone ;; ret tt
   else if bin marker [mCOC; mQCC; mRGN; mPOC; mCRG] then
     _ <- attach (BTb marker) seg VNone csiz ;; ret tt
   else if bin marker [mPLM; mPPM] then
     _ <- attachIf (o_packet o) (BTb marker) seg VNone VNone ;; ret tt
   else ret tt) ;;
  ret {| mh_marker := marker;
         mh_offset := if is mSOT then mh_offset s else next;
         mh_next := next;
         mh_cap := mh_cap s || is mCAP;
         mh_cod := mh_cod s || is mCOD;
         mh_qcd := mh_qcd s || is mQCD;
         mh_plm := mh_plm s + Zb (is mPLM);
         mh_ppm := mh_ppm s + Zb (is mPPM) |}.

(** boxvalidator.py:1348 *)
Definition mainHeaderLoop (csiz : value) (s : mh) : M mh :=
  loop fuel (fun s =>
    if negb (bytes_eqb (mh_marker s) mSOT) && negb (mh_next s =? -9999) then
      s' <- mainHeaderStep csiz s ;; ret (inl s')
    else ret (inr s)) s.

(** Local variables of the tile-part loop (boxvalidator.py:1630-1650). *)
Record tpl := {
  tl_tests : list elt;
  tl_chars : list elt;
  tl_warns : list elt;
  tl_indices : list value;
  tl_expected : pydict;
  tl_found : pydict
}.

(** boxvalidator.py:1652-1696: the tile-part loop.  State: current offset and the
    variables above; the loop is entered only with marker == SOT, and the first
    statement of the body re-reads the marker. *)
Definition tilePartLoop (csiz : value) (offset : Z) (t : tpl) : M tpl :=
  loop fuel (fun '(offset, t) =>
    if bytes_eqb (slice c offset (offset + 2)) mSOT then
      r <- lift (rec (BTb mSOT) c (VInt offset) csiz) ;;
      let tileIndex := findElementText ["sot"; "isot"] (r_chars r) in
      let tilePartsOfTile := findElementText ["sot"; "tnsot"] (r_chars r) in
      let t1 :=
        {| tl_tests := appendIfNotEmpty (tl_tests t) (r_tests r);
           tl_chars := tl_chars t ++ [r_chars r];
           tl_warns := appendIfNotEmpty (tl_warns t) (r_warns r);
           tl_indices := if py_in tileIndex (tl_indices t) then tl_indices t
                         else tl_indices t ++ [tileIndex];
           tl_expected := if negb (py_eqb tilePartsOfTile (VInt 0))
                          then dict_set tileIndex tilePartsOfTile (tl_expected t)
                          else tl_expected t;
           tl_found := tl_found t |} in
      match dict_get tileIndex (tl_found t1) with
      | None => ret (inr t1)                                (* KeyError: break *)
      | Some n =>
          n' <- lift (as_int n) ;;
          let t2 :=
            {| tl_tests := tl_tests t1; tl_chars := tl_chars t1; tl_warns := tl_warns t1;
               tl_indices := tl_indices t1; tl_expected := tl_expected t1;
               tl_found := dict_set tileIndex (VInt (n' + 1)) (tl_found t1) |} in
          if negb (py_eqb (r_ret r) (VInt offset)) then
            offset' <- lift (as_int (r_ret r)) ;;
            ret (inl (offset', t2))
          else ret (inr t2)                                 (* psot = 0: break *)
      end
    else ret (inr t)) (offset, t).

(** boxvalidator.py:1707-1732: at most one occurrence of each value. *)
Definition uniqueTest (name : string) (vals : list value) : M unit :=
  match vals with
  | [] => ret tt
  | _ => T name (len (py_dedup vals) =? len vals)
  end.

(** boxvalidator.py:1291-1743 *)
Definition validate_contiguousCodestreamBox : M unit :=
  let length := len c in
  let '(marker0, _, _, next0) := getMarkerSegment c 0 in
  T "codestreamStartsWithSOCMarker" (bytes_eqb marker0 mSOC) ;;
  let '(marker1, _, seg1, next1) := getMarkerSegment c next0 in
  let foundSIZ := bytes_eqb marker1 mSIZ in
  T "foundSIZMarker" foundSIZ ;;
  when foundSIZ
    (rSIZ <- attach (BTb marker1) seg1 VNone VNone ;;
     let charsSIZ := r_chars rSIZ in
     let csiz := findElementText ["csiz"] charsSIZ in
     s <- mainHeaderLoop csiz
            {| mh_marker := marker1; mh_offset := next1; mh_next := next1;
               mh_cap := false; mh_cod := false; mh_qcd := false;
               mh_plm := 0; mh_ppm := 0 |} ;;
     addInt "ppmCount" (mh_ppm s) ;;
     addInt "plmCount" (mh_plm s) ;;
     T "foundCODMarker" (mh_cod s) ;;
     T "foundQCDMarker" (mh_qcd s) ;;
     chars <- get_chars ;;
     rsiz <- lift (as_int (findElementText ["siz"; "rsiz"] chars)) ;;
     when (Z.land (Z.shiftr rsiz 14) 15 =? 1) (T "foundCAPMarker" (mh_cap s)) ;;
     n <- match findElementText ["siz"; "numberOfTiles"] chars with
          | VNone => ret 0
          | v => lift (as_int v)
          end ;;
     let expectedTiles := Z.min n 65535 in
     let t0 := {| tl_tests := []; tl_chars := []; tl_warns := [];
                  tl_indices := []; tl_expected := [];
                  tl_found := dict_zeros expectedTiles |} in
     t <- (if bytes_eqb (mh_marker s) mSOT then tilePartLoop csiz (mh_offset s) t0
           else ret t0) ;;
     T "foundExpectedNumberOfTiles" (len (tl_indices t) =? expectedTiles) ;;
     (match tl_expected t with
      | [] => ret tt
      | _ => T "foundExpectedNumberOfTileParts" (dict_eqb (tl_expected t) (tl_found t))
      end) ;;
     add_test_ne (node "tileParts" (tl_tests t)) ;;
     add_char (node "tileParts" (tl_chars t)) ;;
     add_warn_ne (node "tileParts" (tl_warns t)) ;;
     chars <- get_chars ;;
     uniqueTest "maxOneCcocPerComponentMain" (findAllText ["coc"; "ccoc"] chars) ;;
     uniqueTest "maxOneCqccPerComponentMain" (findAllText ["qcc"; "cqcc"] chars) ;;
     T "foundEOCMarker" (bytes_eqb (slice c (length - 2) length) mEOC) ;;
     when (isfmt "j2c" || isfmt "jhc")
       (ysiz <- lift (as_int (findElementText ["ysiz"] charsSIZ)) ;;
        (* line 1732: yOsiz is read from 'xOsiz' *)
        yOsiz <- lift (as_int (findElementText ["xOsiz"] charsSIZ)) ;;
        xsiz <- lift (as_int (findElementText ["xsiz"] charsSIZ)) ;;
        xOsiz <- lift (as_int (findElementText ["xOsiz"] charsSIZ)) ;;
        cr <- lift (calculateCompressionRatio length (findAllText ["ssizDepth"] charsSIZ)
                      (ysiz - yOsiz) (xsiz - xOsiz)) ;;
        addCharacteristic "compressionRatio" (round2 cr))) ;;
  v <- isValid_of ;;
  set_valid (VBool v).

(** Local variables of the tile-part header loop (boxvalidator.py:3011-3044). *)
Record th := {
  th_marker : bytes;
  th_offset : Z;
  th_next : Z;
  th_plt : Z;
  th_ppt : Z
}.

(** boxvalidator.py:3050-3194: one iteration of the tile-part header loop (elif
    branches merged as in [mainHeaderStep]). *)
Definition tileHeaderStep (s : th) : M th :=
  let '(marker, _, seg, next) := getMarkerSegment c (th_offset s) in
  let is m := bytes_eqb marker m in
  (if bin marker [mCOD; mQCD; mCOM] then
     _ <- attach (BTb marker) seg VNone VNone ;; ret tt
   else if bin marker [mCOC; mQCC; mRGN; mPOC] then
     _ <- attach (BTb marker) seg VNone (s_csiz f) ;; ret tt
   else if bin marker [mPLT; mPPT] then
     _ <- attachIf (o_packet o) (BTb marker) seg VNone VNone ;; ret tt
   else ret tt) ;;
  ret {| th_marker := marker;
         th_offset := next;
         th_next := next;
         th_plt := th_plt s + Zb (is mPLT);
         th_ppt := th_ppt s + Zb (is mPPT) |}.

(** boxvalidator.py:3050 *)
Definition tileHeaderLoop (s : th) : M th :=
  loop fuel (fun s =>
    if negb (bytes_eqb (th_marker s) mSOD) && negb (th_next s =? -9999) then
      s' <- tileHeaderStep s ;; ret (inl s')
    else ret (inr s)) s.

(** boxvalidator.py:3208-3217 *)
Definition onlyInFirst (name tag : string) (chars : elt) (tpsot : value) : M unit :=
  match findall [tag] chars with
  | [] => ret tt
  | _ => T name (py_eqb tpsot (VInt 0))
  end.

(** boxvalidator.py:3006-3265 *)
Definition validate_tilePart : M unit :=
  start <- lift (as_int (s_start f)) ;;
  let '(marker0, _, seg0, next0) := getMarkerSegment c start in
  rSOT <- attach (BTs "startOfTile") seg0 VNone VNone ;;
  s <- tileHeaderLoop
         {| th_marker := marker0; th_offset := next0; th_next := next0;
            th_plt := 0; th_ppt := 0 |} ;;
  T "foundSODMarker" (bytes_eqb (th_marker s) mSOD) ;;
  addInt "pltCount" (th_plt s) ;;
  addInt "pptCount" (th_ppt s) ;;
  chars <- get_chars ;;
  let tpsot := findElementText ["sot"; "tpsot"] chars in
  onlyInFirst "CODAllowed" "cod" chars tpsot ;;
  onlyInFirst "COCAllowed" "coc" chars tpsot ;;
  onlyInFirst "QCDAllowed" "qcd" chars tpsot ;;
  onlyInFirst "QCCAllowed" "qcc" chars tpsot ;;
  onlyInFirst "RGNAllowed" "rgn" chars tpsot ;;
  uniqueTest "maxOneCcocPerComponentTP" (findAllText ["coc"; "ccoc"] chars) ;;
  uniqueTest "maxOneCqccPerComponentTP" (findAllText ["qcc"; "cqcc"] chars) ;;
  tilePartLength <- lift (as_int (r_tpl rSOT)) ;;
  let offsetNext := start + tilePartLength in
  when (negb (tilePartLength =? 0))
    (T "foundNextTilePartOrEOC" (bin (slice c offsetNext (offsetNext + 2)) [mSOT; mEOC])) ;;
  set_ret (VInt offsetNext).

(** boxvalidator.py:3549-3562 *)
Definition locationJP2HeaderBoxIsValid (types : list bytes) : bool :=
  match bindex tagJP2H types, bindex tagJP2C types with
  | Some h, Some cs => (h <? cs) && (1 <? h)
  | _, _ => false
  end.

(** boxvalidator.py:3593-3702: consistency of image header and SIZ, compression
    ratio. *)
Definition checkHeaderAgainstSIZ (noBytes : Z) (chars ihdr siz : elt) : M unit :=
  let height := findElementText ["height"] ihdr in
  ysiz <- lift (as_int (findElementText ["ysiz"] siz)) ;;
  yOsiz <- lift (as_int (findElementText ["yOsiz"] siz)) ;;
  T "heightConsistentWithSIZ" (py_eqb height (VInt (ysiz - yOsiz))) ;;
  let width := findElementText ["width"] ihdr in
  xsiz <- lift (as_int (findElementText ["xsiz"] siz)) ;;
  xOsiz <- lift (as_int (findElementText ["xOsiz"] siz)) ;;
  T "widthConsistentWithSIZ" (py_eqb width (VInt (xsiz - xOsiz))) ;;
  let nC := findElementText ["nC"] ihdr in
  T "nCConsistentWithSIZ" (py_eqb nC (findElementText ["csiz"] siz)) ;;
  let bPCSign := findElementText ["bPCSign"] ihdr in
  let bPCDepth := findElementText ["bPCDepth"] ihdr in
  bpc <- (if py_eqb bPCSign (VInt 1) && py_eqb bPCDepth (VInt 128) then
            match find ["jp2HeaderBox"; "bitsPerComponentBox"] chars with
            | Some b => ret (findAllText ["bPCSign"] b, findAllText ["bPCDepth"] b)
            | None => ret ([], [])
            end
          else
            n <- lift (as_int nC) ;;
            ret (repeat bPCSign (Z.to_nat n), repeat bPCDepth (Z.to_nat n))) ;;
  let '(signs, depths) := bpc in
  T "bPCSignConsistentWithSIZ" (py_list_eqb signs (findAllText ["ssizSign"] siz)) ;;
  T "bPCDepthConsistentWithSIZ" (py_list_eqb depths (findAllText ["ssizDepth"] siz)) ;;
  when (isfmt "jp2" || isfmt "jph")
    (h <- lift (as_int height) ;;
     w <- lift (as_int width) ;;
     cr <- lift (calculateCompressionRatio noBytes depths h w) ;;
     addCharacteristic "compressionRatio" (round2 cr)).

(** boxvalidator.py:3457-3705 *)
Definition validate_JP2 : M unit :=
  types <- boxLoop ;;
  T "containsSignatureBox" (bin tagJP types) ;;
  T "containsFileTypeBox" (bin tagFTYP types) ;;
  T "containsJP2HeaderBox" (bin tagJP2H types) ;;
  T "containsContiguousCodestreamBox" (bin tagJP2C types) ;;
  chars <- get_chars ;;
  when (py_eqb (findElementText ["jp2HeaderBox"; "imageHeaderBox"; "iPR"] chars) (VInt 1))
    (T "containsIntellectualPropertyBox" (bin tagJP2I types)) ;;
  T "firstBoxIsSignatureBox"
    (match types with t :: _ => bytes_eqb t tagJP | _ => false end) ;;
  T "secondBoxIsFileTypeBox"
    (match types with _ :: t :: _ => bytes_eqb t tagFTYP | _ => false end) ;;
  T "locationJP2HeaderBoxIsValid" (locationJP2HeaderBoxIsValid types) ;;
  T "noMoreThanOneSignatureBox" (bcount tagJP types <=? 1) ;;
  T "noMoreThanOneFileTypeBox" (bcount tagFTYP types <=? 1) ;;
  T "noMoreThanOneJP2HeaderBox" (bcount tagJP2H types <=? 1) ;;
  (match find ["jp2HeaderBox"; "imageHeaderBox"] chars,
         find ["contiguousCodestreamBox"; "siz"] chars with
   | Some ihdr, Some siz => checkHeaderAgainstSIZ (len c) chars ihdr siz
   | _, _ => ret tt
   end) ;;
  v <- isValid_of ;;
  set_valid (VBool v).

(** boxvalidator.py:114-128: the method called for a given boxType; None = no
    such method (intellectualPropertyBox: a warning on stderr, which is not
    modelled, and nothing else). *)
Definition method (name : string) : option (M unit) :=
  let is s := String.eqb name s in
  if is "xmlBox" then Some (validate_xmlBox E f)
  else if is "uuidBox" then Some (validate_uuidBox E f)
  else if is "uuidInfoBox" then Some validate_uuidInfoBox
  else if is "signatureBox" then Some (validate_signatureBox f)
  else if is "fileTypeBox" then Some (validate_fileTypeBox f)
  else if is "jp2HeaderBox" then Some validate_jp2HeaderBox
  else if is "imageHeaderBox" then Some (validate_imageHeaderBox f)
  else if is "bitsPerComponentBox" then Some (validate_bitsPerComponentBox f)
  else if is "colourSpecificationBox" then Some (validate_colourSpecificationBox rec f)
  else if is "paletteBox" then Some (validate_paletteBox f)
  else if is "componentMappingBox" then Some (validate_componentMappingBox f)
  else if is "channelDefinitionBox" then Some (validate_channelDefinitionBox f)
  else if is "resolutionBox" then Some validate_resolutionBox
  else if is "contiguousCodestreamBox" then Some validate_contiguousCodestreamBox
  else if is "captureResolutionBox" then Some (validate_captureResolutionBox E f)
  else if is "displayResolutionBox" then Some (validate_displayResolutionBox E f)
  else if is "uuidListBox" then Some (validate_uuidListBox f)
  else if is "urlBox" then Some (validate_urlBox f)
  else if is "cap" then Some (validate_cap f)
  else if is "siz" then Some (validate_siz f)
  else if is "prf" then Some (validate_prf f)
  else if is "cod" then Some (validate_cod f)
  else if is "qcd" then Some (validate_qcd f)
  else if is "com" then Some (validate_com E f)
  else if is "coc" then Some (validate_coc f)
  else if is "rgn" then Some (validate_rgn f)
  else if is "qcc" then Some (validate_qcc f)
  else if is "poc" then Some (validate_poc f)
  else if is "tlm" then Some validate_tlm
  else if is "plm" then Some (validate_plm fuel f)
  else if is "plt" then Some (validate_plt fuel f)
  else if is "cpf" then Some (validate_cpf f)
  else if is "ppm" then Some validate_ppm
  else if is "ppt" then Some validate_ppt
  else if is "crg" then Some (validate_crg f)
  else if is "tilePart" then Some validate_tilePart
  else if is "icc" then Some (validate_icc f)
  else if is "sot" then Some (validate_sot f)
  else if is "JP2" then Some validate_JP2
  else if is "unknownBox" then Some (validate_unknownBox E f)
  else None.

Definition runMethod : M unit :=
  match method (boxTypeOf (s_btype f)) with Some m => m | None => ret tt end.

End Validators.

(** boxvalidator.py:76-128: [BoxValidator(options, t, contents, startOffset,
    components).validate()].  [depth] is the number of nested validators the
    interpreter's recursion limit leaves room for (None of them left:
    RecursionError); the code itself imposes no bound.  [fuel] is the step budget
    of every loop. *)
Fixpoint validate (E : env) (op : opts) (fuel depth : nat)
         (t : btype) (contents : bytes) (start csiz : value) : res bv :=
  match depth with
  | O => Raise RecursionError
  | S d =>
      let f := {| s_opts := op; s_btype := t; s_contents := contents;
                  s_start := start; s_csiz := csiz |} in
      match runMethod E (validate E op fuel d) fuel f st0 with
      | Ok (_, s) => Ok (bv_of t s)
      | Raise e => Raise e
      | Diverge => Diverge
      end
  end.

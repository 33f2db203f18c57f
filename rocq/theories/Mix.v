(** * Model of jpylyzer/mix.py: NISO MIX metadata

    The functions read the human-readable [properties] tree, in which every
    text is a string or None.  Attribute access on a missing element is
    AttributeError. *)

From Coq Require Import ZArith List Bool String.
From Coq Require Import SpecFloat.
From Verif Require Import Py PyFloat ETree BV.
Import ListNotations.
Open Scope string_scope.
Open Scope list_scope.
Open Scope Z_scope.

Local Notation "x <-- m ;; k" := (rbind m (fun x => k))
  (at level 61, m at next level, right associativity).

(** [e.find(path)] followed by [.text]. *)
Definition textAt (path : list string) (e : elt) : res value :=
  match find path e with Some x => Ok (etext x) | None => Raise AttributeError end.

(** [str(x)] for the values found in a human-readable tree. *)
Definition strText (v : value) : pystr :=
  match v with
  | VStr s => s
  | VNone => pys "None"
  | VBool b => pys (if b then "True" else "False")
  | VInt z => str_of_Z z
  | VFloat f => repr_float f
  | VBytes _ => pys "bytes"      (* does not occur in a human-readable tree *)
  end.

Fixpoint dropWhile (p : Z -> bool) (s : pystr) : pystr :=
  match s with
  | [] => []
  | c :: s' => if p c then dropWhile p s' else s
  end.

Section MixModel.
Variable isspace : Z -> bool.
Variable mixFlag : Z.

(** [x.strip()]: AttributeError unless x is a string. *)
Definition strip (v : value) : res pystr :=
  match v with
  | VStr s => Ok (rev (dropWhile isspace (rev (dropWhile isspace s))))
  | _ => Raise AttributeError
  end.

(** [float(x)] on a text: TypeError on None, ValueError when it is not a
    decimal literal.  Simplification: "inf"/"nan" texts, which Python accepts
    here and rejects in the subsequent [int()], are rejected here. *)
Definition floatOf (v : value) : res spec_float :=
  match v with
  | VStr s => match parse_float s with Some f => Ok f | None => Raise ValueError end
  | _ => Raise TypeError
  end.

(** [int(f)]: inf/nan raise. *)
Definition intOf (f : spec_float) : res Z :=
  match f with
  | S754_infinity _ | S754_nan => Raise ValueError
  | _ => Ok (trunc_float f)
  end.

Definition float100 : spec_float := float_of_Z 100.

(** mix.py:28-79 [generateMixBasicDigitalObjectInformation] *)
Definition mixBDOI (p : elt) : res elt :=
  formatName <-- (match find ["fileTypeBox"; "br"] p with
                  | None => Ok (pys "image/jp2")
                  | Some br => rbind (strip (etext br)) (fun v => Ok (pys "image/" ++ v))
                  end) ;;
  let fd := node "mix:FormatDesignation" [leaf "mix:formatName" (VStr formatName)] in
  let bo := leaf "mix:byteOrder"
                 (VStr (pys (if mixFlag =? 1 then "big_endian" else "big endian"))) in
  compression <-- textAt ["contiguousCodestreamBox"; "cod"; "transformation"] p ;;
  let scheme := if py_eqb compression (VStr (pys "5-3 reversible"))
                then pys "JPEG 2000 Lossless" else pys "JPEG 2000 Lossy" in
  let cs := leaf "mix:compressionScheme" (VStr scheme) in
  crText <-- textAt ["compressionRatio"] p ;;
  cr <-- floatOf crText ;;
  if mixFlag =? 1 then
    v <-- intOf (round_nd 0 cr) ;;
    Ok (node "mix:BasicDigitalObjectInformation"
             [fd; bo; node "mix:Compression"
                           [cs; leaf "mix:compressionRatio" (VStr (str_of_Z v))]])
  else
    v <-- intOf (round_nd 0 (float_mul cr float100)) ;;
    Ok (node "mix:BasicDigitalObjectInformation"
             [fd; bo; node "mix:Compression"
                           [cs; node "mix:compressionRatio"
                                     [leaf "mix:numerator" (VStr (str_of_Z v));
                                      leaf "mix:denominator" (VStr (pys "100"))]]]).

(** mix.py:119: the regular expression search on the comment text (any
    characters, "-v", then digits and dots): groups 1 and 2.
    "." matches anything but a newline and is greedy, and the search is
    leftmost, so the match is in the first line that contains "-v"; group 1 is
    that line up to its last "-v", group 2 the longest run of digits and dots
    after it. *)
Definition isVerChar (c : Z) : bool := ((48 <=? c) && (c <=? 57)) || (c =? 46).

Fixpoint takeWhile (p : Z -> bool) (s : pystr) : pystr :=
  match s with
  | [] => []
  | c :: s' => if p c then c :: takeWhile p s' else []
  end.

(** Text up to the last "-v" of a line, and the rest after it. *)
Fixpoint lastDashV (s : pystr) : option (pystr * pystr) :=
  match s with
  | [] => None
  | c :: s' =>
      match lastDashV s' with
      | Some (a, b) => Some (c :: a, b)
      | None =>
          match s' with
          | d :: r => if (c =? 45) && (d =? 118) then Some ([], r) else None
          | [] => None
          end
      end
  end.

Fixpoint splitLines (s : pystr) : list pystr :=
  match s with
  | [] => [[]]
  | c :: s' =>
      if c =? 10 then [] :: splitLines s'
      else match splitLines s' with
           | l :: r => (c :: l) :: r
           | [] => [[c]]
           end
  end.

Fixpoint firstSome (l : list pystr) : option (pystr * pystr) :=
  match l with
  | [] => None
  | x :: r => match lastDashV x with
              | Some (a, b) => Some (a, takeWhile isVerChar b)
              | None => firstSome r
              end
  end.

Definition searchCodec (s : pystr) : option (pystr * pystr) := firstSome (splitLines s).

(** mix.py:81-152 [generateMixBasicImageInformation] *)
Definition mixBII (p : elt) : res elt :=
  width <-- textAt ["jp2HeaderBox"; "imageHeaderBox"; "width"] p ;;
  height <-- textAt ["jp2HeaderBox"; "imageHeaderBox"; "height"] p ;;
  (* [if iccElement:]  an Element is true when it has children *)
  pi <-- (match find ["jp2HeaderBox"; "colourSpecificationBox"; "icc"] p with
          | Some (Elt _ _ _ (_ :: _)) =>
              cs <-- textAt ["jp2HeaderBox"; "colourSpecificationBox"; "icc"; "colourSpace"] p ;;
              cs' <-- strip cs ;;
              prof <-- textAt ["jp2HeaderBox"; "colourSpecificationBox"; "icc"; "description"] p ;;
              Ok [leaf "mix:colorSpace" (VStr cs');
                  node "mix:ColorProfile"
                       [node "mix:IccProfile" [leaf "mix:iccProfileName" prof]]]
          | _ =>
              cs <-- textAt ["jp2HeaderBox"; "colourSpecificationBox"; "enumCS"] p ;;
              cs' <-- strip cs ;;
              Ok [leaf "mix:colorSpace" (VStr cs')]
          end) ;;
  let bic := node "mix:BasicImageCharacteristics"
                  [leaf "mix:imageWidth" (VStr (strText width));
                   leaf "mix:imageHeight" (VStr (strText height));
                   node "mix:PhotometricInterpretation" pi] in
  codec <-- (match find ["contiguousCodestreamBox"; "com"; "comment"] p with
             | Some c =>
                 match etext c with
                 | VStr s =>
                     match searchCodec s with
                     | Some (a, b) =>
                         Ok [node "mix:CodecCompliance"
                                  [leaf "mix:codec" (VStr a); leaf "mix:codecVersion" (VStr b)]]
                     | None => Ok []
                     end
                 | _ => Raise TypeError
                 end
             | None => Ok []
             end) ;;
  tilesX <-- textAt ["contiguousCodestreamBox"; "siz"; "xTsiz"] p ;;
  tilesY <-- textAt ["contiguousCodestreamBox"; "siz"; "yTsiz"] p ;;
  let tiles :=
    if mixFlag =? 1 then
      [leaf "mix:tiles" (VStr (strText tilesX ++ pys "x" ++ strText tilesY))]
    else
      [node "mix:Tiles" [leaf "mix:tileWidth" (VStr (strText tilesX));
                         leaf "mix:tileHeight" (VStr (strText tilesY))]] in
  layers <-- textAt ["contiguousCodestreamBox"; "cod"; "layers"] p ;;
  levels <-- textAt ["contiguousCodestreamBox"; "cod"; "levels"] p ;;
  let ly := if pystr_eqb (strText layers) (pys "0") then []
            else [leaf "mix:qualityLayers" (VStr (strText layers))] in
  let lv := if pystr_eqb (strText levels) (pys "0") then []
            else [leaf "mix:resolutionLevels" (VStr (strText levels))] in
  Ok (node "mix:BasicImageInformation"
           [bic;
            node "mix:SpecialFormatCharacteristics"
                 [node "mix:JPEG2000"
                       (codec ++ [node "mix:EncodingOptions" (tiles ++ ly ++ lv)])]]).

Fixpoint attrGet (k : string) (a : list (string * pystr)) : option pystr :=
  match a with
  | [] => None
  | (k', v) :: r => if String.eqb k k' then Some v else attrGet k r
  end.

(** mix.py:155-165 [findValueInRDF]; the result None is [VNone]. *)
Definition findValueInRDF (rdf : elt) (prefix tag : string) : res value :=
  match find [prefix; tag] rdf with
  | Some x => Ok (etext x)
  | None =>
      match find [prefix] rdf with
      | None => Raise AttributeError
      | Some d =>
          match attrGet tag (eattrib d) with
          | Some (c :: s) => Ok (VStr (c :: s))
          | _ => Ok VNone
          end
      end
  end.

(** mix.py:168-174 [addIfExist]: the children appended (the returned flag is
    "the list is not empty"). *)
Definition addIfExist (rdf : elt) (prefix tag dest : string) : res (list elt) :=
  v <-- findValueInRDF rdf prefix tag ;;
  match v with
  | VNone => Ok []
  | _ => s <-- strip v ;; Ok [leaf dest (VStr s)]
  end.

Definition rdfDescription := "{http://www.w3.org/1999/02/22-rdf-syntax-ns#}Description".
Definition rdfPath (box : string) : list string :=
  [box; "{adobe:ns:meta/}xmpmeta"; "{http://www.w3.org/1999/02/22-rdf-syntax-ns#}RDF"].

(** A found Element that is "true": it has children. *)
Definition truthy (o : option elt) : option elt :=
  match o with Some (Elt t a v (k :: ks)) => Some (Elt t a v (k :: ks)) | _ => None end.

(** mix.py:234: the anchored search on the creator tool (any characters, a
    space, digits and dots to the end): no newline except one
    final newline; split at the last space; what follows consists of digits and
    dots. *)
Fixpoint lastSpace (s : pystr) : option (pystr * pystr) :=
  match s with
  | [] => None
  | c :: s' =>
      match lastSpace s' with
      | Some (a, b) => Some (c :: a, b)
      | None => if c =? 32 then Some ([], s') else None
      end
  end.

Definition dropFinalNewline (s : pystr) : pystr :=
  match rev s with
  | c :: r => if c =? 10 then rev r else s
  | [] => s
  end.

Definition searchTool (s : pystr) : option (pystr * pystr) :=
  let s' := dropFinalNewline s in
  if existsb (Z.eqb 10) s' then None
  else match lastSpace s' with
       | Some (a, b) => if forallb isVerChar b then Some (a, b) else None
       | None => None
       end.

(** mix.py:176-249 [generateMixImageCaptureMetadata]; the result None is [None]. *)
Definition mixICM (p : elt) : res (option elt) :=
  if mixFlag =? 0 then Ok None else
  let rdfBox := match truthy (find (rdfPath "xmlBox") p) with
                | Some r => Some r
                | None => truthy (find (rdfPath "uuidBox") p)
                end in
  match rdfBox with
  | None => Ok None
  | Some rdf =>
      let D := rdfDescription in
      g1 <-- addIfExist rdf D "{http://ns.adobe.com/xap/1.0/}CreateDate" "mix:dateTimeCreated" ;;
      g2 <-- addIfExist rdf D "{http://ns.adobe.com/tiff/1.0/}Artist" "mix:imageProducer" ;;
      s1 <-- addIfExist rdf D "{http://ns.adobe.com/tiff/1.0/}Make" "mix:scannerManufacturer" ;;
      m1 <-- addIfExist rdf D "{http://ns.adobe.com/tiff/1.0/}Model" "mix:scannerModelName" ;;
      m2 <-- addIfExist rdf D "{http://ns.adobe.com/exif/1.0/aux/}SerialNumber"
                        "mix:scannerModelSerialNo" ;;
      let sm := match m1 ++ m2 with [] => [] | l => [node "mix:ScannerModel" l] end in
      tool <-- findValueInRDF rdf D "{http://ns.adobe.com/xap/1.0/}CreatorTool" ;;
      sss <-- (match tool with
               | VNone => Ok []
               | VStr s =>
                   match searchTool s with
                   | Some (a, b) =>
                       Ok [node "mix:ScanningSystemSoftware"
                                [leaf "mix:scanningSoftwareName" (VStr a);
                                 leaf "mix:scanningSoftwareVersionNo" (VStr b)]]
                   | None =>
                       Ok [node "mix:ScanningSystemSoftware"
                                [leaf "mix:scanningSoftwareName" (VStr s)]]
                   end
               | _ => Raise TypeError
               end) ;;
      let sc := match s1 ++ sm ++ sss with [] => [] | l => [node "mix:ScannerCapture" l] end in
      Ok (Some (node "mix:ImageCaptureMetadata"
                     (node "mix:GeneralCaptureInformation" (g1 ++ g2) :: sc)))
  end.

(** [','.join(...)]: TypeError on a text that is not a string. *)
Fixpoint joinComma (l : list value) : res pystr :=
  match l with
  | [] => Ok []
  | [VStr s] => Ok s
  | VStr s :: r => t <-- joinComma r ;; Ok (s ++ pys "," ++ t)
  | _ => Raise TypeError
  end.

(** [int(float(box.find(tag).text) * 100)] *)
Definition freq (box : elt) (tag : string) : res Z :=
  t <-- textAt [tag] box ;;
  f <-- floatOf t ;;
  intOf (float_mul f float100).

(** mix.py:251-322 [generateMixImageAssessmentMetadata] *)
Definition mixIAM (p : elt) : res elt :=
  nums <-- (match find ["jp2HeaderBox"; "resolutionBox"; "captureResolutionBox"] p with
            | Some b =>
                x <-- freq b "hRescInPixelsPerMeter" ;;
                y <-- freq b "vRescInPixelsPerMeter" ;; Ok (Some (x, y))
            | None =>
                match find ["jp2HeaderBox"; "resolutionBox"; "displayResolutionBox"] p with
                | Some b =>
                    x <-- freq b "hResdInPixelsPerMeter" ;;
                    y <-- freq b "vResdInPixelsPerMeter" ;; Ok (Some (x, y))
                | None => Ok None
                end
            end) ;;
  let sm :=
    match nums with
    | Some (x, y) =>
        [node "mix:SpatialMetrics"
              [leaf "mix:samplingFrequencyUnit" (VStr (pys (if mixFlag =? 1 then "3" else "cm")));
               node "mix:xSamplingFrequency"
                    [leaf "mix:numerator" (VStr (str_of_Z x));
                     leaf "mix:denominator" (VStr (pys "10000"))];
               node "mix:ySamplingFrequency"
                    [leaf "mix:numerator" (VStr (str_of_Z y));
                     leaf "mix:denominator" (VStr (pys "10000"))]]]
    | None => []
    end in
  match find ["contiguousCodestreamBox"; "siz"] p with
  | None => Raise AttributeError
  | Some size =>
      let values := findAllText ["ssizDepth"] size in
      bps <-- (if mixFlag =? 1 then
                 s <-- joinComma values ;;
                 Ok (node "mix:bitsPerSample"
                          [leaf "mix:bitsPerSampleValue" (VStr s);
                           leaf "mix:bitsPerSampleUnit" (VStr (pys "integer"))])
               else
                 Ok (node "mix:BitsPerSample"
                          (map (leaf "mix:bitsPerSampleValue") values ++
                           [leaf "mix:bitsPerSampleUnit" (VStr (pys "integer"))]))) ;;
      num <-- textAt ["csiz"] size ;;
      Ok (node "mix:ImageAssessmentMetadata"
               (sm ++ [node "mix:ImageColorEncoding" [bps; leaf "mix:samplesPerPixel" num]]))
  end.

(** mix.py:324-355 [generateMix] *)
Definition generateMix (p : elt) : res elt :=
  let xsi := pys "http://www.w3.org/2001/XMLSchema-instance" in
  let ns := pys (if mixFlag =? 1 then "http://www.loc.gov/mix/v10"
                 else "http://www.loc.gov/mix/v20") in
  let loc := pys (if mixFlag =? 1 then
                    "http://www.loc.gov/mix/v10 http://www.loc.gov/standards/mix/mix10/mix10.xsd"
                  else "http://www.loc.gov/mix/v20 http://www.loc.gov/standards/mix/mix.xsd") in
  bdoi <-- mixBDOI p ;;
  bii <-- mixBII p ;;
  icm <-- mixICM p ;;
  iam <-- mixIAM p ;;
  Ok (Elt "mix:mix" [("xmlns:mix", ns); ("xmlns:xsi", xsi); ("xsi:schemaLocation", loc)] VNone
          ([bdoi; bii] ++ (match truthy icm with Some x => [x] | None => [] end) ++ [iam])).

End MixModel.

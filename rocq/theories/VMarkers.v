(** * Model of boxvalidator.py: validators of codestream marker segments *)

From Coq Require Import ZArith List Bool String SpecFloat.
From Coq Require Import Init.Byte.
From Verif Require Import Py PyFloat ByteConv Shared ETree BV.
Import ListNotations.
Open Scope string_scope.
Open Scope list_scope.
Open Scope Z_scope.

(** Python [2 ** e]: an int for e >= 0, a float for e < 0, which is 0.0 below half of
    the least positive one, 2^-1074. *)
Definition pow2 (e : Z) : value :=
  if 0 <=? e then VInt (2 ^ e) else if e <? -1075 then VFloat (S754_zero false) else VFloat (round_pos false 1 (2 ^ (- e))).

(** Decoding table of ISO 8859-15: Latin-1 except eight positions. *)
Definition latin9 (b : byte) : Z :=
  match b with
  | xa4 => 8364 | xa6 => 352 | xa8 => 353 | xb4 => 381
  | xb8 => 382 | xbc => 338 | xbd => 339 | xbe => 376
  | _ => bz b
  end.

Section Validators.
Variable E : env.
Variable fuel : nat.
Variable f : self.

Let o := s_opts f.
Let c := s_contents f.
Let fmt := o_format o.
Let isfmt (s : string) : bool := String.eqb fmt s.
Let isHT : bool := isfmt "jph" || isfmt "jhc".
Let isP1 : bool := isfmt "jp2" || isfmt "j2c".
Let T (name : string) (b : bool) : M unit := testFor o name b.

(** boxvalidator.py:1773-1840: the "capability" string; None = the variable is
    never assigned (profile 8, or profile 0 with main level 8-15), so that its use
    at line 1842 raises UnboundLocalError. *)
Definition sizCapability (rsiz : Z) : option pystr :=
  let ext := Z.land (Z.shiftr rsiz 14) 15 in
  let profile := Z.land (Z.shiftr rsiz 8) 15 in
  let subLevel := Z.land (Z.shiftr rsiz 4) 15 in
  let mainLevel := Z.land rsiz 15 in
  let ml := str_of_Z mainLevel in
  let msl := ml ++ pys "; Sublevel " ++ str_of_Z subLevel in
  if ext =? 1 then Some (pys "CAP")
  else if ext =? 2 then Some (pys "ISO/IEC 15444-2")
  else if ext =? 3 then Some (pys "ISO/IEC 15444-2 + CAP")
  else if profile =? 0 then
    if mainLevel =? 0 then Some (pys "ISO/IEC 15444-1")
    else if mainLevel =? 1 then Some (pys "Profile 0")
    else if mainLevel =? 2 then Some (pys "Profile 1")
    else if mainLevel =? 3 then Some (pys "2K digital cinema profile")
    else if mainLevel =? 4 then Some (pys "4K digital cinema profile")
    else if mainLevel =? 5 then Some (pys "Scalable 2K digital cinema profile")
    else if mainLevel =? 6 then Some (pys "Scalable 4K digital cinema profile")
    else if mainLevel =? 7 then Some (pys "Long-term storage profile")
    else None
  else if profile =? 1 then Some (pys "Broadcast Contribution Single Tile Profile, Mainlevel " ++ ml)
  else if profile =? 2 then Some (pys "Broadcast Contribution Multi-tile Profile, Mainlevel " ++ ml)
  else if profile =? 3 then
    Some (pys "Broadcast Contribution Multi-tile Reversible Profile, Mainlevel " ++ ml)
  else if profile =? 4 then Some (pys "2k IMF Single Tile Lossy Profile, Mainlevel " ++ msl)
  else if profile =? 5 then Some (pys "4k IMF Single Tile Lossy Profile, Mainlevel " ++ msl)
  else if profile =? 6 then Some (pys "8k IMF Single Tile Lossy Profile, Mainlevel " ++ msl)
  else if profile =? 7 then
    Some (pys "2k IMF Single/Multi Tile Reversible Profile, Mainlevel " ++ msl)
  else if profile =? 8 then None
  else if profile =? 9 then
    Some (pys "8k IMF Single/Multi Tile Reversible Profile, Mainlevel " ++ msl)
  else if (profile =? 15) && (subLevel =? 15) && (mainLevel =? 15) then
    Some (pys "Profile signalled in Profile Marker")
  else Some (pys "Unknown (value not defined in ISO/IEC 15444-1)").

(** boxvalidator.py:1902-1911 *)
Definition sizNumberOfTiles (xsiz ysiz xTOsiz yTOsiz xTsiz yTsiz : Z) : Z :=
  if negb (xTsiz =? 0) && negb (yTsiz =? 0) then
    ceil_float (int_div (xsiz - xTOsiz) xTsiz) * ceil_float (int_div (ysiz - yTOsiz) yTsiz)
  else 0.

(** boxvalidator.py:1747-1966 *)
Definition validate_siz : M unit :=
  let lsiz := bytesToUShortInt (slice c 0 2) in
  addInt "lsiz" lsiz ;;
  T "lsizIsValid" (in_rng lsiz 41 49190) ;;
  let rsiz := bytesToUShortInt (slice c 2 4) in
  addInt "rsiz" rsiz ;;
  (if isP1 then T "rsizIsValid" (Z.land (Z.shiftr rsiz 12) 15 =? 0)
   else when isHT (T "rsizIsValid" (getBitValueW rsiz 2 16 =? 1))) ;;
  capability <- match sizCapability rsiz with
                | Some s => ret s
                | None => raise UnboundLocalError
                end ;;
  addCharacteristic "capability" (VStr capability) ;;
  let xsiz := bytesToUInt (slice c 4 8) in
  addInt "xsiz" xsiz ;;
  T "xsizIsValid" (in_rng xsiz 1 (2 ^ 32 - 1)) ;;
  let ysiz := bytesToUInt (slice c 8 12) in
  addInt "ysiz" ysiz ;;
  T "ysizIsValid" (in_rng ysiz 1 (2 ^ 32 - 1)) ;;
  let xOsiz := bytesToUInt (slice c 12 16) in
  addInt "xOsiz" xOsiz ;;
  T "xOsizIsValid" (in_rng xOsiz 0 (2 ^ 32 - 2)) ;;
  let yOsiz := bytesToUInt (slice c 16 20) in
  addInt "yOsiz" yOsiz ;;
  T "yOsizIsValid" (in_rng yOsiz 0 (2 ^ 32 - 2)) ;;
  let xTsiz := bytesToUInt (slice c 20 24) in
  addInt "xTsiz" xTsiz ;;
  T "xTsizIsValid" (in_rng xTsiz 1 (2 ^ 32 - 1)) ;;
  let yTsiz := bytesToUInt (slice c 24 28) in
  addInt "yTsiz" yTsiz ;;
  T "yTsizIsValid" (in_rng yTsiz 1 (2 ^ 32 - 1)) ;;
  let xTOsiz := bytesToUInt (slice c 28 32) in
  addInt "xTOsiz" xTOsiz ;;
  T "xTOsizIsValid" (in_rng xTOsiz 0 (2 ^ 32 - 2)) ;;
  let yTOsiz := bytesToUInt (slice c 32 36) in
  addInt "yTOsiz" yTOsiz ;;
  T "yTOsizIsValid" (in_rng yTOsiz 0 (2 ^ 32 - 2)) ;;
  addInt "numberOfTiles" (sizNumberOfTiles xsiz ysiz xTOsiz yTOsiz xTsiz yTsiz) ;;
  let csiz := bytesToUShortInt (slice c 36 38) in
  addInt "csiz" csiz ;;
  T "csizIsValid" (in_rng csiz 1 16384) ;;
  T "lsizConsistentWithCsiz" (lsiz =? 38 + 3 * csiz) ;;
  _ <- for_range csiz 38 (fun _ offset =>
    let ssiz := bytesToUnsignedChar (slice c offset (offset + 1)) in
    addInt "ssizSign" (getBitValue ssiz 1) ;;
    let ssizDepth := Z.land ssiz 127 + 1 in
    addInt "ssizDepth" ssizDepth ;;
    T "ssizIsValid" (in_rng ssizDepth 1 38) ;;
    let xRsiz := bytesToUnsignedChar (slice c (offset + 1) (offset + 2)) in
    addInt "xRsiz" xRsiz ;;
    T "xRsizIsValid" (in_rng xRsiz 1 255) ;;
    let yRsiz := bytesToUnsignedChar (slice c (offset + 2) (offset + 3)) in
    addInt "yRsiz" yRsiz ;;
    T "yRsizIsValid" (in_rng yRsiz 1 255) ;;
    ret (offset + 3)) ;;
  ret tt.

(** boxvalidator.py:2053-2085 (COD) and 2238-2271 (COC), textually identical:
    code-block size exponents, read at [off] and [off + 1]. *)
Definition codeBlockFields (off : Z) : M unit :=
  let we := bytesToUnsignedChar (slice c off (off + 1)) + 2 in
  addCharacteristic "codeBlockWidth" (pow2 we) ;;
  T "codeBlockWidthExponentIsValid" (in_rng we 2 10) ;;
  let he := bytesToUnsignedChar (slice c (off + 1) (off + 2)) + 2 in
  addCharacteristic "codeBlockHeight" (pow2 he) ;;
  T "codeBlockHeightExponentIsValid" (in_rng he 2 10) ;;
  T "sumHeightWidthExponentIsValid" (we + he <=? 12).

(** boxvalidator.py:2087-2131 (COD) and 2275-2318 (COC), textually identical:
    code-block style switches, read at [off]. *)
Definition codeBlockStyleFields (off : Z) : M unit :=
  let cbs := bytesToUnsignedChar (slice c off (off + 1)) in
  let onlyHT := if isHT then Z.land 192 cbs =? 64 else false in
  addInt "codingBypass" (getBitValue cbs 8) ;;
  when (negb onlyHT) (addInt "resetOnBoundaries" (getBitValue cbs 7)) ;;
  addInt "termOnEachPass" (getBitValue cbs 6) ;;
  addInt "vertCausalContext" (getBitValue cbs 5) ;;
  when (negb onlyHT) (addInt "predTermination" (getBitValue cbs 4)) ;;
  when (negb onlyHT) (addInt "segmentationSymbols" (getBitValue cbs 3)).

(** boxvalidator.py:2140-2179 (COD) and 2329-2376 (COC), textually identical:
    precinct sizes, explicit ones read from [off]. *)
Definition precinctFields (precincts levels off : Z) : M unit :=
  if precincts =? 1 then
    _ <- for_range (levels + 1) off (fun i offset =>
      let pb := bytesToUnsignedChar (slice c offset (offset + 1)) in
      let px := 2 ^ (Z.land pb 15) in
      addInt "precinctSizeX" px ;;
      T "precinctSizeXIsValid" (if negb (i =? 0) then 2 <=? px else true) ;;
      let py := 2 ^ (Z.land (Z.shiftr pb 4) 15) in
      addInt "precinctSizeY" py ;;
      T "precinctSizeYIsValid" (if negb (i =? 0) then 2 <=? py else true) ;;
      ret (offset + 1)) ;;
    ret tt
  else
    for_range (levels + 1) tt (fun _ _ =>
      addInt "precinctSizeX" (2 ^ 15) ;;
      addInt "precinctSizeY" (2 ^ 15)).

(** boxvalidator.py:1968-2179 *)
Definition validate_cod : M unit :=
  let lcod := bytesToUShortInt (slice c 0 2) in
  addInt "lcod" lcod ;;
  T "lcodIsValid" (in_rng lcod 12 45) ;;
  let scod := bytesToUnsignedChar (slice c 2 3) in
  let precincts := getBitValue scod 8 in
  addInt "precincts" precincts ;;
  addInt "sop" (getBitValue scod 7) ;;
  addInt "eph" (getBitValue scod 6) ;;
  let sGcod := slice c 3 7 in
  let order := bytesToUnsignedChar (slice sGcod 0 1) in
  addInt "order" order ;;
  T "orderIsValid" (Zin order [0; 1; 2; 3; 4]) ;;
  let layers := bytesToUShortInt (slice sGcod 1 3) in
  addInt "layers" layers ;;
  T "layersIsValid" (in_rng layers 1 65535) ;;
  let mct := bytesToUnsignedChar (slice sGcod 3 4) in
  addInt "multipleComponentTransformation" mct ;;
  T "multipleComponentTransformationIsValid" (Zin mct [0; 1]) ;;
  let levels := bytesToUnsignedChar (slice c 7 8) in
  addInt "levels" levels ;;
  T "levelsIsValid" (in_rng levels 0 32) ;;
  let lcodExpected := if precincts =? 1 then 13 + levels else 12 in
  T "lcodConsistencyCheck" (lcod =? lcodExpected) ;;
  codeBlockFields 8 ;;
  codeBlockStyleFields 10 ;;
  let transformation := bytesToUnsignedChar (slice c 11 12) in
  addInt "transformation" transformation ;;
  T "transformationIsValid" (Zin transformation [0; 1]) ;;
  precinctFields precincts levels 12.

(** boxvalidator.py:2181-2376; [self.csiz < 257] raises TypeError if csiz was not
    supplied. *)
Definition validate_coc : M unit :=
  let lcoc := bytesToUShortInt (slice c 0 2) in
  addInt "lcoc" lcoc ;;
  T "lcocIsValid" (in_rng lcoc 9 43) ;;
  csiz <- lift (as_int (s_csiz f)) ;;
  let '(ccoc, ccocIsValid, offset) :=
    if csiz <? 257 then
      let v := bytesToUnsignedChar (slice c 2 3) in (v, in_rng v 0 255, 3)
    else
      let v := bytesToUShortInt (slice c 2 4) in (v, in_rng v 0 16383, 4) in
  addInt "ccoc" ccoc ;;
  T "ccocIsValid" ccocIsValid ;;
  let scoc := bytesToUnsignedChar (slice c offset (offset + 1)) in
  let precincts := getBitValue scoc 8 in
  addInt "precincts" precincts ;;
  let levels := bytesToUnsignedChar (slice c (offset + 1) (offset + 2)) in
  addInt "levels" levels ;;
  T "levelsIsValid" (in_rng levels 0 32) ;;
  let lcocExpected :=
    if (precincts =? 1) && (csiz <? 257) then 10 + levels
    else if (precincts =? 1) && (257 <=? csiz) then 11 + levels
    else if (precincts =? 0) && (csiz <? 257) then 9
    else 10 in
  T "lcocConsistencyCheck" (lcoc =? lcocExpected) ;;
  codeBlockFields (offset + 2) ;;
  codeBlockStyleFields (offset + 4) ;;
  let transformation := bytesToUnsignedChar (slice c (offset + 5) (offset + 6)) in
  addInt "transformation" transformation ;;
  T "transformationIsValid" (Zin transformation [0; 1]) ;;
  precinctFields precincts levels (offset + 6).

(** boxvalidator.py:2378-2422 *)
Definition validate_rgn : M unit :=
  let lrgn := bytesToUShortInt (slice c 0 2) in
  addInt "lrgn" lrgn ;;
  T "lrgnIsValid" (in_rng lrgn 5 6) ;;
  csiz <- lift (as_int (s_csiz f)) ;;
  let '(crgn, crgnIsValid, offset) :=
    if csiz <? 257 then
      let v := bytesToUnsignedChar (slice c 2 3) in (v, in_rng v 0 255, 3)
    else
      let v := bytesToUShortInt (slice c 2 4) in (v, in_rng v 0 16383, 4) in
  addInt "crgn" crgn ;;
  T "crgnIsValid" crgnIsValid ;;
  let roiStyle := bytesToUnsignedChar (slice c offset (offset + 1)) in
  addInt "roiStyle" roiStyle ;;
  T "roiStyleIsValid" (roiStyle =? 0) ;;
  let roiShift := bytesToUnsignedChar (slice c (offset + 1) (offset + 2)) in
  addInt "roiShift" roiShift ;;
  T "roiShiftIsValid" (if isHT then in_rng roiShift 0 37 else in_rng roiShift 0 255).

(** boxvalidator.py:2460-2496 (QCD) and 2558-2592 (QCC), textually identical:
    quantisation step sizes read from [off]. *)
Definition stepSizeFields (qStyle levels off : Z) : M unit :=
  if qStyle =? 0 then
    _ <- for_range levels off (fun _ offset =>
      let spq := bytesToUnsignedChar (slice c offset (offset + 1)) in
      addInt "epsilon" (Z.land (Z.shiftr spq 3) 31) ;;
      ret (offset + 1)) ;;
    ret tt
  else if qStyle =? 1 then
    let spq := bytesToUShortInt (slice c off (off + 2)) in
    addInt "mu" (Z.land spq 2047) ;;
    addInt "epsilon" (Z.land (Z.shiftr spq 11) 31)
  else if qStyle =? 2 then
    _ <- for_range levels off (fun _ offset =>
      let spq := bytesToUShortInt (slice c offset (offset + 2)) in
      addInt "mu" (Z.land spq 2047) ;;
      addInt "epsilon" (Z.land (Z.shiftr spq 11) 31) ;;
      ret (offset + 2)) ;;
    ret tt
  else ret tt.

(** boxvalidator.py:2424-2499.  [levels] is unassigned, and unused, for styles
    other than 0 and 2 (0 here). *)
Definition validate_qcd : M unit :=
  let lqcd := bytesToUShortInt (slice c 0 2) in
  addInt "lqcd" lqcd ;;
  T "lqcdIsValid" (in_rng lqcd 4 197) ;;
  let sqcd := bytesToUnsignedChar (slice c 2 3) in
  let qStyle := Z.land sqcd 31 in
  addInt "qStyle" qStyle ;;
  T "qStyleIsValid" (Zin qStyle [0; 1; 2]) ;;
  addInt "guardBits" (Z.land (Z.shiftr sqcd 5) 7) ;;
  let levels := if qStyle =? 0 then int_quot (lqcd - 4) 3
                else if qStyle =? 2 then int_quot (lqcd - 5) 6 else 0 in
  stepSizeFields qStyle levels 3.

(** boxvalidator.py:2501-2595.  The first computation of [levels] (2541-2544) is
    always overwritten by the second one (2546-2553) and is omitted.  Note that
    the offset is not advanced past sqcc, exactly as in the code. *)
Definition validate_qcc : M unit :=
  let lqcc := bytesToUShortInt (slice c 0 2) in
  addInt "lqcc" lqcc ;;
  T "lqccIsValid" (in_rng lqcc 5 199) ;;
  csiz <- lift (as_int (s_csiz f)) ;;
  let '(cqcc, offset) :=
    if csiz <? 257 then (bytesToUnsignedChar (slice c 2 3), 3)
    else (bytesToUShortInt (slice c 2 4), 4) in
  addInt "cqcc" cqcc ;;
  let sqcc := bytesToUnsignedChar (slice c offset (offset + 1)) in
  let qStyle := Z.land sqcc 31 in
  addInt "qStyle" qStyle ;;
  T "qStyleIsValid" (Zin qStyle [0; 1; 2]) ;;
  addInt "guardBits" (Z.land (Z.shiftr sqcc 5) 7) ;;
  let levels :=
    if (qStyle =? 0) && (csiz <? 257) then int_quot (lqcc - 5) 3
    else if (qStyle =? 2) && (csiz <? 257) then int_quot (lqcc - 6) 6
    else if (qStyle =? 0) && (257 <=? csiz) then int_quot (lqcc - 6) 3
    else if (qStyle =? 2) && (257 <=? csiz) then int_quot (lqcc - 7) 6
    else 0 in
  stepSizeFields qStyle levels offset.

(** boxvalidator.py:2597-2680 *)
Definition validate_poc : M unit :=
  let lpoc := bytesToUShortInt (slice c 0 2) in
  addInt "lpoc" lpoc ;;
  T "lpocIsValid" (in_rng lpoc 9 65535) ;;
  csiz <- lift (as_int (s_csiz f)) ;;
  let changes := if csiz <? 257 then int_quot (lpoc - 2) 7 else int_quot (lpoc - 2) 9 in
  _ <- for_range changes 2 (fun _ offset =>
    let rspoc := bytesToUnsignedChar (slice c offset (offset + 1)) in
    addInt "rspoc" rspoc ;;
    T "rspocIsValid" (in_rng rspoc 0 32) ;;
    let offset := offset + 1 in
    let '(cspoc, cspocIsValid, offset) :=
      if csiz <? 257 then
        let v := bytesToUnsignedChar (slice c offset (offset + 1)) in
        (v, in_rng v 0 255, offset + 1)
      else
        let v := bytesToUShortInt (slice c offset (offset + 2)) in
        (v, in_rng v 0 16383, offset + 2) in
    addInt "cspoc" cspoc ;;
    T "cspocIsValid" cspocIsValid ;;
    let lyepoc := bytesToUShortInt (slice c offset (offset + 2)) in
    addInt "lyepoc" lyepoc ;;
    T "lyepocIsValid" (in_rng lyepoc 1 65535) ;;
    let offset := offset + 2 in
    let repoc := bytesToUnsignedChar (slice c offset (offset + 1)) in
    addInt "repoc" repoc ;;
    T "repocIsValid" (in_rng repoc (rspoc + 1) 33) ;;
    let offset := offset + 1 in
    let '(cepoc, cepocIsValid, offset) :=
      if csiz <? 257 then
        let v := bytesToUnsignedChar (slice c offset (offset + 1)) in
        (v, in_rng v (cspoc + 1) 255 || (v =? 0), offset + 1)
      else
        let v := bytesToUShortInt (slice c offset (offset + 2)) in
        (v, in_rng v (cspoc + 1) 16384 || (v =? 0), offset + 2) in
    addInt "cepoc" cepoc ;;
    T "cepocIsValid" cepocIsValid ;;
    let order := bytesToUnsignedChar (slice c offset (offset + 1)) in
    addInt "order" order ;;
    T "orderIsValid" (Zin order [0; 1; 2; 3; 4]) ;;
    ret (offset + 1)) ;;
  ret tt.

(** boxvalidator.py:2682-2706 *)
Definition validate_crg : M unit :=
  let lcrg := bytesToUShortInt (slice c 0 2) in
  addInt "lcrg" lcrg ;;
  T "lcrgIsValid" (in_rng lcrg 6 65534) ;;
  csiz <- lift (as_int (s_csiz f)) ;;
  _ <- for_range csiz 2 (fun _ offset =>
    let xcrg := bytesToUShortInt (slice c offset (offset + 2)) in
    addInt "xcrg" xcrg ;;
    T "xcrgIsValid" (in_rng xcrg 0 65535) ;;
    let offset := offset + 2 in
    let ycrg := bytesToUShortInt (slice c offset (offset + 2)) in
    addInt "ycrg" ycrg ;;
    T "ycrgIsValid" (in_rng ycrg 0 65535) ;;
    ret (offset + 2)) ;;
  ret tt.

(** boxvalidator.py:2708-2764 *)
Definition validate_com : M unit :=
  let lcom := bytesToUShortInt (slice c 0 2) in
  addInt "lcom" lcom ;;
  T "lcomIsValid" (in_rng lcom 5 65535) ;;
  let rcom := bytesToUShortInt (slice c 2 4) in
  addInt "rcom" rcom ;;
  T "rcomIsValid" (in_rng rcom 0 1) ;;
  let raw := slice c 4 lcom in
  let '(commentIsValid, comment) :=
    if rcom =? 0 then (true, VBytes (bytesToHex raw))
    else if rcom =? 1 then
      let s := map latin9 raw in
      (pystr_eqb (removeControlCharacters (catC E) s) s, VStr s)
    else (false, VBytes raw) in
  T "commentIsValid" commentIsValid ;;
  when commentIsValid (addCharacteristic "comment" comment).

(** boxvalidator.py:2776-2784: numbers i + 1 of the non-zero bits, most
    significant first; [k] bits are left. *)
Fixpoint pcapPartsFrom (k : nat) (i pcap : Z) : list Z :=
  match k with
  | O => []
  | S k' =>
      if Z.land (Z.shiftr pcap (Z.of_nat k')) 1 =? 1
      then (i + 1) :: pcapPartsFrom k' (i + 1) pcap
      else pcapPartsFrom k' (i + 1) pcap
  end.

Fixpoint addParts (l : list Z) : M unit :=
  match l with
  | [] => ret tt
  | p :: l' => addInt "pcapPart" p ;; addParts l'
  end.

Fixpoint zindex (i x : Z) (l : list Z) : option Z :=
  match l with
  | [] => None
  | y :: l' => if x =? y then Some i else zindex (i + 1) x l'
  end.

(** boxvalidator.py:2837-2848 *)
Definition capHtB (p : Z) : Z :=
  if p =? 0 then 8
  else if p <? 20 then p + 8
  else if (20 <=? p) && (p <? 31) then 4 * (p - 19) + 27
  else 74.

(** boxvalidator.py:2766-2850.  The list of all Ccap values (2800-2808) is not
    built; the single one that is used is read at its position. *)
Definition validate_cap : M unit :=
  let lcap := bytesToUShortInt (slice c 0 2) in
  addInt "lcap" lcap ;;
  let pcap := bytesToUInt (slice c 2 6) in
  let parts := pcapPartsFrom 32 0 pcap in
  addParts parts ;;
  T "lcapIsValid" (float_eq_Z (int_div (lcap - 6) 2) (len parts)) ;;
  when isHT
    (T "pcap15IsValid" (Zin 15 parts) ;;
     match zindex 0 15 parts with
     | None => ret tt
     | Some i =>
         let offset := 6 + 2 * i in
         let ccap := bytesToUShortInt (slice c offset (offset + 2)) in
         addInt "htCodeBlocks" (Z.land 49152 ccap) ;;
         addInt "htSets" (getBitValueW ccap 3 16) ;;
         addInt "htRegion" (getBitValueW ccap 4 16) ;;
         addInt "htHomogeneous" (getBitValueW ccap 5 16) ;;
         addInt "htReversible" (getBitValueW ccap 11 16) ;;
         addInt "htB" (capHtB (Z.land ccap 31))
     end).

(** boxvalidator.py:2852-2877.  The offset is never advanced, as in the code. *)
Definition validate_prf : M unit :=
  let lprf := bytesToUShortInt (slice c 0 2) in
  addInt "lprf" lprf ;;
  T "lprfIsValid" (in_rng lprf 4 65534) ;;
  let nopprfs := int_quot (lprf - 2) 2 in
  PRFnum <- for_range nopprfs 4095 (fun i num =>
    let pprf := bytesToUShortInt (slice c 2 4) in
    when (i =? nopprfs) (T "pprfIsValid" (negb (pprf =? 0))) ;;
    ret (num + pprf * 2 ^ (16 * i))) ;;
  T "PRFnumIsValid" (4095 <? PRFnum) ;;
  addInt "PRFnum" PRFnum.

(** boxvalidator.py:2879-2905 *)
Definition validate_cpf : M unit :=
  let lcpf := bytesToUShortInt (slice c 0 2) in
  addInt "lcpf" lcpf ;;
  when isHT (T "lcpIsValid" (in_rng lcpf 4 65534)) ;;
  let nopcpfs := int_quot (lcpf - 2) 2 in
  CPFnum <- for_range nopcpfs (-1) (fun i num =>
    let pcpf := bytesToUShortInt (slice c 2 4) in
    when (i =? nopcpfs) (when isHT (T "pcpfIsValid" (negb (pcpf =? 0)))) ;;
    ret (num + pcpf * 2 ^ (16 * i))) ;;
  addInt "CPFnum" CPFnum.

(** boxvalidator.py:2907-2950 *)
Definition validate_sot : M unit :=
  let lsot := bytesToUShortInt (slice c 0 2) in
  addInt "lsot" lsot ;;
  T "lsotIsValid" (lsot =? 10) ;;
  let isot := bytesToUShortInt (slice c 2 4) in
  addInt "isot" isot ;;
  T "isotIsValid" (in_rng isot 0 65534) ;;
  let psot := bytesToUInt (slice c 4 8) in
  addInt "psot" psot ;;
  T "psotIsValid" (negb (in_rng psot 1 13)) ;;
  let tpsot := bytesToUnsignedChar (slice c 8 9) in
  addInt "tpsot" tpsot ;;
  T "tpsotIsValid" (in_rng tpsot 0 254) ;;
  let tnsot := bytesToUnsignedChar (slice c 9 10) in
  addInt "tnsot" tnsot ;;
  set_tpl (VInt psot).

(** boxvalidator.py:2962-2981 *)
Definition validate_plm : M unit :=
  let lplm := bytesToUShortInt (slice c 0 2) in
  addInt "lplm" lplm ;;
  addInt "zplm" (bytesToUnsignedChar (slice c 2 3)) ;;
  addInt "nplm" (bytesToUnsignedChar (slice c 3 4)) ;;
  iplm <- lift (parse_ipl fuel c lplm 4) ;;
  addCharacteristic "iplm" (VStr iplm).

(** boxvalidator.py:2983-2998 *)
Definition validate_plt : M unit :=
  let lplt := bytesToUShortInt (slice c 0 2) in
  addInt "lplt" lplt ;;
  addInt "zplt" (bytesToUnsignedChar (slice c 2 3)) ;;
  iplt <- lift (parse_ipl fuel c lplt 3) ;;
  addCharacteristic "iplt" (VStr iplt).

(** boxvalidator.py:2959-2960, 3000-3004: empty functions. *)
Definition validate_tlm : M unit := ret tt.
Definition validate_ppm : M unit := ret tt.
Definition validate_ppt : M unit := ret tt.

End Validators.

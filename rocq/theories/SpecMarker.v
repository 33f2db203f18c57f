(** * Specifications: codestream marker segments

    The content [c] of a marker segment starts with its length field (the marker
    itself is not part of it).  As in SpecBox.v, tests are given as (name,
    condition) and properties as (name, value), written in terms of the bytes. *)

From Coq Require Import ZArith List Bool String.
From Coq Require Import Init.Byte.
From Coq Require SpecFloat.
From Verif Require Import Py PyFloat ETree BV Spec SpecBox.
Import ListNotations.
Open Scope string_scope.
Open Scope list_scope.
Open Scope Z_scope.

(** Part 1 formats and high-throughput (part 15) formats. *)
Definition fmt_p1 (fmt : string) : bool := fmt_is fmt "jp2" || fmt_is fmt "j2c".
Definition fmt_ht (fmt : string) : bool := fmt_is fmt "jph" || fmt_is fmt "jhc".

(** [x] is at least [lo] and at most [hi]. *)
Definition btw (lo x hi : Z) : Prop := lo <= x <= hi.

(** Bits [k], ..., [k+n-1]. *)
Definition bitsk (x k n : Z) : Z := x / 2 ^ k mod 2 ^ n.

(** ** SIZ *)

(** Names of the capabilities (ISO/IEC 15444-1 Table A.10). *)
Definition cap_level0 : list string :=
  [ "ISO/IEC 15444-1"; "Profile 0"; "Profile 1"; "2K digital cinema profile";
    "4K digital cinema profile"; "Scalable 2K digital cinema profile";
    "Scalable 4K digital cinema profile"; "Long-term storage profile" ].
Definition cap_broadcast : list string :=
  [ "Broadcast Contribution Single Tile Profile, Mainlevel ";
    "Broadcast Contribution Multi-tile Profile, Mainlevel ";
    "Broadcast Contribution Multi-tile Reversible Profile, Mainlevel " ].
Definition cap_imf : list (Z * string) :=
  [ (4, "2k IMF Single Tile Lossy Profile, Mainlevel ");
    (5, "4k IMF Single Tile Lossy Profile, Mainlevel ");
    (6, "8k IMF Single Tile Lossy Profile, Mainlevel ");
    (7, "2k IMF Single/Multi Tile Reversible Profile, Mainlevel ");
    (9, "8k IMF Single/Multi Tile Reversible Profile, Mainlevel ") ].

(** Text shown for a capability value; None if the code has none (see C22). *)
Definition siz_capability (rsiz : Z) : option pystr :=
  let ext := bitsk rsiz 14 4 in
  let prof := bitsk rsiz 8 4 in
  let slev := bitsk rsiz 4 4 in
  let mlev := bitsk rsiz 0 4 in
  match List.find (fun p => fst p =? ext)
          [ (1, "CAP"); (2, "ISO/IEC 15444-2"); (3, "ISO/IEC 15444-2 + CAP") ],
        List.find (fun p => fst p =? prof) cap_imf with
  | Some (_, s), _ => Some (pys s)
  | None, Some (_, s) => Some (pys s ++ str_of_Z mlev ++ pys "; Sublevel " ++ str_of_Z slev)
  | None, None =>
      if prof =? 0 then option_map pys (nth_error cap_level0 (Z.to_nat mlev))
      else if prof <=? 3 then
        option_map (fun s => pys s ++ str_of_Z mlev) (nth_error cap_broadcast (Z.to_nat (prof - 1)))
      else if prof =? 8 then None
      else if rsiz mod 4096 =? 4095 then Some (pys "Profile signalled in Profile Marker")
      else Some (pys "Unknown (value not defined in ISO/IEC 15444-1)")
  end.

(** Ceiling of the exact quotient. *)
Definition cdiv (a b : Z) : Z := - ((- a) / b).

(** Number of tiles on the reference grid (ISO/IEC 15444-1 equation B-5). *)
Definition siz_tiles (c : bytes) : Z :=
  let xT := val c 20 4 in let yT := val c 24 4 in
  if (xT =? 0) || (yT =? 0) then 0
  else cdiv (val c 4 4 - val c 28 4) xT * cdiv (val c 8 4 - val c 32 4) yT.

Definition siz_tests (fmt : string) (c : bytes) : list (string * Prop) :=
  [ ("lsizIsValid", btw 41 (val c 0 2) 49190) ] ++
  (if fmt_p1 fmt then [ ("rsizIsValid", bitsk (val c 2 2) 12 4 = 0) ]
   else if fmt_ht fmt then [ ("rsizIsValid", bitk (val c 2 2) 14 = 1) ] else []) ++
  [ ("xsizIsValid", btw 1 (val c 4 4) 4294967295);
    ("ysizIsValid", btw 1 (val c 8 4) 4294967295);
    ("xOsizIsValid", btw 0 (val c 12 4) 4294967294);
    ("yOsizIsValid", btw 0 (val c 16 4) 4294967294);
    ("xTsizIsValid", btw 1 (val c 20 4) 4294967295);
    ("yTsizIsValid", btw 1 (val c 24 4) 4294967295);
    ("xTOsizIsValid", btw 0 (val c 28 4) 4294967294);
    ("yTOsizIsValid", btw 0 (val c 32 4) 4294967294);
    ("csizIsValid", btw 1 (val c 36 2) 16384);
    ("lsizConsistentWithCsiz", val c 0 2 = 38 + 3 * val c 36 2) ] ++
  flat_map (fun i =>
    [ ("ssizIsValid", cdepth (val c (38 + 3 * i) 1) <= 38);
      ("xRsizIsValid", btw 1 (val c (39 + 3 * i) 1) 255);
      ("yRsizIsValid", btw 1 (val c (40 + 3 * i) 1) 255) ]) (zseq (val c 36 2)).

Definition siz_props (cap : pystr) (c : bytes) : list (string * value) :=
  [ ("lsiz", VInt (val c 0 2)); ("rsiz", VInt (val c 2 2)); ("capability", VStr cap);
    ("xsiz", VInt (val c 4 4)); ("ysiz", VInt (val c 8 4));
    ("xOsiz", VInt (val c 12 4)); ("yOsiz", VInt (val c 16 4));
    ("xTsiz", VInt (val c 20 4)); ("yTsiz", VInt (val c 24 4));
    ("xTOsiz", VInt (val c 28 4)); ("yTOsiz", VInt (val c 32 4));
    ("numberOfTiles", VInt (siz_tiles c)); ("csiz", VInt (val c 36 2)) ] ++
  flat_map (fun i =>
    [ ("ssizSign", VInt (csign (val c (38 + 3 * i) 1)));
      ("ssizDepth", VInt (cdepth (val c (38 + 3 * i) 1)));
      ("xRsiz", VInt (val c (39 + 3 * i) 1)); ("yRsiz", VInt (val c (40 + 3 * i) 1)) ])
    (zseq (val c 36 2)).

(** ** COD and COC *)
(** Code-block exponents stored at [off], [off]+1. *)
Definition cb_tests (c : bytes) (off : Z) : list (string * Prop) :=
  [ ("codeBlockWidthExponentIsValid", btw 0 (val c off 1) 8);
    ("codeBlockHeightExponentIsValid", btw 0 (val c (off + 1) 1) 8);
    ("sumHeightWidthExponentIsValid", val c off 1 + val c (off + 1) 1 <= 8) ].
(** 2 ** (field + 2); for a missing field the code shows 0.0. *)
Definition cb_size (v : Z) : value :=
  if v =? -9999 then VFloat (SpecFloat.S754_zero false) else VInt (4 * 2 ^ v).
Definition cb_props (c : bytes) (off : Z) : list (string * value) :=
  [ ("codeBlockWidth", cb_size (val c off 1)); ("codeBlockHeight", cb_size (val c (off + 1) 1)) ].

(** Code-block style; the switches that do not apply when all code-blocks are HT
    code-blocks (bits 7, 6 = 0, 1) are left out. *)
Definition cbs_props (fmt : string) (s : Z) : list (string * value) :=
  let full := negb (fmt_ht fmt && (bitk s 7 =? 0) && (bitk s 6 =? 1)) in
  [ ("codingBypass", VInt (bitk s 0)) ] ++
  (if full then [ ("resetOnBoundaries", VInt (bitk s 1)) ] else []) ++
  [ ("termOnEachPass", VInt (bitk s 2)); ("vertCausalContext", VInt (bitk s 3)) ] ++
  (if full then [ ("predTermination", VInt (bitk s 4)); ("segmentationSymbols", VInt (bitk s 5)) ]
   else []).

(** Precincts: explicit sizes for each resolution level, from [off] on, or the
    maximum 2^15 for all of them. *)
Definition prec_tests (explicit : bool) (c : bytes) (levels off : Z) : list (string * Prop) :=
  if explicit then
    flat_map (fun i =>
      [ ("precinctSizeXIsValid", i = 0 \/ 1 <= bitsk (val c (off + i) 1) 0 4);
        ("precinctSizeYIsValid", i = 0 \/ 1 <= bitsk (val c (off + i) 1) 4 4) ]) (zseq (levels + 1))
  else [].
Definition prec_props (explicit : bool) (c : bytes) (levels off : Z) : list (string * value) :=
  flat_map (fun i =>
    if explicit then
      [ ("precinctSizeX", VInt (2 ^ bitsk (val c (off + i) 1) 0 4));
        ("precinctSizeY", VInt (2 ^ bitsk (val c (off + i) 1) 4 4)) ]
    else [ ("precinctSizeX", VInt 32768); ("precinctSizeY", VInt 32768) ]) (zseq (levels + 1)).

Definition cod_explicit (c : bytes) : bool := bitk (val c 2 1) 0 =? 1.

Definition cod_tests (c : bytes) : list (string * Prop) :=
  [ ("lcodIsValid", btw 12 (val c 0 2) 45);
    ("orderIsValid", btw 0 (val c 3 1) 4);
    ("layersIsValid", btw 1 (val c 4 2) 65535);
    ("multipleComponentTransformationIsValid", btw 0 (val c 6 1) 1);
    ("levelsIsValid", btw 0 (val c 7 1) 32);
    ("lcodConsistencyCheck", val c 0 2 = if cod_explicit c then 13 + val c 7 1 else 12) ] ++
  cb_tests c 8 ++
  [ ("transformationIsValid", btw 0 (val c 11 1) 1) ] ++
  prec_tests (cod_explicit c) c (val c 7 1) 12.

Definition cod_props (fmt : string) (c : bytes) : list (string * value) :=
  [ ("lcod", VInt (val c 0 2)); ("precincts", VInt (bitk (val c 2 1) 0));
    ("sop", VInt (bitk (val c 2 1) 1)); ("eph", VInt (bitk (val c 2 1) 2));
    ("order", VInt (val c 3 1)); ("layers", VInt (val c 4 2));
    ("multipleComponentTransformation", VInt (val c 6 1)); ("levels", VInt (val c 7 1)) ] ++
  cb_props c 8 ++ cbs_props fmt (val c 10 1) ++
  [ ("transformation", VInt (val c 11 1)) ] ++
  prec_props (cod_explicit c) c (val c 7 1) 12.

(** Width of component indices: one byte for fewer than 257 components, and the
    largest index that passes. *)
Definition cwidth (csiz : Z) : Z := if csiz <? 257 then 1 else 2.
Definition cmax (csiz : Z) : Z := if csiz <? 257 then 255 else 16383.

Definition coc_explicit (csiz : Z) (c : bytes) : bool := bitk (val c (2 + cwidth csiz) 1) 0 =? 1.
Definition coc_levels (csiz : Z) (c : bytes) : Z := val c (3 + cwidth csiz) 1.

Definition coc_tests (csiz : Z) (c : bytes) : list (string * Prop) :=
  let w := cwidth csiz in
  [ ("lcocIsValid", btw 9 (val c 0 2) 43);
    ("ccocIsValid", btw 0 (val c 2 w) (cmax csiz));
    ("levelsIsValid", btw 0 (coc_levels csiz c) 32);
    ("lcocConsistencyCheck",
       val c 0 2 = if coc_explicit csiz c then 9 + w + coc_levels csiz c else 8 + w) ] ++
  cb_tests c (4 + w) ++
  [ ("transformationIsValid", btw 0 (val c (7 + w) 1) 1) ] ++
  prec_tests (coc_explicit csiz c) c (coc_levels csiz c) (8 + w).

Definition coc_props (fmt : string) (csiz : Z) (c : bytes) : list (string * value) :=
  let w := cwidth csiz in
  [ ("lcoc", VInt (val c 0 2)); ("ccoc", VInt (val c 2 w));
    ("precincts", VInt (bitk (val c (2 + w) 1) 0)); ("levels", VInt (coc_levels csiz c)) ] ++
  cb_props c (4 + w) ++ cbs_props fmt (val c (6 + w) 1) ++
  [ ("transformation", VInt (val c (7 + w) 1)) ] ++
  prec_props (coc_explicit csiz c) c (coc_levels csiz c) (8 + w).

(** ** RGN *)
Definition rgn_tests (fmt : string) (csiz : Z) (c : bytes) : list (string * Prop) :=
  let w := cwidth csiz in
  [ ("lrgnIsValid", btw 5 (val c 0 2) 6);
    ("crgnIsValid", btw 0 (val c 2 w) (cmax csiz));
    ("roiStyleIsValid", val c (2 + w) 1 = 0);
    ("roiShiftIsValid", btw 0 (val c (3 + w) 1) (if fmt_ht fmt then 37 else 255)) ].
Definition rgn_props (csiz : Z) (c : bytes) : list (string * value) :=
  let w := cwidth csiz in
  [ ("lrgn", VInt (val c 0 2)); ("crgn", VInt (val c 2 w));
    ("roiStyle", VInt (val c (2 + w) 1)); ("roiShift", VInt (val c (3 + w) 1)) ].

(** ** QCD and QCC *)
(** Quantisation step sizes as shown: [n] entries from [off] on. *)
Definition step_props (c : bytes) (style n off : Z) : list (string * value) :=
  if style =? 0 then
    map (fun i => ("epsilon", VInt (bitsk (val c (off + i) 1) 3 5))) (zseq n)
  else if style =? 1 then
    [ ("mu", VInt (bitsk (val c off 2) 0 11)); ("epsilon", VInt (bitsk (val c off 2) 11 5)) ]
  else if style =? 2 then
    flat_map (fun i => [ ("mu", VInt (bitsk (val c (off + 2 * i) 2) 0 11));
                         ("epsilon", VInt (bitsk (val c (off + 2 * i) 2) 11 5)) ]) (zseq n)
  else [].

(** Number of decomposition levels that a segment of length [l] with [h] header
    bytes describes: (l - h) / 3 (or / 6), rounded towards zero. *)
Definition step_levels (style l h : Z) : Z :=
  if style =? 0 then Z.quot (l - h) 3 else if style =? 2 then Z.quot (l - h - 1) 6 else 0.

Definition qcd_tests (c : bytes) : list (string * Prop) :=
  [ ("lqcdIsValid", btw 4 (val c 0 2) 197); ("qStyleIsValid", btw 0 (bitsk (val c 2 1) 0 5) 2) ].
Definition qcd_props (c : bytes) : list (string * value) :=
  let style := bitsk (val c 2 1) 0 5 in
  [ ("lqcd", VInt (val c 0 2)); ("qStyle", VInt style); ("guardBits", VInt (bitsk (val c 2 1) 5 3)) ] ++
  step_props c style (step_levels style (val c 0 2) 4) 3.

Definition qcc_tests (csiz : Z) (c : bytes) : list (string * Prop) :=
  [ ("lqccIsValid", btw 5 (val c 0 2) 199);
    ("qStyleIsValid", btw 0 (bitsk (val c (2 + cwidth csiz) 1) 0 5) 2) ].
(** What the code shows: the entries are read from the position of the style
    byte, one byte too early (see C32). *)
Definition qcc_props (csiz : Z) (c : bytes) : list (string * value) :=
  let w := cwidth csiz in
  let sq := val c (2 + w) 1 in
  let style := bitsk sq 0 5 in
  [ ("lqcc", VInt (val c 0 2)); ("cqcc", VInt (val c 2 w)); ("qStyle", VInt style);
    ("guardBits", VInt (bitsk sq 5 3)) ] ++
  step_props c style (step_levels style (val c 0 2) (4 + w)) (2 + w).

(** ** POC *)
Definition poc_n (csiz : Z) (c : bytes) : Z := Z.quot (val c 0 2 - 2) (5 + 2 * cwidth csiz).
Definition poc_off (csiz i : Z) : Z := 2 + (5 + 2 * cwidth csiz) * i.

Definition poc_tests (csiz : Z) (c : bytes) : list (string * Prop) :=
  let w := cwidth csiz in
  ("lpocIsValid", btw 9 (val c 0 2) 65535) ::
  flat_map (fun i =>
    let o := poc_off csiz i in
    let rs := val c o 1 in let cs := val c (o + 1) w in
    let re := val c (o + 3 + w) 1 in let ce := val c (o + 4 + w) w in
    [ ("rspocIsValid", btw 0 rs 32);
      ("cspocIsValid", btw 0 cs (cmax csiz));
      ("lyepocIsValid", btw 1 (val c (o + 1 + w) 2) 65535);
      ("repocIsValid", rs < re <= 33);
      ("cepocIsValid", cs < ce <= (if csiz <? 257 then 255 else 16384) \/ ce = 0);
      ("orderIsValid", btw 0 (val c (o + 4 + 2 * w) 1) 4) ]) (zseq (poc_n csiz c)).
Definition poc_props (csiz : Z) (c : bytes) : list (string * value) :=
  let w := cwidth csiz in
  ("lpoc", VInt (val c 0 2)) ::
  flat_map (fun i =>
    let o := poc_off csiz i in
    [ ("rspoc", VInt (val c o 1)); ("cspoc", VInt (val c (o + 1) w));
      ("lyepoc", VInt (val c (o + 1 + w) 2)); ("repoc", VInt (val c (o + 3 + w) 1));
      ("cepoc", VInt (val c (o + 4 + w) w)); ("order", VInt (val c (o + 4 + 2 * w) 1)) ])
    (zseq (poc_n csiz c)).

(** ** CRG *)
Definition crg_tests (csiz : Z) (c : bytes) : list (string * Prop) :=
  ("lcrgIsValid", btw 6 (val c 0 2) 65534) ::
  flat_map (fun i => [ ("xcrgIsValid", btw 0 (val c (2 + 4 * i) 2) 65535);
                       ("ycrgIsValid", btw 0 (val c (4 + 4 * i) 2) 65535) ]) (zseq csiz).
Definition crg_props (csiz : Z) (c : bytes) : list (string * value) :=
  ("lcrg", VInt (val c 0 2)) ::
  flat_map (fun i => [ ("xcrg", VInt (val c (2 + 4 * i) 2)); ("ycrg", VInt (val c (4 + 4 * i) 2)) ])
    (zseq csiz).

(** ** COM *)
(** ISO 8859-15: Latin-1 with eight replaced positions. *)
Definition iso8859_15 (b : byte) : Z :=
  match List.find (fun p => fst p =? bz b)
          [ (164, 8364); (166, 352); (168, 353); (180, 381);
            (184, 382); (188, 338); (189, 339); (190, 376) ] with
  | Some (_, u) => u
  | None => bz b
  end.
(** The comment bytes. *)
Definition com_raw (c : bytes) : bytes := sub c 4 (val c 0 2 - 4).

Definition com_ok (catC : Z -> bool) (c : bytes) : Prop :=
  val c 2 2 = 0 \/
  val c 2 2 = 1 /\ Forall (printable catC) (map iso8859_15 (com_raw c)).
Definition com_tests (catC : Z -> bool) (c : bytes) : list (string * Prop) :=
  [ ("lcomIsValid", btw 5 (val c 0 2) 65535); ("rcomIsValid", btw 0 (val c 2 2) 1);
    ("commentIsValid", com_ok catC c) ].
(** The comment is shown only if it passed. *)
Definition com_text (c : bytes) : value :=
  if val c 2 2 =? 0 then VBytes (map byte_of_Z (hexs (com_raw c)))
  else VStr (map iso8859_15 (com_raw c)).
Inductive com_props (catC : Z -> bool) (c : bytes) : list (string * value) -> Prop :=
| com_shown : com_ok catC c ->
    com_props catC c [ ("lcom", VInt (val c 0 2)); ("rcom", VInt (val c 2 2)); ("comment", com_text c) ]
| com_hidden : ~ com_ok catC c ->
    com_props catC c [ ("lcom", VInt (val c 0 2)); ("rcom", VInt (val c 2 2)) ].

(** ** CAP *)
(** Parts signalled: bit number k counted from the most significant of 32. *)
Definition cap_parts (c : bytes) : list Z :=
  filter (fun k => bitk (val c 2 4) (32 - k) =? 1) (map (Z.add 1) (zseq 32)).
(** Number of parts before part 15: position of its Ccap field. *)
Definition cap_before15 (c : bytes) : Z :=
  len (filter (fun k => k <? 15) (cap_parts c)).
Definition cap_has15 (c : bytes) : bool := existsb (Z.eqb 15) (cap_parts c).
Definition cap_ccap15 (c : bytes) : Z := val c (6 + 2 * cap_before15 c) 2.
(** Magnitude bound B of an HT codestream from its parameter P. *)
Definition cap_B (p : Z) : Z :=
  if p =? 0 then 8 else if p <? 20 then p + 8 else if p <? 31 then 4 * (p - 19) + 27 else 74.

Definition cap_tests (fmt : string) (c : bytes) : list (string * Prop) :=
  [ ("lcapIsValid", val c 0 2 = 6 + 2 * len (cap_parts c)) ] ++
  (if fmt_ht fmt then [ ("pcap15IsValid", In 15 (cap_parts c)) ] else []).
Definition cap_props (fmt : string) (c : bytes) : list (string * value) :=
  [ ("lcap", VInt (val c 0 2)) ] ++ map (fun k => ("pcapPart", VInt k)) (cap_parts c) ++
  (if fmt_ht fmt && cap_has15 c then
     let v := cap_ccap15 c in
     [ ("htCodeBlocks", VInt (16384 * bitsk v 14 2)); ("htSets", VInt (bitk v 13));
       ("htRegion", VInt (bitk v 12)); ("htHomogeneous", VInt (bitk v 11));
       ("htReversible", VInt (bitk v 5)); ("htB", VInt (cap_B (bitsk v 0 5))) ]
   else []).

(** ** PRF and CPF *)
(** What the code computes: the first entry is used for every position. *)
Definition rep16 (v n : Z) : Z := fold_right Z.add 0 (map (fun i => v * 2 ^ (16 * i)) (zseq n)).
Definition prf_num (c : bytes) : Z := 4095 + rep16 (val c 2 2) (Z.quot (val c 0 2 - 2) 2).
Definition cpf_num (c : bytes) : Z := -1 + rep16 (val c 2 2) (Z.quot (val c 0 2 - 2) 2).
Definition prf_tests (c : bytes) : list (string * Prop) :=
  [ ("lprfIsValid", btw 4 (val c 0 2) 65534); ("PRFnumIsValid", 4095 < prf_num c) ].
Definition prf_props (c : bytes) : list (string * value) :=
  [ ("lprf", VInt (val c 0 2)); ("PRFnum", VInt (prf_num c)) ].
Definition cpf_tests (fmt : string) (c : bytes) : list (string * Prop) :=
  if fmt_ht fmt then [ ("lcpIsValid", btw 4 (val c 0 2) 65534) ] else [].
Definition cpf_props (c : bytes) : list (string * value) :=
  [ ("lcpf", VInt (val c 0 2)); ("CPFnum", VInt (cpf_num c)) ].
(** The number as defined in ISO/IEC 15444-1 A.5.3 / 15444-15 A.6: entry [i] has
    weight 2^(16 i). *)
Definition num16 (c : bytes) (n : Z) : Z :=
  fold_right Z.add 0 (map (fun i => val c (2 + 2 * i) 2 * 2 ^ (16 * i)) (zseq n)).

(** ** SOT *)
Definition sot_tests (c : bytes) : list (string * Prop) :=
  [ ("lsotIsValid", val c 0 2 = 10); ("isotIsValid", btw 0 (val c 2 2) 65534);
    ("psotIsValid", ~ btw 1 (val c 4 4) 13); ("tpsotIsValid", btw 0 (val c 8 1) 254) ].
Definition sot_props (c : bytes) : list (string * value) :=
  [ ("lsot", VInt (val c 0 2)); ("isot", VInt (val c 2 2)); ("psot", VInt (val c 4 4));
    ("tpsot", VInt (val c 8 1)); ("tnsot", VInt (val c 9 1)) ].

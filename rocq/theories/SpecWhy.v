(** * Why a file is not valid

    What the tests part of a report has to say: the requirements that are not met,
    each at its place.  The places are paths of element names below the root of the
    tests; the requirements are those of [SpecValid]. *)

From Coq Require Import ZArith List Bool String.
From Coq Require Import Init.Byte.
From Verif Require Import Py ETree BV Spec SpecBox SpecMarker SpecIPL SpecWalk SpecSuper SpecCS SpecFile SpecTop SpecValid.
Import ListNotations.
Open Scope string_scope.
Open Scope list_scope.
Open Scope Z_scope.

(** [leads v e q]: following the element names [q] from [e] downwards leads to an
    element with text [v]. *)
Inductive leads (v : value) : elt -> list string -> Prop :=
| leads_here e x : In x (ekids e) -> etext x = v -> leads v e [etag x]
| leads_below e x q : In x (ekids e) -> leads v x q -> leads v e (etag x :: q).
(** ... a failed test. *)
Definition failed : elt -> list string -> Prop := leads (VBool false).

(** The names of the tests in [L] that are not passed. *)
Definition broken (L : list (string * Prop)) (q : list string) : Prop :=
  exists n P, In (n, P) L /\ ~ P /\ q = [n].

(** The element names of boxes and marker segments. *)
Definition tags : list (bytes * string) :=
  [ (t_sig, "signatureBox"); (t_ftyp, "fileTypeBox"); (t_jp2h, "jp2HeaderBox"); (t_ihdr, "imageHeaderBox");
    (t_bpcc, "bitsPerComponentBox"); (t_colr, "colourSpecificationBox"); (t_pclr, "paletteBox");
    (t_cmap, "componentMappingBox"); (t_cdef, "channelDefinitionBox"); (t_res, "resolutionBox");
    (t_resc, "captureResolutionBox"); (t_resd, "displayResolutionBox"); (t_jp2c, "contiguousCodestreamBox");
    ([x6a; x70; x32; x69], "intellectualPropertyBox"); (t_xml, "xmlBox"); (t_uuid, "uuidBox"); (t_uinf, "uuidInfoBox");
    (t_ulst, "uuidListBox"); (t_url, "urlBox");
    (m_SIZ, "siz"); (m_COD, "cod"); (m_COC, "coc"); (m_QCD, "qcd"); (m_QCC, "qcc"); (m_RGN, "rgn"); (m_POC, "poc");
    (m_CRG, "crg"); (m_COM, "com"); (m_CAP, "cap"); (m_PRF, "prf"); (m_CPF, "cpf"); (m_PLT, "plt"); (m_PLM, "plm");
    ([xff; x55], "tlm"); (m_PPM, "ppm"); ([xff; x61], "ppt"); (m_SOT, "tilePart") ].
Definition tag_of (t : bytes) : string :=
  match List.find (fun p => bytes_eqb t (fst p)) tags with Some p => snd p | None => "unknownBox" end.

(** The tests of a box or marker segment without boxes inside. *)
Definition tests_of (E : env) (fmt : string) (n : option Z) (t x : bytes) : list (string * Prop) :=
  let is := bytes_eqb t in
  let comps (f : Z -> list (string * Prop)) := match n with Some k => f k | None => [] end in
  if is t_sig then sig_tests x
  else if is t_ftyp then ftyp_tests fmt x
  else if is t_ihdr then ihdr_tests x
  else if is t_bpcc then bpcc_tests x
  else if is t_colr then colr_tests fmt x
  else if is t_pclr then pclr_tests x
  else if is t_cmap then cmap_tests x
  else if is t_cdef then cdef_tests fmt x
  else if is t_resc then res_tests "c" x
  else if is t_resd then res_tests "d" x
  else if is t_xml then xml_tests (xml_parse E) x
  else if is t_uuid then uuid_tests (xml_parse E) x
  else if is t_ulst then ulst_tests x
  else if is t_url then url_tests x
  else if is m_SIZ then siz_tests fmt x
  else if is m_COD then cod_tests x
  else if is m_QCD then qcd_tests x
  else if is m_COM then com_tests (catC E) x
  else if is m_CAP then cap_tests fmt x
  else if is m_PRF then prf_tests x
  else if is m_CPF then cpf_tests fmt x
  else if is m_COC then comps (fun k => coc_tests k x)
  else if is m_QCC then comps (fun k => qcc_tests k x)
  else if is m_RGN then comps (fun k => rgn_tests fmt k x)
  else if is m_POC then comps (fun k => poc_tests k x)
  else if is m_CRG then comps (fun k => crg_tests k x)
  else [].

(** The marker segments of a header. *)
Definition seg_wrong (E : env) (fmt : string) (n : Z) (s : treat * bytes * bytes) (q : list string) : Prop :=
  let '(k, m, x) := s in
  broken (tests_of E fmt (match k with WithComponents => Some n | _ => None end) m x) q.

(** The tile part at [p]. *)
Inductive tile_wrong (E : env) (fmt : string) (c : bytes) (n p : Z) : list string -> Prop :=
| tw_sot q : broken (sot_tests (tp_sot c p)) q -> tile_wrong E fmt c n p ("sot" :: q)
| tw_seg l r s q : after m_SOD (skipn (Z.to_nat p) c) l r -> In s (treated tile_markers l) ->
    seg_wrong E fmt n s q -> tile_wrong E fmt c n p (tag_of (snd (fst s)) :: q)
| tw_own l r q : after m_SOD (skipn (Z.to_nat p) c) l r -> broken (tp_tests n c p l r) q ->
    tile_wrong E fmt c n p q.

(** A codestream.  Without SIZ in second place nothing else is looked at. *)
Inductive cs_wrong (E : env) (fmt : string) (c : bytes) : list string -> Prop :=
| cw_start q : broken (cs_tests1 c) q -> cs_wrong E fmt c q
| cw_siz q : sub (cs_second c) 0 2 = m_SIZ -> broken (siz_tests fmt (cs_siz c)) q -> cs_wrong E fmt c ("siz" :: q)
| cw_seg l rest s q : sub (cs_second c) 0 2 = m_SIZ -> after m_SOT (cs_second c) l rest ->
    In s (treated main_markers l) -> seg_wrong E fmt (cs_csiz c) s q -> cs_wrong E fmt c (tag_of (snd (fst s)) :: q)
| cw_tile l rest ps p q : sub (cs_second c) 0 2 = m_SIZ -> after m_SOT (cs_second c) l rest -> parts c rest ps ->
    In p ps -> tile_wrong E fmt c (cs_csiz c) p q -> cs_wrong E fmt c ("tileParts" :: "tilePart" :: q)
| cw_tiles l rest ps q : sub (cs_second c) 0 2 = m_SIZ -> after m_SOT (cs_second c) l rest -> parts c rest ps ->
    broken (cs_tests2 c l ps) q -> cs_wrong E fmt c q
| cw_end l rest q : sub (cs_second c) 0 2 = m_SIZ -> after m_SOT (cs_second c) l rest ->
    broken (cs_tests3 c l) q -> cs_wrong E fmt c q.

(** A superbox's own tests. *)
Definition super_tests (fmt : string) (t : bytes) (bs : list (bytes * bytes)) : list (string * Prop) :=
  if bytes_eqb t t_jp2h then jp2h_tests fmt bs
  else if bytes_eqb t t_res then res_super_tests (map fst bs)
  else uinf_tests (map fst bs).

(** A box. *)
Inductive box_wrong (E : env) (fmt : string) : bytes * bytes -> list string -> Prop :=
| bw_leaf t x q : ~ In t [t_jp2h; t_res; t_uinf; t_jp2c] -> broken (tests_of E fmt None t x) q ->
    box_wrong E fmt (t, x) q
| bw_own t x bs q : In t supers -> splits x bs -> broken (super_tests fmt t bs) q -> box_wrong E fmt (t, x) q
| bw_in t x bs b q : In t supers -> splits x bs -> In b bs -> box_wrong E fmt b q ->
    box_wrong E fmt (t, x) (tag_of (fst b) :: q)
| bw_cs x q : cs_wrong E fmt x q -> box_wrong E fmt (t_jp2c, x) q.

(** A file. *)
Inductive file_wrong (E : env) (fmt : string) (c : bytes) : list string -> Prop :=
| fw_own bs hs q : splits c bs -> headers bs hs -> broken (jp2_tests bs hs) q -> file_wrong E fmt c q
| fw_box bs b q : splits c bs -> In b bs -> box_wrong E fmt b q -> file_wrong E fmt c (tag_of (fst b) :: q).

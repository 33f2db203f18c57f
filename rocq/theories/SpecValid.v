(** * What a valid file is, as far as the code checks

    [file_ok] and [codestream_ok] put together the tests of all boxes and marker
    segments; nothing here refers to the validators. *)

From Coq Require Import ZArith List Bool String.
From Coq Require Import Init.Byte.
From Verif Require Import Py ETree BV Spec SpecBox SpecMarker SpecIPL SpecWalk SpecSuper SpecCS SpecFile.
Import ListNotations.
Open Scope string_scope.
Open Scope list_scope.
Open Scope Z_scope.

Definition t_xml  : bytes := [x78; x6d; x6c; x20].
Definition t_uuid : bytes := [x75; x75; x69; x64].

Definition uuid_tests (parse : bytes -> option elt) (x : bytes) : list (string * Prop) :=
  ("boxLengthIsValid", 16 < len x) ::
  (if bytes_eqb (sub x 0 16) xmp_uuid then xml_tests parse (sub x 16 (len x - 16)) else []).

(** What is demanded of a box or marker segment without boxes inside.  [n] is the
    number of components where it is known.  Four-byte types and two-byte markers
    share one table in the code: a box whose type field is cut off after two bytes
    may be taken for a marker segment.  SIZ must have a capability value the code
    knows; packet lengths must end. *)
Definition need (E : env) (fmt : string) (n : option Z) (t x : bytes) : Prop :=
  let is := bytes_eqb t in
  let comps (f : Z -> Prop) := match n with Some k => f k | None => False end in
  if is t_sig then holds (sig_tests x)
  else if is t_ftyp then holds (ftyp_tests fmt x)
  else if is t_ihdr then holds (ihdr_tests x)
  else if is t_bpcc then holds (bpcc_tests x)
  else if is t_colr then holds (colr_tests fmt x)
  else if is t_pclr then holds (pclr_tests x)
  else if is t_cmap then holds (cmap_tests x)
  else if is t_cdef then holds (cdef_tests fmt x)
  else if is t_resc then holds (res_tests "c" x)
  else if is t_resd then holds (res_tests "d" x)
  else if is t_xml then holds (xml_tests (xml_parse E) x)
  else if is t_uuid then holds (uuid_tests (xml_parse E) x)
  else if is t_ulst then holds (ulst_tests x)
  else if is t_url then holds (url_tests x)
  else if is m_SIZ then siz_capability (val x 2 2) <> None /\ holds (siz_tests fmt x)
  else if is m_COD then holds (cod_tests x)
  else if is m_QCD then holds (qcd_tests x)
  else if is m_COM then holds (com_tests (catC E) x)
  else if is m_CAP then holds (cap_tests fmt x)
  else if is m_PRF then holds (prf_tests x)
  else if is m_CPF then holds (cpf_tests fmt x)
  else if is m_PLT then exists es, entries (val x 0 2 - 3) (skipn 3 x) es
  else if is m_PLM then exists es, entries (val x 0 2 - 4) (skipn 4 x) es
  else if is m_COC then comps (fun k => holds (coc_tests k x))
  else if is m_QCC then comps (fun k => holds (qcc_tests k x))
  else if is m_RGN then comps (fun k => holds (rgn_tests fmt k x))
  else if is m_POC then comps (fun k => holds (poc_tests k x))
  else if is m_CRG then comps (fun k => holds (crg_tests k x))
  else if is m_SOT then False
  else True.

(** Marker segments of a header. *)
Definition seg_ok (E : env) (fmt : string) (n : Z) (s : treat * bytes * bytes) : Prop :=
  let '(k, m, x) := s in
  need E fmt (match k with WithComponents => Some n | _ => None end) m x.

(** Tile part at offset [p]. *)
Definition tile_valid (E : env) (fmt : string) (c : bytes) (n p : Z) : Prop :=
  exists l r, after m_SOD (skipn (Z.to_nat p) c) l r /\
    holds (sot_tests (tp_sot c p)) /\ Forall (seg_ok E fmt n) (treated tile_markers l) /\
    holds (tp_tests n c p l r).

Definition codestream_ok (E : env) (fmt : string) (c : bytes) : Prop :=
  exists l rest ps, after m_SOT (cs_second c) l rest /\ parts c rest ps /\
    holds (cs_tests1 c) /\ need E fmt None m_SIZ (cs_siz c) /\
    Forall (seg_ok E fmt (cs_csiz c)) (treated main_markers l) /\
    Forall (tile_valid E fmt c (cs_csiz c)) ps /\
    holds (cs_tests2 c l ps) /\ holds (cs_tests3 c l).

Inductive box_ok (E : env) (fmt : string) : bytes * bytes -> Prop :=
| ok_leaf t x : ~ In t [t_jp2h; t_res; t_uinf; t_jp2c] -> need E fmt None t x -> box_ok E fmt (t, x)
| ok_jp2h x bs : splits x bs -> Forall (box_ok E fmt) bs -> holds (jp2h_tests fmt bs) ->
    box_ok E fmt (t_jp2h, x)
| ok_res x bs : splits x bs -> Forall (box_ok E fmt) bs -> holds (res_super_tests (map fst bs)) ->
    box_ok E fmt (t_res, x)
| ok_uinf x bs : splits x bs -> Forall (box_ok E fmt) bs -> holds (uinf_tests (map fst bs)) ->
    box_ok E fmt (t_uinf, x)
| ok_cs x : codestream_ok E fmt x -> box_ok E fmt (t_jp2c, x).

Definition file_ok (E : env) (fmt : string) (c : bytes) : Prop :=
  exists bs hs, splits c bs /\ headers bs hs /\ Forall (box_ok E fmt) bs /\ holds (jp2_tests bs hs).

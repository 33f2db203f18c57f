(** * Specifications: codestreams and tile parts *)

From Coq Require Import ZArith List Bool String.
From Coq Require Import Init.Byte.
From Verif Require Import Py PyFloat ETree BV Spec SpecBox SpecMarker SpecWalk.
Import ListNotations.
Open Scope string_scope.
Open Scope list_scope.
Open Scope Z_scope.

Definition m_SOC : bytes := [xff; x4f].
Definition m_CAP : bytes := [xff; x50].
Definition m_SIZ : bytes := [xff; x51].
Definition m_COD : bytes := [xff; x52].
Definition m_COC : bytes := [xff; x53].
Definition m_TLM : bytes := [xff; x55].
Definition m_PRF : bytes := [xff; x56].
Definition m_PLM : bytes := [xff; x57].
Definition m_PLT : bytes := [xff; x58].
Definition m_CPF : bytes := [xff; x59].
Definition m_QCD : bytes := [xff; x5c].
Definition m_QCC : bytes := [xff; x5d].
Definition m_RGN : bytes := [xff; x5e].
Definition m_POC : bytes := [xff; x5f].
Definition m_PPM : bytes := [xff; x60].
Definition m_PPT : bytes := [xff; x61].
Definition m_CRG : bytes := [xff; x63].
Definition m_COM : bytes := [xff; x64].
Definition m_SOT : bytes := [xff; x90].
Definition m_SOD : bytes := [xff; x93].
Definition m_EOC : bytes := [xff; xd9].

(** How a marker segment in a main or tile-part header is treated: on its own,
    with the number of components, as a packet marker (properties only on
    request), or not at all. *)
Inductive treat := Alone | WithComponents | PacketMarker.
Definition lookup (m : bytes) (l : list (bytes * treat)) : option treat :=
  match List.find (fun p => bytes_eqb m (fst p)) l with Some p => Some (snd p) | None => None end.
Definition main_markers : list (bytes * treat) :=
  [ (m_COD, Alone); (m_QCD, Alone); (m_COM, Alone); (m_CAP, Alone); (m_PRF, Alone);
    (m_CPF, Alone); (m_TLM, Alone);
    (m_COC, WithComponents); (m_QCC, WithComponents); (m_RGN, WithComponents);
    (m_POC, WithComponents); (m_CRG, WithComponents);
    (m_PLM, PacketMarker); (m_PPM, PacketMarker) ].
Definition tile_markers : list (bytes * treat) :=
  [ (m_COD, Alone); (m_QCD, Alone); (m_COM, Alone);
    (m_COC, WithComponents); (m_QCC, WithComponents); (m_RGN, WithComponents);
    (m_POC, WithComponents);
    (m_PLT, PacketMarker); (m_PPT, PacketMarker) ].

(** The segments of a header that are looked at. *)
Definition treated (tbl : list (bytes * treat)) (l : list (bytes * bytes)) :
  list (treat * bytes * bytes) :=
  flat_map (fun '(m, x) => match lookup m tbl with Some t => [(t, m, x)] | None => [] end) l.

(** Contents of the segment at the start of [s] (length field included). *)
Definition seg_contents (s : bytes) : bytes :=
  if seg_length s =? -9999 then [] else sub s 2 (seg_length s).

(** [after s l r]: segments [l] that follow the one at the start of [s] up to the
    marker [stop], and [r], what starts there. *)
Definition after (stop s : bytes) (l : list (bytes * bytes)) (r : option bytes) : Prop :=
  if seg_length s =? -9999 then l = [] /\ r = None
  else segs stop (skipn (Z.to_nat (seg_length s + 2)) s) l r.

(** Property elements that are shown: those of packet markers only on request. *)
Definition shown (packet : bool) (ts : list (treat * bytes * bytes)) (rs : list bv) : list elt :=
  flat_map (fun '(t, _, _, r) =>
    match t with PacketMarker => if packet then [r_chars r] else [] | _ => [r_chars r] end)
    (combine ts rs).

(** Contents of the segments with marker [m]. *)
Definition segs_of (m : bytes) (l : list (bytes * bytes)) : list bytes :=
  map snd (filter (fun p => bytes_eqb (fst p) m) l).

(** ** Tile part that starts with the SOT marker at offset [p] of [c] *)
Section TilePart.
Variables (csiz : Z) (c : bytes) (p : Z).
Let s := skipn (Z.to_nat p) c.
(** Contents of the SOT segment. *)
Definition tp_sot : bytes := seg_contents s.
Definition tp_psot : Z := val tp_sot 4 4.

(** The marker that [psot] points to.  (If [psot] cannot be read the code looks
    9999 bytes back, where Python counts negative offsets from the end.) *)
Definition tp_next : bytes :=
  if tp_psot =? -9999 then slice c (p - 9999) (p - 9997) else sub c (p + tp_psot) 2.

(** [l]: segments of the tile-part header; [r]: what starts at the SOD marker. *)
Definition tp_tests (l : list (bytes * bytes)) (r : option bytes) : list (string * Prop) :=
  let first name m := match segs_of m l with [] => [] | _ => [(name, val tp_sot 8 1 = 0)] end in
  let once name m := match segs_of m l with
    | [] => []
    | xs => [(name, NoDup (map (fun x => val x 2 (cwidth csiz)) xs))] end in
  [ ("foundSODMarker", r <> None) ] ++
  first "CODAllowed" m_COD ++ first "COCAllowed" m_COC ++ first "QCDAllowed" m_QCD ++
  first "QCCAllowed" m_QCC ++ first "RGNAllowed" m_RGN ++
  once "maxOneCcocPerComponentTP" m_COC ++ once "maxOneCqccPerComponentTP" m_QCC ++
  (if tp_psot =? 0 then []
   else [ ("foundNextTilePartOrEOC", In tp_next [m_SOT; m_EOC]) ]).

Definition tp_props (l : list (bytes * bytes)) : list (string * value) :=
  [ ("pltCount", VInt (len (segs_of m_PLT l))); ("pptCount", VInt (len (segs_of m_PPT l))) ].
End TilePart.

(** Report [res] of the tile part at [p]; [r0] is the report of the SOT segment,
    [rs] are those of the segments of the header that are looked at. *)
Definition tile_says (op : opts) (csiz : Z) (c : bytes) (p : Z) (l : list (bytes * bytes))
           (r : option bytes) (r0 : bv) (rs : list bv) (res : bv) : Prop :=
  (exists k, r_tests res = node "tilePart" (filled (r_tests r0 :: map r_tests rs) ++ k) /\
             reports (o_verbose op) (tp_tests csiz c p l r) k) /\
  r_chars res = node "tilePart" (r_chars r0 :: shown (o_packet op) (treated tile_markers l) rs ++
                                 leaves (tp_props l)) /\
  r_warns res = node "tilePart" (filled (r_warns r0 :: map r_warns rs)) /\
  r_ret res = VInt (p + tp_psot c p) /\ r_valid res = VNone /\ r_tpl res = VNone.

(** ** Tile parts of a codestream *)
Definition tp_isot (c : bytes) (p : Z) : Z := val (tp_sot c p) 2 2.
Definition tp_tnsot (c : bytes) (p : Z) : Z := val (tp_sot c p) 9 1.

(** [chain n c p ps]: [ps] are the offsets of the tile parts, the first one at
    [p] (if there is an SOT marker there); each [psot] leads to the next one.
    The last one has [psot] = 0, or a tile index not below [n], or leads to
    something else than an SOT marker. *)
Inductive chain (n : Z) (c : bytes) : Z -> list Z -> Prop :=
| chain_end p : 0 <= p -> sub c p 2 <> m_SOT -> chain n c p []
| chain_stop p : 0 <= p -> sub c p 2 = m_SOT -> ~ 0 <= tp_isot c p < n \/ tp_psot c p = 0 ->
    chain n c p [p]
| chain_next p ps : 0 <= p -> sub c p 2 = m_SOT -> 0 <= tp_isot c p < n -> 0 < tp_psot c p ->
    chain n c (p + tp_psot c p) ps -> chain n c p (p :: ps).

(** Number of different tile indices. *)
Definition tiles_found (c : bytes) (ps : list Z) : Z := len (nodup Z.eq_dec (map (tp_isot c) ps)).
(** Number of tile parts of tile [i], and the last nonzero [tnsot] given for it. *)
Definition parts_found (c : bytes) (ps : list Z) (i : Z) : Z :=
  len (filter (fun p => tp_isot c p =? i) ps).
Definition parts_declared (c : bytes) (ps : list Z) (i : Z) : option Z :=
  option_map (tp_tnsot c)
    (List.find (fun p => (tp_isot c p =? i) && negb (tp_tnsot c p =? 0)) (rev ps)).
(** What the code demands as soon as one [tnsot] is not 0: every tile of the
    image has a declared number of parts, and it is the number found. *)
Definition parts_ok (n : Z) (c : bytes) (ps : list Z) : Prop :=
  (forall i, 0 <= i < n -> parts_declared c ps i = Some (parts_found c ps i)) /\
  (forall i, parts_declared c ps i <> None -> 0 <= i < n).

(** ** Codestream *)

(** What starts at the second marker, and the contents of the SIZ segment there. *)
Definition cs_second (c : bytes) : bytes :=
  if seg_length c =? -9999 then [] else skipn (Z.to_nat (seg_length c + 2)) c.
Definition cs_siz (c : bytes) : bytes := seg_contents (cs_second c).
Definition cs_csiz (c : bytes) : Z := val (cs_siz c) 36 2.
(** Number of tiles, as far as the code counts. *)
Definition cs_tiles (c : bytes) : Z := Z.min (siz_tiles (cs_siz c)) 65535.

(** [parts c rest ps]: offsets of the tile parts, given what follows the main
    header. *)
Definition parts (c : bytes) (rest : option bytes) (ps : list Z) : Prop :=
  match rest with
  | None => ps = []
  | Some s => chain (cs_tiles c) c (len c - len s) ps
  end.

Definition cs_tests1 (c : bytes) : list (string * Prop) :=
  [ ("codestreamStartsWithSOCMarker", sub c 0 2 = m_SOC);
    ("foundSIZMarker", sub (cs_second c) 0 2 = m_SIZ) ].

(** [l]: segments of the main header after SIZ. *)
Definition cs_tests2 (c : bytes) (l : list (bytes * bytes)) (ps : list Z) : list (string * Prop) :=
  [ ("foundCODMarker", In m_COD (map fst l)); ("foundQCDMarker", In m_QCD (map fst l)) ] ++
  (if bitsk (val (cs_siz c) 2 2) 14 4 =? 1 then [ ("foundCAPMarker", In m_CAP (map fst l)) ] else []) ++
  [ ("foundExpectedNumberOfTiles", tiles_found c ps = cs_tiles c) ] ++
  (if existsb (fun p => negb (tp_tnsot c p =? 0)) ps
   then [ ("foundExpectedNumberOfTileParts", parts_ok (cs_tiles c) c ps) ] else []).

Definition cs_tests3 (c : bytes) (l : list (bytes * bytes)) : list (string * Prop) :=
  let once name m := match segs_of m l with
    | [] => []
    | x :: xs => [(name, NoDup (map (fun x => val x 2 (cwidth (cs_csiz c))) (x :: xs)))] end in
  once "maxOneCcocPerComponentMain" m_COC ++ once "maxOneCqccPerComponentMain" m_QCC ++
  [ ("foundEOCMarker", exists pre, c = pre ++ m_EOC) ].

(** Compression ratio: uncompressed size / size, rounded to two decimals; double
    precision at each step. *)
Definition ratio (size : Z) (depths : list Z) (height width : Z) : value :=
  VFloat (round_nd 2 (float_div
    (float_mul (float_mul (int_div (fold_right Z.add 0 depths) 8) (float_of_Z height)) (float_of_Z width))
    (float_of_Z size))).
Definition siz_depths (x : bytes) : list Z :=
  map (fun i => cdepth (val x (38 + 3 * i) 1)) (zseq (val x 36 2)).

(** For bare codestreams the code takes xOsiz for yOsiz. *)
Definition cs_props2 (fmt : string) (c : bytes) : list elt :=
  if fmt_is fmt "j2c" || fmt_is fmt "jhc" then
    [ leaf "compressionRatio"
        (ratio (len c) (siz_depths (cs_siz c)) (val (cs_siz c) 8 4 - val (cs_siz c) 12 4)
               (val (cs_siz c) 4 4 - val (cs_siz c) 12 4)) ]
  else [].

(** Report [res] of a codestream with a SIZ segment: [rz] is the report of SIZ,
    [rs] those of the other segments of the main header, [ts] those of the tile
    parts. *)
Definition cs_says (op : opts) (ttag ctag wtag : string) (c : bytes) (l : list (bytes * bytes))
           (ps : list Z) (rz : bv) (rs ts : list bv) (res : bv) : Prop :=
  (exists k1 k2 k3,
     r_tests res = node ttag (k1 ++ filled (r_tests rz :: map r_tests rs) ++ k2 ++
                              filled [node "tileParts" (filled (map r_tests ts))] ++ k3) /\
     reports (o_verbose op) (cs_tests1 c) k1 /\ reports (o_verbose op) (cs_tests2 c l ps) k2 /\
     reports (o_verbose op) (cs_tests3 c l) k3) /\
  r_chars res = node ctag (r_chars rz :: shown (o_packet op) (treated main_markers l) rs ++
                  leaves [ ("ppmCount", VInt (len (segs_of m_PPM l))); ("plmCount", VInt (len (segs_of m_PLM l))) ] ++
                  node "tileParts" (map r_chars ts) :: cs_props2 (o_format op) c) /\
  r_warns res = node wtag (filled (r_warns rz :: map r_warns rs) ++
                           filled [node "tileParts" (filled (map r_warns ts))]) /\
  (exists b, r_valid res = VBool b /\ (b = true <-> all_pass (r_tests res))) /\
  r_ret res = VNone /\ r_tpl res = VNone.

(** Report of a codestream without SIZ segment in second place. *)
Definition cs_says_nosiz (op : opts) (ttag ctag wtag : string) (c : bytes) (res : bv) : Prop :=
  (exists k1, r_tests res = node ttag k1 /\ reports (o_verbose op) (cs_tests1 c) k1) /\
  r_chars res = node ctag [] /\ r_warns res = node wtag [] /\
  r_valid res = VBool false /\ r_ret res = VNone /\ r_tpl res = VNone.

(** * A writer of codestreams and files

    Ordinary files, from the parameters of the image: a codestream with one COD, one
    QCD, any number of comments (and CAP for high throughput), tile parts in any
    order; a file with the four required boxes and any number of boxes of types that
    the program does not know.  Used to state that such files are accepted (C41). *)

From Coq Require Import ZArith List Bool String.
From Coq Require Import Init.Byte.
From Verif Require Import Py Spec SpecBox SpecMarker SpecWalk SpecCS SpecSuper SpecValid.
Import ListNotations.
Open Scope string_scope.
Open Scope list_scope.
Open Scope Z_scope.

(** Numbers one after the other: (number of bytes, value). *)
Definition fields (l : list (nat * Z)) : bytes := flat_map (fun p => be (fst p) (snd p)) l.

(** ** Marker segments *)
Definition segment (m x : bytes) : bytes := m ++ be 2 (len x + 2) ++ x.

Record component := { co_signed : bool; co_depth : Z; co_dx : Z; co_dy : Z }.
Definition co_byte (k : component) : Z := (if co_signed k then 128 else 0) + (co_depth k - 1).
Definition co_wf (k : component) : Prop :=
  1 <= co_depth k <= 38 /\ 1 <= co_dx k <= 255 /\ 1 <= co_dy k <= 255.

(** Image area, tile size and tile offset on the reference grid. *)
Record grid := { g_x0 : Z; g_y0 : Z; g_x1 : Z; g_y1 : Z;
                 g_tx0 : Z; g_ty0 : Z; g_tw : Z; g_th : Z }.
Definition g_tiles (g : grid) : Z :=
  cdiv (g_x1 g - g_tx0 g) (g_tw g) * cdiv (g_y1 g - g_ty0 g) (g_th g).
Definition g_wf (g : grid) : Prop :=
  0 <= g_x0 g < g_x1 g /\ g_x1 g < 2 ^ 32 /\ 0 <= g_y0 g < g_y1 g /\ g_y1 g < 2 ^ 32 /\
  0 <= g_tx0 g < 2 ^ 32 - 1 /\ 0 <= g_ty0 g < 2 ^ 32 - 1 /\
  1 <= g_tw g < 2 ^ 32 /\ 1 <= g_th g < 2 ^ 32 /\ 0 <= g_tiles g <= 65535.

(** Coding style; explicit precinct exponents (x, y), lowest resolution first. *)
Record coding := { cd_sop : bool; cd_eph : bool; cd_order : Z; cd_layers : Z; cd_mct : bool;
                   cd_levels : Z; cd_cbw : Z; cd_cbh : Z; cd_style : Z; cd_reversible : bool;
                   cd_precincts : option (list (Z * Z)) }.
Definition cd_wf (k : coding) : Prop :=
  0 <= cd_order k <= 4 /\ 1 <= cd_layers k <= 65535 /\ 0 <= cd_levels k <= 32 /\
  2 <= cd_cbw k <= 10 /\ 2 <= cd_cbh k <= 10 /\ cd_cbw k + cd_cbh k <= 12 /\ 0 <= cd_style k <= 255 /\
  match cd_precincts k with
  | None => True
  | Some l => len l = cd_levels k + 1 /\
      (forall x y, In (x, y) l -> 0 <= x <= 15 /\ 0 <= y <= 15) /\
      (forall x y, In (x, y) (tl l) -> 1 <= x /\ 1 <= y)
  end.
Definition Zb (b : bool) : Z := if b then 1 else 0.
Definition cod_payload (k : coding) : bytes :=
  fields [ (1%nat, match cd_precincts k with Some _ => 1 | None => 0 end + 2 * Zb (cd_sop k) + 4 * Zb (cd_eph k));
           (1%nat, cd_order k); (2%nat, cd_layers k); (1%nat, Zb (cd_mct k)); (1%nat, cd_levels k);
           (1%nat, cd_cbw k - 2); (1%nat, cd_cbh k - 2); (1%nat, cd_style k);
           (1%nat, Zb (cd_reversible k)) ] ++
  match cd_precincts k with
  | Some l => fields (map (fun p => (1%nat, fst p + 16 * snd p)) l)
  | None => []
  end.

(** Quantisation: exponents only, one step size, or one for each subband. *)
Inductive quant := Reversible (eps : list Z) | Derived (eps mu : Z) | Expounded (l : list (Z * Z)).
Definition qu_wf (levels guard : Z) (q : quant) : Prop :=
  0 <= guard <= 7 /\
  match q with
  | Reversible l => len l = 3 * levels + 1 /\ Forall (fun e => 0 <= e <= 31) l
  | Derived e mu => 0 <= e <= 31 /\ 0 <= mu <= 2047
  | Expounded l => len l = 3 * levels + 1 /\ Forall (fun p => 0 <= fst p <= 31 /\ 0 <= snd p <= 2047) l
  end.
Definition qcd_payload (guard : Z) (q : quant) : bytes :=
  match q with
  | Reversible l => be 1 (32 * guard) ++ fields (map (fun e => (1%nat, 8 * e)) l)
  | Derived e mu => be 1 (32 * guard + 1) ++ be 2 (2048 * e + mu)
  | Expounded l => be 1 (32 * guard + 2) ++ fields (map (fun p => (2%nat, 2048 * fst p + snd p)) l)
  end.

(** Comments. *)
Inductive comment := Latin (b : bytes) | Binary (b : bytes).
Definition com_payload (k : comment) : bytes :=
  match k with Latin b => be 2 1 ++ b | Binary b => be 2 0 ++ b end.
Definition com_wf (catC : Z -> bool) (k : comment) : Prop :=
  match k with
  | Latin b => 1 <= len b <= 65531 /\ Forall (printable catC) (map iso8859_15 b)
  | Binary b => 1 <= len b <= 65531
  end.

(** ** Tile parts *)
Record tpart := { pt_tile : Z; pt_no : Z; pt_total : Z; pt_comments : list comment; pt_data : bytes }.
Definition pt_header (p : tpart) : bytes :=
  List.concat (map (fun k => segment m_COM (com_payload k)) (pt_comments p)).
Definition pt_length (p : tpart) : Z := 12 + len (pt_header p) + 2 + len (pt_data p).
Definition pt_bytes (p : tpart) : bytes :=
  segment m_SOT (fields [ (2%nat, pt_tile p); (4%nat, pt_length p); (1%nat, pt_no p); (1%nat, pt_total p) ]) ++
  pt_header p ++ m_SOD ++ pt_data p.
Definition pt_wf (catC : Z -> bool) (n : Z) (p : tpart) : Prop :=
  0 <= pt_tile p < n /\ 0 <= pt_no p <= 254 /\ 0 <= pt_total p <= 255 /\
  Forall (com_wf catC) (pt_comments p) /\ pt_length p < 2 ^ 32.

(** Every tile has a part.  The number of parts of a tile may be left open (0); it
    is so for all of them or each tile says it at least once. *)
Definition count_tile (i : Z) (ps : list tpart) : Z := len (filter (fun p => pt_tile p =? i) ps).
Definition pts_wf (n : Z) (ps : list tpart) : Prop :=
  (forall i, 0 <= i < n -> exists p, In p ps /\ pt_tile p = i) /\
  ((forall p, In p ps -> pt_total p = 0) \/
   (forall p, In p ps -> pt_total p = 0 \/ pt_total p = count_tile (pt_tile p) ps) /\
   (forall i, 0 <= i < n -> exists p, In p ps /\ pt_tile p = i /\ pt_total p <> 0)).

(** ** Codestreams *)
Record image := { im_cap : option Z;     (** Ccap15, for high throughput *)
                  im_profile : Z;        (** 0, 1 or 2 *)
                  im_grid : grid; im_comps : list component; im_coding : coding;
                  im_guard : Z; im_quant : quant; im_comments : list comment;
                  im_parts : list tpart }.
Definition im_wf (catC : Z -> bool) (im : image) : Prop :=
  (match im_cap im with Some v => 0 <= v < 65536 | None => 0 <= im_profile im <= 2 end) /\
  g_wf (im_grid im) /\ 1 <= len (im_comps im) <= 16384 /\ Forall co_wf (im_comps im) /\
  cd_wf (im_coding im) /\ qu_wf (cd_levels (im_coding im)) (im_guard im) (im_quant im) /\
  Forall (com_wf catC) (im_comments im) /\
  im_parts im <> [] /\ Forall (pt_wf catC (g_tiles (im_grid im))) (im_parts im) /\
  pts_wf (g_tiles (im_grid im)) (im_parts im).

Definition siz_payload (im : image) : bytes :=
  let g := im_grid im in
  fields [ (2%nat, match im_cap im with Some _ => 16384 | None => im_profile im end);
           (4%nat, g_x1 g); (4%nat, g_y1 g); (4%nat, g_x0 g); (4%nat, g_y0 g);
           (4%nat, g_tw g); (4%nat, g_th g); (4%nat, g_tx0 g); (4%nat, g_ty0 g);
           (2%nat, len (im_comps im)) ] ++
  flat_map (fun k => fields [ (1%nat, co_byte k); (1%nat, co_dx k); (1%nat, co_dy k) ]) (im_comps im).
(** CAP with the bit of Part 15 and its Ccap value. *)
Definition cap_payload (v : Z) : bytes := fields [ (4%nat, 2 ^ 17); (2%nat, v) ].

Definition main_header (im : image) : list (bytes * bytes) :=
  match im_cap im with Some v => [ (m_CAP, cap_payload v) ] | None => [] end ++
  [ (m_COD, cod_payload (im_coding im)); (m_QCD, qcd_payload (im_guard im) (im_quant im)) ] ++
  map (fun k => (m_COM, com_payload k)) (im_comments im).
Definition codestream (im : image) : bytes :=
  m_SOC ++ segment m_SIZ (siz_payload im) ++
  List.concat (map (fun s => segment (fst s) (snd s)) (main_header im)) ++
  List.concat (map pt_bytes (im_parts im)) ++ m_EOC.

(** ** Files *)
Record jp2 := { jp_image : image; jp_colour : Z; jp_unknown : bool;
                jp_form : form;                      (** of the codestream box *)
                jp_extra1 : list (form * bytes * bytes);
                jp_extra2 : list (form * bytes * bytes);
                jp_extra3 : list (form * bytes * bytes) }.
(** The sample format shared by all components. *)
Definition uniform (l : list component) : option Z :=
  match l with
  | k :: r => if forallb (fun k' => co_byte k' =? co_byte k) r then Some (co_byte k) else None
  | [] => None
  end.
Definition jp_header (f : jp2) : list (form * bytes * bytes) :=
  let im := jp_image f in
  let g := im_grid im in
  [ (Short, t_ihdr,
     fields [ (4%nat, g_y1 g - g_y0 g); (4%nat, g_x1 g - g_x0 g); (2%nat, len (im_comps im));
              (1%nat, match uniform (im_comps im) with Some b => b | None => 255 end);
              (1%nat, 7); (1%nat, Zb (jp_unknown f)); (1%nat, 0) ]) ] ++
  match uniform (im_comps im) with
  | Some _ => []
  | None => [ (Short, t_bpcc, fields (map (fun k => (1%nat, co_byte k)) (im_comps im))) ]
  end ++
  [ (Short, t_colr, fields [ (1%nat, 1); (1%nat, 0); (1%nat, 0); (4%nat, jp_colour f) ]) ].
Definition jp_brand (f : jp2) : bytes :=
  match im_cap (jp_image f) with Some _ => [x6a; x70; x68; x20] | None => [x6a; x70; x32; x20] end.
Definition jp_boxes (f : jp2) : list (form * bytes * bytes) :=
  [ (Short, t_sig, [x0d; x0a; x87; x0a]); (Short, t_ftyp, jp_brand f ++ be 4 0 ++ jp_brand f) ] ++
  jp_extra1 f ++
  [ (Short, t_jp2h, List.concat (map box_bytes (jp_header f))) ] ++ jp_extra2 f ++
  [ (jp_form f, t_jp2c, codestream (jp_image f)) ] ++ jp_extra3 f.
Definition jp_file (f : jp2) : bytes := List.concat (map box_bytes (jp_boxes f)).

(** Types of the boxes that are analysed. *)
Definition known_types : list bytes :=
  [ t_sig; t_ftyp; t_jp2h; t_jp2c; t_jp2i; t_ihdr; t_bpcc; t_colr; t_pclr; t_cmap; t_cdef;
    t_res; t_resc; t_resd; t_xml; t_uuid; t_uinf; t_ulst; t_url ].
Definition foreign (b : form * bytes * bytes) : Prop := fits b /\ ~ In (snd (fst b)) known_types.
Definition jp_wf (catC : Z -> bool) (f : jp2) : Prop :=
  im_wf catC (jp_image f) /\ In (jp_colour f) [16; 17; 18] /\
  fits (jp_form f, t_jp2c, codestream (jp_image f)) /\
  Forall foreign (jp_extra1 f ++ jp_extra2 f ++ jp_extra3 f) /\ rest_last (jp_boxes f) /\
  len (jp_file f) < 2 ^ 53.
(** Format for which the file is made. *)
Definition jp_format (f : jp2) : string := match im_cap (jp_image f) with Some _ => "jph" | None => "jp2" end.
Definition cs_format (im : image) : string := match im_cap im with Some _ => "jhc" | None => "j2c" end.

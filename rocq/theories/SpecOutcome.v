(** * How the analysis of a file ends

    Nothing here refers to the validators, to the format or to the options. *)

From Coq Require Import ZArith List Bool String.
From Coq Require Import Init.Byte.
From Verif Require Import Py ETree BV Spec SpecBox SpecMarker SpecIPL SpecWalk SpecSuper SpecCS SpecFile SpecTop SpecValid.
Import ListNotations.
Open Scope string_scope.
Open Scope list_scope.
Open Scope Z_scope.

Inductive finish := Report | Exception (e : exn) | Endless.

(** The first trouble ends the analysis. *)
Fixpoint first (os : list finish) : finish :=
  match os with
  | [] => Report
  | Report :: r => first r
  | o :: _ => o
  end.

(** Trouble with a box or marker segment without boxes inside; [n] is the number of
    components where it is known:
    - a denominator of a resolution is 0;
    - a UUID has less than 16 bytes;
    - the SIZ segment has a capability value the code does not know;
    - a segment that depends on the number of components, or a tile part, stands
      where a box is expected (after a type field cut off to two bytes);
    - packet lengths do not end before the segment does. *)
Inductive trouble (n : option Z) : bytes -> bytes -> finish -> Prop :=
| tr_res t x : In t [t_resc; t_resd] -> val x 2 2 = 0 \/ val x 6 2 = 0 ->
    trouble n t x (Exception ZeroDivisionError)
| tr_uuid x : len x < 16 -> trouble n t_uuid x (Exception ValueError)
| tr_ulst x : len x < 2 + 16 * val x 0 2 -> trouble n t_ulst x (Exception ValueError)
| tr_siz x : siz_capability (val x 2 2) = None -> trouble n m_SIZ x (Exception UnboundLocalError)
| tr_comps t x : n = None -> In t [m_COC; m_QCC; m_RGN; m_POC; m_CRG] -> trouble n t x (Exception TypeError)
| tr_sot x : trouble n m_SOT x (Exception TypeError)
| tr_plt x : (forall es, ~ entries (val x 0 2 - 3) (skipn 3 x) es) -> trouble n m_PLT x Endless
| tr_plm x : (forall es, ~ entries (val x 0 2 - 4) (skipn 4 x) es) -> trouble n m_PLM x Endless.
Definition leaf_out n t x (o : finish) : Prop :=
  trouble n t x o \/ (o = Report /\ forall o', ~ trouble n t x o').

(** Marker segments of a header, tile parts, codestreams. *)
Definition seg_out (n : Z) (s : treat * bytes * bytes) : finish -> Prop :=
  let '(k, m, x) := s in leaf_out (match k with WithComponents => Some n | _ => None end) m x.
Definition tile_out (c : bytes) (p : Z) (o : finish) : Prop :=
  exists l r os, after m_SOD (skipn (Z.to_nat p) c) l r /\
    Forall2 (seg_out (cs_csiz c)) (treated tile_markers l) os /\ o = first os.
Inductive cs_out (c : bytes) : finish -> Prop :=
| out_nosiz : sub (cs_second c) 0 2 <> m_SIZ -> cs_out c Report
| out_siz : sub (cs_second c) 0 2 = m_SIZ -> siz_capability (val (cs_siz c) 2 2) = None ->
    cs_out c (Exception UnboundLocalError)
| out_parts l rest ps os ts : sub (cs_second c) 0 2 = m_SIZ -> siz_capability (val (cs_siz c) 2 2) <> None ->
    after m_SOT (cs_second c) l rest -> parts c rest ps ->
    Forall2 (seg_out (cs_csiz c)) (treated main_markers l) os -> Forall2 (tile_out c) ps ts ->
    cs_out c (first (os ++ ts)).

(** Boxes and files. *)
Inductive box_out : bytes * bytes -> finish -> Prop :=
| out_leaf t x o : ~ In t (t_jp2c :: supers) -> leaf_out None t x o -> box_out (t, x) o
| out_super t x bs os : In t supers -> splits x bs -> Forall2 box_out bs os -> box_out (t, x) (first os)
| out_cs x o : cs_out x o -> box_out (t_jp2c, x) o.
Definition file_out (c : bytes) (o : finish) : Prop :=
  exists bs os, splits c bs /\ Forall2 box_out bs os /\ o = first os.

(** What the analysis does. *)
Definition does (E : env) (op : opts) (t : btype) (c : bytes) (st cz : value) (o : finish) : Prop :=
  match o with
  | Report => exists r, gives E op t c st cz r
  | Exception e => fails E op t c st cz e
  | Endless => loops E op t c st cz
  end.

(** The tile parts follow one another to the end; not the case where the length of
    a tile part cannot be read (C15). *)
Definition chained (c : bytes) : Prop :=
  forall l rest, after m_SOT (cs_second c) l rest -> exists ps, parts c rest ps.

(** What can raise, box by box, whatever the tile parts are: a box without boxes
    inside that has trouble, or a codestream whose SIZ segment has an unknown
    capability value. *)
Definition trigger (b : bytes * bytes) (e : exn) : Prop :=
  (~ In (fst b) (t_jp2c :: supers) /\ trouble None (fst b) (snd b) (Exception e)) \/
  (fst b = t_jp2c /\ e = UnboundLocalError /\ sub (cs_second (snd b)) 0 2 = m_SIZ /\
   siz_capability (val (cs_siz (snd b)) 2 2) = None).

(** * Outcomes of an analysis, without budgets *)

From Coq Require Import ZArith List Bool String.
From Coq Require Import Init.Byte.
From Verif Require Import Py ETree BV VSuper Spec SpecBox SpecMarker SpecWalk SpecSuper SpecCS.
Import ListNotations.
Open Scope string_scope.
Open Scope list_scope.
Open Scope Z_scope.

(** The analysis of contents [c] as an object of type [t] ends with report [r]
    (for some, hence for all larger loop budgets and recursion limits). *)
Definition gives (E : env) (op : opts) (t : btype) (c : bytes) (start csz : value) (r : bv) : Prop :=
  exists fuel d, validate E op fuel d t c start csz = Ok r.
(** ... ends with an exception, ... *)
Definition fails (E : env) (op : opts) (t : btype) (c : bytes) (start csz : value) (e : exn) : Prop :=
  exists fuel0 d0, forall fuel d, (fuel0 <= fuel)%nat -> (d0 <= d)%nat -> validate E op fuel d t c start csz = Raise e.
(** ... or never ends. *)
Definition loops (E : env) (op : opts) (t : btype) (c : bytes) (start csz : value) : Prop :=
  exists d0, forall fuel d, (d0 <= d)%nat -> validate E op fuel d t c start csz = Diverge.

(** A box among others. *)
Definition box_gives (E : env) (op : opts) (b : bytes * bytes) (r : bv) : Prop :=
  gives E op (BTb (fst b)) (snd b) VNone VNone r.

(** ** Boxes within boxes *)

(** Boxes with boxes inside. *)
Definition supers : list bytes := [t_jp2h; t_res; t_uinf].
(** [inbox c b]: [b] is a box in [c], or a box inside such a box, at any depth. *)
Inductive inbox (c : bytes) : bytes * bytes -> Prop :=
| inbox_here bs b : splits c bs -> In b bs -> inbox c b
| inbox_in s y bs b : inbox c (s, y) -> In s supers -> splits y bs -> In b bs -> inbox c b.

(** ** Codestreams *)

(** A marker segment of a header, with [n] components. *)
Definition seg_gives E op (n : Z) (x : treat * bytes * bytes) (r : bv) : Prop :=
  gives E op (BTb (snd (fst x))) (snd x) VNone
        (match fst (fst x) with WithComponents => VInt n | _ => VNone end) r.
(** The tile part at [p]. *)
Definition tile_of E op c (n : Z) (p : Z) (r : bv) : Prop := gives E op (BTb m_SOT) c (VInt p) (VInt n) r.
(** Everything about the report [r] of a codestream that has a SIZ segment: the
    segments [l] of the main header, the offsets [ps] of the tile parts, and their
    reports. *)
Definition cs_facts E op t c cap l rest ps rz rs ts r : Prop :=
  sub (cs_second c) 0 2 = m_SIZ /\ siz_capability (val (cs_siz c) 2 2) = Some cap /\
  after m_SOT (cs_second c) l rest /\ parts c rest ps /\
  gives E op (BTb m_SIZ) (cs_siz c) VNone VNone rz /\
  says (o_verbose op) "siz" (siz_tests (o_format op) (cs_siz c)) (leaves (siz_props cap (cs_siz c))) [] rz /\
  Forall2 (seg_gives E op (cs_csiz c)) (treated main_markers l) rs /\
  Forall2 (tile_of E op c (cs_csiz c)) ps ts /\
  cs_says op (testRoot t) (charRoot t) (warnRoot t) c l ps rz rs ts r.


(** The analysis comes to an end: with a report, or with an exception that is not
    due to the recursion limit. *)
Definition ends E op t c st cz : Prop :=
  (exists r, gives E op t c st cz r) \/ (exists e, e <> RecursionError /\ fails E op t c st cz e).

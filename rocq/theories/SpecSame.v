(** * Files and codestreams that differ in form, order and metadata only

    Used to state what the verdict does not depend on (C77). *)

From Coq Require Import ZArith List Bool String Permutation.
From Coq Require Import Init.Byte.
From Verif Require Import Py ETree BV Spec SpecBox SpecMarker SpecWalk SpecSuper SpecCS SpecTop.
Import ListNotations.
Open Scope string_scope.
Open Scope list_scope.
Open Scope Z_scope.

(** ** Codestreams

    [x] and [x'] have the same first marker, the same SIZ segment and the same bytes
    [body] from the first tile part on.  The other segments of the main header, [l] and
    [l'], are the same up to their order, and up to comments.  All comments are
    well-formed. *)
Definition comments_ok (E : env) (l : list (bytes * bytes)) : Prop :=
  forall y, In (m_COM, y) l -> holds (com_tests (catC E) y).
Definition no_comments (l : list (bytes * bytes)) : list (bytes * bytes) :=
  filter (fun s => negb (bytes_eqb (fst s) m_COM)) l.
Definition stream_alike (E : env) (x x' : bytes) : Prop :=
  exists l l' body,
    sub x 0 2 = sub x' 0 2 /\ sub (cs_second x) 0 2 = sub (cs_second x') 0 2 /\ cs_siz x = cs_siz x' /\
    after m_SOT (cs_second x) l (Some body) /\ after m_SOT (cs_second x') l' (Some body) /\
    Permutation (no_comments l) (no_comments l') /\ comments_ok E l /\ comments_ok E l'.

(** ** JP2 Header boxes

    The same boxes inside, in any order and written in any form, the same type first,
    and the Colour Specification boxes together in both or in neither. *)
Definition header_alike (x x' : bytes) : Prop :=
  exists bs bs', splits x bs /\ splits x' bs' /\ Permutation bs bs' /\
    hd_error (map fst bs) = hd_error (map fst bs') /\
    (one_block t_colr (map fst bs) <-> one_block t_colr (map fst bs')).

(** ** Files

    The boxes that a verdict is about. *)
Definition core (t : bytes) : bool := existsb (bytes_eqb t) [t_sig; t_ftyp; t_jp2h; t_jp2i; t_jp2c].
Inductive alike (E : env) : bytes * bytes -> bytes * bytes -> Prop :=
| alike_same b : alike E b b
| alike_header x x' : header_alike x x' -> alike E (t_jp2h, x) (t_jp2h, x')
| alike_stream x x' : stream_alike E x x' -> alike E (t_jp2c, x) (t_jp2c, x').

(** Everything else in the file passes its tests. *)
Definition extras_ok (E : env) (o : opts) (bs : list (bytes * bytes)) : Prop :=
  forall b, In b bs -> core (fst b) = false -> exists r, box_gives E o b r /\ all_pass (r_tests r).
(** The first two boxes are of the kinds that the verdict is about. *)
Definition starts (bs : list (bytes * bytes)) : Prop :=
  exists b1 b2 r, bs = b1 :: b2 :: r /\ core (fst b1) = true /\ core (fst b2) = true.

(** The same boxes of these kinds, in the same order; anything between and after them. *)
Definition file_alike (E : env) (o : opts) (c c' : bytes) : Prop :=
  exists bs bs', splits c bs /\ splits c' bs' /\ starts bs /\ starts bs' /\ extras_ok E o bs /\ extras_ok E o bs' /\
    Forall2 (alike E) (filter (fun b => core (fst b)) bs) (filter (fun b => core (fst b)) bs').

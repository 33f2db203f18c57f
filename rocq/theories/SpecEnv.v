(** * Two places in which the program may run *)

From Coq Require Import ZArith List Bool String.
From Coq Require Import Init.Byte.
From Verif Require Import Py ETree BV Spec SpecBox SpecMarker SpecWalk SpecSuper SpecTop SpecValid.
Import ListNotations.
Open Scope string_scope.
Open Scope list_scope.
Open Scope Z_scope.

(** The same characters of ISO 8859-15 are control characters. *)
Definition latin_alike (E E' : env) : Prop := forall b, catC E (iso8859_15 b) = catC E' (iso8859_15 b).
(** [x] is accepted by both XML parsers or by neither; what they make of it may differ. *)
Definition xml_alike (E E' : env) (x : bytes) : Prop := xml_parse E x = None <-> xml_parse E' x = None.
(** XML boxes, and UUID boxes with XMP metadata. *)
Definition leaf_alike (E E' : env) (b : bytes * bytes) : Prop :=
  (fst b = t_xml -> xml_alike E E' (snd b)) /\
  (fst b = t_uuid -> sub (snd b) 0 16 = xmp_uuid -> xml_alike E E' (sub (snd b) 16 (len (snd b) - 16))).
(** All that matters for the verdict on [c]. *)
Definition env_alike (E E' : env) (c : bytes) : Prop := latin_alike E E' /\ forall b, inbox c b -> leaf_alike E E' b.

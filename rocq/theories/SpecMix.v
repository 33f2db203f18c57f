(** * What MIX output is made from

    Specification used by C53 and C65; independent of the code that makes the
    output. *)

From Coq Require Import ZArith List Bool String QArith Qabs.
From Verif Require Import Py ByteConv ETree Spec SpecBox SpecWalk SpecSuper SpecNum.
Import ListNotations.
Open Scope string_scope.
Open Scope list_scope.
Open Scope Z_scope.

(** [t] is [s] without the white space at its ends. *)
Definition trimmed (isp : Z -> bool) (s t : pystr) : Prop :=
  exists a b, s = a ++ t ++ b /\ Forall (fun c => isp c = true) (a ++ b) /\
    (t = [] \/ (exists c t', t = c :: t' /\ isp c = false) /\ (exists c t', t = t' ++ [c] /\ isp c = false)).

(** The XMP metadata used: the first rdf:RDF of an XML box if it has children,
    otherwise the first one of a UUID box if it has children. *)
Definition xmp_description := "{http://www.w3.org/1999/02/22-rdf-syntax-ns#}Description".
Definition xmp_path (box : string) : list string :=
  [box; "{adobe:ns:meta/}xmpmeta"; "{http://www.w3.org/1999/02/22-rdf-syntax-ns#}RDF"].
Inductive chosen_rdf (p : elt) : elt -> Prop :=
| rdf_xml x : ETree.find (xmp_path "xmlBox") p = Some x -> ekids x <> [] -> chosen_rdf p x
| rdf_uuid x : (forall y, ETree.find (xmp_path "xmlBox") p = Some y -> ekids y = []) ->
    ETree.find (xmp_path "uuidBox") p = Some x -> ekids x <> [] -> chosen_rdf p x.
Definition xmp_ok (p : elt) : Prop := forall x, chosen_rdf p x -> In xmp_description (map etag (ekids x)).

(** Colour specification boxes with a profile (methods 2 and 3) and with an
    enumerated colour space (method 1). *)
Definition is_icc (x : bytes) : bool := (val x 0 1 =? 2) || (val x 0 1 =? 3).
Definition is_enum (x : bytes) : bool := val x 0 1 =? 1.
Definition enum_names : list (Z * pystr) := [(16, pys "sRGB"); (17, pys "greyscale"); (18, pys "sYCC")].

(** The resolution box used: a capture resolution if there is one, otherwise a
    display resolution. *)
Definition best_res (us : list (list (bytes * bytes))) : option bytes :=
  match flat_map (boxes_of t_resc) us ++ flat_map (boxes_of t_resd) us with w :: _ => Some w | [] => None end.
(** Its vertical and horizontal resolution, in pixels per metre. *)
Definition vres (w : bytes) : Q := (inject_Z (val w 0 2) / inject_Z (val w 2 2) * p10 (sval w 8))%Q.
Definition hres (w : bytes) : Q := (inject_Z (val w 4 2) / inject_Z (val w 6 2) * p10 (sval w 9))%Q.

(** What the frequency [v] of MIX (in units of 1/100 per metre) has to do with the
    resolution [y] of the file. *)
Definition sampled (v : Z) (y : Q) : Prop :=
  exists q, about q y /\ ((y <= inject_Z (10 ^ 11))%Q -> (inject_Z v <= (100#1) * q /\ (100#1) * q <= inject_Z v + 1)%Q).
(** The compression ratio [y] as a number [v] of hundredths, and as an integer. *)
Definition in_hundredths (v : Z) (y : Q) : Prop :=
  exists q, about q y /\ ((y <= inject_Z (10 ^ 11))%Q -> (q == inject_Z v / (100#1))%Q).
Definition rounded (v : Z) (y : Q) : Prop :=
  exists q, about q y /\ ((y <= inject_Z (10 ^ 11))%Q -> (Qabs (inject_Z v - q) <= 1 # 2)%Q).

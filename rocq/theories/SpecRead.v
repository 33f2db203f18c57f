(** * Reading values of an image off the document

    [nodes] is the meaning of an XPath expression of the form a/b/c; specification
    used by C75. *)

From Coq Require Import ZArith List Bool String.
From Verif Require Import Py Serial Spec SpecText SpecNames SpecXml SpecDoc.
Import ListNotations.
Open Scope string_scope.
Open Scope list_scope.
Open Scope Z_scope.

(** All nodes below [x] at a path of names in the namespace of jpylyzer, in document
    order, and their texts. *)
Fixpoint nodes (q : list string) (x : dnode) : list dnode :=
  match q with
  | [] => [x]
  | t :: q' => flat_map (nodes q') (filter (has_name (jp t)) (children x))
  end.
Definition texts (q : list string) (x : dnode) : list pystr := map (fun n => doc_text (Some n)) (nodes q x).

(** [s] stands for the code [n] of property [t]: the name, if it has one, and else the
    decimal numeral. *)
Definition code_text (t : string) (n : Z) (s : pystr) : Prop :=
  (exists w, named t n w /\ s = pys w) \/ ((forall w, ~ named t n w) /\ decimal n s).
(** The first text at [q]/[t] stands for [n]. *)
Definition says (x : dnode) (q : list string) (t : string) (n : Z) : Prop :=
  exists s l, texts (q ++ [t]) x = s :: l /\ code_text t n s.
Definition says_all (x : dnode) (q : list string) (fields : list (string * Z)) : Prop :=
  forall t n, In (t, n) fields -> says x q t n.

(** ** Fields by position *)
(** Image header box (ISO/IEC 15444-1 I.5.3.1). *)
Definition ihdr_fields (c : bytes) : list (string * Z) :=
  [("height", val c 0 4); ("width", val c 4 4); ("nC", val c 8 2); ("c", val c 11 1); ("unkC", val c 12 1); ("iPR", val c 13 1)].
(** SIZ (A.5.1), without the marker. *)
Definition siz_fields (c : bytes) : list (string * Z) :=
  [("lsiz", val c 0 2); ("xsiz", val c 4 4); ("ysiz", val c 8 4); ("xOsiz", val c 12 4); ("yOsiz", val c 16 4);
   ("xTsiz", val c 20 4); ("yTsiz", val c 24 4); ("xTOsiz", val c 28 4); ("yTOsiz", val c 32 4); ("csiz", val c 36 2)].
(** COD (A.6.1), without the marker. *)
Definition cod_fields (c : bytes) : list (string * Z) :=
  [("lcod", val c 0 2); ("order", val c 3 1); ("layers", val c 4 2); ("multipleComponentTransformation", val c 6 1);
   ("levels", val c 7 1); ("codeBlockWidth", 2 ^ (val c 8 1 + 2)); ("codeBlockHeight", 2 ^ (val c 9 1 + 2)); ("transformation", val c 11 1)].
(** Bits per sample of the components: bits 0 to 6 of Ssiz, plus one. *)
Definition depths (c : bytes) : list Z := map (fun i => 1 + (val c (38 + 3 * Z.of_nat i) 1) mod 128) (seq 0 (Z.to_nat (val c 36 2))).

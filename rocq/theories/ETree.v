(** * Model of jpylyzer/etpatch.py: element trees *)

From Coq Require Import ZArith List Bool String.
From Verif Require Import Py PyFloat ByteConv.
Import ListNotations.
Open Scope Z_scope.

(** ElementTree node.  [text] may hold any Python value (jpylyzer stores raw
    ints, floats, bytes and bools there).  Simplification: no [tail] field;
    jpylyzer never sets or reads it (tails of embedded XML are carried along by
    ElementTree and are not modelled). *)
Inductive elt :=
  Elt (tag : string) (attrib : list (string * pystr)) (text : value) (kids : list elt).

Definition etag (e : elt) : string := let 'Elt t _ _ _ := e in t.
Definition eattrib (e : elt) : list (string * pystr) := let 'Elt _ a _ _ := e in a.
Definition etext (e : elt) : value := let 'Elt _ _ v _ := e in v.
Definition ekids (e : elt) : list elt := let 'Elt _ _ _ k := e in k.

(** ET.Element(tag) with children appended. *)
Definition node (t : string) (k : list elt) : elt := Elt t [] VNone k.

(** etpatch.py:67-70 [appendChildTagWithText]: the child that is appended. *)
Definition leaf (t : string) (v : value) : elt := Elt t [] v [].

(** ElementTree [findall] for a path of child tags "a/b/c". *)
Fixpoint findall (path : list string) (e : elt) : list elt :=
  match path with
  | [] => [e]
  | t :: p => flat_map (findall p) (filter (fun c => String.eqb (etag c) t) (ekids e))
  end.

(** ElementTree [find]: first match, None if there is none. *)
Definition find (path : list string) (e : elt) : option elt :=
  hd_error (findall path e).

(** etpatch.py:45-54 [findElementText] *)
Definition findElementText (path : list string) (e : elt) : value :=
  match find path e with Some x => etext x | None => VNone end.

(** etpatch.py:56-65 [findAllText] (findall does not raise on these paths). *)
Definition findAllText (path : list string) (e : elt) : list value :=
  map etext (findall path e).

(** etpatch.py:72-75 [appendIfNotEmpty] on a list of children: an element
    without children is dropped. *)
Definition appendIfNotEmpty (kids : list elt) (sub : elt) : list elt :=
  match ekids sub with [] => kids | _ => kids ++ [sub] end.

(** Does any node of the tree (root included, [Element.iter]) have the text
    [False] (the object, so an integer 0 does not count)? *)
Fixpoint anyFalse (e : elt) : bool :=
  let 'Elt _ _ v k := e in
  match v with VBool false => true | _ => false end
  || (fix go (l : list elt) : bool :=
        match l with [] => false | x :: l' => anyFalse x || go l' end) k.

(** Remap table: tag -> list of (raw value, description). *)
Definition remap_table := list (string * list (value * pystr)).

Fixpoint remap_tag (t : string) (tbl : remap_table) : option (list (value * pystr)) :=
  match tbl with
  | [] => None
  | (t', m) :: r => if String.eqb t t' then Some m else remap_tag t r
  end.

Fixpoint remap_val (v : value) (m : list (value * pystr)) : option pystr :=
  match m with
  | [] => None
  | (k, d) :: r => if py_eqb v k then Some d else remap_val v r
  end.

(** etpatch.py:86-107, step 1 of [makeHumanReadable]: dictionary lookup by tag
    and value; the original value is kept when there is no entry. *)
Definition remap (tbl : remap_table) (t : string) (v : value) : value :=
  match remap_tag t tbl with
  | Some m => match remap_val v m with Some d => VStr d | None => v end
  | None => v
  end.

(** Python's int-to-str conversion limit (3.11 and later): str(int) raises
    ValueError when the number has more digits than the limit; None = no limit. *)
Definition str_int (limit : option Z) (z : Z) : res pystr :=
  match limit with
  | Some n => if n <? ndigits z then Raise ValueError else Ok (str_of_Z z)
  | None => Ok (str_of_Z z)
  end.

(** etpatch.py:109-131, step 2 of [makeHumanReadable] for one value. *)
Definition textOut (catC : Z -> bool) (limit : option Z) (v : value) : res value :=
  match v with
  | VNone => Ok VNone
  | VBytes b => Ok (VStr (bytesToText catC b))
  | VBool b => Ok (VStr (pys (if b then "True" else "False")))
  | VInt z => rbind (str_int limit z) (fun s => Ok (VStr s))
  | VFloat f => Ok (VStr (repr_float f))
  | VStr s => Ok (VStr (removeControlCharacters catC s))
  end.

(** etpatch.py:77-131 [makeHumanReadable]: applied to every node in document
    order; the first exception propagates. *)
Fixpoint makeHumanReadable (catC : Z -> bool) (limit : option Z) (tbl : remap_table)
         (e : elt) : res elt :=
  let 'Elt t a v k := e in
  rbind (textOut catC limit (remap tbl t v)) (fun v' =>
  rbind ((fix go (l : list elt) : res (list elt) :=
            match l with
            | [] => Ok []
            | x :: l' =>
                rbind (makeHumanReadable catC limit tbl x) (fun x' =>
                rbind (go l') (fun r => Ok (x' :: r)))
            end) k) (fun k' =>
  Ok (Elt t a v' k'))).

(** * What a reader takes from the document: path and verdict of each file *)

From Coq Require Import ZArith List Bool String.
From Verif Require Import Py Serial SpecXml.
Import ListNotations.
Open Scope string_scope.
Open Scope list_scope.
Open Scope Z_scope.

(** Names in the namespace of jpylyzer. *)
Definition jp (n : string) : pystr := pys "{http://openpreservation.org/ns/jpylyzer/v2/}" ++ pys n.
Definition has_name (n : pystr) (x : dnode) : bool := match x with DElem m _ _ => pystr_eqb m n | DText _ => false end.
Definition children (x : dnode) : list dnode := match x with DElem _ _ k => k | DText _ => [] end.
(** The first child with a name, and the text of an element that has nothing else. *)
Fixpoint first_named (n : pystr) (l : list dnode) : option dnode :=
  match l with [] => None | x :: l' => if has_name n x then Some x else first_named n l' end.
Definition child (n : string) (x : option dnode) : option dnode :=
  match x with Some y => first_named (jp n) (children y) | None => None end.
Definition doc_text (x : option dnode) : pystr := match x with Some (DElem _ _ [DText s]) => s | _ => [] end.
Definition row (f : dnode) : pystr * pystr :=
  (doc_text (child "filePath" (child "fileInfo" (Some f))), doc_text (child "isValid" (Some f))).
Definition verdicts (z : dnode) : list (pystr * pystr) := map row (filter (has_name (jp "file")) (children z)).

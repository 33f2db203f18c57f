(** * How long numbers are *)

From Coq Require Import ZArith String.
From Verif Require Import Py ETree SpecText.
Open Scope string_scope.
Open Scope Z_scope.

(** An element as made by an XML parser: its texts are never numbers. *)
Definition without_numbers : elt -> Prop := every (fun _ v => forall z, v <> VInt z).
(** Profile and corresponding-profile numbers, which may be as long as a marker segment. *)
Definition wide_tag (t : string) : Prop := t = "PRFnum" \/ t = "CPFnum".
(** All numbers of an element whose tags satisfy [T] have at most [n] digits. *)
Definition digits (n : Z) (T : string -> Prop) : elt -> Prop :=
  every (fun t v => T t -> forall z, v = VInt z -> Z.abs z < 10 ^ n).

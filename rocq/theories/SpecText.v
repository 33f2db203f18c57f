(** * Reports as text: what the human-readable form of a tree is

    Specification used by C20, C21, C44, C45 and C48-C53; independent of
    etpatch.py's helpers. *)

From Coq Require Import ZArith List Bool String.
From Coq Require Import Init.Byte.
From Verif Require Import Py PyFloat ETree Spec.
Import ListNotations.
Open Scope string_scope.
Open Scope list_scope.
Open Scope Z_scope.

(** ** Decimal numerals *)
Definition digit (c : Z) : Prop := 48 <= c <= 57.
Definition numeral (ds : pystr) : Z := fold_left (fun a c => 10 * a + (c - 48)) ds 0.
(** [s] is the decimal numeral of [z]: digits without leading zeros, after a minus
    sign if [z] is negative. *)
Definition decimal (z : Z) (s : pystr) : Prop :=
  exists ds, s = (if z <? 0 then [45] else []) ++ ds /\ ds <> [] /\ Forall digit ds /\
             numeral ds = Z.abs z /\ (hd 0 ds = 48 -> ds = [48]).
(** [z] is small enough for Python's conversion limit. *)
Definition convertible (limit : option Z) (z : Z) : Prop :=
  match limit with Some n => Z.abs z < 10 ^ n | None => True end.

(** ** Text without control characters *)

(** [s'] is [s] without the characters that are not printable. *)
Inductive kept (catC : Z -> bool) : pystr -> pystr -> Prop :=
| kept_nil : kept catC [] []
| kept_keep c s s' : printable catC c -> kept catC s s' -> kept catC (c :: s) (c :: s')
| kept_drop c s s' : ~ printable catC c -> kept catC s s' -> kept catC (c :: s) s'.
(** ASCII letters, digits and punctuation. *)
Definition ascii_text (s : pystr) : Prop := Forall (fun c => 32 <= c < 127) s.
(** The Unicode tables know ASCII: none of its graphic characters is of category C. *)
Definition ascii_ok (catC : Z -> bool) : Prop := forall c, 32 <= c < 127 -> catC c = false.
Definition clean (catC : Z -> bool) (v : value) : Prop :=
  v = VNone \/ exists s, v = VStr s /\ Forall (printable catC) s.

(** ** Trees *)

(** Same tags, attributes and shape; the texts are related by [P]. *)
Inductive rel (P : string -> value -> value -> Prop) : elt -> elt -> Prop :=
| rel_elt t a v v' k k' : P t v v' -> Forall2 (rel P) k k' -> rel P (Elt t a v k) (Elt t a v' k').
(** [every P e]: [P] holds of the tag and the text of every node of [e]. *)
Inductive every (P : string -> value -> Prop) : elt -> Prop :=
| every_elt t a v k : P t v -> Forall (every P) k -> every P (Elt t a v k).

(** ** Tables of descriptions *)
Definition described (tbl : remap_table) (t : string) (v : value) (d : pystr) : Prop :=
  exists m k, In (t, m) tbl /\ In (k, d) m /\ py_eqb v k = true.
(** A table is a dictionary of dictionaries from integers and byte strings to
    ascii_text text. *)
Definition raw (v : value) : Prop := (exists z, v = VInt z) \/ (exists b, v = VBytes b).
Definition good_table (tbl : remap_table) : Prop :=
  NoDup (map fst tbl) /\
  forall t m, In (t, m) tbl -> NoDup (map fst m) /\ forall k d, In (k, d) m -> raw k /\ ascii_text d.

(** [shows catC limit tbl t v v']: the text [v] of a node with tag [t] is shown as [v']. *)
Inductive shows (catC : Z -> bool) (limit : option Z) (tbl : remap_table) (t : string) : value -> value -> Prop :=
| shows_described v d : described tbl t v d -> shows catC limit tbl t v (VStr d)
| shows_none : shows catC limit tbl t VNone VNone
| shows_true : (forall d, ~ described tbl t (VBool true) d) ->
    shows catC limit tbl t (VBool true) (VStr (pys "True"))
| shows_false : (forall d, ~ described tbl t (VBool false) d) ->
    shows catC limit tbl t (VBool false) (VStr (pys "False"))
| shows_int z s : (forall d, ~ described tbl t (VInt z) d) -> convertible limit z -> decimal z s ->
    shows catC limit tbl t (VInt z) (VStr s)
| shows_float f : (forall d, ~ described tbl t (VFloat f) d) ->
    shows catC limit tbl t (VFloat f) (VStr (repr_float f))
| shows_text b s s' : (forall d, ~ described tbl t (VBytes b) d) -> utf8_of s b -> kept catC s s' ->
    shows catC limit tbl t (VBytes b) (VStr s')
| shows_garbage b : (forall d, ~ described tbl t (VBytes b) d) -> (forall s, ~ utf8_of s b) ->
    shows catC limit tbl t (VBytes b) (VStr [])
| shows_str s s' : kept catC s s' -> shows catC limit tbl t (VStr s) (VStr s').

(** An integer that cannot be shown. *)
Definition too_long (limit : option Z) (tbl : remap_table) (t : string) (v : value) : Prop :=
  exists z, v = VInt z /\ ~ convertible limit z /\ forall d, ~ described tbl t v d.

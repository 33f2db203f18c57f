(** * Specifications: comparing two reports *)

From Coq Require Import ZArith List Bool String.
From Verif Require Import Py ETree BV.
Import ListNotations.
Open Scope string_scope.
Open Scope list_scope.
Open Scope Z_scope.

(** The failures in a tree of tests: elements with the text False and the
    elements above them. *)
Fixpoint failures (e : elt) : list elt :=
  let 'Elt t a v k := e in
  let k' := flat_map failures k in
  match v, k' with
  | VBool false, _ => [Elt t a v k']
  | _, _ :: _ => [Elt t a v k']
  | _, [] => []
  end.

(** A report with only the failed tests kept. *)
Definition only_failures (r : bv) : bv :=
  {| r_tests := let 'Elt t a v k := r_tests r in Elt t a v (flat_map failures k);
     r_chars := r_chars r; r_warns := r_warns r;
     r_ret := r_ret r; r_valid := r_valid r; r_tpl := r_tpl r |}.

Definition res_map {A B} (f : A -> B) (x : res A) : res B :=
  match x with Ok a => Ok (f a) | Raise e => Raise e | Diverge => Diverge end.

(** A tree of properties without the packet marker elements, and without what is
    inside XML and UUID boxes. *)
Fixpoint outline (e : elt) : list elt :=
  let 'Elt t a v k := e in
  if existsb (String.eqb t) ["plm"; "ppm"; "plt"; "ppt"] then []
  else if existsb (String.eqb t) ["xmlBox"; "uuidBox"] then [Elt t a v []]
  else [Elt t a v (flat_map outline k)].

(** Same report except for the properties [outline] leaves out. *)
Definition same_outline (r1 r2 : bv) : Prop :=
  r_tests r1 = r_tests r2 /\ outline (r_chars r1) = outline (r_chars r2) /\
  r_warns r1 = r_warns r2 /\
  r_ret r1 = r_ret r2 /\ r_valid r1 = r_valid r2 /\ r_tpl r1 = r_tpl r2.

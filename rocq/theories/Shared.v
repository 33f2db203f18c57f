(** * Model of jpylyzer/shared.py (pure functions only) *)

From Coq Require Import ZArith List Bool.
From Verif Require Import Py.
Import ListNotations.
Open Scope Z_scope.

(** shared.py:35-40 [consecutive]: adjacent differences are all 1. *)
Fixpoint consecutive (l : list Z) : bool :=
  match l with
  | a :: ((b :: _) as l') => (b - a =? 1) && consecutive l'
  | _ => true
  end.

(** shared.py:45: [i for i in range(len(lst)) if lst[i] == value] *)
Fixpoint indices_of (i : Z) (v : bytes) (l : list bytes) : list Z :=
  match l with
  | [] => []
  | x :: l' => if bytes_eqb x v then i :: indices_of (i + 1) v l'
               else indices_of (i + 1) v l'
  end.

(** shared.py:43-46 [listOccurrencesAreContiguous]; only ever applied to lists
    of box-type byte strings. *)
Definition listOccurrencesAreContiguous (l : list bytes) (v : bytes) : bool :=
  consecutive (indices_of 0 v l).

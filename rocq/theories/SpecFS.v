(** * Directory trees and file name expressions, declaratively *)

From Coq Require Import ZArith List Bool String.
From Verif Require Import Py PosixFS.
Import ListNotations.
Open Scope string_scope.
Open Scope list_scope.
Open Scope Z_scope.

(** Names that a directory can have, each once. *)
Definition good_name (n : pystr) : Prop := n <> [] /\ ~ In 47 n /\ n <> pys "." /\ n <> pys "..".
Inductive wf_tree : entry -> Prop :=
| wf_file : wf_tree File
| wf_other : wf_tree Other
| wf_dir b l : Forall (fun x => good_name (fst x) /\ wf_tree (snd x)) l -> NoDup (map fst l) -> wf_tree (Dir b l).

(** The path of an entry by the names that lead to it from a directory. *)
Definition below (top n : pystr) : pystr :=
  match last top 0 with 47 => top ++ n | _ => top ++ pys "/" ++ n end.
Definition under (top : pystr) (names : list pystr) : pystr := fold_left below names top.

(** [walked l names m]: the names lead from the directory with the entries [l] to the
    one with the entries [m], not through symbolic links. *)
Inductive walked : list (pystr * entry) -> list pystr -> list (pystr * entry) -> Prop :=
| walked_here l : walked l [] l
| walked_down l n l' names m : In (n, Dir false l') l -> walked l' names m -> walked l (n :: names) m.
(** ... or through a link at the end. *)
Inductive visited : list (pystr * entry) -> list pystr -> list (pystr * entry) -> Prop :=
| visited_walked l names m : walked l names m -> visited l names m
| visited_link l names l' n m : walked l names l' -> In (n, Dir true m) l' -> visited l (names ++ [n]) m.

(** The characters of a class, as written between the brackets: "a-b" stands for those
    from [a] to [b], others for themselves. *)
Inductive member : pystr -> Z -> Prop :=
| member_range a b r c : a <= c <= b -> member (a :: 45 :: b :: r) c
| member_after a b r c : member r c -> member (a :: 45 :: b :: r) c
| member_char c r : (forall b r', r <> 45 :: b :: r') -> member (c :: r) c
| member_next a r c : (forall b r', r <> 45 :: b :: r') -> member r c -> member (a :: r) c.
(** A class is not empty; a "]" can only be its first character. *)
Definition class (b : pystr) : Prop := b <> [] /\ ~ In 93 (tl b).
(** File name expressions: "*" stands for any text, "?" for any character, "[...]" for
    one of a class and "[!...]" for one that is not.  A "[" that opens no class stands
    for itself. *)
Inductive wild : pystr -> pystr -> Prop :=
| wild_nil : wild [] []
| wild_star p s t : wild p t -> wild (42 :: p) (s ++ t)
| wild_any p c s : wild p s -> wild (63 :: p) (c :: s)
| wild_char p c s : c <> 42 -> c <> 63 -> c <> 91 -> wild p s -> wild (c :: p) (c :: s)
| wild_class b p c s : class b -> hd 0 b <> 33 -> member b c -> wild p s -> wild (91 :: b ++ 93 :: p) (c :: s)
| wild_negated b p c s : class b -> ~ member b c -> wild p s -> wild (91 :: 33 :: b ++ 93 :: p) (c :: s)
| wild_bracket p s :
    (forall b q, class b -> p <> 33 :: b ++ 93 :: q) -> (forall b q, class b -> hd 0 b <> 33 -> p <> b ++ 93 :: q) ->
    wild p s -> wild (91 :: p) (91 :: s).
(** No class that begins with a range in reverse (Python's fnmatch can take a later "!"
    in such a class for the sign of a negated one). *)
Definition orderly (pat : pystr) : Prop := forall a x y r, pat = a ++ 91 :: x :: 45 :: y :: r -> x <= y.
(** Names that begin with a dot match only expressions that do. *)
Definition named_by (pat n : pystr) : Prop := wild pat n /\ (hd 0 n = 46 -> hd 0 pat = 46).
(** No character with a special meaning *)
Definition literal (s : pystr) : Prop := ~ In 42 s /\ ~ In 63 s /\ ~ In 91 s.

(** [reached l ps names e]: the names lead from the directory with the entries [l] to
    [e], each matching its expression, links followed. *)
Inductive reached : list (pystr * entry) -> list pystr -> list pystr -> entry -> Prop :=
| reached_last l p n e : In (n, e) l -> named_by p n -> reached l [p] [n] e
| reached_down l p n b l' ps ns e : In (n, Dir b l') l -> named_by p n -> reached l' ps ns e -> reached l (p :: ps) (n :: ns) e.

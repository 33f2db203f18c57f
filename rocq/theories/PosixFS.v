(** * The part of Python's library that file discovery uses, on a POSIX system

    posixpath.py (join, split, splitext, isabs, normpath, abspath), glob.py (glob),
    fnmatch.py (filter), os.py (walk), after the text of CPython 3.12, over a tree of
    directories.  Gives an instance of [fsys], the parameter of Main.v.

    Simplifications: every directory can be read; ".." is resolved by names, which
    differs from the operating system behind a symbolic link to a directory; the
    tree does not change during a run. *)

From Coq Require Import ZArith List Bool String.
From Verif Require Import Py Main.
Import ListNotations.
Open Scope string_scope.
Open Scope list_scope.
Open Scope Z_scope.

(** [Dir true]: reached by a symbolic link.  [Other]: neither file nor directory (for
    example a broken link). *)
Inductive entry :=
| File
| Other
| Dir (link : bool) (l : list (pystr * entry)).

Definition is_dir (e : entry) : bool := match e with Dir _ _ => true | _ => false end.

(** ** posixpath *)
(** str.split('/') *)
Fixpoint split_slash (s : pystr) : list pystr :=
  match s with
  | [] => [[]]
  | c :: r =>
      if c =? 47 then [] :: split_slash r
      else match split_slash r with x :: l => (c :: x) :: l | [] => [[c]] end
  end.
(** '/'.join *)
Fixpoint join_slash (l : list pystr) : pystr :=
  match l with [] => [] | [x] => x | x :: r => x ++ 47 :: join_slash r end.
Definition starts_slash (s : pystr) : bool := match s with c :: _ => c =? 47 | [] => false end.
Definition ends_slash (s : pystr) : bool := starts_slash (rev s).
(** join of two *)
Definition path_join (a b : pystr) : pystr :=
  if starts_slash b then b
  else if match a with [] => true | _ => ends_slash a end then a ++ b else a ++ 47 :: b.
(** The text up to the last slash, included, and the rest. *)
Fixpoint rcut (s : pystr) : pystr * pystr :=
  match s with
  | [] => ([], [])
  | c :: r =>
      match rcut r with
      | ([], t) => if c =? 47 then ([c], t) else ([], c :: t)
      | (h, t) => (c :: h, t)
      end
  end.
Fixpoint drop_slashes (s : pystr) : pystr :=
  match s with c :: r => if c =? 47 then drop_slashes r else s | [] => [] end.
Definition rstrip_slash (s : pystr) : pystr := rev (drop_slashes (rev s)).
Definition path_split (p : pystr) : pystr * pystr :=
  let '(head, tail) := rcut p in
  (if forallb (Z.eqb 47) head then head else rstrip_slash head, tail).
(** genericpath._splitext *)
Fixpoint rdot (s : pystr) : option (pystr * pystr) :=
  match s with
  | [] => None
  | c :: r =>
      match rdot r with
      | Some (h, t) => Some (c :: h, t)
      | None => if c =? 46 then Some ([], s) else None
      end
  end.
Definition path_splitext (p : pystr) : pystr * pystr :=
  let '(dir, base) := rcut p in
  match rdot base with
  | Some (h, t) => if forallb (Z.eqb 46) h then (p, []) else (dir ++ h, t)
  | None => (p, [])
  end.
Definition dot : pystr := [46].
Definition dotdot : pystr := [46; 46].
(** normpath: the loop over the components, [acc] reversed *)
Fixpoint norm_comps (initial : bool) (acc : list pystr) (comps : list pystr) : list pystr :=
  match comps with
  | [] => rev acc
  | c :: r =>
      if pystr_eqb c [] || pystr_eqb c dot then norm_comps initial acc r
      else if negb (pystr_eqb c dotdot) || (negb initial && match acc with [] => true | _ => false end) ||
              match acc with x :: _ => pystr_eqb x dotdot | [] => false end
           then norm_comps initial (c :: acc) r
           else match acc with _ :: acc' => norm_comps initial acc' r | [] => norm_comps initial acc r end
  end.
Definition normpath (p : pystr) : pystr :=
  match p with
  | [] => dot
  | _ =>
      let slashes := match p with
        | 47 :: 47 :: 47 :: _ => [47]
        | 47 :: 47 :: _ => [47; 47]
        | 47 :: _ => [47]
        | _ => []
        end in
      let q := slashes ++ join_slash (norm_comps (starts_slash p) [] (split_slash p)) in
      match q with [] => dot | _ => q end
  end.

(** ** fnmatch *)
Inductive tok := TStar | TAny | TChar (c : Z) | TSet (negated : bool) (ranges : list (Z * Z)).
(** The text up to the next "]", and what follows it. *)
Fixpoint to_bracket (s : pystr) : option (pystr * pystr) :=
  match s with
  | [] => None
  | c :: r =>
      if c =? 93 then Some ([], r)
      else match to_bracket r with Some (a, b) => Some (c :: a, b) | None => None end
  end.
(** A "]" right after the opening bracket (and "!") belongs to the set. *)
Definition set_body (s : pystr) : option (pystr * pystr) :=
  match s with
  | 93 :: r => match to_bracket r with Some (a, b) => Some (93 :: a, b) | None => None end
  | _ => to_bracket s
  end.
Fixpoint ranges (n : nat) (s : pystr) : list (Z * Z) :=
  match n with
  | O => []
  | S n =>
      match s with
      | a :: 45 :: b :: r => (a, b) :: ranges n r
      | a :: r => (a, a) :: ranges n r
      | [] => []
      end
  end.
(** Empty ranges are removed before the "!" is looked for, so that one behind them
    negates the set; a "-" that follows it then stands for itself. *)
Fixpoint drop_empty (n : nat) (s : pystr) : pystr :=
  match n with
  | O => s
  | S n => match s with a :: 45 :: b :: r => if b <? a then drop_empty n r else s | _ => s end
  end.
Definition set_tok (s : pystr) : tok :=
  match drop_empty (List.length s) s with
  | 33 :: 45 :: b :: r => TSet true ((45, 45) :: (b, b) :: ranges (List.length r) r)
  | 33 :: r => TSet true (ranges (List.length r) r)
  | _ => TSet false (ranges (List.length s) s)
  end.
Fixpoint tokens (n : nat) (p : pystr) : list tok :=
  match n with
  | O => []
  | S n =>
      match p with
      | [] => []
      | 42 :: r => TStar :: tokens n r
      | 63 :: r => TAny :: tokens n r
      | 91 :: r =>
          let '(neg, q) := match r with 33 :: q => (true, q) | _ => (false, r) end in
          match set_body q with
          | Some (body, rest) => (if neg then TSet true (ranges (List.length body) body) else set_tok body) :: tokens n rest
          | None => TChar 91 :: tokens n r
          end
      | c :: r => TChar c :: tokens n r
      end
  end.
Definition tok_char (t : tok) (c : Z) : bool :=
  match t with
  | TStar | TAny => true
  | TChar d => c =? d
  | TSet neg l => xorb neg (existsb (fun '(a, b) => (a <=? c) && (c <=? b)) l)
  end.
Fixpoint tok_match (p : list tok) : pystr -> bool :=
  match p with
  | [] => fun s => match s with [] => true | _ => false end
  | TStar :: p' => fix go (s : pystr) : bool := tok_match p' s || match s with [] => false | _ :: s' => go s' end
  | t :: p' => fun s => match s with c :: s' => tok_char t c && tok_match p' s' | [] => false end
  end.
Definition fnmatch (pat name : pystr) : bool := tok_match (tokens (List.length pat) pat) name.

(** ** The file system *)
Section FS.
Variable root : entry.
Variable cwd : pystr.

Fixpoint assoc (n : pystr) (l : list (pystr * entry)) : option entry :=
  match l with
  | [] => None
  | (m, e) :: r => if pystr_eqb n m then Some e else assoc n r
  end.
(** [at_dir]: an entry and the directories on the way to it, the nearest first. *)
Fixpoint descend (e : entry) (up : list entry) (comps : list pystr) : option (entry * list entry) :=
  match comps with
  | [] => Some (e, up)
  | c :: r =>
      match e with
      | Dir _ l =>
          if pystr_eqb c [] || pystr_eqb c dot then descend e up r
          else if pystr_eqb c dotdot then
            match up with d :: up' => descend d up' r | [] => descend e [] r end
          else match assoc c l with Some e' => descend e' (e :: up) r | None => None end
      | _ => None
      end
  end.
Definition full (p : pystr) : pystr := if starts_slash p then p else cwd ++ 47 :: p.
Definition stat (p : pystr) : option entry :=
  match p with
  | [] => None
  | _ => match descend root [] (split_slash (full p)) with Some (e, _) => Some e | None => None end
  end.
Definition path_isfile (p : pystr) : bool := match stat p with Some File => true | _ => false end.
Definition path_isdir (p : pystr) : bool := match stat p with Some e => is_dir e | None => false end.
Definition lexists (p : pystr) : bool := match stat p with Some _ => true | None => false end.
Definition listing (p : pystr) : list (pystr * entry) :=
  match stat p with Some (Dir _ l) => l | _ => [] end.
Definition path_abspath (p : pystr) : pystr := normpath (if starts_slash p then p else path_join cwd p).

(** os.walk(top): top-down, not into symbolic links *)
Fixpoint walk_entry (e : entry) (p : pystr) : list (pystr * list pystr * list pystr) :=
  match e with
  | Dir _ l =>
      (p, map fst (filter (fun x => is_dir (snd x)) l), map fst (filter (fun x => negb (is_dir (snd x))) l)) ::
      flat_map (fun x => match x with (n, Dir false _ as e') => walk_entry e' (path_join p n) | _ => [] end) l
  | _ => []
  end.
Definition path_walk (p : pystr) : list (pystr * list pystr * list pystr) :=
  match stat p with Some e => walk_entry e p | None => [] end.

(** glob *)
Definition has_magic (s : pystr) : bool := existsb (fun c => (c =? 42) || (c =? 63) || (c =? 91)) s.
Definition ishidden (s : pystr) : bool := match s with c :: _ => c =? 46 | [] => false end.
Definition glob1 (dir pat : pystr) (dironly : bool) : list pystr :=
  let l := listing (match dir with [] => dot | _ => dir end) in
  let names := map fst (filter (fun x => negb dironly || is_dir (snd x)) l) in
  filter (fnmatch pat) (if ishidden pat then names else filter (fun x => negb (ishidden x)) names).
Definition glob0 (dir base : pystr) : list pystr :=
  match base with
  | [] => if path_isdir dir then [base] else []
  | _ => if lexists (path_join dir base) then [base] else []
  end.
(** _iglob; a directory name with wildcards is shorter than the expression, so the
    length of the expression bounds the nesting. *)
Fixpoint iglob (n : nat) (dironly : bool) (p : pystr) : list pystr :=
  match n with
  | O => []
  | S n =>
      let '(dir, base) := path_split p in
      if negb (has_magic p) then
        match base with
        | [] => if path_isdir dir then [p] else []
        | _ => if lexists p then [p] else []
        end
      else match dir with
      | [] => glob1 [] base dironly
      | _ =>
          let dirs := if has_magic dir && negb (pystr_eqb dir p) then iglob n true dir else [dir] in
          flat_map (fun d => map (path_join d) (if has_magic base then glob1 d base dironly else glob0 d base)) dirs
      end
  end.
Definition path_glob (p : pystr) : list pystr := iglob (S (List.length p)) false p.

Definition posix : fsys := {|
  isfile := path_isfile; isdir := path_isdir; isabs := starts_slash; abspath := path_abspath;
  globf := path_glob; walk := path_walk; psplit := path_split; psplitext := path_splitext; pjoin := path_join |}.
End FS.

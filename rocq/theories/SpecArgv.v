(** * The grammar of the command line *)

From Coq Require Import ZArith List Bool String.
From Verif Require Import Py.
Import ListNotations.
Open Scope string_scope.
Open Scope list_scope.
Open Scope Z_scope.

(** What can be set, and the names for it. *)
Inductive flag := Nopretty | Nullxml | Recurse | Packetmarkers | Verbose.
Inductive setting := Flag (f : flag) | Format (s : pystr) | Mix (s : pystr).
Inductive opt := OFlag (f : flag) | OFormat | OMix | OHelp | OVersion.
Definition longs : list (pystr * opt) := map (fun p => (pys (fst p), snd p))
  [("--help", OHelp); ("--format", OFormat); ("--mix", OMix); ("--nopretty", OFlag Nopretty); ("--nullxml", OFlag Nullxml);
   ("--recurse", OFlag Recurse); ("--packetmarkers", OFlag Packetmarkers); ("--verbose", OFlag Verbose); ("--version", OVersion)].
Definition letters : list (Z * opt) :=
  [(104, OHelp); (102, OFormat); (114, OFlag Recurse); (112, OFlag Packetmarkers); (118, OVersion)].

(** A long name may be cut short as long as it can be no other. *)
Definition begins (p s : pystr) : Prop := exists r, s = p ++ r.
Definition refers (p : pystr) (o : opt) : Prop :=
  (exists s, In (s, o) longs /\ begins p s) /\ forall s o', In (s, o') longs -> begins p s -> o' = o.
(** A word that begins like two of them. *)
Definition ambiguous (w : pystr) : Prop := exists p e s o s' o',
  w = p ++ e /\ begins [45; 45] p /\ ~ In 61 p /\ (e = [] \/ hd 0 e = 61) /\ In (s, o) longs /\ In (s', o') longs /\ o <> o' /\ begins p s /\ begins p s'.
Definition with_value (o : opt) (s : pystr) (x : setting) : Prop := (o = OFormat /\ x = Format s) \/ (o = OMix /\ x = Mix s).

Section Words.
Variable decimal : Z -> bool.
(** A negative number, possibly with a newline at the end. *)
Definition digits (s : pystr) : Prop := Forall (fun c => decimal c = true) s.
Definition negative (s : pystr) : Prop := exists a b nl, s = [45] ++ a ++ b ++ nl /\ (nl = [] \/ nl = [10]) /\ digits a /\
  ((b = [] /\ a <> []) \/ exists c, b = 46 :: c /\ c <> [] /\ digits c).
(** Words that start with a hyphen and cannot be meant as one of the options: up to an
    equals sign the beginning of no long name; or another letter. *)
Definition no_option (s : pystr) : Prop :=
  (exists p e, s = p ++ e /\ begins [45; 45] p /\ ~ In 61 p /\ (e = [] \/ hd 0 e = 61) /\ forall l o, In (l, o) longs -> ~ begins p l) \/
  (exists c r, s = 45 :: c :: r /\ c <> 45 /\ ~ In c (map fst letters)).
(** Words that are not options: paths and values. *)
Definition word (s : pystr) : Prop :=
  hd 0 s <> 45 \/ s = [45] \/ (no_option s /\ (negative s \/ In 32 s)).

(** The ways to write settings. *)
Inductive letters_of : list flag -> pystr -> Prop :=
| letters_nil : letters_of [] []
| letters_cons f c fs s : In (c, OFlag f) letters -> letters_of fs s -> letters_of (f :: fs) (c :: s).
Inductive written : list pystr -> list setting -> Prop :=
| w_long p f : refers p (OFlag f) -> written [p] [Flag f]
| w_long_equals p o s x : refers p o -> with_value o s x -> written [p ++ [61] ++ s] [x]
| w_long_next p o s x : refers p o -> with_value o s x -> word s -> written [p; s] [x]
| w_letters fs s : fs <> [] -> letters_of fs s -> written [45 :: s] (map Flag fs)
| w_letters_equals fs s v : letters_of fs s -> written [45 :: s ++ [102; 61] ++ v] (map Flag fs ++ [Format v])
| w_letters_value fs s v : letters_of fs s -> v <> [] -> hd 0 v <> 61 -> written [45 :: s ++ [102] ++ v] (map Flag fs ++ [Format v])
| w_letters_next fs s v : letters_of fs s -> word v -> written [45 :: s ++ [102]; v] (map Flag fs ++ [Format v]).
(** ... and to ask for help or for the version. *)
Inductive asks (o : opt) : pystr -> Prop :=
| asks_long p : refers p o -> asks o p
| asks_letter fs s c : letters_of fs s -> In (c, o) letters -> asks o (45 :: s ++ [c]).
Inductive options : list pystr -> list setting -> Prop :=
| o_nil : options [] []
| o_cons w ws x xs : written w x -> options ws xs -> options (w ++ ws) (x ++ xs).

(** Options, paths, options; or options, paths, and after "--" more paths of any kind. *)
Inductive line : list pystr -> list setting -> list pystr -> Prop :=
| line_plain a x ps b y : options a x -> ps <> [] -> Forall word ps -> options b y -> line (a ++ ps ++ b) (x ++ y) ps
| line_dashes a x ps qs : options a x -> Forall word ps -> ps ++ qs <> [] -> line (a ++ ps ++ [[45; 45]] ++ qs) x (ps ++ qs).
End Words.

(** What a list of settings comes to: the last one counts. *)
Definition has (f : flag) (l : list setting) : Prop := In (Flag f) l.
Inductive last_format : list setting -> pystr -> Prop :=
| lf_default l : (forall s, ~ In (Format s) l) -> last_format l (pys "jp2")
| lf_last a s b : (forall t, ~ In (Format t) b) -> last_format (a ++ Format s :: b) s.
Inductive last_mix (int_of : pystr -> option Z) : list setting -> Z -> Prop :=
| lm_default l : (forall s, ~ In (Mix s) l) -> last_mix int_of l 0
| lm_last a s b v : (forall t, ~ In (Mix t) b) -> int_of s = Some v -> last_mix int_of (a ++ Mix s :: b) v.

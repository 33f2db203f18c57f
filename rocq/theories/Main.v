(** * Model of jpylyzer.py: file discovery and batch processing *)

From Coq Require Import ZArith List Bool String Ascii.
From Verif Require Import Py ETree BV CheckFile.
Import ListNotations.
Open Scope string_scope.
Open Scope list_scope.
Open Scope Z_scope.

(** Answers of os.path, glob and os.walk; assumed not to change during a run. *)
Record fsys := {
  isfile : pystr -> bool;
  isdir : pystr -> bool;
  isabs : pystr -> bool;
  abspath : pystr -> pystr;
  globf : pystr -> list pystr;
  walk : pystr -> list (pystr * list pystr * list pystr);
  psplit : pystr -> pystr * pystr;
  psplitext : pystr -> pystr * pystr;
  pjoin : pystr -> pystr -> pystr }.

Section Files.
Variable F : fsys.

(** The functions below return the paths they append to EXISTING_FILES. *)

(** jpylyzer.py:516-521 [getFiles] *)
Definition getFiles (pattern : pystr) : list pystr := filter (isfile F) (globf F pattern).

(** jpylyzer.py:524-535 [getFilesWithPatternFromTree] *)
Definition getFilesWithPatternFromTree (root pattern : pystr) : list pystr :=
  flat_map (fun '(dirname, dirnames, _) =>
      flat_map (fun sub => getFiles (pjoin F (pjoin F dirname sub) pattern)) dirnames)
    (walk F root).

(** jpylyzer.py:538-551 [getFilesFromTree] *)
Definition getFilesFromTree (root : pystr) : list pystr :=
  flat_map (fun '(dirname, _, filenames) => map (pjoin F dirname) filenames) (walk F root).

Definition hasWildcard (s : pystr) : bool := existsb (Z.eqb 42) s.

(** jpylyzer.py:560-597: first part of the loop body: the paths found without
    recursion and the value [root] has afterwards. *)
Definition findPlain (root : pystr) : list pystr * pystr :=
  if isfile F root then ([root], root)
  else if hasWildcard root then
    let root1 := if isabs F root then root else abspath F root in
    let filesList := globf F root1 in
    match filesList with
    | [f] =>
        ((if isfile F f then [f] else []), (if isdir F f then f else root1))
    | [] => ([], root1)
    | _ => (filter (isfile F) filesList, root1)
    end
  else ([], root).

(** jpylyzer.py:599-632: second part (recurse only). *)
Definition findRecurse (root : pystr) : list pystr :=
  let root1 := if isabs F root then root else abspath F root in
  if hasWildcard root1 then
    let '(path, pattern) := psplit F root1 in
    let '(stem, ext) := psplitext F pattern in
    if hasWildcard path then
      match globf F path with
      | [] => []
      | [d] => getFilesWithPatternFromTree d pattern
      | l => flat_map (fun f => if isdir F f then getFilesWithPatternFromTree f pattern else []) l
      end
    else if hasWildcard pattern then getFilesWithPatternFromTree path pattern
    else if pystr_eqb stem [42] || pystr_eqb ext [42]
         then getFilesWithPatternFromTree path (42 :: ext)
         else []
  else if isdir F root1 then getFilesFromTree root1 else [].

(** jpylyzer.py:554-632 [findFiles]: paths appended to EXISTING_FILES. *)
Definition findFiles (recurse : bool) (paths : list pystr) : list pystr :=
  flat_map (fun root =>
      let '(l, root1) := findPlain root in
      l ++ (if recurse then findRecurse root1 else [])) paths.

End Files.

(** Output written to stdout, in order, and how the run ends. *)
Inductive chunk :=
| Head                       (** XML declaration and opening <jpylyzer> tag *)
| Element (s : pystr)        (** one serialised element *)
| Tail.                      (** closing </jpylyzer> tag *)

Inductive ending := Finished | Exited (code : Z) | Crashed (e : exn) | Hangs.

Record run := { out : list chunk; ends : ending }.

Section Batch.
Variable E : env.
Variables fuel depth : nat.
Variable F : fsys.
(** Operating-system answers about each path at the time it is processed. *)
Variable observe : pystr -> fileobs.
(** jpylyzer.py:635-656 [writeElement]: the text written, or an exception
    (modelled in Serial.v). *)
Variable write : elt -> res pystr.
(** jpylyzer.py:684-687 [toolInfo]; the version string is a parameter. *)
Variable toolInfo : elt.

(** jpylyzer.py:690-704: the loop over EXISTING_FILES. *)
Fixpoint processFiles (o : opts) (mixFlag : Z) (paths : list pystr) : run :=
  match paths with
  | [] => {| out := [Tail]; ends := Finished |}
  | p :: ps =>
      match rbind (checkOneFile E fuel depth p (observe p) o mixFlag) write with
      | Ok s => let r := processFiles o mixFlag ps in
                {| out := Element s :: out r; ends := ends r |}
      | Raise e => {| out := []; ends := Crashed e |}
      | Diverge => {| out := []; ends := Hangs |}
      end
  end.

(** jpylyzer.py:659-707 [checkFiles].  [before]: contents of the module-level
    EXISTING_FILES list when the call starts (empty in a command-line run). *)
Definition checkFiles (before : list pystr) (o : opts) (mixFlag : Z)
           (recurse : bool) (paths : list pystr) : run :=
  match before ++ findFiles F recurse paths with
  | [] => {| out := []; ends := Exited (-7) |}
  | files =>
      match write toolInfo with
      | Ok s => let r := processFiles o mixFlag files in
                {| out := Head :: Element s :: out r; ends := ends r |}
      | Raise e => {| out := [Head]; ends := Crashed e |}
      | Diverge => {| out := [Head]; ends := Hangs |}
      end
  end.

(** Parsed command line.  The parser (argparse, jpylyzer.py:710-763) is modelled in
    Argv.v; it guarantees at least one path and mixFlag in 0..2 (Prop_Argv.v). *)
Record args := {
  a_format : string; a_mix : Z; a_nullxml : bool; a_recurse : bool;
  a_packet : bool; a_verbose : bool; a_paths : list pystr }.

(** [str.lower] on ASCII. *)
Definition lower_ascii (c : ascii) : ascii :=
  let n := nat_of_ascii c in
  if (Nat.leb 65 n && Nat.leb n 90)%bool then ascii_of_nat (n + 32) else c.
Fixpoint lower (s : string) : string :=
  match s with EmptyString => EmptyString | String c s' => String (lower_ascii c) (lower s') end.

Definition supported (fmt : string) : bool :=
  existsb (String.eqb fmt) ["jp2"; "jph"; "j2c"; "jhc"].

(** jpylyzer.py:766-805 [main].  [shared.errorExit] calls sys.exit() without a
    code, so an unsupported format exits with status 0. *)
Definition main (a : args) : run :=
  match a_paths a with
  | [] => {| out := []; ends := Exited 0 |}
  | paths =>
      let fmt := lower (a_format a) in
      if negb (supported fmt) then {| out := []; ends := Exited 0 |}
      else
        let mixFlag := if String.eqb fmt "j2c" || String.eqb fmt "jhc" then 0 else a_mix a in
        let o := {| o_format := fmt; o_verbose := a_verbose a;
                    o_nullxml := a_nullxml a; o_packet := a_packet a |} in
        checkFiles [] o mixFlag (a_recurse a) paths
  end.

End Batch.

(** * Model of jpylyzer.py: analysis of one file *)

From Coq Require Import ZArith List Bool String.
From Verif Require Import Py PyFloat ByteConv ETree BV VSuper Remap Mix.
Import ListNotations.
Open Scope string_scope.
Open Scope list_scope.
Open Scope Z_scope.

(** [str.encode('utf-8', 'replace')]: one "?" for every surrogate code point. *)
Definition utf8_encode_replace (s : pystr) : bytes :=
  map byte_of_Z (flat_map (fun c => if is_surrogate c then [63] else utf8_enc1 c) s).

(** jpylyzer.py:502-513 [stripSurrogatePairs].  The decoding with
    errors='ignore' is modelled as strict decoding; the None branch (an input
    that 'ignore' would repair) is not reachable for code points up to 0x10FFFF. *)
Definition stripSurrogatePairs (s : pystr) : pystr :=
  match utf8_encode s with
  | Some _ => s
  | None =>
      match utf8_decode (utf8_encode_replace s) with
      | Some t => t
      | None => []
      end
  end.

(** What [open] followed by [mmap.mmap] does with a path. *)
Inductive mapping :=
| Mapped (b : bytes)            (** the contents; Python cannot map 0 bytes *)
| MapEmpty                      (** ValueError "cannot mmap an empty file" *)
| MapTooLarge (gb : pystr)      (** ValueError, size over sys.maxsize; size in GB *)
| MapOther                      (** ValueError with any other message *)
| MapFails (e : exn).           (** [open] or [mmap] raises something else *)

(** What the operating system answers about one path. *)
Record fileobs := {
  fo_basename : pystr;          (* os.path.basename(path) *)
  fo_abspath  : pystr;          (* os.path.abspath(path) *)
  fo_size     : res Z;          (* os.path.getsize(path) *)
  fo_mtime    : res pystr;      (* fromtimestamp(getmtime(path)).isoformat() *)
  fo_map      : mapping }.

(** jpylyzer.py:293-330 [fileToMemoryMap]: contents and warnings.  The empty
    str returned in the empty and too-large cases is modelled as the empty byte
    string: both have length 0 and only empty slices.  For any other ValueError
    [fileData] stays unassigned.  The branch without mmap library
    (jpylyzer.py:283-290 [fileToBytes]) is not modelled. *)
Definition fileToMemoryMap (path : pystr) (m : mapping) : res (bytes * list pystr) :=
  match m with
  | Mapped b => Ok (b, [])
  | MapTooLarge gb =>
      Ok ([], [pys "file " ++ path ++ pys " too large to open (" ++ gb ++
               pys " GB). Try using 64-bit Python."])
  | MapEmpty => Ok ([], [pys "empty file " ++ path])
  | MapOther => Raise UnboundLocalError
  | MapFails e => Raise e
  end.

(** Truth value of resultsJP2.isValid (a bool, or None when no validator set it). *)
Definition truth (v : value) : bool := match v with VBool b => b | _ => false end.

(** jpylyzer.py:424-439: the failure message, by exact exception class. *)
Definition failureMessage (e : exn) : pystr :=
  match e with
  | MemoryError => pys "memory error (file size too large)"
  | OSError => pys "I/O error (cannot open file)"
  | RuntimeError =>
      pys "runtime error, please report to developers by creating an issue at https://github.com/openpreserve/jpylyzer/issues"
  | _ =>
      pys "unknown error, please report to developers by creating an issue at https://github.com/openpreserve/jpylyzer/issues"
  end.

Section CheckOneFile.
Variable E : env.
Variables fuel depth : nat.

(** jpylyzer.py:388-392: the root box for a validation format. *)
Definition rootBox (format : string) : option btype :=
  if String.eqb format "jp2" || String.eqb format "jph" then Some (BTs "JP2")
  else if String.eqb format "j2c" || String.eqb format "jhc"
       then Some (BTs "contiguousCodestreamBox")
       else None.

(** Result of the analysis proper (the body of the try statement). *)
Record analysis := {
  an_valid : value; an_tests : elt; an_chars : elt; an_warns : elt }.

(** jpylyzer.py:381-422: the try body: map the file, validate it, make the
    three trees human-readable. *)
Definition analyse (path : pystr) (m : mapping) (o : opts) : res analysis :=
  rbind (fileToMemoryMap path m) (fun '(data, fmm) =>
  match rootBox (o_format o) with
  | None => Raise UnboundLocalError       (* boxType is not assigned *)
  | Some root =>
      rbind (validate E o fuel depth root data VNone VNone) (fun r =>
      let w := Elt (etag (r_warns r)) (eattrib (r_warns r)) (etext (r_warns r))
                   (ekids (r_warns r) ++ map (fun x => leaf "warning" (VStr x)) fmm) in
      let hr := makeHumanReadable (catC E) (str_limit E) in
      rbind (hr [] (r_tests r)) (fun tests =>
      rbind (hr propertiesRemapTable (r_chars r)) (fun chars =>
      rbind (hr [] w) (fun warns =>
      Ok {| an_valid := r_valid r; an_tests := tests;
            an_chars := chars; an_warns := warns |}))))
  end).

(** jpylyzer.py:333-470 [checkOneFile].  [mtime] ValueError: the fallback calls
    fromtimestamp on a string (jpylyzer.py:368-372), a TypeError.  Output to
    stderr is not modelled. *)
Definition checkOneFile (path : pystr) (fo : fileobs) (o : opts) (mixFlag : Z) : res elt :=
  rbind (fo_size fo) (fun size =>
  rbind (match fo_mtime fo with Raise ValueError => Raise TypeError | r => r end) (fun mtime =>
  let fileInfo := node "fileInfo"
        [leaf "fileName" (VStr (stripSurrogatePairs (fo_basename fo)));
         leaf "filePath" (VStr (stripSurrogatePairs (fo_abspath fo)));
         leaf "fileSizeInBytes" (VStr (str_of_Z size));
         leaf "fileLastModified" (VStr mtime)] in
  let finish (isValid : value) (status : list elt) (tests chars warns : elt) : res elt :=
    let valid := truth isValid in
    rbind (if negb (mixFlag =? 0) && valid
           then rbind (generateMix (isspace E) mixFlag chars) (fun m => Ok [m])
           else Ok []) (fun mixProperties =>
    Ok (node "file"
          ([fileInfo; node "statusInfo" status;
            Elt "isValid" [("format", pys (o_format o))] (VStr (strText isValid)) [];
            tests; chars] ++
           (if mixFlag =? 0 then []
            else [node "propertiesExtension"
                       (if (String.eqb (o_format o) "jp2" || String.eqb (o_format o) "jph")
                           && valid then mixProperties else [])]) ++
           [warns]))) in
  match analyse path (fo_map fo) o with
  | Ok a =>
      finish (an_valid a) [leaf "success" (VStr (pys "True"))]
             (an_tests a) (an_chars a) (an_warns a)
  | Raise e =>
      finish (VBool false) [leaf "success" (VStr (pys "False"));
                    leaf "failureMessage" (VStr (failureMessage e))]
             (node "tests" []) (node "properties" [])
             (node "warnings" [leaf "warning" (VStr (failureMessage e))])
  | Diverge => Diverge
  end)).

End CheckOneFile.

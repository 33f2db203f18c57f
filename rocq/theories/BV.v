(** * Model of boxvalidator.py: the BoxValidator class, common part *)

From Coq Require Import ZArith List Bool String SpecFloat.
From Coq Require Import Init.Byte.
From Verif Require Import Py PyFloat ByteConv ETree.
Import ListNotations.
Open Scope string_scope.
Open Scope list_scope.
Open Scope Z_scope.

(** What the package takes from outside (never constrained by the model). *)
Record env := {
  catC : Z -> bool;               (* unicodedata.category(chr(c))[0] == "C" *)
  isspace : Z -> bool;            (* chr(c).isspace() *)
  xml_parse : bytes -> option elt; (* ET.fromstring; None = it raised *)
  pow10neg : Z -> spec_float;     (* 10 ** n for n < 0 (libm pow) *)
  str_limit : option Z            (* sys.get_int_max_str_digits() *)
}.

(** boxvalidator.py:79-83: the four options used by the validators.  Flags are
    booleans; the format is an arbitrary string. *)
Record opts := {
  o_format : string;
  o_verbose : bool;
  o_nullxml : bool;
  o_packet : bool
}.

(** Second argument of BoxValidator(...): four bytes of box type (or two bytes
    of marker), or one of the symbolic str keys. *)
Inductive btype := BTb (b : bytes) | BTs (s : string).

(** boxvalidator.py:32-71 [typeMap], byte-string keys in order. *)
Definition typeMap_b : list (bytes * string) :=
  [ ([x6a; x70; x32; x69], "intellectualPropertyBox");
    ([x78; x6d; x6c; x20], "xmlBox");
    ([x75; x75; x69; x64], "uuidBox");
    ([x75; x69; x6e; x66], "uuidInfoBox");
    ([x6a; x50; x20; x20], "signatureBox");
    ([x66; x74; x79; x70], "fileTypeBox");
    ([x6a; x70; x32; x68], "jp2HeaderBox");
    ([x69; x68; x64; x72], "imageHeaderBox");
    ([x62; x70; x63; x63], "bitsPerComponentBox");
    ([x63; x6f; x6c; x72], "colourSpecificationBox");
    ([x70; x63; x6c; x72], "paletteBox");
    ([x63; x6d; x61; x70], "componentMappingBox");
    ([x63; x64; x65; x66], "channelDefinitionBox");
    ([x72; x65; x73; x20], "resolutionBox");
    ([x6a; x70; x32; x63], "contiguousCodestreamBox");
    ([x72; x65; x73; x63], "captureResolutionBox");
    ([x72; x65; x73; x64], "displayResolutionBox");
    ([x75; x6c; x73; x74], "uuidListBox");
    ([x75; x72; x6c; x20], "urlBox");
    ([xff; x50], "cap");
    ([xff; x51], "siz");
    ([xff; x56], "prf");
    ([xff; x52], "cod");
    ([xff; x5c], "qcd");
    ([xff; x64], "com");
    ([xff; x53], "coc");
    ([xff; x5e], "rgn");
    ([xff; x5d], "qcc");
    ([xff; x5f], "poc");
    ([xff; x55], "tlm");
    ([xff; x57], "plm");
    ([xff; x58], "plt");
    ([xff; x59], "cpf");
    ([xff; x60], "ppm");
    ([xff; x61], "ppt");
    ([xff; x63], "crg");
    ([xff; x90], "tilePart") ].

(** boxvalidator.py:70-71 [typeMap], str keys. *)
Definition typeMap_s : list (string * string) :=
  [ ("icc", "icc"); ("startOfTile", "sot") ].

Fixpoint assoc_b (k : bytes) (l : list (bytes * string)) : option string :=
  match l with
  | [] => None
  | (k', v) :: r => if bytes_eqb k k' then Some v else assoc_b k r
  end.

Fixpoint assoc_s (k : string) (l : list (string * string)) : option string :=
  match l with
  | [] => None
  | (k', v) :: r => if String.eqb k k' then Some v else assoc_s k r
  end.

(** boxvalidator.py:84-99: self.boxType. *)
Definition boxTypeOf (t : btype) : string :=
  match t with
  | BTb b => match assoc_b b typeMap_b with Some n => n | None => "unknownBox" end
  | BTs s =>
      match assoc_s s typeMap_s with
      | Some n => n
      | None => if String.eqb s "JP2" then "JP2"
                else if String.eqb s "contiguousCodestreamBox" then "contiguousCodestreamBox"
                else "unknownBox"
      end
  end.

(** boxvalidator.py:84-104: is this one of the two top-level objects (whose
    trees are rooted at properties/tests/warnings)? *)
Definition isTop (t : btype) : bool :=
  match t with
  | BTs s => String.eqb s "JP2" || String.eqb s "contiguousCodestreamBox"
  | BTb _ => false
  end.

(** boxvalidator.py:84-104: root tags of the three trees. *)
Definition charRoot (t : btype) : string := if isTop t then "properties" else boxTypeOf t.
Definition testRoot (t : btype) : string := if isTop t then "tests" else boxTypeOf t.
Definition warnRoot (t : btype) : string := if isTop t then "warnings" else boxTypeOf t.

(** The parts of [self] that validators only read (boxvalidator.py:76-112). *)
Record self := {
  s_opts : opts;
  s_btype : btype;
  s_contents : bytes;      (* self.boxContents *)
  s_start : value;         (* self.startOffset, None by default *)
  s_csiz : value           (* self.csiz, None by default *)
}.

(** The parts of [self] that validators write: children of the three trees,
    returnOffset, isValid, tilePartLength (boxvalidator.py:106-111). *)
Record st := {
  st_tests : list elt;
  st_chars : list elt;
  st_warns : list elt;
  st_ret : value;
  st_valid : value;
  st_tpl : value
}.

Definition st0 : st :=
  {| st_tests := []; st_chars := []; st_warns := [];
     st_ret := VNone; st_valid := VNone; st_tpl := VNone |}.

(** A finished BoxValidator as seen by its caller. *)
Record bv := {
  r_tests : elt;
  r_chars : elt;
  r_warns : elt;
  r_ret : value;
  r_valid : value;
  r_tpl : value
}.

Definition bv_of (t : btype) (s : st) : bv :=
  {| r_tests := node (testRoot t) (st_tests s);
     r_chars := node (charRoot t) (st_chars s);
     r_warns := node (warnRoot t) (st_warns s);
     r_ret := st_ret s; r_valid := st_valid s; r_tpl := st_tpl s |}.

(** *** Computations of validators: state + exceptions.  An exception discards
    the state: no validator resumes after one (the few try blocks in the code are
    modelled where they occur). *)
Definition M (A : Type) := st -> res (A * st).

Definition ret {A} (a : A) : M A := fun s => Ok (a, s).
Definition bind {A B} (m : M A) (f : A -> M B) : M B :=
  fun s => match m s with
           | Ok (a, s') => f a s'
           | Raise e => Raise e
           | Diverge => Diverge
           end.
Definition raise {A} (e : exn) : M A := fun _ => Raise e.
Definition diverge {A} : M A := fun _ => Diverge.
Definition lift {A} (r : res A) : M A :=
  fun s => match r with Ok a => Ok (a, s) | Raise e => Raise e | Diverge => Diverge end.

Declare Scope m_scope.
Delimit Scope m_scope with m.
Notation "x <- m ;; k" := (bind m (fun x => k))
  (at level 61, m at next level, right associativity) : m_scope.
Notation "m ;; k" := (bind m (fun _ => k))
  (at level 61, right associativity) : m_scope.
Open Scope m_scope.

(** Conditional statement without else branch. *)
Definition when (b : bool) (m : M unit) : M unit := if b then m else ret tt.

(** [for i in range(n)] with loop-carried local variables [s]. *)
Fixpoint for_n {S} (k : nat) (i : Z) (s : S) (f : Z -> S -> M S) : M S :=
  match k with
  | O => ret s
  | S k' => s' <- f i s ;; for_n k' (i + 1) s' f
  end.
Definition for_range {S} (n : Z) (s : S) (f : Z -> S -> M S) : M S :=
  for_n (Z.to_nat n) 0 s f.

(** [while True] with loop-carried variables: [inl] = next iteration, [inr] =
    leave the loop; [fuel] is the step budget. *)
Fixpoint loop {A B} (fuel : nat) (body : A -> M (A + B)) (a : A) : M B :=
  match fuel with
  | O => diverge
  | S f => x <- body a ;;
           match x with inl a' => loop f body a' | inr b => ret b end
  end.

(** *** Updates of the trees *)
Definition add_test (e : elt) : M unit := fun s =>
  Ok (tt, {| st_tests := (st_tests s ++ [e])%list; st_chars := st_chars s; st_warns := st_warns s;
             st_ret := st_ret s; st_valid := st_valid s; st_tpl := st_tpl s |}).
Definition add_char (e : elt) : M unit := fun s =>
  Ok (tt, {| st_tests := st_tests s; st_chars := (st_chars s ++ [e])%list; st_warns := st_warns s;
             st_ret := st_ret s; st_valid := st_valid s; st_tpl := st_tpl s |}).
Definition add_warn (e : elt) : M unit := fun s =>
  Ok (tt, {| st_tests := st_tests s; st_chars := st_chars s; st_warns := (st_warns s ++ [e])%list;
             st_ret := st_ret s; st_valid := st_valid s; st_tpl := st_tpl s |}).
Definition set_ret (v : value) : M unit := fun s =>
  Ok (tt, {| st_tests := st_tests s; st_chars := st_chars s; st_warns := st_warns s;
             st_ret := v; st_valid := st_valid s; st_tpl := st_tpl s |}).
Definition set_valid (v : value) : M unit := fun s =>
  Ok (tt, {| st_tests := st_tests s; st_chars := st_chars s; st_warns := st_warns s;
             st_ret := st_ret s; st_valid := v; st_tpl := st_tpl s |}).
Definition set_tpl (v : value) : M unit := fun s =>
  Ok (tt, {| st_tests := st_tests s; st_chars := st_chars s; st_warns := st_warns s;
             st_ret := st_ret s; st_valid := st_valid s; st_tpl := v |}).

(** [self.characteristics] as an element, for the find functions. *)
Definition get_chars : M elt := fun s => Ok (node "" (st_chars s), s).

(** etpatch.py:72-75 on the three trees of [self]. *)
Definition add_test_ne (e : elt) : M unit :=
  match ekids e with [] => ret tt | _ => add_test e end.
Definition add_warn_ne (e : elt) : M unit :=
  match ekids e with [] => ret tt | _ => add_warn e end.

(** boxvalidator.py:285-294 [testFor] *)
Definition testFor (o : opts) (name : string) (result : bool) : M unit :=
  if negb (o_verbose o) then
    (if negb result then add_test (leaf name (VBool result)) else ret tt)
  else add_test (leaf name (VBool result)).

(** boxvalidator.py:296-298 [addCharacteristic] *)
Definition addCharacteristic (name : string) (v : value) : M unit :=
  add_char (leaf name v).
Definition addInt (name : string) (z : Z) : M unit := addCharacteristic name (VInt z).

(** boxvalidator.py:300-302 [addWarning] *)
Definition addWarning (msg : pystr) : M unit := add_warn (leaf "warning" (VStr msg)).

(** boxvalidator.py:130-135 [_isValid] *)
Definition isValid_of : M bool := fun s =>
  Ok (negb (existsb anyFalse (st_tests s)), s).

(** boxvalidator.py:137-169 [_getBox] *)
Definition getBox (c : bytes) (byteStart noBytes : Z) : Z * bytes * Z * bytes :=
  let len0 := bytesToUInt (slice c byteStart (byteStart + 4)) in
  let boxType := slice c (byteStart + 4) (byteStart + 8) in
  let '(len1, off) :=
    if len0 =? 1 then (bytesToULongLong (slice c (byteStart + 8) (byteStart + 16)), 16)
    else (len0, 8) in
  let len2 := if len1 =? 0 then noBytes - byteStart else len1 in
  let byteEnd := byteStart + len2 in
  (len2, boxType, byteEnd, slice c (byteStart + off) byteEnd).

(** boxvalidator.py:171-201 [_getMarkerSegment] *)
Definition getMarkerSegment (c : bytes) (offset : Z) : bytes * Z * bytes * Z :=
  let marker := slice c offset (offset + 2) in
  let length :=
    if bin marker [[xff; x4f]; [xff; x93]; [xff; xd9]; [xff; x92]] then 0
    else bytesToUShortInt (slice c (offset + 2) (offset + 4)) in
  let contents := slice c (offset + 2) (offset + 2 + length) in
  let offsetNext := if length =? -9999 then -9999 else offset + length + 2 in
  (marker, length, contents, offsetNext).

(** boxvalidator.py:203-230 [_calculateCompressionRatio].  The list elements and
    the dimensions come from element texts; anything but an int raises TypeError.
    The result is the float ratio, or the integer -9999. *)
Fixpoint sum_values (acc : Z) (l : list value) : res Z :=
  match l with
  | [] => Ok acc
  | v :: l' => rbind (as_int v) (fun z => sum_values (acc + z) l')
  end.

Definition calculateCompressionRatio (noBytes : Z) (depths : list value)
           (height width : Z) : res value :=
  rbind (sum_values 0 depths) (fun bitsPerPixel =>
  let bytesPerPixel := int_div bitsPerPixel 8 in
  let sizeUncompressed :=
    float_mul (float_mul bytesPerPixel (float_of_Z height)) (float_of_Z width) in
  if negb (noBytes =? 0)
  then Ok (VFloat (float_div sizeUncompressed (float_of_Z noBytes)))
  else Ok (VInt (-9999))).

(** Python [round(x, 2)] on the result above. *)
Definition round2 (v : value) : value :=
  match v with VFloat f => VFloat (round_nd 2 f) | _ => v end.

(** boxvalidator.py:232-246 [_getBitValue] *)
Definition getBitValueW (n p wordLength : Z) : Z :=
  Z.land (Z.shiftr n (wordLength - p)) 1.
Definition getBitValue (n p : Z) : Z := getBitValueW n p 8.

(** Python [int(a / b)] for integers, b > 0. *)
Definition int_quot (a b : Z) : Z := trunc_float (int_div a b).

(** boxvalidator.py:269-272, inner while of [_parse_ipl]: number of bytes of the
    packet-length entry that starts at [i]; None = step budget exhausted. *)
Fixpoint ipl_len (fuel : nat) (c : bytes) (i n : Z) : option Z :=
  match fuel with
  | O => None
  | S f =>
      if Z.land (bytesToUnsignedChar (slice c (i + n - 1) (i + n))) 128 =? 0
      then Some n else ipl_len f c i (n + 1)
  end.

(** boxvalidator.py:274-279: join the 7-bit groups as the code does (the mask is
    applied to the accumulated value). *)
Fixpoint ipl_join (k : nat) (c : bytes) (i idx acc : Z) : Z :=
  match k with
  | O => acc
  | S k' =>
      let acc1 := Z.shiftl (Z.land acc 127) 7 in
      let acc2 := Z.lor acc1 (bytesToUnsignedChar (slice c (i + idx) (i + idx + 1))) in
      ipl_join k' c i (idx + 1) acc2
  end.

(** boxvalidator.py:248-283 [_parse_ipl] *)
Fixpoint parse_ipl_loop (fuel : nat) (c : bytes) (lpl i : Z) (acc : pystr) : res pystr :=
  match fuel with
  | O => Diverge
  | S f =>
      if (i <? lpl) && (i <? len c) then
        match ipl_len (S f) c i 1 with
        | None => Diverge
        | Some n =>
            let v := ipl_join (Z.to_nat (n - 1)) c i 1
                       (bytesToUnsignedChar (slice c i (i + 1))) in
            parse_ipl_loop f c lpl (i + n) (acc ++ fmt_hex (2 * n) v ++ [44])%list
        end
      else Ok acc
  end.
Definition parse_ipl (fuel : nat) (c : bytes) (lpl offset : Z) : res pystr :=
  rbind (parse_ipl_loop fuel c lpl offset []) (fun s => Ok (slice s 0 (-1))).

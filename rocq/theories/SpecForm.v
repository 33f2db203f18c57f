(** * Files and bare codestreams

    A file around a given codestream, with the image header taken from its SIZ
    segment.  Used to state how the verdicts about a file and about the codestream in
    it are related (C76). *)

From Coq Require Import ZArith List Bool String.
From Coq Require Import Init.Byte.
From Verif Require Import Py BV Spec SpecBox SpecMarker SpecWalk SpecCS SpecSuper SpecMake.
Import ListNotations.
Open Scope string_scope.
Open Scope list_scope.
Open Scope Z_scope.

(** The format of bare codestreams that goes with a file format. *)
Inductive pair : string -> string -> Prop :=
| pair_p1 : pair "jp2" "j2c"
| pair_ht : pair "jph" "jhc".

(** Options that differ at most in the format. *)
Definition others_same (o1 o2 : opts) : Prop :=
  o_verbose o1 = o_verbose o2 /\ o_nullxml o1 = o_nullxml o2 /\ o_packet o1 = o_packet o2.

(** The image area of the codestream is not empty. *)
Definition has_area (x : bytes) : Prop :=
  val (cs_siz x) 12 4 < val (cs_siz x) 4 4 /\ val (cs_siz x) 16 4 < val (cs_siz x) 8 4.

Definition wrap_header (colour : Z) (x : bytes) : list (form * bytes * bytes) :=
  let y := cs_siz x in
  [ (Short, t_ihdr, fields [ (4%nat, val y 8 4 - val y 16 4); (4%nat, val y 4 4 - val y 12 4); (2%nat, val y 36 2);
                             (1%nat, 255); (1%nat, 7); (1%nat, 0); (1%nat, 0) ]);
    (Short, t_bpcc, fields (map (fun i => (1%nat, val y (38 + 3 * i) 1)) (zseq (val y 36 2))));
    (Short, t_colr, fields [ (1%nat, 1); (1%nat, 0); (1%nat, 0); (4%nat, colour) ]) ].
Definition wrap_boxes (brand : bytes) (colour : Z) (x : bytes) : list (form * bytes * bytes) :=
  [ (Short, t_sig, [x0d; x0a; x87; x0a]); (Short, t_ftyp, brand ++ be 4 0 ++ brand);
    (Short, t_jp2h, List.concat (map box_bytes (wrap_header colour x))); (Rest, t_jp2c, x) ].
Definition wrap (fmt : string) (colour : Z) (x : bytes) : bytes :=
  let brand := if String.eqb fmt "jph" then [x6a; x70; x68; x20] else [x6a; x70; x32; x20] in
  List.concat (map box_bytes (wrap_boxes brand colour x)).

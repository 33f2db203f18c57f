(** * Concrete environment and small helpers for the examples *)

From Coq Require Import ZArith List Bool String SpecFloat.
From Coq Require Import Init.Byte.
From Verif Require Import Py PyFloat ByteConv ETree BV VSuper.
Import ListNotations.
Open Scope string_scope.
Open Scope list_scope.
Open Scope Z_scope.

(** ASCII control characters only; XML "parser" that accepts exactly contents
    starting with '<' and ending with '>'. *)
Definition E0 : env := {|
  catC := fun c => (c <? 32) || (c =? 127);
  isspace := fun c => c =? 32;
  xml_parse := fun b => match b with
    | x3c :: r => match rev r with x3e :: _ => Some (node "doc" []) | _ => None end
    | _ => None end;
  pow10neg := fun n => round_pos false 1 (10 ^ (- n));
  str_limit := None |}.

Definition op (fmt : string) (verbose : bool) : opts :=
  {| o_format := fmt; o_verbose := verbose; o_nullxml := false; o_packet := false |}.

(** Run one validator and look at the outcome. *)
Definition run (fmt : string) (t : btype) (c : bytes) (csiz : value) : res bv :=
  validate E0 (op fmt false) 100 10 t c VNone csiz.
Definition passes (r : res bv) : bool :=
  match r with Ok b => negb (anyFalse (r_tests b)) | _ => false end.
Definition failed (r : res bv) : list string :=
  match r with Ok b => map etag (ekids (r_tests b)) | _ => ["exception"] end.
Definition texts (r : res bv) : list (string * value) :=
  match r with Ok b => map (fun e => (etag e, etext e)) (ekids (r_chars b)) | _ => [] end.
Definition raises (r : res bv) : option exn := match r with Raise e => Some e | _ => None end.

(** A minimal file: 2 x 2 pixels, one 8-bit component, one tile. *)
Definition ex_sig : bytes := [x00; x00; x00; x0c; x6a; x50; x20; x20; x0d; x0a; x87; x0a].
Definition ex_ftyp : bytes := [x00; x00; x00; x14; x66; x74; x79; x70; x6a; x70; x32; x20; x00; x00; x00; x00; x6a; x70; x32; x20].
Definition ex_jp2h : bytes := [x00; x00; x00; x2d; x6a; x70; x32; x68; x00; x00; x00; x16; x69; x68; x64; x72; x00; x00; x00; x02; x00; x00; x00; x02; x00; x01; x07; x07; x00; x00; x00; x00; x00; x0f; x63; x6f; x6c; x72; x01; x00; x00; x00; x00; x00; x11].
Definition ex_mainhdr : bytes := [xff; x4f; xff; x51; x00; x29; x00; x00; x00; x00; x00; x02; x00; x00; x00; x02; x00; x00; x00; x00; x00; x00; x00; x00; x00; x00; x00; x02; x00; x00; x00; x02; x00; x00; x00; x00; x00; x00; x00; x00; x00; x01; x07; x01; x01; xff; x52; x00; x0c; x00; x00; x00; x01; x00; x00; x00; x00; x00; x01; xff; x5c; x00; x04; x40; x40].
Definition ex_tile : bytes := [xff; x90; x00; x0a; x00; x00; x00; x00; x00; x10; x00; x01; xff; x93; x80; x80].
Definition ex_cs : bytes := ex_mainhdr ++ ex_tile ++ [xff; xd9].
Definition ex_jp2c : bytes := [x00; x00; x00; x5b; x6a; x70; x32; x63] ++ ex_cs.
Definition ex_file : bytes := ex_sig ++ ex_ftyp ++ ex_jp2h ++ ex_jp2c.

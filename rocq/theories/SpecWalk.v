(** * Specifications: splitting contents into boxes and marker segments *)

From Coq Require Import ZArith List Bool String.
From Coq Require Import Init.Byte.
From Verif Require Import Py ETree BV Spec SpecBox.
Import ListNotations.
Open Scope string_scope.
Open Scope list_scope.
Open Scope Z_scope.

(** ** Boxes (ISO/IEC 15444-1, I.4) *)

(** Length and header size of the box at the start of [s]: a 4-byte length, or,
    when that is 1, an 8-byte length after the type. *)
Definition box_length (s : bytes) : Z := if val s 0 4 =? 1 then val s 8 8 else val s 0 4.
Definition box_header (s : bytes) : Z := if val s 0 4 =? 1 then 16 else 8.

(** [splits s bs]: [bs] are the types and contents of the boxes in [s].  Length 0
    means "until the end"; the last box may be cut off, and a box whose length
    cannot be read has whatever bytes there are as type and no contents. *)
Inductive splits : bytes -> list (bytes * bytes) -> Prop :=
| splits_end : splits [] []
| splits_cut s : s <> [] -> box_length s = -9999 -> splits s [(sub s 4 4, [])]
| splits_rest s : s <> [] -> box_length s = 0 ->
    splits s [(sub s 4 4, sub s (box_header s) (len s))]
| splits_box s bs : s <> [] -> 0 < box_length s ->
    splits (skipn (Z.to_nat (box_length s)) s) bs ->
    splits s ((sub s 4 4, sub s (box_header s) (box_length s - box_header s)) :: bs).

(** Big-endian bytes of a number. *)
Definition be (n : nat) (z : Z) : bytes :=
  map (fun i => byte_of_Z (z / 256 ^ Z.of_nat i mod 256)) (rev (seq 0 n)).

(** Writing a box: with a 4-byte length, with an 8-byte length, or (last box
    only) without length. *)
Inductive form := Short | Extended | Rest.
Definition box_bytes (b : form * bytes * bytes) : bytes :=
  match b with
  | (Short, t, x) => be 4 (len x + 8) ++ t ++ x
  | (Extended, t, x) => be 4 1 ++ t ++ be 8 (len x + 16) ++ x
  | (Rest, t, x) => be 4 0 ++ t ++ x
  end.
(** The box can be written in this form. *)
Definition fits (b : form * bytes * bytes) : Prop :=
  match b with
  | (Short, t, x) => len t = 4 /\ len x + 8 < 256 ^ 4
  | (Extended, t, x) => len t = 4 /\ len x + 16 < 256 ^ 8
  | (Rest, t, x) => len t = 4
  end.
(** Only the last box has no length. *)
Definition rest_last (bs : list (form * bytes * bytes)) : Prop :=
  forall pre t x post, bs = pre ++ (Rest, t, x) :: post -> post = [].

(** ** Marker segments (ISO/IEC 15444-1, A.1) *)

(** Markers without a length: SOC, EPH, SOD, EOC. *)
Definition delimiter (m : bytes) : bool :=
  existsb (bytes_eqb m) [[xff; x4f]; [xff; x92]; [xff; x93]; [xff; xd9]].
Definition seg_length (s : bytes) : Z := if delimiter (sub s 0 2) then 0 else val s 2 2.

(** [segs stop s l r]: [l] are the markers and contents (length field included) of
    the marker segments in [s] before the first marker [stop]; [r] is what starts
    at that marker, or None if the segments end without one.  A segment whose
    length cannot be read is the last one and has no contents. *)
Inductive segs (stop : bytes) : bytes -> list (bytes * bytes) -> option bytes -> Prop :=
| segs_stop s : sub s 0 2 = stop -> segs stop s [] (Some s)
| segs_cut s : sub s 0 2 <> stop -> seg_length s = -9999 -> segs stop s [(sub s 0 2, [])] None
| segs_more s l r : sub s 0 2 <> stop -> 0 <= seg_length s ->
    segs stop (skipn (Z.to_nat (seg_length s + 2)) s) l r ->
    segs stop s ((sub s 0 2, sub s 2 (seg_length s)) :: l) r.

(** ** Reports of superboxes *)

(** Elements with children. *)
Definition filled (l : list elt) : list elt :=
  filter (fun e => match ekids e with [] => false | _ => true end) l.

(** Report of a superbox with children reports [rs]: their tests and warnings (if
    there are any), and properties, in order, and then its own tests [L] and
    properties [props]. *)
Definition super_says (verbose : bool) (ttag ctag wtag : string) (rs : list bv)
           (L : list (string * Prop)) (props : list elt) (r : bv) : Prop :=
  (exists k, r_tests r = node ttag (filled (map r_tests rs) ++ k) /\ reports verbose L k) /\
  r_chars r = node ctag (map r_chars rs ++ props) /\
  r_warns r = node wtag (filled (map r_warns rs)).

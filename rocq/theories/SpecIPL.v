(** * Specifications: packet lengths in PLT and PLM segments *)

From Coq Require Import ZArith List Bool String.
From Coq Require Import Init.Byte.
From Verif Require Import Py ETree BV Spec SpecBox.
Import ListNotations.
Open Scope string_scope.
Open Scope list_scope.
Open Scope Z_scope.

(** ISO/IEC 15444-1, Table A.36: a packet length is a sequence of 7-bit groups,
    most significant first; all bytes but the last have their top bit set. *)
Definition packet_length (e : bytes) : Z := fold_left (fun a b => a * 128 + bz b mod 128) e 0.
(** [n] bytes for the value [v]. *)
Definition encode (n : nat) (v : Z) : bytes :=
  map (fun i => byte_of_Z ((if Nat.eqb i 0 then 0 else 128) + v / 128 ^ Z.of_nat i mod 128)) (rev (seq 0 n)).

(** [entries lim s es]: [es] are the entries at the start of [s] that begin before
    position [lim]. *)
Inductive entries : Z -> bytes -> list bytes -> Prop :=
| entries_end lim s : lim <= 0 \/ s = [] -> entries lim s []
| entries_one lim e x s es : 0 < lim -> Forall (fun b => 128 <= bz b) e -> bz x < 128 ->
    entries (lim - len e - 1) s es -> entries lim (e ++ x :: s) ((e ++ [x]) :: es).

(** [v] as [w] upper-case hexadecimal digits. *)
Definition hexu (d : Z) : Z := if d <? 10 then 48 + d else 55 + d.
Definition hexw (w : nat) (v : Z) : pystr := map (fun i => hexu (v / 16 ^ Z.of_nat i mod 16)) (rev (seq 0 w)).
(** Parts joined by commas. *)
Fixpoint commas (l : list pystr) : pystr :=
  match l with
  | [] => []
  | [x] => x
  | x :: r => x ++ 44 :: commas r
  end.
(** What the code displays for an entry: two digits per byte, and the low 14 bits
    of the length. *)
Definition entry_shown (e : bytes) : pystr := hexw (2 * List.length e) (packet_length e mod 16384).

Definition plt_props (c : bytes) (es : list bytes) : list (string * value) :=
  [ ("lplt", VInt (val c 0 2)); ("zplt", VInt (val c 2 1)); ("iplt", VStr (commas (map entry_shown es))) ].
Definition plm_props (c : bytes) (es : list bytes) : list (string * value) :=
  [ ("lplm", VInt (val c 0 2)); ("zplm", VInt (val c 2 1)); ("nplm", VInt (val c 3 1));
    ("iplm", VStr (commas (map entry_shown es))) ].

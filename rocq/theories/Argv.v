(** * Model of the command line: jpylyzer.py:710-805 and argparse *)

From Coq Require Import ZArith List Bool String Ascii.
From Verif Require Import Py ETree BV CheckFile Main.
Import ListNotations.
Open Scope string_scope.
Open Scope list_scope.
Open Scope Z_scope.

(** The part of CPython 3.11's argparse.py that the parser of jpylyzer.py:62-63 and
    710-763 uses: no subparsers, groups, file arguments; one positional argument with
    nargs='+'; prefix character '-'; abbreviations allowed; no option that looks like
    a negative number.  Messages and the text of the help are not modelled. *)
Inductive act := AHelp | AFormat | AMix | ANopretty | ANullxml | ARecurse | APacket | AVerbose | AVersion.

(** [_option_string_actions], in order of insertion; '-h' and '--help' are added by
    [ArgumentParser.__init__], the others at jpylyzer.py:713-753. *)
Definition optmap : list (pystr * act) := map (fun p => (pys (fst p), snd p))
  [("-h", AHelp); ("--help", AHelp); ("--format", AFormat); ("-f", AFormat); ("--mix", AMix); ("--nopretty", ANopretty);
   ("--nullxml", ANullxml); ("--recurse", ARecurse); ("-r", ARecurse); ("--packetmarkers", APacket); ("-p", APacket);
   ("--verbose", AVerbose); ("--version", AVersion); ("-v", AVersion)].
Fixpoint lookup (s : pystr) (l : list (pystr * act)) : option act :=
  match l with [] => None | (o, a) :: l' => if pystr_eqb s o then Some a else lookup s l' end.
(** nargs is None (one argument) for --format and --mix, else 0. *)
Definition takes_arg (a : act) : bool := match a with AFormat | AMix => true | _ => false end.

Fixpoint startswith (p s : pystr) : bool :=
  match p, s with [], _ => true | c :: p', d :: s' => (c =? d) && startswith p' s' | _, [] => false end.
(** [s.partition('=')]: the part before, and the part after if there is a '='. *)
Fixpoint partition_eq (s : pystr) : pystr * option pystr :=
  match s with
  | [] => ([], None)
  | c :: r => if c =? 61 then ([], Some r) else let (a, b) := partition_eq r in (c :: a, b)
  end.

(** What an argument string is taken for: an argument, the first "--", or an option
    (action, option string, whether [sep] is true, explicit argument). *)
Inductive kind :=
| KArg
| KDash
| KOpt (a : option act) (opt : pystr) (sep : bool) (expl : option pystr).

Section Argparse.
(** [\d] of the regular expressions, and [int(s)] ([None]: ValueError). *)
Variable decimal : Z -> bool.
Variable int_of : pystr -> option Z.

(** argparse.py:1386: '^-\d+$|^-\d*\.\d+$'; [$] also matches before a final newline. *)
Fixpoint digits_end (s : pystr) : bool :=
  match s with [] => true | c :: r => (decimal c && digits_end r) || ((c =? 10) && match r with [] => true | _ => false end) end.
Definition digits1_end (s : pystr) : bool := match s with c :: r => decimal c && digits_end r | [] => false end.
Fixpoint fraction (s : pystr) : bool :=
  match s with [] => false | c :: r => ((c =? 46) && digits1_end r) || (decimal c && fraction r) end.
Definition negative_number (s : pystr) : bool :=
  match s with c :: r => (c =? 45) && (digits1_end r || fraction r) | [] => false end.

(** argparse.py:2300-2340 [_get_option_tuples] *)
Definition option_tuples (s : pystr) : list kind :=
  match s with
  | c :: d :: r =>
      if d =? 45 then
        let (p, e) := partition_eq s in
        flat_map (fun '(o, a) => if startswith p o then [KOpt (Some a) o (match e with Some _ => true | None => false end) e] else []) optmap
      else
        flat_map (fun '(o, a) => if pystr_eqb o [c; d] then [KOpt (Some a) o false (Some r)]
                                 else if startswith s o then [KOpt (Some a) o false None] else []) optmap
  | _ => []
  end.

(** argparse.py:2243-2298 [_parse_optional]; [None]: the error "ambiguous option". *)
Definition parse_optional (s : pystr) : option kind :=
  match s with
  | [] => Some KArg
  | c :: r =>
      if negb (c =? 45) then Some KArg
      else match lookup s optmap with
      | Some a => Some (KOpt (Some a) s false None)
      | None =>
          match r with
          | [] => Some KArg
          | _ =>
              let unknown :=
                match option_tuples s with
                | _ :: _ :: _ => None
                | [k] => Some k
                | [] => if negative_number s then Some KArg
                        else if existsb (Z.eqb 32) s then Some KArg
                        else Some (KOpt None s false None)
                end in
              let (o, e) := partition_eq s in
              match e, lookup o optmap with
              | Some x, Some a => Some (KOpt (Some a) o true (Some x))
              | _, _ => unknown
              end
          end
      end
  end.

(** argparse.py:1933-1958: the pattern of the argument strings. *)
Fixpoint classify (l : list pystr) : option (list (pystr * kind)) :=
  match l with
  | [] => Some []
  | s :: l' =>
      if pystr_eqb s [45; 45] then Some ((s, KDash) :: map (fun x => (x, KArg)) l')
      else match parse_optional s with
      | None => None
      | Some k => match classify l' with Some m => Some ((s, k) :: m) | None => None end
      end
  end.

(** argparse.py:2003-2062: the loop of [consume_optional] once there is an action; the
    actions with their arguments, the argument strings that are not recognized, and
    what follows; [None]: ArgumentError. *)
Definition no_explicit (a : act) (rest : list (pystr * kind)) : option (list (act * list pystr) * list pystr * list (pystr * kind)) :=
  if takes_arg a then match rest with (w, KArg) :: rest' => Some ([(a, [w])], [], rest') | _ => None end
  else Some ([(a, [])], [], rest).
Definition first_act (x : act * list pystr) (r : option (list (act * list pystr) * list pystr * list (pystr * kind))) :=
  match r with Some (acts, extras, rest) => Some (x :: acts, extras, rest) | None => None end.
Fixpoint explicit (a : act) (opt : pystr) (sep : bool) (e : pystr) (rest : list (pystr * kind)) {struct e} :
    option (list (act * list pystr) * list pystr * list (pystr * kind)) :=
  if takes_arg a then Some ([(a, [e])], [], rest)
  else match e with
  | [] => None
  | c :: e' =>
      if match opt with _ :: d :: _ => d =? 45 | _ => false end then None
      else if sep || (c =? 45) then None
      else match lookup [45; c] optmap with
      | None => Some ([(a, [])], [45 :: e], rest)
      | Some a' =>
          first_act (a, [])
            match e' with
            | [] => no_explicit a' rest
            | d :: e'' => if d =? 61 then explicit a' [45; c] true e'' rest else explicit a' [45; c] false e' rest
            end
      end
  end.
Definition consume_optional (s : pystr) (k : kind) (rest : list (pystr * kind)) :=
  match k with
  | KOpt (Some a) opt sep (Some e) => explicit a opt sep e rest
  | KOpt (Some a) opt sep None => no_explicit a rest
  | _ => Some ([], [s], rest)
  end.

(** The namespace, with the defaults of jpylyzer.py:713-758. *)
Record names := {
  n_format : pystr; n_mix : Z; n_nopretty : bool; n_nullxml : bool; n_recurse : bool; n_packet : bool; n_verbose : bool;
  n_paths : option (list pystr) }.
Definition names0 : names := {|
  n_format := pys "jp2"; n_mix := 0; n_nopretty := false; n_nullxml := false; n_recurse := false; n_packet := false; n_verbose := false;
  n_paths := None |}.

(** How parsing ends early: an error (status 2), or the help or the version is printed
    (status 0). *)
Inductive stop := SError | SHelp | SVersion.

(** argparse.py:1965-1984 [take_action], with [_get_values] for one argument or none. *)
Definition take_action (x : act * list pystr) (n : names) : names + stop :=
  match x with
  | (AHelp, _) => inr SHelp
  | (AVersion, _) => inr SVersion
  | (AFormat, [s]) => inl {| n_format := s; n_mix := n_mix n; n_nopretty := n_nopretty n; n_nullxml := n_nullxml n; n_recurse := n_recurse n;
                             n_packet := n_packet n; n_verbose := n_verbose n; n_paths := n_paths n |}
  | (AMix, [s]) =>
      match int_of s with
      | Some v => if (v =? 1) || (v =? 2) then
          inl {| n_format := n_format n; n_mix := v; n_nopretty := n_nopretty n; n_nullxml := n_nullxml n; n_recurse := n_recurse n;
                 n_packet := n_packet n; n_verbose := n_verbose n; n_paths := n_paths n |}
          else inr SError
      | None => inr SError
      end
  | (ANopretty, _) => inl {| n_format := n_format n; n_mix := n_mix n; n_nopretty := true; n_nullxml := n_nullxml n; n_recurse := n_recurse n;
                             n_packet := n_packet n; n_verbose := n_verbose n; n_paths := n_paths n |}
  | (ANullxml, _) => inl {| n_format := n_format n; n_mix := n_mix n; n_nopretty := n_nopretty n; n_nullxml := true; n_recurse := n_recurse n;
                            n_packet := n_packet n; n_verbose := n_verbose n; n_paths := n_paths n |}
  | (ARecurse, _) => inl {| n_format := n_format n; n_mix := n_mix n; n_nopretty := n_nopretty n; n_nullxml := n_nullxml n; n_recurse := true;
                            n_packet := n_packet n; n_verbose := n_verbose n; n_paths := n_paths n |}
  | (APacket, _) => inl {| n_format := n_format n; n_mix := n_mix n; n_nopretty := n_nopretty n; n_nullxml := n_nullxml n; n_recurse := n_recurse n;
                           n_packet := true; n_verbose := n_verbose n; n_paths := n_paths n |}
  | (AVerbose, _) => inl {| n_format := n_format n; n_mix := n_mix n; n_nopretty := n_nopretty n; n_nullxml := n_nullxml n; n_recurse := n_recurse n;
                            n_packet := n_packet n; n_verbose := true; n_paths := n_paths n |}
  | (_, _) => inr SError
  end.
Fixpoint take_actions (l : list (act * list pystr)) (n : names) : names + stop :=
  match l with [] => inl n | x :: l' => match take_action x n with inl n' => take_actions l' n' | inr s => inr s end end.

(** argparse.py:2227-2241, 2360-2361: the length of the match of nargs='+':
    any dashes, one argument, then any arguments and dashes. *)
Fixpoint args_dashes (l : list (pystr * kind)) : nat :=
  match l with (_, KArg) :: l' | (_, KDash) :: l' => S (args_dashes l') | _ => O end.
Fixpoint count_positionals (l : list (pystr * kind)) : nat :=
  match l with
  | (_, KDash) :: l' => match count_positionals l' with O => O | n => S n end
  | (_, KArg) :: l' => S (args_dashes l')
  | _ => O
  end.
(** argparse.py:2476-2481: the first '--' is removed. *)
Fixpoint remove_dashes (l : list pystr) : list pystr :=
  match l with [] => [] | s :: l' => if pystr_eqb s [45; 45] then l' else s :: remove_dashes l' end.
(** argparse.py:2076-2092 [consume_positionals]; the only positional is left as long
    as no paths are in the namespace. *)
Definition consume_positionals (l : list (pystr * kind)) (n : names) : nat * names :=
  match n_paths n with
  | Some _ => (O, n)
  | None =>
      match count_positionals l with
      | O => (O, n)
      | c => (c, {| n_format := n_format n; n_mix := n_mix n; n_nopretty := n_nopretty n; n_nullxml := n_nullxml n; n_recurse := n_recurse n;
                    n_packet := n_packet n; n_verbose := n_verbose n; n_paths := Some (remove_dashes (map fst (firstn c l))) |})
      end
  end.

Definition is_opt (x : pystr * kind) : bool := match snd x with KOpt _ _ _ _ => true | _ => false end.
Fixpoint until_opt (l : list (pystr * kind)) : list (pystr * kind) * list (pystr * kind) :=
  match l with
  | [] => ([], [])
  | x :: l' => if is_opt x then ([], l) else let (a, b) := until_opt l' in (x :: a, b)
  end.
(** argparse.py:2094-2142: the main loop.  [l]: the argument strings from
    [start_index] on.  [fuel]: one more than their number is enough. *)
Fixpoint loop (fuel : nat) (l : list (pystr * kind)) (n : names) (extras : list pystr) : (names * list pystr) + stop :=
  match fuel with
  | O => inr SError
  | S f =>
      let optional l extras :=
        match l with
        | (s, k) :: rest =>
            match consume_optional s k rest with
            | None => inr SError
            | Some (acts, ex, rest') =>
                match take_actions acts n with inl n' => loop f rest' n' (extras ++ ex) | inr st => inr st end
            end
        | [] => inr SError
        end in
      if existsb is_opt l then
        match until_opt l with
        | ([], _) => optional l extras
        | (before, after) =>
            match consume_positionals l n with
            | (O, _) => optional after (extras ++ map fst before)
            | (c, n') => loop f (skipn c l) n' extras
            end
        end
      else
        let '(c, n') := consume_positionals l n in inl (n', extras ++ map fst (skipn c l))
  end.

(** argparse.py:1873-1878 [parse_args], 1918-2183 [_parse_known_args] *)
Definition parse_args (argv : list pystr) : names + stop :=
  match classify argv with
  | None => inr SError
  | Some l =>
      match loop (S (List.length l)) l names0 [] with
      | inr st => inr st
      | inl (n, extras) =>
          match n_paths n, extras with Some _, [] => inl n | _, _ => inr SError end
      end
  end.
End Argparse.

(** jpylyzer.py:766-805: from the namespace to the arguments of [Main.main].  The
    format as a string of bytes: characters above 255 become 255, and no character
    outside ASCII has a lower-case form among the letters of the formats. *)
Definition format_string (s : pystr) : string :=
  fold_right (fun c r => String (ascii_of_N (Z.to_N (if (0 <=? c) && (c <? 256) then c else 255))) r) EmptyString s.
Definition args_of (n : names) : args := {|
  a_format := format_string (n_format n); a_mix := n_mix n; a_nullxml := n_nullxml n; a_recurse := n_recurse n; a_packet := n_packet n;
  a_verbose := n_verbose n; a_paths := match n_paths n with Some l => l | None => [] end |}.

(** jpylyzer.py:594-597: the paths named in the warnings "... does not exist". *)
Definition missing (F : fsys) (paths : list pystr) : list pystr :=
  filter (fun p => negb (isfile F p) && negb (hasWildcard p) && negb (isdir F p)) paths.

(** A run from the command line: the argument strings after the name of the program. *)
Inductive session :=
| Refused                                     (** argparse: message on stderr, status 2 *)
| Helped | Versioned                          (** help or version on stdout, status 0 *)
| BadFormat                                   (** errorExit, status 0 *)
| Ran (warned : list pystr) (r : run).        (** warnings on stderr, output, ending *)
Definition session_of (decimal : Z -> bool) (int_of : pystr -> option Z)
    (E : env) (fuel depth : nat) (F : fsys) (observe : pystr -> fileobs) (write : bool -> elt -> res pystr) (toolInfo : elt) (argv : list pystr) : session :=
  match parse_args decimal int_of argv with
  | inr SError => Refused
  | inr SHelp => Helped
  | inr SVersion => Versioned
  | inl n =>
      if supported (lower (a_format (args_of n))) then
        Ran (missing F (a_paths (args_of n))) (main E fuel depth F observe (write (n_nopretty n)) toolInfo (args_of n))
      else BadFormat
  end.

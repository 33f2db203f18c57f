(** * Reading XML

    A reader for XML 1.0 documents without comments, processing instructions,
    CDATA sections and document types, and Namespaces in XML 1.0. *)

From Coq Require Import ZArith List Bool String.
From Verif Require Import Py ETree Serial.
Import ListNotations.
Open Scope string_scope.
Open Scope list_scope.
Open Scope Z_scope.

(** ** Characters and names (XML 1.0, productions 2, 3, 4, 4a, 5) *)
Definition in_range (c a b : Z) : bool := (a <=? c) && (c <=? b).
Definition is_char (c : Z) : bool :=
  (c =? 9) || (c =? 10) || (c =? 13) || in_range c 32 55295 || in_range c 57344 65533 || in_range c 65536 1114111.
Definition is_space (c : Z) : bool := (c =? 32) || (c =? 9) || (c =? 13) || (c =? 10).
Definition name_start (c : Z) : bool :=
  (c =? 58) || in_range c 65 90 || (c =? 95) || in_range c 97 122 || in_range c 192 214 || in_range c 216 246 ||
  in_range c 248 767 || in_range c 880 893 || in_range c 895 8191 || in_range c 8204 8205 || in_range c 8304 8591 ||
  in_range c 11264 12271 || in_range c 12289 55295 || in_range c 63744 64975 || in_range c 65008 65533 ||
  in_range c 65536 983039.
Definition name_char (c : Z) : bool :=
  name_start c || (c =? 45) || (c =? 46) || in_range c 48 57 || (c =? 183) || in_range c 768 879 || in_range c 8255 8256.
Definition is_name (s : pystr) : bool :=
  match s with c :: _ => name_start c && forallb name_char s | [] => false end.
(** A name without a colon. *)
Definition is_ncname (s : pystr) : bool := is_name s && negb (existsb (Z.eqb 58) s).

(** ** Tokens *)
Fixpoint span (p : Z -> bool) (s : pystr) : pystr * pystr :=
  match s with
  | [] => ([], [])
  | c :: r => if p c then let '(a, b) := span p r in (c :: a, b) else ([], s)
  end.
Definition skip_space (s : pystr) : pystr := snd (span is_space s).
(** [eat p s]: what follows the prefix [p] of [s]. *)
Fixpoint eat (p s : pystr) : option pystr :=
  match p, s with
  | [], _ => Some s
  | x :: p', y :: s' => if x =? y then eat p' s' else None
  | _ :: _, [] => None
  end.
(** Decimal character reference, after "&#". *)
Fixpoint read_dec (acc : Z) (s : pystr) : option (Z * pystr) :=
  match s with
  | c :: r => if in_range c 48 57 then read_dec (10 * acc + (c - 48)) r
              else if c =? 59 then Some (acc, r) else None
  | [] => None
  end.
(** Reference, after "&". *)
Definition read_ref (s : pystr) : option (Z * pystr) :=
  match eat (pys "lt;") s with Some r => Some (60, r) | None =>
  match eat (pys "gt;") s with Some r => Some (62, r) | None =>
  match eat (pys "amp;") s with Some r => Some (38, r) | None =>
  match eat (pys "quot;") s with Some r => Some (34, r) | None =>
  match eat (pys "apos;") s with Some r => Some (39, r) | None =>
  match s with
  | h :: d :: r =>
      if (h =? 35) && in_range d 48 57 then
        match read_dec 0 (d :: r) with
        | Some (c, r') => if is_char c then Some (c, r') else None
        | None => None
        end
      else None
  | _ => None
  end end end end end end.

(** The readers below count down [n]; one more than the length of the input is enough. *)

(** Character data up to the next "<" or the end. *)
Fixpoint read_text (n : nat) (s : pystr) : option (pystr * pystr) :=
  match n with
  | O => None
  | S n' =>
      match s with
      | [] => Some ([], [])
      | c :: r =>
          if c =? 60 then Some ([], s)
          else if c =? 38 then
            match read_ref r with
            | Some (x, r') => match read_text n' r' with Some (t, q) => Some (x :: t, q) | None => None end
            | None => None
            end
          else if negb (is_char c) then None
          else match eat (pys "]]>") s with
          | Some _ => None
          | None => match read_text n' r with Some (t, q) => Some (c :: t, q) | None => None end
          end
      end
  end.

(** Attribute value up to and including the closing quotation mark [qt].  White space
    is read as a space (3.3.3). *)
Fixpoint read_value (qt : Z) (n : nat) (s : pystr) : option (pystr * pystr) :=
  match n with
  | O => None
  | S n' =>
      match s with
      | [] => None
      | c :: r =>
          if c =? qt then Some ([], r)
          else if c =? 60 then None
          else if c =? 38 then
            match read_ref r with
            | Some (x, r') => match read_value qt n' r' with Some (t, q) => Some (x :: t, q) | None => None end
            | None => None
            end
          else if negb (is_char c) then None
          else match read_value qt n' r with
               | Some (t, q) => Some ((if is_space c then 32 else c) :: t, q)
               | None => None
               end
      end
  end.

(** Attributes: each is preceded by white space. *)
Fixpoint read_attrs (n : nat) (s : pystr) : option (list (pystr * pystr) * pystr) :=
  match n with
  | O => None
  | S n' =>
      match s with
      | c :: r =>
          if is_space c then
            let '(k, r1) := span name_char (skip_space r) in
            if is_name k then
              match eat [61] (skip_space r1) with
              | Some r2 =>
                  match skip_space r2 with
                  | qt :: r3 =>
                      if (qt =? 34) || (qt =? 39) then
                        match read_value qt (S (List.length r3)) r3 with
                        | Some (v, r4) =>
                            match read_attrs n' r4 with
                            | Some (l, q) => if existsb (fun p => pystr_eqb k (fst p)) l then None else Some ((k, v) :: l, q)
                            | None => None
                            end
                        | None => None
                        end
                      else None
                  | [] => None
                  end
              | None => None
              end
            else match k with [] => Some ([], r1) | _ => None end
          else Some ([], s)
      | [] => Some ([], [])
      end
  end.

(** Content up to the next end tag or the end.  Text nodes are not empty. *)
Fixpoint read_nodes (n : nat) (s : pystr) : option (list dnode * pystr) :=
  match n with
  | O => None
  | S n' =>
      match s with
      | [] => Some ([], [])
      | c :: r =>
          if negb (c =? 60) then
            match read_text (S (List.length s)) s with
            | Some (t, r1) =>
                match read_nodes n' r1 with
                | Some (k, q) => Some (DText t :: k, q)
                | None => None
                end
            | None => None
            end
          else match eat [47] r with
          | Some _ => Some ([], s)
          | None =>
            let '(nm, r1) := span name_char r in
            if is_name nm then
              match read_attrs (S (List.length r1)) r1 with
              | Some (ats, r2) =>
                  match eat (pys "/>") r2 with
                  | Some r3 =>
                      match read_nodes n' r3 with
                      | Some (k, q) => Some (DElem nm ats [] :: k, q)
                      | None => None
                      end
                  | None =>
                      match eat [62] r2 with
                      | Some r3 =>
                          match read_nodes n' r3 with
                          | Some (inner, r4) =>
                              match eat (pys "</" ++ nm) r4 with
                              | Some r5 =>
                                  match eat [62] (skip_space r5) with
                                  | Some r6 =>
                                      match read_nodes n' r6 with
                                      | Some (k, q) => Some (DElem nm ats inner :: k, q)
                                      | None => None
                                      end
                                  | None => None
                                  end
                              | None => None
                              end
                          | None => None
                          end
                      | None => None
                      end
                  end
              | None => None
              end
            else None
          end
      end
  end.

Definition lines_content (s : pystr) : option (list dnode) :=
  match read_nodes (S (List.length s)) s with
  | Some (k, []) => Some k
  | _ => None
  end.

(** Before anything else, a carriage return, alone or before a line feed, is replaced
    by a line feed (2.11). *)
Fixpoint eol (s : pystr) : pystr :=
  match s with
  | [] => []
  | c :: r => if c =? 13 then match eat [10] r with Some _ => eol r | None => 10 :: eol r end
              else c :: eol r
  end.
Definition content (s : pystr) : option (list dnode) := lines_content (eol s).

(** A document: an optional XML declaration, white space, one element, white space. *)
Definition skip_decl (s : pystr) : option pystr :=
  match eat (pys "<?xml") s with
  | None => Some s
  | Some r =>
      match read_attrs (S (List.length r)) r with
      | Some (a, q) =>
          match a with
          | (k, _) :: _ => if pystr_eqb k (pys "version") then eat (pys "?>") q else None
          | [] => None
          end
      | None => None
      end
  end.
Definition blank (x : dnode) : bool :=
  match x with DText t => forallb is_space t | DElem _ _ _ => false end.
Definition read (s : pystr) : option dnode :=
  match skip_decl (eol s) with
  | None => None
  | Some r =>
      match lines_content r with
      | None => None
      | Some k => match filter (fun x => negb (blank x)) k with
                  | [DElem n a ks] => Some (DElem n a ks)
                  | _ => None
                  end
      end
  end.

(** ** Namespaces *)
Definition XML_NS : pystr := pys "http://www.w3.org/XML/1998/namespace".
Definition braced (uri local : pystr) : pystr := 123 :: uri ++ 125 :: local.
(** [p:l] is split at its colon; [None]: there is none. *)
Definition prefix_of (n : pystr) : option (pystr * pystr) :=
  let '(p, r) := span (fun c => negb (c =? 58)) n in
  match r with [] => None | _ :: l => Some (p, l) end.
(** Bindings of prefixes to names of namespaces; the empty prefix is the default. *)
Fixpoint lookup (p : pystr) (env : list (pystr * pystr)) : option pystr :=
  match env with
  | [] => None
  | (p', u) :: env' => if pystr_eqb p p' then Some u else lookup p env'
  end.
Definition decl (a : pystr * pystr) : option (pystr * pystr) :=
  let '(k, u) := a in
  if pystr_eqb k (pys "xmlns") then Some ([], u)
  else match prefix_of k with
       | Some (p, l) => if pystr_eqb p (pys "xmlns") then Some (l, u) else None
       | None => None
       end.
Definition decls (l : list (pystr * pystr)) : list (pystr * pystr) :=
  flat_map (fun a => match decl a with Some d => [d] | None => [] end) l.
Definition others (l : list (pystr * pystr)) : list (pystr * pystr) :=
  filter (fun a => match decl a with Some _ => false | None => true end) l.
Definition resolve (env : list (pystr * pystr)) (element : bool) (n : pystr) : option pystr :=
  match prefix_of n with
  | Some (p, l) =>
      if is_ncname p && is_ncname l then
        match (if pystr_eqb p (pys "xml") then Some XML_NS else lookup p env) with
        | Some u => match u with [] => None | _ => Some (braced u l) end
        | None => None
        end
      else None
  | None =>
      match (if element then lookup [] env else None) with
      | Some u => match u with [] => Some n | _ => Some (braced u n) end
      | None => Some n
      end
  end.
Fixpoint distinct (l : list pystr) : bool :=
  match l with [] => true | x :: l' => negb (existsb (pystr_eqb x) l') && distinct l' end.
Fixpoint all_some {A} (l : list (option A)) : option (list A) :=
  match l with
  | [] => Some []
  | Some x :: l' => match all_some l' with Some r => Some (x :: r) | None => None end
  | None :: _ => None
  end.
(** The tree with the expanded names in place of the qualified ones, and without the
    declarations of namespaces. *)
Fixpoint expand (env : list (pystr * pystr)) (x : dnode) : option dnode :=
  match x with
  | DText t => Some (DText t)
  | DElem n a k =>
      let env := decls a ++ env in
      match resolve env true n,
            all_some (map (fun p => match resolve env false (fst p) with Some m => Some (m, snd p) | None => None end) (others a)),
            all_some (map (expand env) k) with
      | Some m, Some a', Some k' => if distinct (map fst a') then Some (DElem m a' k') else None
      | _, _, _ => None
      end
  end.
(** What a namespace-aware application sees. *)
Definition parse (s : pystr) : option dnode :=
  match read s with Some x => expand [] x | None => None end.

(** ** What an ElementTree element stands for

    The names of an element may be written as [{uri}local], as a plain name, or with a
    prefix that is declared by attributes named [xmlns:prefix].  Carriage returns in
    texts count as line ends. *)
Definition ename (env : list (pystr * pystr)) (element : bool) (n : pystr) : option pystr :=
  match n with
  | c :: _ => if c =? 123 then Some n else resolve env element n
  | [] => None
  end.
Definition text_nodes (v : value) : list dnode :=
  match v with VStr (c :: s) => [DText (eol (c :: s))] | _ => [] end.
Fixpoint means (env : list (pystr * pystr)) (e : elt) : option dnode :=
  let 'Elt t a v k := e in
  let a := map (fun p => (pys (fst p), snd p)) a in
  let env := decls a ++ env in
  match ename env true (pys t),
        all_some (map (fun p => match ename env false (fst p) with Some m => Some (m, snd p) | None => None end) (others a)),
        all_some (map (means env) k) with
  | Some m, Some a', Some k' => if distinct (map fst a') then Some (DElem m a' (text_nodes v ++ k')) else None
  | _, _, _ => None
  end.

(** Elements that can be written: legal names, legal characters, and declarations
    that do not take a prefix that ElementTree gives to another namespace.
    [strict] forbids tabs and line ends in the values of attributes. *)
Definition name_ok (n : pystr) : Prop :=
  (exists u l, n = braced u l /\ u <> [] /\ is_ncname l = true) \/ is_name n = true.
Definition value_char (strict : bool) (c : Z) : Prop := is_char c = true /\ (strict = true -> 32 <= c).
Definition uri_ok (strict : bool) (n : pystr) : Prop :=
  forall u l, n = braced u l -> is_ncname l = true -> Forall (value_char strict) u.
Definition text_ok (v : value) : Prop := v = VNone \/ exists s, v = VStr s /\ forallb is_char s = true.
Definition reserved : list (pystr * pystr) := [
  (pys "xml", XML_NS);
  (pys "html", pys "http://www.w3.org/1999/xhtml");
  (pys "rdf", pys "http://www.w3.org/1999/02/22-rdf-syntax-ns#");
  (pys "wsdl", pys "http://schemas.xmlsoap.org/wsdl/");
  (pys "xs", pys "http://www.w3.org/2001/XMLSchema");
  (pys "xsi", pys "http://www.w3.org/2001/XMLSchema-instance");
  (pys "dc", pys "http://purl.org/dc/elements/1.1/")].
Definition decl_ok (d : pystr * pystr) : Prop :=
  (forall u, lookup (fst d) reserved = Some u -> snd d = u) /\
  (forall s, fst d <> pys "ns" ++ s).
Inductive writable (strict : bool) : elt -> Prop :=
| writable_elt t a v k :
    name_ok (pys t) -> uri_ok strict (pys t) ->
    Forall (fun p => name_ok (pys (fst p)) /\ uri_ok strict (pys (fst p)) /\ Forall (value_char strict) (snd p)) a ->
    NoDup (map fst a) ->
    Forall decl_ok (decls (map (fun p => (pys (fst p), snd p)) a)) ->
    text_ok v -> Forall (writable strict) k -> writable strict (Elt t a v k).
(** No declaration on the element itself. *)
Definition plain_root (e : elt) : Prop := decls (map (fun p => (pys (fst p), snd p)) (eattrib e)) = [].

(** ** Indentation *)
Fixpoint drop_space (s : pystr) : pystr :=
  match s with [] => [] | c :: r => if is_space c then drop_space r else s end.
Definition strip (s : pystr) : pystr := rev (drop_space (rev (drop_space s))).
Definition is_elem (x : dnode) : bool := match x with DText _ => false | DElem _ _ _ => true end.
(** White space around the children of an element that has child elements is removed;
    text of an element without child elements is kept as it is. *)
Fixpoint trim (x : dnode) : dnode :=
  match x with
  | DText s => DText s
  | DElem n a k =>
      if existsb is_elem k then
        DElem n a (flat_map (fun y => match y with
                                      | DText s => match strip s with [] => [] | t => [DText t] end
                                      | DElem _ _ _ => [trim y]
                                      end) k)
      else DElem n a k
  end.

(** ** minidom.parseString: a document that is well-formed, with its namespaces, gives
    its tree; the declarations come first among the attributes. *)
Fixpoint decls_first (x : dnode) : dnode :=
  match x with
  | DText s => DText s
  | DElem n a k => DElem n (filter (fun p => match decl p with Some _ => true | None => false end) a ++ others a) (map decls_first k)
  end.
Definition dom_ok (dom : pystr -> res dnode) : Prop :=
  forall s x y, content s = Some [x] -> expand [] x = Some y -> dom s = Ok (decls_first x).
(** It refuses what contains a character that is not allowed in XML. *)
Definition dom_strict (dom : pystr -> res dnode) : Prop :=
  forall s d, dom s = Ok d -> forallb is_char s = true.

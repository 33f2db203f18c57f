(** * Model of the output of jpylyzer.py: serialisation of elements

    [writeElement] hands its element to [ET.tostring] and, unless --nopretty is
    given, the result to [minidom.parseString(...).toprettyxml].  Both belong to
    the standard library; the functions used are modelled after CPython's
    Lib/xml/etree/ElementTree.py and Lib/xml/dom/minidom.py (the text is the same
    in 3.8 to 3.12).  The expat parser behind [parseString] is a parameter.

    Simplifications: elements carry no tail text (see ETree.v), and tags are
    strings of code points below 256. *)

From Coq Require Import ZArith List Bool String Floats.SpecFloat.
From Verif Require Import Py ETree Main.
Import ListNotations.
Open Scope string_scope.
Open Scope list_scope.
Open Scope Z_scope.

(** [s.replace(c, r)] for a single character [c]. *)
Definition replace1 (c : Z) (r : pystr) (s : pystr) : pystr :=
  flat_map (fun x => if x =? c then r else [x]) s.

(** ElementTree._escape_cdata, on strings *)
Definition escape_cdata (s : pystr) : pystr :=
  let s := replace1 38 (pys "&amp;") s in
  let s := replace1 60 (pys "&lt;") s in
  replace1 62 (pys "&gt;") s.

(** ElementTree._escape_attrib *)
Definition escape_attrib (s : pystr) : pystr :=
  let s := replace1 38 (pys "&amp;") s in
  let s := replace1 60 (pys "&lt;") s in
  let s := replace1 62 (pys "&gt;") s in
  let s := replace1 34 (pys "&quot;") s in
  let s := replace1 13 (pys "&#13;") s in
  let s := replace1 10 (pys "&#10;") s in
  replace1 9 (pys "&#09;") s.

(** Dictionaries in insertion order. *)
Definition dict := list (pystr * pystr).
Fixpoint get (k : pystr) (d : dict) : option pystr :=
  match d with
  | [] => None
  | (k', v) :: d' => if pystr_eqb k k' then Some v else get k d'
  end.

(** ElementTree._namespace_map *)
Definition namespace_map : dict := [
  (pys "http://www.w3.org/XML/1998/namespace", pys "xml");
  (pys "http://www.w3.org/1999/xhtml", pys "html");
  (pys "http://www.w3.org/1999/02/22-rdf-syntax-ns#", pys "rdf");
  (pys "http://schemas.xmlsoap.org/wsdl/", pys "wsdl");
  (pys "http://www.w3.org/2001/XMLSchema", pys "xs");
  (pys "http://www.w3.org/2001/XMLSchema-instance", pys "xsi");
  (pys "http://purl.org/dc/elements/1.1/", pys "dc")].

(** [s.rsplit("}", 1)]; [None]: there is no "}" (unpacking one item fails). *)
Fixpoint rsplit_brace (s : pystr) : option (pystr * pystr) :=
  match s with
  | [] => None
  | c :: r =>
      match rsplit_brace r with
      | Some (u, t) => Some (c :: u, t)
      | None => if c =? 125 then Some ([], r) else None
      end
  end.

(** ElementTree._namespaces.add_qname, with [default_namespace] None; the state
    is the pair of the dictionaries [qnames] and [namespaces]. *)
Definition add_qname (qname : pystr) (st : dict * dict) : res (dict * dict) :=
  let '(qnames, namespaces) := st in
  match qname with
  | c :: r =>
      if c =? 123 then
        match rsplit_brace r with
        | None => Raise ValueError
        | Some (uri, tag) =>
            let '(prefix, namespaces) :=
              match get uri namespaces with
              | Some p => (p, namespaces)
              | None =>
                  let prefix := match get uri namespace_map with
                                | Some p => p
                                | None => pys "ns" ++ str_of_Z (len namespaces)
                                end in
                  (prefix, if pystr_eqb prefix (pys "xml") then namespaces
                           else namespaces ++ [(uri, prefix)])
              end in
            let name := match prefix with [] => tag | _ => prefix ++ 58 :: tag end in
            Ok (qnames ++ [(qname, name)], namespaces)
        end
      else Ok (qnames ++ [(qname, qname)], namespaces)
  | [] => Ok (qnames ++ [(qname, qname)], namespaces)
  end.

(** The names [_namespaces] looks at, in order: [elem.iter()], and of each element
    the tag and the attribute keys. *)
Fixpoint names (e : elt) : list pystr :=
  let 'Elt t a _ k := e in
  pys t :: map (fun p => pys (fst p)) a ++ flat_map names k.

Fixpoint namespaces_of (l : list pystr) (st : dict * dict) : res (dict * dict) :=
  match l with
  | [] => Ok st
  | n :: l' =>
      match get n (fst st) with
      | Some _ => namespaces_of l' st
      | None => rbind (add_qname n st) (namespaces_of l')
      end
  end.

(** [sorted(namespaces.items(), key=lambda x: x[1])] *)
Fixpoint str_leb (a b : pystr) : bool :=
  match a, b with
  | [], _ => true
  | _ :: _, [] => false
  | x :: a', y :: b' => if x =? y then str_leb a' b' else x <? y
  end.
Fixpoint insert (x : pystr * pystr) (l : dict) : dict :=
  match l with
  | [] => [x]
  | y :: l' => if str_leb (snd x) (snd y) then x :: l else y :: insert x l'
  end.
Definition sorted (l : dict) : dict := fold_right insert [] l.

(** Truth value of a text. *)
Definition true_text (v : value) : bool :=
  match v with
  | VNone => false
  | VBool b => b
  | VInt z => negb (z =? 0)
  | VFloat (S754_zero _) => false
  | VFloat _ => true
  | VBytes b => match b with [] => false | _ => true end
  | VStr s => match s with [] => false | _ => true end
  end.

(** ElementTree._serialize_xml for an element ([qnames] is applied to a name). *)
Definition ns_decl (p : pystr * pystr) : pystr :=
  let '(uri, prefix) := p in
  pys " xmlns" ++ (match prefix with [] => [] | _ => 58 :: prefix end) ++ pys "=" ++ [34] ++ escape_attrib uri ++ [34].
Definition attr_out (q : pystr -> pystr) (p : string * pystr) : pystr :=
  [32] ++ q (pys (fst p)) ++ pys "=" ++ [34] ++ escape_attrib (snd p) ++ [34].
Fixpoint serialize_xml (q : pystr -> pystr) (namespaces : dict) (e : elt) : res pystr :=
  let 'Elt t a v k := e in
  let tag := q (pys t) in
  let start := [60] ++ tag ++ List.concat (map ns_decl (sorted namespaces)) ++ List.concat (map (attr_out q) a) in
  if true_text v || negb (match k with [] => true | _ => false end) then
    rbind (match v with
           | VStr s => Ok (escape_cdata s)
           | _ => if true_text v then Raise TypeError else Ok []
           end) (fun txt =>
    rbind ((fix kids (l : list elt) : res pystr :=
              match l with
              | [] => Ok []
              | x :: l' => rbind (serialize_xml q [] x) (fun s => rbind (kids l') (fun r => Ok (s ++ r)))
              end) k) (fun inner =>
    Ok (start ++ [62] ++ txt ++ inner ++ [60; 47] ++ tag ++ [62])))
  else Ok (start ++ pys " />").

(** [ET.tostring(elt, 'unicode', 'xml')] *)
Definition tostring (e : elt) : res pystr :=
  rbind (namespaces_of (names e) ([], [])) (fun '(qnames, namespaces) =>
  serialize_xml (fun n => match get n qnames with Some w => w | None => [] end) namespaces e).

(** DOM trees: elements, with their attributes, and text nodes. *)
Inductive dnode :=
| DText (s : pystr)
| DElem (name : pystr) (attrs : list (pystr * pystr)) (kids : list dnode).

(** minidom._write_data *)
Definition write_data (s : pystr) : pystr :=
  let s := replace1 38 (pys "&amp;") s in
  let s := replace1 60 (pys "&lt;") s in
  let s := replace1 34 (pys "&quot;") s in
  replace1 62 (pys "&gt;") s.

(** minidom [Element.writexml] and [Text.writexml], for addindent = four spaces
    and newl = newline *)
Definition dom_attr (p : pystr * pystr) : pystr := [32] ++ fst p ++ pys "=" ++ [34] ++ write_data (snd p) ++ [34].
Fixpoint writexml (indent : pystr) (x : dnode) : pystr :=
  match x with
  | DText s => write_data (indent ++ s ++ [10])
  | DElem n a k =>
      indent ++ [60] ++ n ++ List.concat (map dom_attr a) ++
      match k with
      | [] => pys "/>" ++ [10]
      | [DText s] => [62] ++ write_data s ++ [60; 47] ++ n ++ [62; 10]
      | _ => [62; 10] ++ List.concat (map (writexml (indent ++ pys "    ")) k) ++ indent ++ [60; 47] ++ n ++ [62; 10]
      end
  end.

(** [Document.toprettyxml('    ')] *)
Definition toprettyxml (x : dnode) : pystr :=
  pys "<?xml version=" ++ [34] ++ pys "1.0" ++ [34] ++ pys " ?>" ++ [10] ++ writexml [] x.

(** [s.split("\n")] and ["\n".join(l)] *)
Fixpoint split_nl (s : pystr) : list pystr :=
  match s with
  | [] => [[]]
  | c :: r =>
      match split_nl r with
      | l :: ls => if c =? 10 then [] :: l :: ls else (c :: l) :: ls
      | [] => []
      end
  end.
Fixpoint join_nl (l : list pystr) : pystr :=
  match l with
  | [] => []
  | [s] => s
  | s :: l' => s ++ 10 :: join_nl l'
  end.

(** [codec.write]: strict UTF-8, so a surrogate raises UnicodeEncodeError (a
    ValueError); otherwise the text itself is returned. *)
Definition codec_write (s : pystr) : res pystr :=
  if existsb is_surrogate s then Raise ValueError else Ok s.

Section Write.
(** [minidom.parseString] *)
Variable dom : pystr -> res dnode.
(** config.NO_PRETTY_XML_FLAG *)
Variable no_pretty : bool.

(** jpylyzer.py:635-656 [writeElement] *)
Definition writeElement (e : elt) : res pystr :=
  rbind (tostring e) (fun xmlOut =>
  if no_pretty then codec_write xmlOut
  else rbind (dom xmlOut) (fun d => codec_write (join_nl (tl (split_nl (toprettyxml d)))))).
End Write.

(** jpylyzer.py:70-73, 677-680, 707: what surrounds the elements *)
Definition NS_STRING_2 : pystr := pys "http://openpreservation.org/ns/jpylyzer/v2/".
Definition XSI_NS_STRING : pystr := pys "http://www.w3.org/2001/XMLSchema-instance".
Definition LOC_SCHEMA_STRING_2 : pystr :=
  pys "http://openpreservation.org/ns/jpylyzer/v2/ http://jpylyzer.openpreservation.org/jpylyzer-v-2-2.xsd".
Definition xmlHead : pystr :=
  pys "<?xml version='1.0' encoding='UTF-8'?>" ++ [10] ++
  pys "<jpylyzer xmlns=" ++ [34] ++ NS_STRING_2 ++ [34] ++ pys " " ++
  pys "xmlns:xsi=" ++ [34] ++ XSI_NS_STRING ++ [34] ++ pys " " ++
  pys "xsi:schemaLocation=" ++ [34] ++ LOC_SCHEMA_STRING_2 ++ [34] ++ pys ">" ++ [10].
Definition xmlTail : pystr := pys "</jpylyzer>" ++ [10].

(** The text on standard output. *)
Definition chunk_text (c : chunk) : pystr :=
  match c with Head => xmlHead | Element s => s | Tail => xmlTail end.
Definition stdout_text (r : run) : pystr := List.concat (map chunk_text (out r)).

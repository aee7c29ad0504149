(** * XML text as lxml writes it.

    [lxml.etree] is the XML module that fastkml prefers (config.py:35-41).  Its
    trees know which element declares which prefix; its serialiser is that of
    libxml2, with indentation if asked for.  This file models what the calls
    [Element], [SubElement], [append] and [set] of the writer (base.py:170-183,
    kml.py:174-187, helpers.py) leave behind, and [tostring].  [lxml] itself is
    no part of /repo: the model follows lxml 5 (etree.pyx, apihelpers.pxi,
    proxy.pxi, serializer.pxi) and libxml2 2.9 (tree.c, xmlsave.c). *)
From Coq Require Import String List NArith ZArith Bool.
From Verif Require Import Ustr Res PyInt Elem Value Codec Xml XmlDoc.
Import ListNotations.
Local Open Scope N_scope.

(** ** Trees *)

(** An element with its name as it is written and the prefixes it declares
    (the empty prefix: the default name space). *)
Inductive lnode := LNode (tag : ustr) (decl attrs : list (ustr * ustr)) (text : option ustr) (kids : list lnode).

(** libxml2 [xmlSearchNsByHref]: the nearest declaration of a name space among
    those in scope, innermost first, whose prefix still stands for it. *)
Definition search (scope : list (ustr * ustr)) (uri : ustr) : option ustr :=
  match find (fun d => ueqb (snd d) uri && match uget (fst d) scope with Some x => ueqb x uri | None => false end) scope with
  | Some d => Some (fst d)
  | None => None
  end.

(** etree.pyx [_Document.buildNewPrefix]. *)
Definition numbered (n : nat) : ustr := u "ns" ++ digits_of (Z.of_nat n).
Definition prefixed (p l : ustr) : ustr := match p with [] => l | _ => p ++ u ":" ++ l end.

(** etree.pyx [_Document._findOrBuildNs] and proxy.pxi [moveNodeToDocument]: an
    element uses a declaration in scope if there is one, and else declares the
    registered prefix or a numbered one.  Which number depends on the order of
    the calls: [fresh] says it for the place in the tree.  A declaration that
    an element brings along when it is appended is dropped if there is one in
    scope.  fastkml never sets attributes in name spaces; their names are
    written as they are. *)
Fixpoint lx (known : prefixes_t) (fresh : list nat -> nat) (scope : list (ustr * ustr)) (place : list nat) (e : elem) : lnode :=
  match e with
  | Elem t a x ks =>
      let kids scope := (fix go (i : nat) (l : list elem) : list lnode :=
        match l with [] => [] | k :: l' => lx known fresh scope (i :: place) k :: go (S i) l' end) O ks in
      match split_name t with
      | Ok (Some uri, l) =>
          if ueqb uri XML_NS then LNode (prefixed (u "xml") l) [] a x (kids scope)
          else match search scope uri with
               | Some p => LNode (prefixed p l) [] a x (kids scope)
               | None =>
                   let p := match uget uri known with Some p => p | None => numbered (fresh place) end in
                   LNode (prefixed p l) [(p, uri)] a x (kids ((p, uri) :: scope))
               end
      | _ => LNode t [] a x (kids scope)
      end
  end.

(** kml.py:179-183: the root in a name space is made with
    [nsmap={None: self.ns[1:-1]}]. *)
Definition lx_root (known : prefixes_t) (fresh : list nat -> nat) (e : elem) : lnode :=
  match e with
  | Elem t a x ks =>
      match split_name t with
      | Ok (Some uri, l) =>
          match lx known fresh [([], uri)] [] (Elem t a x ks) with
          | LNode t' d a' x' ks' => LNode t' (([], uri) :: d) a' x' ks'
          end
      | _ => lx known fresh [] [] e
      end
  end.

(** apihelpers.pxi [_utf8], [_tagValidOrRaise], [_attributeValidOrRaise]: names
    that are none and characters that XML does not allow are refused
    (ValueError) as soon as the element gets them.  [nsmap] with something that
    is no URI is refused as well, which is not modelled. *)
Definition lx_name (n : ustr) : bool :=
  forallb xml_char n && match split_name n with Ok (_, l) => ncname l | Err _ => false end.
Fixpoint lx_valid (e : elem) : bool :=
  match e with
  | Elem t a x ks =>
      lx_name t && forallb (fun kv => lx_name (fst kv) && forallb xml_char (snd kv)) a &&
      match x with Some s => forallb xml_char s | None => true end && forallb lx_valid ks
  end.

(** ** Text *)

(** libxml2 [xmlEscapeContent] *)
Definition lx_esc_text (c : N) : ustr :=
  if c =? 60 then u "&lt;" else if c =? 62 then u "&gt;" else if c =? 38 then u "&amp;" else if c =? 13 then u "&#13;" else [c].
(** libxml2 [xmlBufAttrSerializeTxtContent]; the documents of lxml are in UTF-8. *)
Definition lx_esc_attr (c : N) : ustr :=
  if c =? 34 then u "&quot;" else if c =? 10 then u "&#10;" else if c =? 9 then u "&#9;" else lx_esc_text c.
Definition lx_attr (kv : ustr * ustr) : ustr := u " " ++ fst kv ++ u "=" ++ [34] ++ flat_map lx_esc_attr (snd kv) ++ [34].
(** libxml2 [xmlNsDumpOutput]: the name space is not escaped.  (It would stand
    in apostrophes if it had quotes.) *)
Definition lx_decl (d : ustr * ustr) : ustr := u " " ++ fst (declaration (snd d, fst d)) ++ u "=" ++ [34] ++ snd d ++ [34].

(** libxml2 xmlsave.c: two spaces per level, not more than sixty. *)
Definition indent (level : nat) : ustr := repeat 32 (2 * Nat.min level 30).

(** libxml2 [xmlNodeDumpOutputInternal]: nothing is added inside an element
    that has text. *)
Fixpoint lx_print (fmt : bool) (level : nat) (n : lnode) : ustr :=
  match n with
  | LNode t d a x ks =>
      u "<" ++ t ++ flat_map lx_decl d ++ flat_map lx_attr a ++
      match x, ks with
      | None, [] => u "/>"
      | _, _ =>
          let fmt' := fmt && match x with None => true | Some _ => false end in
          u ">" ++ match x with Some s => flat_map lx_esc_text s | None => [] end ++
          (if fmt' then [10] else []) ++
          flat_map (fun k => (if fmt' then indent (S level) else []) ++ lx_print fmt' (S level) k ++ (if fmt' then [10] else [])) ks ++
          (if fmt' then indent level else []) ++ u "</" ++ t ++ u ">"
      end
  end.

(** serializer.pxi [_tounicode]: [tostring(element, encoding="unicode",
    pretty_print=...)] ends with a line feed if it is indented. *)
Definition lx_tostring (pretty : bool) (n : lnode) : ustr := lx_print pretty 0 n ++ (if pretty then [10] else []).

(** ** Objects *)

(** base.py:185-230 [to_string] with lxml. *)
Definition nsmap_root (W : world) (v : value) : bool :=
  match v with
  | VObj c ns _ _ => match class_of W c with Some ci => ci_root ci && negb (uempty ns) | None => false end
  | _ => false
  end.
Definition lx_to_string (W : world) (known : prefixes_t) (fresh : list nat -> nat) (pretty : bool) (prec : option nat) (vb : verbosity) (v : value) : res ustr :=
  let! e := etree W prec vb v in
  if lx_valid e then Ok (lx_tostring pretty (if nsmap_root W v then lx_root known fresh e else lx known fresh [] [] e))
  else Err EValueError.

(** kml.py:253-298 [KML.write] with lxml. *)
Definition lx_kml_write (W : world) (known : prefixes_t) (fresh : list nat -> nat) (kmz pretty : bool) (prec : option nat) (vb : verbosity) (v : value) : res (option file) :=
  let! s := lx_to_string W known fresh pretty prec vb v in
  Ok (match utf8 s with
      | Some b => Some (if kmz then Zip [("doc.kml"%string, b)] else Plain b)
      | None => None
      end).

(** etree.pyx [_DEFAULT_NAMESPACE_PREFIXES], and what fastkml registers
    (config.py:70-84). *)
Definition lxml_well_known : prefixes_t :=
  [(u "http://www.w3.org/XML/1998/namespace", u "xml");
   (u "http://www.w3.org/1999/xhtml", u "html");
   (u "http://www.w3.org/1999/XSL/Transform", u "xsl");
   (u "http://www.w3.org/1999/02/22-rdf-syntax-ns#", u "rdf");
   (u "http://schemas.xmlsoap.org/wsdl/", u "wsdl");
   (u "http://www.w3.org/2001/XMLSchema", u "xs");
   (u "http://www.w3.org/2001/XMLSchema-instance", u "xsi");
   (u "http://purl.org/dc/elements/1.1/", u "dc");
   (u "http://codespeak.net/lxml/objectify/pytype", u "py")].
Definition lxml_prefixes : prefixes_t :=
  match register_namespaces default_prefixes lxml_well_known with Ok m => m | Err _ => lxml_well_known end.

(** * What can be told in XML text (specification vocabulary). *)
From Coq Require Import String List NArith ZArith Bool.
From Verif Require Import Ustr UstrProofs Res Elem Value Spec Xml.
Import ListNotations.
Local Open Scope N_scope.

(** A name in Clark notation: a name without colon, alone or in a name space. *)
Definition name_ok (n : ustr) : bool :=
  match split_name n with
  | Ok (None, l) => ncname l
  | Ok (Some uri, l) => ncname l && negb (uempty uri) && forallb xml_char uri && negb (ueqb uri XMLNS_NS)
  | Err _ => false
  end.

(** An attribute; a plain [xmlns] may not name one of the two fixed name spaces. *)
Definition attr_ok (kv : ustr * ustr) : bool :=
  name_ok (fst kv) && forallb xml_char (snd kv) &&
  (negb (ueqb (fst kv) (u "xmlns")) || negb (ueqb (snd kv) XMLNS_NS) && negb (ueqb (snd kv) XML_NS)).

(** Text: no control characters, no surrogates, no carriage return. *)
Definition text_ok (x : option ustr) : bool :=
  match x with Some s => forallb (fun c => xml_char c && negb (c =? 13)) s | None => true end.

Fixpoint xml_ok (e : elem) : bool :=
  match e with
  | Elem t a x ks => name_ok t && forallb attr_ok a && distinct (map fst a) && text_ok x && forallb xml_ok ks
  end.

(** The same with other characters in the texts. *)
Definition chars_ok (p : N -> bool) (x : option ustr) : bool := match x with Some s => forallb p s | None => true end.
Fixpoint elem_ok (p : N -> bool) (e : elem) : bool :=
  match e with
  | Elem t a x ks => name_ok t && forallb attr_ok a && distinct (map fst a) && chars_ok p x && forallb (elem_ok p) ks
  end.

(** The table of known prefixes: a dictionary with different prefixes, among
    them [xml]; none is [xmlns] or of the form [ns0], [ns1], ... *)
Definition known_ok (known : prefixes_t) : bool :=
  distinct (map fst known) && distinct (map snd known) &&
  existsb (fun kv => ueqb (fst kv) XML_NS && ueqb (snd kv) (u "xml")) known &&
  forallb (fun kv => ncname (snd kv) && negb (ueqb (snd kv) (u "xmlns")) && negb (reserved (snd kv))) known.

(** No difference is made between no text and empty text. *)
Fixpoint tidy (e : elem) : elem :=
  match e with
  | Elem t a x ks => Elem t a (match x with Some [] => None | _ => x end) (map tidy ks)
  end.

(** ** Objects that can be told in XML text *)

(** A name space as the library writes it: nothing or a braced name. *)
Definition ns_clean (ns : ustr) : bool :=
  uempty ns ||
  good_ns ns && forallb xml_char ns && negb (ueqb ns (u "{}")) && negb (ueqb ns (u "{" ++ XMLNS_NS ++ u "}")).

(** Every name space of the object and every string in it consists of
    characters of XML; strings have no carriage return. *)
Definition object_ok (p : N -> bool) (v : value) : bool :=
  vall (fun _ ns nss attrs =>
    ns_clean ns && forallb (fun kv => ns_clean (snd kv)) nss &&
    forallb (fun av => match snd av with VStr s => chars_ok p (Some s) | _ => true end) attrs) v.
Definition xml_object (v : value) : bool := object_ok (fun c => xml_char c && negb (c =? 13)) v.

(** There is no empty text. *)
Fixpoint solid (e : elem) : bool :=
  match e with
  | Elem _ _ x ks => match x with Some [] => false | _ => true end && forallb solid ks
  end.

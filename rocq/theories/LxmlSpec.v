(** * What lxml can tell in XML text (specification vocabulary). *)
From Coq Require Import String List NArith ZArith Bool.
From Verif Require Import Ustr UstrProofs Res Elem Value Spec Unprefixed Xml XmlSpec.
Import ListNotations.
Local Open Scope N_scope.

(** Name spaces are not escaped: no quotes, [&], [<], tabulators or line ends;
    and not the one that is fixed to the prefix [xml]. *)
Definition uri_char (c : N) : bool := xml_char c && negb (existsb (N.eqb c) [9; 10; 13; 34; 38; 60]).
Definition ns_plain (ns : ustr) : bool :=
  ns_clean ns && forallb uri_char ns && negb (ueqb ns (u "{" ++ XML_NS ++ u "}")).

(** Every string of the object consists of characters of XML; its name spaces
    are plain. *)
Definition lxml_object (v : value) : bool :=
  object_ok xml_char v &&
  vall (fun _ ns nss _ => ns_plain ns && forallb (fun kv => ns_plain (snd kv)) nss) v.

(** Every object inside is in some name space, and so are the values that are
    written in the name space of their kind (dates, altitude modes). *)
Definition all_qualified (v : value) : bool :=
  vall (fun _ ns nss _ => qualified ns && qualified (ns_get nss "kml") && qualified (ns_get nss "gx")) v.

(** * Documents read one after the other with the same settings. *)
From Coq Require Import String List NArith ZArith Bool.
From Verif Require Import Ustr Res Elem Value Geom Codec Api.
Import ListNotations.

(** One call that reads a document, after XML parsing: [KML.parse]
    (kml.py:206-249) or [cls.from_string] (base.py:413-452). *)
Inductive call :=
| Parse (strict : bool) (ns : option ustr) (root : elem)
| FromString (strict : bool) (c : string) (ns : option ustr) (root : elem).

(** The call with the dictionary [nss] for the name spaces: what it returns or
    raises. *)
Definition called (W : world) (nss : nss_t) (k : call) : res value :=
  match k with
  | Parse strict ns root => kml_parse W strict "kml.KML" ns nss root
  | FromString strict c ns root => from_string W strict c ns nss root
  end.

(** The dictionary after the call: kml.py:239-243 changes the caller's one,
    whether or not the document is then read; base.py:440-452 does not. *)
Definition dict_after (nss : nss_t) (k : call) : nss_t :=
  match k with
  | Parse strict ns root => kml_parse_dict ns nss root
  | FromString _ _ _ _ => nss
  end.

(** A program that keeps its name spaces in one dictionary. *)
Fixpoint session (W : world) (nss : nss_t) (ks : list call) : list (res value) :=
  match ks with
  | [] => []
  | k :: ks' => called W nss k :: session W (dict_after nss k) ks'
  end.

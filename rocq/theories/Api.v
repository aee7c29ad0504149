(** * Entry points of the library on top of the interpreter. *)
From Coq Require Import String List NArith ZArith Bool.
From Verif Require Import Ustr Res PyInt PyFloat PyDate Elem Value Geom Codec.
Import ListNotations.

(** base.py:80-88 with the constructors of the subclasses: [cls(ns=ns,
    name_spaces=nss, **kws)] called by a user, who may leave [ns] out. *)
Definition make (W : world) (c : string) (ns : option ustr) (nss : nss_t) (kws : list (string * value)) : res value :=
  construct W c (match ns with Some n => n | None => default_ns W c (merge_ns nss) end) nss kws.

(** kml.py:239-243 [KML.parse]: the dictionary the caller passed as
    [name_spaces], after the call.  An empty one is replaced by a new
    dictionary ([name_spaces or {}]), another one is updated in place. *)
Definition kml_parse_dict (ns : option ustr) (nss : nss_t) (root : elem) : nss_t :=
  let n := match ns with Some n => n | None => parse_ns (e_tag root) end in
  match nss with
  | [] => []
  | _ => if uempty n then nss else sset "kml"%string n nss
  end.

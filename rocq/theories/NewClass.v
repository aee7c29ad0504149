(** * Classes defined by users of the library (specification vocabulary). *)
From Coq Require Import String List NArith ZArith Bool.
From Verif Require Import Ustr Res PyDate Elem Value Geom Codec Tables Spec Settled Extend.
Import ListNotations.

(** The library after the definition of a class named [c] and the calls
    [registry.register(c, it)] for the items [its] (registry.py:137-156;
    docs/working_with_kml.rst:94-156 shows how). *)
Definition add_class (W : world) (c : string) (ci : class_info) (its : list item) : world :=
  mkWorld (w_classes W ++ [(c, ci)]) (w_enums W) (sset c its (w_registry W)) (w_arrow W).

(** The class is new, no older class derives from it, and its table is
    well-formed: items with known classes and distinct names, all of them
    taken by the constructor, each in the name space in which it is written. *)
Definition new_class (W : world) (c : string) (ci : class_info) (its : list item) : bool :=
  let W' := add_class W c ci its in
  negb (known_class W c) &&
  forallb (fun cc => negb (mem c (ci_mro (snd cc)))) (w_classes W) &&
  nodups (ci_mro ci) &&
  class_ok W' ci (items_of W' c) &&
  forallb (item_ids_ok W' (ci_nsid ci)) (items_of W' c).

(** All objects inside [v] belong to classes of [W]. *)
Definition of_library (W : world) (v : value) : bool := vall (fun c _ _ _ => known_class W c) v.

(** The library after any number of class definitions, and registrations with
    unused names. *)
Inductive reached (arrow : ustr -> option datetime) : world -> Prop :=
| reached_start : reached arrow (fastkml arrow)
| reached_step W d it : reached arrow W -> fresh W d it = true -> reached arrow (extend W d it)
| reached_class W c ci its : reached arrow W -> new_class W c ci its = true -> reached arrow (add_class W c ci its).

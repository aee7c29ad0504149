(** * Objects inside objects, elements inside elements (C72). *)
From Coq Require Import String List.
From Verif Require Import Ustr Res Elem Value Geom.
Import ListNotations.

(** [w] is [v] or an object inside [v], no object on the way (nor [w] itself, if it
    is inside) having the truth value false. *)
Inductive part_of (W : world) (w : value) : value -> Prop :=
| part_self : part_of W w w
| part_attr c ns nss attrs a k ns' nss' attrs' : let x := VObj k ns' nss' attrs' in
    In (a, x) attrs -> py_bool W x <> Ok false -> part_of W w x -> part_of W w (VObj c ns nss attrs)
| part_member c ns nss attrs a l y :
    In (a, VList l) attrs -> In y l -> py_bool W y <> Ok false -> part_of W w y -> part_of W w (VObj c ns nss attrs).

(** [k] is [e] or an element inside [e]. *)
Inductive inside (k : elem) : elem -> Prop :=
| inside_self : inside k k
| inside_kid e k' : In k' (e_kids e) -> inside k k' -> inside k e.

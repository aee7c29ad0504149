(** * What it means that two objects carry the same data (specification). *)
From Coq Require Import String List NArith ZArith Bool.
From Verif Require Import Ustr UstrProofs Res PyInt PyFloat PyDate PyDateProofs Elem Value Geom Codec Spec Settled.
Import ListNotations.

(** Coordinates with the same doubles, empty tuples left out. *)
Definition same_points (l l' : list (list num)) : Prop :=
  map (map to_float) (filter (fun c => negb (nilb c)) l) = map (map to_float) (filter (fun c => negb (nilb c)) l').

(** [same W x x']: the attribute value [x'] carries the data of [x].
    White space around text is immaterial and a blank text is no text; numbers
    are compared as doubles; empty (falsy) sub-objects are no data; members of
    lists keep their order within each class, and those without data (falsy
    before or after) may be missing; an absent list of angles stands for zero
    angles.  Two objects carry the same data if they have the same
    class and name spaces and agree on all attributes in the registry. *)
Inductive same (W : world) : value -> value -> Prop :=
| same_refl x : match x with VObj _ _ _ _ | VList _ => False | _ => True end -> same W x x
| same_text s s' : strip s = strip s' -> same W (VStr s) (VStr s')
| same_blank s : uempty (strip s) = true -> same W (VStr s) VNone
| same_no_text : same W VNone (VStr [])
| same_num n n' : to_float n = to_float n' -> same W (VNum n) (VNum n')
| same_coords t t' l l' : same_points l l' -> same W (VCoords t l) (VCoords t' l')
| same_no_coords t : same W VNone (VCoords t [])
| same_no_dates : same W (VDates []) VNone
| same_angles t t' n : same W (VCoords t []) (VCoords t' (repeat zero_angle n))
| same_falsy c ns nss attrs : truth W (VObj c ns nss attrs) = false -> same W (VObj c ns nss attrs) VNone
| same_list l l' :
    (forall c, exists m, Forall2 (same W) (filter (fun y => is_class c y && truth W y) l) m /\
       (filter (is_class c) l' = m \/ filter (is_class c) l' = filter (truth W) m)) ->
    same W (VList l) (VList l')
| same_no_list : same W VNone (VList [])
| same_obj c ci ns nss attrs attrs' :
    class_of W c = Some ci ->
    (forall it, In it (items_of W c) -> same W (obj_attr ci attrs (it_attr it)) (obj_attr ci attrs' (it_attr it))) ->
    same W (VObj c ns nss attrs) (VObj c ns nss attrs').

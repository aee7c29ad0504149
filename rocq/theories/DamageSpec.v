(** * What damage to one element may change in the object that is read.

    Vocabulary of C63. *)
From Coq Require Import String List NArith ZArith Bool.
From Verif Require Import Ustr Res PyDate Elem Value Geom Codec Spec.
Import ListNotations.
Local Open Scope string_scope.
Local Open Scope list_scope.

(** [e'] is [e] with one element, found under the tags [path], replaced by
    another with the same tag: other text, other attributes, other children. *)
Inductive damaged : list ustr -> elem -> elem -> Prop :=
| damaged_here e e' : e_tag e = e_tag e' -> damaged [] e e'
| damaged_below tag attrib text before x x' after path :
    damaged path x x' ->
    damaged (e_tag x :: path) (Elem tag attrib text (before ++ x :: after)) (Elem tag attrib text (before ++ x' :: after)).

(** The tags of the children a registration looks for. *)
Definition tags_for (W : world) (nss : nss_t) (it : item) : list ustr :=
  flat_map (fun id =>
    match it_get it with
    | GNodeText | GCoords | GAttrText | GAttrInt | GAttrFloat | GAttrEnum => []
    | GObj | GObjs => map (fun c => ns_get nss id ++ u (tag_of W c)) (it_classes it)
    | _ => [ns_get nss id ++ u (it_node it)]
    end) (it_nsids it).

(** The names of the XML attributes it looks for. *)
Definition keys_for (nss : nss_t) (it : item) : list ustr :=
  flat_map (fun id =>
    match it_get it with
    | GAttrText | GAttrInt | GAttrFloat | GAttrEnum => [ns_get nss id ++ u (it_node it)]
    | _ => []
    end) (it_nsids it).

(** The attribute [b] holds what is read for the registration.  The times,
    positions and angles of a track make up its items (gx.py:253-271). *)
Definition stored_in (it : item) (b : string) : Prop :=
  it_attr it = b \/ (b = "track_items" /\ In (it_attr it) ["whens"; "coords"; "angles"]).

(** The values differ at most in what is read from the place [path]: two
    objects have the same class and name spaces and the same attributes, except
    for attributes whose registration looks for the first tag of the path.  If
    that holds an object, it differs at most in what is read from the rest of
    the path; if it holds a list of objects, at most one member does, or is
    missing. *)
Inductive differs (W : world) : list ustr -> value -> value -> Prop :=
| differs_all v v' : differs W [] v v'
| differs_below tag path c ns nss attrs attrs' :
    (forall b, sget b attrs = sget b attrs' \/
      exists it, In it (items_of W c) /\ In tag (tags_for W nss it) /\ stored_in it b /\
        (it_get it = GObj -> exists x x', sget b attrs = Some x /\ sget b attrs' = Some x' /\ differs W path x x') /\
        (it_get it = GObjs -> exists l1 o o' l2, sget b attrs = Some (VList (l1 ++ o ++ l2)) /\ sget b attrs' = Some (VList (l1 ++ o' ++ l2)) /\
           length o <= 1 /\ length o' <= 1 /\ forall x x', o = [x] -> o' = [x'] -> differs W path x x')) ->
    differs W (tag :: path) (VObj c ns nss attrs) (VObj c ns nss attrs').

(** What the registration asks for can be read from the element [k]: a time
    (helpers.py:1144-1150), or the numbers of a position or an angle
    (helpers.py:1166-1172). *)
Definition told (W : world) (it : item) (k : elem) : bool :=
  match it_get it, e_text k with
  | GDates, Some t => is_ok (kdt_parse (w_arrow W) t)
  | GCoordList, Some t => negb (uempty t) && is_ok (floats_of (words t))
  | _, _ => false
  end.

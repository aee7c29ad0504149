(** * What the reader looks at (specification vocabulary). *)
From Coq Require Import String List NArith ZArith Bool.
From Verif Require Import Ustr Res Elem Value Geom Codec Spec.
Import ListNotations.

(** Children with a given tag, in document order. *)
Definition with_tag (tag : ustr) (ks : list elem) : list elem := filter (fun k => ueqb (e_tag k) tag) ks.

(** Text of the first child with a tag, without surrounding white space;
    [None] when there is no such child or its text is blank. *)
Definition leaf_text (tag : ustr) (ks : list elem) : option ustr :=
  match with_tag tag ks with
  | k :: _ => stripped (e_text k)
  | [] => None
  end.

(** Texts that differ only in white space, where it is not significant. *)
Definition texts_alike (g : getter) (t t' : option ustr) : Prop :=
  match g with
  | GDates => t = t'
  | GCoordList => match t, t' with
                  | Some a, Some b => words a = words b /\ uempty a = uempty b
                  | None, None => True
                  | _, _ => False
                  end
  | GCoords => match t, t' with
               | Some a, Some b => strip a = strip b
               | None, None => True
               | _, _ => False
               end
  | _ => stripped t = stripped t'
  end.

Inductive opt_rel {A B} (R : A -> B -> Prop) : option A -> option B -> Prop :=
| opt_none : opt_rel R None None
| opt_some a b : R a b -> opt_rel R (Some a) (Some b).

(** Two elements agree for the class [c]: same values of the XML attributes,
    same texts up to white space and, per tag, the same sequence of children,
    as far as [c] looks for them; only the first child matters for attributes
    that hold one value. *)
Inductive agree (W : world) (nss : nss_t) : string -> elem -> elem -> Prop :=
| agree_elem c t t' a a' x x' ks ks' :
    (forall it id, In it (items_of W c) -> In id (it_nsids it) ->
      match it_get it with
      | GNodeText | GCoords => texts_alike (it_get it) x x'
      | GAttrText | GAttrInt | GAttrFloat | GAttrEnum =>
          uget (ns_get nss id ++ u (it_node it)) a = uget (ns_get nss id ++ u (it_node it)) a'
      | GText | GBool | GInt | GFloat | GEnum | GDate =>
          leaf_text (ns_get nss id ++ u (it_node it)) ks = leaf_text (ns_get nss id ++ u (it_node it)) ks'
      | GDates | GCoordList =>
          Forall2 (fun k k' => texts_alike (it_get it) (e_text k) (e_text k'))
            (with_tag (ns_get nss id ++ u (it_node it)) ks) (with_tag (ns_get nss id ++ u (it_node it)) ks')
      | GObj | GObjs => True
      end) ->
    (forall it id c', In it (items_of W c) -> In id (it_nsids it) -> it_get it = GObj -> In c' (it_classes it) ->
      opt_rel (agree W nss c') (hd_error (with_tag (ns_get nss id ++ u (tag_of W c')) ks))
                               (hd_error (with_tag (ns_get nss id ++ u (tag_of W c')) ks'))) ->
    (forall it id c', In it (items_of W c) -> In id (it_nsids it) -> it_get it = GObjs -> In c' (it_classes it) ->
      Forall2 (agree W nss c') (with_tag (ns_get nss id ++ u (tag_of W c')) ks)
                               (with_tag (ns_get nss id ++ u (tag_of W c')) ks')) ->
    agree W nss c (Elem t a x ks) (Elem t' a' x' ks').

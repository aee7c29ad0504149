(** * Edits of a document that leave its meaning alone (specification vocabulary). *)
From Coq Require Import String List NArith ZArith Bool.
From Verif Require Import Ustr Res Elem Value Geom Codec Spec Agree.
Import ListNotations.

(** A tag (the name of an XML attribute) no class of the library looks for. *)
Definition unknown_tag (W : world) (nss : nss_t) (tag : ustr) : Prop :=
  forall c it id, In it (items_of W c) -> In id (it_nsids it) ->
    tag <> ns_get nss id ++ u (it_node it) /\ forall c', In c' (it_classes it) -> tag <> ns_get nss id ++ u (tag_of W c').
Definition unknown_attribute (W : world) (nss : nss_t) (key : ustr) : Prop :=
  forall c it id, In it (items_of W c) -> In id (it_nsids it) -> key <> ns_get nss id ++ u (it_node it).

(** Children with different tags and XML attributes with different names change
    places, unknown children and unknown XML attributes come and go, at any depth
    and any number of times. *)
Inductive edited (W : world) (nss : nss_t) : elem -> elem -> Prop :=
| ed_refl e : edited W nss e e
| ed_sym e e' : edited W nss e e' -> edited W nss e' e
| ed_trans e e' e'' : edited W nss e e' -> edited W nss e' e'' -> edited W nss e e''
| ed_swap t a x l k1 k2 r : e_tag k1 <> e_tag k2 -> edited W nss (Elem t a x (l ++ k1 :: k2 :: r)) (Elem t a x (l ++ k2 :: k1 :: r))
| ed_child t a x l k r : unknown_tag W nss (e_tag k) -> edited W nss (Elem t a x (l ++ k :: r)) (Elem t a x (l ++ r))
| ed_attr t a key val b x ks : unknown_attribute W nss key -> edited W nss (Elem t (a ++ (key, val) :: b) x ks) (Elem t (a ++ b) x ks)
| ed_attrs t a p q b x ks : fst p <> fst q -> edited W nss (Elem t (a ++ p :: q :: b) x ks) (Elem t (a ++ q :: p :: b) x ks)
| ed_below t a x l k k' r : edited W nss k k' -> edited W nss (Elem t a x (l ++ k :: r)) (Elem t a x (l ++ k' :: r)).

(** The text of an element laid out differently: white space around it comes
    and goes.  The text of [when] is taken as it is, and of coordinates it
    matters whether there is any. *)
Definition text_respaced (tag : ustr) (x x' : option ustr) : Prop :=
  if ends_with tag (u "when") then x = x'
  else if ends_with tag (u "coord") || ends_with tag (u "angles") || ends_with tag (u "coordinates") then
    match x, x' with
    | Some a, Some b => strip a = strip b /\ (a = [] <-> b = [])
    | None, None => True
    | _, _ => False
    end
  else stripped x = stripped x'.

Inductive respaced : elem -> elem -> Prop :=
| resp t a x x' ks ks' : text_respaced t x x' -> Forall2 respaced ks ks' -> respaced (Elem t a x ks) (Elem t a x' ks').

(** * What an edit may change in the document that is written.

    Vocabulary of C61. *)
From Coq Require Import String List NArith ZArith Bool.
From Verif Require Import Ustr Res Elem Value Geom Codec.
Import ListNotations.
Local Open Scope string_scope.
Local Open Scope list_scope.

(** The registrations the writer of a class goes through (kml.py:188-196: the
    root writes its features only). *)
Definition written_items (W : world) (c : string) (ci : class_info) : list item :=
  if ci_root ci then [root_item] else items_of W c.

(** The registration [it] writes attribute [a]: it is registered for it, or it
    belongs to a track, whose three properties show its items (gx.py:318-359). *)
Definition concerns (ci : class_info) (a : string) (it : item) : Prop :=
  it_attr it = a \/ (ci_geom ci = GkTrack /\ a = "track_items").

(** [k] is what the registration [it] writes: the element of the object (of a
    member of the list) in its attribute, or an element with its name and
    nothing but text in it. *)
Definition written_for (W : world) (prec : option nat) (vb : verbosity) (attrs : list (string * value)) (it : item) (k : elem) : Prop :=
  match it_set it with
  | SObj => exists v, sget (it_attr it) attrs = Some v /\ etree W prec vb v = Ok k
  | SObjs => exists l v, sget (it_attr it) attrs = Some (VList l) /\ In v l /\ etree W prec vb v = Ok k
  | _ => (exists n t, k = Elem (n ++ u (it_node it)) [] (Some t) [])
  end.

(** The elements [e] and [e'] of an object of class [c] with attributes [attrs]
    and [attrs'] differ at most in what is written for attribute [a]: both are
    made of the parts of the same registrations in the same order, and the parts
    of registrations that do not concern [a] are the same. *)
Record same_but (W : world) (prec : option nat) (vb : verbosity) (c : string) (ci : class_info) (a : string)
    (attrs attrs' : list (string * value)) (e e' : elem) : Prop := {
  sb_tag : e_tag e = e_tag e';
  sb_kids : exists parts : list (item * list elem * list elem),
    map (fun p => fst (fst p)) parts = written_items W c ci /\
    e_kids e = concat (map (fun p => snd (fst p)) parts) /\ e_kids e' = concat (map snd parts) /\
    Forall (fun p => let '(it, s, s') := p in
      Forall (written_for W prec vb attrs it) s /\ Forall (written_for W prec vb attrs' it) s' /\ (s = s' \/ concerns ci a it)) parts;
  sb_attrib : forall key, uget key (e_attrib e) = uget key (e_attrib e') \/
    exists it, In it (written_items W c ci) /\ concerns ci a it /\
      In (it_set it) [SAttrText; SAttrInt; SAttrFloat; SAttrEnum] /\ key = u (it_node it);
  sb_text : e_text e = e_text e' \/
    exists it, In it (written_items W c ci) /\ concerns ci a it /\ In (it_set it) [SNodeText; SCoords]
}.

(** [o'] is [o] with the part [p] at some depth replaced by [p'].  On the way
    down the parts are written, before and after. *)
Inductive replaced (W : world) (p p' : value) : value -> value -> Prop :=
| replaced_here : replaced W p p' p p'
| replaced_attr c ns nss attrs it v v' :
    In it (items_of W c) -> it_set it = SObj -> sget (it_attr it) attrs = Some v ->
    py_bool W v = Ok true -> py_bool W v' = Ok true -> replaced W p p' v v' ->
    replaced W p p' (VObj c ns nss attrs) (VObj c ns nss (sset (it_attr it) v' attrs))
| replaced_member c ns nss attrs it l1 v v' l2 :
    In it (items_of W c) -> it_set it = SObjs -> sget (it_attr it) attrs = Some (VList (l1 ++ v :: l2)) ->
    py_bool W v = Ok true -> py_bool W v' = Ok true -> replaced W p p' v v' ->
    replaced W p p' (VObj c ns nss attrs) (VObj c ns nss (sset (it_attr it) (VList (l1 ++ v' :: l2)) attrs)).

(** [e'] is [e] with the element [k] in one place replaced by [k']. *)
Inductive instead (k k' : elem) : elem -> elem -> Prop :=
| instead_here : instead k k' k k'
| instead_below tag attrib text before x x' after :
    instead k k' x x' -> instead k k' (Elem tag attrib text (before ++ x :: after)) (Elem tag attrib text (before ++ x' :: after)).

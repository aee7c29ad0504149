(** * Saving after an edit changes only the edited part: C61. *)
From Coq Require Import String List NArith ZArith Bool.
From Verif Require Import Ustr Res Elem Value Geom Codec Tables Spec FastkmlOk WriteProofs EditSpec EditProofs Samples.
Import ListNotations.
Local Open Scope string_scope.
Local Open Scope list_scope.

(** An attribute of an object is given another value, whatever the two values
    are.  If both objects can be written, the elements have the same name and
    are made of the parts of the same registrations in the same order; only the
    parts, XML attributes and text of the registrations of that attribute
    differ.  For every registry. *)
Theorem C61_one_attribute :
  forall W prec vb c ci ns nss attrs a x e e',
  class_of W c = Some ci ->
  etree W prec vb (VObj c ns nss attrs) = Ok e -> etree W prec vb (VObj c ns nss (sset a x attrs)) = Ok e' ->
  same_but W prec vb c ci a attrs (sset a x attrs) e e'.
Proof. exact edit_local. Qed.
Print Assumptions C61_one_attribute.

(** A part of a document, at any depth, is replaced by another: if the document
    can be written and the new part can, the new document can be written, and it
    is the old one with the element of the old part, in one place, replaced by
    the element of the new one.  Every other element, name, attribute and text,
    and their order, stays. *)
Theorem C61_one_part :
  forall arrow prec vb p p' k' o o' e, let W := fastkml arrow in
  replaced W p p' o o' ->
  etree W prec vb o = Ok e -> etree W prec vb p' = Ok k' ->
  exists k e', etree W prec vb p = Ok k /\ etree W prec vb o' = Ok e' /\ instead k k' e e'.
Proof.
  intros arrow prec vb p p' k' o o' e W H He Hk'.
  destruct (parts_written W prec vb o p (fastkml_ok arrow) (replaced_part _ _ _ _ _ H) e He) as [k [Hk _]].
  destruct (replaced_instead W prec vb p p' k k' o o' (fastkml_ok arrow) Hk Hk' H e He) as [e' [He' Hi]]. now exists k, e'.
Qed.
Print Assumptions C61_one_part.

(** Both together: an attribute of an object anywhere in a document is edited. *)
Theorem C61_edited_document :
  forall arrow prec vb c ci ns nss attrs a x o o' e k', let W := fastkml arrow in
  class_of W c = Some ci ->
  replaced W (VObj c ns nss attrs) (VObj c ns nss (sset a x attrs)) o o' ->
  etree W prec vb o = Ok e -> etree W prec vb (VObj c ns nss (sset a x attrs)) = Ok k' ->
  exists k e', etree W prec vb (VObj c ns nss attrs) = Ok k /\ etree W prec vb o' = Ok e' /\
               instead k k' e e' /\ same_but W prec vb c ci a attrs (sset a x attrs) k k'.
Proof.
  intros arrow prec vb c ci ns nss attrs a x o o' e k' W Hc H He Hk'.
  destruct (C61_one_part arrow prec vb _ _ k' o o' e H He Hk') as [k [e' [Hk [He' Hi]]]]. exists k, e'. split; [exact Hk|]. split; [exact He'|]. split; [exact Hi|].
  exact (edit_local W prec vb c ci ns nss attrs a x k k' Hc Hk Hk').
Qed.
Print Assumptions C61_edited_document.

(** A member is added to a list of objects, at any place in it (read from right
    to left: is taken out of it): its element is added, the rest stays. *)
Theorem C61_one_member_added :
  forall arrow prec vb c ns nss attrs it l1 v l2 k e, let W := fastkml arrow in
  In it (items_of W c) -> it_set it = SObjs -> sget (it_attr it) attrs = Some (VList (l1 ++ l2)) ->
  py_bool W v = Ok true -> etree W prec vb v = Ok k ->
  etree W prec vb (VObj c ns nss attrs) = Ok e ->
  exists tag attrib text before after, e = Elem tag attrib text (before ++ after) /\
    etree W prec vb (VObj c ns nss (sset (it_attr it) (VList (l1 ++ v :: l2)) attrs)) = Ok (Elem tag attrib text (before ++ k :: after)).
Proof. intros arrow prec vb c ns nss attrs it l1 v l2 k e W. exact (member_added W prec vb c ns nss attrs it l1 v l2 k e (fastkml_ok arrow)). Qed.
Print Assumptions C61_one_member_added.

(** ** Examples *)

Definition ex_pm (name : string) : value := Eval vm_compute in mk "features.Placemark" [("id", str "p"); ("name", str name); ("kml_geometry", mk "geometry.Point" [("kml_coordinates", s_coords [["1"; "2"]])])].
Definition ex_doc (l : list value) : value :=
  mk "containers.Document" [("name", str "d"); ("features", VList [mk "containers.Folder" [("features", VList l)]; ex_pm "last"])].
Definition ex_features (c : string) : item := match find_item "features" (items_of W0 c) with Some it => it | None => root_item end.

Lemma ex_features_in c : find_item "features" (items_of W0 c) <> None -> In (ex_features c) (items_of W0 c).
Proof. unfold ex_features. intro H. destruct (find_item "features" (items_of W0 c)) as [it|] eqn:E; [now apply EmitProofs.find_item_In in E|now destruct H]. Qed.

(** The name of a placemark in a folder of a document is changed. *)
Example C61_edit_example :
  replaced W0 (ex_pm "before") (ex_pm "after") (ex_doc [ex_pm "first"; ex_pm "before"]) (ex_doc [ex_pm "first"; ex_pm "after"]) /\
  (exists ns nss attrs, ex_pm "before" = VObj "features.Placemark" ns nss attrs /\ ex_pm "after" = VObj "features.Placemark" ns nss (sset "name" (str "after") attrs)) /\
  let pm name := ke "Placemark" [("id", "p")] None [te "name" name; ke "Point" [] None [te "coordinates" "1.000000,2.000000"]] in
  let doc name := ke "Document" [] None [te "name" "d"; ke "Folder" [] None [pm "first"; pm name]; pm "last"] in
  etree W0 (Some 6%nat) Normal (ex_doc [ex_pm "first"; ex_pm "before"]) = Ok (doc "before") /\
  etree W0 (Some 6%nat) Normal (ex_doc [ex_pm "first"; ex_pm "after"]) = Ok (doc "after") /\
  instead (pm "before") (pm "after") (doc "before") (doc "after").
Proof.
  split; [|split; [|cbv zeta; split; [|split]]].
  - refine (replaced_member W0 _ _ "containers.Document" _ _ _ (ex_features "containers.Document") [] _ _ [ex_pm "last"] _ _ _ _ _ _).
    + apply ex_features_in. vm_compute. discriminate.
    + vm_compute. reflexivity.
    + vm_compute. reflexivity.
    + vm_compute. reflexivity.
    + vm_compute. reflexivity.
    + refine (replaced_member W0 _ _ "containers.Folder" _ _ _ (ex_features "containers.Folder") [ex_pm "first"] _ _ [] _ _ _ _ _ (replaced_here _ _ _)).
      * apply ex_features_in. vm_compute. discriminate.
      * vm_compute. reflexivity.
      * vm_compute. reflexivity.
      * vm_compute. reflexivity.
      * vm_compute. reflexivity.
  - eexists _, _, _. split; vm_compute; reflexivity.
  - vm_compute. reflexivity.
  - vm_compute. reflexivity.
  - refine (instead_below _ _ _ _ _ [_] _ _ [_] (instead_below _ _ _ _ _ [_] _ _ [] (instead_here _ _))).
Qed.

(** A placemark is put between two others. *)
Example C61_added_example :
  let folder l := mk "containers.Folder" [("features", VList l)] in
  (exists ns nss attrs, folder [ex_pm "a"; ex_pm "c"] = VObj "containers.Folder" ns nss attrs /\
     In (ex_features "containers.Folder") (items_of W0 "containers.Folder") /\ it_set (ex_features "containers.Folder") = SObjs /\
     sget (it_attr (ex_features "containers.Folder")) attrs = Some (VList ([ex_pm "a"] ++ [ex_pm "c"])) /\
     folder [ex_pm "a"; ex_pm "b"; ex_pm "c"] = VObj "containers.Folder" ns nss (sset (it_attr (ex_features "containers.Folder")) (VList ([ex_pm "a"] ++ ex_pm "b" :: [ex_pm "c"])) attrs)) /\
  py_bool W0 (ex_pm "b") = Ok true /\
  exists ka kb kc tag, ka <> kb /\ etree W0 None Normal (ex_pm "b") = Ok kb /\
    etree W0 None Normal (folder [ex_pm "a"; ex_pm "c"]) = Ok (Elem tag [] None ([ka] ++ [kc])) /\
    etree W0 None Normal (folder [ex_pm "a"; ex_pm "b"; ex_pm "c"]) = Ok (Elem tag [] None ([ka] ++ kb :: [kc])).
Proof.
  cbv zeta. split; [|split; [vm_compute; reflexivity|]].
  - eexists _, _, _. split; [vm_compute; reflexivity|]. split; [apply ex_features_in; vm_compute; discriminate|].
    split; [vm_compute; reflexivity|]. split; vm_compute; reflexivity.
  - eexists _, _, _, _. split; [|split; [vm_compute; reflexivity|split; vm_compute; reflexivity]]. vm_compute. discriminate.
Qed.

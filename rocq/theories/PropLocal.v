(** * An element means the same wherever it stands: C67. *)
From Coq Require Import String List NArith ZArith Bool.
From Verif Require Import Ustr UstrProofs Res Elem Value Geom Codec Tables Spec EmitProofs ReadProofs SettledProofs FastkmlOk LocalSpec LocalProofs Samples.
Import ListNotations.
Local Open Scope string_scope.
Local Open Scope list_scope.

(** Take any registry and any element that is read, in either mode.  Every
    object inside the result, at any depth, stands in an element of the document
    that carries the tag of the object's class, and this element, cut out and
    read by itself in the object's own name spaces, gives the same object. *)
Theorem C67_cut :
  forall W strict e c ns nss v, from_element W strict e c ns nss = Ok v ->
  exists attrs, v = VObj c ns (merge_ns nss) attrs /\
  forall a x c' ns' nss' attrs', In (a, x) attrs -> holds x (VObj c' ns' nss' attrs') ->
    nss' = merge_ns nss /\
    exists k, within k e /\ e_tag k = ns' ++ u (tag_of W c') /\
      from_element W strict k c' ns' nss' = Ok (VObj c' ns' nss' attrs').
Proof.
  intros W strict e c ns nss v H. destruct (read_alone W strict e c ns nss v H) as [attrs [-> G]]. exists attrs. split; [reflexivity|].
  intros a x c' ns' nss' attrs' Hx Hh. exact (G a x Hx c' ns' nss' attrs' Hh).
Qed.
Print Assumptions C67_cut.

(** Take an element that is read, and another that by itself is read as an
    object of a class the first one may have among its members.  Pasted among
    the children of the first, at any place, it is read there: the list of
    members has this very object in addition, and no other attribute changes.
    The exceptions are the lists from which the constructor drops empty
    members. *)
Theorem C67_pasted :
  forall arrow strict tag attrib text before k after c ci ns nss attrs it id c' x b, let W := fastkml arrow in let nss' := merge_ns nss in
  class_of W c = Some ci -> forallb (fun kv : string * ustr => good_ns (snd kv)) nss' = true ->
  In it (items_of W c) -> it_get it = GObjs -> hd_error (it_nsids it) = Some id -> In c' (it_classes it) ->
  e_tag k = ns_get nss' id ++ u (tag_of W c') ->
  from_element W strict k c' (ns_get nss' id) nss' = Ok x -> py_bool W x = Ok b ->
  from_element W strict (Elem tag attrib text (before ++ after)) c ns nss = Ok (VObj c ns nss' attrs) ->
  exists attrs' l1 o l2, from_element W strict (Elem tag attrib text (before ++ k :: after)) c ns nss = Ok (VObj c ns nss' attrs') /\
    (forall a, a <> it_attr it -> sget a attrs' = sget a attrs) /\
    sget (it_attr it) attrs = Some (VList (l1 ++ l2)) /\ sget (it_attr it) attrs' = Some (VList (l1 ++ o ++ l2)) /\
    (o = [x] \/ (o = [] /\ b = false)).
Proof. intros arrow strict tag attrib text before k after c ci ns nss attrs it id c' x b W nss'. exact (paste_read W strict tag attrib text before k after c ci ns nss attrs it id c' x b (fastkml_ok arrow)). Qed.
Print Assumptions C67_pasted.

(** ** Examples *)

Definition ex_place (n : string) : elem := ke "Placemark" [("id", n)] None [te "name" n; ke "Point" [] None [te "coordinates" "1,2"]].
Definition ex_placed (n : string) : value :=
  mk "features.Placemark" [("id", str n); ("name", str n); ("kml_geometry", mk "geometry.Point" [("kml_coordinates", s_coords [["1"; "2"]])])].

(** A placemark in a folder in a document, and its point. *)
Example C67_cut_example :
  from_element W0 true (ke "Document" [] None [te "name" "d"; ke "Folder" [] None [ex_place "p"; ex_place "q"]]) "containers.Document" KMLNS nss0 =
    Ok (mk "containers.Document" [("name", str "d"); ("features", VList [mk "containers.Folder" [("features", VList [ex_placed "p"; ex_placed "q"])]])]) /\
  from_element W0 true (ex_place "q") "features.Placemark" KMLNS nss0 = Ok (ex_placed "q") /\
  from_element W0 true (ke "Point" [] None [te "coordinates" "1,2"]) "geometry.Point" KMLNS nss0 = Ok (mk "geometry.Point" [("kml_coordinates", s_coords [["1"; "2"]])]) /\
  holds (mk "containers.Document" [("name", str "d"); ("features", VList [mk "containers.Folder" [("features", VList [ex_placed "p"; ex_placed "q"])]])]) (mk "geometry.Point" [("kml_coordinates", s_coords [["1"; "2"]])]).
Proof.
  split; [vm_compute; reflexivity|]. split; [vm_compute; reflexivity|]. split; [vm_compute; reflexivity|].
  assert (A : forall a x c ns nss attrs y, sget a attrs = Some x -> holds x y -> holds (VObj c ns nss attrs) y) by (intros a x c ns nss attrs y E Hy; exact (holds_attr c ns nss attrs a x y (sget_In _ _ _ E) Hy)).
  eapply (A "features"); [vm_compute; reflexivity|]. eapply holds_member; [left; reflexivity|]. eapply (A "features"); [vm_compute; reflexivity|].
  eapply holds_member; [right; left; reflexivity|]. eapply (A "kml_geometry"); [vm_compute; reflexivity|]. apply holds_self.
Qed.

(** A placemark pasted between the two. *)
Example C67_pasted_example :
  (exists it, In it (items_of W0 "containers.Folder") /\ it_get it = GObjs /\ hd_error (it_nsids it) = Some "kml" /\ In "features.Placemark" (it_classes it)) /\
  e_tag (ex_place "r") = ns_get nss0 "kml" ++ u (tag_of W0 "features.Placemark") /\
  from_element W0 true (ex_place "r") "features.Placemark" KMLNS nss0 = Ok (ex_placed "r") /\ py_bool W0 (ex_placed "r") = Ok true /\
  from_element W0 true (ke "Folder" [] None [ex_place "p"; te "name" "f"; ex_place "q"]) "containers.Folder" KMLNS nss0 =
    Ok (mk "containers.Folder" [("name", str "f"); ("features", VList [ex_placed "p"; ex_placed "q"])]) /\
  from_element W0 true (ke "Folder" [] None [ex_place "p"; te "name" "f"; ex_place "r"; ex_place "q"]) "containers.Folder" KMLNS nss0 =
    Ok (mk "containers.Folder" [("name", str "f"); ("features", VList [ex_placed "p"; ex_placed "r"; ex_placed "q"])]).
Proof.
  split; [|split; [vm_compute; reflexivity|split; [vm_compute; reflexivity|split; [vm_compute; reflexivity|split; vm_compute; reflexivity]]]].
  assert (E : existsb (fun it => match it_get it with GObjs => true | _ => false end && match hd_error (it_nsids it) with Some i => String.eqb i "kml" | None => false end && existsb (String.eqb "features.Placemark") (it_classes it)) (items_of W0 "containers.Folder") = true) by (vm_compute; reflexivity).
  apply existsb_exists in E as [it [Hi E]]. exists it. apply andb_prop in E as [E E3]. apply andb_prop in E as [E1 E2]. split; [exact Hi|]. split; [now destruct (it_get it)|].
  split; [destruct (hd_error (it_nsids it)); [apply String.eqb_eq in E2; now subst|discriminate]|]. apply existsb_exists in E3 as [q [Hq Eq]]. apply String.eqb_eq in Eq. now subst q.
Qed.

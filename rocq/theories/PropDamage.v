(** * Damage to one element costs at most what is read from it: C63. *)
From Coq Require Import String List NArith ZArith Bool.
From Verif Require Import Ustr UstrProofs Res Elem Value Geom Codec Tables Spec FastkmlOk DamageSpec DamageProofs DamageTracks Samples.
Import ListNotations.
Local Open Scope string_scope.
Local Open Scope list_scope.

(** Take two documents that differ in one element only, anywhere in the tree:
    its text, its attributes and everything in it may be anything.  If both are
    read, the objects differ at most in what is read from that element: going
    down from the root every attribute is the same, except the ones whose
    registration looks for the tag of the next element on the way. *)
Theorem C63_one_element :
  forall arrow strict path e e' c ns nss v v', let W := fastkml arrow in
  damaged path e e' ->
  from_element W strict e c ns nss = Ok v -> from_element W strict e' c ns nss = Ok v' ->
  differs W path v v'.
Proof. intros arrow strict path e e' c ns nss v v' W H. exact (damage_contained W strict path e e' (fastkml_ok arrow) H c ns nss v v'). Qed.
Print Assumptions C63_one_element.

(** Only one registration of a class looks for a tag, whatever well-formed name
    spaces are in use: one attribute of each object on the way, or the items of
    a track. *)
Theorem C63_one_registration :
  forall arrow c ci nss tag it it', let W := fastkml arrow in
  class_of W c = Some ci -> forallb (fun kv : string * ustr => good_ns (snd kv)) nss = true ->
  In it (items_of W c) -> In it' (items_of W c) ->
  In tag (tags_for W nss it) -> In tag (tags_for W nss it') -> it = it'.
Proof. intros arrow c ci nss tag it it' W. exact (one_registration W c ci nss tag it it' (fastkml_ok arrow)). Qed.
Print Assumptions C63_one_registration.

(** One XML attribute of an element is changed, added or removed: only the
    attributes of the object whose registration looks for it differ. *)
Theorem C63_one_attribute :
  forall arrow strict key tag a a' text kids c ns nss v v', let W := fastkml arrow in
  (forall k, k <> key -> uget k a = uget k a') ->
  from_element W strict (Elem tag a text kids) c ns nss = Ok v -> from_element W strict (Elem tag a' text kids) c ns nss = Ok v' ->
  exists attrs attrs', v = VObj c ns (merge_ns nss) attrs /\ v' = VObj c ns (merge_ns nss) attrs' /\
    forall b, (forall it, In it (items_of W c) -> stored_in it b -> ~ In key (keys_for (merge_ns nss) it)) -> sget b attrs = sget b attrs'.
Proof. intros arrow strict key tag a a' text kids c ns nss v v' W. exact (attribute_contained W strict key tag a a' text kids c ns nss v v' (fastkml_ok arrow)). Qed.
Print Assumptions C63_one_attribute.

(** The times, positions and angles of a track are one attribute of the object,
    its items.  If one of them is damaged, the items read from the readable ones
    of its kind before it are the same. *)
Theorem C63_tracks :
  forall arrow strict t a tx bf x x' af ns nss v v' it, let W := fastkml arrow in
  forallb (fun kv : string * ustr => good_ns (snd kv)) (merge_ns nss) = true ->
  e_tag x = e_tag x' ->
  In it (items_of W "gx.Track") -> In (it_attr it) ["whens"; "coords"; "angles"] -> In (e_tag x) (tags_for W (merge_ns nss) it) ->
  from_element W strict (Elem t a tx (bf ++ x :: af)) "gx.Track" ns nss = Ok v ->
  from_element W strict (Elem t a tx (bf ++ x' :: af)) "gx.Track" ns nss = Ok v' ->
  exists attrs attrs' l l', v = VObj "gx.Track" ns (merge_ns nss) attrs /\ v' = VObj "gx.Track" ns (merge_ns nss) attrs' /\
    sget "track_items" attrs = Some (VItems l) /\ sget "track_items" attrs' = Some (VItems l') /\
    let j := length (filter (fun k => ueqb (e_tag k) (e_tag x) && told W it k) bf) in firstn j l = firstn j l'.
Proof.
  intros arrow strict t a tx bf x x' af ns nss v v' it W Hn Hx Hi Ha Ht H H'. assert (HW := fastkml_ok arrow : world_ok W = true).
  assert (Hc : class_of W "gx.Track" = Some cl_gx_Track) by reflexivity. assert (Htr : is_track cl_gx_Track = true) by reflexivity.
  destruct (track_read _ _ _ _ _ _ _ _ HW Hc Htr H) as [at1 [l [-> El]]]. destruct (track_read _ _ _ _ _ _ _ _ HW Hc Htr H') as [at2 [l' [-> El']]].
  exists at1, at2, l, l'. do 4 (split; [auto|]). intro j.
  assert (G : it_get it = GDates \/ it_get it = GCoordList).
  { assert (Q : forallb (fun i => match it_get i with GDates | GCoordList => true | _ => negb (existsb (String.eqb (it_attr i)) ["whens"; "coords"; "angles"]) end) (items_of W "gx.Track") = true) by (vm_compute; reflexivity).
    rewrite forallb_forall in Q. specialize (Q it Hi). assert (M : existsb (String.eqb (it_attr it)) ["whens"; "coords"; "angles"] = true) by (apply existsb_exists; exists (it_attr it); split; [exact Ha|apply String.eqb_refl]).
    rewrite M in Q. destruct (it_get it); auto; discriminate Q. }
  refine (track_begins W strict t a tx bf x x' af _ _ ns nss at1 at2 it l l' HW Hc Htr Hx Hi G Ht _ H H' El El').
  intros it' Hi' Ht'. exact (one_registration W _ _ _ _ _ _ HW Hc Hn Hi' Hi Ht' Ht).
Qed.
Print Assumptions C63_tracks.

(** ** Examples *)

(** The second of three times of a track is not a time: the first item is as
    before, although all later ones are not. *)
Example C63_tracks_example :
  let e w := gxe "Track" [] None [te "when" "2001"; gxe "coord" [] (Some "1 2 3") []; w; gxe "coord" [] (Some "4 5 6") []; te "when" "2003"; gxe "coord" [] (Some "7 8 9") []] in
  let zero := Some (pt ["0"; "0"; "0"]) in
  (exists it, In it (items_of W0 "gx.Track") /\ it_attr it = "whens" /\ In (KMLNS ++ u "when") (tags_for W0 (merge_ns []) it) /\ told W0 it (te "when" "2001") = true) /\
  from_element W0 false (e (te "when" "2002")) "gx.Track" KMLNS [] =
    Ok (VObj "gx.Track" KMLNS (merge_ns []) (obj_attrs (mk "gx.Track" [("track_items", VItems [mkItem (when "2001") (pt ["1"; "2"; "3"]) zero; mkItem (when "2002") (pt ["4"; "5"; "6"]) zero; mkItem (when "2003") (pt ["7"; "8"; "9"]) zero])]))) /\
  from_element W0 false (e (te "when" "soon")) "gx.Track" KMLNS [] =
    Ok (VObj "gx.Track" KMLNS (merge_ns []) (obj_attrs (mk "gx.Track" [("track_items", VItems [mkItem (when "2001") (pt ["1"; "2"; "3"]) zero; mkItem (when "2003") (pt ["4"; "5"; "6"]) zero; mkItem None (pt ["7"; "8"; "9"]) zero])]))).
Proof.
  cbv zeta. split; [|split; vm_compute; reflexivity]. exists (nth 1 rg_gx_Track root_item). split; [apply in_or_app; right; cbn; tauto|]. split; [reflexivity|]. split; [vm_compute; tauto|vm_compute; reflexivity].
Qed.

Definition ex_tree (range : elem) : elem :=
  ke "Document" [] None
    [te "name" "d";
     ke "Folder" [] None [ke "Placemark" [] None [te "name" "p"; ke "LookAt" [] None [te "heading" "10"; range; te "tilt" "45"]; ke "Point" [] None [te "coordinates" "1,2"]];
                          ke "Placemark" [] None [te "name" "q"]]].

Definition ex_obj (range : list (string * value)) : value :=
  let pm l := mk "features.Placemark" l in
  mk "containers.Document" [("name", str "d"); ("features", VList
    [mk "containers.Folder" [("features", VList
       [pm [("name", str "p"); ("view", mk "views.LookAt" (("heading", fl "10") :: range ++ [("tilt", fl "45")]));
            ("kml_geometry", mk "geometry.Point" [("kml_coordinates", s_coords [["1"; "2"]])])];
        pm [("name", str "q")]])]])].

(** The range of a view of a placemark in a folder is not a number: without
    validation the rest of the document is read as before. *)
Example C63_example :
  damaged [u "{http://www.opengis.net/kml/2.2}Folder"; u "{http://www.opengis.net/kml/2.2}Placemark"; u "{http://www.opengis.net/kml/2.2}LookAt"; u "{http://www.opengis.net/kml/2.2}range"]
    (ex_tree (te "range" "300")) (ex_tree (ke "range" [("unit", "m")] (Some "300 m") [te "b" "?"])) /\
  from_element W0 false (ex_tree (te "range" "300")) "containers.Document" KMLNS nss0 = Ok (ex_obj [("range", fl "300")]) /\
  from_element W0 false (ex_tree (ke "range" [("unit", "m")] (Some "300 m") [te "b" "?"])) "containers.Document" KMLNS nss0 = Ok (ex_obj []).
Proof.
  split; [|split].
  - unfold ex_tree.
    refine (damaged_below _ _ _ [_] (ke "Folder" [] None _) _ [] _ (damaged_below _ _ _ [] (ke "Placemark" [] None _) _ [_] _ (damaged_below _ _ _ [_] (ke "LookAt" [] None _) _ [_] _ (damaged_below _ _ _ [_] (te "range" "300") _ [_] _ (damaged_here _ _ _))))).
    reflexivity.
  - vm_compute. reflexivity.
  - vm_compute. reflexivity.
Qed.

(** Another identifier: the name space map is well formed, one registration of a
    placemark looks for the tag [name], one for the attribute [id], and only the
    attribute [id] of the object differs. *)
Example C63_attribute_example :
  forallb (fun kv : string * ustr => good_ns (snd kv)) nss0 = true /\
  length (filter (fun it => existsb (ueqb (KMLNS ++ u "name")) (tags_for W0 nss0 it)) (items_of W0 "features.Placemark")) = 1 /\
  length (filter (fun it => existsb (ueqb (u "id")) (keys_for nss0 it)) (items_of W0 "features.Placemark")) = 1 /\
  from_element W0 true (ke "Placemark" [("id", "a"); ("targetId", "t")] None [te "name" "p"]) "features.Placemark" KMLNS nss0 =
    Ok (mk "features.Placemark" [("id", str "a"); ("target_id", str "t"); ("name", str "p")]) /\
  from_element W0 true (ke "Placemark" [("id", "b"); ("targetId", "t")] None [te "name" "p"]) "features.Placemark" KMLNS nss0 =
    Ok (mk "features.Placemark" [("id", str "b"); ("target_id", str "t"); ("name", str "p")]).
Proof.
  split; [vm_compute; reflexivity|]. split; [vm_compute; reflexivity|]. split; [vm_compute; reflexivity|]. split; vm_compute; reflexivity.
Qed.

(** * The values of a document are found under their names: C57. *)
From Coq Require Import String List NArith ZArith Bool Arith Lia.
From Verif Require Import Ustr UstrProofs Res PyInt PyFloat PyDate Elem Value Geom Codec Tables Spec FastkmlOk ItemProofs RoundTrip NsProofs StrictProofs EmitProofs
  Schema SchemaTables SchemaSpec SchemaCheck SlotProofs SchemaProofs Lexical SchemaRead SchemaReadProofs PropSchemaRead AbsentProofs CoordSpec Samples Found FoundProofs Settled PropRoundTrip PropSchema.
Import ListNotations.
Local Open Scope string_scope.
Local Open Scope list_scope.

(** Full statement (C57): every text, attribute and element of a document that
    is valid against the bundled schema and that the strict reader accepts is
    found in the object it gives, under the attribute that is named after it.

    That is false for what the library has no attribute for; see the
    refutations.  It holds for all the rest: [found] lists what is lost
    ([lost], [lost_attribute], [left_out]), and leaves out what wild cards of
    the schema let in and, for [gx:Track], the parts of the items (C24). *)

Lemma fastkml_keep_ok arrow : keep_ok (fastkml arrow) = true.
Proof. vm_compute. reflexivity. Qed.

Lemma found_in W c ns nss e v : world_ok W = true -> read_ok W = true -> keep_ok W = true ->
  schema_nss (merge_ns nss) = true -> ns_get (merge_ns nss) "" = [] ->
  e_tag e = clark schema_uris (class_sname W c) -> schema_valid e ->
  from_string W true c ns nss e = Ok v ->
  exists ty, class_type W c = Some ty /\ found W (class_sname W c) ty e v.
Proof.
  intros HW HR HK M N Et [ty [L V]] H. rewrite Et in L. exists ty. split; [exact L|].
  assert (T : type_of W c = Some ty) by now rewrite type_of_eq. destruct (class_of W c) as [ci|] eqn:Hc; [|unfold type_of, class_sname in T; rewrite Hc, unknown_type in T; discriminate].
  assert (RO := HR). unfold read_ok in RO. rewrite !andb_true_iff in RO. destruct RO as [[_ RO] _]. rewrite forallb_forall in RO. specialize (RO _ (sget_In _ _ _ Hc)). cbn [fst] in RO. rewrite T in RO.
  assert (KO := HK). unfold keep_ok in KO. apply andb_prop in KO as [KO _]. rewrite forallb_forall in KO. specialize (KO _ (sget_In _ _ _ Hc)). cbn [fst] in KO. rewrite T in KO.
  exact (found_all W HW HR HK (merge_ns nss) M N (merge_ns_idem nss) e c ty _ v Et RO KO V H).
Qed.

Theorem C57_values_found_partial :
  forall arrow c ns nss e v, let W := fastkml arrow in
  schema_nss (merge_ns nss) = true -> ns_get (merge_ns nss) "" = [] ->
  e_tag e = clark schema_uris (class_sname W c) -> schema_valid e ->
  from_string W true c ns nss e = Ok v ->
  exists ty, class_type W c = Some ty /\ found W (class_sname W c) ty e v.
Proof. intros arrow c ns nss e v W. exact (found_in W c ns nss e v (fastkml_ok arrow) (fastkml_read_ok arrow) (fastkml_keep_ok arrow)). Qed.
Print Assumptions C57_values_found_partial.

(** With C50: documents that meet the demands of the library are read, and
    everything in them is found. *)
Theorem C57_documents_found_partial :
  forall arrow c ns nss e, let W := fastkml arrow in
  schema_nss (merge_ns nss) = true -> ns_get (merge_ns nss) "" = [] ->
  e_tag e = clark schema_uris (class_sname W c) ->
  schema_valid e -> Forall (fun p => readable_value arrow (fst p) (snd p)) (document_texts e) -> everywhere readable_element e ->
  exists v ty, from_string W true c ns nss e = Ok v /\ from_string W false c ns nss e = Ok v /\ class_type W c = Some ty /\ found W (class_sname W c) ty e v.
Proof.
  intros arrow c ns nss e W M N Et V F R. destruct (C50_valid_documents_read_partial arrow c ns nss e M N Et V F R) as [v [H1 H2]].
  destruct (C57_values_found_partial arrow c ns nss e v M N Et V H1) as [ty [T Fd]]. exists v, ty. auto.
Qed.
Print Assumptions C57_documents_found_partial.

(** With C01 and C48: what is written for an object can be looked up in the
    object under these names.  For all objects of C01 that are settled and whose
    documents C48 shows to be valid. *)
Lemma root_tag arrow m c ns nss attrs e : let W := fastkml arrow in let v := VObj c ns nss attrs in
  schema_nss m = true -> regular W m v = true -> in_schema W v = true -> etree W None Normal v = Ok e -> e_tag e = clark schema_uris (class_sname W c).
Proof.
  intros W v M R I He. unfold regular, in_schema in *. cbn [vall] in R, I. apply andb_prop in R as [R _], I as [I _]. apply andb_prop in R as [R _]. apply ueqb_eq in R. subst ns.
  destruct (class_type W c) as [ty|] eqn:T; [|discriminate I]. destruct (fits_global' W (fastkml_schema_ok arrow) c ty T) as [_ Kn].
  assert (KN : clark schema_uris (class_sname W c) = default_ns W c m ++ u (tag_of W c)).
  { unfold class_sname, default_ns, tag_of. unfold nsid in Kn. destruct (class_of W c) as [ci|]; [|discriminate Kn].
    rewrite <- (tag_id m) by assumption. reflexivity. }
  rewrite KN. clear KN. unfold v in He. rewrite etree_obj in He. unfold write_with in He. unfold tag_of. destruct (class_of W c) as [ci|] eqn:E; [|unfold nsid in Kn; rewrite E in Kn; discriminate].
  destruct (ci_root ci).
  - rewrite set_element_emit in He. apply bind_ok in He as [x [_ He]]. injection He as <-. unfold root_elem. now destruct (uempty _).
  - rewrite set_elements_emit in He. apply bind_ok in He as [ms [_ He]]. injection He as <-. now rewrite fold_tag.
Qed.
Theorem C57_written_found_partial :
  forall arrow nss c ns nss' attrs e, let W := fastkml arrow in let v := VObj c ns nss' attrs in
  map_ok (merge_ns nss) = true -> schema_nss (merge_ns nss) = true ->
  typed W v = true -> regular W (merge_ns nss) v = true -> readable W v = true -> settled W v = true ->
  in_schema W v = true -> timed v = true -> orderly W Normal v = true ->
  etree W None Normal v = Ok e ->
  exists ty, class_type W c = Some ty /\ found W (class_sname W c) ty e v.
Proof.
  intros arrow nss c ns nss' attrs e W v Mo Ms T R Rd S I Ti O He.
  assert (N : ns_get (merge_ns nss) "" = []).
  { unfold map_ok in Mo. apply andb_prop in Mo as [_ Mo]. apply negb_true_iff in Mo. unfold ns_get. destruct (sget "" (merge_ns nss)) as [x|] eqn:E; [|reflexivity].
    apply sget_In in E. apply (in_map fst) in E. apply mem_In in E. cbn [fst] in E. congruence. }
  apply (C57_values_found_partial arrow c None nss e v Ms N).
  - exact (root_tag arrow (merge_ns nss) c ns nss' attrs e Ms R I He).
  - exact (C48_structure_valid_partial arrow None Normal (merge_ns nss) v e Ms T R I Ti O He).
  - exact (C01_write_read_identity arrow true nss c ns nss' attrs e Mo T R Rd S He).
Qed.
Print Assumptions C57_written_found_partial.
Definition s_written : value := Eval vm_compute in
  mk "features.Placemark" [("id", str "p"); ("name", str "A & B"); ("visibility", VBool false); ("kml_geometry", s_point ["-2"; "7"; "0.5"]);
    ("view", mk "views.LookAt" [("longitude", fl "1.5"); ("heading", fl "-20")])].
Example C57_written_example : exists e, map_ok nss0 = true /\ schema_nss nss0 = true /\ typed W0 s_written = true /\ regular W0 nss0 s_written = true /\ readable W0 s_written = true /\ settled W0 s_written = true /\
  in_schema W0 s_written = true /\ timed s_written = true /\ orderly W0 Normal s_written = true /\ etree W0 None Normal s_written = Ok e.
Proof. eexists. repeat split; vm_compute; reflexivity. Qed.

(** Conversely nothing else sets an attribute: if it is set, the element has a
    text, an XML attribute or a child of its name (the items of a track aside,
    which have parts of three names). *)
Lemma fastkml_sources_ok arrow : sources_ok (fastkml arrow) = true.
Proof. vm_compute. reflexivity. Qed.
Theorem C57_named_sources :
  forall arrow strict e c ty ns nss v, let W := fastkml arrow in
  class_type W c = Some ty -> from_element W strict e c ns nss = Ok v ->
  exists attrs, v = VObj c ns (merge_ns nss) attrs /\
  forall a x, sget a attrs = Some x -> empty_value x = false -> a <> "track_items" -> named_source (merge_ns nss) (class_sname W c) a e.
Proof.
  intros arrow strict e c ty ns nss v W T H. destruct (named_sources W strict e c ty ns nss v (fastkml_ok arrow) (fastkml_sources_ok arrow) T H) as [attrs [E N]].
  exists attrs. split; [exact E|]. intros a x Hx Ex Na. exact (N a x Hx Ex (fun _ _ _ => Na)).
Qed.
Print Assumptions C57_named_sources.

Example C57_named_sources_example : exists v, from_element W0 true (K "LatLonBox" [] [T "north" "1"]) "overlays.LatLonBox" KMLNS [] = Ok v /\
  exists attrs, v = VObj "overlays.LatLonBox" KMLNS (merge_ns []) attrs /\ empty_value (stored attrs "north") = false /\ empty_value (stored attrs "south") = true.
Proof. eexists. split; [vm_compute; reflexivity|]. eexists. split; [reflexivity|]. split; vm_compute; reflexivity. Qed.

(** A document that meets the hypotheses, and what the conclusion says of it. *)
Example C57_example : exists v ty, from_string W0 true "kml.KML" None [] ex_features = Ok v /\ from_string W0 false "kml.KML" None [] ex_features = Ok v /\
  class_type W0 "kml.KML" = Some ty /\ found W0 (class_sname W0 "kml.KML") ty ex_features v.
Proof.
  apply C57_documents_found_partial; [vm_compute; reflexivity|reflexivity|vm_compute; reflexivity|document_valid|exact C50_example_texts|exact C50_example_elements].
Qed.

Example C57_example_names :
  map (attribute_for ("kml", "LatLonBox")) (kml ["north"; "south"; "east"; "west"; "rotation"]) = ["north"; "south"; "east"; "west"; "rotation"] /\
  map (attribute_for ("kml", "Lod")) (kml ["minLodPixels"; "maxFadeExtent"]) = ["min_lod_pixels"; "max_fade_extent"] /\
  attribute_for ("kml", "Placemark") ("kml", "Point") = "kml_geometry" /\ attribute_for ("kml", "Placemark") ("", "targetId") = "target_id".
Proof. vm_compute. repeat split. Qed.

(** [found] distinguishes: the same box with north and south exchanged. *)
Definition number (s : string) : value := match float_of_str (u s) with Ok f => VFloat f | Err _ => VNone end.
Definition box (n s : string) : value := VObj "overlays.LatLonBox" [] [] [("north", number n); ("south", number s)].
Lemma found_number W p ty t a x k ks c ns nss attrs d n ty' at_ f : decl_for ty = Some d -> existsb (fun y => sname_eqb y n) (names (d_content d)) = true -> e_tag k = clark schema_uris n ->
  kid_type schema_uris schema_elements d (e_tag k) = Some ty' -> lost p n = false -> paired_child p n = false -> left_out p n (map e_tag (k :: ks)) [] = false ->
  attribute_for p n = at_ -> filtered p = false -> stored attrs at_ = VFloat f -> blank (e_text k) = false ->
  found W p ty (Elem t a x (k :: ks)) (VObj c ns nss attrs) -> float_of_str (the_text (e_text k)) = Ok f.
Proof.
  intros D I E K L P Lo At Fi St B H. cbn [found] in H. rewrite D in H. destruct H as (_ & _ & H & _). apply existsb_exists in I as [y [I Y]]. apply sname_eqb_eq in Y. subst y.
  destruct (H n ty' I E K L P Lo) as [(d' & st & _ & _ & _ & [Q|Q])|(w & Fw & [[Q|(l & Q & _)]|[Q _]])].
  - congruence.
  - rewrite At, St in Q. exact Q.
  - rewrite At, St in Q. subst w. destruct k. contradiction.
  - rewrite At, St in Q. discriminate.
  - congruence.
Qed.
Example C57_exchanged : class_type W0 "overlays.LatLonBox" = Some "ty_kml_LatLonBoxType" /\
  ~ found W0 ("kml", "LatLonBox") "ty_kml_LatLonBoxType" (K "LatLonBox" [] [T "north" "2"; T "south" "1"]) (box "1" "2").
Proof.
  split; [vm_compute; reflexivity|]. intro H.
  assert (F : exists f, number "1" = VFloat f /\ float_of_str (u "2") <> Ok f) by (eexists; split; [vm_compute; reflexivity|vm_compute; discriminate]). destruct F as [f [F1 F2]]. apply F2.
  apply (found_number _ _ _ _ _ _ _ _ _ _ _ _ ty_kml_LatLonBoxType ("kml", "north") "ty_kml_angle180Type" "north" f) in H; try (vm_compute; reflexivity); [exact H|exact F1].
Qed.

(** ** What is lost *)

(** Both documents are valid, and they are read as the same object. *)
Definition ignored (c : string) (e e' : elem) : Prop :=
  schema_valid e /\ schema_valid e' /\ e <> e' /\ e_tag e = clark schema_uris (class_sname W0 c) /\
  forall arrow, is_ok (from_string (fastkml arrow) true c None [] e) = true /\ from_string (fastkml arrow) true c None [] e = from_string (fastkml arrow) true c None [] e'.
Ltac ignored := split; [document_valid|split; [document_valid|split; [discriminate|split; [vm_compute; reflexivity|intro arrow; split; vm_compute; reflexivity]]]].

Definition GX (n : string) (ks : list elem) : elem := Elem (name "gx" n) [] None ks.
Definition A (n t : string) : elem := Elem (name "atom" n) [] (Some (u t)) [].

Theorem C57_screen_overlay_refuted : exists e e', e = K "kml" [] [K "ScreenOverlay" [] [T "name" "Logo"]] /\ e' = K "kml" [] [] /\ ignored "kml.KML" e e'.
Proof. eexists. eexists. split; [reflexivity|]. split; [reflexivity|]. ignored. Qed.
Theorem C57_track_in_multi_geometry_refuted : exists e e', e = K "MultiGeometry" [] [GX "Track" [T "when" "2010"; G "coord" "1 2"]] /\ e' = K "MultiGeometry" [] [] /\ ignored "geometry.MultiGeometry" e e'.
Proof. eexists. eexists. split; [reflexivity|]. split; [reflexivity|]. ignored. Qed.
Theorem C57_list_style_refuted : exists e e', e = K "Style" [] [K "ListStyle" [] [T "listItemType" "checkHideChildren"]] /\ e' = K "Style" [] [] /\ ignored "styles.Style" e e'.
Proof. eexists. eexists. split; [reflexivity|]. split; [reflexivity|]. ignored. Qed.
Theorem C57_pair_refuted : exists e e', e = K "Pair" [] [T "key" "normal"; T "styleUrl" "#a"; K "Style" [] [K "LineStyle" [] [T "width" "2"]]] /\
  e' = K "Pair" [] [T "key" "normal"; T "styleUrl" "#a"] /\ ignored "styles.Pair" e e'.
Proof. eexists. eexists. split; [reflexivity|]. split; [reflexivity|]. ignored. Qed.
Theorem C57_tour_refuted : exists e e', e = K "Document" [] [GX "Tour" []] /\ e' = K "Document" [] [] /\ ignored "containers.Document" e e'.
Proof. eexists. eexists. split; [reflexivity|]. split; [reflexivity|]. ignored. Qed.
Theorem C57_update_refuted : exists e e', e = K "NetworkLinkControl" [] [K "Update" [] [T "targetHref" "x.kml"; K "Delete" [] [K "Placemark" [(u "targetId", u "p1")] []]]] /\ e' = K "NetworkLinkControl" [] [] /\ ignored "network_link_control.NetworkLinkControl" e e'.
Proof. eexists. eexists. split; [reflexivity|]. split; [reflexivity|]. ignored. Qed.
Theorem C57_track_extrude_refuted : exists e e', e = GX "Track" [T "extrude" "1"; T "when" "2010"; G "coord" "1 2"] /\ e' = GX "Track" [T "when" "2010"; G "coord" "1 2"] /\ ignored "gx.Track" e e'.
Proof. eexists. eexists. split; [reflexivity|]. split; [reflexivity|]. ignored. Qed.
Theorem C57_box_id_refuted : exists e e', e = K "LatLonBox" [(u "id", u "b1")] [T "north" "1"] /\ e' = K "LatLonBox" [] [T "north" "1"] /\ ignored "overlays.LatLonBox" e e'.
Proof. eexists. eexists. split; [reflexivity|]. split; [reflexivity|]. ignored. Qed.
Theorem C57_authors_refuted : exists e e', e = Elem (name "atom" "author") [] None [A "name" "J"; A "name" "K"] /\ e' = Elem (name "atom" "author") [] None [A "name" "J"] /\ ignored "atom.Author" e e'.
Proof. eexists. eexists. split; [reflexivity|]. split; [reflexivity|]. ignored. Qed.
Print Assumptions C57_screen_overlay_refuted.
Print Assumptions C57_track_in_multi_geometry_refuted.
Print Assumptions C57_list_style_refuted.
Print Assumptions C57_pair_refuted.
Print Assumptions C57_tour_refuted.
Print Assumptions C57_update_refuted.
Print Assumptions C57_track_extrude_refuted.
Print Assumptions C57_box_id_refuted.
Print Assumptions C57_authors_refuted.

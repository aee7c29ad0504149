(** * Written documents and the bundled XML schema: C48. *)
From Coq Require Import String List NArith ZArith Bool.
From Verif Require Import Ustr UstrProofs Res PyInt PyFloat PyDate Elem Value Geom Codec Tables Spec Settled FastkmlOk RoundTrip
  Schema SchemaTables SchemaSpec SlotProofs SchemaProofs SchemaCheck Samples.
Import ListNotations.
Local Open Scope string_scope.

(** Full statement (C48): what the library writes for a well-typed document has
    the structure that the bundled schema kml22gx.xsd prescribes: every element
    is declared, its children come in the order and the number its type allows,
    its attributes are declared, the required ones are there and only elements
    with simple content have text.

    That fails where the library leaves order and presence to the user, or
    writes in another order than the schema: see the refutations.  It holds for
    all documents outside these cases ([orderly]).  Missing: the values of
    texts and attributes (lexical forms of the simple types). *)

Lemma fastkml_schema_ok arrow : schema_ok (fastkml arrow) = true.
Proof. vm_compute. reflexivity. Qed.

Theorem C48_structure_valid_partial :
  forall arrow prec vb nss v e, let W := fastkml arrow in
  schema_nss nss = true -> typed W v = true -> regular W nss v = true -> in_schema W v = true -> timed v = true -> orderly W vb v = true ->
  etree W prec vb v = Ok e -> schema_valid e.
Proof.
  intros arrow prec vb nss v e W M T R I Ti O He.
  exact (document_valid W (fastkml_ok arrow) (fastkml_schema_ok arrow) prec vb nss M v T R I Ti O e He).
Qed.
Print Assumptions C48_structure_valid_partial.

Lemma sset_other {A} k k' (x : A) l : k <> k' -> sget k (sset k' x l) = sget k l.
Proof.
  intro H. assert (Q : String.eqb k k' = false) by now apply String.eqb_neq. induction l as [|[a y] l IH]; cbn [sset sget]; [now rewrite Q|].
  destruct (String.eqb k' a) eqn:E; cbn [sget]; [apply String.eqb_eq in E; subst; now rewrite Q|]. now rewrite IH.
Qed.

(** The built-in map and every map that merely adds to it are such maps. *)
Theorem C48_built_in_names : forall nss,
  Forall (fun p => mem (fst p) ["kml"; "gx"; "atom"] = false) nss -> schema_nss (merge_ns nss) = true.
Proof.
  intros nss H. unfold schema_nss. apply forallb_forall. intros id Hid.
  assert (E : ns_get (merge_ns nss) id = ns_get (merge_ns []) id).
  { unfold merge_ns, smerge. assert (G : forall b, (forall p, In p nss -> fst p <> id) -> sget id (fold_left (fun acc p => sset (fst p) (snd p) acc) nss b) = sget id b).
    { clear. induction nss as [|p nss IH]; intros b Hb; [reflexivity|]. cbn [fold_left]. rewrite IH by (intros; apply Hb; now right). apply sset_other. intro Q. exact (Hb p (or_introl eq_refl) (eq_sym Q)). }
    unfold ns_get. cbn [fold_left]. rewrite G; [reflexivity|]. intros p Hp Q. rewrite Forall_forall in H. specialize (H p Hp). rewrite Q in H. cbn in Hid. now destruct Hid as [<-|[<-|[<-|[]]]]. }
  rewrite E. cbn in Hid. destruct Hid as [<-|[<-|[<-|[]]]]; vm_compute; reflexivity.
Qed.
Print Assumptions C48_built_in_names.

(** ** A document that meets the hypotheses *)

Definition s_orderly : value := Eval vm_compute in
  mk "kml.KML" [("features", VList [
    mk "containers.Document" [("id", str "doc"); ("name", str "A document");
      ("styles", VList [s_style; s_stylemap]);
      ("features", VList [
        mk "containers.Folder" [("name", str "inner"); ("features", VList [
          mk "features.Placemark" [("name", str "P & <Q>"); ("kml_geometry", s_point ["-2"; "7"; "0.5"]);
            ("atom_author", mk "atom.Author" [("name", str "A. Author")]); ("atom_link", mk "atom.Link" [("href", str "http://example.com/")]);
            ("times", mk "times.TimeSpan" [("begin", date "2000-01-01")]);
            ("extended_data", mk "data.ExtendedData" [("elements", VList [
               mk "data.Data" [("name", str "n"); ("value", str "v")];
               mk "data.SchemaData" [("schema_url", str "#s"); ("data", VList [mk "data.SimpleData" [("name", str "a"); ("value", str "b")]])]])])];
          mk "features.Placemark" [("kml_geometry", s_track)];
          mk "features.NetworkLink" [("link", mk "links.Link" [("href", str "http://example.com/x.kml")])]])];
        mk "features.Placemark" [("style_url", mk "styles.StyleUrl" [("url", str "#st")]); ("kml_geometry", s_polygon)]])]])].

(** Everything but [orderly]. *)
Definition tame (v : value) : bool := typed W0 v && regular W0 nss0 v && in_schema W0 v && timed v.

Example C48_example : schema_nss nss0 = true /\ tame s_orderly = true /\ orderly W0 Normal s_orderly = true /\
  match etree W0 None Normal s_orderly with Ok e => negb (nilb (e_kids e)) | Err _ => false end = true.
Proof. vm_compute. repeat split. Qed.
Example C48_example_valid : forall e, etree W0 None Normal s_orderly = Ok e -> schema_valid e.
Proof.
  intros e H. refine (C48_structure_valid_partial (fun _ => None) None Normal nss0 s_orderly e _ _ _ _ _ _ H); vm_compute; reflexivity.
Qed.

(** ** Where it fails *)

(** The document is well typed, in regular name spaces and made of elements the
    schema knows; it can be written, and what is written is not valid. *)
Definition written_invalid (vb : verbosity) (v : value) : Prop :=
  exists nss e, schema_nss nss = true /\ typed W0 v = true /\ regular W0 nss v = true /\ in_schema W0 v = true /\
  etree W0 None vb v = Ok e /\ ~ schema_valid e.

Lemma refute vb v e : tame v = true -> etree W0 None vb v = Ok e -> check_document schema_uris schema_types schema_elements e = false -> written_invalid vb v.
Proof.
  intros H E C. unfold tame in H. rewrite !andb_true_iff in H. destruct H as [[[H1 H2] H3] _]. exists nss0, e. repeat split; auto.
  intro V. apply check_document_sound in V. unfold schema_valid in V. rewrite C in V. discriminate.
Qed.

(** containers.py registers [schemata] after [features]: a document with both is written in the wrong order. *)
Definition r_document_order : value := Eval vm_compute in
  mk "containers.Document" [("features", VList [mk "features.Placemark" [("name", str "p")]]); ("schemata", VList [mk "data.Schema" [("id", str "s")]])].
Definition e_document_order : elem := Eval vm_compute in match etree W0 None Normal r_document_order with Ok e => e | Err _ => new_elem [] end.
Theorem C48_document_order_refuted : exists v, timed v = true /\ written_invalid Normal v.
Proof. exists r_document_order. split; [vm_compute; reflexivity|]. refine (refute Normal r_document_order e_document_order _ _ _); vm_compute; reflexivity. Qed.
Print Assumptions C48_document_order_refuted.

(** The schema allows one feature below kml, [KML.append] any number. *)
Definition r_two_features : value := Eval vm_compute in
  mk "kml.KML" [("features", VList [mk "features.Placemark" [("name", str "p")]; mk "features.Placemark" [("name", str "q")]])].
Definition e_two_features : elem := Eval vm_compute in match etree W0 None Normal r_two_features with Ok e => e | Err _ => new_elem [] end.
Theorem C48_two_features_refuted : exists v, timed v = true /\ written_invalid Normal v.
Proof. exists r_two_features. split; [vm_compute; reflexivity|]. refine (refute Normal r_two_features e_two_features _ _ _); vm_compute; reflexivity. Qed.
Print Assumptions C48_two_features_refuted.

(** The sub-styles are written in the order in which they are given. *)
Definition r_style_order : value := Eval vm_compute in
  mk "styles.Style" [("styles", VList [mk "styles.PolyStyle" [("fill", VBool true)]; mk "styles.LineStyle" [("width", fl "2")]])].
Definition e_style_order : elem := Eval vm_compute in match etree W0 None Normal r_style_order with Ok e => e | Err _ => new_elem [] end.
Theorem C48_style_order_refuted : exists v, timed v = true /\ written_invalid Normal v.
Proof. exists r_style_order. split; [vm_compute; reflexivity|]. refine (refute Normal r_style_order e_style_order _ _ _); vm_compute; reflexivity. Qed.
Print Assumptions C48_style_order_refuted.

(** Extended data are written in the order in which they are given. *)
Definition r_data_order : value := Eval vm_compute in
  mk "data.ExtendedData" [("elements", VList [mk "data.SchemaData" [("schema_url", str "#s"); ("data", VList [mk "data.SimpleData" [("name", str "a"); ("value", str "b")]])]; mk "data.Data" [("name", str "n"); ("value", str "v")]])].
Definition e_data_order : elem := Eval vm_compute in match etree W0 None Normal r_data_order with Ok e => e | Err _ => new_elem [] end.
Theorem C48_data_order_refuted : exists v, timed v = true /\ written_invalid Normal v.
Proof. exists r_data_order. split; [vm_compute; reflexivity|]. refine (refute Normal r_data_order e_data_order _ _ _); vm_compute; reflexivity. Qed.
Print Assumptions C48_data_order_refuted.

(** The value of [Data] is optional. *)
Definition r_data_value : value := Eval vm_compute in
  mk "data.Data" [("name", str "n")].
Definition e_data_value : elem := Eval vm_compute in match etree W0 None Normal r_data_value with Ok e => e | Err _ => new_elem [] end.
Theorem C48_data_value_refuted : exists v, timed v = true /\ written_invalid Normal v.
Proof. exists r_data_value. split; [vm_compute; reflexivity|]. refine (refute Normal r_data_value e_data_value _ _ _); vm_compute; reflexivity. Qed.
Print Assumptions C48_data_value_refuted.

(** The address of [atom.Link] is optional. *)
Definition r_link_href : value := Eval vm_compute in
  mk "atom.Link" [("title", str "t")].
Definition e_link_href : elem := Eval vm_compute in match etree W0 None Normal r_link_href with Ok e => e | Err _ => new_elem [] end.
Theorem C48_link_href_refuted : exists v, timed v = true /\ written_invalid Normal v.
Proof. exists r_link_href. split; [vm_compute; reflexivity|]. refine (refute Normal r_link_href e_link_href _ _ _); vm_compute; reflexivity. Qed.
Print Assumptions C48_link_href_refuted.

(** The name of [SimpleData] is optional. *)
Definition r_simple_data_name : value := Eval vm_compute in
  mk "data.SimpleData" [("value", str "b")].
Definition e_simple_data_name : elem := Eval vm_compute in match etree W0 None Normal r_simple_data_name with Ok e => e | Err _ => new_elem [] end.
Theorem C48_simple_data_name_refuted : exists v, timed v = true /\ written_invalid Normal v.
Proof. exists r_simple_data_name. split; [vm_compute; reflexivity|]. refine (refute Normal r_simple_data_name e_simple_data_name _ _ _); vm_compute; reflexivity. Qed.
Print Assumptions C48_simple_data_name_refuted.

(** The icon of an icon style takes refresh settings, which the schema has only elsewhere. *)
Definition r_icon_refresh : value := Eval vm_compute in
  mk "styles.IconStyle" [("icon", mk "links.Icon" [("href", str "i.png"); ("refresh_interval", fl "3")])].
Definition e_icon_refresh : elem := Eval vm_compute in match etree W0 None Normal r_icon_refresh with Ok e => e | Err _ => new_elem [] end.
Theorem C48_icon_refresh_refuted : exists v, timed v = true /\ written_invalid Normal v.
Proof. exists r_icon_refresh. split; [vm_compute; reflexivity|]. refine (refute Normal r_icon_refresh e_icon_refresh _ _ _); vm_compute; reflexivity. Qed.
Print Assumptions C48_icon_refresh_refuted.

(** In verbose mode the refresh settings are written though nobody set them. *)
Definition r_verbose_icon : value := Eval vm_compute in
  mk "styles.IconStyle" [("icon", mk "links.Icon" [("href", str "i.png")])].
Definition e_verbose_icon : elem := Eval vm_compute in match etree W0 None Verbose r_verbose_icon with Ok e => e | Err _ => new_elem [] end.
Theorem C48_verbose_icon_refuted : exists v, timed v && orderly W0 Normal v = true /\ written_invalid Verbose v.
Proof. exists r_verbose_icon. split; [vm_compute; reflexivity|]. refine (refute Verbose r_verbose_icon e_verbose_icon _ _ _); vm_compute; reflexivity. Qed.
Print Assumptions C48_verbose_icon_refuted.

(** An item of a track without a time is written as a gx:when, which does not exist. *)
Definition r_track_time : value := Eval vm_compute in
  mk "gx.Track" [("track_items", VItems [mkItem None (pt ["1"; "2"]) None])].
Definition e_track_time : elem := Eval vm_compute in match etree W0 None Normal r_track_time with Ok e => e | Err _ => new_elem [] end.
Theorem C48_track_time_refuted : exists v, orderly W0 Normal v = true /\ written_invalid Normal v.
Proof.
  exists r_track_time. split; [vm_compute; reflexivity|]. exists nss0, e_track_time. repeat split; try (vm_compute; reflexivity).
  intro V. apply check_document_sound in V. vm_compute in V. discriminate.
Qed.
Print Assumptions C48_track_time_refuted.

(** * Geometries and constructors that build children: C21, C22, C23, C39, C44. *)
From Coq Require Import String List NArith ZArith Bool Lia.
From Verif Require Import Ustr UstrProofs Res PyInt PyFloat PyDate Value Geom Codec Tables Spec Settled Elem EmitProofs ItemProofs RoundTrip FastkmlOk SettledProofs WriteProofs Create GeoSpec CreateProofs GeoXmlProofs Samples.
Import ListNotations.
Local Open Scope string_scope.

Ltac conj_compute := match goal with |- _ /\ _ => split; [conj_compute|conj_compute] | _ => vm_compute; reflexivity end.

(** ** C21: geometry to KML to geometry

    [geo_wf g]: [g] is a geometry as pygeoif holds it, without empty parts.
    Full statement: the geometry of [create_kml_geometry(g)] is [g], for every
    [geo_wf g].  False for collections of one kind of geometry. *)
Theorem C21_homogeneous_collection_refuted :
  exists g o, geo_wf g /\ create_kml_geometry W0 None [] VNone VNone (mkOpts VNone VNone VNone) g = Ok o /\
    geometry W0 o <> Ok (Some g) /\ geometry W0 o = Ok (Some (GMPoint [pt ["1"; "2"]; pt ["3"; "4"]])).
Proof.
  exists (GColl [GPoint (pt ["1"; "2"]); GPoint (pt ["3"; "4"])]). eexists.
  split; [split; [discriminate|]; split; [vm_compute; reflexivity|]; split; [vm_compute; reflexivity|exact I]|]. split; [vm_compute; reflexivity|]. split; [vm_compute; discriminate|vm_compute; reflexivity].
Qed.
Print Assumptions C21_homogeneous_collection_refuted.

(** Everything else comes back: points, lines, rings, polygons, multi-points,
    multi-lines, multi-polygons and collections whose members are not all
    points, all lines or all polygons, to any depth; whatever name spaces, id
    and options are given. *)
Theorem C21_geometry_back : forall arrow ns nss id tid o g,
  let W := fastkml arrow in
  textual id -> textual tid -> geo_wf g -> mixed g = true ->
  exists v, create_kml_geometry W ns nss id tid o g = Ok v /\ geometry W v = Ok (Some g) /\ py_bool W v = Ok true.
Proof.
  intros arrow ns nss id tid o g W Hi Ht Hg Hm. eexists. split; [apply create_obj; auto; reflexivity|]. split.
  - rewrite <- (regroup_mixed g Hm) at 2. apply geo_obj_geometry; auto; reflexivity.
  - apply geo_obj_true; auto; reflexivity.
Qed.
Print Assumptions C21_geometry_back.

(** In general a collection comes back as the multi-geometry of its members if
    they are all points, all lines or all polygons ([regroup]). *)
Theorem C21_regrouped : forall arrow ns nss id tid o g,
  let W := fastkml arrow in
  textual id -> textual tid -> geo_wf g ->
  exists v, create_kml_geometry W ns nss id tid o g = Ok v /\ geometry W v = Ok (Some (regroup g)) /\ geo_wf (regroup g).
Proof.
  intros arrow ns nss id tid o g W Hi Ht Hg. eexists. split; [apply create_obj; auto; reflexivity|]. split.
  - apply geo_obj_geometry; auto; reflexivity.
  - now apply regroup_wf.
Qed.
Print Assumptions C21_regrouped.

(** The same through a placemark. *)
Theorem C21_placemark : forall arrow ns nss g v,
  let W := fastkml arrow in
  geo_wf g -> mixed g = true -> new_placemark W ns nss (Some g) [] = Ok v -> geometry W v = Ok (Some g).
Proof.
  intros arrow ns nss g v W Hg Hm H. unfold new_placemark in H. cbn [kwget sget] in H. change (py_bool W VNone) with (Ok false) in H. cbn [bind andb] in H.
  rewrite (geo_wf_full g Hg) in H. cbn [negb] in H.
  destruct (C21_geometry_back arrow ns nss VNone VNone (mkOpts VNone VNone VNone) g textual_none textual_none Hg Hm) as [k [Hk [Gk _]]].
  fold W in Hk, Gk. rewrite Hk in H. cbn [bind] in H.
  assert (E : exists n attrs, v = VObj "features.Placemark" n (merge_ns nss) attrs /\ sget "kml_geometry" attrs = Some k).
  { unfold new, construct in H. change (class_of W "features.Placemark") with (Some cl_features_Placemark) in H. cbn -[default_ns merge_ns] in H. injection H as <-. eexists _, _. split; reflexivity. }
  destruct E as [n [attrs [-> E]]]. destruct (sem_obj W "features.Placemark" cl_features_Placemark n (merge_ns nss) attrs eq_refl) as [_ ->].
  cbn [cl_features_Placemark ci_geom eval_geom]. unfold with_attr. rewrite env_get, E. unfold a_val, a_geom. cbn [fst snd].
  unfold geometry in Gk. destruct k; try exact Gk; discriminate Gk.
Qed.
Print Assumptions C21_placemark.

Definition g_mixed : geo := Eval vm_compute in
  GColl [GPoly (map pt square) [map pt hole]; GPoint (pt ["1"; "2"; "3"]); GColl [GRing (map pt square); GRing (map pt hole)];
         GMLine [map pt [["1"; "2"]; ["3"; "4"]]; map pt [["5"; "6"]; ["7"; "8"]]]].

Lemma line_wf_dec l : nilb l = false -> forallb point_wf l = true ->
  forallb (fun c => forallb (fun c' => Nat.eqb (length c) (length c')) l) l = true ->
  (fix go l := match l with c :: (c' :: _) as l' => negb (point_eq c c') && go l' | _ => true end) l = true -> line_wf l.
Proof.
  intros H0 H1 H2 H3. split; [now destruct l|]. split; [now apply forallb_forall|]. split.
  - intros c c' Hc Hc'. rewrite forallb_forall in H2. specialize (H2 c Hc). rewrite forallb_forall in H2. now apply Nat.eqb_eq, H2.
  - clear -H3. intros l1. revert l H3. induction l1 as [|d l1 IH]; intros l H c c' l2 ->.
    + cbn in H. apply andb_prop in H as [H _]. now apply negb_true_iff.
    + refine (IH (l1 ++ c :: c' :: l2)%list _ c c' l2 eq_refl). destruct l1; cbn in H |- *; apply andb_prop in H as [_ H]; exact H.
Qed.
Ltac line_wf_tac := apply line_wf_dec; vm_compute; reflexivity.
Ltac ring_wf_tac := split; [line_wf_tac|intro; vm_compute; reflexivity].

Example C21_example : geo_wf g_mixed /\ mixed g_mixed = true /\
  exists v, create_kml_geometry W0 None nss0 (str "x") VNone (mkOpts (VBool true) VNone VNone) g_mixed = Ok v /\ geometry W0 v = Ok (Some g_mixed).
Proof.
  split.
  - split; [discriminate|]. split; [split; [ring_wf_tac|constructor; [ring_wf_tac|constructor]]|]. split; [vm_compute; reflexivity|].
    split; [split; [discriminate|]; split; [ring_wf_tac|]; split; [ring_wf_tac|exact I]|]. split; [split; [discriminate|]; constructor; [line_wf_tac|constructor; [line_wf_tac|constructor]]|exact I].
  - split; [vm_compute; reflexivity|]. eexists. split; vm_compute; reflexivity.
Qed.

(** ** C21 through a file

    Written at any verbosity and read again, strictly or not, the geometry is
    [reread g]: [g] itself, except that the members of a collection are
    regrouped by class (points, lines, polygons, rings, collections). *)
Theorem C21_through_file : forall arrow vb strict id tid o g,
  let W := fastkml arrow in
  textual id -> textual tid -> opts_typed W o -> geo_wf g -> (forall c, In c (geo_points g) -> doubles c = true) ->
  exists v c attrs e v',
    create_kml_geometry W None [] id tid o g = Ok v /\ v = VObj c KMLNS NAME_SPACES attrs /\
    etree W None vb v = Ok e /\ from_string W strict c None [] e = Ok v' /\ geometry W v' = Ok (Some (reread g)).
Proof.
  intros arrow vb strict id tid o g W Hi Ht Ho Hg Hd.
  assert (C := create_obj W eq_refl eq_refl eq_refl eq_refl eq_refl eq_refl eq_refl eq_refl None [] o g id tid Hi Ht Hg).
  assert (T := geo_typed arrow o g id tid KMLNS NAME_SPACES Ho Hi Ht Hg Hd). assert (G := geo_regular arrow o g id tid Ho Hi Ht Hg).
  assert (F := geo_fine arrow o g id tid KMLNS NAME_SPACES Ho Hi Ht Hg). assert (P := geo_prints arrow o g id tid KMLNS NAME_SPACES Ho Hi Ht Hg Hd).
  assert (R := geo_readable arrow o g id tid KMLNS NAME_SPACES Ho Hi Ht Hg). assert (N := norm_geometry arrow vb KMLNS NAME_SPACES o g id tid Hg Hd).
  destruct (write_total arrow None vb _ T F P) as [Wr _].
  assert (Rt := regular_rt W NAME_SPACES (fastkml_ok arrow) (fastkml_ids arrow) eq_refl _ T G R).
  change (ns_or None []) with KMLNS in C. change (merge_ns []) with NAME_SPACES in C.
  assert (S : exists c attrs, geo_obj KMLNS NAME_SPACES id tid o g = VObj c KMLNS NAME_SPACES attrs) by (destruct g; eexists _, _; reflexivity).
  destruct S as [c [attrs S]]. rewrite S in *. destruct Wr as [e He].
  exists (VObj c KMLNS NAME_SPACES attrs), c, attrs, e, (norm W None vb (VObj c KMLNS NAME_SPACES attrs)).
  split; [exact C|]. split; [reflexivity|]. split; [exact He|]. split; [|exact N].
  unfold regular in G. cbn [vall] in G. apply andb_prop in G as [G _]. apply andb_prop in G as [G1 _]. apply ueqb_eq in G1.
  unfold from_string. subst W. change (merge_ns []) with NAME_SPACES. rewrite <- G1. apply roundtrip; [exact (fastkml_ok arrow)|assumption..].
Qed.
Print Assumptions C21_through_file.

(** So points, lines, rings, polygons and multi-geometries survive a file,
    and so do collections whose members are in that order. *)
Theorem C21_file_unchanged : forall arrow vb strict id tid o g,
  let W := fastkml arrow in
  textual id -> textual tid -> opts_typed W o -> geo_wf g -> (forall c, In c (geo_points g) -> doubles c = true) ->
  (forall l, g = GColl l -> mixed g = true /\ (forall x l', In x l -> x <> GColl l') /\ (forall l1 x y l2, l = (l1 ++ x :: y :: l2)%list -> (kind x <= kind y)%nat)) ->
  exists v c e v', create_kml_geometry W None [] id tid o g = Ok v /\ etree W None vb v = Ok e /\ from_string W strict c None [] e = Ok v' /\
    geometry W v = Ok (Some g) /\ geometry W v' = Ok (Some g).
Proof.
  intros arrow vb strict id tid o g W Hi Ht Ho Hg Hd Hc.
  destruct (C21_through_file arrow vb strict id tid o g Hi Ht Ho Hg Hd) as [v [c [attrs [e [v' [H1 [_ [H3 [H4 H5]]]]]]]]]. fold W in H1, H3, H4, H5.
  exists v, c, e, v'. split; [exact H1|]. split; [exact H3|]. split; [exact H4|].
  assert (K : reread g = g /\ mixed g = true).
  { destruct g; try (split; reflexivity). destruct (Hc _ eq_refl) as [Hm [Hn Hk]]. split; [|exact Hm]. cbn [reread].
    assert (E : map reread l = l). { clear -Hn. induction l as [|x l IH]; [reflexivity|]. cbn [map]. rewrite IH by (intros y l' Hy; apply Hn; now right). f_equal. destruct x; try reflexivity. exfalso. eapply Hn; [now left|reflexivity]. }
    rewrite E. rewrite by_kind_sorted by exact Hk. assert (M := regroup_mixed (GColl l) Hm). cbn [regroup] in M. cbn [mixed] in Hm. apply andb_prop in Hm as [_ Hm].
    assert (E' : map regroup l = l). { clear -Hm. induction l as [|x l IH]; [reflexivity|]. cbn [forallb] in Hm. apply andb_prop in Hm as [A B]. cbn [map]. now rewrite regroup_mixed, IH. }
    now rewrite E' in M. }
  destruct K as [K1 K2]. split; [|now rewrite K1 in H5].
  destruct (C21_geometry_back arrow None [] id tid o g Hi Ht Hg K2) as [v0 [E0 [E1 _]]]. fold W in E0, E1. rewrite H1 in E0. now injection E0 as <-.
Qed.
Print Assumptions C21_file_unchanged.

(** Refuted through a file: a collection of a polygon and a point comes back
    in the other order. *)
Theorem C21_file_order_refuted :
  exists g v e v', geo_wf g /\ mixed g = true /\ create_kml_geometry W0 None [] VNone VNone no_opts g = Ok v /\ etree W0 None Normal v = Ok e /\
    from_string W0 true "geometry.MultiGeometry" None [] e = Ok v' /\ geometry W0 v = Ok (Some g) /\ geometry W0 v' <> Ok (Some g).
Proof.
  set (g := GColl [GLine (map pt [["0"; "0"]; ["0"; "0.5"]]); GPoint (pt ["1"; "2"])]).
  assert (Hg : geo_wf g). { split; [discriminate|]. split; [line_wf_tac|]. split; [vm_compute; reflexivity|exact I]. }
  assert (Hd : forall c, In c (geo_points g) -> doubles c = true). { apply forallb_forall. vm_compute. reflexivity. }
  destruct (C21_through_file (fun _ => None) Normal true VNone VNone no_opts g textual_none textual_none (no_opts_typed _) Hg Hd) as [v [c [attrs [e [v' [H1 [H2 [H3 [H4 H5]]]]]]]]].
  exists g, v, e, v'. split; [exact Hg|]. split; [vm_compute; reflexivity|]. split; [exact H1|]. split; [exact H3|].
  assert (Ec : c = "geometry.MultiGeometry"). { clear -H1 H2. vm_compute in H1. injection H1 as H1. rewrite H2 in H1. now injection H1. }
  subst c. split; [exact H4|].
  destruct (C21_geometry_back (fun _ => None) None [] VNone VNone no_opts g textual_none textual_none Hg eq_refl) as [v0 [E0 [E1 _]]]. rewrite H1 in E0. injection E0 as <-.
  split; [exact E1|]. change W0 with (fastkml (fun _ => None)). rewrite H5. vm_compute. discriminate.
Qed.
Print Assumptions C21_file_order_refuted.

Example C21_file_example : geo_wf g_mixed /\ (forall c, In c (geo_points g_mixed) -> doubles c = true) /\ opts_typed W0 (mkOpts (VBool true) VNone (VEnum "enums.AltitudeMode" (u "absolute"))) /\
  reread g_mixed = GColl [GPoint (pt ["1"; "2"; "3"]); GPoly (map pt square) [map pt hole]; GColl [GRing (map pt square); GRing (map pt hole)];
         GMLine [map pt [["1"; "2"]; ["3"; "4"]]; map pt [["5"; "6"]; ["7"; "8"]]]].
Proof.
  split; [exact (proj1 C21_example)|]. split; [apply forallb_forall; vm_compute; reflexivity|]. split; [|vm_compute; reflexivity].
  split; [right; now exists true|]. split; [now left|]. right. eexists. split; [reflexivity|vm_compute; reflexivity].
Qed.

(** ** C22: the geometry of a MultiGeometry

    [gs]: the geometries of the members, those that are missing or empty left
    out. *)
Theorem C22_multigeometry : forall arrow ns nss attrs l os,
  let W := fastkml arrow in
  let v := VObj "geometry.MultiGeometry" ns nss attrs in
  sget "kml_geometries" attrs = Some (VList l) -> Forall2 (fun x o => geometry W x = Ok o) l os ->
  let gs := filter (fun g => negb (geo_empty g)) (concat (map opt_list os)) in
  (gs = [] -> geometry W v = Ok None) /\
  (forall cs, gs = map GPoint cs -> gs <> [] -> geometry W v = Ok (Some (GMPoint cs))) /\
  (forall ls, gs = map GLine ls -> gs <> [] -> geometry W v = Ok (Some (GMLine ls))) /\
  (forall ps, gs = map (fun p => GPoly (fst p) (snd p)) ps -> gs <> [] -> geometry W v = Ok (Some (GMPoly ps))) /\
  (gs <> [] -> (forall cs, gs <> map GPoint cs) -> (forall ls, gs <> map GLine ls) -> (forall ps, gs <> map (fun p => GPoly (fst p) (snd p)) ps) ->
     geometry W v = Ok (Some (GColl gs))).
Proof.
  intros arrow ns nss attrs l os W v Hl Ho gs.
  assert (G : geometry W v = create_multigeometry gs).
  { unfold v. destruct (sem_obj W "geometry.MultiGeometry" cl_geometry_MultiGeometry ns nss attrs eq_refl) as [_ ->].
    cbn [cl_geometry_MultiGeometry ci_geom eval_geom]. unfold with_attr. rewrite env_get, Hl. unfold a_list. cbn [snd]. rewrite map_map.
    assert (E : truthy_geoms (map (fun x => snd (sem W x)) l) = Ok gs).
    { unfold gs. clear -Ho. induction Ho as [|x o l os H _ IH]; [reflexivity|]. cbn [map truthy_geoms concat]. unfold geometry in H. rewrite H. cbn [bind]. rewrite IH. cbn [bind].
      destruct o as [g|]; [|reflexivity]. cbn [opt_list app filter]. now destruct (geo_empty g). }
    rewrite E. reflexivity. }
  rewrite G. clearbody gs. split; [now intros ->|]. split.
  { intros cs E Hn. rewrite create_multi_collect by exact Hn. unfold collect. rewrite E. now rewrite (all_some_map as_point GPoint). }
  split. { intros ls E Hn. rewrite create_multi_collect by exact Hn. unfold collect. rewrite E. rewrite (all_some_map as_line GLine) by reflexivity. destruct ls; [now rewrite E in Hn|reflexivity]. }
  split. { intros ps E Hn. rewrite create_multi_collect by exact Hn. unfold collect. rewrite E. rewrite (all_some_map as_poly (fun p => GPoly (fst p) (snd p))) by (intros []; reflexivity). destruct ps; [now rewrite E in Hn|reflexivity]. }
  intros Hn H1 H2 H3. rewrite create_multi_collect by exact Hn. unfold collect.
  destruct (all_some as_point gs) as [r|] eqn:E1. { apply all_some_inv with (k := GPoint) in E1; [now apply H1 in E1|]. intros [] b; cbn; congruence. }
  destruct (all_some as_line gs) as [r|] eqn:E2. { apply all_some_inv with (k := GLine) in E2; [now apply H2 in E2|]. intros [] b; cbn; congruence. }
  destruct (all_some as_poly gs) as [r|] eqn:E3. { apply all_some_inv with (k := fun p => GPoly (fst p) (snd p)) in E3; [now apply H3 in E3|]. intros [] b; cbn; try congruence. intro X. now injection X as <-. }
  reflexivity.
Qed.
Print Assumptions C22_multigeometry.

Definition s_mixed_multi : value := Eval vm_compute in
  mk "geometry.MultiGeometry" [("kml_geometries", VList [mk "geometry.Point" []; s_polygon; s_point ["1"; "2"]; mk "geometry.MultiGeometry" []])].
Example C22_example :
  exists ns nss attrs l, s_mixed_multi = VObj "geometry.MultiGeometry" ns nss attrs /\ sget "kml_geometries" attrs = Some (VList l) /\
    Forall2 (fun x o => geometry W0 x = Ok o) l [None; Some (GPoly (map pt square) [map pt hole]); Some (GPoint (pt ["1"; "2"])); None] /\
    geometry W0 s_mixed_multi = Ok (Some (GColl [GPoly (map pt square) [map pt hole]; GPoint (pt ["1"; "2"])])).
Proof.
  do 4 eexists. split; [vm_compute; reflexivity|]. split; [vm_compute; reflexivity|]. split; [|vm_compute; reflexivity].
  repeat (constructor; [vm_compute; reflexivity|]). constructor.
Qed.

(** ** C23: mutually exclusive arguments

    Full statement: a constructor that takes a geometry and its KML form
    raises when both are given and otherwise stores what was given. *)

(** Both given: Point, LineString, LinearRing, BoundaryIs, MultiGeometry and
    Polygon (outer boundary) raise GeometryError. *)
Theorem C23_both_refused : forall W ns nss g kws,
  (forall c, is_none (kwget kws "kml_coordinates") = false -> new_from_coords W c ns nss (Some g) kws = Err EGeometry) /\
  (forall c, is_none (kwget kws "kml_geometry") = false -> new_boundary W c ns nss (Some g) kws = Err EGeometry) /\
  (is_none (kwget kws "kml_geometries") = false -> new_multigeometry W ns nss (Some g) kws = Err EGeometry) /\
  (forall s hs, is_none (kwget kws "outer_boundary") = false -> new_polygon W ns nss (Some (s, hs)) kws = Err EGeometry) /\
  (geo_empty g = false -> py_bool W (kwget kws "kml_geometry") = Ok true -> new_placemark W ns nss (Some g) kws = Err EValueError).
Proof.
  intros W ns nss g kws. unfold new_from_coords, new_boundary, new_multigeometry, new_polygon, new_placemark.
  split; [now intros c ->|]. split; [now intros c ->|]. split; [now intros ->|]. split; [now intros s hs ->|]. now intros -> ->.
Qed.
Print Assumptions C23_both_refused.

(** Without [geometry] the KML form is stored as given. *)
Theorem C23_stored : forall arrow ns nss kws v k,
  let W := fastkml arrow in
  (forall c, In c ["geometry.Point"; "geometry.LineString"; "geometry.LinearRing"] ->
     kwget kws "kml_coordinates" = k -> new_from_coords W c ns nss None kws = Ok v -> exists n attrs, v = VObj c n (merge_ns nss) attrs /\ sget "kml_coordinates" attrs = Some k) /\
  (forall c, In c ["geometry.BoundaryIs"; "geometry.OuterBoundaryIs"; "geometry.InnerBoundaryIs"] ->
     kwget kws "kml_geometry" = k -> new_boundary W c ns nss None kws = Ok v -> exists n attrs, v = VObj c n (merge_ns nss) attrs /\ sget "kml_geometry" attrs = Some k) /\
  (kwget kws "outer_boundary" = k -> new_polygon W ns nss None kws = Ok v -> exists n attrs, v = VObj "geometry.Polygon" n (merge_ns nss) attrs /\ sget "outer_boundary" attrs = Some k) /\
  (forall l, kwget kws "kml_geometries" = VList l -> new_multigeometry W ns nss None kws = Ok v ->
     exists n attrs, v = VObj "geometry.MultiGeometry" n (merge_ns nss) attrs /\ sget "kml_geometries" attrs = Some (VList l)) /\
  (forall g, kwget kws "kml_geometry" = k -> match g with Some g => geo_empty g = true | None => True end -> new_placemark W ns nss g kws = Ok v ->
     exists n attrs, v = VObj "features.Placemark" n (merge_ns nss) attrs /\ sget "kml_geometry" attrs = Some k).
Proof.
  intros arrow ns nss kws v k W. split; [|split; [|split; [|split]]].
  - intros c Hc Hk H. cbn [In] in Hc. destruct Hc as [<-|[<-|[<-|[]]]]; eapply new_raw; eauto; reflexivity.
  - intros c Hc Hk H. cbn [In] in Hc. destruct Hc as [<-|[<-|[<-|[]]]]; eapply new_raw; eauto; reflexivity.
  - intros Hk H. eapply new_raw; eauto; reflexivity.
  - intros l Hk H. destruct (new_attr W "geometry.MultiGeometry" cl_geometry_MultiGeometry ns nss kws v "kml_geometries" CListTruthy eq_refl eq_refl eq_refl eq_refl H) as [n [attrs [x [Hv [Hm Hs]]]]].
    unfold mk_attr in Hm. rewrite Hk in Hm. injection Hm as <-. eauto.
  - intros g Hk Hg H. unfold new_placemark in H. apply bind_ok in H as [b [Hb H]]. destruct g as [g|].
    + rewrite Hg in H. cbn [negb] in H. rewrite andb_false_r in H. eapply new_raw; eauto; reflexivity.
    + rewrite andb_false_r in H. eapply new_raw; eauto; reflexivity.
Qed.
Print Assumptions C23_stored.

(** Refuted: some arguments are silently dropped. *)
Theorem C23_dropped_refuted :
  (* Polygon(geometry, inner_boundaries): no error, the inner boundaries are gone *)
  (exists k v, k <> VList [] /\ new_polygon W0 None [] (Some (map pt square, [])) [("inner_boundaries", k)] = Ok v /\ sget "inner_boundaries" (obj_attrs v) = Some (VList [])) /\
  (* Placemark(geometry, kml_geometry) with a kml_geometry without coordinates: no error *)
  (exists k v, is_none k = false /\ new_placemark W0 None [] (Some (GPoint (pt ["1"; "2"]))) [("kml_geometry", k)] = Ok v /\ sget "kml_geometry" (obj_attrs v) <> Some k) /\
  (* Track(whens) without coords: nothing is stored *)
  (exists ws v, ws <> [] /\ new W0 "gx.Track" None [] [("whens", VDates ws)] = Ok v /\ sget "track_items" (obj_attrs v) = Some (VItems [])).
Proof.
  split; [|split].
  - exists (VList [mk "geometry.InnerBoundaryIs" [("kml_geometry", s_ring hole)]]). eexists. split; [discriminate|]. split; vm_compute; reflexivity.
  - exists (mk "geometry.Point" [("extrude", VBool true)]). eexists. split; [vm_compute; reflexivity|]. split; [vm_compute; reflexivity|]. vm_compute. discriminate.
  - exists [when "2001"]. eexists. split; [discriminate|]. split; vm_compute; reflexivity.
Qed.
Print Assumptions C23_dropped_refuted.

(** ** C39: name spaces of the children that constructors create

    Full statement: a child created by a constructor has the name space and
    the map of its parent.  False for coordinates and boundaries, which get
    the built-in ones: the written elements are in different name spaces. *)
Theorem C39_not_inherited_refuted :
  (exists v n nss attrs at_, new_from_coords W0 "geometry.Point" (Some (u "{http://x}")) [] (Some (GPoint (pt ["1"; "2"]))) [] = Ok v /\
     v = VObj "geometry.Point" n nss attrs /\ sget "kml_coordinates" attrs = Some (VObj "geometry.Coordinates" KMLNS NAME_SPACES at_) /\ n = u "{http://x}") /\
  (exists v n nss attrs at_, new_polygon W0 (Some (u "{http://x}")) [("my", u "{http://y}")] (Some (map pt square, [])) [] = Ok v /\
     v = VObj "geometry.Polygon" n nss attrs /\ sget "outer_boundary" attrs = Some (VObj "geometry.OuterBoundaryIs" KMLNS NAME_SPACES at_) /\ n = u "{http://x}" /\ nss <> NAME_SPACES) /\
  (exists v e, new_from_coords W0 "geometry.Point" (Some (u "{http://x}")) [] (Some (GPoint (pt ["1"; "2"]))) [] = Ok v /\ etree W0 None Normal v = Ok e /\
     e_tag e = u "{http://x}Point" /\ map e_tag (e_kids e) = [KMLNS ++ u "coordinates"]%list).
Proof.
  split; [|split].
  - do 5 eexists. split; [vm_compute; reflexivity|]. split; [reflexivity|]. split; vm_compute; reflexivity.
  - do 5 eexists. split; [vm_compute; reflexivity|]. split; [reflexivity|]. split; [vm_compute; reflexivity|]. split; [vm_compute; reflexivity|]. vm_compute. discriminate.
  - do 2 eexists. split; [vm_compute; reflexivity|]. split; [vm_compute; reflexivity|]. split; vm_compute; reflexivity.
Qed.
Print Assumptions C39_not_inherited_refuted.

(** What does inherit: the ring of a boundary, the members of a
    multi-geometry, the geometry of a placemark and the icon of a style. *)
Definition ns_is (n : ustr) (m : nss_t) (v : value) : Prop := exists c attrs, v = VObj c n m attrs.
Definition given_ns (ns : option ustr) (nss : nss_t) : ustr := match ns with Some n => n | None => ns_get (merge_ns nss) "kml" end.

Theorem C39_inherited_partial : forall arrow ns nss kws v,
  let W := fastkml arrow in
  let own x := ns_is (given_ns ns nss) (merge_ns nss) x in
  (forall c l, In c ["geometry.OuterBoundaryIs"; "geometry.InnerBoundaryIs"] -> l <> [] -> new_boundary W c ns nss (Some (GRing l)) kws = Ok v ->
     own v /\ exists x, sget "kml_geometry" (obj_attrs v) = Some x /\ own x) /\
  (forall g id tid o, create_kml_geometry W ns nss id tid o g = Ok v -> geo_wf g -> textual id -> textual tid ->
     own v /\ forall l, sget "kml_geometries" (obj_attrs v) = Some (VList l) -> forall x, In x l -> own x) /\
  (forall g, geo_wf g -> new_placemark W ns nss (Some g) kws = Ok v -> own v /\ exists x, sget "kml_geometry" (obj_attrs v) = Some x /\ own x) /\
  (forall href, kwget kws "icon" = VNone -> uempty (strip href) = false -> new_iconstyle W ns nss (VStr href) kws = Ok v ->
     own v /\ exists x, sget "icon" (obj_attrs v) = Some x /\ own x).
Proof.
  intros arrow ns nss kws v W own.
  assert (OBJ : forall n m id tid o g, ns_is n m (geo_obj n m id tid o g)) by (intros n m id tid o g; destruct g; eexists _, _; reflexivity).
  assert (NEW : forall c ci kws v a k x, class_of W c = Some ci -> ci_nsid ci = "kml" -> new W c ns nss ((a, x) :: kws) = Ok v ->
     nodups (map fst (ctor_attrs ci)) = true -> sget a (ctor_attrs ci) = Some k -> k = CRaw -> forallb (fun p => mem (fst p) (ci_params ci)) (ctor_attrs ci) = true ->
     own v /\ sget a (obj_attrs v) = Some x).
  { clear -W own. intros c ci kws v a k x Hc Hn H Hd Ha -> Hp.
    assert (Hk : kwget ((a, x) :: kws) a = x) by (unfold kwget; cbn [sget]; now rewrite String.eqb_refl).
    destruct (new_raw W c ci ns nss _ v a x Hc Hd Ha Hp Hk H) as [n [attrs [E1 E2]]].
    split; [|now subst v]. unfold own. exists c, attrs. unfold new, construct in H. rewrite Hc in H.
    destruct (negb (ci_kwargs ci) && negb (nilb (extras_of ci ((a, x) :: kws)))); [discriminate|]. apply bind_ok in H as [pre [_ H]]. apply bind_ok in H as [post [_ H]]. rewrite E1 in H. injection H as H1 H2.
    rewrite E1. f_equal. rewrite <- H1. unfold default_ns. rewrite Hc, Hn. reflexivity. }
  split; [|split; [|split]].
  - intros c l Hc Hl H. unfold new_boundary in H. destruct (is_none (kwget kws "kml_geometry")); [|discriminate]. cbn [negb geo_empty] in H.
    assert (El : nilb l = false) by now destruct l. rewrite El in H. rewrite (ring_new W eq_refl eq_refl ns nss l El) in H. cbn [bind] in H.
    cbn [In] in Hc. destruct Hc as [<-|[<-|[]]].
    + destruct (NEW "geometry.OuterBoundaryIs" cl_geometry_OuterBoundaryIs kws v "kml_geometry" CRaw _ eq_refl eq_refl H eq_refl eq_refl eq_refl eq_refl) as [A B]. split; [exact A|]. eexists. split; [exact B|]. eexists _, _. reflexivity.
    + destruct (NEW "geometry.InnerBoundaryIs" cl_geometry_InnerBoundaryIs kws v "kml_geometry" CRaw _ eq_refl eq_refl H eq_refl eq_refl eq_refl eq_refl) as [A B]. split; [exact A|]. eexists. split; [exact B|]. eexists _, _. reflexivity.
  - intros g id tid o H Hg Hi Ht. rewrite (create_obj W eq_refl eq_refl eq_refl eq_refl eq_refl eq_refl eq_refl eq_refl ns nss o g id tid Hi Ht Hg) in H. injection H as <-.
    split; [apply OBJ|]. intros l Hl x Hx. destruct g; cbn [geo_obj] in Hl; try (unfold leaf_obj, polygon_obj in Hl; discriminate Hl); unfold multi_obj in Hl; cbn [obj_attrs sget] in Hl; rewrite String.eqb_refl in Hl; injection Hl as <-;
      apply in_map_iff in Hx as [y [<- _]]; try (eexists _, _; reflexivity). apply OBJ.
  - intros g Hg H. unfold new_placemark in H. apply bind_ok in H as [b [_ H]]. rewrite (geo_wf_full g Hg) in H. cbn [negb] in H. rewrite andb_true_r in H. destruct b; [discriminate|].
    rewrite (create_obj W eq_refl eq_refl eq_refl eq_refl eq_refl eq_refl eq_refl eq_refl ns nss _ g VNone VNone textual_none textual_none Hg) in H. cbn [bind] in H.
    destruct (NEW "features.Placemark" cl_features_Placemark kws v "kml_geometry" CRaw _ eq_refl eq_refl H eq_refl eq_refl eq_refl eq_refl) as [A B]. split; [exact A|]. eexists. split; [exact B|]. apply OBJ.
  - intros href Hi Hh H. unfold new_iconstyle in H. rewrite clean_str, Hh in H. cbn [bind] in H. rewrite Hi in H. change (py_bool W (VStr (strip href))) with (Ok (negb (uempty (strip href)))) in H. rewrite Hh in H. cbn [bind negb] in H.
    change (py_bool W VNone) with (Ok false) in H. cbn [bind negb andb] in H. apply bind_ok in H as [ic [Hic H]].
    destruct (NEW "styles.IconStyle" cl_styles_IconStyle kws v "icon" CRaw _ eq_refl eq_refl H eq_refl eq_refl eq_refl eq_refl) as [A B]. split; [exact A|]. exists ic. split; [exact B|].
    unfold new, construct in Hic. change (class_of W "links.Icon") with (Some cl_links_Icon) in Hic. cbn -[default_ns merge_ns clean_string] in Hic. apply bind_ok in Hic as [pre [_ Hic]]. injection Hic as <-.
    eexists _, _. reflexivity.
Qed.
Print Assumptions C39_inherited_partial.

(** With the default name spaces everything that is created is uniform. *)
Theorem C39_default_uniform : forall arrow id tid o g v,
  let W := fastkml arrow in
  textual id -> textual tid -> opts_typed W o -> geo_wf g -> create_kml_geometry W None [] id tid o g = Ok v -> regular W NAME_SPACES v = true.
Proof.
  intros arrow id tid o g v W Hi Ht Ho Hg H. rewrite (create_obj W eq_refl eq_refl eq_refl eq_refl eq_refl eq_refl eq_refl eq_refl None [] o g id tid Hi Ht Hg) in H. injection H as <-.
  apply (geo_regular arrow); assumption.
Qed.
Print Assumptions C39_default_uniform.

(** ** C44: the icon of an IconStyle

    Full statement: a given icon is used; otherwise [icon_href], when not
    blank, makes one; otherwise there is none.  False for a given icon without
    href, which counts as false and is replaced. *)
Theorem C44_given_icon_replaced_refuted :
  exists icon v, is_none icon = false /\ vall (typed_node W0) icon = true /\ new_iconstyle W0 None [] (str "http://x/i.png") [("icon", icon)] = Ok v /\ sget "icon" (obj_attrs v) <> Some icon.
Proof.
  exists (mk "links.Icon" [("id", str "keep"); ("refresh_mode", VEnum "enums.RefreshMode" (u "onInterval"))]). eexists.
  split; [vm_compute; reflexivity|]. split; [vm_compute; reflexivity|]. split; [vm_compute; reflexivity|]. vm_compute. discriminate.
Qed.
Print Assumptions C44_given_icon_replaced_refuted.

Theorem C44_precedence_partial : forall arrow ns nss href kws v,
  let W := fastkml arrow in
  new_iconstyle W ns nss href kws = Ok v ->
  let icon := kwget kws "icon" in
  (* a given icon with a href is used, whatever icon_href is *)
  (py_bool W icon = Ok true -> sget "icon" (obj_attrs v) = Some icon) /\
  (* without icon_href the icon is what was given *)
  (href = VNone \/ (exists s, href = VStr s /\ uempty (strip s) = true) -> sget "icon" (obj_attrs v) = Some icon) /\
  (* no icon given: icon_href makes one *)
  (icon = VNone -> forall s, href = VStr s -> uempty (strip s) = false ->
     exists x, sget "icon" (obj_attrs v) = Some x /\ sget "href" (obj_attrs x) = Some (VStr (strip s)) /\ is_obj_of ["links.Icon"] x = true).
Proof.
  intros arrow ns nss href kws v W H icon. unfold new_iconstyle in H. apply bind_ok in H as [h [Hh H]]. apply bind_ok in H as [ht [Hht H]]. apply bind_ok in H as [it [Hit H]]. apply bind_ok in H as [ic [Hic H]].
  assert (S : sget "icon" (obj_attrs v) = Some ic).
  { destruct (new_raw W "styles.IconStyle" cl_styles_IconStyle ns nss (("icon", ic) :: kws) v "icon" ic eq_refl eq_refl eq_refl eq_refl eq_refl H) as [n [attrs [-> E]]]. exact E. }
  rewrite S. fold icon in Hic, Hit. split; [|split].
  - intro Hb. destruct ht; [|now injection Hic as ->]. rewrite Hb in Hit. injection Hit as <-. now injection Hic as ->.
  - intro Hn. assert (ht = false). { assert (h = VNone) as ->. { destruct Hn as [-> | [s [-> E]]]; [now injection Hh as <-|]. rewrite clean_str, E in Hh. now injection Hh as <-. } now injection Hht as <-. }
    subst ht. now injection Hic as ->.
  - intros Hi s -> E. exists ic. split; [reflexivity|]. rewrite clean_str, E in Hh. injection Hh as <-. change (py_bool W (VStr (strip s))) with (Ok (negb (uempty (strip s)))) in Hht. rewrite E in Hht. injection Hht as <-.
    rewrite Hi in Hit. injection Hit as <-. cbn [negb andb] in Hic.
    unfold new, construct in Hic. change (class_of W "links.Icon") with (Some cl_links_Icon) in Hic. cbn -[default_ns merge_ns strip clean_string] in Hic. rewrite clean_str, strip_idem, E in Hic. cbn [bind] in Hic. injection Hic as <-.
    split; reflexivity.
Qed.
Print Assumptions C44_precedence_partial.

Example C44_example : exists v, new_iconstyle W0 None [] (str " http://x/i.png ") [("scale", fl "2")] = Ok v /\
  exists x, sget "icon" (obj_attrs v) = Some x /\ sget "href" (obj_attrs x) = Some (str "http://x/i.png").
Proof. eexists. split; [vm_compute; reflexivity|]. eexists. split; vm_compute; reflexivity. Qed.

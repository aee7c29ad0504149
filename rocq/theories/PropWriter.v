(** * What is written: C32, C33, C34, C46. *)
From Coq Require Import String List NArith ZArith Bool Lia.
From Verif Require Import Ustr UstrProofs Res PyInt PyFloat PyDate Elem Value Geom Codec Tables Spec Settled Same EmitProofs ItemProofs FastkmlOk
  RoundTrip SettledProofs NsProofs ReaderTyped SameProofs Effective VerbosityProofs WriteProofs WriteRaiseProofs CoverProofs PropRoundTrip Samples SampleProofs.
Import ListNotations.
Local Open Scope string_scope.

(** ** C32: coordinate tuples of the wrong length

    Full statement: if an object contains coordinates one of whose tuples has
    neither 2 nor 3 members, writing it raises an error (KMLWriteError).
    False: only the first tuple is looked at, and inside a placemark the truth
    value of the geometry is asked first. *)
Definition bad_tuple (c : list num) : bool := negb (Nat.eqb (length c) 2 || Nat.eqb (length c) 3).

Ltac conj_compute := repeat match goal with |- _ /\ _ => split; [vm_compute; reflexivity|] end; vm_compute; reflexivity.

(** A way to compute parts, for the examples. *)
Definition step (W : world) (v : value) (an : string * nat) : option value :=
  match v with
  | VObj c _ _ attrs =>
      match find_item (fst an) (items_of W c), sget (fst an) attrs with
      | Some it, Some x =>
          match it_set it, x with
          | SObj, _ => if truth W x then Some x else None
          | SObjs, VList l => match nth_error l (snd an) with Some y => if truth W y then Some y else None | None => None end
          | _, _ => None
          end
      | _, _ => None
      end
  | _ => None
  end.
Fixpoint follow (W : world) (v : value) (p : list (string * nat)) : option value :=
  match p with [] => Some v | s :: p' => match step W v s with Some x => follow W x p' | None => None end end.

Lemma follow_part W p : forall v y, follow W v p = Some y -> part W v y.
Proof.
  induction p as [|[a n] p IH]; intros v y H; cbn [follow] in H; [injection H as <-; apply part_self|].
  destruct (step W v (a, n)) as [x|] eqn:E; [|discriminate]. specialize (IH _ _ H). unfold step in E. destruct v as [ | | | | | | | | | | |c ns nss attrs]; try discriminate. cbn [fst snd] in E.
  destruct (find_item a (items_of W c)) as [it|] eqn:Ef; [|discriminate]. apply find_item_In in Ef as [Hit Ea]. destruct (sget a attrs) as [z|] eqn:Ez; [|discriminate]. rewrite <- Ea in Ez.
  destruct (it_set it) eqn:Es; try discriminate E.
  - destruct (truth W z) eqn:Et; [|discriminate]. injection E as ->. eapply part_attr; try eassumption. now apply truth_true.
  - destruct z as [ | | | | | | | | | |l| ]; try discriminate E. destruct (nth_error l n) as [q|] eqn:En; [|discriminate]. destruct (truth W q) eqn:Et; [|discriminate]. injection E as ->.
    eapply part_member; try eassumption; [now apply nth_error_In in En|now apply truth_true].
Qed.

(** A point with a second tuple of four members is written. *)
Theorem C32_malformed_refuted :
  exists v n m at_ b l e,
    typed W0 v = true /\ part W0 v (VObj "geometry.Coordinates" n m at_) /\
    sget "coords" at_ = Some (VCoords b l) /\ existsb bad_tuple l = true /\
    etree W0 None Normal v = Ok e.
Proof.
  assert (E : exists v n m at_ b l e,
    typed W0 v = true /\ follow W0 v [("kml_geometry", 0%nat); ("kml_coordinates", 0%nat)] = Some (VObj "geometry.Coordinates" n m at_) /\
    sget "coords" at_ = Some (VCoords b l) /\ existsb bad_tuple l = true /\ etree W0 None Normal v = Ok e).
  { exists (mk "features.Placemark" [("kml_geometry", mk "geometry.Point" [("kml_coordinates", mk "geometry.Coordinates" [("coords", VCoords false [pt ["1"; "2"]; pt ["3"; "4"; "5"; "6"]])])])]).
    do 6 eexists. conj_compute. }
  destruct E as [v [n [m [at_ [b [l [e [H1 [H2 H3]]]]]]]]]. exists v, n, m, at_, b, l, e. split; [exact H1|]. split; [exact (follow_part _ _ _ _ H2)|exact H3].
Qed.
Print Assumptions C32_malformed_refuted.

(** A point whose only tuple has four members is left out of its placemark
    without any error, although writing the point itself fails. *)
Theorem C32_dropped_refuted :
  exists g v e, sget "kml_geometry" (match v with VObj _ _ _ a => a | _ => [] end) = Some g /\
    etree W0 None Normal g = Err EKMLWrite /\ etree W0 None Normal v = Ok e /\ e_kids e = [].
Proof.
  eexists. exists (mk "features.Placemark" [("kml_geometry", mk "geometry.Point" [("kml_coordinates", mk "geometry.Coordinates" [("coords", VCoords false [pt ["1"; "2"; "3"; "4"]])])])]). eexists.
  conj_compute.
Qed.
Print Assumptions C32_dropped_refuted.

Lemma coords_error W prec vb ci ns nss attrs ws it e b l : it_set it = SCoords -> sget (it_attr it) attrs = Some (VCoords b l) -> l <> [] -> dims_ok l = false ->
  set_element W prec vb ci ns nss attrs ws it e = Err EKMLWrite.
Proof.
  intros Es Hx Hn Hd. unfold set_element. rewrite Es. unfold obj_attr. rewrite Hx. destruct l; [congruence|]. cbn [nilb]. unfold coordinates_text. now rewrite Hd.
Qed.

(** Coordinates whose first tuple has the wrong length are refused with
    KMLWriteError, for every precision and verbosity. *)
Theorem C32_coordinates_partial :
  forall arrow prec vb n m at_ b c l,
  sget "coords" at_ = Some (VCoords b (c :: l)) -> bad_tuple c = true ->
  etree (fastkml arrow) prec vb (VObj "geometry.Coordinates" n m at_) = Err EKMLWrite.
Proof.
  intros arrow prec vb n m at_ b c l Hx Hb. rewrite etree_obj. unfold write_with.
  change (class_of (fastkml arrow) "geometry.Coordinates") with (Some cl_geometry_Coordinates). cbn [cl_geometry_Coordinates ci_root].
  change (items_of (fastkml arrow) "geometry.Coordinates") with (items_of W0 "geometry.Coordinates").
  assert (E : exists it, items_of W0 "geometry.Coordinates" = [it] /\ it_set it = SCoords /\ it_attr it = "coords") by (eexists; repeat split; vm_compute; reflexivity).
  destruct E as [it [-> [Es Ea]]]. cbn [set_elements]. erewrite coords_error; [reflexivity|exact Es|rewrite Ea; exact Hx|discriminate|]. unfold dims_ok. now apply negb_true_iff.
Qed.
Print Assumptions C32_coordinates_partial.

(** An object such coordinates belong to is never written, whatever else is in
    it.  (Missing for the full statement: the other tuples, and geometries that
    are false.) *)
Theorem C32_never_silent_partial :
  forall arrow prec vb v n m at_ b c l e,
  part (fastkml arrow) v (VObj "geometry.Coordinates" n m at_) ->
  sget "coords" at_ = Some (VCoords b (c :: l)) -> bad_tuple c = true ->
  etree (fastkml arrow) prec vb v <> Ok e.
Proof.
  intros arrow prec vb v n m at_ b c l e Hp Hx Hb. eapply part_unwritten; [exact (fastkml_ok arrow)|exact Hp|].
  intros e' He'. rewrite (C32_coordinates_partial arrow prec vb n m at_ b c l Hx Hb) in He'. discriminate.
Qed.
Print Assumptions C32_never_silent_partial.

(** In particular points, lines and rings. *)
Theorem C32_geometry_partial :
  forall arrow prec vb g ns nss attrs n m at_ b c l e, In g coord_classes ->
  sget "kml_coordinates" attrs = Some (VObj "geometry.Coordinates" n m at_) ->
  sget "coords" at_ = Some (VCoords b (c :: l)) -> bad_tuple c = true ->
  etree (fastkml arrow) prec vb (VObj g ns nss attrs) <> Ok e.
Proof.
  intros arrow prec vb g ns nss attrs n m at_ b c l e Hg Hk Hx Hb.
  assert (E : exists it, In it (items_of W0 g) /\ it_set it = SObj /\ it_attr it = "kml_coordinates").
  { assert (F : exists it, find_item "kml_coordinates" (items_of W0 g) = Some it /\ it_set it = SObj) by (destruct Hg as [<-|[<-|[<-|[]]]]; eexists; split; vm_compute; reflexivity).
    destruct F as [it [F1 F2]]; apply find_item_In in F1 as [F1 F3]; eauto. }
  destruct E as [it [Hit [Es Ea]]]. eapply C32_never_silent_partial; [|exact Hx|exact Hb].
  eapply part_attr; [exact Hit|exact Es|rewrite Ea; exact Hk| |apply part_self].
  destruct (sem_obj (fastkml arrow) "geometry.Coordinates" cl_geometry_Coordinates n m at_ eq_refl) as [-> _]. cbn [cl_geometry_Coordinates ci_bool eval_bool]. unfold with_attr. rewrite env_get, Hx. reflexivity.
Qed.
Print Assumptions C32_geometry_partial.

Definition bad_line : value := Eval vm_compute in mk "geometry.LineString" [("kml_coordinates", mk "geometry.Coordinates" [("coords", VCoords false [pt ["1"]; pt ["3"; "4"]])])].
Example C32_example :
  (exists n m at_ b c l, follow W0 bad_line [("kml_coordinates", 0%nat)] = Some (VObj "geometry.Coordinates" n m at_) /\
     sget "coords" at_ = Some (VCoords b (c :: l)) /\ bad_tuple c = true) /\
  etree W0 (Some 3%nat) Verbose bad_line = Err EKMLWrite.
Proof. split; [do 6 eexists|]; conj_compute. Qed.

(** ** C33: nothing with data is left out

    Full statement: [forall v e, typed W v -> etree W prec vb v = Ok e -> ] every
    sub-object and list member of [v] with some data attribute set has an
    element in [e].  False: the truth value of many classes looks only at some
    of the attributes. *)

Definition in_attr (v : value) (a : string) (y : value) : Prop :=
  exists x, sget a (obj_attrs v) = Some x /\ (x = y \/ exists l, x = VList l /\ In y l).

Definition s_icon_style : value := Eval vm_compute in mk "styles.Style" [("styles", VList [mk "styles.IconStyle" [("scale", fl "1.5")]; mk "styles.LineStyle" [("width", fl "2")]])].
Definition s_lod_region : value := Eval vm_compute in mk "views.Region" [("lod", mk "views.Lod" [("max_lod_pixels", VInt 100)]);
  ("lat_lon_alt_box", mk "views.LatLonAltBox" [("north", fl "1"); ("south", fl "0"); ("east", fl "1"); ("west", fl "0")])].
Definition s_link_folder : value := Eval vm_compute in mk "containers.Folder" [("features", VList [mk "features.NetworkLink" [("name", str "link")]])].
Definition s_mixed : value := Eval vm_compute in mk "features.Placemark" [("kml_geometry", mk "geometry.LineString" [("kml_coordinates", s_coords [["0"; "0"]; ["1"; "1"; "1"]])])].

(** An icon style without icon, a level of detail with only an upper bound, a
    network link without link and a line with mixed dimensions are left out. *)
Theorem C33_dropped_refuted :
  forall v a y, In (v, a, y) [
     (s_icon_style, "styles", mk "styles.IconStyle" [("scale", fl "1.5")]);
     (s_lod_region, "lod", mk "views.Lod" [("max_lod_pixels", VInt 100)]);
     (s_link_folder, "features", mk "features.NetworkLink" [("name", str "link")]);
     (s_mixed, "kml_geometry", mk "geometry.LineString" [("kml_coordinates", s_coords [["0"; "0"]; ["1"; "1"; "1"]])])] ->
  typed W0 v = true /\ in_attr v a y /\
  (exists it x, In it (items_of W0 (match y with VObj c _ _ _ => c | _ => "" end)) /\ id_attr (it_attr it) = false /\
     sget (it_attr it) (obj_attrs y) = Some x /\ has_data W0 x = true) /\
  exists e, etree W0 None Normal v = Ok e /\
    match etree W0 None Normal y with Ok k => existsb (fun k' => ueqb (e_tag k') (e_tag k)) (e_kids e) | Err _ => true end = false.
Proof.
  assert (D : forall c attrs, existsb (fun it => negb (id_attr (it_attr it)) && match sget (it_attr it) attrs with Some x => has_data W0 x | None => false end) (items_of W0 c) = true ->
     exists it x, In it (items_of W0 c) /\ id_attr (it_attr it) = false /\ sget (it_attr it) attrs = Some x /\ has_data W0 x = true).
  { intros c attrs H. apply existsb_exists in H as [it [Hit H]]. apply andb_prop in H as [H1 H2]. apply negb_true_iff in H1. destruct (sget (it_attr it) attrs) as [x|] eqn:E; [|discriminate]. eauto 8. }
  intros v a y H. cbn [In] in H. destruct H as [H|[H|[H|[H|[]]]]]; injection H as <- <- <-.
  - split; [vm_compute; reflexivity|]. split; [eexists; split; [vm_compute; reflexivity|]; right; eexists; split; [reflexivity|]; vm_compute; tauto|]. split; [apply D; vm_compute; reflexivity|]. eexists. split; vm_compute; reflexivity.
  - split; [vm_compute; reflexivity|]. split; [eexists; split; [vm_compute; reflexivity|]; left; vm_compute; reflexivity|]. split; [apply D; vm_compute; reflexivity|]. eexists. split; vm_compute; reflexivity.
  - split; [vm_compute; reflexivity|]. split; [eexists; split; [vm_compute; reflexivity|]; right; eexists; split; [reflexivity|]; vm_compute; tauto|]. split; [apply D; vm_compute; reflexivity|]. eexists. split; vm_compute; reflexivity.
  - split; [vm_compute; reflexivity|]. split; [eexists; split; [vm_compute; reflexivity|]; left; vm_compute; reflexivity|]. split; [apply D; vm_compute; reflexivity|]. eexists. split; vm_compute; reflexivity.
Qed.
Print Assumptions C33_dropped_refuted.

(** Whatever is true in the sense of [bool()], at any depth, is written: it has
    an element of its own inside the document. *)
Theorem C33_true_parts_written_partial :
  forall arrow prec vb v y e, part (fastkml arrow) v y -> etree (fastkml arrow) prec vb v = Ok e ->
  exists k, etree (fastkml arrow) prec vb y = Ok k /\ below k e.
Proof. intros arrow prec vb v y e Hp He. exact (parts_written _ prec vb v y (fastkml_ok arrow) Hp e He). Qed.
Print Assumptions C33_true_parts_written_partial.

(** For the covering classes (listed below) an object with any data attribute
    set is true, hence written wherever it occurs.  [fine] excludes coordinates
    whose truth value raises an error. *)
Theorem C33_covering_written_partial :
  forall arrow prec vb p c ns nss attrs it x e,
  let W := fastkml arrow in
  let y := VObj c ns nss attrs in
  covering W c = true -> typed W y = true -> fine y = true ->
  In it (items_of W c) -> id_attr (it_attr it) = false -> sget (it_attr it) attrs = Some x -> has_data W x = true ->
  (exists pc pns pnss pattrs j, p = VObj pc pns pnss pattrs /\ In j (items_of W pc) /\ (it_set j = SObj \/ it_set j = SObjs) /\ in_attr p (it_attr j) y /\
     match sget (it_attr j) pattrs with Some (VList _) => it_set j = SObjs | _ => it_set j = SObj end) ->
  etree W prec vb p = Ok e ->
  py_bool W y = Ok true /\ exists k, etree W prec vb y = Ok k /\ below k e.
Proof.
  intros arrow prec vb p c ns nss attrs it x e W y Hc Ht Hf Hit Hid Hx Hd [pc [pns [pnss [pattrs [j [-> [Hj [Hs [[z [Hz Hy]] Hm]]]]]]]]] He.
  assert (B : py_bool W y = Ok true) by exact (covering_true arrow c ns nss attrs it x Hc Ht Hf Hit Hid Hx Hd). split; [exact B|].
  eapply C33_true_parts_written_partial; [|exact He]. cbn [obj_attrs] in Hz. rewrite Hz in Hm. destruct Hy as [->|[l [-> Hl]]].
  - eapply part_attr; [exact Hj|exact Hm|exact Hz|exact B|apply part_self].
  - eapply part_member; [exact Hj|exact Hm|exact Hz|exact Hl|exact B|apply part_self].
Qed.
Print Assumptions C33_covering_written_partial.

(** The covering classes, and those that can hide data. *)
Example C33_covering_classes :
  map fst (filter (fun cc => covering W0 (fst cc)) (w_classes W0)) =
    ["atom._AtomObject"; "base._XMLObject"; "containers._Container"; "containers.Folder"; "containers.Document";
     "data.Schema"; "data.ExtendedData"; "features._Feature"; "features.Placemark"; "geometry.Coordinates";
     "geometry._Geometry"; "kml.KML"; "kml_base._BaseObject"; "model.Orientation"; "model.Scale"; "model.Alias";
     "model.ResourceMap"; "network_link_control.NetworkLinkControl"; "overlays._Overlay"; "overlays.PhotoOverlay";
     "overlays.GroundOverlay"; "overlays.ScreenOverlay"; "styles.StyleUrl"; "styles._StyleSelector"; "styles._ColorStyle";
     "styles.HotSpot"; "styles.LineStyle"; "styles.PolyStyle"; "styles.LabelStyle"; "styles.BalloonStyle"; "styles.Style";
     "styles.StyleMap"; "times._TimePrimitive"; "times.TimeStamp"; "times.TimeSpan"; "views._AbstractView"; "views.Camera";
     "views.LookAt"] /\
  map fst (filter (fun cc => negb (covering W0 (fst cc))) (w_classes W0)) =
    ["atom.Link"; "atom._Person"; "atom.Author"; "atom.Contributor"; "data.SimpleField"; "data.Data"; "data.SimpleData";
     "data.SchemaData"; "features.Snippet"; "features.NetworkLink"; "geometry.Point"; "geometry.LineString";
     "geometry.LinearRing"; "geometry.BoundaryIs"; "geometry.OuterBoundaryIs"; "geometry.InnerBoundaryIs";
     "geometry.Polygon"; "geometry.MultiGeometry"; "gx.Track"; "gx.MultiTrack"; "links.Link"; "links.Icon"; "model.Location";
     "model.Model"; "overlays.ViewVolume"; "overlays.ImagePyramid"; "overlays.LatLonBox"; "overlays._XY";
     "overlays.OverlayXY"; "overlays.ScreenXY"; "overlays.RotationXY"; "overlays.Size"; "styles.IconStyle"; "styles.Pair";
     "views.LatLonAltBox"; "views.Lod"; "views.Region"].
Proof. split; vm_compute; reflexivity. Qed.

(** The geometry classes: points, lines and rings with coordinates of 2 or 3
    finite or infinite numbers each, all of the same length, are true. *)
Theorem C33_coordinates_true_partial :
  forall arrow c ns nss attrs n m at_ b l, In c coord_classes ->
  sget "kml_coordinates" attrs = Some (VObj "geometry.Coordinates" n m at_) -> sget "coords" at_ = Some (VCoords b l) ->
  l <> [] -> ring_fine l -> py_bool (fastkml arrow) (VObj c ns nss attrs) = Ok true.
Proof. exact coordinates_true. Qed.
Print Assumptions C33_coordinates_true_partial.

(** So are boundaries, polygons and multi-geometries made of true ones. *)
Theorem C33_nested_geometry_true_partial :
  forall arrow ns nss attrs,
  let W := fastkml arrow in
  (forall c n m at_, In c ["geometry.BoundaryIs"; "geometry.OuterBoundaryIs"; "geometry.InnerBoundaryIs"] ->
     sget "kml_geometry" attrs = Some (VObj "geometry.LinearRing" n m at_) -> py_bool W (VObj "geometry.LinearRing" n m at_) = Ok true ->
     py_bool W (VObj c ns nss attrs) = Ok true) /\
  (forall x, sget "outer_boundary" attrs = Some x -> py_bool W x = Ok true -> py_bool W (VObj "geometry.Polygon" ns nss attrs) = Ok true) /\
  (forall l x, typed W (VObj "geometry.MultiGeometry" ns nss attrs) = true -> fine (VObj "geometry.MultiGeometry" ns nss attrs) = true ->
     sget "kml_geometries" attrs = Some (VList l) -> In x l -> py_bool W x = Ok true -> py_bool W (VObj "geometry.MultiGeometry" ns nss attrs) = Ok true).
Proof.
  intros arrow ns nss attrs W. split; [|split].
  - intros c n m at_. apply boundary_true.
  - intros x. apply polygon_true.
  - intros l x. apply multi_true.
Qed.
Print Assumptions C33_nested_geometry_true_partial.

Definition s_multi : value := Eval vm_compute in mk "geometry.MultiGeometry" [("kml_geometries", VList [mk "geometry.Point" []; s_polygon; s_point ["1"; "2"]])].
Example C33_example :
  typed W0 s_multi = true /\ fine s_multi = true /\ existsb (truth W0) (match sget "kml_geometries" (obj_attrs s_multi) with Some (VList l) => l | _ => [] end) = true /\
  (forall g, In g [mk "styles.LineStyle" [("width", fl "0")]; mk "views.Camera" []; mk "times.TimeSpan" [("end", date "2001")]] ->
     covering W0 (match g with VObj c _ _ _ => c | _ => "" end) = true /\ typed W0 g = true /\ fine g = true /\ truth W0 g = true).
Proof.
  split; [vm_compute; reflexivity|]. split; [vm_compute; reflexivity|]. split; [vm_compute; reflexivity|].
  intros g H. cbn [In] in H. destruct H as [<-|[<-|[<-|[]]]]; conj_compute.
Qed.

(** ** C34: what the root writes it can read

    Full statement: for every feature class [c] of the library, a KML object
    with an object of class [c] among its features is written so that
    [KML.from_string] gives that feature back.  False for ScreenOverlay. *)

Theorem C34_screen_overlay_refuted :
  exists f v e v',
    is_class "overlays.ScreenOverlay" f = true /\ typed W0 f = true /\ truth W0 f = true /\
    v = VObj "kml.KML" KMLNS nss0 [("features", VList [f])] /\
    etree W0 None Normal v = Ok e /\ map e_tag (e_kids e) = [(KMLNS ++ u "ScreenOverlay")%list] /\
    from_string W0 true "kml.KML" None nss0 e = Ok v' /\ sget "features" (obj_attrs v') = Some (VList []).
Proof.
  exists (mk "overlays.ScreenOverlay" [("name", str "so"); ("rotation", fl "3")]). do 3 eexists.
  conj_compute.
Qed.
Print Assumptions C34_screen_overlay_refuted.

(** Every true feature of a class the root reads (typed objects hold no other)
    comes back with the same data, in strict and in lenient mode. *)
Theorem C34_features_read_partial :
  forall arrow strict nss ns nss' attrs l f e,
  let W := fastkml arrow in
  let v := VObj "kml.KML" ns nss' attrs in
  map_ok (merge_ns nss) = true -> typed W v = true -> regular W (merge_ns nss) v = true -> readable W v = true ->
  etree W None Normal v = Ok e ->
  sget "features" attrs = Some (VList l) -> In f l -> py_bool W f = Ok true ->
  exists attrs' l' f', from_string W strict "kml.KML" None nss e = Ok (VObj "kml.KML" ns nss' attrs') /\
    sget "features" attrs' = Some (VList l') /\ In f' l' /\ same W f f'.
Proof.
  intros arrow strict nss ns nss' attrs l f e W v Hm Ht Hg Hr He Hl Hf Hb.
  assert (R := write_read arrow strict nss "kml.KML" ns nss' attrs e Hm Ht Hg Hr He). fold W in R.
  assert (Hc : class_of W "kml.KML" = Some cl_kml_KML) by reflexivity. assert (F := world_class _ _ _ (fastkml_ok arrow) Hc).
  assert (Ht' := Ht). assert (Hr' := Hr). unfold typed in Ht'. unfold readable in Hr'. cbn [vall v] in Ht', Hr'. apply andb_prop in Ht' as [Tn Tk]. apply andb_prop in Hr' as [Rn Rk].
  assert (Hi : exists it, find_item "features" (items_of W "kml.KML") = Some it /\ it_set it = SObjs) by (eexists; split; vm_compute; reflexivity).
  destruct Hi as [it [Hi Es]]. assert (Hi' := Hi). apply find_item_In in Hi' as [Hit Ea].
  assert (Nt : no_track cl_kml_KML it) by (intro H; discriminate H).
  destruct (nget_put W "kml.KML" cl_kml_KML attrs None F Normal it Hit Nt) as [G _]. rewrite Ea in G.
  rewrite (rb_objs W cl_kml_KML attrs None Normal it Es) in G. change (ckind_of cl_kml_KML "features") with (Some CListNotNone) in G. cbn [put] in G.
  assert (Hyt := o_typed _ _ _ _ _ _ Hc Tn _ _ _ Hl Hi). unfold item_typed in Hyt. rewrite Es in Hyt. rewrite forallb_forall in Hyt. specialize (Hyt f Hf).
  assert (Fobj : match f with VObj _ _ _ _ => true | _ => false end = true) by (destruct f; try discriminate Hyt; reflexivity).
  assert (Hfin : In f (members_of W attrs it)).
  { unfold members_of. rewrite Ea, Hl.
    destruct f as [ | | | | | | | | | | |fc fn fm fa]; try discriminate Hyt. apply SettledProofs.mem_In in Hyt. apply in_concat. eexists. split; [apply in_map_iff; exists fc; split; [reflexivity|exact Hyt]|].
    apply filter_In. split; [exact Hf|]. cbn [is_class]. rewrite String.eqb_refl. cbn [andb]. now apply truth_true. }
  unfold v in R. rewrite (norm_nattrs _ _ _ _ _ _ _ _ Hc) in R. eexists _, (map (norm W None Normal) (members_of W attrs it)), (norm W None Normal f). split; [exact R|]. split; [|split].
  - unfold obj_attr in G. destruct (sget "features" _) eqn:E in G |- *; [now rewrite G|discriminate G].
  - now apply in_map.
  - apply same_norm; [exact (fastkml_ok arrow)| |].
    + rewrite forallb_forall in Tk. specialize (Tk _ (sget_In _ _ _ Hl)). cbn [snd vall] in Tk. rewrite forallb_forall in Tk. specialize (Tk _ Hf). destruct f; try discriminate Fobj. exact Tk.
    + rewrite forallb_forall in Rk. specialize (Rk _ (sget_In _ _ _ Hl)). cbn [snd vall] in Rk. rewrite forallb_forall in Rk. exact (Rk _ Hf).
Qed.
Print Assumptions C34_features_read_partial.

(** The feature classes the root reads, and the one it does not. *)
Example C34_classes :
  let concrete := filter (fun cc => mem "features._Feature" (ci_mro (snd cc)) && negb (String.eqb (substring 0 1 (ci_tag (snd cc))) "_")) (w_classes W0) in
  let readable_classes := concat (map it_classes (items_of W0 "kml.KML")) in
  filter (fun c => negb (mem c readable_classes)) (map fst concrete) = ["overlays.ScreenOverlay"].
Proof. vm_compute. reflexivity. Qed.

Example C34_example :
  exists ns nss attrs l e, s_kml = VObj "kml.KML" ns nss attrs /\ sget "features" attrs = Some (VList l) /\ existsb (truth W0) l = true /\
  map_ok (merge_ns nss0) = true /\ typed W0 s_kml = true /\ regular W0 (merge_ns nss0) s_kml = true /\ readable W0 s_kml = true /\ etree W0 None Normal s_kml = Ok e.
Proof.
  destruct (kml_written Normal) as [e H]. do 4 eexists. exists e. split; [vm_compute; reflexivity|]. split; [vm_compute; reflexivity|]. split; [vm_compute; reflexivity|].
  exact (conj nss0_ok (conj kml_typed (conj kml_regular (conj kml_readable H)))).
Qed.

(** ** C46: what was read can be written

    Full statement: [forall strict e c ns nss v, from_element W strict e c ns nss
    = Ok v -> forall prec vb, exists e', etree W prec vb v = Ok e'].  False. *)

Definition one_two_three : elem := ke "Placemark" [] None [ke "LineString" [] None [te "coordinates" "1 2 3"]].

(** A line whose coordinates lack commas is read without error, in strict mode;
    writing it raises TypeError. *)
Theorem C46_line_refuted :
  exists v, from_element W0 true one_two_three "features.Placemark" KMLNS nss0 = Ok v /\ etree W0 None Normal v = Err ETypeError.
Proof. eexists. conj_compute. Qed.
Print Assumptions C46_line_refuted.

Definition nan_polygon : elem := ke "MultiGeometry" [] None [ke "Polygon" [] None [ke "outerBoundaryIs" [] None [ke "LinearRing" [] None
  [te "coordinates" "0,0,nan 1,1,1 1,0,1 0,0,1"]]]].

(** A polygon with a NaN altitude makes the multi-geometry raise
    DimensionError. *)
Theorem C46_nan_refuted :
  exists v, from_element W0 true (ke "Placemark" [] None [nan_polygon]) "features.Placemark" KMLNS nss0 = Ok v /\
  etree W0 None Normal v = Err EDimension.
Proof. eexists. conj_compute. Qed.
Print Assumptions C46_nan_refuted.

(** When all coordinate tuples that were read have two or three members, none
    of them NaN, the object can be written, with every precision and
    verbosity. *)
Theorem C46_read_then_written_partial :
  forall arrow strict e c ns nss v,
  let W := fastkml arrow in
  from_element W strict e c ns nss = Ok v -> fine v = true ->
  forall prec vb, exists e', etree W prec vb v = Ok e'.
Proof.
  intros arrow strict e c ns nss v W Hr Hf prec vb. assert (HW := fastkml_ok arrow). fold W in HW.
  assert (P := read_prints W strict prec e c ns nss v HW Hr).
  destruct (reader_inv W strict e HW c ns nss v Hr) as [[Ht _] [attrs ->]].
  exact (proj1 (write_total arrow prec vb _ Ht Hf P)).
Qed.
Print Assumptions C46_read_then_written_partial.

(** The same for objects built by hand, as long as their attributes have the
    declared types and integers have less than 4300 digits and, when a precision is given, are in the
    range of a float. *)
Theorem C46_typed_written_partial :
  forall arrow prec vb c ns nss attrs,
  let v := VObj c ns nss attrs in
  typed (fastkml arrow) v = true -> fine v = true -> prints prec v = true ->
  exists e, etree (fastkml arrow) prec vb v = Ok e.
Proof. intros arrow prec vb c ns nss attrs v Ht Hf Hp. exact (proj1 (write_total arrow prec vb v Ht Hf Hp)). Qed.
Print Assumptions C46_typed_written_partial.

(** When writing fails: KMLWriteError for coordinates whose first point has not
    two or three numbers, TypeError only if some point has not, DimensionError
    only if there is a NaN among the coordinates, ValueError (or OverflowError)
    only for an integer too large to be printed.  Nothing else is raised. *)
Theorem C46_exceptions :
  forall arrow prec vb c ns nss attrs x,
  let v := VObj c ns nss attrs in
  typed (fastkml arrow) v = true -> etree (fastkml arrow) prec vb v = Err x -> write_failure prec v x.
Proof. intros arrow prec vb c ns nss attrs x v Ht E. exact (proj1 (write_raises arrow prec vb v Ht) x E). Qed.
Print Assumptions C46_exceptions.

(** What was read has no such integers. *)
Theorem C46_read_exceptions :
  forall arrow strict e c ns nss v prec vb x,
  let W := fastkml arrow in
  from_element W strict e c ns nss = Ok v -> etree W prec vb v = Err x ->
  x = EKMLWrite /\ sized v = false \/ x = ETypeError /\ coords_are two_or_three v = false \/ x = EDimension /\ coords_are no_nan v = false.
Proof.
  intros arrow strict e c ns nss v prec vb x W Hr E. assert (HW := fastkml_ok arrow). fold W in HW.
  assert (P := read_prints W strict prec e c ns nss v HW Hr).
  destruct (reader_inv W strict e HW c ns nss v Hr) as [[Ht _] [attrs ->]].
  destruct (C46_exceptions arrow prec vb _ _ _ _ x Ht E) as [F|F|F|F]; [auto|auto|auto|congruence].
Qed.
Print Assumptions C46_read_exceptions.

Definition placed (g : elem) : res elem :=
  match from_element W0 true (ke "Placemark" [] None [g]) "features.Placemark" KMLNS nss0 with Ok v => etree W0 None Normal v | Err x => Err x end.
Definition far_away : value := VObj "geometry.Coordinates" KMLNS nss0 [("coords", VCoords true [[NInt (10 ^ 309); NInt 0]])].

(** All the exceptions occur. *)
Example C46_exceptions_example :
  placed (ke "LineString" [] None [te "coordinates" "1 2"]) = Err ETypeError /\ placed nan_polygon = Err EDimension /\
  (exists v, from_element W0 true (te "coordinates" "1") "geometry.Coordinates" KMLNS nss0 = Ok v /\ etree W0 None Normal v = Err EKMLWrite) /\
  typed W0 far_away = true /\ etree W0 (Some 2%nat) Normal far_away = Err EValueError.
Proof.
  split; [vm_compute; reflexivity|]. split; [vm_compute; reflexivity|]. split; [eexists; conj_compute|]. split; vm_compute; reflexivity.
Qed.

Example C46_example :
  exists e v, etree W0 None Normal s_kml = Ok e /\ from_element W0 false e "kml.KML" KMLNS nss0 = Ok v /\ fine v = true /\
    (exists ns nss attrs, s_kml = VObj "kml.KML" ns nss attrs) /\ typed W0 s_kml = true /\ fine s_kml = true /\ prints (Some 3%nat) s_kml = true.
Proof.
  destruct (kml_written Normal) as [e H]. exists e, s_kml. split; [exact H|]. split; [exact (kml_read false e H)|]. split; [exact kml_fine|]. split; [do 2 eexists; exact kml_obj|]. split; [exact kml_typed|]. split; [exact kml_fine|]. vm_compute. reflexivity.
Qed.

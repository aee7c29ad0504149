(** * The registry and additional registrations: C17, C18. *)
From Coq Require Import String List NArith ZArith Bool Lia.
From Verif Require Import Ustr UstrProofs Res PyInt PyFloat PyDate Elem Value Geom Codec Tables Spec Settled Same FastkmlOk
  EmitProofs RoundTrip SettledProofs NsProofs ReaderTyped Generations SameProofs ItemProofs WriteProofs Extend ExtendProofs ExtendWriteProofs ExtendReadProofs NewClass NewClassProofs Samples.
Import ListNotations.
Local Open Scope string_scope.

(** ** C17 *)

(** The items registered for exactly the class [c] in the history, in order. *)
Definition calls_for (c : string) (h : history) : list item :=
  map snd (filter (fun ci => String.eqb (fst ci) c) h).

(** After any history of [register] calls on top of any registry,
    [registry.get] yields, for the classes of the MRO from the last to the
    first, what was there and then what was registered for the class. *)
Theorem C17_items_after_history :
  forall h reg mro,
  reg_items (register_all h reg) mro = flat_map (fun c => reg_items reg [c] ++ calls_for c h)%list (rev mro).
Proof.
  intros h reg mro. rewrite reg_items_get, <- flat_map_concat_map. generalize (rev mro). intro l.
  assert (E : forall c, reg_get (register_all h reg) c = (reg_items reg [c] ++ calls_for c h)%list).
  { intro c. replace (reg_items reg [c]) with (reg_get reg c) by (rewrite reg_items_get; cbn; now rewrite app_nil_r). revert reg. unfold register_all. induction h as [|[d it] h IH]; intro reg; cbn [fold_left fst snd].
    - unfold calls_for. cbn. now rewrite app_nil_r.
    - rewrite IH, reg_get_add. unfold calls_for. cbn [filter fst]. rewrite (String.eqb_sym d c). destruct (String.eqb_spec c d) as [->|]; [|reflexivity]. cbn [map snd]. now rewrite <- app_assoc. }
  induction l as [|c l IH]; [reflexivity|]. cbn [flat_map]. now rewrite E, IH.
Qed.
Print Assumptions C17_items_after_history.

(** One more registration: nothing changes for classes that are not below [d]. *)
Theorem C17_other_classes :
  forall reg d it mro, ~ In d mro -> reg_items (reg_add reg d it) mro = reg_items reg mro.
Proof. intros. now apply reg_items_other. Qed.
Print Assumptions C17_other_classes.

(** For [d] and the classes below, the item comes after everything registered
    for [d] and its ancestors, before everything registered for the classes
    between; the rest keeps its order. *)
Theorem C17_position :
  forall reg d it below above,
  NoDup (below ++ d :: above) ->
  exists before after,
    before = reg_items reg (d :: above) /\ after = reg_items reg below /\
    reg_items reg (below ++ d :: above) = (before ++ after)%list /\
    reg_items (reg_add reg d it) (below ++ d :: above) = (before ++ it :: after)%list.
Proof.
  intros reg d it below above Hn. apply NoDup_remove_2 in Hn. do 2 eexists. split; [reflexivity|]. split; [reflexivity|].
  destruct (reg_items_add reg d it below above) as [E1 E2]; [intro; apply Hn, in_or_app; now left|intro; apply Hn, in_or_app; now right|].
  replace (reg_items reg (d :: above)) with (reg_items reg above ++ reg_get reg d)%list; [now split|].
  change (d :: above) with ([d] ++ above)%list. rewrite reg_items_app, (reg_items_get _ [d]). cbn. now rewrite app_nil_r.
Qed.
Print Assumptions C17_position.

(** [registry.register(Placemark, ...)]: a text element [rating]. *)
Definition it_rating : item := mkItm ["kml"] [] "rating" GText SText "rating" VNone.
(** A second one, with an object: another point. *)
Definition it_entry : item := mkItm ["kml"] ["geometry.Point"] "entry" GObj SObj "Point" VNone.
Definition it_stars : item := mkItm [""] ["int"] "stars" GAttrInt SAttrInt "stars" VNone.

Example C17_example :
  let reg := w_registry W0 in
  let h := [("features.Placemark", it_rating); ("features._Feature", it_stars); ("features.Placemark", it_stars)] in
  let names c := map it_attr (reg_items (register_all h reg) (match class_of W0 c with Some ci => ci_mro ci | None => [] end)) in
  last (names "features.Placemark") "" = "stars" /\ In "stars" (names "containers.Folder") /\ ~ In "rating" (names "containers.Folder").
Proof. cbv zeta. split; [vm_compute; reflexivity|]. split; [vm_compute; tauto|]. vm_compute. intuition discriminate. Qed.

(** ** C18

    Full statement: for every registration of an item with unused names,
    existing attributes are read and written as before, and the new one
    round-trips (unless registered on the root).

    This is false for classes whose constructor does not take unknown
    arguments: the overlays.  Once an item is registered for them (or for a
    class above), elements with the new child can not be read any more. *)

Definition e_overlay : elem := ke "GroundOverlay" [] None [ke "name" [] (Some "o") []; ke "rating" [] (Some "5") []].

Theorem C18_overlay_refuted :
  exists d it e v,
    In d (ci_mro cl_overlays_GroundOverlay) /\ item_ok W0 it = true /\
    disjoint (item_names W0 it) (concat (map (item_names W0) (items_of W0 "overlays.GroundOverlay"))) = true /\
    ~ In (it_attr it) (map it_attr (items_of W0 "overlays.GroundOverlay")) /\
    from_string W0 true "overlays.GroundOverlay" None [] e = Ok v /\
    from_string (extend W0 d it) true "overlays.GroundOverlay" None [] e = Err ETypeError /\
    from_string (extend W0 d it) false "overlays.GroundOverlay" None [] e = Err ETypeError.
Proof.
  exists "features._Feature", it_rating, e_overlay. eexists. split; [vm_compute; tauto|]. split; [vm_compute; reflexivity|]. split; [vm_compute; reflexivity|]. split; [vm_compute; intuition discriminate|].
  split; [vm_compute; reflexivity|]. split; vm_compute; reflexivity.
Qed.
Print Assumptions C18_overlay_refuted.

(** [reached arrow W]: [W] is the library after any number of registrations
    with unused names and definitions of new classes (C54). *)

(** Reading: whatever the extended library reads from an element, the library
    without the registration reads too, apart from the new attribute. *)
Theorem C18_reading_partial :
  forall arrow W d it strict e c ns nss v,
  reached arrow W -> fresh W d it = true ->
  from_element (extend W d it) strict e c ns nss = Ok v ->
  from_element W strict e c ns nss = Ok (forget W d (it_attr it) v).
Proof. intros arrow W d it strict e c ns nss v R F. destruct (reached_ok _ _ R) as [H1 [_ H3]]. now apply read_forget. Qed.
Print Assumptions C18_reading_partial.

(** Elements without the new names are read exactly as before, errors included. *)
Theorem C18_reading_old_documents_partial :
  forall arrow W d it strict e c ns nss,
  reached arrow W -> fresh W d it = true -> it_get it <> GObjs ->
  untouched W it (merge_ns nss) e = true ->
  from_element (extend W d it) strict e c ns nss = from_element W strict e c ns nss.
Proof. intros arrow W d it strict e c ns nss R F G. destruct (reached_ok _ _ R) as [H1 [_ H3]]. now apply read_untouched. Qed.
Print Assumptions C18_reading_old_documents_partial.

(** Writing: the element is the one written before with additional child
    elements and attributes under the new names. *)
Theorem C18_writing_partial :
  forall arrow W d it prec vb v e',
  reached arrow W -> fresh W d it = true -> typed (extend W d it) v = true ->
  etree (extend W d it) prec vb v = Ok e' ->
  exists e, etree W prec vb v = Ok e /\ grown (item_names W it) (item_attrs it) e e'.
Proof.
  intros arrow W d it prec vb v e' R F Ht. destruct (reached_ok _ _ R) as [H1 [_ H3]]. assert (G : vall (typed_node (extend W d it)) v = true) by (destruct v; [discriminate Ht..|exact Ht]).
  exact (proj1 (write_grows W d it H1 H3 F prec vb v G) e').
Qed.
Print Assumptions C18_writing_partial.

(** Objects that do not have the new attribute are written as before, errors
    included, if no default is written for it. *)
Theorem C18_writing_old_objects_partial :
  forall arrow W d it prec vb v,
  reached arrow W -> fresh W d it = true -> vb <> Verbose \/ it_default it = VNone ->
  lacks W d (it_attr it) v = true ->
  etree (extend W d it) prec vb v = etree W prec vb v.
Proof. intros arrow W d it prec vb v R F D L. destruct (reached_ok _ _ R) as [H1 [_ H3]]. exact (proj1 (write_same W d it H1 H3 F prec vb D v L)). Qed.
Print Assumptions C18_writing_old_objects_partial.

(** The new attribute round-trips together with everything else. *)
Theorem C18_round_trip_partial :
  forall arrow W d it strict nss c ns nss' attrs e,
  reached arrow W -> fresh W d it = true ->
  let W' := extend W d it in
  let v := VObj c ns nss' attrs in
  map_ok (merge_ns nss) = true -> typed W' v = true -> regular W' (merge_ns nss) v = true -> readable W' v = true ->
  etree W' None Normal v = Ok e ->
  exists v', from_string W' strict c None nss e = Ok v' /\ same W' v v' /\ (settled W' v = true -> v' = v).
Proof.
  intros arrow W d it strict nss c ns nss' attrs e R F W' v Hm Ht Hg Hr He.
  destruct (reached_ok _ _ (reached_step _ _ _ _ R F)) as [H1 [H2 _]]. fold W' in H1, H2.
  assert (Rt := regular_rt W' (merge_ns nss) H1 H2 Hm v Ht Hg Hr).
  exists (norm W' None Normal v). split; [|split; [now apply same_norm|intro Hs; now apply settled_norm]].
  unfold regular in Hg. cbn [vall v] in Hg. apply andb_prop in Hg as [Hg _]. apply andb_prop in Hg as [G1 G2]. apply same_nss_eq in G2. subst nss'.
  apply ueqb_eq in G1. subst ns. unfold from_string. now apply roundtrip.
Qed.
Print Assumptions C18_round_trip_partial.

Lemma root_only W d it prec vb v : mros_ok W = true -> (forall c ci, class_of W c = Some ci -> mem d (ci_mro ci) = true -> ci_root ci = true) ->
  etree (extend W d it) prec vb v = etree W prec vb v /\ match v with VList l => Forall (fun y => etree (extend W d it) prec vb y = etree W prec vb y) l | _ => True end.
Proof.
  intros HM Root.
  induction v as [ |b|n|s|c w|k|c|b l|l|l|l IH|c ns nss attrs IH] using value_ind'; try (split; [reflexivity|exact I]).
  - split; [reflexivity|]. rewrite Forall_forall in IH |- *. intros y Hy. exact (proj1 (IH y Hy)).
  - split; [|exact I]. rewrite Forall_forall in IH.
    assert (Ew : ws_of (extend W d it) prec vb attrs = ws_of W prec vb attrs).
    { unfold ws_of. apply map_ext_in. intros [a x] Hx. specialize (IH (a, x) Hx). cbn [snd] in IH. unfold w_attr. rewrite (proj1 IH). f_equal. f_equal. destruct x; try reflexivity. apply map_ext_in. intros y Hy. destruct IH as [_ IH]. rewrite Forall_forall in IH. now rewrite IH. }
    rewrite !etree_obj, Ew. unfold write_with. change (class_of (extend W d it) c) with (class_of W c). destruct (class_of W c) as [ci|] eqn:Hc; [|reflexivity].
    destruct (ci_root ci) eqn:Hr; [now rewrite !set_element_emit, emit_ext|].
    rewrite !set_elements_emit, (map_res_ext_in _ _ _ (fun j _ => emit_ext W d it prec vb ci ns nss attrs (ws_of W prec vb attrs) j)).
    destruct (ext_items W d it HM c ci Hc) as [[_ ->]|[Hm _]]; [reflexivity|]. rewrite (Root c ci Hc Hm) in Hr. discriminate.
Qed.

Definition root_below (d : string) (cc : string * class_info) : bool := negb (mem d (ci_mro (snd cc))) || ci_root (snd cc).
Lemma fastkml_root_below arrow : forallb (root_below "kml.KML") (w_classes (fastkml arrow)) = true.
Proof. vm_compute. reflexivity. Qed.

(** Items registered on the root are never written, whatever they are. *)
Theorem C18_root_items_not_written :
  forall arrow it prec vb v,
  etree (extend (fastkml arrow) "kml.KML" it) prec vb v = etree (fastkml arrow) prec vb v.
Proof.
  intros arrow it prec vb v. refine (proj1 (root_only (fastkml arrow) "kml.KML" it prec vb v (fastkml_mros arrow) _)).
  assert (A := fastkml_root_below arrow). revert A. generalize (fastkml arrow). clear. intros W A c ci Hc M. rewrite forallb_forall in A. specialize (A _ (sget_In _ _ _ Hc)). unfold root_below in A. cbn [snd] in A. rewrite M in A. exact A.
Qed.
Print Assumptions C18_root_items_not_written.

(** Although they are read. *)
Example C18_root_items_are_read :
  exists v, from_string (extend W0 "kml.KML" it_rating) true "kml.KML" None [] (ke "kml" [] None [ke "rating" [] (Some "5") []]) = Ok v /\
  match v with VObj _ _ _ attrs => sget "rating" attrs | _ => None end = Some (str "5").
Proof. eexists. split; vm_compute; reflexivity. Qed.

(** Three registrations on top of each other, and a placemark in a document
    that uses them. *)
Definition W3 : world := extend (extend (extend W0 "features.Placemark" it_rating) "features.Placemark" it_stars) "containers.Document" it_entry.

Example C18_reached : reached (fun _ => None) (extend (extend W0 "features.Placemark" it_rating) "features.Placemark" it_stars) /\
  fresh (extend (extend W0 "features.Placemark" it_rating) "features.Placemark" it_stars) "containers.Document" it_entry = true.
Proof. split; [|vm_compute; reflexivity]. constructor; [constructor; [constructor|]|]; vm_compute; reflexivity. Qed.

Definition mk3 (c : string) (kws : list (string * value)) : value :=
  match construct W3 c (default_ns W3 c nss0) nss0 kws with Ok v => v | Err _ => VNone end.
Definition s_rated : value := Eval vm_compute in
  mk3 "containers.Document" [("name", str "d"); ("entry", s_point ["1"; "2"]);
    ("features", VList [mk3 "features.Placemark" [("name", str "p"); ("rating", str "good"); ("stars", VInt 4); ("kml_geometry", s_point ["3"; "4"])]])].

Example C18_example :
  exists attrs e, s_rated = VObj "containers.Document" KMLNS nss0 attrs /\
  typed W3 s_rated = true /\ regular W3 (merge_ns nss0) s_rated = true /\ readable W3 s_rated = true /\ settled W3 s_rated = true /\
  etree W3 None Normal s_rated = Ok e /\ size s_rated = 6%nat.
Proof. do 2 eexists. split; [vm_compute; reflexivity|]. split; [vm_compute; reflexivity|]. split; [vm_compute; reflexivity|]. split; [vm_compute; reflexivity|]. split; [vm_compute; reflexivity|]. split; [vm_compute; reflexivity|]. vm_compute. reflexivity. Qed.

(** An old document and an old object. *)
Example C18_old_example :
  untouched W0 it_rating (merge_ns []) (ke "Document" [] None [ke "Placemark" [("id", "a")] None [ke "name" [] (Some "b") []]]) = true /\
  untouched W0 it_rating (merge_ns []) (ke "Document" [] None [ke "Placemark" [] None [ke "rating" [] (Some "b") []]]) = false /\
  lacks W3 "containers.Document" "entry" s_kml = true /\ lacks W3 "containers.Document" "entry" s_rated = false.
Proof. repeat match goal with |- _ /\ _ => split end; vm_compute; reflexivity. Qed.

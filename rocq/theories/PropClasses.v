(** * Classes defined by users of the library: C54. *)
From Coq Require Import String List NArith ZArith Bool Lia.
From Verif Require Import Ustr UstrProofs Res PyInt PyFloat PyDate Elem Value Geom Codec Tables Spec Settled Same FastkmlOk
  EmitProofs RoundTrip SettledProofs NsProofs ReaderTyped Generations SameProofs ItemProofs WriteProofs Extend ExtendProofs NewClass NewClassProofs Samples.
Import ListNotations.
Local Open Scope string_scope.

(** Full statement (C54): the definition of a new class, derived from whatever
    class of the library, together with its registrations, changes nothing in
    the reading and writing of anything else; its objects, and the documents
    that contain them, survive writing and reading.

    The second part fails for objects of a derived class in the place of
    objects of the base class, and for items that are looked for in another
    name space than that of the class: see the refutations. *)

Theorem C54_reading_unchanged :
  forall arrow W c ci its strict k nss e,
  reached arrow W -> new_class W c ci its = true -> known_class W k = true ->
  let W' := add_class W c ci its in
  (forall ns, from_element W' strict e k ns nss = from_element W strict e k ns nss) /\
  (forall ns, from_string W' strict k ns nss e = from_string W strict k ns nss e) /\
  (forall ns, kml_parse W' strict k ns nss e = kml_parse W strict k ns nss e).
Proof.
  intros arrow W c ci its strict k nss e R N K W'. destruct (reached_ok _ _ R) as [H1 _].
  assert (E : forall e ns nss, from_element W' strict e k ns nss = from_element W strict e k ns nss) by (intros; now apply (read_other W c ci its H1 N)).
  split; [auto|]. split; [|intros; apply E]. intro ns. unfold from_string. cbv zeta. rewrite E. f_equal. destruct ns; [reflexivity|]. unfold default_ns, W'. now rewrite (class_other W c ci its k (known_other W c ci its N k K)).
Qed.
Print Assumptions C54_reading_unchanged.

Theorem C54_writing_unchanged :
  forall arrow W c ci its prec vb v,
  reached arrow W -> new_class W c ci its = true -> of_library W v = true ->
  etree (add_class W c ci its) prec vb v = etree W prec vb v.
Proof. intros arrow W c ci its prec vb v R N K. exact (proj1 (etree_other W c ci its N prec vb v K)). Qed.
Print Assumptions C54_writing_unchanged.

(** Objects of new classes and objects with new attributes, at any depth. *)
Theorem C54_round_trip_partial :
  forall arrow W strict nss c ns nss' attrs e,
  reached arrow W ->
  let v := VObj c ns nss' attrs in
  map_ok (merge_ns nss) = true -> typed W v = true -> regular W (merge_ns nss) v = true -> readable W v = true ->
  etree W None Normal v = Ok e ->
  exists v', from_string W strict c None nss e = Ok v' /\ same W v v' /\ (settled W v = true -> v' = v).
Proof.
  intros arrow W strict nss c ns nss' attrs e R v Hm Ht Hg Hr He.
  destruct (reached_ok _ _ R) as [H1 [H2 _]].
  assert (Rt := regular_rt W (merge_ns nss) H1 H2 Hm v Ht Hg Hr).
  exists (norm W None Normal v). split; [|split; [now apply same_norm|intro Hs; now apply settled_norm]].
  unfold regular in Hg. cbn [vall v] in Hg. apply andb_prop in Hg as [Hg _]. apply andb_prop in Hg as [G1 G2]. apply same_nss_eq in G2. subst nss'.
  apply ueqb_eq in G1. subst ns. unfold from_string. now apply roundtrip.
Qed.
Print Assumptions C54_round_trip_partial.

(** ** The class of the documentation

    docs/working_with_kml.rst:94-156, examples/transform_cascading_style.py:24-72 *)
Definition cl_cascading : class_info := mkCls
  ["CascadingStyle"; "kml_base._BaseObject"; "base._XMLObject"] "CascadingStyle" "gx"
  [("style", CRaw)] [("id", COrEmpty); ("target_id", COrEmpty)] ["id"; "style"; "target_id"] true BTrue GkNone false.
Definition it_cs_style : item := mkItm ["kml"; ""] ["styles.Style"] "style" GObj SObj "Style" VNone.
Definition it_cascading : item := mkItm ["gx"] ["CascadingStyle"] "gx_cascading_style" GObjs SObjs "CascadingStyle" VNone.

Definition W_cs : world := add_class W0 "CascadingStyle" cl_cascading [it_cs_style].
Definition W_doc : world := extend W_cs "containers.Document" it_cascading.

Example C54_documented : new_class W0 "CascadingStyle" cl_cascading [it_cs_style] = true /\ fresh W_cs "containers.Document" it_cascading = true.
Proof. split; vm_compute; reflexivity. Qed.
Lemma documented_reached : reached (fun _ => None) W_doc.
Proof. apply reached_step; [apply reached_class; [apply reached_start|]|]; vm_compute; reflexivity. Qed.

Definition mkd (c : string) (kws : list (string * value)) : value :=
  match construct W_doc c (default_ns W_doc c nss0) nss0 kws with Ok v => v | Err _ => VNone end.
Definition s_cascading : value := Eval vm_compute in
  mkd "containers.Document" [("name", str "Test2");
    ("gx_cascading_style", VList [mkd "CascadingStyle" [("id", str "a"); ("style", s_style)]; mkd "CascadingStyle" [("id", str "b"); ("style", s_style)]]);
    ("features", VList [mkd "features.Placemark" [("name", str "Ort1"); ("kml_geometry", s_point ["3"; "4"])]])].

Example C54_example :
  exists attrs e, s_cascading = VObj "containers.Document" KMLNS nss0 attrs /\
  typed W_doc s_cascading = true /\ regular W_doc (merge_ns nss0) s_cascading = true /\ readable W_doc s_cascading = true /\ settled W_doc s_cascading = true /\
  etree W_doc None Normal s_cascading = Ok e /\ of_library W0 s_cascading = false /\ of_library W0 s_kml = true.
Proof. do 2 eexists. split; [vm_compute; reflexivity|]. split; [vm_compute; reflexivity|]. split; [vm_compute; reflexivity|]. split; [vm_compute; reflexivity|]. split; [vm_compute; reflexivity|]. split; [vm_compute; reflexivity|]. split; vm_compute; reflexivity. Qed.

(** ** Refutations *)

(** class MyPlacemark(Placemark): pass *)
Definition cl_my_placemark : class_info :=
  let c := cl_features_Placemark in
  mkCls ("MyPlacemark" :: ci_mro c) "MyPlacemark" (ci_nsid c) (ci_pre c) (ci_post c) (ci_params c) (ci_kwargs c) (ci_bool c) (ci_geom c) (ci_root c).
Definition W_my : world := add_class W0 "MyPlacemark" cl_my_placemark [].
Definition mk_my (c : string) (kws : list (string * value)) : value :=
  match construct W_my c (default_ns W_my c nss0) nss0 kws with Ok v => v | Err _ => VNone end.
Definition s_my : value := Eval vm_compute in
  mk_my "containers.Folder" [("name", str "f"); ("features", VList [mk_my "MyPlacemark" [("name", str "p")]])].

(** It is written, but not read again: the folder comes back empty. *)
Theorem C54_derived_object_refuted :
  exists v e v', new_class W0 "MyPlacemark" cl_my_placemark [] = true /\
  mk_my "MyPlacemark" [("name", str "p")] <> VNone /\
  sget "features" (obj_attrs v) = Some (VList [mk_my "MyPlacemark" [("name", str "p")]]) /\
  etree W_my None Normal v = Ok e /\ length (e_kids e) = 2%nat /\
  from_string W_my true "containers.Folder" None nss0 e = Ok v' /\ sget "features" (obj_attrs v') = Some (VList []).
Proof. exists s_my. do 2 eexists. split; [vm_compute; reflexivity|]. split; [vm_compute; discriminate|]. split; [vm_compute; reflexivity|]. split; [vm_compute; reflexivity|]. split; [vm_compute; reflexivity|]. split; vm_compute; reflexivity. Qed.
Print Assumptions C54_derived_object_refuted.

(** The class of the documentation with a text registered for ns_ids ("kml", ""),
    as in all registrations of the library. *)
Definition cl_titled : class_info := mkCls
  ["Titled"; "kml_base._BaseObject"; "base._XMLObject"] "Titled" "gx"
  [("title", CRaw)] [("id", COrEmpty); ("target_id", COrEmpty)] ["id"; "target_id"; "title"] true BTrue GkNone false.
Definition it_title : item := mkItm ["kml"; ""] ["str"] "title" GText SText "title" VNone.
Definition W_ti : world := add_class W0 "Titled" cl_titled [it_title].
Definition s_titled : value := Eval vm_compute in
  match construct W_ti "Titled" (default_ns W_ti "Titled" nss0) nss0 [("title", str "t")] with Ok v => v | Err _ => VNone end.

Theorem C54_name_space_refuted :
  exists v e v', class_ok W_ti cl_titled (items_of W_ti "Titled") = true /\ typed W_ti v = true /\ regular W_ti (merge_ns nss0) v = true /\ readable W_ti v = true /\
  sget "title" (obj_attrs v) = Some (str "t") /\ etree W_ti None Normal v = Ok e /\
  from_string W_ti true "Titled" None nss0 e = Ok v' /\ sget "title" (obj_attrs v') = Some VNone.
Proof. exists s_titled. do 2 eexists. split; [vm_compute; reflexivity|]. split; [vm_compute; reflexivity|]. split; [vm_compute; reflexivity|]. split; [vm_compute; reflexivity|]. split; [vm_compute; reflexivity|]. split; [vm_compute; reflexivity|]. split; vm_compute; reflexivity. Qed.
Print Assumptions C54_name_space_refuted.

(** * Name spaces of documents: C16, C29. *)
From Coq Require Import String List NArith ZArith Bool Lia.
From Verif Require Import Ustr UstrProofs Res PyInt PyFloat PyDate Elem Value Geom Codec Tables Spec Api FastkmlOk NsProofs
  Erase NsChange NsChangeProofs LayoutProofs Samples.
Import ListNotations.
Local Open Scope string_scope.

(** A document written down without prefixes. *)
Definition qe (tag : string) (attrib : list (string * string)) (text : option string) (kids : list qelem) : qelem :=
  QElem "kml" (u tag) (map (fun kv => (u (fst kv), u (snd kv))) attrib) (option_map u text) kids.
Definition qt (tag text : string) : qelem := qe tag [] (Some text) [].

(** ** C16 *)

(** A document in the KML name space and the same document without name space
    give the same data, or raise the same exception, provided that at every
    level only children occur that the class looks for under both name spaces
    and that are not kept in lists ([fallback_ok], NsChange.v). *)
Theorem C16_fallback_partial :
  forall arrow strict q c ns ns' nss, let W := fastkml arrow in
  forallb (fun kv => good_ns (snd kv)) (merge_ns nss) = true -> plain_names q = true -> fallback_ok W q c = true ->
  res_rel same_data (from_element W strict (bound (merge_ns nss) (under "kml" q)) c ns nss)
                    (from_element W strict (bound (merge_ns nss) (under "" q)) c ns' nss).
Proof. intros arrow strict q c ns ns' nss W Hm Hp Hf. exact (fallback W strict (fastkml_ok arrow) q c ns ns' nss Hm Hp Hf). Qed.
Print Assumptions C16_fallback_partial.

Definition q_placemark : qelem :=
  qe "Placemark" [("id", "p")] None [
    qt "name" "n"; qt "visibility" "1"; qt "Snippet" "s";
    qe "Point" [] None [qt "coordinates" "1,2,3"; qt "altitudeMode" "absolute"];
    qe "LookAt" [] None [qt "longitude" "1.5"; qt "heading" "2"];
    qe "TimeSpan" [] None [qt "begin" "2000"; qt "end" "2001"]].
Example C16_a_placemark :
  plain_names q_placemark = true /\ fallback_ok W0 q_placemark "features.Placemark" = true /\
  bound (merge_ns []) (under "" q_placemark) <> bound (merge_ns []) (under "kml" q_placemark) /\
  is_ok (from_element W0 true (bound (merge_ns []) (under "" q_placemark)) "features.Placemark" [] []) = true.
Proof. repeat split; try (vm_compute; reflexivity). vm_compute. discriminate. Qed.

(** Not for lists, although features declare the fallback: a folder without
    name space loses its placemarks. *)
Theorem C16_fallback_refuted :
  exists q v v', 
    from_element W0 true (bound (merge_ns []) (under "kml" q)) "containers.Folder" KMLNS [] = Ok v /\
    from_element W0 true (bound (merge_ns []) (under "" q)) "containers.Folder" KMLNS [] = Ok v' /\
    (forall it, In it (items_of W0 "containers.Folder") -> it_attr it = "features" -> mem "" (it_nsids it) = true) /\
    plain_names q = true /\ ~ same_data v v'.
Proof.
  exists (qe "Folder" [] None [qe "Placemark" [] None [qt "name" "n"]]). do 2 eexists.
  split; [vm_compute; reflexivity|]. split; [vm_compute; reflexivity|]. split.
  { assert (E : forallb (fun it => negb (String.eqb (it_attr it) "features") || mem "" (it_nsids it)) (items_of W0 "containers.Folder") = true) by (vm_compute; reflexivity).
    intros it Hi Ha. rewrite forallb_forall in E. specialize (E it Hi). now rewrite Ha in E. }
  split; [vm_compute; reflexivity|]. vm_compute. discriminate.
Qed.
Print Assumptions C16_fallback_refuted.

(** ** C29 *)

(** Reading depends on name spaces only through which of them are equal:
    whatever URIs the prefixes of a document are bound to, as long as the
    reader is given the same binding and the same prefixes are told apart, the
    same data is read. *)
Theorem C29_uris_do_not_matter :
  forall arrow strict q c ns ns' nss nss', let W := fastkml arrow in
  forallb (fun kv => good_ns (snd kv)) (merge_ns nss) = true -> forallb (fun kv => good_ns (snd kv)) (merge_ns nss') = true ->
  plain_names q = true -> ns_get (merge_ns nss) "" = [] -> ns_get (merge_ns nss') "" = [] ->
  same_distinctions ("" :: known_prefixes W ++ prefixes q)%list (merge_ns nss) (merge_ns nss') ->
  res_rel same_data (from_element W strict (bound (merge_ns nss) q) c ns nss) (from_element W strict (bound (merge_ns nss') q) c ns' nss').
Proof. intros arrow strict q c ns ns' nss nss' W. apply uris_irrelevant. exact (fastkml_ok arrow). Qed.
Print Assumptions C29_uris_do_not_matter.

Lemma parse_ns_tag K : parse_ns (K ++ u "kml")%list = K.
Proof.
  unfold parse_ns. rewrite ends_with_tail by (cbn; lia). change (ends_with (u "kml") (u "kml")) with true. cbv iota.
  rewrite app_length. replace (length K + length (u "kml") - 3)%nat with (length K) by (cbn; lia). now rewrite firstn_app, firstn_all, Nat.sub_diag, app_nil_r.
Qed.

Lemma sset_nodup {A} k (v : A) l : NoDup (map fst l) -> NoDup (map fst (sset k v l)).
Proof.
  intro H. destruct (sset_keys k v l) as [->|[Hn ->]]; [exact H|]. now apply NoDup_snoc.
Qed.

Lemma kml_bound K nss p : NoDup (map fst nss) -> ns_get (merge_ns (sset "kml" K nss)) p = if String.eqb p "kml" then K else ns_get (merge_ns nss) p.
Proof.
  intro H. unfold ns_get. rewrite !merge_lookup, sget_sset by (try apply sset_nodup; exact H). now destruct (String.eqb_spec p "kml").
Qed.

(** [KML.parse] without [ns] argument takes the name space from the root
    element: the document [<kml xmlns="K">] gives the same data whatever [K] is,
    as long as it is not the URI of another prefix in use. *)
Theorem C29_parse_detects_the_name_space :
  forall arrow strict nss K K' a x ks, let W := fastkml arrow in
  let q := QElem "kml" (u "kml") a x ks in
  NoDup (map fst nss) -> K <> [] -> K' <> [] ->
  forallb (fun kv => good_ns (snd kv)) (merge_ns (sset "kml" K nss)) = true ->
  forallb (fun kv => good_ns (snd kv)) (merge_ns (sset "kml" K' nss)) = true ->
  plain_names q = true -> ns_get (merge_ns nss) "" = [] ->
  (forall p, In p (known_prefixes W ++ prefixes q)%list -> p <> "kml" -> ns_get (merge_ns nss) p <> K /\ ns_get (merge_ns nss) p <> K') ->
  res_rel same_data (kml_parse W strict "kml.KML" None nss (bound (merge_ns (sset "kml" K nss)) q))
                    (kml_parse W strict "kml.KML" None nss (bound (merge_ns (sset "kml" K' nss)) q)).
Proof.
  intros arrow strict nss K K' a x ks W q Hd HK HK' G G' Hp E0 Hn.
  assert (R : forall L, L <> [] -> kml_parse W strict "kml.KML" None nss (bound (merge_ns (sset "kml" L nss)) q) =
                        from_element W strict (bound (merge_ns (sset "kml" L nss)) q) "kml.KML" L (merge_ns (sset "kml" L nss))).
  { intros L HL. unfold kml_parse. cbn [bound q e_tag]. rewrite kml_bound by exact Hd. cbn [String.eqb Ascii.eqb Bool.eqb]. rewrite parse_ns_tag. now destruct L. }
  rewrite !R by assumption.
  assert (M : forall L, bound (merge_ns (sset "kml" L nss)) q = bound (merge_ns (merge_ns (sset "kml" L nss))) q) by (intro; now rewrite merge_ns_idem).
  rewrite (M K), (M K'). apply (uris_irrelevant W strict (fastkml_ok arrow)); rewrite ?merge_ns_idem; try assumption; try (rewrite kml_bound by exact Hd; exact E0).
  intros p p' Hi Hi'. rewrite !kml_bound by exact Hd.
  assert (N : forall p, In p ("" :: known_prefixes W ++ prefixes q)%list -> p <> "kml" -> ns_get (merge_ns nss) p <> K /\ ns_get (merge_ns nss) p <> K').
  { intros p0 [<-|H] N; [rewrite E0; split; congruence|now apply Hn]. }
  destruct (String.eqb_spec p "kml") as [->|Np], (String.eqb_spec p' "kml") as [->|Np']; try tauto.
  - destruct (N p' Hi' Np'). split; intro; exfalso; congruence.
  - destruct (N p Hi Np). split; intro; exfalso; congruence.
Qed.
Print Assumptions C29_parse_detects_the_name_space.

Definition q_kml : qelem := QElem "kml" (u "kml") [] None [qe "Document" [("id", "d")] None [qt "name" "n"; qe "Placemark" [] None [QElem "gx" (u "Track") [] None []]]].
Example C29_two_name_spaces :
  let K := u "{http://earth.google.com/kml/2.1}" in let K' := u "{http://www.opengis.net/kml/2.3}" in let nss := [("my", u "{urn:my}")] in
  forallb (fun kv => good_ns (snd kv)) (merge_ns (sset "kml" K nss)) = true /\ forallb (fun kv => good_ns (snd kv)) (merge_ns (sset "kml" K' nss)) = true /\
  plain_names q_kml = true /\
  forallb (fun p => String.eqb p "kml" || (negb (ueqb (ns_get (merge_ns nss) p) K) && negb (ueqb (ns_get (merge_ns nss) p) K'))) (known_prefixes W0 ++ prefixes q_kml)%list = true /\
  is_ok (kml_parse W0 true "kml.KML" None nss (bound (merge_ns (sset "kml" K nss)) q_kml)) = true.
Proof. repeat split; vm_compute; reflexivity. Qed.

(** An explicit [ns] is used whatever the root element is called, and becomes
    the name space of the root object. *)
Theorem C29_explicit_ns_wins :
  forall W strict c n nss t t' a x ks,
  kml_parse W strict c (Some n) nss (Elem t a x ks) = kml_parse W strict c (Some n) nss (Elem t' a x ks) /\
  forall v, kml_parse W strict c (Some n) nss (Elem t a x ks) = Ok v -> exists nss' attrs, v = VObj c n nss' attrs.
Proof.
  intros W strict c n nss t t' a x ks. split; [reflexivity|]. intros v H. unfold kml_parse in H. cbn [from_element] in H. unfold read_with in H. cbv zeta in H.
  destruct (get_kwargs _ _ _ _ _ _ _ _) as [kws|]; [|discriminate]. cbn [bind] in H. unfold construct in H. destruct (class_of W c); [|discriminate].
  destruct (_ && _); [discriminate|]. destruct (map_res _ _); [|discriminate]. cbn [bind] in H. destruct (map_res _ _); [|discriminate]. cbn [bind] in H. injection H as <-. eauto.
Qed.
Print Assumptions C29_explicit_ns_wins.

(** The dictionary passed as [name_spaces] is modified by the call. *)
Theorem C29_arguments_unchanged_refuted :
  exists nss root, is_ok (kml_parse W0 true "kml.KML" None nss root) = true /\ kml_parse_dict None nss root <> nss.
Proof.
  exists [("my", u "{urn:my}")], (ke "kml" [] None [ke "Document" [] None []]). split; [vm_compute; reflexivity|]. vm_compute. discriminate.
Qed.
Print Assumptions C29_arguments_unchanged_refuted.

(** A document without any name space is read as an empty one: its features are
    not found (compare C16). *)
Example C29_no_name_space_reads_nothing :
  forall v, kml_parse W0 true "kml.KML" None [] (bound [] (under "" q_kml)) = Ok v ->
  exists ns nss attrs, v = VObj "kml.KML" ns nss attrs /\ sget "features" attrs = Some (VList []).
Proof. intros v H. vm_compute in H. injection H as <-. do 3 eexists. split; reflexivity. Qed.

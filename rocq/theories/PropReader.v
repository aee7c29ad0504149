(** * What the reader makes of arbitrary elements: C03, C04, C14, C31, C43. *)
From Coq Require Import String List NArith ZArith Bool Lia.
From Verif Require Import Ustr UstrProofs Res PyInt PyFloat PyDate Elem Value Geom Codec Tables Spec Api FastkmlOk NsProofs
  Agree AgreeProofs StrictProofs Calm TotalProofs HarmlessProofs RaiseProofs AbsentProofs Layout LayoutProofs Samples.
Import ListNotations.
Local Open Scope string_scope.

(** ** C03 *)

(** Whatever the registry contains: an element (a string, a file) that is
    accepted in strict mode gives the same object in lenient mode. *)
Theorem C03_strict_success_is_lenient_success :
  forall W e c ns nss v, from_element W true e c ns nss = Ok v -> from_element W false e c ns nss = Ok v.
Proof. exact strict_lenient. Qed.
Print Assumptions C03_strict_success_is_lenient_success.

Theorem C03_from_string :
  forall W c ns nss e v, from_string W true c ns nss e = Ok v -> from_string W false c ns nss e = Ok v.
Proof. intros W c ns nss e v. unfold from_string. apply strict_lenient. Qed.
Print Assumptions C03_from_string.

Theorem C03_parse :
  forall W c ns nss e v, kml_parse W true c ns nss e = Ok v -> kml_parse W false c ns nss e = Ok v.
Proof. intros W c ns nss e v. unfold kml_parse. apply strict_lenient. Qed.
Print Assumptions C03_parse.

(** Attribute [a] of an object. *)
Definition attr_value (W : world) (v : value) (a : string) : value :=
  match v with
  | VObj c _ _ attrs => match class_of W c with Some ci => obj_attr ci attrs a | None => VNone end
  | _ => VNone
  end.

(** A document accepted in strict mode, and one where the modes differ. *)
Definition doc_good : elem :=
  ke "Document" [("id", "d")] None [
    te "name" " A name "; te "visibility" "1"; te "open" "0";
    ke "Placemark" [] None [
      te "name" "inner"; ke "Point" [] None [te "altitudeMode" "absolute"; te "coordinates" "1,2,3"];
      ke "TimeStamp" [] None [te "when" "2001-02-03"]];
    ke "Folder" [] None [ke "Placemark" [("id", "p")] None []]].

Example C03_holds_of_a_document : exists v,
  from_string W0 true "containers.Document" None [] doc_good = Ok v /\ from_string W0 false "containers.Document" None [] doc_good = Ok v /\
  attr_value W0 v "visibility" = VBool true.
Proof. eexists. split; [vm_compute; reflexivity|]. split; vm_compute; reflexivity. Qed.

(** The converse does not hold: [<visibility>TRUE</visibility>]. *)
Example C03_modes_differ :
  from_string W0 true "containers.Document" None [] (ke "Document" [] None [te "visibility" "TRUE"]) = Err EKMLParse /\
  is_ok (from_string W0 false "containers.Document" None [] (ke "Document" [] None [te "visibility" "TRUE"])) = true.
Proof. split; vm_compute; reflexivity. Qed.

(** ** C04 *)

(** Strict reading either raises [KMLParseError] or does exactly what lenient
    reading does, be it returning an object or raising another exception. *)
Theorem C04_strict_raises_parse_error_or_agrees :
  forall W e c ns nss,
  from_element W true e c ns nss = Err EKMLParse \/ from_element W true e c ns nss = from_element W false e c ns nss.
Proof. exact strict_or_lenient. Qed.
Print Assumptions C04_strict_raises_parse_error_or_agrees.

(** Exactly when lenient reading returns an object (Calm.v): this says which
    constructs are not guarded, for every registry in working order. *)
Theorem C04_lenient_returns_iff_calm_partial :
  forall arrow e c ns nss,
  (exists v, from_element (fastkml arrow) false e c ns nss = Ok v) <-> calm (fastkml arrow) (merge_ns nss) e c = true.
Proof.
  intros arrow e c ns nss. rewrite <- (lenient_calm (fastkml arrow) e (fastkml_ok arrow) c ns nss).
  destruct (from_element _ false e c ns nss) as [v|x]; cbn [is_ok]; (split; intro H); try reflexivity; try discriminate; [now exists v|now destruct H as [w H]].
Qed.
Print Assumptions C04_lenient_returns_iff_calm_partial.

(** The full claim ([forall e c, exists v, … = Ok v]) is false, see below.  It
    holds for every element without [Schema] and [Track] elements and without
    non-integer [length] and [maxLines] attributes: lenient reading as any
    class other than those two returns an object. *)
Theorem C04_lenient_never_raises_partial :
  forall arrow e c ns nss,
  known_class (fastkml arrow) c = true -> c <> "data.Schema" -> c <> "gx.Track" -> harmless e = true ->
  exists v, from_element (fastkml arrow) false e c ns nss = Ok v.
Proof.
  intros arrow e c ns nss Hc N1 N2 He. apply C04_lenient_returns_iff_calm_partial. apply (harmless_calm _ (fastkml_hazards arrow)); [exact Hc| |exact He].
  unfold special. apply orb_false_iff. split; now apply String.eqb_neq.
Qed.
Print Assumptions C04_lenient_never_raises_partial.

(** And strict reading of such an element raises nothing but [KMLParseError]. *)
Theorem C04_strict_raises_only_parse_error_partial :
  forall arrow e c ns nss x,
  known_class (fastkml arrow) c = true -> c <> "data.Schema" -> c <> "gx.Track" -> harmless e = true ->
  from_element (fastkml arrow) true e c ns nss = Err x -> x = EKMLParse.
Proof.
  intros arrow e c ns nss x Hc N1 N2 He H. destruct (strict_or_lenient (fastkml arrow) e c ns nss) as [E|E]; [congruence|].
  destruct (C04_lenient_never_raises_partial arrow e c ns nss Hc N1 N2 He) as [v Hv]. congruence.
Qed.
Print Assumptions C04_strict_raises_only_parse_error_partial.

(** Whatever the element, reading raises one of four exceptions.
    [KMLParseError] comes from strict reading only; [ValueError] needs an
    attribute [length] or [maxLines] that is no integer; [KMLSchemaError] needs a
    [Schema], [TypeError] a [Track], as the element itself or below it. *)
Theorem C04_exceptions_partial :
  forall arrow strict e c ns nss x,
  known_class (fastkml arrow) c = true ->
  from_element (fastkml arrow) strict e c ns nss = Err x ->
  (x = EKMLParse /\ strict = true) \/
  (x = EValueError /\ integers_ok e = false) \/
  (x = EKMLSchema /\ (c = "data.Schema" \/ free_of (u "Schema") e = false)) \/
  (x = ETypeError /\ (c = "gx.Track" \/ free_of (u "Track") e = false)).
Proof.
  intros arrow strict e c ns nss x Hc H.
  assert (L : from_element (fastkml arrow) false e c ns nss = Err x \/ (x = EKMLParse /\ strict = true)).
  { destruct strict; [|now left]. destruct (strict_or_lenient (fastkml arrow) e c ns nss) as [E|E]; [right|left]; [split; congruence|congruence]. }
  destruct L as [L|L]; [|now left]. right.
  destruct (lenient_source _ (fastkml_ok arrow) (fastkml_sources arrow) e c ns nss x Hc L) as [S|S|S]; auto.
Qed.
Print Assumptions C04_exceptions_partial.

(** One document with the three hazards, and what each of them raises alone. *)
Example C04_exceptions_example :
  let bad l := ke "Document" [] None [ke "Placemark" [] None l] in
  let snippet := ke "Snippet" [("maxLines", "two")] (Some "s") [] in
  let track := gxe "Track" [] None [ke "when" [] None []] in
  let schema := ke "Schema" [] None [] in
  let read e := from_string W0 false "containers.Document" None [] e in
  read (bad [snippet]) = Err EValueError /\ integers_ok (bad [snippet]) = false /\
  read (bad [track]) = Err ETypeError /\ integers_ok (bad [track]) = true /\ free_of (u "Track") (bad [track]) = false /\
  read (ke "Document" [] None [schema]) = Err EKMLSchema /\ free_of (u "Schema") (bad [track]) = true.
Proof. cbv zeta. repeat split; vm_compute; reflexivity. Qed.

(** A thoroughly broken document meets the hypotheses. *)
Definition doc_broken : elem :=
  ke "Document" [("nonsense", "x")] (Some "stray text") [
    te "visibility" "perhaps"; te "open" ""; ke "foo" [] None [te "bar" "baz"];
    ke "Placemark" [] None [ke "Point" [] None [te "coordinates" "1,x,3 4"; te "altitudeMode" "underground"]; ke "TimeStamp" [] None [te "when" "yesterday"]];
    ke "Style" [] None [ke "LineStyle" [] None [te "width" "thick"]]].
Example C04_broken_document :
  harmless doc_broken = true /\ is_ok (from_string W0 false "containers.Document" None [] doc_broken) = true /\
  from_string W0 true "containers.Document" None [] doc_broken = Err EKMLParse.
Proof. repeat split; vm_compute; reflexivity. Qed.

(** Lenient reading raises: [ValueError] for an attribute that should be an
    integer, [KMLSchemaError] for a schema without id, [TypeError] for an empty
    [when], for a blank [gx:coord] and for more times than positions. *)
Theorem C04_lenient_never_raises_refuted :
  exists e c ns nss, known_class W0 c = true /\ is_ok (from_element W0 false e c ns nss) = false.
Proof. exists (ke "Snippet" [("maxLines", "two")] None []), "features.Snippet", KMLNS, []. split; vm_compute; reflexivity. Qed.
Print Assumptions C04_lenient_never_raises_refuted.

Theorem C04_strict_raises_only_parse_error_refuted :
  exists e c ns nss x, from_element W0 true e c ns nss = Err x /\ x <> EKMLParse.
Proof. exists (ke "Snippet" [("maxLines", "two")] None []), "features.Snippet", KMLNS, [], EValueError. split; [vm_compute; reflexivity|discriminate]. Qed.
Print Assumptions C04_strict_raises_only_parse_error_refuted.

Example C04_unguarded :
  from_element W0 false (ke "Snippet" [("maxLines", "two")] None []) "features.Snippet" KMLNS [] = Err EValueError /\
  from_element W0 false (ke "Schema" [("name", "n")] None []) "data.Schema" KMLNS [] = Err EKMLSchema /\
  from_element W0 false (gxe "Track" [] None [ke "when" [] None []]) "gx.Track" GXNS [] = Err ETypeError /\
  from_element W0 false (gxe "Track" [] None [te "when" "2000"; gxe "coord" [] (Some " ") []]) "gx.Track" GXNS [] = Err ETypeError /\
  from_element W0 false (gxe "Track" [] None [te "when" "2000"; te "when" "2001"; gxe "coord" [] (Some "1 2 3") []]) "gx.Track" GXNS [] = Err ETypeError.
Proof. repeat split; vm_compute; reflexivity. Qed.

(** ** C14 *)

(** Children with different tags may change places, children and XML attributes
    unknown to the library may be added and removed, anywhere in the document:
    the outcome is the same. *)
Theorem C14_edits_do_not_matter :
  forall W strict nss e e' c ns, edited W (merge_ns nss) e e' ->
  from_string W strict c ns nss e = from_string W strict c ns nss e'.
Proof. intros W strict nss e e' c ns H. unfold from_string. now apply edited_read. Qed.
Print Assumptions C14_edits_do_not_matter.

(** The outcome depends on the children only through the sequence of children
    with each tag, and not on the tag of the element itself. *)
Theorem C14_only_sequences_per_tag_matter :
  forall W strict c ns nss t t' a x ks ks',
  (forall tag, filter (fun k => ueqb (e_tag k) tag) ks = filter (fun k => ueqb (e_tag k) tag) ks') ->
  from_element W strict (Elem t a x ks) c ns nss = from_element W strict (Elem t' a x ks') c ns nss.
Proof. exact same_children. Qed.
Print Assumptions C14_only_sequences_per_tag_matter.

(** More precisely (Agree.v): for each item of the class only the XML
    attribute, the text or the children it names matter, and for attributes
    that hold a single value only the first such child. *)
Theorem C14_only_what_is_looked_for_matters :
  forall W strict e e' c ns nss, agree W (merge_ns nss) c e e' ->
  from_element W strict e c ns nss = from_element W strict e' c ns nss.
Proof. exact agree_read. Qed.
Print Assumptions C14_only_what_is_looked_for_matters.

Lemma foreign_unknown arrow : unknown_tag (fastkml arrow) (merge_ns []) (u "{urn:x}extra").
Proof.
  assert (E : forallb (fun cc => forallb (fun it => forallb (fun id =>
      negb (ueqb (u "{urn:x}extra") (ns_get (merge_ns []) id ++ u (it_node it))%list) &&
      forallb (fun c' => negb (ueqb (u "{urn:x}extra") (ns_get (merge_ns []) id ++ u (tag_of (fastkml arrow) c'))%list)) (it_classes it))
      (it_nsids it)) (items_of (fastkml arrow) (fst cc))) (w_classes (fastkml arrow)) = true) by (vm_compute; reflexivity).
  intros c it id Hi Hid. rewrite forallb_forall in E. assert (Hi' := Hi). unfold items_of in Hi'. destruct (class_of (fastkml arrow) c) as [ci|] eqn:Ec; [|contradiction].
  specialize (E (c, ci) (EmitProofs.sget_In _ _ _ Ec)). cbn [fst] in E. rewrite forallb_forall in E. specialize (E it Hi). rewrite forallb_forall in E. specialize (E id Hid).
  apply andb_prop in E as [E1 E2]. split; [intro H; apply ueqb_eq in H; now rewrite H in E1|]. intros c' Hc' H. rewrite forallb_forall in E2. specialize (E2 c' Hc').
  apply ueqb_eq in H. now rewrite H in E2.
Qed.

(** A foreign element inside the placemark, and name and description swapped. *)
Example C14_two_layouts :
  edited W0 (merge_ns [])
    (ke "Folder" [] None [ke "Placemark" [] None [te "name" "n"; Elem (u "{urn:x}extra") [] (Some (u "z")) []; te "description" "d"]])
    (ke "Folder" [] None [ke "Placemark" [] None [te "description" "d"; te "name" "n"]]) /\
  is_ok (from_string W0 true "containers.Folder" None [] (ke "Folder" [] None [ke "Placemark" [] None [te "description" "d"; te "name" "n"]])) = true.
Proof.
  split; [|vm_compute; reflexivity]. unfold ke at 1 3. apply (ed_below _ _ _ _ _ [] _ _ []). eapply ed_trans.
  - apply (ed_child W0 (merge_ns []) _ _ _ [te "name" "n"] (Elem (u "{urn:x}extra") [] (Some (u "z")) []) [te "description" "d"]). apply foreign_unknown.
  - apply (ed_swap W0 (merge_ns []) _ _ _ [] (te "name" "n") (te "description" "d") []). vm_compute. discriminate.
Qed.

(** XML attributes in another order. *)
Example C14_two_orders :
  edited W0 (merge_ns []) (ke "Folder" [("id", "a"); ("targetId", "b")] None []) (ke "Folder" [("targetId", "b"); ("id", "a")] None []) /\
  is_ok (from_string W0 true "containers.Folder" None [] (ke "Folder" [("id", "a"); ("targetId", "b")] None [])) = true.
Proof. split; [|vm_compute; reflexivity]. unfold ke. apply (ed_attrs _ _ _ []). vm_compute. discriminate. Qed.

(** Order does matter between children with the same tag. *)
Example C14_same_tag_order_matters :
  from_string W0 true "containers.Folder" None [] (ke "Folder" [] None [te "name" "a"; te "name" "b"]) <>
  from_string W0 true "containers.Folder" None [] (ke "Folder" [] None [te "name" "b"; te "name" "a"]).
Proof. vm_compute. discriminate. Qed.

(** ** C31 *)

(** White space around the text of any element, and any blank text in elements
    that have children, may change at any depth ([respaced], Layout.v).  Two
    exceptions are part of the relation: the text of [when] in a track is not
    stripped, and a coordinate element is not read the same when its blank text
    disappears altogether. *)
Theorem C31_white_space_is_invisible_partial :
  forall arrow strict e e' c ns nss, respaced e e' ->
  (c = "geometry.Coordinates" -> ends_with (e_tag e) (u "coordinates") = true) ->
  from_element (fastkml arrow) strict e c ns nss = from_element (fastkml arrow) strict e' c ns nss.
Proof. intros arrow strict e e' c ns nss H Hf. apply agree_read. exact (respaced_agree _ _ (fastkml_layout arrow) _ _ _ H Hf). Qed.
Print Assumptions C31_white_space_is_invisible_partial.

Definition flat : elem := ke "Placemark" [] None [te "name" "n"; ke "Point" [] None [te "coordinates" "1,2,3"]; te "visibility" "1"].
Definition pretty : elem := ke "Placemark" [] (Some "
  ") [te "name" "
     n "; ke "Point" [] (Some "
    ") [te "coordinates" "
      1,2,3
    "]; te "visibility" "  1  "].
Example C31_two_layouts : respaced flat pretty /\ is_ok (from_string W0 true "features.Placemark" None [] flat) = true.
Proof.
  split; [|vm_compute; reflexivity]. unfold flat, pretty.
  repeat first [apply Forall2_nil | apply Forall2_cons | apply resp | (vm_compute; reflexivity) | (vm_compute; split; [reflexivity|split; discriminate])].
Qed.

(** The full claim fails for [when] and [coord] in a track. *)
Theorem C31_white_space_is_invisible_refuted :
  exists e e' c ns nss,
    e_tag e = e_tag e' /\
    map (fun k => stripped (e_text k)) (e_kids e) = map (fun k => stripped (e_text k)) (e_kids e') /\
    map e_tag (e_kids e) = map e_tag (e_kids e') /\ e_attrib e = e_attrib e' /\ e_text e = e_text e' /\
    is_ok (from_element W0 true e c ns nss) = true /\ from_element W0 true e' c ns nss = Err EKMLParse.
Proof.
  exists (gxe "Track" [] None [te "when" "2000"; gxe "coord" [] (Some "1 2 3") []]),
         (gxe "Track" [] None [te "when" " 2000 "; gxe "coord" [] (Some "1 2 3") []]), "gx.Track", GXNS, [].
  repeat split; vm_compute; reflexivity.
Qed.
Print Assumptions C31_white_space_is_invisible_refuted.

(** ** C43 *)

(** What the element does not contain is absent from the object: [None], an
    empty text, an empty list.  Except for the angles of a track. *)
Theorem C43_nothing_is_invented_partial :
  forall arrow strict e c ns nss ci ns' nss' attrs it, let W := fastkml arrow in
  class_of W c = Some ci -> from_element W strict e c ns nss = Ok (VObj c ns' nss' attrs) ->
  In it (items_of W c) -> absent W nss' it e -> (c = "gx.Track" -> it_attr it <> "angles") ->
  empty_value (obj_attr ci attrs (it_attr it)) = true.
Proof.
  intros arrow strict e c ns nss ci ns' nss' attrs it W Hc H Hi Ha Hang. eapply absent_empty; eauto; [exact (fastkml_ok arrow)|].
  intro Ht. apply Hang. assert (G : forallb (fun cc => negb (is_track (snd cc)) || String.eqb (fst cc) "gx.Track") (w_classes W) = true) by (vm_compute; reflexivity).
  rewrite forallb_forall in G. specialize (G _ (EmitProofs.sget_In _ _ _ Hc)). cbn [fst snd] in G. rewrite Ht in G. now apply String.eqb_eq in G.
Qed.
Print Assumptions C43_nothing_is_invented_partial.

(** A placemark with name only: all other attributes are empty. *)
Example C43_name_only :
  match from_element W0 true (ke "Placemark" [] None [te "name" "n"]) "features.Placemark" KMLNS [], class_of W0 "features.Placemark" with
  | Ok (VObj _ _ _ attrs), Some ci =>
      forallb (fun it => if String.eqb (it_attr it) "name" then negb (empty_value (obj_attr ci attrs (it_attr it))) else empty_value (obj_attr ci attrs (it_attr it)))
        (items_of W0 "features.Placemark")
  | _, _ => false
  end = true.
Proof. vm_compute. reflexivity. Qed.

(** A track without [gx:angles] gets an angle of [0 0 0]. *)
Theorem C43_nothing_is_invented_refuted :
  exists e v it nss,
    from_element W0 true e "gx.Track" GXNS [] = Ok v /\ (exists attrs, v = VObj "gx.Track" GXNS nss attrs) /\
    In it (items_of W0 "gx.Track") /\ absent W0 nss it e /\ empty_value (attr_value W0 v (it_attr it)) = false.
Proof.
  exists (gxe "Track" [] None [te "when" "2000"; gxe "coord" [] (Some "1 2 3") []]).
  destruct (find (fun it => String.eqb (it_attr it) "angles") (items_of W0 "gx.Track")) as [it|] eqn:E; [|vm_compute in E; discriminate].
  assert (Hi := find_some _ _ E). eexists. exists it. eexists. split; [vm_compute; reflexivity|]. split; [eexists; reflexivity|]. split; [apply Hi|].
  vm_compute in E. injection E as <-. split; [|vm_compute; reflexivity].
  intros id [<-|[<-|[]]]; vm_compute; reflexivity.
Qed.
Print Assumptions C43_nothing_is_invented_refuted.

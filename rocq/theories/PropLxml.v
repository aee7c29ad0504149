(** * Text and files written with lxml: C56. *)
From Coq Require Import String List NArith ZArith Bool Lia.
From Verif Require Import Ustr UstrProofs Res PyInt PyFloat PyDate Elem Value Geom Codec Tables Spec Settled Same Agree HarmlessProofs Layout LayoutProofs FastkmlOk
  RoundTrip SettledProofs NsProofs SameProofs ExtendWriteProofs Unprefixed UnprefixedProofs PropRoundTrip PropNamespaces PropUnprefixed PropReader
  Xml XmlSpec XmlDoc XmlProofs XmlNsProofs XmlDocProofs XmlWriteProofs PropXml Lxml LxmlSpec LxmlWriteProofs LxmlProofs LxmlTextProofs Samples SampleProofs.
Import ListNotations.
Local Open Scope string_scope.
Local Open Scope list_scope.

(** ** C56

    Full statement: with lxml, with and without [pretty_print], [to_string]
    gives a text that [from_string] reads, strict or not and with either
    library; the result has the same data, and is the same as for the text that
    ElementTree writes.

    It holds when the strings of the object consist of characters that XML
    allows, its name spaces need no escaping ([lxml_object]), and no object
    without name space is inside a KML object that has one ([all_qualified]).
    It fails otherwise: see the refutations. *)

Lemma fastkml_laid arrow : laid_world (fastkml arrow) ["kml"; "gx"] = true.
Proof. vm_compute. reflexivity. Qed.

Lemma vall_imp P Q v : (forall c ns nss a, P c ns nss a = true -> Q c ns nss a = true) -> vall P v = true -> vall Q v = true.
Proof.
  intros H V. apply (vall_both P P Q v); auto.
Qed.

Lemma lx_written arrow known fresh pretty prec vb v e : let W := fastkml arrow in
  known_ok known = true -> typed W v = true -> lxml_object v = true -> (nsmap_root W v = true -> all_qualified v = true) -> etree W prec vb v = Ok e ->
  exists s r, lx_to_string W known fresh pretty prec vb v = Ok s /\ forallb xml_char s = true /\ firstn 1 s = [60%N] /\
    respaced (as_read [] e) r /\ (pretty = false -> r = as_read [] e) /\ (forall lib enc, enc None = true -> parse_document lib enc s = Some r) /\
    ((forall nss attrs, v <> VObj "kml.KML" [] nss attrs) -> as_read [] e = e).
Proof.
  intros W K T X Q He. unfold lxml_object in X. apply andb_prop in X as [X1 X2].
  assert (T' : vall (typed_node W) v = true) by (destruct v; try discriminate T; exact T).
  assert (G : good xml_char e /\ (unrooted W v = true -> no_xmlns e = true)).
  { refine (etree_good xml_char (fun c H => proj1 (andb_prop _ _ H)) (fun _ H => H) W (fastkml_ok arrow) (fastkml_xml arrow) prec vb v T X1 _ e He).
    assert (R := typed_rootless W (fastkml_rootless arrow) v T'). destruct v; try exact R. reflexivity. }
  destruct G as [(G1 & G2 & G3) N].
  set (root := nsmap_root W v) in *. set (ok := fun ns => ns_plain ns && (negb root || qualified ns)).
  assert (L : laid ok e).
  { refine (etree_laid W ok ["kml"; "gx"] (fastkml_xml arrow) (fastkml_laid arrow) prec vb v _ e He). unfold ns_all.
    assert (Y : vall (fun _ ns nss _ => (ns_plain ns && forallb (fun kv => ns_plain (snd kv)) nss) && (negb root || qualified ns && qualified (ns_get nss "kml") && qualified (ns_get nss "gx"))) v = true).
    { destruct root.
      - apply (vall_both (fun _ ns nss _ => ns_plain ns && forallb (fun kv => ns_plain (snd kv)) nss) (fun _ ns nss _ => qualified ns && qualified (ns_get nss "kml") && qualified (ns_get nss "gx"))); [|exact X2|exact (Q eq_refl)].
        intros c ns nss a H1 H2. cbn [negb orb]. now rewrite H1, H2.
      - revert X2. apply vall_imp. intros c ns nss a H. cbn [negb orb]. now rewrite H. }
    revert Y. apply vall_imp. intros c ns nss a H. apply andb_prop in H as [H1 H2]. apply andb_prop in H1 as [H0 H1]. unfold ok. rewrite H0.
    assert (Gn : forall id, ns_plain (ns_get nss id) = true).
    { intro id. unfold ns_get. destruct (sget id nss) as [n|] eqn:E; [|reflexivity]. apply EmitProofs.sget_In in E. rewrite forallb_forall in H1. exact (H1 _ E). }
    cbn [forallb]. rewrite !Gn. cbn [andb]. rewrite andb_true_r. destruct (negb root); [reflexivity|]. cbn [orb] in *. rewrite !andb_true_iff in *. tauto. }
  assert (Ok_plain : forall ns, ok ns = true -> ns_plain ns = true) by (intros ns H; now apply andb_prop in H).
  assert (Un : root = true -> unrooted W v = true).
  { unfold root, nsmap_root, unrooted. destruct v; try reflexivity. destruct (class_of W cls) as [ci|]; [|reflexivity]. intro H. apply andb_prop in H as [-> H]. now destruct ns. }
  destruct (lx_told known fresh K ok Ok_plain e root pretty L G1 G2) as (V & C & F & r & R1 & R2 & R3).
  { intro R. split; [|auto]. intros ns H. apply andb_prop in H as [_ H]. rewrite R in H. cbn [negb orb] in H. intros ->. discriminate H. }
  eexists. exists r. split; [unfold lx_to_string; rewrite He; cbn [bind]; fold root; rewrite V; reflexivity|]. repeat (split; [assumption|]).
  intro R. apply as_read_id, N. unfold unrooted. fold W. destruct v; try reflexivity. destruct (class_of W cls) as [ci|] eqn:E; [|reflexivity]. destruct (ci_root ci) eqn:Y; [|reflexivity].
  assert (cls = "kml.KML") by (exact (fastkml_root arrow cls ci E Y)). subst cls. destruct ns; [|reflexivity]. exfalso. now apply (R nss attrs).
Qed.

(** The text is well-formed XML, all of its characters can be encoded, and
    either XML library builds from it the element that was written, but for the
    white space of [pretty_print], and a plain [xmlns] attribute is understood;
    whatever prefixes are registered or generated. *)
Theorem C56_lxml_tells_the_element :
  forall arrow known fresh pretty prec vb v e, let W := fastkml arrow in
  known_ok known = true -> typed W v = true -> lxml_object v = true -> (nsmap_root W v = true -> all_qualified v = true) -> etree W prec vb v = Ok e ->
  exists s r, lx_to_string W known fresh pretty prec vb v = Ok s /\ forallb xml_char s = true /\ (forall lib, fromstring lib s = Some r) /\
    respaced (as_read [] e) r /\ (pretty = false -> r = as_read [] e) /\ ((forall nss attrs, v <> VObj "kml.KML" [] nss attrs) -> as_read [] e = e).
Proof.
  intros arrow known fresh pretty prec vb v e W K T X Q He. destruct (lx_written arrow known fresh pretty prec vb v e K T X Q He) as (s & r & S1 & S2 & _ & S3 & S4 & S5 & S6). exists s, r.
  repeat (split; [assumption|]). split; [|auto]. intro lib. unfold fromstring. apply S5. now destruct lib.
Qed.
Print Assumptions C56_lxml_tells_the_element.

Lemma respaced_tag e e' : respaced e e' -> e_tag e = e_tag e'.
Proof. now destruct 1. Qed.

(** Reading the text gives an object with the same data, and the same object
    when it is settled. *)
Theorem C56_lxml_round_trip_partial :
  forall arrow known fresh pretty lib strict nss c ns nss' attrs e, let W := fastkml arrow in let v := VObj c ns nss' attrs in
  known_ok known = true -> (c <> "kml.KML" \/ ns <> []) ->
  map_ok (merge_ns nss) = true -> typed W v = true -> regular W (merge_ns nss) v = true -> readable W v = true ->
  lxml_object v = true -> (nsmap_root W v = true -> all_qualified v = true) ->
  etree W None Normal v = Ok e ->
  exists s v', lx_to_string W known fresh pretty None Normal v = Ok s /\ from_text W lib strict c None nss s = Some (Ok v') /\ same W v v' /\ (settled W v = true -> v' = v).
Proof.
  intros arrow known fresh pretty lib strict nss c ns nss' attrs e W v K R Hm Ht Hg Hr Hx Hq He.
  destruct (C56_lxml_tells_the_element arrow known fresh pretty None Normal v e K Ht Hx Hq He) as (s & r & S1 & _ & S2 & S3 & _ & S5). exists s, (norm W None Normal v). split; [exact S1|].
  rewrite S5 in S3 by (intros n a E; injection E; intros; destruct R; congruence). unfold from_text. rewrite (S2 lib). split; [|split].
  - f_equal. transitivity (from_string W strict c None nss e); [|exact (write_read arrow strict nss c ns nss' attrs e Hm Ht Hg Hr He)]. unfold from_string. symmetry. apply C31_white_space_is_invisible_partial; [exact S3|].
    intros ->. rewrite (etree_tag _ _ _ _ _ _ _ _ He). apply ends_with_app.
  - apply same_norm; [exact (fastkml_ok arrow)|assumption..].
  - intro Hs. now apply (settled_norm W v (fastkml_ok arrow)).
Qed.
Print Assumptions C56_lxml_round_trip_partial.

(** The same for a document whose KML objects have [ns='']. *)
Theorem C56_lxml_unprefixed_partial :
  forall arrow known fresh pretty lib strict nss attrs e, let W := fastkml arrow in let m := merge_ns nss in let v := VObj "kml.KML" [] m attrs in
  known_ok known = true -> map_ok m = true -> ns_get m "kml" = KMLNS -> qualified (ns_get m "gx") = true ->
  typed W v = true -> unprefixed W m v = true -> readable W v = true -> lxml_object v = true ->
  etree W None Normal v = Ok e ->
  exists s v', lx_to_string W known fresh pretty None Normal v = Ok s /\ from_text W lib strict "kml.KML" None nss s = Some (Ok v') /\ same W (in_kml v) v' /\
               (settled W (in_kml v) = true -> v' = in_kml v).
Proof.
  intros arrow known fresh pretty lib strict nss attrs e W m v K Hm Hk Hg Ht Hu Hr Hx He.
  assert (Q : nsmap_root W v = true -> all_qualified v = true) by (unfold nsmap_root, v; destruct (class_of W "kml.KML"); [cbn [uempty negb]; rewrite andb_false_r|]; discriminate).
  destruct (C56_lxml_tells_the_element arrow known fresh pretty None Normal v e K Ht Hx Q He) as (s & r & S1 & _ & S2 & S3 & _ & _).
  destruct (C30_read_back_partial arrow strict nss attrs e Hm Hk Hg Ht Hu Hr He) as (v' & V1 & _ & V2 & V3). exists s, v'. unfold from_text. rewrite (S2 lib). split; [exact S1|]. split; [|auto].
  f_equal. rewrite <- V1. unfold from_string. symmetry. apply C31_white_space_is_invisible_partial; [exact S3|discriminate].
Qed.
Print Assumptions C56_lxml_unprefixed_partial.

(** Whichever library writes the text, with whatever prefixes, indented or not,
    and whichever reads it: for objects both can write the result is the same,
    for every class that reads it (unless it is read as [Coordinates] that it
    does not contain), strict or not. *)
Theorem C56_libraries_agree_partial :
  forall arrow known known' fresh pretty lib lib' strict c' nsr nss c ns nss' attrs e, let W := fastkml arrow in let v := VObj c ns nss' attrs in forall prec vb,
  known_ok known = true -> known_ok known' = true -> typed W v = true -> xml_object v = true -> lxml_object v = true ->
  (nsmap_root W v = true -> all_qualified v = true) -> etree W prec vb v = Ok e -> (c' = "geometry.Coordinates" -> c = "geometry.Coordinates") ->
  exists s s', lx_to_string W known fresh pretty prec vb v = Ok s /\ to_string W known' prec vb v = Ok s' /\
    from_text W lib strict c' nsr nss s = from_text W lib' strict c' nsr nss s'.
Proof.
  intros arrow known known' fresh pretty lib lib' strict c' nsr nss c ns nss' attrs e W v prec vb K K' T X Y Q He C.
  destruct (C56_lxml_tells_the_element arrow known fresh pretty prec vb v e K T Y Q He) as (s & r & S1 & _ & S2 & S3 & _ & S5).
  destruct (C52_text_tells_the_element arrow known' prec vb v e K' T X He) as (s' & R1 & _ & R2 & _). exists s, s'. split; [exact S1|]. split; [exact R1|].
  unfold from_text. rewrite (S2 lib), (R2 lib'). f_equal. unfold from_string. symmetry. apply C31_white_space_is_invisible_partial; [exact S3|].
  intro E. apply C in E. rewrite S5; [|intros n a H; unfold v in H; rewrite E in H; discriminate H]. rewrite (etree_tag _ _ _ _ _ _ _ _ He). rewrite E. apply ends_with_app.
Qed.
Print Assumptions C56_libraries_agree_partial.

(** [KML.write] with lxml and [KML.parse] of a file that is no archive. *)
Theorem C56_lxml_file_round_trip_partial :
  forall arrow known fresh pretty lib strict kmz nss ns nss' attrs e, let W := fastkml arrow in let v := VObj "kml.KML" ns nss' attrs in
  known_ok known = true -> ns <> [] -> NoDup (map fst nss) ->
  map_ok (merge_ns nss) = true -> typed W v = true -> regular W (merge_ns nss) v = true -> readable W v = true -> lxml_object v = true -> all_qualified v = true ->
  etree W None Normal v = Ok e ->
  exists b v', lx_kml_write W known fresh kmz pretty None Normal v = Ok (Some (if kmz then Zip [("doc.kml", b)] else Plain b)) /\
               kml_parse_file W lib strict "kml.KML" None nss (Plain b) = Some (Ok v') /\ same W v v' /\ (settled W v = true -> v' = v).
Proof.
  intros arrow known fresh pretty lib strict kmz nss ns nss' attrs e W v K Hn Nd Hm Ht Hg Hr Hx Hq He.
  destruct (lx_written arrow known fresh pretty None Normal v e K Ht Hx (fun _ => Hq) He) as (s & r & S1 & S0 & S9 & S3 & _ & S2 & S5). destruct (xml_encodes s S0) as [b B]. specialize (S2 lib utf8_name eq_refl).
  rewrite S5 in S3 by (intros n a E; injection E; intros; congruence). exists b, (norm W None Normal v). split; [|split; [|split]].
  - unfold lx_kml_write. fold W in S1. rewrite S1. cbn [bind]. now rewrite B.
  - unfold kml_parse_file. rewrite (file_back lib b s r B S9 S2). f_equal. unfold kml_parse. rewrite <- (respaced_tag _ _ S3).
    assert (T := etree_tag W None Normal "kml.KML" ns nss' attrs e He). rewrite T. change (tag_of W "kml.KML") with "kml". rewrite parse_ns_tag. replace (uempty ns) with false by (destruct ns; [congruence|reflexivity]).
    assert (Hw := write_read arrow strict nss "kml.KML" ns nss' attrs e Hm Ht Hg Hr He). unfold from_string in Hw. fold W v in Hw.
    assert (Ens : default_ns W "kml.KML" (merge_ns nss) = ns).
    { unfold regular in Hg. cbn [vall v] in Hg. apply andb_prop in Hg as [Hg _]. apply andb_prop in Hg as [G1 _]. now apply ueqb_eq in G1. }
    rewrite Ens in Hw. change (default_ns W "kml.KML" (merge_ns nss)) with (ns_get (merge_ns nss) "kml") in Ens. unfold ns_get in Ens. destruct (sget "kml" (merge_ns nss)) as [w|] eqn:Ew; [|congruence]. subst w.
    rewrite (merge_bound _ _ _ Nd Ew). rewrite <- Hw. symmetry. apply C31_white_space_is_invisible_partial; [exact S3|discriminate].
  - apply same_norm; [exact (fastkml_ok arrow)|assumption..].
  - intro Hs. now apply (settled_norm W v (fastkml_ok arrow)).
Qed.
Print Assumptions C56_lxml_file_round_trip_partial.

(** *** Examples *)

Example C56_example :
  known_ok lxml_prefixes = true /\ s_kml = VObj "kml.KML" KMLNS (merge_ns nss0) (obj_attrs s_kml) /\ NoDup (map fst nss0) /\ map_ok (merge_ns nss0) = true /\
  typed W0 s_kml = true /\ regular W0 (merge_ns nss0) s_kml = true /\ readable W0 s_kml = true /\ settled W0 s_kml = true /\
  xml_object s_kml = true /\ lxml_object s_kml = true /\ nsmap_root W0 s_kml = true /\ all_qualified s_kml = true /\ is_ok (etree W0 None Normal s_kml) = true.
Proof. repeat (split; [vm_compute; reflexivity|]). split; [repeat constructor; cbn; intuition discriminate|]. repeat split; vm_compute; reflexivity. Qed.

Definition s_small : value := Eval vm_compute in
  mk "kml.KML" [("features", VList [mk "features.Placemark" [("id", VStr (u "a" ++ [10; 13]%N ++ u "<")); ("name", VStr (u "x" ++ [13]%N ++ u ">")); ("visibility", VBool true)]])].
Example C56_example_text :
  typed W0 s_small = true /\ lxml_object s_small = true /\ all_qualified s_small = true /\
  lx_to_string W0 lxml_prefixes (fun _ => 0%nat) false None Normal s_small =
    Ok (u "<kml xmlns=""http://www.opengis.net/kml/2.2""><Placemark id=""a&#10;&#13;&lt;""><name>x&#13;&gt;</name><visibility>1</visibility></Placemark></kml>") /\
  lx_to_string W0 lxml_prefixes (fun _ => 0%nat) true None Normal s_small =
    Ok (u "<kml xmlns=""http://www.opengis.net/kml/2.2"">
  <Placemark id=""a&#10;&#13;&lt;"">
    <name>x&#13;&gt;</name>
    <visibility>1</visibility>
  </Placemark>
</kml>
").
Proof. repeat split; vm_compute; reflexivity. Qed.

Example C56_example_unprefixed : lxml_object s_bare = true /\ nsmap_root W0 s_bare = false.
Proof. split; vm_compute; reflexivity. Qed.

(** With lxml a carriage return survives (compare C52_text_round_trip_refuted). *)
Example C56_carriage_return :
  lxml_object s_cr = true /\ xml_object s_cr = false /\ typed W0 s_cr = true /\ regular W0 (merge_ns nss0) s_cr = true /\ readable W0 s_cr = true /\ settled W0 s_cr = true /\ nsmap_root W0 s_cr = false.
Proof. repeat split; vm_compute; reflexivity. Qed.

(** *** Refutations *)

(** An object without name space inside a KML object that has one: lxml writes
    it without prefix in the scope of the default name space, where it is read
    as KML; ElementTree writes prefixes, and it is not read. *)
Definition s_mixed : value := Eval vm_compute in mk "kml.KML" [("features", VList [PropUnprefixed.bare (mk "features.Placemark" [("name", VStr (u "n"))])])].
Definition mixed_lx : ustr := Eval vm_compute in match lx_to_string W0 lxml_prefixes (fun _ => 0%nat) false None Normal s_mixed with Ok s => s | Err _ => [] end.
Definition mixed_et : ustr := Eval vm_compute in match to_string W0 registered_prefixes None Normal s_mixed with Ok s => s | Err _ => [] end.
Definition mixed_read : value := Eval vm_compute in match from_text W0 ElementTree true "kml.KML" None nss0 mixed_lx with Some (Ok v) => v | _ => VNone end.
Definition mixed_lost : value := Eval vm_compute in match from_text W0 ElementTree true "kml.KML" None nss0 mixed_et with Some (Ok v) => v | _ => VNone end.
Definition kids_of (v : value) : nat := match sget "features" (obj_attrs v) with Some (VList l) => length l | _ => 0 end.
Theorem C56_libraries_agree_refuted :
  exists nss v s s' r r', typed W0 v = true /\ xml_object v = true /\ lxml_object v = true /\
    lx_to_string W0 lxml_prefixes (fun _ => 0%nat) false None Normal v = Ok s /\ to_string W0 registered_prefixes None Normal v = Ok s' /\
    from_text W0 ElementTree true "kml.KML" None nss s = Some (Ok r) /\ from_text W0 ElementTree true "kml.KML" None nss s' = Some (Ok r') /\
    kids_of v = 1%nat /\ kids_of r = 1%nat /\ kids_of r' = 0%nat.
Proof. exists nss0, s_mixed, mixed_lx, mixed_et, mixed_read, mixed_lost. repeat split; vm_compute; reflexivity. Qed.
Print Assumptions C56_libraries_agree_refuted.

(** A control character: lxml raises ValueError; ElementTree gives a text that
    is no XML (C52_text_is_xml_refuted). *)
Theorem C56_lxml_written_refuted :
  exists nss attrs, let v := VObj "features.Placemark" KMLNS (merge_ns nss) attrs in
  typed W0 v = true /\ regular W0 (merge_ns nss) v = true /\ readable W0 v = true /\ settled W0 v = true /\ is_ok (etree W0 None Normal v) = true /\
  is_ok (to_string W0 registered_prefixes None Normal v) = true /\ lx_to_string W0 lxml_prefixes (fun _ => 0%nat) false None Normal v = Err EValueError.
Proof. exists nss0, ctl_attrs. cbv zeta. repeat split; vm_compute; reflexivity. Qed.
Print Assumptions C56_lxml_written_refuted.

(** An ampersand in a name space: lxml does not escape it, and the text is no
    XML; ElementTree does, and the text is read. *)
Definition amp_ns : ustr := u "{http://example.com/?a&b}".
Definition s_amp : value := Eval vm_compute in
  match mk "features.Placemark" [("name", VStr (u "n"))] with VObj c _ _ l => VObj c amp_ns (merge_ns [("kml", amp_ns)]) l | v => v end.
Definition amp_attrs : list (string * value) := Eval vm_compute in obj_attrs s_amp.
Definition amp_lx : ustr := Eval vm_compute in match lx_to_string W0 lxml_prefixes (fun _ => 0%nat) false None Normal s_amp with Ok s => s | Err _ => [] end.
Definition amp_et : ustr := Eval vm_compute in match to_string W0 registered_prefixes None Normal s_amp with Ok s => s | Err _ => [] end.
Theorem C56_lxml_name_space_refuted :
  exists nss ns attrs s s', let v := VObj "features.Placemark" ns (merge_ns nss) attrs in
  map_ok (merge_ns nss) = true /\ typed W0 v = true /\ regular W0 (merge_ns nss) v = true /\ readable W0 v = true /\ settled W0 v = true /\ xml_object v = true /\
  lx_to_string W0 lxml_prefixes (fun _ => 0%nat) false None Normal v = Ok s /\ to_string W0 registered_prefixes None Normal v = Ok s' /\
  from_text W0 Lxml true "features.Placemark" None nss s = None /\ from_text W0 Lxml true "features.Placemark" None nss s' = Some (Ok v).
Proof. exists [("kml", amp_ns)], amp_ns, amp_attrs, amp_lx, amp_et. cbv zeta. repeat split; vm_compute; reflexivity. Qed.
Print Assumptions C56_lxml_name_space_refuted.

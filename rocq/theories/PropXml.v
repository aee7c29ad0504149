(** * XML text and files: C52, C53. *)
From Coq Require Import String List NArith ZArith Bool Lia.
From Verif Require Import Ustr UstrProofs Res PyInt PyFloat PyDate Elem Value Geom Codec Tables Spec Settled Same FastkmlOk
  RoundTrip SettledProofs NsProofs SameProofs ExtendWriteProofs Unprefixed UnprefixedProofs PropRoundTrip PropNamespaces PropUnprefixed
  Xml XmlSpec XmlDoc XmlProofs XmlNsProofs XmlDocProofs XmlWriteProofs Samples SampleProofs.
Import ListNotations.
Local Open Scope string_scope.
Local Open Scope list_scope.

(** ** C52: text

    Full statement: for every object that is written, [to_string] gives a text
    that [from_string] reads, strict or not, and the result has the same data.
    It holds when the strings and the name spaces of the object consist of
    characters that XML allows, without carriage returns ([xml_object]), and
    fails otherwise: see the refutations. *)

Lemma fastkml_xml arrow : xml_world (fastkml arrow) = true.
Proof. vm_compute. reflexivity. Qed.
Lemma fastkml_rootless arrow : rootless (fastkml arrow) = true.
Proof. vm_compute. reflexivity. Qed.
Lemma fastkml_root arrow c ci : class_of (fastkml arrow) c = Some ci -> ci_root ci = true -> c = "kml.KML".
Proof.
  intros H R. apply EmitProofs.sget_In in H.
  assert (Q : forallb (fun cc => negb (ci_root (snd cc)) || String.eqb (fst cc) "kml.KML") (w_classes (fastkml arrow)) = true) by (vm_compute; reflexivity).
  rewrite forallb_forall in Q. specialize (Q _ H). cbn [fst snd] in Q. rewrite R in Q. now apply String.eqb_eq in Q.
Qed.

(** What is written can be told in XML. *)
Lemma written arrow prec vb v e : let W := fastkml arrow in
  typed W v = true -> xml_object v = true -> etree W prec vb v = Ok e -> good (fun c => xml_char c && negb (c =? 13)%N) e /\ (unrooted W v = true -> no_xmlns e = true).
Proof.
  intros W T X He. assert (T' : vall (typed_node W) v = true) by (destruct v; try discriminate T; exact T).
  refine (etree_good _ (fun _ H => H) (fun c H => proj1 (andb_prop _ _ H)) W (fastkml_ok arrow) (fastkml_xml arrow) prec vb v T X _ e He). assert (R := typed_rootless W (fastkml_rootless arrow) v T'). destruct v; try exact R. reflexivity.
Qed.

Lemma told arrow known prec vb v e : let W := fastkml arrow in
  known_ok known = true -> typed W v = true -> xml_object v = true -> etree W prec vb v = Ok e ->
  exists s, to_string W known prec vb v = Ok s /\ forallb xml_char s = true /\ firstn 1 s = [60%N] /\
            (forall lib enc, enc None = true -> parse_document lib enc s = Some (as_read [] e)) /\
            ((forall nss attrs, v <> VObj "kml.KML" [] nss attrs) -> as_read [] e = e).
Proof.
  intros W K T X He. destruct (written arrow prec vb v e T X He) as [G N]. destruct G as (G1 & G2 & G3). rewrite elem_ok_plain in G1.
  destruct (parse_tostring known e K G1) as (s & S1 & S2 & S0 & S3). exists s. unfold to_string. rewrite He. cbn [bind]. rewrite (tidy_solid e G2) in S3. repeat (split; [assumption|]).
  intro R. apply as_read_id, N. unfold unrooted. fold W. destruct v; try reflexivity. destruct (class_of W cls) as [ci|] eqn:E; [|reflexivity]. destruct (ci_root ci) eqn:Q; [|reflexivity].
  assert (cls = "kml.KML") by (exact (fastkml_root arrow cls ci E Q)). subst cls. destruct ns; [|reflexivity]. exfalso. now apply (R nss attrs).
Qed.

(** Whatever precision and verbosity and whatever prefixes are registered:
    the text is well-formed XML, all of its characters can be encoded, and
    either XML library builds from it the element that was written; only the
    plain [xmlns] attribute of a root without name space is understood. *)
Theorem C52_text_tells_the_element :
  forall arrow known prec vb v e, let W := fastkml arrow in
  known_ok known = true -> typed W v = true -> xml_object v = true -> etree W prec vb v = Ok e ->
  exists s, to_string W known prec vb v = Ok s /\ forallb xml_char s = true /\ (forall lib, fromstring lib s = Some (as_read [] e)) /\
            ((forall nss attrs, v <> VObj "kml.KML" [] nss attrs) -> as_read [] e = e).
Proof.
  intros arrow known prec vb v e W K T X He. destruct (told arrow known prec vb v e K T X He) as (s & S1 & S2 & _ & S3 & S4). exists s. repeat (split; [assumption|]).
  split; [|exact S4]. intro lib. unfold fromstring. apply S3. now destruct lib.
Qed.
Print Assumptions C52_text_tells_the_element.

(** Reading the text gives an object with the same data, and the same object
    when it is settled. *)
Theorem C52_text_round_trip_partial :
  forall arrow known lib strict nss c ns nss' attrs e, let W := fastkml arrow in let v := VObj c ns nss' attrs in
  known_ok known = true -> (c <> "kml.KML" \/ ns <> []) ->
  map_ok (merge_ns nss) = true -> typed W v = true -> regular W (merge_ns nss) v = true -> readable W v = true -> xml_object v = true ->
  etree W None Normal v = Ok e ->
  exists s v', to_string W known None Normal v = Ok s /\ from_text W lib strict c None nss s = Some (Ok v') /\ same W v v' /\ (settled W v = true -> v' = v).
Proof.
  intros arrow known lib strict nss c ns nss' attrs e W v K R Hm Ht Hg Hr Hx He.
  destruct (C52_text_tells_the_element arrow known None Normal v e K Ht Hx He) as (s & S1 & _ & S2 & S3). exists s, (norm W None Normal v). split; [exact S1|].
  specialize (S2 lib). rewrite S3 in S2 by (intros n a E; injection E; intros; destruct R; congruence). unfold from_text. rewrite S2. split; [|split].
  - f_equal. exact (write_read arrow strict nss c ns nss' attrs e Hm Ht Hg Hr He).
  - apply same_norm; [exact (fastkml_ok arrow)|assumption..].
  - intro Hs. now apply (settled_norm W v (fastkml_ok arrow)).
Qed.
Print Assumptions C52_text_round_trip_partial.

(** The same for a document whose KML objects have [ns='']: the objects read
    have the KML name space. *)
Theorem C52_unprefixed_round_trip_partial :
  forall arrow known lib strict nss attrs e, let W := fastkml arrow in let m := merge_ns nss in let v := VObj "kml.KML" [] m attrs in
  known_ok known = true -> map_ok m = true -> ns_get m "kml" = KMLNS -> qualified (ns_get m "gx") = true ->
  typed W v = true -> unprefixed W m v = true -> readable W v = true -> xml_object v = true ->
  etree W None Normal v = Ok e ->
  exists s v', to_string W known None Normal v = Ok s /\ from_text W lib strict "kml.KML" None nss s = Some (Ok v') /\ same W (in_kml v) v' /\
               (settled W (in_kml v) = true -> v' = in_kml v).
Proof.
  intros arrow known lib strict nss attrs e W m v K Hm Hk Hg Ht Hu Hr Hx He.
  destruct (C52_text_tells_the_element arrow known None Normal v e K Ht Hx He) as (s & S1 & _ & S2 & _).
  destruct (C30_read_back_partial arrow strict nss attrs e Hm Hk Hg Ht Hu Hr He) as (v' & V1 & _ & V2 & V3). exists s, v'. unfold from_text. rewrite (S2 lib). split; [exact S1|]. split; [now f_equal|]. auto.
Qed.
Print Assumptions C52_unprefixed_round_trip_partial.

Lemma ueqb_flip a b : ueqb a b = ueqb b a.
Proof. destruct (ueqb a b) eqn:E; [apply ueqb_eq in E; subst; now rewrite ueqb_refl|]. destruct (ueqb b a) eqn:F; [|reflexivity]. apply ueqb_eq in F. subst. now rewrite ueqb_refl in E. Qed.

(** The prefixes fastkml registers when it is imported are fit for this, and
    stay so whatever the user registers: any prefix that is an XML name but
    [xml] and [xmlns], for any other name space than that of [xml]. *)
Theorem C52_prefixes_registered :
  known_ok registered_prefixes = true /\
  forall l m m', known_ok m = true ->
  forallb (fun pu => ncname (fst pu) && negb (ueqb (fst pu) (u "xml")) && negb (ueqb (fst pu) (u "xmlns")) && negb (ueqb (snd pu) XML_NS)) l = true ->
  register_namespaces l m = Ok m' -> known_ok m' = true.
Proof.
  split; [vm_compute; reflexivity|].
  induction l as [|[p x] l IH]; intros m m' K H; cbn [register_namespaces]; [intro E; now injection E as <-|]. cbn [forallb fst snd] in H. apply andb_prop in H as [H0 H].
  unfold register_namespace. destruct (reserved p) eqn:R; [discriminate|]. cbn [bind]. refine (IH _ m' _ H). clear IH H l m'.
  rewrite !andb_true_iff, !negb_true_iff in H0. destruct H0 as [[[H1 H2] H3] H4]. unfold known_ok in *. rewrite !andb_true_iff in K. destruct K as [[[K1 K2] K3] K4].
  set (keep := fun kv : ustr * ustr => negb (ueqb (fst kv) x || ueqb (snd kv) p)). apply distinct_NoDup in K1, K2.
  assert (Kin : forall kv, In kv (filter keep m) -> In kv m /\ fst kv <> x /\ snd kv <> p).
  { intros kv Hi. apply filter_In in Hi as [Hi Hk]. split; [exact Hi|]. unfold keep in Hk. apply negb_true_iff, orb_false_iff in Hk as [Hk1 Hk2].
    split; intro E; subst; [now rewrite ueqb_refl in Hk1|now rewrite ueqb_refl in Hk2]. }
  assert (Nd : forall f : ustr * ustr -> ustr, NoDup (map f m) -> NoDup (map f (filter keep m))).
  { intro f. induction m as [|kv m' IHm]; [constructor|]. cbn [map filter]. intro Q. inversion Q; subst. clear K1 K2 K3 K4 Kin.
    assert (NoDup (map f (filter keep m'))).
    { clear -H6. revert H6. induction m' as [|a m' IHm]; [constructor|]. cbn [map filter]. intro Q. inversion Q; subst. destruct (keep a); [|auto]. cbn [map]. constructor; [|auto].
      intro Hi. apply H1. apply in_map_iff in Hi as [y [<- Hi]]. apply filter_In in Hi as [Hi _]. now apply in_map. }
    destruct (keep kv); [|assumption]. cbn [map]. constructor; [|assumption]. intro Hi. apply H5. apply in_map_iff in Hi as [y [<- Hi]]. apply filter_In in Hi as [Hi _]. now apply in_map. }
  rewrite !map_app. cbn [map fst snd]. rewrite !andb_true_iff. split; [split; [split|]|].
  - apply distinct_NoDup, NoDup_snoc; [now apply Nd|]. intro Hi. apply in_map_iff in Hi as [kv [E Hi]]. apply Kin in Hi as (_ & Hi & _). congruence.
  - apply distinct_NoDup, NoDup_snoc; [now apply Nd|]. intro Hi. apply in_map_iff in Hi as [kv [E Hi]]. apply Kin in Hi as (_ & _ & Hi). congruence.
  - apply existsb_exists in K3 as [kv [Hi Hk]]. apply existsb_exists. exists kv. split; [|exact Hk]. apply in_or_app. left. apply filter_In. split; [exact Hi|].
    apply andb_prop in Hk as [Hk1 Hk2]. apply ueqb_eq in Hk1, Hk2. unfold keep. rewrite Hk1, Hk2. rewrite (ueqb_flip XML_NS x), (ueqb_flip (u "xml") p), H4, H2. reflexivity.
  - rewrite forallb_app. cbn [forallb snd]. rewrite H1, H3, R. cbn [negb andb]. rewrite andb_true_r. apply forallb_forall. intros kv Hi. apply Kin in Hi as [Hi _]. rewrite forallb_forall in K4. now apply K4.
Qed.
Print Assumptions C52_prefixes_registered.

(** The sample document. *)
Definition s_text : ustr := Eval vm_compute in match to_string W0 registered_prefixes None Normal s_kml with Ok s => s | Err _ => [] end.
Example C52_example :
  known_ok registered_prefixes = true /\ map_ok (merge_ns nss0) = true /\ typed W0 s_kml = true /\ regular W0 (merge_ns nss0) s_kml = true /\ readable W0 s_kml = true /\
  xml_object s_kml = true /\ settled W0 s_kml = true /\ is_ok (etree W0 None Normal s_kml) = true /\ (1000 <? length s_text)%nat = true /\
  firstn 39 s_text = u "<kml:kml xmlns:gx=""http://www.google.co".
Proof. repeat split; vm_compute; reflexivity. Qed.

(** Markup, quotes, line feeds and characters beyond the first plane in text
    and attributes. *)
Definition s_plain_id : value := Eval vm_compute in
  mk "features.Placemark" [("id", VStr (u "a<b>&'""" ++ [9; 10; 32; 233; 128512]%N)); ("name", VStr (u "]]> &amp; <name/>" ++ [10; 233; 128512]%N))].
Definition plain_id_attrs : list (string * value) := Eval vm_compute in obj_attrs s_plain_id.
Example C52_example_markup :
  s_plain_id = VObj "features.Placemark" KMLNS (merge_ns nss0) plain_id_attrs /\ typed W0 s_plain_id = true /\ regular W0 (merge_ns nss0) s_plain_id = true /\ readable W0 s_plain_id = true /\ xml_object s_plain_id = true /\ settled W0 s_plain_id = true /\
  to_string W0 registered_prefixes None Normal s_plain_id =
    Ok (u "<kml:Placemark xmlns:kml=""http://www.opengis.net/kml/2.2"" id=""a&lt;b&gt;&amp;'&quot;&#09;&#10; " ++ [233; 128512]%N ++
        u """><kml:name>]]&gt; &amp;amp; &lt;name/&gt;" ++ [10; 233; 128512]%N ++ u "</kml:name></kml:Placemark>").
Proof. repeat split; vm_compute; reflexivity. Qed.

(** *** Refutations *)

(** A carriage return in text is written as it is (ElementTree.py:1023-1037)
    and read as a line feed (XML 1.0, section 2.11). *)
Definition s_cr : value := Eval vm_compute in mk "features.Placemark" [("name", VStr (u "a" ++ [13%N] ++ u "b"))].
Definition cr_attrs : list (string * value) := Eval vm_compute in obj_attrs s_cr.
Definition s_lf : value := Eval vm_compute in mk "features.Placemark" [("name", VStr (u "a" ++ [10%N] ++ u "b"))].
Definition cr_text : ustr := Eval vm_compute in match to_string W0 registered_prefixes None Normal s_cr with Ok s => s | Err _ => [] end.
Theorem C52_text_round_trip_refuted :
  exists nss attrs s v', let v := VObj "features.Placemark" KMLNS (merge_ns nss) attrs in
  typed W0 v = true /\ regular W0 (merge_ns nss) v = true /\ readable W0 v = true /\ settled W0 v = true /\
  to_string W0 registered_prefixes None Normal v = Ok s /\ from_text W0 ElementTree true "features.Placemark" None nss s = Some (Ok v') /\
  sget "name" attrs = Some (VStr (u "a" ++ [13%N] ++ u "b")) /\ sget "name" (obj_attrs v') = Some (VStr (u "a" ++ [10%N] ++ u "b")).
Proof. exists nss0, cr_attrs, cr_text, s_lf. cbv zeta. repeat split; vm_compute; reflexivity. Qed.
Print Assumptions C52_text_round_trip_refuted.

(** A control character is written as it is: the text is no XML. *)
Definition s_ctl : value := Eval vm_compute in mk "features.Placemark" [("name", VStr (u "a" ++ [12%N] ++ u "b"))].
Definition ctl_attrs : list (string * value) := Eval vm_compute in obj_attrs s_ctl.
Definition ctl_text : ustr := Eval vm_compute in match to_string W0 registered_prefixes None Normal s_ctl with Ok s => s | Err _ => [] end.
Theorem C52_text_is_xml_refuted :
  exists nss attrs s, let v := VObj "features.Placemark" KMLNS (merge_ns nss) attrs in
  typed W0 v = true /\ regular W0 (merge_ns nss) v = true /\ readable W0 v = true /\ settled W0 v = true /\
  to_string W0 registered_prefixes None Normal v = Ok s /\ from_text W0 ElementTree true "features.Placemark" None nss s = None /\ from_text W0 ElementTree false "features.Placemark" None nss s = None.
Proof. exists nss0, ctl_attrs, ctl_text. cbv zeta. repeat split; vm_compute; reflexivity. Qed.
Print Assumptions C52_text_is_xml_refuted.

(** ** C53: files

    Full statement: what [KML.write] puts into a file, [KML.parse] reads.  It
    holds for files that are no archives and documents as in C52. *)

Lemma sset_same {A} k (v : A) l : sget k l = Some v -> sset k v l = l.
Proof.
  induction l as [|[k' v'] l IH]; [discriminate|]. cbn. destruct (String.eqb_spec k k') as [->|]; [intro H; now injection H as ->|]. intro H. now rewrite IH.
Qed.
Lemma merge_bound k n nss : NoDup (map fst nss) -> sget k (merge_ns nss) = Some n -> merge_ns (sset k n nss) = merge_ns nss.
Proof.
  intros N H. rewrite merge_lookup in H by exact N. destruct (sget k nss) as [w|] eqn:E.
  - injection H as ->. now rewrite sset_same.
  - rewrite sset_fresh by (rewrite <- EmitProofs.sget_None; exact E). unfold merge_ns, smerge. rewrite fold_left_app. cbn [fold_left fst snd]. apply sset_same.
    change (sget k (merge_ns nss) = Some n). rewrite merge_lookup by exact N. now rewrite E.
Qed.

Lemma file_back lib b s e : utf8 s = Some b -> firstn 1 s = [60%N] -> parse_document lib utf8_name s = Some e -> parse_bytes lib b = Some e.
Proof.
  intros H1 H0 H2. unfold parse_bytes. assert (B : after [239; 187; 191]%N b = None).
  { destruct s as [|c s]; [discriminate|]. injection H0 as ->. cbn [utf8 utf8_char] in H1. change (60 <? 128)%N with true in H1. cbv iota in H1. destruct (utf8 s); [|discriminate]. injection H1 as <-. reflexivity. }
  rewrite B. now rewrite (utf8_back s b H1 _ (le_n _)).
Qed.

(** A document with the name spaces of one map, in which [kml] stands for
    something: it is written, whatever the extension of the file, and reading
    the bytes (of the archive's member), strict or not, gives the same data.
    [KML.parse] is given the map, but not the name space. *)
Theorem C53_file_round_trip_partial :
  forall arrow known lib strict kmz nss ns nss' attrs e, let W := fastkml arrow in let v := VObj "kml.KML" ns nss' attrs in
  known_ok known = true -> ns <> [] -> NoDup (map fst nss) ->
  map_ok (merge_ns nss) = true -> typed W v = true -> regular W (merge_ns nss) v = true -> readable W v = true -> xml_object v = true ->
  etree W None Normal v = Ok e ->
  exists b v', kml_write W known kmz None Normal v = Ok (Some (if kmz then Zip [("doc.kml", b)] else Plain b)) /\
               kml_parse_file W lib strict "kml.KML" None nss (Plain b) = Some (Ok v') /\ same W v v' /\ (settled W v = true -> v' = v).
Proof.
  intros arrow known lib strict kmz nss ns nss' attrs e W v K Hn Nd Hm Ht Hg Hr Hx He.
  destruct (told arrow known None Normal v e K Ht Hx He) as (s & S1 & S0 & S9 & S2 & S3). destruct (xml_encodes s S0) as [b B]. specialize (S2 lib utf8_name eq_refl).
  rewrite S3 in S2 by (intros n a E; injection E; intros; congruence). exists b, (norm W None Normal v). split; [|split; [|split]].
  - unfold kml_write. fold W in S1. rewrite S1. cbn [bind]. now rewrite B.
  - unfold kml_parse_file. rewrite (file_back lib b s e B S9 S2). f_equal. unfold kml_parse.
    assert (T := etree_tag W None Normal "kml.KML" ns nss' attrs e He). rewrite T. change (tag_of W "kml.KML") with "kml". rewrite parse_ns_tag. replace (uempty ns) with false by (destruct ns; [congruence|reflexivity]).
    assert (Hw := write_read arrow strict nss "kml.KML" ns nss' attrs e Hm Ht Hg Hr He). unfold from_string in Hw. fold W v in Hw.
    assert (Ens : default_ns W "kml.KML" (merge_ns nss) = ns).
    { unfold regular in Hg. cbn [vall v] in Hg. apply andb_prop in Hg as [Hg _]. apply andb_prop in Hg as [G1 _]. now apply ueqb_eq in G1. }
    rewrite Ens in Hw. change (default_ns W "kml.KML" (merge_ns nss)) with (ns_get (merge_ns nss) "kml") in Ens. unfold ns_get in Ens. destruct (sget "kml" (merge_ns nss)) as [w|] eqn:Ew; [|congruence]. subst w.
    now rewrite (merge_bound _ _ _ Nd Ew).
  - apply same_norm; [exact (fastkml_ok arrow)|assumption..].
  - intro Hs. now apply (settled_norm W v (fastkml_ok arrow)).
Qed.
Print Assumptions C53_file_round_trip_partial.
Example C53_example : s_kml = VObj "kml.KML" KMLNS (merge_ns nss0) (obj_attrs s_kml) /\ NoDup (map fst nss0).
Proof. split; [vm_compute; reflexivity|]. repeat constructor; cbn; intuition discriminate. Qed.

(** The same for a document whose KML objects have [ns='']. *)
Theorem C53_unprefixed_file_partial :
  forall arrow known lib strict kmz nss attrs e, let W := fastkml arrow in let m := merge_ns nss in let v := VObj "kml.KML" [] m attrs in
  known_ok known = true -> NoDup (map fst nss) -> map_ok m = true -> ns_get m "kml" = KMLNS -> qualified (ns_get m "gx") = true ->
  typed W v = true -> unprefixed W m v = true -> readable W v = true -> xml_object v = true ->
  etree W None Normal v = Ok e ->
  exists b v', kml_write W known kmz None Normal v = Ok (Some (if kmz then Zip [("doc.kml", b)] else Plain b)) /\
               kml_parse_file W lib strict "kml.KML" None nss (Plain b) = Some (Ok v') /\ same W (in_kml v) v' /\ (settled W (in_kml v) = true -> v' = in_kml v).
Proof.
  intros arrow known lib strict kmz nss attrs e W m v K Nd Hm Hk Hg Ht Hu Hr Hx He.
  destruct (told arrow known None Normal v e K Ht Hx He) as (s & S1 & S0 & S9 & S2 & _). destruct (xml_encodes s S0) as [b B]. specialize (S2 lib utf8_name eq_refl).
  destruct (C30_read_back_partial arrow strict nss attrs e Hm Hk Hg Ht Hu Hr He) as (v' & V1 & _ & V2 & V3). exists b, v'. split; [|split; [|auto]].
  - unfold kml_write. fold W in S1. rewrite S1. cbn [bind]. now rewrite B.
  - unfold kml_parse_file. rewrite (file_back lib b s _ B S9 S2). f_equal. unfold kml_parse.
    assert (S : etree W None Normal (in_kml v) = Ok (as_read [] e)).
    { apply (C30_seen_as_regular arrow None Normal m attrs e); [|exact He]. refine (vall_both _ _ _ _ _ Hu Hx). clear -Hm Hk Hg. intros c ns nss' l H X. apply andb_prop in H as [H1 H2].
      apply same_nss_eq in H2. subst nss'. rewrite Hk, Hg, ueqb_refl. cbn [andb]. rewrite !andb_true_r. destruct (uempty ns) eqn:E; [reflexivity|]. cbn [orb].
      rewrite !andb_true_iff in X. destruct X as [[X _] _]. unfold ns_clean in X. rewrite E in X. cbn [orb] in X. rewrite !andb_true_iff in X. destruct X as [[[G _] _] _].
      destruct ns as [|k r]; [discriminate|]. cbn in G |- *. now apply andb_prop in G as [-> _]. }
    cbn [in_kml v] in S. assert (T := etree_tag W None Normal "kml.KML" _ _ _ _ S). rewrite T. change (tag_of W "kml.KML") with "kml". cbn [uempty]. rewrite parse_ns_tag. change (uempty KMLNS) with false. cbv iota.
    unfold from_string in V1. assert (D : default_ns W "kml.KML" m = KMLNS) by exact Hk. fold m W in V1. rewrite D in V1.
    rewrite merge_bound; [exact V1|exact Nd|]. fold m. unfold ns_get in Hk. destruct (sget "kml" m); [now f_equal|discriminate].
Qed.
Print Assumptions C53_unprefixed_file_partial.
Example C53_example_unprefixed : xml_object s_bare = true.
Proof. vm_compute. reflexivity. Qed.

(** UTF-8: every text without surrogates and beyond-Unicode numbers is encoded
    and decoded to itself. *)
Theorem C53_utf8 : forall s, (forall c, In c s -> (c < 55296 \/ 57343 < c < 1114112)%N) -> exists b, utf8 s = Some b /\ utf8_decode (length b) b = Some s.
Proof.
  intros s H. assert (E : exists b, utf8 s = Some b).
  { induction s as [|c s IH]; [eexists; reflexivity|]. destruct IH as [b Hb]; [intros; apply H; now right|]. specialize (H c (or_introl eq_refl)). cbn [utf8]. rewrite Hb.
    unfold utf8_char. destruct (N.ltb_spec c 128); [eauto|]. destruct (N.ltb_spec c 2048); [eauto|].
    destruct (N.leb_spec 55296 c); destruct (N.leb_spec c 57343); cbn [andb]; try (exfalso; lia); (destruct (N.ltb_spec c 65536); [eauto|]; destruct (N.ltb_spec c 1114112); [eauto|exfalso; lia]). }
  destruct E as [b E]. exists b. split; [exact E|]. now apply (utf8_back s b E).
Qed.
Print Assumptions C53_utf8.

(** *** Refutations *)

(** [KML.write] makes an archive for [.kmz], [KML.parse] does not open it. *)
Definition s_kmz : value := Eval vm_compute in mk "kml.KML" [].
Definition kmz_attrs : list (string * value) := Eval vm_compute in obj_attrs s_kmz.
Theorem C53_file_round_trip_refuted :
  exists nss attrs f, let v := VObj "kml.KML" KMLNS (merge_ns nss) attrs in
  typed W0 v = true /\ regular W0 (merge_ns nss) v = true /\ readable W0 v = true /\ xml_object v = true /\
  kml_write W0 registered_prefixes true None Normal v = Ok (Some f) /\ kml_parse_file W0 ElementTree false "kml.KML" None nss f = None.
Proof. exists nss0, kmz_attrs. eexists. cbv zeta. repeat (split; [vm_compute; reflexivity|]). reflexivity. Qed.
Print Assumptions C53_file_round_trip_refuted.

(** A surrogate in a string: [to_string] gives a text, [write] raises
    [UnicodeEncodeError]. *)
Definition s_sur : value := Eval vm_compute in mk "kml.KML" [("features", VList [mk "features.Placemark" [("name", VStr [55357%N])]])].
Definition sur_attrs : list (string * value) := Eval vm_compute in obj_attrs s_sur.
Theorem C53_written_refuted :
  exists nss attrs, let v := VObj "kml.KML" KMLNS (merge_ns nss) attrs in
  typed W0 v = true /\ regular W0 (merge_ns nss) v = true /\ readable W0 v = true /\
  is_ok (to_string W0 registered_prefixes None Normal v) = true /\ kml_write W0 registered_prefixes false None Normal v = Ok None.
Proof. exists nss0, sur_attrs. cbv zeta. repeat split; vm_compute; reflexivity. Qed.
Print Assumptions C53_written_refuted.

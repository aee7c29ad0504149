(** * Reading documents of the bundled schema: C50. *)
From Coq Require Import String List NArith ZArith Bool Arith Lia.
From Verif Require Import Ustr UstrProofs Res PyInt PyFloat PyDate Elem Value Geom Codec Tables Spec FastkmlOk RoundTrip NsProofs StrictProofs
  Schema SchemaTables SchemaSpec SchemaCheck SchemaProofs Lexical SchemaRead SchemaReadProofs CoordSpec Samples.
Import ListNotations.
Local Open Scope string_scope.
Local Open Scope list_scope.

(** Full statement (C50): a document that is valid against the bundled schema
    is accepted by the strict reader.

    That fails where the library asks for more than the schema does: see the
    refutations.  It holds for documents that also meet these demands
    ([readable_element], [readable_value]), in whatever order and number the
    elements come.  Missing: dates with a zone that are no date times, years of
    more than four digits, times with "Z" or with a fraction of a second that
    has not six digits, which are left to the library arrow. *)

Lemma fastkml_read_ok arrow : read_ok (fastkml arrow) = true.
Proof. vm_compute. reflexivity. Qed.

Lemma unknown_type : quick ("", "") schema_elements = None.
Proof. vm_compute. reflexivity. Qed.

Lemma read_documents W c ty ns nss e : world_ok W = true -> read_ok W = true ->
  schema_nss (merge_ns nss) = true -> ns_get (merge_ns nss) "" = [] ->
  class_type W c = Some ty -> e_tag e = clark schema_uris (class_sname W c) ->
  declared (readable_value (w_arrow W)) ty e -> everywhere readable_element e ->
  exists v, from_string W true c ns nss e = Ok v /\ from_string W false c ns nss e = Ok v.
Proof.
  intros HW HR M N T Et D R. unfold from_string. cbv zeta. set (n := match ns with Some n => n | None => default_ns W c (merge_ns nss) end).
  assert (Rf : rfits W c ty = true).
  { assert (RO := HR). unfold read_ok in RO. rewrite !andb_true_iff in RO. destruct RO as [[_ RO] _]. rewrite forallb_forall in RO. rewrite <- type_of_eq in T.
    destruct (class_of W c) as [ci|] eqn:Hc; [|unfold type_of, class_sname in T; rewrite Hc, unknown_type in T; discriminate]. specialize (RO _ (EmitProofs.sget_In _ _ _ Hc)). cbn [fst] in RO. now rewrite T in RO. }
  assert (O := read_all W HW HR (merge_ns nss) M N (merge_ns_idem nss) e c ty n Et Rf D R).
  destruct (from_element W true e c n (merge_ns nss)) as [v|] eqn:E; [|discriminate]. exists v. split; [reflexivity|].
  destruct (strict_or_lenient W e c n (merge_ns nss)) as [L|L]; congruence.
Qed.

Theorem C50_schema_documents_read_partial :
  forall arrow c ty ns nss e, let W := fastkml arrow in
  schema_nss (merge_ns nss) = true -> ns_get (merge_ns nss) "" = [] ->
  class_type W c = Some ty -> e_tag e = clark schema_uris (class_sname W c) ->
  declared (readable_value arrow) ty e -> everywhere readable_element e ->
  exists v, from_string W true c ns nss e = Ok v /\ from_string W false c ns nss e = Ok v.
Proof. intros arrow c ty ns nss e W. exact (read_documents W c ty ns nss e (fastkml_ok arrow) (fastkml_read_ok arrow)). Qed.
Print Assumptions C50_schema_documents_read_partial.

(** Valid documents: the elements and attributes are declared. *)
Lemma valid_declared P : forall e ty, valid schema_uris schema_types schema_elements ty e -> Forall (fun p => P (fst p) (snd p)) (typed_texts ty e) -> declared P ty e.
Proof.
  fix IH 1. intros [t a x ks] ty V H. cbn [valid typed_texts declared] in *. destruct (find _ schema_types) as [[? d]|]; [|exact V]. destruct V as (_ & [V _] & _ & Vk). rewrite !Forall_app in H. destruct H as (H1 & H2 & H3). split; [|split].
  - destruct (d_text d); [now inversion H1|exact I].
  - intros k v Hk. destruct (V k (in_map fst _ _ Hk)) as [y [Hy E]]. exists y. split; [exact Hy|]. split; [exact E|]. rewrite Forall_forall in H2. apply (H2 (snd y, v)). apply in_flat_map. exists (k, v). split; [exact Hk|].
    apply in_flat_map. exists y. split; [exact Hy|]. cbn [fst snd]. rewrite E, ueqb_refl. now left.
  - clear V H1 H2. induction ks as [|k ks IHk]; [exact I|]. destruct Vk as [Vk Vks]. apply Forall_app in H3 as [H3 H4]. split; [|now apply IHk]. destruct (kid_type _ _ d (e_tag k)); [now apply IH|contradiction].
Qed.

Theorem C50_valid_documents_read_partial :
  forall arrow c ns nss e, let W := fastkml arrow in
  schema_nss (merge_ns nss) = true -> ns_get (merge_ns nss) "" = [] ->
  e_tag e = clark schema_uris (class_sname W c) ->
  schema_valid e -> Forall (fun p => readable_value arrow (fst p) (snd p)) (document_texts e) -> everywhere readable_element e ->
  exists v, from_string W true c ns nss e = Ok v /\ from_string W false c ns nss e = Ok v.
Proof.
  intros arrow c ns nss e W M N Et [ty [L V]] F R. unfold document_texts in F. rewrite L in F.
  apply (C50_schema_documents_read_partial arrow c ty ns nss e M N); [unfold class_type; fold W; now rewrite <- Et|exact Et|now apply valid_declared|exact R].
Qed.
Print Assumptions C50_valid_documents_read_partial.

(** ** Documents that meet the hypotheses *)

Definition K (n : string) (a : list (ustr * ustr)) (ks : list elem) : elem := Elem (name "kml" n) a None ks.
Definition T (n : string) (t : string) : elem := Elem (name "kml" n) [] (Some (u t)) [].
Definition G (n : string) (t : string) : elem := Elem (name "gx" n) [] (Some (u t)) [].

Definition ex_features : elem :=
  K "kml" [] [K "Document" [(u "id", u "d1")]
    [T "name" "A document";
     K "Placemark" [] [T "name" "Here"; T "visibility" "0"; K "TimeStamp" [] [T "when" "2004-02-29"];
       K "Region" [] [K "LatLonAltBox" [] [T "north" "50.5"; T "south" "-1e1"; T "east" ".25"; T "west" "0"]; K "Lod" [] [T "minLodPixels" "128"]];
       K "Point" [] [T "extrude" "true"; T "altitudeMode" "absolute"; T "coordinates" " 1,2,3
  "]];
     K "Placemark" [] [Elem (name "gx" "Track") [] None [T "when" "2010-05-28T02:02:09+02:00"; T "when" "2011"; G "coord" "-122.2 37.4 156"; G "coord" "-122.3 37.5"; G "angles" "45.5 66.8 77.1"]]]].
Definition ex_schema : elem :=
  K "kml" [] [K "Document" [] [K "Schema" [(u "name", u "S"); (u "id", u "s1")] [K "SimpleField" [(u "type", u "int"); (u "name", u "N")] [T "displayName" "Number"]]]].

Ltac calc := vm_compute; auto.
Lemma plain_number sg a : sign (u sg) -> u a <> [] -> digits (u a) -> is_double (u sg ++ u a).
Proof. intros S N D. right. exists (u sg), (u a), []. rewrite app_nil_r. split; [exact S|]. split; [left; auto|]. split; [now left|reflexivity]. Qed.
Lemma pointed_number sg a b : sign (u sg) -> u a ++ u b <> [] -> digits (u a) -> digits (u b) -> is_double (u sg ++ u a ++ u "." ++ u b).
Proof. intros S N A B. right. exists (u sg), (u a ++ u "." ++ u b), []. rewrite app_nil_r. split; [exact S|]. split; [right; eauto 10|]. split; [now left|reflexivity]. Qed.
Ltac number sg a := apply (plain_number sg a); [calc|discriminate|calc].
Ltac pointed sg a b := apply (pointed_number sg a b); [calc|discriminate|calc|calc].
Ltac year := split; [split; [discriminate|split; [calc|calc]]|split; [reflexivity|split; [vm_compute; lia|vm_compute; lia]]].
Ltac two := split; [reflexivity|split; [discriminate|split; [calc|calc]]].
Ltac month := split; [two|vm_compute; split; discriminate].
Ltac day z := exists z; split; [two|vm_compute; split; discriminate].
Ltac sixty z := exists z; split; [two|vm_compute; split; [discriminate|reflexivity]].

Lemma readable_free arrow st s : well_written st s -> sname_eqb st ("xs", "int") = false -> sname_eqb st ("kml", "dateTimeType") = false -> readable_value arrow st s.
Proof. intros H A B. split; [exact H|]. split; intros ->; discriminate. Qed.
Lemma readable_day arrow y m d yz mz dz : year_text (u y) yz -> length (u y) = 4 -> month_text (u m) mz -> denotes_in 2 (u d) dz -> (1 <= dz <= month_length yz mz)%Z ->
  readable_value arrow ("kml", "dateTimeType") (u y ++ u "-" ++ u m ++ u "-" ++ u d).
Proof.
  intros Y L M D B. split; [|split; [discriminate|intros _]].
  - right. left. exists (u y ++ u "-" ++ u m ++ u "-" ++ u d), []. split; [|split; [now left|now rewrite app_nil_r]]. exists (u y), yz, (u m), mz, (u d). repeat split; try apply Y; try apply M. exists dz. auto.
  - right. right. left. exists (u y), yz, (u m), mz, (u d). repeat split; try apply Y; try apply M; auto. exists dz. auto.
Qed.
Lemma readable_year arrow y yz : year_text (u y) yz -> length (u y) = 4 -> readable_value arrow ("kml", "dateTimeType") (u y).
Proof.
  intros Y L. split; [|split; [discriminate|intros _]].
  - right. right. right. exists (u y), yz, []. split; [exact Y|]. split; [now left|now rewrite app_nil_r].
  - left. exists yz. auto.
Qed.
Lemma readable_time arrow day hh mi se z hz : plain_day day -> denotes_in 2 (u hh) hz -> (0 <= hz < 24)%Z -> sixty (u mi) -> sixty (u se) -> zone (u z) -> u z <> u "Z" ->
  readable_value arrow ("kml", "dateTimeType") (day ++ u "T" ++ u hh ++ u ":" ++ u mi ++ u ":" ++ u se ++ u z).
Proof.
  intros D H B M S Z N. split; [|split; [discriminate|intros _]].
  - left. exists day, (u hh ++ u ":" ++ u mi ++ u ":" ++ u se), (u z). repeat split; auto; [destruct D as (y & yz & m & mz & d & Y & _ & Mo & Dd & ->); exists y, yz, m, mz, d; auto| |now rewrite <- !app_assoc].
    exists (u hh), hz, (u mi), (u se), []. repeat split; auto; try apply H; try apply B. now rewrite app_nil_r.
  - right. right. right. left. exists day, (u hh), hz, (u mi), (u se), [], (u z). repeat split; auto; try apply H; try apply B.
Qed.

Lemma documents_texts P e l : document_texts e = l -> Forall P l -> Forall P (document_texts e).
Proof. now intros ->. Qed.
Definition no_arrow : ustr -> option datetime := fun _ => None.
Example C50_example_texts : Forall (fun p => readable_value no_arrow (fst p) (snd p)) (document_texts ex_features).
Proof.
  eapply documents_texts; [vm_compute; reflexivity|]. repeat (apply Forall_cons; [cbn [fst snd]|]). all: try apply Forall_nil.
  all: try (apply readable_free; [first [exact I|match goal with |- well_written ("xs", "boolean") _ => vm_compute; auto | |- well_written ("kml", "altitudeModeEnumType") _ => vm_compute; auto end]|reflexivity|reflexivity]).
  - apply (readable_day no_arrow "2004" "02" "29" 2004 2 29); [year|reflexivity|month|two|vm_compute; split; discriminate].
  - apply readable_free; [|reflexivity|reflexivity]. pointed "" "50" "5".
  - apply readable_free; [|reflexivity|reflexivity]. right. exists (u "-"), (u "1"), (u "e1"). split; [calc|]. split; [left; split; [discriminate|calc]|]. split; [|reflexivity]. right. exists (u "e"), [], (u "1"). split; [now left|]. split; [now left|]. split; [discriminate|]. split; [calc|reflexivity].
  - apply readable_free; [|reflexivity|reflexivity]. pointed "" "" "25".
  - apply readable_free; [|reflexivity|reflexivity]. number "" "0".
  - apply readable_free; [|reflexivity|reflexivity]. number "" "128".
  - apply (readable_time no_arrow (u "2010-05-28") "02" "02" "09" "+02:00" 2).
    + exists (u "2010"), 2010%Z, (u "05"), 5%Z, (u "28"). split; [year|]. split; [reflexivity|]. split; [month|]. split; [day 28%Z|reflexivity].
    + two.
    + lia.
    + sixty 2%Z.
    + sixty 9%Z.
    + right. right. exists (u "+"), (u "02"), 2%Z, (u "00"). split; [now left|]. split; [two|]. split; [sixty 0%Z|]. split; [left; lia|reflexivity].
    + discriminate.
  - apply (readable_year no_arrow "2011" 2011); [year|reflexivity].
Qed.

Definition special : list ustr :=
  map (name "kml") (lod_numbers ++ ["coordinates"; "SimpleField"; "Schema"]) ++ map (name "gx") ["coord"; "angles"; "Track"] ++ [name "atom" "link"].
Lemma ordinary e : existsb (ueqb (e_tag e)) special = false -> readable_element e.
Proof.
  intro H. assert (N : forall t, existsb (ueqb t) special = true -> e_tag e <> t) by (intros t Ht <-; congruence).
  repeat split; intros; exfalso; try match goal with H : In _ lod_numbers |- _ => cbn in H; destruct H as [<-|[<-|[<-|[<-|[]]]]] end;
    first [match goal with H : e_tag e = ?t |- _ => apply (N t); [vm_compute; reflexivity|exact H] end
          |match goal with H : e_tag e = ?t \/ e_tag e = ?t' |- _ => destruct H as [H|H]; [apply (N t)|apply (N t')]; (vm_compute; reflexivity) || exact H end].
Qed.
Lemma words_double t l : words t = l -> Forall is_double l -> Forall is_double (words t).
Proof. now intros ->. Qed.

Example C50_example_elements : everywhere readable_element ex_features.
Proof.
  unfold ex_features, K, T, G. cbn [everywhere]. repeat match goal with |- _ /\ _ => split end. all: try exact I. all: try (apply ordinary; vm_compute; reflexivity).
  all: repeat split; intros; try match goal with H : In _ lod_numbers |- _ => cbn in H; destruct H as [<-|[<-|[<-|[<-|[]]]]] end; try match goal with H : e_tag _ = _ |- _ => exfalso; vm_compute in H; discriminate H | H : e_tag _ = _ \/ e_tag _ = _ |- _ => exfalso; destruct H as [H|H]; vm_compute in H; discriminate H end.
  - exists [], (u "128"), 128%Z. split; [calc|]. split; [split; [discriminate|split; calc]|]. split; [reflexivity|vm_compute; split; discriminate].
  - vm_compute. lia.
  - exists [[u "1"; u "2"; u "3"]]. split.
    + apply (coords_cons (u " ") [u "1"; u "2"; u "3"] (u "1,2,3") [] (tl (tl (tl (tl (tl (tl (u " 1,2,3
  ")))))))); [reflexivity| |reflexivity|constructor; reflexivity]. apply (tuple_more (u "1") 0 _ (u "2,3")), (tuple_more (u "2") 0 _ (u "3")), tuple_one.
    + constructor; [|constructor]. constructor; [number "" "1"|constructor; [number "" "2"|constructor; [number "" "3"|constructor]]].
  - vm_compute. lia.
  - vm_compute. lia.
  - match goal with H : In _ _ |- _ => cbn [In e_kids] in H; repeat destruct H as [<-|H]; try contradiction end; try (match goal with H : e_tag _ = _ |- _ => vm_compute in H; discriminate H end); vm_compute; auto.
  - match goal with H : In _ _ |- _ => cbn [In e_kids] in H; repeat destruct H as [<-|H]; try contradiction end; try (match goal with H : e_tag _ = _ |- _ => vm_compute in H; discriminate H end); vm_compute; lia.
  - eapply words_double; [vm_compute; reflexivity|]. constructor; [pointed "-" "122" "2"|constructor; [pointed "" "37" "4"|constructor; [number "" "156"|constructor]]].
  - eapply words_double; [vm_compute; reflexivity|]. constructor; [pointed "-" "122" "3"|constructor; [pointed "" "37" "5"|constructor]].
  - eapply words_double; [vm_compute; reflexivity|]. constructor; [pointed "" "45" "5"|constructor; [pointed "" "66" "8"|constructor; [pointed "" "77" "1"|constructor]]].
Qed.

Ltac document_valid := apply (proj1 (check_document_iff schema_uris schema_types schema_elements _)); vm_compute; reflexivity.

Example C50_example : exists v, from_string W0 true "kml.KML" None [] ex_features = Ok v /\ from_string W0 false "kml.KML" None [] ex_features = Ok v.
Proof.
  apply C50_valid_documents_read_partial; [vm_compute; reflexivity|reflexivity|vm_compute; reflexivity|document_valid|exact C50_example_texts|exact C50_example_elements].
Qed.
Example C50_example_schema : schema_valid ex_schema /\ Forall (fun p => readable_value no_arrow (fst p) (snd p)) (document_texts ex_schema) /\ everywhere readable_element ex_schema.
Proof.
  split; [document_valid|]. split.
  - eapply documents_texts; [vm_compute; reflexivity|]. repeat (apply Forall_cons; [cbn [fst snd]; apply readable_free; [exact I|reflexivity|reflexivity]|]). apply Forall_nil.
  - unfold ex_schema, K, T. cbn [everywhere]. repeat match goal with |- _ /\ _ => split end. all: try exact I. all: try (apply ordinary; vm_compute; reflexivity).
    all: repeat split; intros; try match goal with H : In _ lod_numbers |- _ => cbn in H; destruct H as [<-|[<-|[<-|[<-|[]]]]] end; try match goal with H : e_tag _ = _ |- _ => exfalso; vm_compute in H; discriminate H | H : e_tag _ = _ \/ e_tag _ = _ |- _ => exfalso; destruct H as [H|H]; vm_compute in H; discriminate H end.
    + exists (u "s1"). right. now left.
    + match goal with H : In _ _ |- _ => cbn [In e_attrib] in H; destruct H as [H|[H|[]]]; [vm_compute in H; discriminate H|injection H as <-; discriminate] end.
    + match goal with H : In _ _ |- _ => cbn [In e_attrib] in H; destruct H as [H|[H|[]]]; [injection H as <-; vm_compute; auto|vm_compute in H; discriminate H] end.
Qed.

(** ** Where the library asks for more than the schema *)

Lemma texts_suffice : forall e ty, Forall (fun p => well_written (fst p) (snd p)) (typed_texts ty e) -> values_ok well_written schema_uris schema_types schema_elements ty e.
Proof.
  fix IH 1. intros [t a x ks] ty H. cbn [typed_texts values_ok] in *. destruct (find _ schema_types) as [[? d]|]; [|exact I]. rewrite !Forall_app in H. destruct H as (H1 & H2 & H3). split; [|split].
  - destruct (d_text d); [now inversion H1|exact I].
  - intros k v y Hk Hy E. rewrite Forall_forall in H2. apply (H2 (snd y, v)). apply in_flat_map. exists (k, v). split; [exact Hk|]. apply in_flat_map. exists y. split; [exact Hy|]. cbn [fst snd]. rewrite E, ueqb_refl. now left.
  - clear H1 H2. induction ks as [|k ks IHk]; [exact I|]. apply Forall_app in H3 as [H3 H4]. split; [|now apply IHk]. destruct (kid_type _ _ d (e_tag k)); [now apply IH|exact I].
Qed.

Lemma document_suffice e l : document_texts e = l -> Forall (fun p => well_written (fst p) (snd p)) l -> values_valid e.
Proof. unfold document_texts, values_valid, document_values_ok. destruct (lookup _ _ _); [|intros; exact I]. intros <-. apply texts_suffice. Qed.

(** Valid against the schema, texts and attributes included, but refused. *)
Definition refused (c : string) (e : elem) (z : exn) : Prop :=
  schema_valid e /\ values_valid e /\ e_tag e = clark schema_uris (class_sname W0 c) /\ forall arrow, from_string (fastkml arrow) true c None [] e = Err z.

Ltac refused := split; [document_valid|split; [eapply document_suffice; [vm_compute; reflexivity|];
    repeat (apply Forall_cons; [cbn [fst snd]; try exact I|]); try apply Forall_nil|split; [vm_compute; reflexivity|intro arrow; vm_compute; reflexivity]]].

Theorem C50_lod_refuted : exists e, e = (K "Lod" [] [T "minLodPixels" "128.5"]) /\ refused "views.Lod" e EKMLParse.
Proof. eexists. split; [reflexivity|]. refused. pointed "" "128" "5". Qed.
Theorem C50_field_type_refuted : exists e, e = (K "Schema" [(u "id", u "s1")] [K "SimpleField" [(u "type", u "text"); (u "name", u "N")] []]) /\ refused "data.Schema" e EKMLParse.
Proof. eexists. split; [reflexivity|]. refused. Qed.
Theorem C50_schema_id_refuted : exists e z, e = (K "Schema" [(u "name", u "S")] []) /\ z <> EKMLParse /\ refused "data.Schema" e z.
Proof. eexists. eexists. split; [reflexivity|]. split; [|refused]. discriminate. Qed.
Theorem C50_coordinates_refuted : exists e, e = (K "Point" [] [T "coordinates" "here"]) /\ refused "geometry.Point" e EKMLParse.
Proof. eexists. split; [reflexivity|]. refused. Qed.
Theorem C50_track_refuted : exists e z, e = (Elem (name "gx" "Track") [] None [T "when" "2010"; T "when" "2011"; G "coord" "1 2"]) /\ z <> EKMLParse /\ refused "gx.Track" e z.
Proof.
  eexists. eexists. split; [reflexivity|]. split; [|refused]; [discriminate| |].
  - apply (readable_year no_arrow "2010" 2010); [year|reflexivity].
  - apply (readable_year no_arrow "2011" 2011); [year|reflexivity].
Qed.
Print Assumptions C50_lod_refuted.
Print Assumptions C50_field_type_refuted.
Print Assumptions C50_schema_id_refuted.
Print Assumptions C50_coordinates_refuted.
Print Assumptions C50_track_refuted.

(** A year of six digits is taken for a year and a month. *)
Theorem C50_long_year_refuted : exists s, s = u "200012" /\ well_written ("kml", "dateTimeType") s /\
  forall arrow, kdt_parse arrow s = Ok (mkKdt (PDate (mkDate 2000 12 1)) RYearMonth).
Proof. eexists. split; [reflexivity|]. split; [|intro; reflexivity]. right. right. right. exists (u "200012"), 200012%Z, []. split; [|split; [now left|reflexivity]]. split; [split; [discriminate|split; calc]|]. split; [lia|]. split; [cbn; lia|]. intros _. discriminate. Qed.
Print Assumptions C50_long_year_refuted.

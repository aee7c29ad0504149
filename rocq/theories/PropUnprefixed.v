(** * Documents written without prefix: C30. *)
From Coq Require Import String List NArith ZArith Bool Lia.
From Verif Require Import Ustr UstrProofs Res PyInt PyFloat PyDate Elem Value Geom Codec Tables Spec Settled Same FastkmlOk
  RoundTrip SettledProofs NsProofs SameProofs Unprefixed UnprefixedProofs PropRoundTrip Samples SampleProofs.
Import ListNotations.
Local Open Scope string_scope.

(** Full statement (C30): when all objects of a document have [ns=''], a reader
    sees every element in the KML name space, and reading gives the document
    with regular name spaces.  It holds for documents made of KML classes only
    (below) and fails when there are elements of the gx or atom name spaces:
    see the refutations. *)

Lemma fastkml_plain arrow : forallb (fun cc => forallb plain_item (items_of (fastkml arrow) (fst cc))) (w_classes (fastkml arrow)) = true.
Proof. vm_compute. reflexivity. Qed.
Lemma fastkml_kml_defaults arrow : forallb (fun cc => forallb (fun it => kml_member (fastkml arrow) (it_default it)) (items_of (fastkml arrow) (fst cc))) (w_classes (fastkml arrow)) = true.
Proof. vm_compute. reflexivity. Qed.
Lemma fastkml_enum_ids arrow id : In id (enum_ids (fastkml arrow)) -> id = "kml" \/ id = "gx".
Proof. intro H. vm_compute in H. repeat (destruct H as [<-|H]; [auto|]). contradiction. Qed.
Lemma fastkml_places arrow m : ns_get m "kml" = KMLNS -> qualified (ns_get m "gx") = true -> places (fastkml arrow) m = true.
Proof.
  intros H G. unfold places. apply forallb_forall. intros id [<-|Hi]; [now rewrite H|]. apply fastkml_enum_ids in Hi as [->| ->]; [now rewrite H|exact G].
Qed.

(** All objects have [ns=''], no altitude mode is one of the gx ones: every
    element that an XML parser reads is in the KML name space.  (The map in
    use does not rebind the prefixes kml and gx to nothing.) *)
Theorem C30_all_in_kml_partial :
  forall arrow prec vb nss attrs e, let W := fastkml arrow in let v := VObj "kml.KML" [] nss attrs in
  no_ns v = true -> vall (fun _ _ m _ => ueqb (ns_get m "kml") KMLNS && qualified (ns_get m "gx")) v = true -> kml_members W v = true ->
  etree W prec vb v = Ok e -> all_in KMLNS (as_read [] e) = true.
Proof.
  intros arrow prec vb nss attrs e W v N M E He.
  assert (P : placed_all W v = true).
  { refine (vall_both _ _ _ _ _ N M). intros _ ns m _ Hn Hm. apply andb_prop in Hm as [H1 H2]. apply ueqb_eq in H1. unfold place. rewrite Hn. cbn [orb andb]. now apply fastkml_places. }
  assert (S := seen_in_kml W (fastkml_ok arrow) (fastkml_plain arrow) prec vb "kml.KML" cl_kml_KML nss attrs e eq_refl eq_refl P He).
  assert (O : kml_objs (in_kml v) = true).
  { refine (vall_in_kml _ _ _ _ (vall_both _ _ (fun _ ns m _ => uempty ns && ueqb (ns_get m "kml") KMLNS) v _ N M)).
    - intros _ ns m _ H. apply andb_prop in H as [H1 H2]. unfold seen, K. rewrite H1, H2, ueqb_refl. reflexivity.
    - intros _ ns m _ -> H. now apply andb_prop in H as [-> _]. }
  assert (E' : kml_members W (in_kml v) = true).
  { refine (vall_in_kml _ _ _ _ E). intros c ns m l. apply forallb_kattrs. intros a x. now destruct x. }
  exact (etree_in W (fastkml_ok arrow) (fastkml_plain arrow) (fastkml_kml_defaults arrow) prec vb (in_kml v) O E' _ S).
Qed.
Print Assumptions C30_all_in_kml_partial.

(** What a reader sees is what is written when the objects have the KML name
    space instead of none, whatever precision and verbosity. *)
Theorem C30_seen_as_regular :
  forall arrow prec vb nss attrs e, let W := fastkml arrow in let v := VObj "kml.KML" [] nss attrs in
  vall (fun _ ns m _ => (uempty ns || qualified ns) && ueqb (ns_get m "kml") KMLNS && qualified (ns_get m "gx")) v = true ->
  etree W prec vb v = Ok e -> etree W prec vb (in_kml v) = Ok (as_read [] e).
Proof.
  intros arrow prec vb nss attrs e W v M He. refine (seen_in_kml W (fastkml_ok arrow) (fastkml_plain arrow) prec vb "kml.KML" cl_kml_KML nss attrs e eq_refl eq_refl _ He).
  refine (vall_both _ _ _ _ _ M M). intros _ ns m _ Hm _. apply andb_prop in Hm as [Hm H2]. apply andb_prop in Hm as [H0 H1]. apply ueqb_eq in H1.
  unfold place. rewrite H0. now apply fastkml_places.
Qed.
Print Assumptions C30_seen_as_regular.

Lemma unprefixed_regular W m v : unprefixed W m v = true -> regular W m (in_kml v) = true.
Proof.
  apply vall_in_kml. intros c ns nss attrs H. exact H.
Qed.

(** Reading it back, strict or not, gives the same data with regular name
    spaces, when the objects of KML classes have [ns=''] and those of the gx
    and atom classes have their own name space. *)
Theorem C30_read_back_partial :
  forall arrow strict nss attrs e, let W := fastkml arrow in let m := merge_ns nss in let v := VObj "kml.KML" [] m attrs in
  map_ok m = true -> ns_get m "kml" = KMLNS -> qualified (ns_get m "gx") = true ->
  typed W v = true -> unprefixed W m v = true -> readable W v = true ->
  etree W None Normal v = Ok e ->
  exists v', from_string W strict "kml.KML" None nss (as_read [] e) = Ok v' /\ regular W m (in_kml v) = true /\ same W (in_kml v) v' /\
             (settled W (in_kml v) = true -> v' = in_kml v).
Proof.
  intros arrow strict nss attrs e W m v Hm Hk Hg Ht Hu Hr He. apply typed_in_kml in Ht. apply readable_in_kml in Hr. assert (Hu' := unprefixed_regular _ _ _ Hu).
  assert (S : etree W None Normal (in_kml v) = Ok (as_read [] e)).
  { apply (C30_seen_as_regular arrow None Normal m attrs e); [|exact He]. refine (vall_both _ _ _ _ _ Hu Hu). clear -Hm Hk Hg. intros c ns nss' l H _. apply andb_prop in H as [H1 H2].
    apply same_nss_eq in H2. subst nss'. rewrite Hk, Hg, ueqb_refl. cbn [andb]. rewrite !andb_true_r. destruct (uempty ns) eqn:E; [reflexivity|]. cbn [orb].
    apply ueqb_eq in H1. unfold default_ns in H1. destruct (class_of W c) as [ci|]; [|subst ns; discriminate].
    assert (G : good_ns ns = true).
    { subst ns. unfold map_ok, nss_ok in Hm. apply andb_prop in Hm as [Hm _]. apply andb_prop in Hm as [_ Hm]. unfold ns_get. destruct (sget (ci_nsid ci) m) as [w|] eqn:F; [|reflexivity].
      rewrite forallb_forall in Hm. exact (Hm _ (EmitProofs.sget_In _ _ _ F)). }
    destruct ns as [|k r]; [discriminate|]. cbn in G |- *. now apply andb_prop in G as [-> _]. }
  exists (norm W None Normal (in_kml v)). split; [exact (write_read arrow strict nss "kml.KML" KMLNS m (kattrs attrs) _ Hm Ht Hu' Hr S)|]. split; [exact Hu'|]. split.
  - apply same_norm; [exact (fastkml_ok arrow)|assumption..].
  - intro Hs. now apply (settled_norm W (in_kml v) (fastkml_ok arrow)).
Qed.
Print Assumptions C30_read_back_partial.

(** The document of the C01 example, its KML objects with [ns='']. *)
Fixpoint bare (v : value) : value :=
  match v with
  | VObj c ns nss attrs => VObj c (if ueqb ns KMLNS then [] else ns) nss (map (fun av => match av with (a, x) => (a, bare x) end) attrs)
  | VList l => VList (map bare l)
  | _ => v
  end.
Definition s_bare : value := Eval vm_compute in bare s_kml.
Definition bare_attrs : list (string * value) := Eval vm_compute in match s_bare with VObj _ _ _ l => l | _ => [] end.
Example C30_example :
  s_bare = VObj "kml.KML" [] (merge_ns nss0) bare_attrs /\ map_ok (merge_ns nss0) = true /\ ns_get (merge_ns nss0) "kml" = KMLNS /\ qualified (ns_get (merge_ns nss0) "gx") = true /\
  typed W0 s_bare = true /\ unprefixed W0 (merge_ns nss0) s_bare = true /\ readable W0 s_bare = true /\ is_ok (etree W0 None Normal s_bare) = true /\ in_kml s_bare = s_kml /\ settled W0 (in_kml s_bare) = true.
Proof. repeat split; vm_compute; reflexivity. Qed.

(** A document without gx elements, all objects with [ns='']. *)
Definition s_plain : value := Eval vm_compute in bare (mk "kml.KML" [("features", VList [
  mk "containers.Document" [("name", str "n"); ("styles", VList [s_style]); ("features", VList [
    mk "features.Placemark" [("times", mk "times.TimeSpan" [("begin", date "2000-01-01")]);
      ("kml_geometry", mk "geometry.Point" [("altitude_mode", VEnum "enums.AltitudeMode" (u "absolute")); ("kml_coordinates", s_coords [["1"; "2"]])])]])]])]).
Example C30_example_all :
  no_ns s_plain = true /\ vall (fun _ _ m _ => ueqb (ns_get m "kml") KMLNS && qualified (ns_get m "gx")) s_plain = true /\ kml_members W0 s_plain = true /\
  match etree W0 None Normal s_plain with Ok e => negb (all_in KMLNS e) | Err _ => false end = true.
Proof. repeat split; vm_compute; reflexivity. Qed.

(** ** Refutations of the unrestricted claim *)

(** A gx altitude mode is written in the gx name space even when all objects
    have [ns=''] (helpers.py:149-154). *)
Definition s_sea : value := Eval vm_compute in bare (mk "kml.KML" [("features", VList [mk "features.Placemark" [("kml_geometry", s_point ["1"; "2"])]])]).
Definition s_sea_attrs : list (string * value) := Eval vm_compute in match s_sea with VObj _ _ _ l => l | _ => [] end.
Definition s_sea_elem : elem := Eval vm_compute in match etree W0 None Normal s_sea with Ok e => e | Err _ => new_elem [] end.
Theorem C30_all_in_kml_refuted :
  exists nss attrs e, let v := VObj "kml.KML" [] nss attrs in
  no_ns v = true /\ typed W0 v = true /\ etree W0 None Normal v = Ok e /\ all_in KMLNS (as_read [] e) = false.
Proof. exists nss0, s_sea_attrs, s_sea_elem. vm_compute. repeat split; reflexivity. Qed.
Print Assumptions C30_all_in_kml_refuted.

(** A track with [ns=''] is seen as [kml:Track] with [kml:coord] inside.  The
    track is read, but points are looked for in the gx name space only: it has
    become empty. *)
Definition all_bare (v : value) : value := (fix go (v : value) : value :=
  match v with
  | VObj c _ nss attrs => VObj c [] nss (map (fun av => match av with (a, x) => (a, go x) end) attrs)
  | VList l => VList (map go l)
  | _ => v
  end) v.
Definition s_lost : value := Eval vm_compute in all_bare (mk "kml.KML" [("features", VList [mk "features.Placemark" [("name", str "n"); ("kml_geometry", s_track)]])]).
Definition s_lost_attrs : list (string * value) := Eval vm_compute in match s_lost with VObj _ _ _ l => l | _ => [] end.
Definition s_lost_elem : elem := Eval vm_compute in match etree W0 None Normal s_lost with Ok e => e | Err _ => new_elem [] end.
Definition s_left : value := Eval vm_compute in match from_string W0 true "kml.KML" None nss0 (as_read [] s_lost_elem) with Ok v => v | Err _ => VNone end.
Theorem C30_read_back_refuted :
  exists attrs e v', let v := VObj "kml.KML" [] nss0 attrs in
  no_ns v = true /\ typed W0 v = true /\ readable W0 v = true /\ etree W0 None Normal v = Ok e /\
  from_string W0 true "kml.KML" None nss0 (as_read [] e) = Ok v' /\
  (exists p ps, sget "features" attrs = Some (VList (p :: ps)) /\ exists g, geometry W0 p = Ok (Some g) /\ g <> GLine []) /\
  (exists p, sget "features" (obj_attrs v') = Some (VList [p]) /\ geometry W0 p = Ok (Some (GLine []))).
Proof.
  exists s_lost_attrs, s_lost_elem, s_left. cbv zeta. repeat (split; [vm_compute; reflexivity|]). split.
  - do 2 eexists. split; [cbn; reflexivity|]. eexists. split; [vm_compute; reflexivity|discriminate].
  - eexists. split; [cbn; reflexivity|]. vm_compute. reflexivity.
Qed.
Print Assumptions C30_read_back_refuted.

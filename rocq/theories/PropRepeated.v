(** * Repeated child elements: C47. *)
From Coq Require Import String List NArith ZArith Bool.
From Verif Require Import Ustr UstrProofs Res PyInt PyFloat PyDate Elem Value Geom Codec Tables Spec Samples.
Import ListNotations.
Local Open Scope string_scope.

(** The tags under which a class collects lists: those of the registered
    member classes, or the node name, in one of the registered name spaces. *)
Definition list_tags (W : world) (nss : nss_t) (c : string) : list ustr :=
  flat_map (fun it => flat_map (fun id =>
    match it_get it with
    | GObjs => map (fun k => (ns_get nss id ++ u (match class_of W k with Some ci => ci_tag ci | None => "" end))%list) (it_classes it)
    | GDates | GCoordList => [(ns_get nss id ++ u (it_node it))%list]
    | _ => []
    end) (it_nsids it)) (items_of W c).

Lemma find_kid_repeated (f : elem -> reader) t pre k1 mid k2 post : e_tag k2 = e_tag k1 -> let kid k := (k, f k) in
  find_kid t (map kid (pre ++ k1 :: mid ++ k2 :: post)%list) = find_kid t (map kid (pre ++ k1 :: mid ++ post)%list).
Proof.
  intros E kid. induction pre as [|k pre IH]; cbn [app map find_kid].
  - change (e_tag (fst (kid k1))) with (e_tag k1). destruct (ueqb (e_tag k1) t) eqn:Q; [reflexivity|]. induction mid as [|k mid IH]; cbn [app map find_kid]; [change (e_tag (fst (kid k2))) with (e_tag k2); now rewrite E, Q|]. now rewrite IH.
  - now rewrite IH.
Qed.

Lemma find_kids_other (f : elem -> reader) t pre k1 mid k2 post : e_tag k2 <> t -> let kid k := (k, f k) in
  find_kids t (map kid (pre ++ k1 :: mid ++ k2 :: post)%list) = find_kids t (map kid (pre ++ k1 :: mid ++ post)%list).
Proof.
  intros E kid. unfold find_kids. rewrite !map_app. cbn [map]. rewrite !map_app, !filter_app. cbn [filter map]. rewrite !filter_app. cbn [filter]. change (e_tag (fst (kid k2))) with (e_tag k2).
  destruct (ueqb (e_tag k2) t) eqn:Q; [apply ueqb_eq in Q; contradiction|reflexivity].
Qed.

(** A later child element with the same tag as an earlier one plays no role,
    neither its content nor whether it can be read, unless the class collects
    elements of that tag in a list. *)
Theorem C47_first_of_repeated :
  forall arrow strict t a x pre k1 mid k2 post c ns nss, let W := fastkml arrow in
  e_tag k2 = e_tag k1 -> ~ In (e_tag k1) (list_tags W (merge_ns nss) c) ->
  from_element W strict (Elem t a x (pre ++ k1 :: mid ++ k2 :: post)%list) c ns nss =
  from_element W strict (Elem t a x (pre ++ k1 :: mid ++ post)%list) c ns nss.
Proof.
  intros arrow strict t a x pre k1 mid k2 post c ns nss W. generalize W. clear W. intros W E L. cbn [from_element]. unfold read_with.
  set (f := from_element W strict). assert (F := fun t => find_kid_repeated f t pre k1 mid k2 post E). cbn zeta in F.
  assert (G := fun t H => find_kids_other f t pre k1 mid k2 post H). cbn zeta in G.
  set (l1 := map _ (pre ++ k1 :: mid ++ k2 :: post)%list) in *. set (l2 := map _ (pre ++ k1 :: mid ++ post)%list) in *.
  assert (K : forall it id, In it (items_of W c) -> In id (it_nsids it) -> get_kwarg W strict it a x l1 (ns_get (merge_ns nss) id) (merge_ns nss) = get_kwarg W strict it a x l2 (ns_get (merge_ns nss) id) (merge_ns nss)).
  { intros it id Hit Hid. assert (In' : forall u', In u' (match it_get it with
      | GObjs => map (fun k => (ns_get (merge_ns nss) id ++ u (match class_of W k with Some ci => ci_tag ci | None => "" end))%list) (it_classes it)
      | GDates | GCoordList => [(ns_get (merge_ns nss) id ++ u (it_node it))%list] | _ => [] end) -> e_tag k2 <> u').
    { intros u' Hu Q. apply L. unfold list_tags. apply in_flat_map. exists it. split; [exact Hit|]. apply in_flat_map. exists id. split; [exact Hid|]. rewrite <- E, Q. exact Hu. }
    unfold get_kwarg. rewrite F. destruct (it_get it) eqn:Eg; try reflexivity.
    - rewrite G; [reflexivity|]. apply In'. now left.
    - rewrite G; [reflexivity|]. apply In'. now left.
    - clear In' Eg. induction (it_classes it) as [|k cs IH]; [reflexivity|]. cbn [read_obj]. destruct (class_tag W k); [|reflexivity]. cbn [bind]. rewrite F, IH. reflexivity.
    - unfold read_objs. assert (Q : map_res (fun k => let! tag := class_tag W k in map_res (fun k0 : rkid => snd k0 k (ns_get (merge_ns nss) id) (merge_ns nss)) (find_kids (ns_get (merge_ns nss) id ++ tag)%list l1)) (it_classes it) =
        map_res (fun k => let! tag := class_tag W k in map_res (fun k0 : rkid => snd k0 k (ns_get (merge_ns nss) id) (merge_ns nss)) (find_kids (ns_get (merge_ns nss) id ++ tag)%list l2)) (it_classes it)).
      { clear Eg. induction (it_classes it) as [|k cs IH]; [reflexivity|]. cbn [map_res]. assert (Qk : (let! tag := class_tag W k in map_res (fun k0 : rkid => snd k0 k (ns_get (merge_ns nss) id) (merge_ns nss)) (find_kids (ns_get (merge_ns nss) id ++ tag)%list l1)) = (let! tag := class_tag W k in map_res (fun k0 : rkid => snd k0 k (ns_get (merge_ns nss) id) (merge_ns nss)) (find_kids (ns_get (merge_ns nss) id ++ tag)%list l2))).
        { specialize (In' _ (or_introl eq_refl)). unfold class_tag. destruct (class_of W k); [|reflexivity]. cbn [bind]. now rewrite G. }
        rewrite Qk, IH; [reflexivity|]. intros u' Hu. apply In'. now right. }
      now rewrite Q. }
  assert (K' : forall its acc, incl its (items_of W c) -> get_kwargs W strict its a x l1 (merge_ns nss) acc = get_kwargs W strict its a x l2 (merge_ns nss) acc).
  { induction its as [|it its IH]; intros acc I; [reflexivity|]. cbn [get_kwargs]. assert (T : forall ids, incl ids (it_nsids it) -> try_nsids (fun ns => get_kwarg W strict it a x l1 ns (merge_ns nss)) (merge_ns nss) ids = try_nsids (fun ns => get_kwarg W strict it a x l2 ns (merge_ns nss)) (merge_ns nss) ids).
    { induction ids as [|id ids IHi]; intro Ii; [reflexivity|]. cbn [try_nsids]. rewrite (K it id (I _ (or_introl eq_refl)) (Ii _ (or_introl eq_refl))). rewrite IHi; [reflexivity|]. intros q Hq. apply Ii. now right. }
    rewrite T by apply incl_refl. destruct (try_nsids _ _ _) as [r|]; [|reflexivity]. cbn [bind]. apply IH. intros q Hq. apply I. now right. }
  now rewrite K' by apply incl_refl.
Qed.
Print Assumptions C47_first_of_repeated.

(** A placemark collects nothing but styles in lists; a track collects times, positions
    and angles. *)
Example C47_tags_placemark : list_tags W0 nss0 "features.Placemark" = [(KMLNS ++ u "Style")%list; (KMLNS ++ u "StyleMap")%list; u "Style"; u "StyleMap"].
Proof. vm_compute. reflexivity. Qed.
Example C47_tags_track : list_tags W0 nss0 "gx.Track" = [(KMLNS ++ u "when")%list; (GXNS ++ u "when")%list; u "when"; (GXNS ++ u "coord")%list; u "coord"; (GXNS ++ u "angles")%list; u "angles"].
Proof. vm_compute. reflexivity. Qed.

(** The second name is ignored, and so is a second, unreadable point. *)
Definition e_twice : elem := Eval vm_compute in
  ke "Placemark" [] None [te "name" "first"; ke "Point" [] None [te "coordinates" "1,2"]; te "visibility" "1"; te "name" "second"; ke "Point" [] None [te "coordinates" "x"]].
Example C47_example : exists attrs, from_element W0 true e_twice "features.Placemark" KMLNS nss0 = Ok (VObj "features.Placemark" KMLNS nss0 attrs) /\
  sget "name" attrs = Some (str "first") /\ ~ In (KMLNS ++ u "name")%list (list_tags W0 (merge_ns nss0) "features.Placemark").
Proof.
  eexists. split; [vm_compute; reflexivity|]. split; [reflexivity|]. vm_compute. intros [H|[H|[H|[H|[]]]]]; discriminate.
Qed.

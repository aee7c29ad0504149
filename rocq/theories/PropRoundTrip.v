(** * Writing and reading whole documents: C01, C02, C45. *)
From Coq Require Import String List NArith ZArith Bool Lia.
From Verif Require Import Ustr UstrProofs Res PyInt PyFloat PyDate Elem Value Geom Codec Tables Spec Settled Same FastkmlOk
  RoundTrip SettledProofs NsProofs ReaderTyped Generations SameProofs Samples SampleProofs.
Import ListNotations.
Local Open Scope string_scope.

(** ** C01 *)

Lemma write_read arrow strict nss c ns nss' attrs e :
  let W := fastkml arrow in
  let v := VObj c ns nss' attrs in
  map_ok (merge_ns nss) = true -> typed W v = true -> regular W (merge_ns nss) v = true -> readable W v = true ->
  etree W None Normal v = Ok e ->
  from_string W strict c None nss e = Ok (norm W None Normal v).
Proof.
  intros W v Hm Ht Hg Hr He. assert (R := regular_rt W (merge_ns nss) (fastkml_ok arrow) (fastkml_ids arrow) Hm v Ht Hg Hr).
  unfold regular in Hg. cbn [vall v] in Hg. apply andb_prop in Hg as [Hg _]. apply andb_prop in Hg as [G1 G2]. apply same_nss_eq in G2. subst nss'.
  apply ueqb_eq in G1. subst ns. unfold from_string. apply roundtrip; [exact (fastkml_ok arrow)|assumption..].
Qed.

(** Every object of every class, at any nesting depth, whose name spaces are
    those of one map [nss] (given by the user, merged with the built-in one),
    whose attributes have the declared types, whose dates have a readable text
    form and whose tracks are complete: when it is written without precision
    and with normal verbosity, reading the result (strict or not) succeeds and
    gives an object with the same data (Same.v). *)
Theorem C01_write_read_same_data :
  forall arrow strict nss c ns nss' attrs e,
  let W := fastkml arrow in
  let v := VObj c ns nss' attrs in
  map_ok (merge_ns nss) = true -> typed W v = true -> regular W (merge_ns nss) v = true -> readable W v = true ->
  etree W None Normal v = Ok e ->
  exists v', from_string W strict c None nss e = Ok v' /\ same W v v'.
Proof.
  intros arrow strict nss c ns nss' attrs e W v Hm Ht Hg Hr He. exists (norm W None Normal v). split.
  - now apply write_read.
  - apply same_norm; [exact (fastkml_ok arrow)|assumption..].
Qed.
Print Assumptions C01_write_read_same_data.

(** If in addition nothing is empty, lists are grouped by class, text is
    stripped and measures are floats, the object itself is read back. *)
Theorem C01_write_read_identity :
  forall arrow strict nss c ns nss' attrs e,
  let W := fastkml arrow in
  let v := VObj c ns nss' attrs in
  map_ok (merge_ns nss) = true -> typed W v = true -> regular W (merge_ns nss) v = true -> readable W v = true ->
  settled W v = true ->
  etree W None Normal v = Ok e ->
  from_string W strict c None nss e = Ok v.
Proof.
  intros arrow strict nss c ns nss' attrs e W v Hm Ht Hg Hr Hs He. rewrite <- (settled_norm W v (fastkml_ok arrow) Ht Hs) at 1. now apply write_read.
Qed.
Print Assumptions C01_write_read_identity.

(** The same for objects whose name spaces differ from the defaults, as long as
    every attribute is written where the registry looks for it. *)
Theorem C01_any_name_spaces :
  forall arrow strict c ns nss attrs e,
  let W := fastkml arrow in
  let v := VObj c ns nss attrs in
  typed W v = true -> rt_ok W v = true -> etree W None Normal v = Ok e ->
  exists v', from_element W strict e c ns nss = Ok v' /\ (readable W v = true -> same W v v').
Proof.
  intros arrow strict c ns nss attrs e W v Ht Hr He. exists (norm W None Normal v). split.
  - apply roundtrip; [exact (fastkml_ok arrow)|assumption..].
  - intro R. apply same_norm; [exact (fastkml_ok arrow)|assumption..].
Qed.
Print Assumptions C01_any_name_spaces.

(** A document with nested containers, styles, a polygon with a hole, a track,
    extended data and a schema meets all the hypotheses. *)
Example C01_example :
  exists attrs e, s_kml = VObj "kml.KML" KMLNS nss0 attrs /\
  map_ok (merge_ns nss0) = true /\ typed W0 s_kml = true /\ regular W0 (merge_ns nss0) s_kml = true /\
  readable W0 s_kml = true /\ settled W0 s_kml = true /\ etree W0 None Normal s_kml = Ok e /\ size s_kml = 40%nat.
Proof.
  destruct kml_obj as [attrs E], (kml_written Normal) as [e H]. exists attrs, e.
  refine (conj E (conj nss0_ok (conj kml_typed (conj kml_regular (conj kml_readable (conj kml_settled (conj H _))))))). vm_compute. reflexivity.
Qed.

(** [same] tells objects apart: another name, a lost name and a lost placemark
    are not the same data. *)
Example C01_same_is_strict :
  ~ same W0 (mk "features.Placemark" [("name", str "a")]) (mk "features.Placemark" [("name", str "b")]) /\
  ~ same W0 (mk "features.Placemark" [("name", str "a")]) (mk "features.Placemark" []) /\
  ~ same W0 (mk "containers.Folder" [("features", VList [mk "features.Placemark" []])]) (mk "containers.Folder" []).
Proof.
  repeat split; intro H; apply same_obj_inv in H as [[H _]|[ci [a' [H [Hc Hi]]]]]; try discriminate H; injection H as <-;
    vm_compute in Hc; injection Hc as <-.
  - assert (Hin : In (nth 2 (items_of W0 "features.Placemark") root_item) (items_of W0 "features.Placemark")) by (vm_compute; tauto).
    specialize (Hi _ Hin). apply same_str_inv in Hi as [[Hi _]|[s [Hi Hs]]]; [discriminate Hi|]. injection Hi as <-. vm_compute in Hs. discriminate Hs.
  - assert (Hin : In (nth 2 (items_of W0 "features.Placemark") root_item) (items_of W0 "features.Placemark")) by (vm_compute; tauto).
    specialize (Hi _ Hin). apply same_str_inv in Hi as [[_ Hs]|[s [Hi Hs]]]; [vm_compute in Hs; discriminate Hs|discriminate Hi].
  - assert (Hin : In (last (items_of W0 "containers.Folder") root_item) (items_of W0 "containers.Folder")) by (vm_compute; tauto).
    specialize (Hi _ Hin). apply same_list_inv in Hi as [l [E K]]. injection E as <-.
    destruct (K "features.Placemark"%string) as [m [F2 D]]. destruct D as [D|D]; cbn in D.
    + subst m. vm_compute in F2. inversion F2.
    + inversion F2 as [|x y p q Hxy Hr Ex Ey]; subst m. apply same_obj_inv in Hxy as [[_ Hf]|[ci [a' [-> _]]]]; [vm_compute in Hf; discriminate Hf|].
      cbn [filter] in D. replace (truth W0 _) with true in D by reflexivity. discriminate D.
Qed.

(** ** C02

    Full statement: for every element that is read as [v] and written again,
    reading the written form gives an object that further writing and reading
    leaves as it is.  This is false: an object that contains nothing but an
    empty object becomes empty itself when the latter is dropped, and is
    dropped in turn one generation later. *)

(** [<Document><StyleMap id="m"><Pair/></StyleMap></Document>] *)
Definition e_unstable : elem :=
  ke "Document" [] None [ke "StyleMap" [("id", "m")] None [ke "Pair" [] None []]].

Theorem C02_second_generation_refuted :
  exists e v e1 v1 e2 v2,
    from_string W0 true "containers.Document" None [] e = Ok v /\
    etree W0 None Normal v = Ok e1 /\ from_string W0 true "containers.Document" None [] e1 = Ok v1 /\
    etree W0 None Normal v1 = Ok e2 /\ from_string W0 true "containers.Document" None [] e2 = Ok v2 /\
    v1 <> v2 /\ e1 <> e2.
Proof.
  exists e_unstable. do 5 eexists. repeat (split; [vm_compute; reflexivity|]). split; discriminate.
Qed.
Print Assumptions C02_second_generation_refuted.

(** What holds: every object that was read, whose dates and tracks are readable
    and whose attributes are written where the registry looks for them,
    reaches a fixed point after at most as many generations as it has objects
    (provided the intermediate objects can be written); each generation only
    removes empty sub-objects. *)
Theorem C02_converges_partial :
  forall arrow strict e c ns nss v n w,
  let W := fastkml arrow in
  from_element W strict e c ns nss = Ok v -> rt_ok W v = true ->
  (size v <= n)%nat -> generations W strict n v = Ok w ->
  forall e', etree W None Normal w = Ok e' ->
  exists attrs, w = VObj c ns (merge_ns nss) attrs /\ from_element W strict e' c ns (merge_ns nss) = Ok w.
Proof.
  intros arrow strict e c ns nss v n w W Hv Hr Hn Hg e' He'.
  destruct (reader_inv W strict e (fastkml_ok arrow) _ _ _ _ Hv) as [I [attrs ->]].
  assert (G := generations_stable W strict (fastkml_ok arrow) n _ w (conj I (conj Hr (ex_intro _ _ (ex_intro _ _ (ex_intro _ _ (ex_intro _ _ eq_refl)))))) Hn Hg).
  destruct G as [[I' [R' _]] P].
  destruct (generations_same_head W strict (fastkml_ok arrow) _ _ _ _ _ _ I Hr Hg) as [attrs' ->].
  exists attrs'. split; [reflexivity|]. destruct (gen_step W strict (fastkml_ok arrow) _ _ _ _ _ I' R' He') as [H _]. now rewrite P in H.
Qed.
Print Assumptions C02_converges_partial.

(** An object without empty sub-objects is a fixed point at once. *)
Theorem C02_first_generation_partial :
  forall arrow strict e c ns nss v e1,
  let W := fastkml arrow in
  from_element W strict e c ns nss = Ok v -> rt_ok W v = true -> settled W v = true ->
  etree W None Normal v = Ok e1 -> from_element W strict e1 c ns (merge_ns nss) = Ok v.
Proof.
  intros arrow strict e c ns nss v e1 W Hv Hr Hs He.
  destruct (reader_inv W strict e (fastkml_ok arrow) _ _ _ _ Hv) as [[T _] [attrs ->]].
  rewrite <- (settled_norm W _ (fastkml_ok arrow) T Hs) at 1. apply roundtrip; [exact (fastkml_ok arrow)|assumption..].
Qed.
Print Assumptions C02_first_generation_partial.

(** The unstable document meets the hypotheses and needs two generations. *)
Example C02_example :
  exists v w e', from_element W0 true e_unstable "containers.Document" KMLNS [] = Ok v /\ rt_ok W0 v = true /\ size v = 3%nat /\
    generations W0 true 3 v = Ok w /\ size w = 1%nat /\ etree W0 None Normal w = Ok e' /\ settled W0 w = true.
Proof. do 3 eexists. repeat (split; [vm_compute; reflexivity|]). vm_compute. reflexivity. Qed.

(** ** C45 *)

(** Whatever element is read: the result is an instance of the requested class
    in the given name space, in which every attribute, at every depth, has the
    declared type: text is stripped and not blank, numbers are valid doubles,
    enumeration values are members of the declared enumeration, sub-objects
    are instances of the registered classes, lists are grouped by class. *)
Theorem C45_reader_is_typed :
  forall arrow strict e c ns nss v,
  let W := fastkml arrow in
  from_element W strict e c ns nss = Ok v ->
  typed W v = true /\ settled_with (fun _ => true) W v = true /\
  exists attrs, v = VObj c ns (merge_ns nss) attrs.
Proof.
  intros arrow strict e c ns nss v W Hv. destruct (reader_inv W strict e (fastkml_ok arrow) _ _ _ _ Hv) as [[T [S _]] [attrs ->]].
  split; [exact T|]. split; [exact S|]. eauto.
Qed.
Print Assumptions C45_reader_is_typed.

(** A document with blank names, unknown elements, bad numbers and an unknown
    enumeration value is read leniently. *)
Definition e_messy : elem :=
  ke "Placemark" [("id", " p "); ("junk", "x")] (Some "  ") [
    te "name" "   "; te "unknown" "x"; te "visibility" "maybe";
    ke "Point" [] None [te "altitudeMode" "nowhere"; te "coordinates" " 1.5, 2,3 "]].

Example C45_example :
  exists v, from_element W0 false e_messy "features.Placemark" KMLNS [] = Ok v /\ size v = 3%nat /\
            from_element W0 true e_messy "features.Placemark" KMLNS [] = Err EKMLParse.
Proof. eexists. repeat (split; [vm_compute; reflexivity|]). vm_compute. reflexivity. Qed.

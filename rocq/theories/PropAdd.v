(** * Adding to a document and its references: C78. *)
From Coq Require Import String List NArith ZArith Bool Lia.
From Verif Require Import Ustr UstrProofs Res PyInt PyFloat PyDate Value Geom Codec Tables Spec Find FindSpec FindProofs NarrowProofs PropFind AddProofs Samples.
Import ListNotations.
Local Open Scope string_scope.
Local Open Scope list_scope.

(** Objects added at the end of a list of an object that is not itself asked
    for: what was found is still found, in the same order; what is found in the
    new objects stands in one piece between the results from the list or before
    it and those from the attributes after it. *)
Theorem C78_list_grows : forall W ga ts args c ns nss l1 a m n l2 l ls,
  let o k := OVal (VObj c ns nss (l1 ++ (a, VList k) :: l2)) in let q := mkQuery (Some ts) args in
  underscore a = false -> (forall k t, In t ts -> ~ is_a W (o k) t) ->
  find_all W ga q (o m) = Ok l -> Forall2 (fun y r => find_all W ga q (OVal y) = Ok r) n ls ->
  exists p s, l = p ++ s /\ find_all W ga q (o (m ++ n)) = Ok (p ++ concat ls ++ s) /\
    (forall x, In x s -> reach (OVal (VObj c ns nss l2)) x) /\
    (forall y x, In y m -> reach (OVal y) x -> matches W ga q x -> In x p).
Proof. exact list_grows. Qed.
Print Assumptions C78_list_grows.

Lemma style_search W ga i o : id_plain ga -> exists l, find_all W ga (mkQuery (Some ["styles.Style"; "styles.StyleMap"]) [("id", eq_str i)]) o = Ok l.
Proof.
  intro G. apply C19_total. intros x k eq _ [[= <- <-]|[]]. rewrite G. destruct x as [[ | | | | | | | | | | |c ns nss attrs]| | | | | | | ]; cbn [instance_attr]; try (left; reflexivity).
  destruct (sget "id" attrs) as [y|]; [right; do 2 eexists; split; reflexivity|left; reflexivity].
Qed.

Lemma style_searches W ga i n : id_plain ga -> exists ls, Forall2 (fun y r => find_all W ga (mkQuery (Some ["styles.Style"; "styles.StyleMap"]) [("id", eq_str i)]) (OVal y) = Ok r) n ls.
Proof. intro G. induction n as [|y n [ls IH]]; [exists []; constructor|]. destruct (style_search W ga i (OVal y) G) as [r E]. exists (r :: ls). now constructor. Qed.

Lemma document_no_style arrow ns nss attrs t : In t ["styles.Style"; "styles.StyleMap"] -> ~ is_a (fastkml arrow) (OVal (VObj "containers.Document" ns nss attrs)) t.
Proof.
  intros Ht H. inversion H; subst.
  - destruct Ht as [E|[E|[]]]; discriminate E.
  - match goal with K : class_of _ _ = Some _ |- _ => change (class_of (fastkml arrow) "containers.Document") with (Some cl_containers_Document) in K; injection K as <- end.
    match goal with K : In t _ |- _ => cbn [ci_mro cl_containers_Document In] in K; destruct Ht as [<- |[<- |[]]]; repeat destruct K as [K|K]; try discriminate K; destruct K end.
  - match goal with K : class_of _ _ = None |- _ => change (class_of (fastkml arrow) "containers.Document") with (Some cl_containers_Document) in K; discriminate K end.
Qed.

(** Features added to a document with documented types never change what a
    reference that resolves resolves to, whatever styles they bring along. *)
Theorem C78_features : forall arrow ga bad_host ns nss l1 m n l2 url s, let W := fastkml arrow in
  let doc k := VObj "containers.Document" ns nss (l1 ++ ("features", VList k) :: l2) in
  id_plain ga -> typed W (doc m) = true ->
  get_style_by_url W ga bad_host (doc m) url = Ok (Some s) -> get_style_by_url W ga bad_host (doc (m ++ n)) url = Ok (Some s).
Proof.
  intros arrow ga bad_host ns nss l1 m n l2 url s W doc G T. unfold get_style_by_url. destruct (bad_host url); [discriminate|].
  set (i := fragment url). destruct (style_search W ga i (OVal (doc m)) G) as [l H]. destruct (style_searches W ga i n G) as [ls F].
  rewrite (C19_find_first _ _ _ _ _ H). intro R.
  destruct (list_grows W ga _ _ "containers.Document" ns nss l1 "features" m n l2 l ls eq_refl (fun k t Ht => document_no_style arrow ns nss _ t Ht) H F) as [p [r [-> [H' [Hr _]]]]].
  change (find_all W ga (mkQuery (Some ["styles.Style"; "styles.StyleMap"]) [("id", eq_str i)]) (OVal (doc (m ++ n))) = Ok (p ++ concat ls ++ r)) in H'.
  rewrite (C19_find_first _ _ _ _ _ H'). destruct p as [|x p]; [|exact R]. exfalso. destruct r as [|x r]; [discriminate R|]. clear R.
  assert (X := Hr x (or_introl eq_refl)). assert (Hm : matches W ga (mkQuery (Some ["styles.Style"; "styles.StyleMap"]) [("id", eq_str i)]) x) by (apply (C19_sound_and_complete _ _ _ _ _ H x); now left).
  destruct (only_values W ga i x G Hm) as [v ->]. apply (style_matches W ga i v G) in Hm as [[c [ns' [nss' [attrs [-> [t [Ht Ha]]]]]]] _].
  apply reach_inside in X. destruct (document_rest arrow ns nss l1 m l2 T) as [ss [-> Hss]].
  assert (C : c = "containers.Document" \/ c = "data.Schema" \/ c = "data.SimpleField").
  { inversion X as [|? ? ? ? a y ? Hin U Hi|? ? ? ? a k y ? Hin U Hy Hi]; subst; [now left| |]; destruct Hin as [[= <- <-]|[]].
    - destruct (inside_obj _ _ _ _ _ Hi) as [? [? [? [? E]]]]. discriminate E.
    - right. destruct (Hss y Hy) as [Ty Oy]. exact (schema_inside arrow y _ Hi Ty Oy c ns' nss' attrs eq_refl). }
  assert (N : forall ci, class_of W c = Some ci -> ~ In t (ci_mro ci)).
  { intros ci Hc. destruct C as [-> |[-> | ->]].
    - change (class_of W "containers.Document") with (Some cl_containers_Document) in Hc. injection Hc as <-. cbn [ci_mro cl_containers_Document In]. destruct Ht as [<- |[<- |[]]]; intro K; repeat destruct K as [K|K]; try discriminate K; destruct K.
    - change (class_of W "data.Schema") with (Some cl_data_Schema) in Hc. injection Hc as <-. cbn [ci_mro cl_data_Schema In]. destruct Ht as [<- |[<- |[]]]; intro K; repeat destruct K as [K|K]; try discriminate K; destruct K.
    - change (class_of W "data.SimpleField") with (Some cl_data_SimpleField) in Hc. injection Hc as <-. cbn [ci_mro cl_data_SimpleField In]. destruct Ht as [<- |[<- |[]]]; intro K; repeat destruct K as [K|K]; try discriminate K; destruct K. }
  inversion Ha; subst.
  - destruct Ht as [E|[E|[]]]; discriminate E.
  - eapply N; eauto.
  - destruct Ht as [<- |[<- |[]]]; destruct C as [C|[C|C]]; discriminate C.
Qed.
Print Assumptions C78_features.

(** Styles added at the end of the list of styles (or any objects at the end of
    any list) do not change what an id refers to if something in the list
    already has it. *)
Theorem C78_styles : forall arrow ga bad_host ns nss l1 a m n l2 url v, let W := fastkml arrow in
  let doc k := VObj "containers.Document" ns nss (l1 ++ (a, VList k) :: l2) in
  id_plain ga -> underscore a = false -> In v m -> style W v -> has_id v (fragment url) ->
  get_style_by_url W ga bad_host (doc (m ++ n)) url = get_style_by_url W ga bad_host (doc m) url.
Proof.
  intros arrow ga bad_host ns nss l1 a m n l2 url v W doc G U Hv Hs Hi. unfold get_style_by_url. destruct (bad_host url); [reflexivity|].
  set (i := fragment url) in *. destruct (style_search W ga i (OVal (doc m)) G) as [l H]. destruct (style_searches W ga i n G) as [ls F].
  destruct (list_grows W ga _ _ "containers.Document" ns nss l1 a m n l2 l ls U (fun k t Ht => document_no_style arrow ns nss _ t Ht) H F) as [p [r [-> [H' [_ Hp]]]]].
  change (find_all W ga (mkQuery (Some ["styles.Style"; "styles.StyleMap"]) [("id", eq_str i)]) (OVal (doc (m ++ n))) = Ok (p ++ concat ls ++ r)) in H'.
  rewrite (C19_find_first _ _ _ _ _ H), (C19_find_first _ _ _ _ _ H').
  assert (X := Hp v (OVal v) Hv (reach_self _) (proj2 (style_matches W ga i v G) (conj Hs Hi))). destruct p as [|x p]; [destruct X|reflexivity].
Qed.
Print Assumptions C78_styles.

(** A reference that did not resolve resolves to the first style that the added
    object brings, if any. *)
Theorem C78_added : forall arrow ga bad_host ns nss l1 a m x l2 url, let W := fastkml arrow in
  let doc k := VObj "containers.Document" ns nss (l1 ++ (a, VList k) :: l2) in
  id_plain ga -> underscore a = false -> get_style_by_url W ga bad_host (doc m) url = Ok None ->
  get_style_by_url W ga bad_host (doc (m ++ [x])) url = get_style_by_url W ga bad_host x url.
Proof.
  intros arrow ga bad_host ns nss l1 a m x l2 url W doc G U. unfold get_style_by_url. destruct (bad_host url); [discriminate|].
  set (i := fragment url). destruct (style_search W ga i (OVal (doc m)) G) as [l H]. destruct (style_search W ga i (OVal x) G) as [r E].
  rewrite (C19_find_first _ _ _ _ _ H). intro R. destruct l as [|y l]; [|discriminate R].
  destruct (list_grows W ga _ _ "containers.Document" ns nss l1 a m [x] l2 [] [r] U (fun k t Ht => document_no_style arrow ns nss _ t Ht) H (Forall2_cons _ _ E (Forall2_nil _))) as [p [s [Es [H' _]]]].
  change (find_all W ga (mkQuery (Some ["styles.Style"; "styles.StyleMap"]) [("id", eq_str i)]) (OVal (doc (m ++ [x]))) = Ok (p ++ concat [r] ++ s)) in H'.
  symmetry in Es. apply app_eq_nil in Es as [-> ->]. rewrite (C19_find_first _ _ _ _ _ H'), (C19_find_first _ _ _ _ _ E). cbn [concat app]. now rewrite !app_nil_r.
Qed.
Print Assumptions C78_added.

(** The condition of [C78_styles] is needed: a style added to the document's
    list takes over an id that so far belonged to a style of a feature. *)
Definition a_style (name : string) : value := mk "styles.Style" [("id", str name)].
Definition some_attrs (styles features : list value) : list (string * value) :=
  match mk "containers.Document" [("styles", VList styles); ("features", VList features); ("schemata", VList [mk "data.Schema" [("id", str "sc"); ("fields", VList [mk "data.SimpleField" [("name", str "f")]])]])] with
  | VObj _ _ _ attrs => attrs | _ => []
  end.

Theorem C78_takeover : exists m n features url s,
  let doc k := VObj "containers.Document" KMLNS [] (some_attrs k features) in
  typed W0 (doc m) = true /\ typed W0 (doc (m ++ n)) = true /\
  get_style_by_url W0 instance_attr (fun _ => false) (doc m) url = Ok (Some s) /\
  get_style_by_url W0 instance_attr (fun _ => false) (doc (m ++ n)) url <> Ok (Some s).
Proof.
  pose (f := mk "features.Placemark" [("styles", VList [mk "styles.Style" [("id", str "a"); ("target_id", str "own")]])]).
  exists [a_style "b"], [a_style "a"], [f], (u "#a"), (OVal (mk "styles.Style" [("id", str "a"); ("target_id", str "own")])).
  cbv zeta. repeat match goal with |- _ /\ _ => split; [vm_compute; reflexivity|] end. intro H. vm_compute in H. discriminate H.
Qed.
Print Assumptions C78_takeover.

Example C78_example :
  let f := mk "features.Placemark" [("styles", VList [mk "styles.Style" [("id", str "a"); ("target_id", str "own")]; a_style "new"])] in
  let doc k := VObj "containers.Document" KMLNS [] (some_attrs [a_style "b"; a_style "a"] k) in
  let get d x := get_style_by_url W0 instance_attr (fun _ => false) d (u x) in
  typed W0 (doc [a_style "x"]) = false /\ typed W0 (doc []) = true /\
  (exists l1 l2, some_attrs [a_style "b"; a_style "a"] [] = l1 ++ ("features", VList []) :: l2 /\ some_attrs [a_style "b"; a_style "a"] [f] = l1 ++ ("features", VList [f]) :: l2) /\
  get (doc []) "#a" = Ok (Some (OVal (a_style "a"))) /\ get (doc [f]) "#a" = Ok (Some (OVal (a_style "a"))) /\
  get (doc []) "#new" = Ok None /\ get (doc [f]) "#new" = Ok (Some (OVal (a_style "new"))) /\ get f "#new" = Ok (Some (OVal (a_style "new"))).
Proof.
  cbv zeta. repeat match goal with |- _ /\ _ => split; [try (vm_compute; reflexivity)|] end; [|vm_compute; reflexivity].
  match goal with |- exists _ _, ?x = _ /\ ?y = _ => let x' := eval vm_compute in x in change x with x'; let y' := eval vm_compute in y in change y with y' end.
  eexists [_; _; _; _; _; _; _; _; _; _; _; _; _; _; _; _; _], [_]. split; reflexivity.
Qed.

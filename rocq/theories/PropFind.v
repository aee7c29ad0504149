(** * Searching, styles and times: C19, C20, C41, C42. *)
From Coq Require Import String List NArith ZArith Bool Lia Sorting.Sorted.
From Verif Require Import Ustr UstrProofs Res PyInt PyFloat PyDate Value Geom Codec Tables Spec EmitProofs RoundTrip Find FindSpec FindProofs Samples.
Import ListNotations.
Local Open Scope string_scope.

(** ** C19: [find_all] and [find] *)

(** Exactly the objects that can be reached and match: none missing, none
    invented.  [ga] (Python's [getattr]) and the comparisons in the query are
    arbitrary. *)
Theorem C19_sound_and_complete : forall W ga q o l, find_all W ga q o = Ok l ->
  forall x, In x l <-> reach o x /\ matches W ga q x.
Proof.
  intros W ga q o l H x. destruct (walk_good W ga q _ o l (Nat.lt_succ_diag_r _) H) as [ps [_ [F C]]]. split.
  - intro Hx. assert (E : exists p, In p ps /\ at_path W o p x).
    { clear -F Hx. induction F as [|p y ps l Hp _ IH]; [destruct Hx|]. destruct Hx as [->|Hx]; [exists p; split; [now left|exact Hp]|].
      destruct (IH Hx) as [p' [Hin Hat]]. exists p'. split; [now right|exact Hat]. }
    destruct E as [p [Hp Ha]]. split; [exact (at_reach W o p x Ha)|]. apply test_true, (C p x Ha), Hp.
  - intros [Hr Hm]. destruct (reach_at W o x Hr) as [p Ha]. apply test_true in Hm. apply (C p x Ha) in Hm.
    destruct (Forall2_In_l _ _ _ F p Hm) as [y [Hy Hat]]. now rewrite (at_path_fun W o p x y Ha Hat).
Qed.
Print Assumptions C19_sound_and_complete.

(** In document order, once for each place: the results stand at paths that
    strictly increase (parents before children, then from left to right), and
    those are all the paths at which something matches. *)
Theorem C19_document_order : forall W ga q o l, find_all W ga q o = Ok l ->
  exists ps, StronglySorted before ps /\ Forall2 (at_path W o) ps l /\
    forall p x, at_path W o p x -> (In p ps <-> matches W ga q x).
Proof.
  intros W ga q o l H. destruct (walk_good W ga q _ o l (Nat.lt_succ_diag_r _) H) as [ps [S [F C]]]. exists ps. split; [exact S|]. split; [exact F|].
  intros p x Ha. now rewrite (C p x Ha), test_true.
Qed.
Print Assumptions C19_document_order.

(** "From left to right" is the order of the attributes, and within a list the
    order of the list. *)
Theorem C19_left_to_right : forall W c ns nss l1 a1 x1 l2 a2 x2 l3,
  let o := OVal (VObj c ns nss (l1 ++ (a1, x1) :: l2 ++ (a2, x2) :: l3)%list) in
  underscore a1 = false -> underscore a2 = false -> single x1 -> single x2 ->
  exists i j, (i < j)%nat /\ at_path W o [i] (OVal x1) /\ at_path W o [j] (OVal x2).
Proof.
  intros W c ns nss l1 a1 x1 l2 a2 x2 l3 o H1 H2 S1 S2. unfold o.
  apply (siblings W c ns nss _ (concat (map expand_attr l1)) _ (concat (map expand_attr l2)) _ (concat (map expand_attr l3))).
  rewrite map_app, concat_app. cbn [map concat]. rewrite map_app, concat_app. cbn [map concat]. unfold expand_attr at 2 4. cbn [fst snd]. rewrite H1, H2.
  destruct x1; try destruct S1; destruct x2; try destruct S2; reflexivity.
Qed.
Print Assumptions C19_left_to_right.

Theorem C19_list_order : forall W c ns nss l1 a l2 m1 y1 m2 y2 m3,
  let o := OVal (VObj c ns nss (l1 ++ (a, VList (m1 ++ y1 :: m2 ++ y2 :: m3)) :: l2)%list) in
  underscore a = false ->
  exists i j, (i < j)%nat /\ at_path W o [i] (OVal y1) /\ at_path W o [j] (OVal y2).
Proof.
  intros W c ns nss l1 a l2 m1 y1 m2 y2 m3 o H1. unfold o.
  apply (siblings W c ns nss _ (concat (map expand_attr l1) ++ map OVal m1) _ (map OVal m2) _ (map OVal m3 ++ concat (map expand_attr l2))).
  rewrite map_app, concat_app. cbn [map concat]. unfold expand_attr at 2. cbn [fst snd]. rewrite H1. cbn [expand]. rewrite map_app. cbn [map]. rewrite map_app. cbn [map].
  now rewrite <- !app_assoc, <- !app_comm_cons, <- !app_assoc.
Qed.
Print Assumptions C19_list_order.

(** [find] gives the first of them or [None]. *)
Theorem C19_find_first : forall W ga q o l, find_all W ga q o = Ok l -> find W ga q o = Ok (hd_error l).
Proof. intros W ga q o l H. exact (first_seq _ l H). Qed.
Print Assumptions C19_find_first.

(** The search ends without exception unless a comparison, or an attribute
    other than a missing one, raises. *)
Theorem C19_total : forall W ga q o,
  (forall x k eq, reach o x -> In (k, eq) (q_args q) -> ga x k = Err EAttributeError \/ exists v b, ga x k = Ok v /\ eq v = Ok b) ->
  exists l, find_all W ga q o = Ok l.
Proof.
  intros W ga q o H. apply walk_ok; [lia|]. intros x Hx. unfold test. destruct (match q_type q with None => true | Some ts => isinstance W ts x end); [|now exists false].
  assert (H' := fun k eq => H x k eq Hx). clear H. induction (q_args q) as [|[k eq] args IH]; cbn [has_attribute_values]; [now exists true|].
  destruct (H' k eq (or_introl eq_refl)) as [-> | [v [b [-> E]]]]; cbn [bind]; [now exists false|]. rewrite E. destruct b; [|now exists false].
  apply IH. intros k' eq' Hin. apply H'. now right.
Qed.
Print Assumptions C19_total.

(** For the objects of the library: those inside the object, through public
    attributes and members of lists, to any depth. *)
Theorem C19_library_objects : forall W ga q v l, find_all W ga q (OVal v) = Ok l ->
  forall c ns nss attrs, let x := VObj c ns nss attrs in
  In (OVal x) l <-> inside v x /\ matches W ga q (OVal x).
Proof. intros W ga q v l H c ns nss attrs x. unfold x. rewrite (C19_sound_and_complete W ga q _ l H), <- reach_inside. reflexivity. Qed.
Print Assumptions C19_library_objects.

(** Attributes of instances. *)
Definition instance_attr (o : pyobj) (a : string) : res pyobj :=
  match o with
  | OVal (VObj _ _ _ attrs) => match sget a attrs with Some x => Ok (OVal x) | None => Err EAttributeError end
  | _ => Err EAttributeError
  end.

Lemma find_name W ts nm v c ns nss attrs :
  find W instance_attr (mkQuery (Some ts) [("name", eq_str nm)]) (OVal v) = Ok (Some (OVal (VObj c ns nss attrs))) ->
  inside v (VObj c ns nss attrs) /\ sget "name" attrs = Some (VStr nm).
Proof.
  set (q := mkQuery _ _). intro F. assert (H : exists l, find_all W instance_attr q (OVal v) = Ok l).
  { apply C19_total. intros x k eq _ [[= <- <-]|[]]. destruct x as [[ | | | | | | | | | | |c' ns' nss' attrs']| | | | | | | ]; cbn [instance_attr]; try (left; reflexivity).
    destruct (sget "name" attrs') as [y|]; [right; do 2 eexists; split; reflexivity|left; reflexivity]. }
  destruct H as [l H]. rewrite (C19_find_first _ _ _ _ _ H) in F. injection F as F. destruct l as [|x l]; [discriminate|]. injection F as ->.
  destruct (proj1 (C19_library_objects W instance_attr q v _ H c ns nss attrs) (or_introl eq_refl)) as [Hi [_ Hm]]. split; [exact Hi|].
  destruct (Hm _ _ (or_introl eq_refl)) as [y [Hy E]]. cbn [instance_attr] in Hy. destruct (sget "name" attrs) as [z|]; [|discriminate]. injection Hy as <-.
  destruct z; try discriminate. injection E as E. apply ueqb_eq in E. now subst.
Qed.

(** The document has three placemarks, found in this order; one of them is
    called "P & <Q>". *)
Example C19_example :
  (let! l := find_all W0 instance_attr (mkQuery (Some ["features.Placemark"]) []) (OVal s_kml) in
   Ok (map (fun o => instance_attr o "name") l)) = Ok [Ok (OVal (str "P & <Q>")); Ok (OVal VNone); Ok (OVal VNone)] /\
  (exists c ns nss attrs, find W0 instance_attr (mkQuery (Some ["features._Feature"]) [("name", eq_str (u "P & <Q>"))]) (OVal s_kml) = Ok (Some (OVal (VObj c ns nss attrs))) /\
     inside s_kml (VObj c ns nss attrs) /\ sget "name" attrs = Some (str "P & <Q>")) /\
  find W0 instance_attr (mkQuery (Some ["features._Feature"]) [("name", eq_str (u "nobody"))]) (OVal s_kml) = Ok None.
Proof.
  split; [vm_compute; reflexivity|]. split; [|vm_compute; reflexivity].
  assert (K : exists c ns nss attrs, find W0 instance_attr (mkQuery (Some ["features._Feature"]) [("name", eq_str (u "P & <Q>"))]) (OVal s_kml) = Ok (Some (OVal (VObj c ns nss attrs)))) by (do 4 eexists; vm_compute; reflexivity).
  destruct K as [c [ns [nss [attrs K]]]]. exists c, ns, nss, attrs. split; [exact K|]. exact (find_name _ _ _ _ _ _ _ _ K).
Qed.

(** Without [of_type], strings that are keys, numbers, dates and their parts
    are found as well. *)
Example C19_any_type :
  find_all W0 instance_attr (mkQuery None []) (OVal (VObj "times.TimeStamp" KMLNS [("gx", GXNS)] [("id", str "a"); ("timestamp", date "2000-01-01"); ("x", VList [VInt 5; VNone])])) =
  Ok [OVal (VObj "times.TimeStamp" KMLNS [("gx", GXNS)] [("id", str "a"); ("timestamp", date "2000-01-01"); ("x", VList [VInt 5; VNone])]);
      OKey "gx"; OVal (date "2000-01-01"); OMoment (PDate (mkDate 2000 1 1)); ORes RDate; OVal (VInt 5); OVal VNone].
Proof. vm_compute. reflexivity. Qed.

(** ** C20: [Document.get_style_by_url]

    [style W v]: an instance of Style or StyleMap.  [ga] is Python's [getattr];
    all that is asked is that [id] is an ordinary attribute. *)
Definition style (W : world) (v : value) : Prop :=
  exists c ns nss attrs, v = VObj c ns nss attrs /\ exists t, In t ["styles.Style"; "styles.StyleMap"] /\ is_a W (OVal v) t.
Definition has_id (v : value) (i : ustr) : Prop :=
  exists c ns nss attrs, v = VObj c ns nss attrs /\ sget "id" attrs = Some (VStr i).

Definition id_plain (ga : pyobj -> string -> res pyobj) : Prop := forall o, ga o "id" = instance_attr o "id".

Lemma style_matches W ga i v : id_plain ga ->
  matches W ga (mkQuery (Some ["styles.Style"; "styles.StyleMap"]) [("id", eq_str i)]) (OVal v) <-> style W v /\ has_id v i.
Proof.
  intro G. split.
  - intros [Ht Ha]. destruct (Ha _ _ (or_introl eq_refl)) as [x [Hx E]]. rewrite G in Hx. destruct v as [ | | | | | | | | | | |c ns nss attrs]; try discriminate Hx.
    cbn [instance_attr] in Hx. destruct (sget "id" attrs) as [y|] eqn:Hy; [|discriminate]. injection Hx as <-. destruct y; try discriminate. injection E as E. apply ueqb_eq in E. subst.
    split; [|exists c, ns, nss, attrs; auto]. exists c, ns, nss, attrs. split; [reflexivity|]. exact (Ht _ eq_refl).
  - intros [[c [ns [nss [attrs [-> [t [H1 H2]]]]]]] [c' [ns' [nss' [attrs' [[= <- <- <- <-] Hi]]]]]]. split.
    + intros ts [= <-]. eauto.
    + intros k eq [[= <- <-]|[]]. exists (OVal (VStr i)). rewrite G. cbn [instance_attr]. rewrite Hi. split; [reflexivity|]. unfold eq_str. now rewrite ueqb_refl.
Qed.

Lemma only_values W ga i o : id_plain ga ->
  matches W ga (mkQuery (Some ["styles.Style"; "styles.StyleMap"]) [("id", eq_str i)]) o -> exists v, o = OVal v.
Proof. intros G [_ Ha]. destruct (Ha _ _ (or_introl eq_refl)) as [x [Hx _]]. rewrite G in Hx. destruct o; try discriminate Hx. eauto. Qed.

(** The full statement also says that a url without fragment matches nothing;
    that is false, see [C20_no_fragment_refuted].  What holds, for every url:
    the search succeeds; it gives [None] exactly if no style inside the
    document has the fragment as id; otherwise the first such style. *)
Theorem C20_style_partial : forall W ga bad_host doc url, id_plain ga -> bad_host url = false ->
  let i := fragment url in
  (get_style_by_url W ga bad_host doc url = Ok None /\ forall v, inside doc v -> style W v -> ~ has_id v i) \/
  (exists v p, get_style_by_url W ga bad_host doc url = Ok (Some (OVal v)) /\ inside doc v /\ style W v /\ has_id v i /\
     at_path W (OVal doc) p (OVal v) /\
     forall p' v', at_path W (OVal doc) p' (OVal v') -> style W v' -> has_id v' i -> p' = p \/ before p p').
Proof.
  intros W ga bad_host doc url G Hb i. unfold get_style_by_url. rewrite Hb. fold i. set (q := mkQuery _ _).
  destruct (C19_total W ga q (OVal doc)) as [l H].
  { intros x k eq _ [[= <- <-]|[]]. rewrite G. destruct x as [[ | | | | | | | | | | |c ns nss attrs]| | | | | | | ]; cbn [instance_attr]; try (left; reflexivity).
    destruct (sget "id" attrs) as [y|]; [right; do 2 eexists; split; reflexivity|left; reflexivity]. }
  rewrite (C19_find_first _ _ _ _ _ H). destruct l as [|o l]; cbn [hd_error].
  - left. split; [reflexivity|]. intros v Hv Hs Hi. assert (S := Hs). destruct S as [c [ns [nss [attrs [-> _]]]]].
    apply (proj2 (C19_library_objects W ga q doc [] H c ns nss attrs)). split; [exact Hv|]. now apply (style_matches W ga i).
  - right. destruct (C19_document_order W ga q _ _ H) as [ps [S [F C]]]. inversion F as [|p o' ps' l' Hp F']; subst. inversion S as [|? ? S' Hall]; subst.
    assert (Hm : matches W ga q o) by (apply (C p o Hp); now left). destruct (only_values W ga i o G Hm) as [v ->].
    assert (Hs := Hm). apply (style_matches W ga i v G) in Hs as [Hs Hi]. exists v, p. split; [reflexivity|]. split; [|split; [exact Hs|split; [exact Hi|split; [exact Hp|]]]].
    + assert (S2 := Hs). destruct S2 as [c [ns [nss [attrs [-> _]]]]]. apply reach_inside. exact (at_reach W _ _ _ Hp).
    + intros p' v' Ha Hs' Hi'. assert (Hin : In p' (p :: ps')) by (apply (C p' _ Ha); apply (style_matches W ga i v' G); auto).
      destruct Hin as [->|Hin]; [now left|right]. rewrite Forall_forall in Hall. auto.
Qed.
Print Assumptions C20_style_partial.

(** The fragment is what follows the first [#]. *)
Theorem C20_fragment : forall pre i, ~ In 35%N pre ->
  (forall c, In c (pre ++ 35%N :: i)%list -> c <> 9%N /\ c <> 10%N /\ c <> 13%N) -> fragment (pre ++ 35%N :: i)%list = i.
Proof. intros pre i H Hc. rewrite fragment_plain by exact Hc. now apply after_hash_split. Qed.
Print Assumptions C20_fragment.

(** A url without fragment finds a style whose id is the empty string, which is
    what [Style()] has. *)
Theorem C20_no_fragment_refuted : exists doc url v,
  typed W0 doc = true /\ ~ In 35%N url /\ get_style_by_url W0 instance_attr (fun _ => false) doc url = Ok (Some (OVal v)) /\ style W0 v.
Proof.
  exists (mk "containers.Document" [("styles", VList [mk "styles.Style" []])]), (u "http://example.com/x.kml"), (mk "styles.Style" []).
  split; [vm_compute; reflexivity|]. split; [intro H; vm_compute in H; repeat (destruct H as [H|H]; [discriminate H|]); exact H|]. split; [vm_compute; reflexivity|].
  do 4 eexists. split; [vm_compute; reflexivity|]. exists "styles.Style". split; [now left|]. eapply isa_library; [vm_compute; reflexivity|now left].
Qed.
Print Assumptions C20_no_fragment_refuted.

(** It matches nothing if every style inside the document has a non-empty id. *)
Theorem C20_no_fragment : forall W ga bad_host doc url, id_plain ga -> bad_host url = false -> ~ In 35%N url ->
  (forall v, inside doc v -> style W v -> ~ has_id v []) ->
  get_style_by_url W ga bad_host doc url = Ok None.
Proof.
  intros W ga bad_host doc url G Hb Hu H. assert (E : fragment url = []).
  { unfold fragment. apply after_hash_none. intro K. apply filter_In in K as [K _]. auto. }
  destruct (C20_style_partial W ga bad_host doc url G Hb) as [[K _]|[v [p [_ [Hi [Hs [Hid _]]]]]]]; [exact K|]. rewrite E in Hid. exfalso. eapply H; eauto.
Qed.
Print Assumptions C20_no_fragment.

Example C20_example :
  id_plain instance_attr /\
  get_style_by_url W0 instance_attr (fun _ => false) s_document (u "http://example.com/x.kml#sm") = Ok (Some (OVal s_stylemap)) /\
  get_style_by_url W0 instance_attr (fun _ => false) s_document (u "#st") = Ok (Some (OVal s_style)) /\
  get_style_by_url W0 instance_attr (fun _ => false) s_document (u "#other") = Ok None /\
  get_style_by_url W0 instance_attr (fun _ => false) s_document (u "other") = Ok None.
Proof. split; [intro o; reflexivity|]. repeat match goal with |- _ /\ _ => split; [vm_compute; reflexivity|] end. vm_compute. reflexivity. Qed.

(** ** C41: the styles of a style map *)

Definition pair_key (p : value) (k : string) : Prop :=
  exists c ns nss attrs, p = VObj c ns nss attrs /\ sget "key" attrs = Some (VEnum "enums.PairKey" (u k)).
Definition pair_style (p s : value) : Prop :=
  exists c ns nss attrs, p = VObj c ns nss attrs /\ sget "style" attrs = Some s.

Lemma scalar_enum k c m : scalar_eq k (VEnum c m) = true <-> k = VEnum c m.
Proof.
  split; [|intros ->; cbn; now rewrite String.eqb_refl, ueqb_refl]. destruct k; cbn; try discriminate. intro H. apply andb_prop in H as [H1 H2].
  apply String.eqb_eq in H1. apply ueqb_eq in H2. now subst.
Qed.

Lemma pair_attrs arrow p : typed (fastkml arrow) p = true -> is_obj_of ["styles.Pair"] p = true ->
  exists ns nss attrs k s, p = VObj "styles.Pair" ns nss attrs /\ sget "key" attrs = Some k /\ sget "style" attrs = Some s.
Proof.
  intros T O. destruct p as [ | | | | | | | | | | |c ns nss attrs]; try discriminate. cbn [is_obj_of mem existsb] in O. rewrite orb_false_r in O. apply String.eqb_eq in O. subst c.
  cbn [typed vall] in T. apply andb_prop in T as [T _]. unfold typed_node in T. change (class_of (fastkml arrow) "styles.Pair") with (Some cl_styles_Pair) in T.
  apply andb_prop in T as [T _]. unfold shape_ok in T. apply andb_prop in T as [T _]. apply andb_prop in T as [T _].
  assert (K : forall a, In a (map fst (ci_pre cl_styles_Pair)) \/ In a (map fst (ci_post cl_styles_Pair)) -> exists x, sget a attrs = Some x).
  { intros a Ha. enough (Hin : In a (map fst attrs)).
    { destruct (sget a attrs) as [x|] eqn:E; [eauto|]. apply sget_None in E. contradiction. }
    revert T. generalize (length (map fst attrs) - length (map fst (ci_pre cl_styles_Pair)) - length (map fst (ci_post cl_styles_Pair)))%nat. intros n T.
    apply all2_seq_eq in T. rewrite T. rewrite !in_app_iff. tauto. }
  destruct (K "key") as [k Hk]; [vm_compute; tauto|]. destruct (K "style") as [s Hs]; [vm_compute; tauto|]. exists ns, nss, attrs, k, s. auto.
Qed.

Lemma first_pair_spec key l :
  (forall p, In p l -> (exists k, attr_of p "key" = Ok k) /\ exists s, attr_of p "style" = Ok s) ->
  (first_pair (u key) l = Ok VNone /\ forall p, In p l -> ~ pair_key p key) \/
  (exists l1 p l2 s, l = (l1 ++ p :: l2)%list /\ first_pair (u key) l = Ok s /\ pair_key p key /\ pair_style p s /\ forall p', In p' l1 -> ~ pair_key p' key).
Proof.
  induction l as [|p l IH]; intro H; cbn [first_pair]; [left; split; [reflexivity|intros p []]|].
  destruct (H p (or_introl eq_refl)) as [[k Hk] [s Hs]]. rewrite Hk. cbn [bind]. destruct (scalar_eq k (VEnum "enums.PairKey" (u key))) eqn:E.
  - right. exists [], p, l, s. split; [reflexivity|]. split; [exact Hs|]. apply scalar_enum in E. subst k.
    destruct p as [ | | | | | | | | | | |c ns nss attrs]; try discriminate. cbn [attr_of] in Hk, Hs. split; [|split; [|intros p' []]].
    + exists c, ns, nss, attrs. split; [reflexivity|]. destruct (sget "key" attrs); [now injection Hk as ->|discriminate].
    + exists c, ns, nss, attrs. split; [reflexivity|]. destruct (sget "style" attrs); [now injection Hs as ->|discriminate].
  - assert (N : ~ pair_key p key).
    { intros [c [ns [nss [attrs [-> Hp]]]]]. cbn [attr_of] in Hk. rewrite Hp in Hk. injection Hk as <-. rewrite (proj2 (scalar_enum _ _ _) eq_refl) in E. discriminate. }
    destruct IH as [[E1 E2]|[l1 [p' [l2 [s' [-> [E1 [E2 [E3 E4]]]]]]]]]; [intros p' Hp; apply H; now right|left|right].
    + split; [exact E1|]. intros p' [<-|Hp]; [exact N|auto].
    + exists (p :: l1), p', l2, s'. split; [reflexivity|]. split; [exact E1|]. split; [exact E2|]. split; [exact E3|]. intros p2 [<-|Hp]; [exact N|auto].
Qed.

Lemma pair_lists arrow attrs ns nss l : typed (fastkml arrow) (VObj "styles.StyleMap" ns nss attrs) = true -> sget "pairs" attrs = Some (VList l) ->
  forall p, In p l -> (exists k, attr_of p "key" = Ok k) /\ exists s, attr_of p "style" = Ok s.
Proof.
  intros T Hl p Hp. apply sget_In in Hl. cbn [typed vall] in T. apply andb_prop in T as [T1 T2]. rewrite forallb_forall in T2. specialize (T2 _ Hl). cbn [vall] in T2.
  rewrite forallb_forall in T2. specialize (T2 p Hp). unfold typed_node in T1. change (class_of (fastkml arrow) "styles.StyleMap") with (Some cl_styles_StyleMap) in T1.
  apply andb_prop in T1 as [_ T1]. rewrite forallb_forall in T1. specialize (T1 _ Hl). unfold attr_typed in T1. apply andb_prop in T1 as [T1 _].
  assert (E : exists it, find_item "pairs" (items_of (fastkml arrow) "styles.StyleMap") = Some it /\ it_set it = SObjs /\ it_classes it = ["styles.Pair"]) by (eexists; split; [vm_compute; reflexivity|split; reflexivity]).
  destruct E as [it [Hf [Es Ec]]]. rewrite Hf in T1. unfold item_typed in T1. rewrite Es, Ec in T1. rewrite forallb_forall in T1. specialize (T1 p Hp).
  destruct (pair_attrs arrow p) as [ns' [nss' [at' [k [s [-> [Hk Hs]]]]]]]; [destruct p; try discriminate T1; exact T2|exact T1|]. cbn [attr_of]. rewrite Hk, Hs. eauto.
Qed.

Lemma stylemap_pairs arrow attrs ns nss : typed (fastkml arrow) (VObj "styles.StyleMap" ns nss attrs) = true -> exists l, sget "pairs" attrs = Some (VList l).
Proof.
  intro T. cbn [typed vall] in T. apply andb_prop in T as [T _]. unfold typed_node in T. change (class_of (fastkml arrow) "styles.StyleMap") with (Some cl_styles_StyleMap) in T.
  apply andb_prop in T as [T1 T2]. unfold shape_ok in T1. apply andb_prop in T1 as [T1 _]. apply andb_prop in T1 as [T1 _].
  assert (Hin : In "pairs" (map fst attrs)).
  { revert T1. generalize (length (map fst attrs) - length (map fst (ci_pre cl_styles_StyleMap)) - length (map fst (ci_post cl_styles_StyleMap)))%nat. intros n T.
    apply all2_seq_eq in T. rewrite T. rewrite !in_app_iff. vm_compute. tauto. }
  destruct (sget "pairs" attrs) as [x|] eqn:E; [|apply sget_None in E; contradiction]. apply sget_In in E. rewrite forallb_forall in T2. specialize (T2 _ E). unfold attr_typed in T2.
  apply andb_prop in T2 as [_ T2]. change (ckind_of cl_styles_StyleMap "pairs") with (Some CListTruthy) in T2. destruct x; try discriminate. eauto.
Qed.

(** A style map with documented types: the style of the first pair with the
    key; [None] if there is none.  In particular never the style of a pair with
    the other key. *)
Theorem C41_style_map : forall arrow ns nss attrs key,
  let v := VObj "styles.StyleMap" ns nss attrs in
  typed (fastkml arrow) v = true -> (key = "normal" \/ key = "highlight") ->
  exists l, sget "pairs" attrs = Some (VList l) /\
  let r := if String.eqb key "normal" then stylemap_normal v else stylemap_highlight v in
  (r = Ok VNone /\ forall p, In p l -> ~ pair_key p key) \/
  (exists l1 p l2 s, l = (l1 ++ p :: l2)%list /\ r = Ok s /\ pair_key p key /\ pair_style p s /\ forall p', In p' l1 -> ~ pair_key p' key).
Proof.
  intros arrow ns nss attrs key v T Hkey. destruct (stylemap_pairs arrow attrs ns nss T) as [l Hl]. exists l. split; [exact Hl|]. intro r.
  assert (E : r = first_pair (u key) l).
  { unfold r. destruct Hkey as [-> | ->]; cbn [String.eqb Ascii.eqb Bool.eqb]; unfold stylemap_normal, stylemap_highlight, style_of_key; cbn [attr_of v]; rewrite Hl; reflexivity. }
  rewrite E. apply first_pair_spec. exact (pair_lists arrow attrs ns nss l T Hl).
Qed.
Print Assumptions C41_style_map.

(** Two normal pairs after a highlight pair: the first normal one. *)
Example C41_example :
  let p k s := mk "styles.Pair" [("key", VEnum "enums.PairKey" (u k)); ("style", s)] in
  let v := mk "styles.StyleMap" [("pairs", VList [p "highlight" s_style; p "normal" (mk "styles.StyleUrl" [("url", str "#a")]); p "normal" s_style])] in
  typed W0 v = true /\ stylemap_normal v = Ok (mk "styles.StyleUrl" [("url", str "#a")]) /\ stylemap_highlight v = Ok s_style /\
  stylemap_highlight (mk "styles.StyleMap" [("pairs", VList [p "normal" s_style])]) = Ok VNone.
Proof. repeat match goal with |- let _ := _ in _ => intro | |- _ /\ _ => split; [vm_compute; reflexivity|] end. vm_compute. reflexivity. Qed.

(** ** C42: time stamp or time span *)

Definition instance_of (W : world) (cls : string) (t : value) : Prop := is_a W (OVal t) cls.

Lemma instance_classes W cls t : cls <> "object" -> instance_of W cls t -> In cls (classes_of W (OVal t)).
Proof. intros N H. apply is_a_classes in H. destruct H as [H|H]; [contradiction|exact H]. Qed.

Lemma isinstance_spec W cls t : cls <> "object" -> isinstance W [cls] (OVal t) = true <-> instance_of W cls t.
Proof.
  intro N. unfold isinstance, instance_of. cbn [existsb]. rewrite orb_false_r. rewrite (proj2 (String.eqb_neq _ _) N). cbn [orb]. rewrite mem_In. split; [intro H; apply is_a_classes; now right|now apply instance_classes].
Qed.

(** No class of the library is both. *)
Lemma no_common arrow t : instance_of (fastkml arrow) "times.TimeStamp" t -> instance_of (fastkml arrow) "times.TimeSpan" t -> False.
Proof.
  intros H1 H2. apply instance_classes in H1, H2; try discriminate. revert H1 H2. destruct t as [ | |[n|f]| |e m| | |b| | | |c ns nss attrs]; cbn [classes_of].
  6:{ intros [H1|H1] [H2|H2]; [subst e; discriminate H2|..]; repeat (destruct H1 as [H1|H1]; [discriminate H1|]); repeat (destruct H2 as [H2|H2]; [discriminate H2|]); contradiction. }
  8:{ intros [H1|[]] _. destruct b; discriminate H1. }
  all: try (intros H1 _; repeat (destruct H1 as [H1|H1]; [discriminate H1|]); destruct H1; fail).
  destruct (class_of (fastkml arrow) c) as [ci|] eqn:E.
  - assert (K : forallb (fun cc => negb (mem "times.TimeStamp" (ci_mro (snd cc)) && mem "times.TimeSpan" (ci_mro (snd cc)))) fk_classes = true) by (vm_compute; reflexivity).
    rewrite forallb_forall in K. apply sget_In in E. specialize (K _ E). cbn [snd] in K. intros H1 H2. apply mem_In in H1, H2. rewrite H1, H2 in K. discriminate.
  - intros [H1|[]] [H2|[]]. subst c. discriminate.
Qed.

(** Whatever the feature or view stores: a time stamp excludes begin and end,
    and the other way round. *)
Theorem C42_exclusive : forall arrow v, let W := fastkml arrow in
  time_stamp W v = Ok VNone \/ (time_begin W v = Ok VNone /\ time_end W v = Ok VNone).
Proof.
  intros arrow v W. unfold time_stamp, time_begin, time_end, time_attr.
  destruct (isinstance W ["times.TimeStamp"] (OVal (times_of v))) eqn:E1; [|now left]. destruct (isinstance W ["times.TimeSpan"] (OVal (times_of v))) eqn:E2; [|right; auto].
  apply isinstance_spec in E1; [|discriminate]. apply isinstance_spec in E2; [|discriminate]. exfalso. exact (no_common arrow _ E1 E2).
Qed.
Print Assumptions C42_exclusive.

Lemma typed_has arrow c ci ns nss attrs a : class_of (fastkml arrow) c = Some ci -> typed (fastkml arrow) (VObj c ns nss attrs) = true ->
  In a (map fst (ci_pre ci) ++ map fst (ci_post ci))%list -> exists x, sget a attrs = Some x.
Proof.
  intros Hc T Ha. cbn [typed vall] in T. apply andb_prop in T as [T _]. unfold typed_node in T. rewrite Hc in T. apply andb_prop in T as [T _].
  unfold shape_ok in T. apply andb_prop in T as [T _]. apply andb_prop in T as [T _]. apply all2_seq_eq in T.
  destruct (sget a attrs) as [x|] eqn:E; [eauto|]. apply sget_None in E. exfalso. apply E. rewrite T, !in_app_iff. apply in_app_or in Ha. tauto.
Qed.

(** A feature with documented types whose [times] is [t]: either there is
    none, and all three are [None]; or it is a TimeStamp, whose moment is
    [time_stamp]; or it is a TimeSpan, whose moments are [begin] and [end]. *)
Theorem C42_reflects : forall arrow c ns nss attrs t, let W := fastkml arrow in let v := VObj c ns nss attrs in
  typed W v = true -> instance_of W "features._Feature" v -> sget "times" attrs = Some t ->
  (t = VNone /\ time_stamp W v = Ok VNone /\ time_begin W v = Ok VNone /\ time_end W v = Ok VNone) \/
  (exists ns' nss' attrs' k, t = VObj "times.TimeStamp" ns' nss' attrs' /\ sget "timestamp" attrs' = Some k /\
     time_stamp W v = Ok k /\ time_begin W v = Ok VNone /\ time_end W v = Ok VNone) \/
  (exists ns' nss' attrs' b e, t = VObj "times.TimeSpan" ns' nss' attrs' /\ sget "begin" attrs' = Some b /\ sget "end" attrs' = Some e /\
     time_stamp W v = Ok VNone /\ time_begin W v = Ok b /\ time_end W v = Ok e).
Proof.
  intros arrow c ns nss attrs t W v T F Ht.
  assert (Et : times_of v = t) by (unfold times_of; cbn [attr_of v]; now rewrite Ht).
  assert (Tt : t = VNone \/ is_obj_of ["times.TimeSpan"; "times.TimeStamp"] t = true /\ typed W t = true).
  { assert (T' := T). cbn [typed vall v] in T'. apply andb_prop in T' as [T1 T2]. apply sget_In in Ht. rewrite forallb_forall in T2. specialize (T2 _ Ht). cbn [vall] in T2.
    unfold typed_node in T1. destruct (class_of W c) as [ci|] eqn:Ec; [|discriminate]. apply andb_prop in T1 as [_ T1]. rewrite forallb_forall in T1. specialize (T1 _ Ht). unfold attr_typed in T1.
    apply andb_prop in T1 as [T1 _]. apply instance_classes in F; [|discriminate]. cbn [classes_of v] in F. rewrite Ec in F.
    assert (K : forallb (fun cc => implb (mem "features._Feature" (ci_mro (snd cc))) (match find_item "times" (items_of (fastkml (fun _ => None)) (fst cc)) with
       Some it => match it_set it with SObj => all2 String.eqb (it_classes it) ["times.TimeSpan"; "times.TimeStamp"] | _ => false end | None => false end)) fk_classes = true) by (vm_compute; reflexivity).
    rewrite forallb_forall in K. specialize (K _ (sget_In _ _ _ Ec)). cbn [fst snd] in K. apply mem_In in F. rewrite F in K. cbn [implb] in K.
    change (items_of (fastkml (fun _ => None)) c) with (items_of W c) in K. destruct (find_item "times" (items_of W c)) as [it|]; [|discriminate]. destruct (it_set it) eqn:Es; try discriminate.
    apply all2_seq_eq in K. unfold item_typed in T1. rewrite Es, K in T1. destruct t; try discriminate T1; [now left|right]. split; [exact T1|exact T2]. }
  unfold time_stamp, time_begin, time_end, time_attr. rewrite Et. destruct Tt as [-> | [O Tt]]; [left; repeat split; reflexivity|].
  destruct t as [ | | | | | | | | | | |c' ns' nss' attrs']; try discriminate O. cbn [is_obj_of mem existsb] in O. rewrite orb_false_r in O. apply orb_prop in O.
  right. destruct O as [O|O]; apply String.eqb_eq in O; subst c'.
  - right. destruct (typed_has arrow "times.TimeSpan" cl_times_TimeSpan _ _ _ "begin" eq_refl Tt) as [b Hb]; [vm_compute; tauto|]. destruct (typed_has arrow "times.TimeSpan" cl_times_TimeSpan _ _ _ "end" eq_refl Tt) as [e He]; [vm_compute; tauto|].
    exists ns', nss', attrs', b, e. split; [reflexivity|]. split; [exact Hb|]. split; [exact He|]. split; [reflexivity|].
    change (isinstance W ["times.TimeSpan"] (OVal (VObj "times.TimeSpan" ns' nss' attrs'))) with true. cbn [attr_of]. rewrite Hb, He. split; reflexivity.
  - left. destruct (typed_has arrow "times.TimeStamp" cl_times_TimeStamp _ _ _ "timestamp" eq_refl Tt) as [k Hk]; [vm_compute; tauto|].
    exists ns', nss', attrs', k. split; [reflexivity|]. split; [exact Hk|].
    change (isinstance W ["times.TimeStamp"] (OVal (VObj "times.TimeStamp" ns' nss' attrs'))) with true. cbn [attr_of]. rewrite Hk. repeat split; reflexivity.
Qed.
Print Assumptions C42_reflects.

Example C42_example :
  let span := mk "features.Placemark" [("times", mk "times.TimeSpan" [("begin", date "2000-01-01"); ("end", date "2010-12-31")])] in
  let stamp := mk "containers.Folder" [("times", mk "times.TimeStamp" [("timestamp", date "2000-01-01")])] in
  typed W0 span = true /\ instance_of W0 "features._Feature" span /\ time_begin W0 span = Ok (date "2000-01-01") /\ time_end W0 span = Ok (date "2010-12-31") /\ time_stamp W0 span = Ok VNone /\
  typed W0 stamp = true /\ instance_of W0 "features._Feature" stamp /\ time_stamp W0 stamp = Ok (date "2000-01-01") /\ time_begin W0 stamp = Ok VNone.
Proof.
  intros span stamp. split; [vm_compute; reflexivity|]. split; [apply is_a_classes; right; apply mem_In; vm_compute; reflexivity|]. do 3 (split; [vm_compute; reflexivity|]).
  split; [vm_compute; reflexivity|]. split; [apply is_a_classes; right; apply mem_In; vm_compute; reflexivity|]. split; vm_compute; reflexivity.
Qed.

(** * Proofs for C78. *)
From Coq Require Import String List NArith ZArith Bool Lia.
From Verif Require Import Ustr Res PyInt PyFloat PyDate Value Geom Codec Tables Spec EmitProofs RoundTrip Find FindSpec FindProofs NarrowProofs PropFind.
Import ListNotations.
Local Open Scope string_scope.
Local Open Scope list_scope.

Lemma map_res_app {A B} (f : A -> res B) l l' : map_res f (l ++ l') = let! r := map_res f l in let! r' := map_res f l' in Ok (r ++ r').
Proof.
  induction l as [|x l IH]; cbn [app map_res bind]; [now destruct (map_res f l')|]. destruct (f x); cbn [bind]; [|reflexivity]. rewrite IH. destruct (map_res f l); cbn [bind]; [|reflexivity]. now destruct (map_res f l').
Qed.

Lemma map_res_Forall2 {A B} (f : A -> res B) l r : Forall2 (fun x y => f x = Ok y) l r -> map_res f l = Ok r.
Proof. induction 1 as [|x y l r H _ IH]; [reflexivity|]. cbn [map_res]. now rewrite H, IH. Qed.

Lemma map_res_In {A B} (f : A -> res B) l : forall r y, map_res f l = Ok r -> In y r -> exists x, In x l /\ f x = Ok y.
Proof.
  induction l as [|x l IH]; cbn [map_res]; intros r y H Hy; [injection H as <-; destruct Hy|].
  destruct (f x) as [z|] eqn:E; [|discriminate H]. cbn [bind] in H. destruct (map_res f l) as [zs|] eqn:F; [|discriminate H]. injection H as <-.
  destruct Hy as [<- |Hy]; [exists x; split; [now left|exact E]|]. destruct (IH zs y eq_refl Hy) as [w [Hw Ew]]. exists w. split; [now right|exact Ew].
Qed.

(** The attributes of an object one of whose lists may grow. *)
Lemma attrs_split W c ns nss l1 a l2 : underscore a = false -> exists A B,
  (forall m, get_all_attrs W (OVal (VObj c ns nss (l1 ++ (a, VList m) :: l2))) = A ++ map OVal m ++ B) /\
  (forall y, In y B -> In y (get_all_attrs W (OVal (VObj c ns nss l2)))).
Proof.
  intro U. cbn [get_all_attrs]. set (n := match class_of W c with Some ci => _ | None => _ end). set (ks := map (fun kv : string * _ => OKey (fst kv)) nss).
  assert (D : forall y, In y (concat (map expand_attr l2)) \/ In y ks -> In y (concat (map expand_attr (firstn n l2)) ++ ks ++ concat (map expand_attr (skipn n l2)))).
  { intros y H. rewrite !in_app_iff. destruct H as [H|H]; [|now auto]. rewrite <- (firstn_skipn n l2), map_app, concat_app in H. apply in_app_or in H as [H|H]; auto. }
  assert (E : forall m, expand_attr (a, VList m) = map OVal m) by (intro m; unfold expand_attr; cbn [fst snd]; now rewrite U).
  destruct (Nat.le_gt_cases n (length l1)) as [L|L].
  - exists (concat (map expand_attr (firstn n l1)) ++ ks ++ concat (map expand_attr (skipn n l1))), (concat (map expand_attr l2)). split; [|intros y Hy; apply D; now left].
    intro m. rewrite firstn_app, skipn_app. replace (n - length l1)%nat with 0%nat by lia. cbn [firstn skipn]. rewrite app_nil_r, map_app, concat_app. cbn [map concat]. rewrite E. now rewrite <- !app_assoc.
  - exists (concat (map expand_attr l1)), (concat (map expand_attr (firstn (n - length l1 - 1) l2)) ++ ks ++ concat (map expand_attr (skipn (n - length l1 - 1) l2))). split.
    + intro m. rewrite firstn_app, skipn_app, (firstn_all2 l1), (skipn_all2 l1) by lia. replace (n - length l1)%nat with (S (n - length l1 - 1)) at 1 2 by lia. cbn [firstn skipn app]. rewrite map_app, concat_app. cbn [map concat]. rewrite E. now rewrite <- !app_assoc.
    + intros y Hy. apply D. rewrite !in_app_iff in Hy. rewrite <- (firstn_skipn (n - length l1 - 1) l2), map_app, concat_app, in_app_iff. tauto.
Qed.

Lemma not_asked W ga ts args x : (forall t, In t ts -> ~ is_a W x t) -> test W ga (mkQuery (Some ts) args) x = Ok false.
Proof.
  intro H. unfold test. cbn [q_type q_args]. destruct (isinstance W ts x) eqn:E; [|reflexivity]. exfalso.
  assert (T := test_true W ga (mkQuery (Some ts) []) x). unfold test, matches in T. cbn [q_type q_args has_attribute_values] in T. rewrite E in T.
  destruct (proj1 (proj1 T eq_refl) ts eq_refl) as [t [Ht Ha]]. exact (H t Ht Ha).
Qed.

Lemma list_grows W ga ts args c ns nss l1 a m n l2 l ls :
  let o k := OVal (VObj c ns nss (l1 ++ (a, VList k) :: l2)) in let q := mkQuery (Some ts) args in
  underscore a = false -> (forall k t, In t ts -> ~ is_a W (o k) t) ->
  find_all W ga q (o m) = Ok l -> Forall2 (fun y r => find_all W ga q (OVal y) = Ok r) n ls ->
  exists p s, l = p ++ s /\ find_all W ga q (o (m ++ n)) = Ok (p ++ concat ls ++ s) /\
    (forall x, In x s -> reach (OVal (VObj c ns nss l2)) x) /\
    (forall y x, In y m -> reach (OVal y) x -> matches W ga q x -> In x p).
Proof.
  intros o q U N H F. destruct (attrs_split W c ns nss l1 a l2 U) as [A [B [E D]]].
  rewrite find_all_parts in H. unfold q in H at 1. rewrite (not_asked _ _ _ _ _ (N m)) in H. cbn [bind app] in H. unfold o in H. rewrite E, !map_res_app in H.
  destruct (map_res (find_all W ga q) A) as [ra|] eqn:Ea; [|discriminate H]. cbn [bind] in H.
  destruct (map_res (find_all W ga q) (map OVal m)) as [rm|] eqn:Em; [|discriminate H]. cbn [bind] in H.
  destruct (map_res (find_all W ga q) B) as [rb|] eqn:Eb; [|discriminate H]. cbn [bind] in H. injection H as <-.
  exists (concat ra ++ concat rm), (concat rb). split; [now rewrite !concat_app, app_assoc|]. split.
  - rewrite find_all_parts. unfold q at 1. rewrite (not_asked _ _ _ _ _ (N (m ++ n))). cbn [bind app]. unfold o. rewrite E, map_app, <- app_assoc, !map_res_app, Ea, Em, Eb.
    assert (En : map_res (find_all W ga q) (map OVal n) = Ok ls) by (apply map_res_Forall2; clear - F; induction F; cbn [map]; constructor; auto).
    rewrite En. cbn [bind]. rewrite !concat_app. now rewrite <- !app_assoc.
  - split.
    2: { intros y x Hy Hr Hm. apply in_or_app. right. clear - Em Hy Hr Hm. revert rm Em. induction m as [|z m IH]; intros rm Em; [destruct Hy|]. cbn [map map_res] in Em.
      destruct (find_all W ga q (OVal z)) as [rz|] eqn:Ez; [|discriminate Em]. cbn [bind] in Em. destruct (map_res (find_all W ga q) (map OVal m)) as [rs|]; [|discriminate Em]. injection Em as <-. cbn [concat]. apply in_or_app.
      destruct Hy as [<- |Hy]; [left; apply (C19_sound_and_complete _ _ _ _ _ Ez); auto|right; apply IH; auto]. }
    intros x Hx. apply in_concat in Hx as [r [Hr Hx]]. destruct (map_res_In _ _ _ _ Eb Hr) as [y [Hy Ey]].
    apply (reach_step _ y); [apply (attrs_step W), D, Hy|]. apply (C19_sound_and_complete _ _ _ _ _ Ey) in Hx. now destruct Hx.
Qed.

(** A schema holds fields, and fields hold no objects. *)
Lemma schema_inside arrow v y : inside v y -> vall (typed_node (fastkml arrow)) v = true -> is_obj_of ["data.Schema"; "data.SimpleField"] v = true ->
  forall c ns nss attrs, y = VObj c ns nss attrs -> c = "data.Schema" \/ c = "data.SimpleField".
Proof.
  assert (K : forall c ns nss attrs a x, vall (typed_node (fastkml arrow)) (VObj c ns nss attrs) = true -> is_obj_of ["data.Schema"; "data.SimpleField"] (VObj c ns nss attrs) = true -> In (a, x) attrs ->
    vall (typed_node (fastkml arrow)) x = true /\ match x with VObj _ _ _ _ => False | VList l => forall z, In z l -> is_obj_of ["data.Schema"; "data.SimpleField"] z = true | _ => True end).
  { intros c ns nss attrs a x T O Hin. cbn [vall] in T. apply andb_prop in T as [T1 T2]. rewrite forallb_forall in T2. split; [exact (T2 _ Hin)|]. unfold typed_node in T1.
    assert (C : c = "data.Schema" \/ c = "data.SimpleField").
    { cbn [is_obj_of mem existsb] in O. rewrite orb_false_r in O. apply orb_prop in O as [O|O]; apply String.eqb_eq in O; auto. }
    destruct C as [-> | ->].
    - change (class_of (fastkml arrow) "data.Schema") with (Some cl_data_Schema) in T1. apply andb_prop in T1 as [_ T1]. rewrite forallb_forall in T1. specialize (T1 _ Hin). unfold attr_typed in T1. apply andb_prop in T1 as [T1 _].
      change (items_of (fastkml arrow) "data.Schema") with rg_data_Schema in T1. unfold find_item, rg_data_Schema in T1. cbn [List.find it_attr] in T1.
      destruct (String.eqb a "id"); [cbn in T1; destruct x; try exact I; discriminate T1|]. destruct (String.eqb a "name"); [cbn in T1; destruct x; try exact I; discriminate T1|].
      destruct (String.eqb a "fields"); [|destruct x; try exact I; discriminate T1].
      unfold item_typed in T1. cbn [it_set it_classes] in T1. destruct x; try exact I; try discriminate T1. intros z Hz. rewrite forallb_forall in T1. specialize (T1 z Hz). destruct z; try discriminate T1. cbn [is_obj_of mem existsb] in *. rewrite orb_false_r in T1. rewrite T1. now rewrite !orb_true_r.
    - change (class_of (fastkml arrow) "data.SimpleField") with (Some cl_data_SimpleField) in T1. apply andb_prop in T1 as [_ T1]. rewrite forallb_forall in T1. specialize (T1 _ Hin). unfold attr_typed in T1. apply andb_prop in T1 as [T1 _].
      change (items_of (fastkml arrow) "data.SimpleField") with rg_data_SimpleField in T1. unfold find_item, rg_data_SimpleField in T1. cbn [List.find it_attr] in T1.
      destruct (String.eqb a "display_name"); [cbn in T1; destruct x; try exact I; discriminate T1|]. destruct (String.eqb a "name"); [cbn in T1; destruct x; try exact I; discriminate T1|].
      destruct (String.eqb a "type_"); [cbn in T1; destruct x; try exact I; discriminate T1|]. destruct x; try exact I; discriminate T1. }
  induction 1 as [v|c ns nss attrs a x y Hin U Hi IH|c ns nss attrs a l x y Hin U Hx Hi IH]; intros T O c' ns' nss' attrs' E.
  - subst v. cbn [is_obj_of mem existsb] in O. rewrite orb_false_r in O. apply orb_prop in O as [O|O]; apply String.eqb_eq in O; auto.
  - destruct (K _ _ _ _ _ _ T O Hin) as [Tx Ox]. subst y. destruct (inside_obj _ _ _ _ _ Hi) as [c2 [ns2 [nss2 [at2 ->]]]]. destruct Ox.
  - destruct (K _ _ _ _ _ _ T O Hin) as [Tx Ox]. cbn [vall] in Tx. rewrite forallb_forall in Tx. eapply IH; eauto.
Qed.

(** What a document keeps after its features. *)
Lemma document_rest arrow ns nss l1 m l2 : typed (fastkml arrow) (VObj "containers.Document" ns nss (l1 ++ ("features", VList m) :: l2)) = true ->
  exists ss, l2 = [("schemata", VList ss)] /\ forall z, In z ss -> vall (typed_node (fastkml arrow)) z = true /\ is_obj_of ["data.Schema"; "data.SimpleField"] z = true.
Proof.
  intro T. cbn [typed vall] in T. apply andb_prop in T as [T1 T2]. unfold typed_node in T1. change (class_of (fastkml arrow) "containers.Document") with (Some cl_containers_Document) in T1.
  apply andb_prop in T1 as [S T1]. unfold shape_ok in S. apply andb_prop in S as [S _]. apply andb_prop in S as [S D].
  assert (L : map fst l2 = ["schemata"]).
  { revert S D. rewrite map_app. cbn [map fst]. generalize (length (map fst l1 ++ "features" :: map fst l2) - length (map fst (ci_pre cl_containers_Document)) - length (map fst (ci_post cl_containers_Document)))%nat. intros n S D.
    apply all2_seq_eq in S. revert S. generalize (firstn n (skipn (length (map fst (ci_pre cl_containers_Document))) (map fst l1 ++ "features" :: map fst l2))). intros x S.
    apply nodups_NoDup in D. set (pre := ["id"; "target_id"; "name"; "description"; "style_url"; "styles"; "view"; "visibility"; "isopen"; "snippet"; "atom_author"; "atom_link"; "address"; "phone_number"; "region"; "extended_data"; "times"]).
    assert (S' : map fst l1 ++ "features" :: map fst l2 = (x ++ pre) ++ "features" :: ["schemata"]) by (rewrite S; rewrite <- app_assoc; reflexivity).
    assert (G : forall (A A' B B' : list string) (k : string), NoDup (A ++ k :: B) -> A ++ k :: B = A' ++ k :: B' -> B = B').
    { clear. induction A as [|h A IH]; intros [|h' A'] B B' k N E; cbn [app] in *.
      - now injection E.
      - injection E as -> E. subst B. inversion N as [|? ? Hn _]; subst. destruct Hn. apply in_or_app. right. now left.
      - injection E as -> E. inversion N as [|? ? Hn _]; subst. destruct Hn. apply in_or_app. right. now left.
      - injection E as _ E. inversion N; subst. eapply IH; eauto. }
    exact (G _ _ _ _ _ D S'). }
  destruct l2 as [|[a x] [|b l2]]; try discriminate L. injection L as ->.
  assert (Hin : In ("schemata", x) (l1 ++ ("features", VList m) :: [("schemata", x)])) by (apply in_or_app; right; right; now left).
  rewrite forallb_forall in T1, T2. specialize (T1 _ Hin). specialize (T2 _ Hin). cbn beta iota in T2. unfold attr_typed in T1. apply andb_prop in T1 as [T1 T3].
  change (ckind_of cl_containers_Document "schemata") with (Some CListTruthy) in T3. destruct x as [ | | | | | | | | | | ss | ]; try discriminate T3. exists ss. split; [reflexivity|].
  assert (E : exists it, find_item "schemata" (items_of (fastkml arrow) "containers.Document") = Some it /\ it_set it = SObjs /\ it_classes it = ["data.Schema"]) by (eexists; split; [vm_compute; reflexivity|split; reflexivity]).
  destruct E as [it [Hf [Es Ec]]]. rewrite Hf in T1. unfold item_typed in T1. rewrite Es, Ec in T1. cbn [vall] in T2. rewrite forallb_forall in T1, T2.
  intros z Hz. split; [exact (T2 z Hz)|]. specialize (T1 z Hz). destruct z; try discriminate T1. cbn [is_obj_of mem existsb] in *. rewrite orb_false_r in T1. now rewrite T1.
Qed.

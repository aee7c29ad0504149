(** * Which exceptions lenient reading raises, and what makes it raise them. *)
From Coq Require Import String List NArith ZArith Bool Lia.
From Verif Require Import Ustr UstrProofs Res PyInt PyFloat PyDate Elem Value Geom Codec Tables Spec EmitProofs CodecProofs ReadProofs RoundTrip NsProofs SettledProofs ReaderTyped Agree AgreeProofs StrictProofs Calm TotalProofs FastkmlOk HarmlessProofs.
Import ListNotations.

(** All attributes that must be integers are. *)
Fixpoint integers_ok (e : elem) : bool :=
  match e with Elem _ a _ ks => forallb harmless_attr a && forallb integers_ok ks end.

(** No descendant has a tag that ends like this. *)
Fixpoint free_of (t : ustr) (e : elem) : bool :=
  match e with Elem _ _ _ ks => forallb (fun k => negb (ends_with (e_tag k) t) && free_of t k) ks end.

(** The three exceptions and where they come from. *)
Inductive source (e : elem) (c : string) : exn -> Prop :=
  | src_int : integers_ok e = false -> source e c EValueError
  | src_schema : c = "data.Schema"%string \/ free_of (u "Schema") e = false -> source e c EKMLSchema
  | src_track : c = "gx.Track"%string \/ free_of (u "Track") e = false -> source e c ETypeError.

Definition sources_ok (W : world) : bool :=
  forallb (fun cc =>
    forallb (fun it =>
       match it_get it with
       | GAttrInt => String.eqb (it_node it) "length" || String.eqb (it_node it) "maxLines"
       | GDates => String.eqb (fst cc) "gx.Track"
       | GObj | GObjs => forallb (fun c' => known_class W c' &&
            (negb (String.eqb c' "data.Schema") || String.eqb (tag_of W c') "Schema") &&
            (negb (String.eqb c' "gx.Track") || String.eqb (tag_of W c') "Track")) (it_classes it)
       | _ => true
       end) (items_of W (fst cc)) &&
    forallb (fun ak => match snd ak with
       | CCleanReq => String.eqb (fst cc) "data.Schema"
       | CTrack => String.eqb (fst cc) "gx.Track"
       | _ => true end) (ctor_attrs (snd cc))) (w_classes W).

Lemma fastkml_sources arrow : sources_ok (fastkml arrow) = true.
Proof. vm_compute. reflexivity. Qed.

Lemma bind_err {A B} (r : res A) (f : A -> res B) x : bind r f = Err x -> r = Err x \/ exists a, r = Ok a /\ f a = Err x.
Proof. destruct r; cbn; [right; eauto|]. intro H. left. congruence. Qed.

Lemma map_err {A B} (f : A -> res B) l x : map_res f l = Err x -> exists a, In a l /\ f a = Err x.
Proof.
  induction l as [|a l IH]; cbn; [discriminate|]. intro H. apply bind_err in H as [H|[b [_ H]]]; [exists a; auto|].
  apply bind_err in H as [H|[b' [_ H]]]; [|discriminate]. destruct (IH H) as [a' [I E]]. eauto.
Qed.

Lemma try_err f nss ids x : try_nsids f nss ids = Err x -> exists id, In id ids /\ f (ns_get nss id) = Err x.
Proof.
  induction ids as [|id ids IH]; cbn; [discriminate|]. intro H. apply bind_err in H as [H|[o [_ H]]]; [eauto|].
  destruct o; [discriminate|]. destruct (IH H) as [i [I E]]. eauto.
Qed.

Lemma kwargs_err W its a x ks nss acc y : get_kwargs W false its a x ks nss acc = Err y ->
  exists it id, In it its /\ In id (it_nsids it) /\ get_kwarg W false it a x ks (ns_get nss id) nss = Err y.
Proof.
  revert acc. induction its as [|it its IH]; intros acc; cbn [get_kwargs]; [discriminate|]. intro H. apply bind_err in H as [H|[o [_ H]]].
  - apply try_err in H as [id [I E]]. exists it, id. repeat split; auto. now left.
  - apply IH in H as [i [id [I [J E]]]]. exists i, id. repeat split; auto. now right.
Qed.

Lemma guarded_err r x : only_value r -> guarded false r = Err x -> False.
Proof. intros O H. apply guarded_ok in O. rewrite H in O. discriminate. Qed.

Lemma read_obj_err W ks ns nss cs x : forallb (known_class W) cs = true -> read_obj W ks ns nss cs = Err x ->
  exists c k, In c cs /\ In k ks /\ e_tag (fst k) = ns ++ u (tag_of W c) /\ snd k c ns nss = Err x.
Proof.
  induction cs as [|c cs IH]; cbn [read_obj forallb]; [discriminate|]. intros Hc H. apply andb_prop in Hc as [H1 H2]. rewrite (known_tag _ _ H1) in H. cbn [bind] in H.
  destruct (find_kid _ ks) as [k|] eqn:E.
  - apply bind_err in H as [H|[o [_ H]]]; [|discriminate]. exists c, k.
    assert (K : In k ks /\ e_tag (fst k) = ns ++ u (tag_of W c)).
    { clear -E. induction ks as [|k' ks IH]; cbn in E; [discriminate|]. destruct (ueqb_spec (e_tag (fst k')) (ns ++ u (tag_of W c))).
      - injection E as <-. split; [now left|assumption].
      - destruct (IH E). split; [now right|assumption]. }
    destruct K. repeat split; auto. now left.
  - destruct (IH H2 H) as [c' [k [I J]]]. exists c', k. split; [now right|exact J].
Qed.

Lemma zip_err n : forall ws cs an x, zip_items ws cs an n = Err x -> x = ETypeError.
Proof.
  induction n as [|n IH]; intros ws cs an x H; [discriminate|]. cbn [zip_items] in H. apply bind_err in H as [H|[i [_ H]]].
  - unfold mk_titem in H. apply bind_err in H as [H|[p [_ H]]].
    + unfold mk_point in H. destruct (length _) as [|[|[|[|]]]]; congruence.
    + apply bind_err in H as [H|[g [_ H]]]; [|discriminate]. unfold mk_angle in H. destruct (hd [] an) as [|? [|? [|? [|]]]]; congruence.
  - apply bind_err in H as [H|[r [_ H]]]; [|discriminate]. eapply IH, H.
Qed.

Lemma track_err w c a x : build_track VNone w c a = Err x -> x = ETypeError.
Proof.
  unfold build_track. cbn [titems_of bind]. intro H. apply bind_err in H as [H|[ws [_ H]]]; [destruct w; cbn in H; congruence|].
  apply bind_err in H as [H|[cs [_ H]]]; [destruct c; cbn in H; congruence|]. apply bind_err in H as [H|[an [_ H]]]; [destruct a; cbn in H; congruence|].
  cbn [nilb negb] in H. rewrite andb_false_r in H. destruct (_ && _); [|discriminate]. apply bind_err in H as [H|[l [_ H]]]; [|discriminate]. eapply zip_err, H.
Qed.

Theorem lenient_source W : world_ok W = true -> sources_ok W = true -> forall e c ns nss x,
  known_class W c = true -> from_element W false e c ns nss = Err x -> source e c x.
Proof.
  intros HW HS e. induction e as [t a tx ks IH] using elem_ind'. intros c ns nss x Hc H. rewrite Forall_forall in IH.
  cbn [from_element] in H. unfold read_with in H. cbv zeta in H. set (m := merge_ns nss) in *. assert (Hm : merge_ns m = m) by apply merge_ns_idem.
  unfold known_class in Hc. destruct (class_of W c) as [ci|] eqn:E; [|discriminate].
  unfold sources_ok in HS. assert (HS' := HS). rewrite forallb_forall in HS'. assert (HC := HS' (c, ci) (sget_In _ _ _ E)). clear HS'. cbn [fst snd] in HC.
  apply andb_prop in HC as [C1 C2]. rewrite forallb_forall in C1, C2.
  assert (Kid : forall k c' n, In k ks -> e_tag k = n ++ u (tag_of W c') -> from_element W false k c' n m = Err x ->
     known_class W c' && (negb (String.eqb c' "data.Schema") || String.eqb (tag_of W c') "Schema") &&
            (negb (String.eqb c' "gx.Track") || String.eqb (tag_of W c') "Track") = true -> source (Elem t a tx ks) c x).
  { intros k c' n Hin Ht He Hk. rewrite !andb_true_iff in Hk. destruct Hk as [[K1 K2] K3]. assert (S := IH k Hin c' n m x K1 He).
    assert (D : forall g, (ends_with (e_tag k) g = true \/ free_of g k = false) -> free_of g (Elem t a tx ks) = false).
    { intros g Hg. cbn [free_of]. destruct (forallb _ ks) eqn:Ef; [|reflexivity]. rewrite forallb_forall in Ef. specialize (Ef k Hin). apply andb_prop in Ef as [F1 F2].
      apply negb_true_iff in F1. destruct Hg; congruence. }
    destruct S as [S|S|S].
    - apply src_int. cbn [integers_ok]. apply andb_false_iff. right. destruct (forallb _ ks) eqn:Ef; [|reflexivity]. rewrite forallb_forall in Ef. rewrite (Ef k Hin) in S. discriminate.
    - apply src_schema. right. apply D. destruct S as [->|S]; [left|now right]. rewrite String.eqb_refl in K2. cbn [negb orb] in K2.
      apply String.eqb_eq in K2. rewrite Ht, K2. apply ends_with_app.
    - apply src_track. right. apply D. destruct S as [->|S]; [left|now right]. rewrite String.eqb_refl in K3. cbn [negb orb] in K3.
      apply String.eqb_eq in K3. rewrite Ht, K3. apply ends_with_app. }
  assert (F := world_class _ _ _ HW E).
  apply bind_err in H as [H|[kws [Hk H]]].
  - apply kwargs_err in H as [it [id [Hi [Hid H]]]]. specialize (C1 it Hi). assert (Hok := cf_items _ _ _ F it Hi). unfold item_ok in Hok. rewrite !andb_true_iff in Hok. destruct Hok as [[[Hp _] _] Hcl].
    unfold get_kwarg in H. destruct (it_get it) eqn:G; try discriminate H.
    + exfalso. unfold classes_ok in Hcl. destruct (it_set it); try discriminate Hp. rewrite bool_match in H.
      destruct (match it_classes it with ["bool"%string] => true | _ => false end); [|discriminate Hcl].
      destruct (find_kid _ _) as [k|]; [|discriminate]. destruct (stripped _); [|discriminate]. eapply guarded_err; [|exact H]. apply bool_only.
    + exfalso. destruct (find_kid _ _) as [k|]; [|discriminate]. destruct (stripped _); [|discriminate]. eapply guarded_err; [|exact H]. apply only_bind; [apply int_only|intro; exact I].
    + destruct (uget _ a) as [s|] eqn:Eu; [|discriminate]. destruct (uempty s) eqn:Ee; [discriminate|]. apply bind_err in H as [H|[z [_ H]]]; [|discriminate].
      assert (O := int_only s). rewrite H in O. cbn in O. subst x. apply src_int. cbn [integers_ok]. apply andb_false_iff. left.
      destruct (forallb harmless_attr a) eqn:Ef; [|reflexivity]. rewrite forallb_forall in Ef. apply uget_In, Ef in Eu. unfold harmless_attr in Eu. cbn [fst snd] in Eu. rewrite Ee, H in Eu.
      cbn [is_ok] in Eu. rewrite !orb_false_r in Eu. apply negb_true_iff, orb_false_iff in Eu as [E1 E2]. apply orb_prop in C1 as [C|C]; apply String.eqb_eq in C; rewrite C, ends_with_app in *; discriminate.
    + exfalso. destruct (find_kid _ _) as [k|]; [|discriminate]. destruct (stripped _); [|discriminate]. eapply guarded_err; [|exact H]. apply only_bind; [apply float_only|intro; exact I].
    + exfalso. destruct (uget _ a) as [s|]; [|discriminate]. destruct (uempty s); [discriminate|]. eapply guarded_err; [|exact H]. apply only_bind; [apply float_only|intro; exact I].
    + exfalso. unfold classes_ok in Hcl. destruct (it_set it); try discriminate Hp. unfold with_enum in H. destruct (it_classes it) as [|k [|]]; try discriminate. destruct (sget k _); [|discriminate].
      destruct (find_kid _ _) as [k'|]; [|discriminate]. destruct (stripped _); [|discriminate]. eapply guarded_err; [|exact H]. apply enum_only.
    + exfalso. unfold classes_ok in Hcl. destruct (it_set it); try discriminate Hp. unfold with_enum in H. destruct (it_classes it) as [|k [|]]; try discriminate. destruct (sget k _); [|discriminate].
      destruct (uget _ a) as [s|]; [|discriminate]. destruct (uempty s); [discriminate|]. eapply guarded_err; [|exact H]. apply enum_only.
    + exfalso. destruct (find_kid _ _) as [k|]; [|discriminate]. destruct (stripped _); [|discriminate]. eapply guarded_err; [|exact H]. apply only_bind; [apply date_only|intro; exact I].
    + apply bind_err in H as [H|[l [_ H]]]; [|discriminate]. apply map_err in H as [k [_ H]]. unfold read_date in H. apply String.eqb_eq in C1.
      destruct (e_text (fst k)) as [s|]; [|injection H as <-; apply src_track; now left].
      assert (O := date_only (w_arrow W) s). destruct (kdt_parse _ s); [discriminate|]. cbn in O. subst. discriminate.
    + exfalso. apply bind_err in H as [H|[l [_ H]]]; [|discriminate]. apply map_err in H as [k [_ H]]. unfold read_coord in H. destruct (e_text (fst k)) as [s|]; [|discriminate].
      destruct (uempty s); [discriminate|]. assert (O := floats_only (words s)). destruct (floats_of _); [discriminate|]. cbn in O. subst. discriminate.
    + exfalso. destruct tx as [s|]; [|discriminate]. eapply guarded_err; [|exact H]. apply coordinates_only.
    + assert (Hcs : forallb (known_class W) (it_classes it) = true).
      { apply forallb_forall. intros c' Hc'. rewrite forallb_forall in C1. specialize (C1 c' Hc'). rewrite !andb_true_iff in C1. tauto. }
      apply read_obj_err in H as [c' [k [I1 [I2 [I3 H]]]]]; [|exact Hcs]. apply in_map_iff in I2 as [k0 [<- I2]]. cbn [fst snd] in *. rewrite forallb_forall in C1. eapply Kid; eauto.
    + apply bind_err in H as [H|[l [_ H]]]; [|discriminate]. unfold read_objs in H. apply bind_err in H as [H|[l [_ H]]]; [|discriminate]. apply map_err in H as [c' [I1 H]].
      rewrite forallb_forall in C1. specialize (C1 c' I1). assert (Hc' : known_class W c' = true) by (rewrite !andb_true_iff in C1; tauto). rewrite (known_tag _ _ Hc') in H. cbn [bind] in H.
      apply map_err in H as [k [I2 H]]. apply filter_In in I2 as [I2 I3]. apply in_map_iff in I2 as [k0 [<- I2]]. cbn [fst snd] in *. apply ueqb_eq in I3. eapply Kid; eauto.
  - destruct (ctor_calm _ _ _ _ _ _ _ _ HW E Hm Hk) as [Hat Hx]. unfold construct in H. rewrite E, Hx in H.
    assert (Hn : exists ak, In ak (ctor_attrs ci) /\ mk_attr W kws ak = Err x).
    { unfold ctor_attrs. apply bind_err in H as [H|[p [_ H]]]; [apply map_err in H as [ak [I J]]; exists ak; rewrite in_app_iff; auto|].
      apply bind_err in H as [H|[q [_ H]]]; [|discriminate]. apply map_err in H as [ak [I J]]; exists ak; rewrite in_app_iff; auto. }
    destruct Hn as [[b k] [Hin He]]. assert (HA := Hat _ Hin). specialize (C2 _ Hin). cbn [snd] in *. rewrite He in HA. cbn [is_ok] in HA.
    destruct (cf_kind _ _ _ F _ Hin) as [Hko _]. cbn [fst snd] in Hko.
    destruct (get_kwargs_inv W false (items_of W c) a tx (map (kid_reader W false) ks) m [] kws) as [r [Ekws Hr]]; [exact (cf_attrs _ _ _ F)|exact Hk|]. cbn [app] in *.
    assert (Kw : forall b, kwget kws b = match find_item b (items_of W c) with Some i => match r i with Some v => v | None => VNone end | None => VNone end).
    { intro b'. unfold kwget. rewrite Ekws. rewrite kw_of_get by apply (cf_attrs _ _ _ F). destruct (find_item b' (items_of W c)) as [i|]; [|reflexivity]. now destruct (r i). }
    destruct k; try discriminate HA; apply String.eqb_eq in C2.
    + enough (x = EKMLSchema) as -> by (apply src_schema; now left).
      unfold mk_attr in He. apply bind_err in He as [He|[y [_ He]]]; [|discriminate].
      rewrite Kw in He. destruct (find_item b (items_of W c)) as [it|] eqn:Fi; [|discriminate Hko]. destruct (find_item_In _ _ _ Fi) as [Hi _].
      assert (Hok := cf_items _ _ _ F it Hi). unfold item_ok in Hok. rewrite !andb_true_iff in Hok. destruct Hok as [[[Hp _] _] _].
      cbn in Hko. destruct (it_set it); try discriminate Hko. destruct (it_get it) eqn:G; try discriminate Hp.
      assert (Er := Hr it Hi). rewrite (try_text_value W a tx _ m it G) in Er. injection Er as Er. rewrite <- Er in He.
      destruct (first_some _) as [s|]; cbn [option_map] in He; unfold py_bool in He; cbn [sem fst bind] in He; [|congruence].
      destruct (negb (uempty s)); [|congruence]. cbn [clean_string] in He. destruct (uempty s); discriminate.
    + enough (x = ETypeError) as -> by (apply src_track; now left).
      unfold mk_attr in He. apply bind_err in He as [He|[y [_ He]]]; [|discriminate].
      assert (Hno : find_item b (items_of W c) = None) by (unfold ckind_ok in Hko; now destruct (find_item b (items_of W c))).
      rewrite (Kw b), Hno in He. eapply track_err, He.
Qed.

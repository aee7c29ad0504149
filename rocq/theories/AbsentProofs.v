(** * Attributes without counterpart in the element stay empty. *)
From Coq Require Import String List NArith ZArith Bool Lia.
From Verif Require Import Ustr UstrProofs Res PyInt PyFloat PyDate Elem Value Geom Codec Spec EmitProofs CodecProofs ReadProofs RoundTrip NsProofs ReaderTyped Agree AgreeProofs CtorProofs.
Import ListNotations.

(** Nothing in the element belongs to the item. *)
Definition absent (W : world) (nss : nss_t) (it : item) (e : elem) : Prop :=
  forall id, In id (it_nsids it) ->
  match it_get it with
  | GNodeText | GCoords => e_text e = None
  | GAttrText | GAttrInt | GAttrFloat | GAttrEnum => uget (ns_get nss id ++ u (it_node it)) (e_attrib e) = None
  | GText | GBool | GInt | GFloat | GEnum | GDate | GDates | GCoordList => with_tag (ns_get nss id ++ u (it_node it)) (e_kids e) = []
  | GObj | GObjs => forall c, In c (it_classes it) -> with_tag (ns_get nss id ++ u (tag_of W c)) (e_kids e) = []
  end.

Definition empty_value (v : value) : bool :=
  match v with
  | VNone | VStr [] | VList [] | VCoords _ [] | VDates [] | VItems [] => true
  | _ => false
  end.

Lemma read_obj_none W strict ks ns nss cs : (forall c, In c cs -> with_tag (ns ++ u (tag_of W c)) ks = []) ->
  forall o, read_obj W (map (kid_reader W strict) ks) ns nss cs = Ok o -> o = None.
Proof.
  induction cs as [|c cs IH]; intros H o E; [now injection E as <-|]. cbn [read_obj] in E. apply bind_ok in E as [tag [Ht E]]. apply class_tag_of in Ht. subst tag.
  rewrite find_kid_with, H in E by now left. cbn in E. apply IH in E; [exact E|]. intros. apply H. now right.
Qed.

Lemma read_objs_none W strict ks ns nss cs : (forall c, In c cs -> with_tag (ns ++ u (tag_of W c)) ks = []) ->
  forall l, read_objs W (map (kid_reader W strict) ks) ns nss cs = Ok l -> l = [].
Proof.
  intros H l E. unfold read_objs in E. apply bind_ok in E as [ls [Hl E]]. injection E as <-. apply map_res_ok in Hl.
  induction Hl as [|c r cs ls Hc _ IH]; [reflexivity|]. cbn. rewrite IH by (intros; apply H; now right). rewrite app_nil_r.
  apply bind_ok in Hc as [tag [Ht Hc]]. apply class_tag_of in Ht. subst tag. rewrite find_kids_with, H in Hc by now left. cbn in Hc. now injection Hc as <-.
Qed.

Lemma get_kwarg_absent W strict it t a x ks nss id o : item_ok W it = true -> absent W nss it (Elem t a x ks) -> In id (it_nsids it) ->
  get_kwarg W strict it a x (map (kid_reader W strict) ks) (ns_get nss id) nss = Ok o ->
  o = None \/ (it_get it = GObjs /\ o = Some (VList [])).
Proof.
  intros Hok Ha Hid E. specialize (Ha id Hid). unfold get_kwarg in E. rewrite k_leaf_find, k_leaf_with in E. unfold leaf_text in E. cbn [e_text e_attrib e_kids] in Ha.
  assert (Hcl : classes_ok W it = true) by (unfold item_ok in Hok; rewrite !andb_true_iff in Hok; tauto).
  destruct (it_get it) eqn:G; try (rewrite Ha in E); cbn [stripped guarded] in E; try (left; congruence).
  - left. destruct (it_classes it) as [|k l]; [discriminate|]. repeat match type of E with context [match ?s with _ => _ end] => is_var s; destruct s; try discriminate E end. congruence.
  - left. unfold with_enum in E. destruct (it_classes it) as [|k [|]]; try discriminate E. destruct (sget _ _); [congruence|discriminate].
  - left. unfold with_enum in E. destruct (it_classes it) as [|k [|]]; try discriminate E. destruct (sget _ _); [congruence|discriminate].
  - left. rewrite find_kids_with, Ha in E. cbn in E. congruence.
  - left. rewrite find_kids_with, Ha in E. cbn in E. congruence.
  - left. eapply read_obj_none; eassumption.
  - right. split; [reflexivity|]. apply bind_ok in E as [l [Hl E]]. apply (read_objs_none W strict ks _ _ _ Ha) in Hl. subst l. congruence.
Qed.

Lemma try_nsids_cases f nss ids o : try_nsids f nss ids = Ok o -> o = None \/ exists id, In id ids /\ f (ns_get nss id) = Ok o.
Proof.
  induction ids as [|id ids IH]; cbn; intro E; [left; congruence|]. apply bind_ok in E as [r [Hr E]]. destruct r as [v|].
  - right. exists id. split; [now left|]. congruence.
  - destruct (IH E) as [->|[id' [H1 H2]]]; [now left|]. right. exists id'. auto.
Qed.

Theorem absent_empty W strict e c ns nss ci ns' nss' attrs it : world_ok W = true -> class_of W c = Some ci ->
  from_element W strict e c ns nss = Ok (VObj c ns' nss' attrs) -> In it (items_of W c) -> absent W nss' it e ->
  (is_track ci = true -> it_attr it <> "angles"%string) ->
  empty_value (obj_attr ci attrs (it_attr it)) = true.
Proof.
  intros HW Hc H Hi Ha Hang. destruct e as [t a x ks]. cbn [from_element] in H. unfold read_with in H. cbv zeta in H.
  assert (F := world_class _ _ _ HW Hc).
  apply bind_ok in H as [kws [Hk H]].
  destruct (get_kwargs_inv W strict (items_of W c) a x (map (kid_reader W strict) ks) (merge_ns nss) [] kws) as [r [-> Hr]]; [exact (cf_attrs _ _ _ F)|exact Hk|]. cbn [app] in H.
  unfold construct in H. rewrite Hc in H. destruct (_ && _); [discriminate|]. apply bind_ok in H as [pre [Hpre H]]. apply bind_ok in H as [post [Hpost H]].
  injection H as <- <- <-. rewrite merge_ns_idem in Ha.
  assert (Rn : r it = None \/ (it_get it = GObjs /\ r it = Some (VList []))).
  { destruct (try_nsids_cases _ _ _ _ (Hr it Hi)) as [E|[id [Hid E]]]; [now left|]. eapply get_kwarg_absent; [exact (cf_items _ _ _ F it Hi)|exact Ha|exact Hid|exact E]. }
  set (kws := kw_of r (items_of W c)) in *.
  assert (Kw : forall b, kwget kws b = match find_item b (items_of W c) with Some i => match r i with Some v => v | None => VNone end | None => VNone end).
  { intro b. unfold kwget, kws. rewrite kw_of_get by apply (cf_attrs _ _ _ F). destruct (find_item b (items_of W c)) as [i|]; [|reflexivity]. now destruct (r i). }
  assert (Fi := find_item_NoDup _ _ (cf_attrs _ _ _ F) Hi).
  assert (Kv : kwget kws (it_attr it) = VNone \/ kwget kws (it_attr it) = VList []).
  { rewrite Kw, Fi. destruct Rn as [->|[_ ->]]; auto. }
  (* what a constructor attribute holds *)
  assert (Hat : forall k v, In (it_attr it, k) (ctor_attrs ci) -> mk_attr W kws (it_attr it, k) = Ok (it_attr it, v) -> empty_value v = true).
  { intros k v Hin Hv. destruct (cf_kind _ _ _ F _ Hin) as [Hko _]. cbn [fst snd] in Hko. rewrite Fi in Hko.
    unfold mk_attr in Hv. apply bind_ok in Hv as [w [Hw E]]. injection E as ->. destruct Kv as [E|E]; rewrite E in Hw.
    - destruct k; cbn in Hw; try (injection Hw as <-; reflexivity); try discriminate.
    - destruct k; cbn in Hw; try (injection Hw as <-; reflexivity); try discriminate. }
  assert (Hin : forall l r', map_res (mk_attr W kws) l = Ok r' -> (forall ak, In ak l -> In ak (ctor_attrs ci)) -> forall v, In (it_attr it, v) r' -> empty_value v = true).
  { intros l r' Hl Hsub v Hv. apply map_res_ok in Hl. induction Hl as [|[b k] y l r' Hy _ IH]; [destruct Hv|]. destruct Hv as [->|Hv].
    - assert (Eb := mk_attr_key _ _ _ _ Hy). cbn in Eb. subst b. apply (Hat k); [apply Hsub; now left|exact Hy].
    - apply IH; [|exact Hv]. intros. apply Hsub. now right. }
  assert (Hall : forall v, In (it_attr it, v) (pre ++ extras_of ci kws ++ post) -> empty_value v = true).
  { intros v Hv. rewrite !in_app_iff in Hv. destruct Hv as [Hv|[Hv|Hv]].
    - apply (Hin _ _ Hpre); [|exact Hv]. intros. unfold ctor_attrs. rewrite in_app_iff. now left.
    - unfold extras_of in Hv. apply filter_In in Hv as [Hv _]. apply (in_map fst) in Hv as Hv'. unfold kws, kw_of in Hv.
      apply in_concat in Hv as [l [Hl Hv]]. apply in_map_iff in Hl as [i [<- Hi']]. destruct (r i) as [w|] eqn:Ew; [|destruct Hv]. destruct Hv as [E|[]]. injection E as E1 E2.
      assert (i = it).
      { assert (Fi' := find_item_NoDup _ _ (cf_attrs _ _ _ F) Hi'). rewrite E1 in Fi'. congruence. }
      subst i. destruct Rn as [Rn|[_ Rn]]; rewrite Rn in Ew; [discriminate|]. injection Ew as <-. now subst v.
    - apply (Hin _ _ Hpost); [|exact Hv]. intros. unfold ctor_attrs. rewrite in_app_iff. now right. }
  unfold obj_attr. destruct (sget (it_attr it) (pre ++ extras_of ci kws ++ post)) as [v|] eqn:Es; [apply Hall, sget_In, Es|].
  destruct (ci_geom ci) eqn:Eg; try reflexivity. destruct (sget "track_items" _) as [ti|] eqn:Et; [|reflexivity]. destruct ti as [| | | | | | | | |l| | ]; try reflexivity.
  assert (Htr : is_track ci = true) by (unfold is_track; now rewrite Eg). specialize (Hang Htr).
  (* the items come out of build_track *)
  assert (Ht := cf_track _ _ _ F). unfold track_ok in Ht. rewrite Htr in Ht. rewrite !andb_true_iff in Ht. destruct Ht as [[[[[Ht1 Ht2] Ht3] Ht4] Ht5] Ht6].
  assert (Hti : In ("track_items"%string, CTrack) (ctor_attrs ci)).
  { rewrite existsb_exists in Ht1. destruct Ht1 as [[b k] [Hb E]]. cbn [fst snd] in E. apply andb_prop in E as [E1 E2]. apply String.eqb_eq in E1. subst b. destruct k; try discriminate. exact Hb. }
  assert (Hmk : mk_attr W kws ("track_items"%string, CTrack) = Ok ("track_items"%string, VItems l)).
  { assert (G : forall l' r' v, map_res (mk_attr W kws) l' = Ok r' -> (forall ak, In ak l' -> In ak (ctor_attrs ci)) -> In ("track_items"%string, v) r' -> mk_attr W kws ("track_items"%string, CTrack) = Ok ("track_items"%string, v)).
    { intros l' r' v Hl Hsub Hv. apply map_res_ok in Hl. induction Hl as [|[b k] y l' r' Hy _ IH]; [destruct Hv|]. destruct Hv as [->|Hv].
      - assert (Eb := mk_attr_key _ _ _ _ Hy). cbn in Eb. subst b. assert (k = CTrack); [|now subst].
        assert (A := sget_NoDup _ _ _ (cf_ctor _ _ _ F) Hti). assert (B := sget_NoDup _ _ _ (cf_ctor _ _ _ F) (Hsub _ (or_introl eq_refl))). congruence.
      - apply IH; [|exact Hv]. intros. apply Hsub. now right. }
    apply sget_In in Et. rewrite !in_app_iff in Et. destruct Et as [Et|[Et|Et]].
    - apply (G _ _ _ Hpre); [|exact Et]. intros. unfold ctor_attrs. rewrite in_app_iff. now left.
    - exfalso. unfold extras_of in Et. apply filter_In in Et as [_ Et]. cbn [fst] in Et. assert (P := cf_params _ _ _ F _ Hti). cbn [fst] in P. rewrite P in Et. discriminate.
    - apply (G _ _ _ Hpost); [|exact Et]. intros. unfold ctor_attrs. rewrite in_app_iff. now right. }
  unfold mk_attr in Hmk. apply bind_ok in Hmk as [w [Hw E]]. injection E as ->.
  assert (Hno : find_item "track_items" (items_of W c) = None).
  { destruct (cf_kind _ _ _ F _ Hti) as [Hko _]. cbn [fst snd] in Hko. unfold ckind_ok in Hko. now destruct (find_item "track_items" (items_of W c)). }
  rewrite (Kw "track_items"%string), Hno in Hw. unfold build_track in Hw. cbn [titems_of bind] in Hw.
  apply bind_ok in Hw as [ws [Hws Hw]]. apply bind_ok in Hw as [cs [Hcs Hw]]. apply bind_ok in Hw as [an [_ Hw]]. cbn [nilb negb andb] in Hw. rewrite andb_false_r in Hw.
  assert (Hor : it_attr it = "whens"%string \/ it_attr it = "coords"%string -> l = []).
  { intros [E|E]; rewrite E in Kv.
    - destruct Kv as [Kv|Kv]; rewrite Kv in Hws; cbn in Hws; [|discriminate]. injection Hws as <-. cbn in Hw. congruence.
    - destruct Kv as [Kv|Kv]; rewrite Kv in Hcs; cbn in Hcs; [|discriminate]. injection Hcs as <-. cbn in Hw. rewrite andb_false_r in Hw. congruence. }
  destruct (String.eqb_spec (it_attr it) "whens") as [E|_]; [now rewrite Hor by auto|].
  destruct (String.eqb_spec (it_attr it) "coords") as [E|_]; [now rewrite Hor by auto|].
  destruct (String.eqb_spec (it_attr it) "angles") as [E|_]; [contradiction|reflexivity].
Qed.

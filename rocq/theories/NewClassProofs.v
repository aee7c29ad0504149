(** * User-defined classes: what they change. *)
From Coq Require Import String List NArith ZArith Bool Lia.
From Verif Require Import Ustr UstrProofs Res PyInt PyFloat PyDate Elem Value Geom Codec Tables Spec Settled EmitProofs CodecProofs ReadProofs ItemProofs RoundTrip NsProofs Agree AgreeProofs AbsentProofs StrictProofs WriteProofs FastkmlOk Extend ExtendProofs ExtendWriteProofs ExtendReadProofs NewClass.
Import ListNotations.

Section New.
  Variables (W : world) (c : string) (ci : class_info) (its : list item).
  Notation W' := (add_class W c ci its).
  Hypothesis HW : world_ok W = true.
  Hypothesis HM : mros_ok W = true.
  Hypothesis HN : new_class W c ci its = true.

  Lemma new_facts : class_of W c = None /\ (forall c' ci', class_of W c' = Some ci' -> ~ In c (ci_mro ci')) /\ NoDup (ci_mro ci) /\
    class_ok W' ci (items_of W' c) = true /\ forallb (item_ids_ok W' (ci_nsid ci)) (items_of W' c) = true.
  Proof.
    unfold new_class in HN. cbv zeta in HN. rewrite !andb_true_iff in HN. destruct HN as [[[[H1 H2] H3] H4] H5]. repeat split; auto.
    - unfold known_class in H1. now destruct (class_of W c).
    - intros c' ci' Hc Hm. rewrite forallb_forall in H2. specialize (H2 _ (sget_In _ _ _ Hc)). cbn [snd] in H2. apply EmitProofs.mem_In in Hm. rewrite Hm in H2. discriminate.
    - now apply nodups_NoDup.
  Qed.

  Lemma class_other c' : c' <> c -> class_of W' c' = class_of W c'.
  Proof. intro N. unfold class_of. cbn [add_class w_classes]. rewrite sget_app. destruct (sget c' (w_classes W)); [reflexivity|]. cbn [sget]. destruct (String.eqb_spec c' c); [contradiction|reflexivity]. Qed.
  Lemma class_new : class_of W' c = Some ci.
  Proof. destruct new_facts as [N _]. unfold class_of in *. cbn [add_class w_classes]. rewrite sget_app, N. cbn [sget]. now rewrite String.eqb_refl. Qed.
  Lemma known_other c' : known_class W c' = true -> c' <> c.
  Proof. intros K ->. unfold known_class in K. now rewrite (proj1 new_facts) in K. Qed.

  Lemma items_other c' : c' <> c -> items_of W' c' = items_of W c'.
  Proof.
    intro N. unfold items_of. rewrite class_other by exact N. destruct (class_of W c') as [ci'|] eqn:Hc; [|reflexivity]. destruct new_facts as [_ [F _]]. specialize (F _ _ Hc).
    unfold reg_items. f_equal. apply map_ext_in. intros d Hd. apply in_rev in Hd. cbn [add_class w_registry]. rewrite sget_sset. destruct (String.eqb_spec d c) as [->|]; [contradiction|reflexivity].
  Qed.

  (** ** Truth values and geometries *)

  Lemma sem_other v : of_library W v = true -> both W W' v.
  Proof.
    unfold of_library. induction v as [ |b|n|s|k w|k|k|b l|l|l|l IH|k ns nss attrs IH] using value_ind'; intro K; try (split; reflexivity || exact I).
    - split; [reflexivity|]. apply map_ext_in. intros y Hy. rewrite Forall_forall in IH. cbn [vall] in K. rewrite forallb_forall in K. exact (proj1 (IH y Hy (K y Hy))).
    - split; [|exact I]. cbn [vall] in K. apply andb_prop in K as [Kc Ka]. assert (N := known_other _ Kc).
      assert (E : env_of W' attrs = env_of W attrs).
      { unfold env_of. apply map_ext_in. intros [a x] Hx. rewrite Forall_forall in IH. rewrite forallb_forall in Ka. destruct (IH _ Hx (Ka _ Hx)) as [E1 E2]. cbn [snd] in *. rewrite E1. f_equal. f_equal. now destruct x. }
      unfold known_class in Kc. destruct (class_of W k) as [ck|] eqn:Hc; [|discriminate].
      destruct (sem_obj W k ck ns nss attrs Hc) as [A B]. destruct (sem_obj W' k ck ns nss attrs) as [A' B']; [now rewrite class_other|]. unfold py_bool, geometry in *. rewrite E in *.
      rewrite (surjective_pairing (sem W _)), (surjective_pairing (sem W' _)). congruence.
  Qed.
  Lemma py_bool_other v : of_library W v = true -> py_bool W' v = py_bool W v.
  Proof. intro K. unfold py_bool. now rewrite (proj1 (sem_other v K)). Qed.

  (** ** Writing *)

  Lemma objs_kids_other (l : list wkid) : Forall (fun vw => of_library W (fst vw) = true) l -> objs_kids W' l = objs_kids W l.
  Proof. induction 1 as [|[v w] l K _ IH]; [reflexivity|]. cbn [objs_kids fst] in *. now rewrite py_bool_other, IH. Qed.

  Lemma etree_other prec vb v : of_library W v = true ->
    etree W' prec vb v = etree W prec vb v /\ match v with VList l => map (fun y => (y, etree W' prec vb y)) l = map (fun y => (y, etree W prec vb y)) l | _ => True end.
  Proof.
    unfold of_library. induction v as [ |b|n|s|k w|k|k|b l|l|l|l IH|k ns nss attrs IH] using value_ind'; intro K; try (split; reflexivity || exact I).
    - split; [reflexivity|]. apply map_ext_in. intros y Hy. rewrite Forall_forall in IH. cbn [vall] in K. rewrite forallb_forall in K. now rewrite (proj1 (IH y Hy (K y Hy))).
    - split; [|exact I]. cbn [vall] in K. apply andb_prop in K as [Kc Ka]. assert (N := known_other _ Kc). rewrite forallb_forall in Ka. rewrite Forall_forall in IH.
      assert (Ew : ws_of W' prec vb attrs = ws_of W prec vb attrs).
      { unfold ws_of. apply map_ext_in. intros [a x] Hx. destruct (IH _ Hx (Ka _ Hx)) as [E1 E2]. cbn [snd] in *. unfold w_attr. rewrite E1. f_equal. f_equal. now destruct x. }
      assert (Em : forall ck j, emit W' prec vb ck ns nss attrs (ws_of W prec vb attrs) j = emit W prec vb ck ns nss attrs (ws_of W prec vb attrs) j).
      { intros ck j. unfold emit. destruct (it_set j); try reflexivity.
        - rewrite py_bool_other; [reflexivity|]. unfold obj_attr. destruct (sget (it_attr j) attrs) as [x|] eqn:Ex; [exact (Ka _ (sget_In _ _ _ Ex))|].
          destruct (ci_geom ck); try reflexivity. destruct (sget "track_items"%string attrs) as [z|]; [|reflexivity]. destruct z; try reflexivity. repeat destruct (String.eqb _ _); reflexivity.
        - destruct (sget (it_attr j) (ws_of W prec vb attrs)) as [[[x w] l]|] eqn:Ex; [|reflexivity]. destruct x; try reflexivity. rewrite objs_kids_other; [reflexivity|].
          apply sget_In in Ex. unfold ws_of in Ex. apply in_map_iff in Ex as [[a y] [Ey Hy]]. unfold w_attr in Ey. injection Ey as _ -> _ <-. specialize (Ka _ Hy). cbn [vall] in Ka.
          apply Forall_forall. intros [y z] Hyz. apply in_map_iff in Hyz as [y' [Q Hy']]. injection Q as -> _. rewrite forallb_forall in Ka. now apply Ka. }
      rewrite !etree_obj, Ew. unfold write_with. rewrite class_other by exact N. destruct (class_of W k) as [ck|] eqn:Hc; [|reflexivity].
      destruct (ci_root ck); [now rewrite !set_element_emit, Em|].
      now rewrite !set_elements_emit, (map_res_ext_in _ _ _ (fun j _ => Em ck j)), items_other.
  Qed.

  (** ** Reading *)

  (** Two readers of a child element that agree for the classes of the library. *)
  Definition kid_same (x y : rkid) : Prop :=
    fst x = fst y /\ forall k ns nss, known_class W k = true ->
      snd x k ns nss = snd y k ns nss /\ forall v, snd y k ns nss = Ok v -> of_library W v = true.

  Lemma kids_same tag ks ks' : Forall2 kid_same ks ks' -> Forall2 kid_same (find_kids tag ks) (find_kids tag ks').
  Proof. unfold find_kids. induction 1 as [|x y ks ks' H _ IH]; [constructor|]. cbn [filter]. rewrite (proj1 H). destruct (ueqb _ tag); [constructor; auto|exact IH]. Qed.
  Lemma kid_same_find tag ks ks' : Forall2 kid_same ks ks' ->
    match find_kid tag ks, find_kid tag ks' with Some x, Some y => kid_same x y | None, None => True | _, _ => False end.
  Proof. intro H. rewrite !find_kid_hd. destruct (kids_same tag _ _ H); cbn; auto. Qed.

  Lemma map_kids_same {A} (f : rkid -> res A) ks ks' : Forall2 kid_same ks ks' -> (forall x y, fst x = fst y -> f x = f y) -> map_res f ks = map_res f ks'.
  Proof. intros H E. induction H as [|x y ks ks' H _ IH]; [reflexivity|]. cbn [map_res]. now rewrite (E x y (proj1 H)), IH. Qed.

  Lemma leaf_same tag ks ks' : Forall2 kid_same ks ks' ->
    (match find_kid tag ks with Some k => stripped (e_text (fst k)) | None => None end) = (match find_kid tag ks' with Some k => stripped (e_text (fst k)) | None => None end).
  Proof. intro H. assert (F := kid_same_find tag _ _ H). destruct (find_kid tag ks), (find_kid tag ks'); try contradiction; [|reflexivity]. now rewrite (proj1 F). Qed.

  Lemma tag_other k : known_class W k = true -> class_tag W' k = class_tag W k.
  Proof. intro K. unfold class_tag. now rewrite class_other by now apply known_other. Qed.

  Lemma read_obj_same ks ks' ns nss cs : Forall2 kid_same ks ks' -> forallb (known_class W) cs = true ->
    read_obj W' ks ns nss cs = read_obj W ks' ns nss cs /\ forall v, read_obj W ks' ns nss cs = Ok (Some v) -> of_library W v = true.
  Proof.
    intro H. induction cs as [|k cs IH]; intro K; [split; [reflexivity|discriminate]|]. cbn [forallb] in K. apply andb_prop in K as [K1 K2]. cbn [read_obj]. rewrite tag_other by exact K1.
    destruct (class_tag W k) as [t|]; cbn [bind]; [|split; [reflexivity|discriminate]]. assert (F := kid_same_find (ns ++ t) _ _ H). destruct (find_kid _ ks), (find_kid _ ks'); try contradiction; [|now apply IH].
    destruct F as [_ F]. destruct (F k ns nss K1) as [-> L]. split; [reflexivity|]. intros v E. apply bind_ok in E as [x [Ex E]]. injection E as <-. now apply L.
  Qed.

  Lemma read_objs_same ks ks' ns nss cs : Forall2 kid_same ks ks' -> forallb (known_class W) cs = true ->
    read_objs W' ks ns nss cs = read_objs W ks' ns nss cs /\ forall l, read_objs W ks' ns nss cs = Ok l -> forallb (of_library W) l = true.
  Proof.
    intros H K. unfold read_objs. rewrite forallb_forall in K.
    assert (S : forall k, In k cs -> let f (V : world) (kk : list rkid) := (let! tag := class_tag V k in map_res (fun x : rkid => snd x k ns nss) (find_kids (ns ++ tag) kk)) in
                f W' ks = f W ks' /\ forall l, f W ks' = Ok l -> forallb (of_library W) l = true).
    { intros k Hk. cbv beta zeta. rewrite tag_other by auto. destruct (class_tag W k) as [t|]; cbn [bind]; [|split; [reflexivity|discriminate]].
      induction (kids_same (ns ++ t) _ _ H) as [|x y l l' [_ F] _ IH]; [split; [reflexivity|intros l E; now injection E as <-]|]. cbn [map_res]. destruct (F k ns nss (K k Hk)) as [-> L]. destruct IH as [-> IH]. split; [reflexivity|].
      intros r E. apply bind_ok in E as [v [Ev E]]. apply bind_ok in E as [vs [Evs E]]. injection E as <-. cbn [forallb]. now rewrite (L _ Ev), (IH _ Evs). }
    cbv beta zeta in S. split.
    - rewrite (map_res_ext_in _ _ _ (fun k Hk => proj1 (S k Hk))). reflexivity.
    - intros l E. apply bind_ok in E as [ls [El E]]. injection E as <-. clear K. revert ls El. induction cs as [|k cs IH]; intros ls El; cbn [map_res] in El; [now injection El as <-|].
      apply bind_ok in El as [v [Ev El]]. apply bind_ok in El as [vs [Evs El]]. injection El as <-. cbn [concat]. rewrite forallb_app, (proj2 (S k (or_introl eq_refl)) _ Ev). apply IH; [intros; apply S; now right|exact Evs].
  Qed.

  Lemma flat_library v : flat v = true -> of_library W v = true.
  Proof. now destruct v. Qed.

  Lemma get_kwarg_same strict j at_ tx ks ks' ns nss : item_ok W j = true -> Forall2 kid_same ks ks' ->
    get_kwarg W' strict j at_ tx ks ns nss = get_kwarg W strict j at_ tx ks' ns nss /\
    forall v, get_kwarg W strict j at_ tx ks' ns nss = Ok (Some v) -> of_library W v = true.
  Proof.
    intros Hj H. assert (G : it_get j = GObj \/ it_get j = GObjs -> forallb (known_class W) (it_classes j) = true).
    { unfold item_ok in Hj. rewrite !andb_true_iff in Hj. destruct Hj as [[[P _] _] Cl]. unfold classes_ok in Cl. intro G. destruct G as [G|G]; rewrite G in P; destruct (it_set j); try discriminate P; now apply andb_prop in Cl. }
    assert (Fl : it_get j <> GObj -> it_get j <> GObjs -> forall v, get_kwarg W strict j at_ tx ks' ns nss = Ok (Some v) -> of_library W v = true).
    { intros N1 N2 v E. apply flat_library. eapply get_kwarg_flat; eassumption. }
    unfold get_kwarg in *. rewrite (leaf_same _ _ _ H).
    destruct (it_get j) eqn:Eg; try (split; [reflexivity|apply Fl; discriminate]).
    - split; [|apply Fl; discriminate]. rewrite (map_kids_same (read_date W' strict) _ _ (kids_same _ _ _ H)); [reflexivity|]. intros x y E. unfold read_date. now rewrite E.
    - split; [|apply Fl; discriminate]. rewrite (map_kids_same (read_coord strict) _ _ (kids_same _ _ _ H)); [reflexivity|]. intros x y E. unfold read_coord. now rewrite E.
    - exact (read_obj_same _ _ ns nss _ H (G (or_introl eq_refl))).
    - destruct (read_objs_same _ _ ns nss _ H (G (or_intror eq_refl))) as [-> L]. split; [reflexivity|]. intros v E. apply bind_ok in E as [l [El E]]. injection E as <-. exact (L _ El).
  Qed.

  Lemma try_same strict j at_ tx ks ks' nss ids : item_ok W j = true -> Forall2 kid_same ks ks' ->
    let f V kk := try_nsids (fun ns => get_kwarg V strict j at_ tx kk ns nss) nss ids in
    f W' ks = f W ks' /\ forall v, f W ks' = Ok (Some v) -> of_library W v = true.
  Proof.
    intros Hj H. cbv beta zeta. induction ids as [|id ids IH]; [split; [reflexivity|discriminate]|]. cbn [try_nsids]. destruct (get_kwarg_same strict j at_ tx _ _ (ns_get nss id) nss Hj H) as [-> L].
    destruct (get_kwarg W strict j at_ tx ks' (ns_get nss id) nss) as [[v|]|]; cbn [bind].
    - split; [reflexivity|]. intros w E. injection E as <-. now apply L.
    - exact IH.
    - split; [reflexivity|discriminate].
  Qed.

  Definition kws_lib (kws : list (string * value)) : Prop := Forall (fun kv => of_library W (snd kv) = true) kws.
  Lemma sset_lib a v kws : of_library W v = true -> kws_lib kws -> kws_lib (sset a v kws).
  Proof. intros Hv. induction 1 as [|[k x] kws Hx H IH]; cbn [sset]; [repeat constructor; auto|]. destruct (String.eqb a k); constructor; auto. Qed.
  Lemma kwget_lib kws a : kws_lib kws -> of_library W (kwget kws a) = true.
  Proof. intro H. unfold kwget. destruct (sget a kws) as [x|] eqn:E; [|reflexivity]. unfold kws_lib in H. rewrite Forall_forall in H. exact (H _ (sget_In _ _ _ E)). Qed.

  Lemma get_kwargs_same strict js at_ tx ks ks' nss acc : Forall (fun j => item_ok W j = true) js -> Forall2 kid_same ks ks' -> kws_lib acc ->
    get_kwargs W' strict js at_ tx ks nss acc = get_kwargs W strict js at_ tx ks' nss acc /\
    forall kws, get_kwargs W strict js at_ tx ks' nss acc = Ok kws -> kws_lib kws.
  Proof.
    intros Hj H. revert acc. induction Hj as [|j js Hj _ IH]; intros acc Ha; cbn [get_kwargs].
    - split; [reflexivity|]. intros kws E. now injection E as <-.
    - destruct (try_same strict j at_ tx _ _ nss (it_nsids j) Hj H) as [E L]. cbv beta zeta in E, L. rewrite E. clear E. revert L. destruct (try_nsids (fun ns => get_kwarg W strict j at_ tx ks' ns nss) nss (it_nsids j)) as [[v|]|]; cbn [bind]; intro L.
      + apply IH. apply sset_lib; auto.
      + now apply IH.
      + split; [reflexivity|discriminate].
  Qed.

  Lemma filter_true_same l : forallb (of_library W) l = true -> filter_true W' l = filter_true W l.
  Proof. induction l as [|x l IH]; [reflexivity|]. cbn [forallb filter_true]. intro K. apply andb_prop in K as [K1 K2]. now rewrite py_bool_other, IH. Qed.
  Lemma filter_true_lib l r : forallb (of_library W) l = true -> filter_true W l = Ok r -> forallb (of_library W) r = true.
  Proof.
    revert r. induction l as [|x l IH]; intros r K E; cbn [filter_true] in E; [now injection E as <-|]. cbn [forallb] in K. apply andb_prop in K as [K1 K2]. apply bind_ok in E as [b [_ E]]. apply bind_ok in E as [r' [Er E]]. injection E as <-.
    destruct b; [cbn [forallb]; rewrite K1|]; now apply IH.
  Qed.

  Lemma clean_lib v w : clean_string v = Ok w -> of_library W w = true.
  Proof. destruct v; try discriminate; cbn [clean_string]; [intro E; now injection E as <-|]. destruct (uempty s); [intro E; now injection E as <-|]. cbv zeta. destruct (uempty _); intro E; now injection E as <-. Qed.

  Lemma mk_attr_same kws ak : kws_lib kws -> mk_attr W' kws ak = mk_attr W kws ak /\ forall ax, mk_attr W kws ak = Ok ax -> of_library W (snd ax) = true.
  Proof.
    intro H. destruct ak as [a k]. unfold mk_attr. assert (Hv := kwget_lib kws a H). rewrite (py_bool_other _ Hv).
    destruct k; (split; [try reflexivity|intros ax E; apply bind_ok in E as [r [Er E]]; injection E as <-; cbn [snd]]).
    - now injection Er as <-.
    - now apply clean_lib in Er.
    - apply bind_ok in Er as [[|] [_ Er]]; [now apply clean_lib in Er|discriminate].
    - apply bind_ok in Er as [[|] [_ Er]]; now injection Er as <-.
    - apply bind_ok in Er as [[|] [_ Er]]; now injection Er as <-.
    - destruct (kwget kws a); try discriminate Er; now injection Er as <-.
    - destruct (kwget kws a); try discriminate Er; now injection Er as <-.
    - destruct (kwget kws a); try reflexivity. now rewrite filter_true_same.
    - destruct (kwget kws a); try discriminate Er; [now injection Er as <-|]. apply bind_ok in Er as [r' [Er' Er]]. injection Er as <-. now apply filter_true_lib in Er'.
    - apply bind_ok in Er as [[|] [_ Er]]; now injection Er as <-.
    - unfold build_track in Er. apply bind_ok in Er as [i [_ Er]]. apply bind_ok in Er as [ws [_ Er]]. apply bind_ok in Er as [cs [_ Er]]. apply bind_ok in Er as [an [_ Er]].
      destruct (_ && negb (nilb i)); [discriminate|]. destruct (_ && _); [|now injection Er as <-]. apply bind_ok in Er as [l [_ Er]]. now injection Er as <-.
  Qed.

  Lemma map_attr_lib kws l r : kws_lib kws -> map_res (mk_attr W kws) l = Ok r -> kws_lib r.
  Proof.
    intro H. revert r. induction l as [|x l IH]; intros r E; cbn [map_res] in E; [injection E as <-; constructor|]. apply bind_ok in E as [y [Ey E]]. apply bind_ok in E as [ys [Eys E]]. injection E as <-. constructor; [|now apply IH].
    exact (proj2 (mk_attr_same kws x H) _ Ey).
  Qed.

  Lemma construct_same k ns nss kws : known_class W k = true -> kws_lib kws ->
    construct W' k ns nss kws = construct W k ns nss kws /\ forall v, construct W k ns nss kws = Ok v -> of_library W v = true.
  Proof.
    intros K H. unfold construct. rewrite class_other by now apply known_other. destruct (class_of W k) as [ck|] eqn:Hc; [|split; [reflexivity|discriminate]].
    rewrite !(map_res_ext_in (mk_attr W' kws) (mk_attr W kws)) by (intros; now apply mk_attr_same). destruct (_ && _); [split; [reflexivity|discriminate]|]. split; [reflexivity|].
    intros v E. apply bind_ok in E as [pre [Ep E]]. apply bind_ok in E as [post [Eq E]]. injection E as <-. unfold of_library. cbn [vall]. rewrite K. cbn [andb].
    rewrite !forallb_app. assert (L : forall l, kws_lib l -> forallb (fun av : string * value => let (_, x) := av in vall (fun c0 _ _ _ => known_class W c0) x) l = true).
    { intros l Hl. apply forallb_forall. intros [a x] Hx. unfold kws_lib in Hl. rewrite Forall_forall in Hl. exact (Hl _ Hx). }
    rewrite (L _ (map_attr_lib _ _ _ H Ep)), (L _ (map_attr_lib _ _ _ H Eq)). rewrite L; [reflexivity|]. unfold extras_of, kws_lib in *. rewrite Forall_forall in *. intros x Hx. apply filter_In in Hx as [Hx _]. auto.
  Qed.

  Theorem read_other strict : forall e k ns nss, known_class W k = true ->
    from_element W' strict e k ns nss = from_element W strict e k ns nss /\ forall v, from_element W strict e k ns nss = Ok v -> of_library W v = true.
  Proof.
    fix IH 1. intros [t a x ks] k ns nss K. cbn [from_element]. unfold read_with.
    assert (H : Forall2 kid_same (map (fun e => (e, from_element W' strict e)) ks) (map (fun e => (e, from_element W strict e)) ks)).
    { clear - IH. induction ks as [|e ks IHk]; [constructor|]. cbn [map]. constructor; [|exact IHk]. split; [reflexivity|]. exact (IH e). }
    rewrite items_other by now apply known_other.
    assert (Hj : Forall (fun j => item_ok W j = true) (items_of W k)).
    { unfold known_class in K. destruct (class_of W k) as [ck|] eqn:Hc; [|discriminate]. apply Forall_forall. intros j Hi. exact (cf_items _ _ _ (world_class _ _ _ HW Hc) j Hi). }
    destruct (get_kwargs_same strict _ a x _ _ (merge_ns nss) [] Hj H (Forall_nil _)) as [-> L]. destruct (get_kwargs W strict (items_of W k) a x _ (merge_ns nss) []) as [kws|]; cbn [bind]; [|split; [reflexivity|discriminate]].
    apply construct_same; auto.
  Qed.

  (** ** The tables stay well-formed *)

  Lemma tag_same k : known_class W k = true -> tag_of W' k = tag_of W k.
  Proof. intro K. unfold tag_of. now rewrite class_other by now apply known_other. Qed.

  Lemma known_still k : known_class W k = true -> known_class W' k = true.
  Proof. intro K. unfold known_class in *. now rewrite class_other by now apply known_other. Qed.

  Lemma names_same j : item_ok W j = true -> item_names W' j = item_names W j.
  Proof.
    intro Hj. unfold item_ok in Hj. rewrite !andb_true_iff in Hj. destruct Hj as [_ Cl]. unfold classes_ok in Cl. unfold item_names. destruct (it_set j); try reflexivity; apply andb_prop in Cl as [Cl _]; rewrite forallb_forall in Cl; apply map_ext_in; intros k Hk; now apply tag_same, Cl.
  Qed.

  Lemma item_ok_same j : item_ok W j = true -> item_ok W' j = true.
  Proof.
    intro Hj. assert (E := names_same j Hj). unfold item_ok in *. rewrite E. rewrite !andb_true_iff in *. destruct Hj as [H Cl]. split; [exact H|]. unfold classes_ok in *. destruct (it_set j); try exact Cl; apply andb_prop in Cl as [Cl Q]; rewrite Q, andb_true_r; apply forallb_forall; rewrite forallb_forall in Cl; intros k Hk; now apply known_still, Cl.
  Qed.

  Lemma class_ok_same k ck : class_of W k = Some ck -> class_ok W ck (items_of W k) = true -> class_ok W' ck (items_of W' k) = true.
  Proof.
    intros Hc H. assert (N : k <> c) by (apply known_other; unfold known_class; now rewrite Hc). rewrite (items_other k N). unfold class_ok in *. rewrite !andb_true_iff in *. destruct H as [[[[[[[[[[[H1 H2] H3] H4] H5] H6] H7] H8] H9] H10] H11] H12]. rewrite forallb_forall in H2. repeat split; try assumption.
    - apply forallb_forall. intros j Hj. now apply item_ok_same, H2.
    - rewrite (map_ext_in (item_names W') (item_names W)); [exact H3|]. intros j Hj. now apply names_same, H2.
    - rewrite forallb_forall in H10 |- *. intros ak Hak. specialize (H10 ak Hak). apply andb_prop in H10 as [A B]. rewrite A. cbn [andb]. unfold filter_ok in *. destruct (snd ak); try exact B. destruct (find_item (fst ak) (items_of W k)) as [j|]; [|exact B].
      rewrite forallb_forall in B |- *. intros k' Hk'. specialize (B k' Hk'). destruct (class_of W k') as [ck'|] eqn:Hc'; [|discriminate]. assert (N' : k' <> c) by (apply known_other; unfold known_class; now rewrite Hc'). rewrite class_other, Hc', items_other by exact N'. exact B.
  Qed.

  Lemma in_classes k ck : In (k, ck) (w_classes W) -> class_of W k = Some ck.
  Proof. intro H. unfold class_of. apply sget_NoDup; [|exact H]. apply nodups_NoDup. unfold mros_ok in HM. now apply andb_prop in HM. Qed.

  Theorem world_ok_new : world_ok W' = true.
  Proof.
    unfold world_ok. cbn [add_class w_classes]. rewrite forallb_app. apply andb_true_intro. split.
    - apply forallb_forall. intros [k ck] Hin. cbn [fst snd]. apply class_ok_same; [now apply in_classes|]. unfold world_ok in HW. rewrite forallb_forall in HW. exact (HW _ Hin).
    - cbn [forallb fst snd]. destruct new_facts as [_ [_ [_ [H _]]]]. now rewrite H.
  Qed.

  Lemma nsid_same k : known_class W k = true -> nsid_of W' k = nsid_of W k.
  Proof. intro K. unfold nsid_of. now rewrite class_other by now apply known_other. Qed.

  Lemma ids_same n j : item_ok W j = true -> item_ids_ok W n j = true -> item_ids_ok W' n j = true.
  Proof.
    intros Hj H. unfold item_ok in Hj. rewrite !andb_true_iff in Hj. destruct Hj as [_ Cl]. unfold classes_ok in Cl. unfold item_ids_ok in *. destruct (it_set j); try exact H; apply andb_prop in Cl as [Cl _]; rewrite forallb_forall in Cl, H |- *; intros k Hk; rewrite nsid_same by (now apply Cl); now apply H.
  Qed.

  Theorem world_ids_new : world_ids_ok W = true -> world_ids_ok W' = true.
  Proof.
    intro H. unfold world_ids_ok in *. cbn [add_class w_classes]. rewrite forallb_app. apply andb_true_intro. split.
    - rewrite forallb_forall in H |- *. intros [k ck] Hin. specialize (H _ Hin). cbn [fst snd] in *. assert (Hc := in_classes _ _ Hin). assert (N : k <> c) by (apply known_other; unfold known_class; now rewrite Hc). rewrite (items_other k N). rewrite forallb_forall in H |- *. intros j Hj.
      apply ids_same; [|now apply H]. exact (cf_items _ _ _ (world_class _ _ _ HW Hc) j Hj).
    - cbn [forallb fst snd]. destruct new_facts as [_ [_ [_ [_ Hi]]]]. now rewrite Hi.
  Qed.

  Theorem mros_ok_new : mros_ok W' = true.
  Proof.
    destruct new_facts as [Nw [_ [Nd _]]]. assert (M := HM). unfold mros_ok in M |- *. apply andb_prop in M as [M1 M2]. cbn [add_class w_classes]. rewrite map_app, forallb_app, M2. cbn [map fst forallb snd].
    apply andb_true_intro. split; [|cbn [andb]; rewrite andb_true_r; now apply nodups_NoDup]. apply nodups_NoDup. apply nodups_NoDup in M1. replace (map fst (w_classes W) ++ [c]) with (map fst (w_classes W) ++ [c] ++ []) by now rewrite app_nil_r.
    apply NoDup_insert; [now rewrite app_nil_r|repeat constructor; auto|]. intros x [<-|[]]. rewrite app_nil_r. intro Hin. apply in_map_iff in Hin as [[k ck] [E Hin]]. cbn [fst] in E. subst k. rewrite (in_classes _ _ Hin) in Nw. discriminate.
  Qed.
End New.

Lemma fastkml_mros arrow : mros_ok (fastkml arrow) = true.
Proof. vm_compute. reflexivity. Qed.

Lemma reached_ok arrow W : reached arrow W -> world_ok W = true /\ world_ids_ok W = true /\ mros_ok W = true.
Proof.
  induction 1 as [|W d it _ [H1 [H2 H3]] Hf|W c ci its _ [H1 [H2 H3]] Hn].
  - exact (conj (fastkml_ok arrow) (conj (fastkml_ids arrow) (fastkml_mros arrow))).
  - split; [now apply world_ok_ext|]. split; [now apply world_ids_ext|exact H3].
  - split; [now apply world_ok_new|]. split; [now apply world_ids_new|now apply mros_ok_new].
Qed.

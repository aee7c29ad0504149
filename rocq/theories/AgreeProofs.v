(** * The reader depends only on what it looks at. *)
From Coq Require Import String List NArith ZArith Bool Lia.
From Verif Require Import Ustr UstrProofs Res Elem Value Geom Codec Spec EmitProofs CodecProofs ReadProofs RoundTrip NsProofs Agree.
Import ListNotations.

Definition k_leaf (tag : ustr) (ks : list rkid) : option ustr :=
  match find_kids tag ks with k :: _ => stripped (e_text (fst k)) | [] => None end.

Lemma k_leaf_find tag ks : (match find_kid tag ks with Some k => stripped (e_text (fst k)) | None => None end) = k_leaf tag ks.
Proof. rewrite find_kid_hd. unfold k_leaf. now destruct (find_kids tag ks). Qed.

Lemma map_res_Forall2_eq {A B C} (f : A -> res C) (g : B -> res C) l r :
  Forall2 (fun a b => f a = g b) l r -> map_res f l = map_res g r.
Proof. induction 1 as [|a b l r H _ IH]; [reflexivity|]. cbn. now rewrite H, IH. Qed.

Lemma read_obj_cong W ks ks' ns nss cs :
  (forall c, In c cs -> opt_rel (fun k k' : rkid => snd k c ns nss = snd k' c ns nss) (find_kid (ns ++ u (tag_of W c)) ks) (find_kid (ns ++ u (tag_of W c)) ks')) ->
  read_obj W ks ns nss cs = read_obj W ks' ns nss cs.
Proof.
  induction cs as [|c cs IH]; intro H; [reflexivity|]. cbn [read_obj]. destruct (class_tag W c) as [tag|e] eqn:E; [|reflexivity]. cbn [bind].
  apply class_tag_of in E. subst tag. assert (Hc := H c (or_introl eq_refl)).
  destruct (find_kid (ns ++ u (tag_of W c)) ks) as [k|], (find_kid (ns ++ u (tag_of W c)) ks') as [k'|]; inversion Hc as [|? ? E]; subst.
  - now rewrite E.
  - apply IH. intros. apply H. now right.
Qed.

Lemma read_objs_cong W ks ks' ns nss cs :
  (forall c, In c cs -> Forall2 (fun k k' : rkid => snd k c ns nss = snd k' c ns nss) (find_kids (ns ++ u (tag_of W c)) ks) (find_kids (ns ++ u (tag_of W c)) ks')) ->
  read_objs W ks ns nss cs = read_objs W ks' ns nss cs.
Proof.
  intro H. unfold read_objs. f_equal. apply map_res_ext_in. intros c Hc. destruct (class_tag W c) as [tag|e] eqn:E; [|reflexivity]. cbn [bind].
  apply class_tag_of in E. subst tag. apply map_res_Forall2_eq. now apply H.
Qed.

Lemma read_coord_alike strict (k k' : rkid) : texts_alike GCoordList (e_text (fst k)) (e_text (fst k')) -> read_coord strict k = read_coord strict k'.
Proof.
  unfold texts_alike, read_coord. destruct (e_text (fst k)), (e_text (fst k')); try tauto. intros [-> ->]. reflexivity.
Qed.

Lemma get_kwarg_cong W strict it a a' x x' ks ks' ns nss :
  match it_get it with
  | GNodeText | GCoords => texts_alike (it_get it) x x'
  | GAttrText | GAttrInt | GAttrFloat | GAttrEnum => uget (ns ++ u (it_node it)) a = uget (ns ++ u (it_node it)) a'
  | GText | GBool | GInt | GFloat | GEnum | GDate => k_leaf (ns ++ u (it_node it)) ks = k_leaf (ns ++ u (it_node it)) ks'
  | GDates | GCoordList =>
      Forall2 (fun k k' => texts_alike (it_get it) (e_text (fst k)) (e_text (fst k'))) (find_kids (ns ++ u (it_node it)) ks) (find_kids (ns ++ u (it_node it)) ks')
  | GObj => forall c, In c (it_classes it) -> opt_rel (fun k k' : rkid => snd k c ns nss = snd k' c ns nss) (find_kid (ns ++ u (tag_of W c)) ks) (find_kid (ns ++ u (tag_of W c)) ks')
  | GObjs => forall c, In c (it_classes it) -> Forall2 (fun k k' : rkid => snd k c ns nss = snd k' c ns nss) (find_kids (ns ++ u (tag_of W c)) ks) (find_kids (ns ++ u (tag_of W c)) ks')
  end ->
  get_kwarg W strict it a x ks ns nss = get_kwarg W strict it a' x' ks' ns nss.
Proof.
  unfold get_kwarg. rewrite !k_leaf_find. destruct (it_get it); intro H; try (rewrite H; reflexivity).
  - rewrite (map_res_Forall2_eq (read_date W strict) (read_date W strict) (find_kids (ns ++ u (it_node it)) ks) (find_kids (ns ++ u (it_node it)) ks')); [reflexivity|].
    eapply Forall2_weaken; [|exact H]. cbn. intros k k' E. unfold read_date. now rewrite E.
  - rewrite (map_res_Forall2_eq (read_coord strict) (read_coord strict) (find_kids (ns ++ u (it_node it)) ks) (find_kids (ns ++ u (it_node it)) ks')); [reflexivity|].
    eapply Forall2_weaken; [|exact H]. intros k k' E. now apply read_coord_alike.
  - cbn in H. destruct x as [s|], x' as [s'|]; try tauto. unfold parse_coordinates. now rewrite H.
  - now apply read_obj_cong.
  - now rewrite (read_objs_cong W ks ks').
Qed.

Lemma get_kwargs_cong W strict its a a' x x' ks ks' nss acc :
  (forall it id, In it its -> In id (it_nsids it) ->
     get_kwarg W strict it a x ks (ns_get nss id) nss = get_kwarg W strict it a' x' ks' (ns_get nss id) nss) ->
  get_kwargs W strict its a x ks nss acc = get_kwargs W strict its a' x' ks' nss acc.
Proof. apply get_kwargs_ext. Qed.

Notation kid_reader W strict := (fun k => (k, from_element W strict k)).

Lemma find_kids_with W strict tag ks : find_kids tag (map (kid_reader W strict) ks) = map (kid_reader W strict) (with_tag tag ks).
Proof. exact (find_kids_rk W strict tag ks). Qed.

Lemma k_leaf_with W strict tag ks : k_leaf tag (map (kid_reader W strict) ks) = leaf_text tag ks.
Proof. unfold k_leaf, leaf_text. rewrite find_kids_with. now destruct (with_tag tag ks). Qed.

Lemma find_kid_with W strict tag ks : find_kid tag (map (kid_reader W strict) ks) = option_map (kid_reader W strict) (hd_error (with_tag tag ks)).
Proof. rewrite find_kid_hd, find_kids_with. now destruct (with_tag tag ks). Qed.

Lemma Forall2_map {A B C D} (f : A -> C) (g : B -> D) (R : C -> D -> Prop) l r :
  Forall2 (fun a b => R (f a) (g b)) l r -> Forall2 R (map f l) (map g r).
Proof. induction 1; constructor; auto. Qed.

Lemma Forall2_in {A B} (R S : A -> B -> Prop) l r : Forall2 R l r -> (forall a b, In a l -> R a b -> S a b) -> Forall2 S l r.
Proof.
  induction 1 as [|a b l r H _ IH]; intro HS; constructor; [apply HS; [now left|exact H]|]. apply IH. intros. apply HS; [now right|assumption].
Qed.

Theorem agree_read W strict e : forall e' c ns nss, agree W (merge_ns nss) c e e' ->
  from_element W strict e c ns nss = from_element W strict e' c ns nss.
Proof.
  induction e as [t a x ks IH] using elem_ind'. intros e' c ns nss H. inversion H as [c0 t0 t' a0 a' x0 x' ks0 ks' H1 H2 H3]; subst.
  cbn [from_element]. unfold read_with. cbv zeta. f_equal. apply get_kwargs_cong. intros it id Hi Hid. apply get_kwarg_cong.
  specialize (H1 it id Hi Hid). specialize (fun c' => H2 it id c' Hi Hid). specialize (fun c' => H3 it id c' Hi Hid).
  rewrite !k_leaf_with, !find_kids_with. rewrite Forall_forall in IH.
  assert (Hm : merge_ns (merge_ns nss) = merge_ns nss) by apply merge_ns_idem.
  destruct (it_get it); try exact H1; try (apply Forall2_map; exact H1).
  - intros c' Hc'. specialize (H2 c' eq_refl Hc'). rewrite !find_kid_with. inversion H2 as [E1 E2|k k' E E1 E2]; cbn [option_map]; constructor.
    cbn [snd]. apply IH; [|now rewrite Hm]. assert (Hk : In k (with_tag (ns_get (merge_ns nss) id ++ u (tag_of W c')) ks)).
    { destruct (with_tag (ns_get (merge_ns nss) id ++ u (tag_of W c')) ks); [discriminate|]. injection E1 as ->. now left. }
    now apply filter_In in Hk.
  - intros c' Hc'. specialize (H3 c' eq_refl Hc'). rewrite !find_kids_with. apply Forall2_map. cbn [snd]. eapply Forall2_in; [exact H3|].
    intros k k' Hk Hkk. apply filter_In in Hk as [Hk _]. apply IH; [exact Hk|now rewrite Hm].
Qed.

(** Elements with the same sequences of children per tag are read the same. *)
Lemma same_children W strict c ns nss t t' a x ks ks' :
  (forall tag, with_tag tag ks = with_tag tag ks') ->
  from_element W strict (Elem t a x ks) c ns nss = from_element W strict (Elem t' a x ks') c ns nss.
Proof.
  intro H. cbn [from_element]. unfold read_with. cbv zeta. f_equal. apply get_kwargs_ext. intros it id Hi Hid. apply get_kwarg_ext; auto.
  intros n Hn. rewrite !find_kids_with. now rewrite H.
Qed.

(** A tag (an XML attribute) that no item of the class looks for. *)
Definition foreign_tag (W : world) (nss : nss_t) (c : string) (tag : ustr) : Prop :=
  forall it id n, In it (items_of W c) -> In id (it_nsids it) -> In n (get_names W it) -> tag <> ns_get nss id ++ u n.
Definition foreign_attr (W : world) (nss : nss_t) (c : string) (key : ustr) : Prop :=
  forall it id n, In it (items_of W c) -> In id (it_nsids it) -> In n (get_attrs it) -> key <> ns_get nss id ++ u n.

Lemma with_tag_app tag l r : with_tag tag (l ++ r) = with_tag tag l ++ with_tag tag r.
Proof. unfold with_tag. apply filter_app. Qed.

Lemma foreign_child W strict c ns nss t a x ks1 k ks2 : foreign_tag W (merge_ns nss) c (e_tag k) ->
  from_element W strict (Elem t a x (ks1 ++ k :: ks2)) c ns nss = from_element W strict (Elem t a x (ks1 ++ ks2)) c ns nss.
Proof.
  intro H. cbn [from_element]. unfold read_with. cbv zeta. f_equal. apply get_kwargs_ext. intros it id Hi Hid. apply get_kwarg_ext; auto.
  intros n Hn. rewrite !find_kids_with, !with_tag_app. cbn [with_tag filter]. fold (with_tag (ns_get (merge_ns nss) id ++ u n) ks2). 
  destruct (ueqb_spec (e_tag k) (ns_get (merge_ns nss) id ++ u n)) as [E|]; [exfalso; exact (H it id n Hi Hid Hn E)|reflexivity].
Qed.

Lemma uget_app {A} k (l r : list (ustr * A)) : uget k (l ++ r) = match uget k l with Some v => Some v | None => uget k r end.
Proof. induction l as [|[k' v] l IH]; [reflexivity|]. cbn. destruct (ueqb k k'); [reflexivity|exact IH]. Qed.

Lemma foreign_attribute W strict c ns nss t a1 key val a2 x ks : foreign_attr W (merge_ns nss) c key ->
  from_element W strict (Elem t (a1 ++ (key, val) :: a2) x ks) c ns nss = from_element W strict (Elem t (a1 ++ a2) x ks) c ns nss.
Proof.
  intro H. cbn [from_element]. unfold read_with. cbv zeta. f_equal. apply get_kwargs_ext. intros it id Hi Hid. apply get_kwarg_ext; auto.
  intros n Hn. rewrite !uget_app. cbn [uget]. destruct (ueqb_spec (ns_get (merge_ns nss) id ++ u n) key) as [E|]; [|reflexivity]. exfalso. exact (H it id n Hi Hid Hn (eq_sym E)).
Qed.

(** Replacing a child by one that is read the same. *)
Lemma child_context W strict c ns nss t a x ks1 k k' ks2 :
  e_tag k = e_tag k' -> e_text k = e_text k' -> (forall c' ns', from_element W strict k c' ns' (merge_ns nss) = from_element W strict k' c' ns' (merge_ns nss)) ->
  from_element W strict (Elem t a x (ks1 ++ k :: ks2)) c ns nss = from_element W strict (Elem t a x (ks1 ++ k' :: ks2)) c ns nss.
Proof.
  intros Et Ex Er. cbn [from_element]. unfold read_with. cbv zeta. f_equal.
  assert (F : forall tag (P : elem -> elem -> Prop), (forall y, P y y) -> P k k' ->
     Forall2 P (with_tag tag (ks1 ++ k :: ks2)) (with_tag tag (ks1 ++ k' :: ks2))).
  { intros tag P Pr Pk. rewrite !with_tag_app. assert (Rf : forall l, Forall2 P l l) by (induction l; constructor; auto).
    apply Forall2_app; [apply Rf|]. cbn [with_tag filter]. rewrite <- Et. destruct (ueqb (e_tag k) tag); [constructor; [exact Pk|apply Rf]|apply Rf]. }
  apply get_kwargs_cong. intros it id Hi Hid. apply get_kwarg_cong. rewrite !k_leaf_with, !find_kids_with.
  set (n0 := ns_get (merge_ns nss) id).
  destruct (it_get it) eqn:G; try reflexivity; try (cbn [texts_alike]; destruct x; (exact I || reflexivity)).
  1-6: unfold leaf_text; destruct (F (n0 ++ u (it_node it)) (fun a b => e_text a = e_text b)) as [|b b' l l' E _]; [reflexivity|exact Ex|reflexivity|now rewrite E].
  - apply Forall2_map. cbn [fst texts_alike]. now apply (F _ (fun a b => e_text a = e_text b)).
  - apply Forall2_map. cbn [fst]. apply (F _ (fun a b => texts_alike GCoordList (e_text a) (e_text b))).
    + intro y. cbn. destruct (e_text y); auto.
    + rewrite Ex. cbn. destruct (e_text k'); auto.
  - intros c' _. rewrite !find_kid_with. destruct (F (n0 ++ u (tag_of W c')) (fun a b => forall c' ns', from_element W strict a c' ns' (merge_ns nss) = from_element W strict b c' ns' (merge_ns nss))) as [|b b' l l' E _]; auto; cbn [hd_error option_map]; constructor. apply E.
  - intros c' _. rewrite !find_kids_with. apply Forall2_map. cbn [snd]. now apply (F _ (fun a b => from_element W strict a c' n0 (merge_ns nss) = from_element W strict b c' n0 (merge_ns nss))).
Qed.

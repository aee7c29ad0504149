(** * The reader does not depend on the URIs of name spaces. *)
From Coq Require Import String List NArith ZArith Bool Lia.
From Verif Require Import Ustr UstrProofs Res PyInt PyFloat PyDate Elem Value Geom Codec Spec EmitProofs CodecProofs ReadProofs RoundTrip NsProofs SettledProofs ReaderTyped Agree AgreeProofs Erase EraseProofs TotalProofs NsChange.
Import ListNotations.

Lemma same_refl v : same_data v v.
Proof. reflexivity. Qed.

Lemma kwarg_refl r : kwarg_rel r r.
Proof. destruct r as [[v|]|]; constructor; constructor; apply same_refl. Qed.

Lemma read_obj_alike W ks ks' n n' nss nss' cs :
  (forall c, In c cs -> opt_rel (fun k k' : rkid => res_rel same_data (snd k c n nss) (snd k' c n' nss')) (find_kid (n ++ u (tag_of W c)) ks) (find_kid (n' ++ u (tag_of W c)) ks')) ->
  kwarg_rel (read_obj W ks n nss cs) (read_obj W ks' n' nss' cs).
Proof.
  induction cs as [|c cs IH]; intro H; [apply kwarg_refl|]. cbn [read_obj]. destruct (class_tag W c) as [tag|e] eqn:E; [|constructor]. cbn [bind].
  apply class_tag_of in E. subst tag. destruct (H c (or_introl eq_refl)) as [|k k' E]; [apply IH; intros; apply H; now right|].
  destruct E; cbn [bind]; constructor. now constructor.
Qed.

Lemma map_res_alike {A B} (f : A -> res value) (g : B -> res value) l r :
  Forall2 (fun a b => res_rel same_data (f a) (g b)) l r -> res_rel (Forall2 same_data) (map_res f l) (map_res g r).
Proof.
  induction 1 as [|a b l r H _ IH]; [constructor; constructor|]. cbn. destruct H; cbn; [|constructor]. destruct IH; cbn; constructor. now constructor.
Qed.

Lemma read_objs_alike W ks ks' n n' nss nss' cs :
  (forall c, In c cs -> Forall2 (fun k k' : rkid => res_rel same_data (snd k c n nss) (snd k' c n' nss')) (find_kids (n ++ u (tag_of W c)) ks) (find_kids (n' ++ u (tag_of W c)) ks')) ->
  res_rel (Forall2 same_data) (read_objs W ks n nss cs) (read_objs W ks' n' nss' cs).
Proof.
  intro H. unfold read_objs.
  assert (G : res_rel (Forall2 (Forall2 same_data))
    (map_res (fun c => let! tag := class_tag W c in map_res (fun k : rkid => snd k c n nss) (find_kids (n ++ tag) ks)) cs)
    (map_res (fun c => let! tag := class_tag W c in map_res (fun k : rkid => snd k c n' nss') (find_kids (n' ++ tag) ks')) cs)).
  { induction cs as [|c cs IH]; [constructor; constructor|]. cbn [map_res].
    destruct (class_tag W c) as [tag|e] eqn:E; [|constructor]. cbn [bind]. apply class_tag_of in E. subst tag.
    destruct (map_res_alike _ _ _ _ (H c (or_introl eq_refl))) as [l l' Hl|]; [|constructor]. cbn [bind].
    destruct IH; [intros; apply H; now right| |]; cbn [bind]; constructor. now constructor. }
  destruct G as [l l' Hl|]; cbn [bind]; constructor. induction Hl as [|x y l l' Hx _ IH]; [constructor|]. cbn. now apply Forall2_app.
Qed.

Lemma list_same l l' : Forall2 same_data l l' -> same_data (VList l) (VList l').
Proof. intro H. unfold same_data. cbn. f_equal. induction H as [|x y l l' Hx _ IH]; [reflexivity|]. cbn. now rewrite Hx, IH. Qed.

Lemma get_kwarg_alike W strict it a a' x ks ks' n n' nss nss' :
  match it_get it with
  | GNodeText | GCoords => True
  | GAttrText | GAttrInt | GAttrFloat | GAttrEnum => uget (n ++ u (it_node it)) a = uget (n' ++ u (it_node it)) a'
  | GText | GBool | GInt | GFloat | GEnum | GDate => k_leaf (n ++ u (it_node it)) ks = k_leaf (n' ++ u (it_node it)) ks'
  | GDates | GCoordList =>
      Forall2 (fun k k' : rkid => e_text (fst k) = e_text (fst k')) (find_kids (n ++ u (it_node it)) ks) (find_kids (n' ++ u (it_node it)) ks')
  | GObj => forall c, In c (it_classes it) -> opt_rel (fun k k' : rkid => res_rel same_data (snd k c n nss) (snd k' c n' nss')) (find_kid (n ++ u (tag_of W c)) ks) (find_kid (n' ++ u (tag_of W c)) ks')
  | GObjs => forall c, In c (it_classes it) -> Forall2 (fun k k' : rkid => res_rel same_data (snd k c n nss) (snd k' c n' nss')) (find_kids (n ++ u (tag_of W c)) ks) (find_kids (n' ++ u (tag_of W c)) ks')
  end ->
  kwarg_rel (get_kwarg W strict it a x ks n nss) (get_kwarg W strict it a' x ks' n' nss').
Proof.
  unfold get_kwarg. cbv zeta. rewrite !k_leaf_find. destruct (it_get it); intro H; try (rewrite H; apply kwarg_refl); try apply kwarg_refl.
  - rewrite (map_res_Forall2_eq (read_date W strict) (read_date W strict) (find_kids (n ++ u (it_node it)) ks) (find_kids (n' ++ u (it_node it)) ks')); [apply kwarg_refl|].
    eapply Forall2_weaken; [|exact H]. cbn. intros k k' E. unfold read_date. now rewrite E.
  - rewrite (map_res_Forall2_eq (read_coord strict) (read_coord strict) (find_kids (n ++ u (it_node it)) ks) (find_kids (n' ++ u (it_node it)) ks')); [apply kwarg_refl|].
    eapply Forall2_weaken; [|exact H]. intros k k' E. unfold read_coord. now rewrite E.
  - now apply read_obj_alike.
  - destruct (read_objs_alike W ks ks' n n' nss nss' (it_classes it) H); cbn [bind]; constructor. constructor. now apply list_same.
Qed.

Lemma try_alike f g nss nss' ids : (forall id, In id ids -> kwarg_rel (f (ns_get nss id)) (g (ns_get nss' id))) ->
  kwarg_rel (try_nsids f nss ids) (try_nsids g nss' ids).
Proof.
  induction ids as [|id ids IH]; intro H; [apply kwarg_refl|]. cbn [try_nsids].
  destruct (H id (or_introl eq_refl)) as [o o' Ho|]; [|constructor]. cbn [bind]. destruct Ho as [|v v' Hv]; [apply IH; intros; apply H; now right|].
  constructor. now constructor.
Qed.

(** ** Which children are found *)

Lemma bound_tag m q : e_tag (bound m q) = ns_get m (q_pre q) ++ q_local q.
Proof. now destruct q. Qed.
Lemma bound_text m q : e_text (bound m q) = q_text q.
Proof. now destruct q. Qed.

Definition good_map (m : nss_t) : Prop := forallb (fun kv : string * ustr => good_ns (snd kv)) m = true.

Lemma with_tag_bound m n nm ks : good_map m -> good_ns n = true -> good_name nm = true -> (forall k, In k ks -> plain_names k = true) ->
  with_tag (n ++ nm) (map (bound m) ks) = map (bound m) (filter (fun k => ueqb (ns_get m (q_pre k)) n && ueqb (q_local k) nm) ks).
Proof.
  intros Gm Gn Gnm H. induction ks as [|k ks IH]; [reflexivity|]. cbn [map with_tag filter]. rewrite bound_tag, tag_eqb; auto.
  - fold (with_tag (n ++ nm) (map (bound m) ks)). rewrite IH by (intros; apply H; now right). now destruct (_ && _).
  - now apply ns_get_good.
  - specialize (H k (or_introl eq_refl)). destruct k. cbn in H. now apply andb_prop in H as [[H _]%andb_prop _].
Qed.

Lemma uget_plain (a : list (ustr * ustr)) n nm : good_ns n = true -> good_name nm = true -> forallb (fun kv => good_name (fst kv)) a = true ->
  uget (n ++ nm) a = if uempty n then uget nm a else None.
Proof.
  intros Gn Gm. induction a as [|[k v] a IH]; intro H; [now destruct (uempty n)|]. cbn in H. apply andb_prop in H as [H1 H2]. cbn [uget].
  assert (E : ueqb (n ++ nm) k = ueqb n [] && ueqb nm k) by (apply (tag_eqb n nm [] k); auto).
  rewrite E, IH by exact H2. destruct n; [|reflexivity]. cbn [uempty ueqb andb]. now destruct (ueqb nm k).
Qed.


Lemma item_of_known W c it : world_ok W = true -> In it (items_of W c) ->
  item_ok W it = true /\ forall id, In id (it_nsids it) -> In id (known_prefixes W).
Proof.
  intros HW Hi. unfold items_of in Hi. destruct (class_of W c) as [ci|] eqn:E; [|contradiction].
  assert (Hi' : In it (items_of W c)) by (unfold items_of; now rewrite E).
  split; [exact (cf_items _ _ _ (world_class W c ci HW E) it Hi')|]. intros id Hid. unfold known_prefixes.
  apply in_concat. exists (it_nsids it). split; [|exact Hid]. apply in_map. apply in_concat. exists (items_of W c). split; [|exact Hi'].
  apply in_map_iff. exists (c, ci). split; [reflexivity|]. now apply sget_In.
Qed.

Lemma item_good W it : item_ok W it = true -> good_name (u (it_node it)) = true /\
  (match it_get it with GObj | GObjs => forall c, In c (it_classes it) -> good_name (u (tag_of W c)) = true | _ => True end) /\
  (it_get it = GObjs -> it_nsids it <> []).
Proof.
  unfold item_ok. rewrite !andb_true_iff. intros [[[Hp Hn] _] Hc]. cbn [forallb] in Hn. apply andb_prop in Hn as [H1 H2]. split; [exact H1|].
  unfold classes_ok, item_names in *. split.
  - destruct (it_get it), (it_set it); try discriminate Hp; try exact I; intros c Hin; rewrite forallb_forall in H2; apply H2; now apply in_map.
  - intro G. rewrite G in Hp. destruct (it_set it); try discriminate Hp. apply andb_prop in Hc as [_ Hc]. now destruct (it_nsids it).
Qed.

Lemma ueqb_iff a b c d : (a = b <-> c = d) -> ueqb a b = ueqb c d.
Proof. intro H. destruct (ueqb_spec a b), (ueqb_spec c d); tauto. Qed.

(** Name spaces are only compared: a document is read the same whatever URIs
    its prefixes are bound to, provided the same prefixes are told apart. *)
Theorem uris_irrelevant W strict : world_ok W = true -> forall q c ns ns' nss nss',
  good_map (merge_ns nss) -> good_map (merge_ns nss') -> plain_names q = true ->
  ns_get (merge_ns nss) "" = [] -> ns_get (merge_ns nss') "" = [] ->
  same_distinctions (""%string :: known_prefixes W ++ prefixes q) (merge_ns nss) (merge_ns nss') ->
  res_rel same_data (from_element W strict (bound (merge_ns nss) q) c ns nss) (from_element W strict (bound (merge_ns nss') q) c ns' nss').
Proof.
  intros HW q. induction q as [p nm a x ks IH] using qelem_ind'. intros c ns ns' nss nss' Gm Gm' Hp E0 E0' Hd.
  rewrite Forall_forall in IH. cbn in Hp. apply andb_prop in Hp as [[_ Hpa]%andb_prop Hpk]. rewrite forallb_forall in Hpk.
  cbn [bound from_element]. apply read_alike; [exact HW|]. intros it Hi. destruct (item_of_known W c it HW Hi) as [Hok Hids].
  destruct (item_good W it Hok) as [G1 [G2 _]]. apply try_alike. intros id Hid. apply get_kwarg_alike.
  set (m := merge_ns nss) in *. set (m' := merge_ns nss') in *.
  assert (Gi : good_ns (ns_get m id) = true) by now apply ns_get_good. assert (Gi' : good_ns (ns_get m' id) = true) by now apply ns_get_good.
  assert (K : forall n, good_name n = true -> exists l, (forall k, In k l -> In k ks) /\ with_tag (ns_get m id ++ n) (map (bound m) ks) = map (bound m) l /\
                                    with_tag (ns_get m' id ++ n) (map (bound m') ks) = map (bound m') l).
  { intros n Gn. exists (filter (fun k => ueqb (ns_get m (q_pre k)) (ns_get m id) && ueqb (q_local k) n) ks). split; [|split].
    - intros k Hk. now apply filter_In in Hk.
    - now apply with_tag_bound.
    - rewrite with_tag_bound by auto. f_equal. apply filter_ext_in. intros k Hk. f_equal. apply ueqb_iff.
      assert (Ik : In (q_pre k) (""%string :: known_prefixes W ++ prefixes (QElem p nm a x ks))).
      { right. apply in_or_app. right. cbn [prefixes]. right. apply in_concat. exists (prefixes k). split; [now apply in_map|]. destruct k. now left. }
      assert (Ii : In id (""%string :: known_prefixes W ++ prefixes (QElem p nm a x ks))) by (right; apply in_or_app; left; auto).
      destruct (Hd _ _ Ik Ii). split; auto. }
  assert (L : forall n, good_name n = true -> leaf_text (ns_get m id ++ n) (map (bound m) ks) = leaf_text (ns_get m' id ++ n) (map (bound m') ks)).
  { intros n Gn. unfold leaf_text. destruct (K n Gn) as [l [_ [-> ->]]]. destruct l as [|k l]; [reflexivity|]. cbn [map]. now rewrite !bound_text. }
  assert (A : uget (ns_get m id ++ u (it_node it)) a = uget (ns_get m' id ++ u (it_node it)) a).
  { rewrite !uget_plain by auto. assert (Ii : In id (""%string :: known_prefixes W ++ prefixes (QElem p nm a x ks))) by (right; apply in_or_app; left; auto).
    destruct (Hd id ""%string Ii (or_introl eq_refl)) as [D1 D2]. rewrite E0, E0' in *.
    destruct (ns_get m id) eqn:E, (ns_get m' id) eqn:E'; cbn; try reflexivity; [specialize (D1 eq_refl)|specialize (D2 eq_refl)]; discriminate. }
  assert (R : forall k c', In k ks -> res_rel same_data (from_element W strict (bound m k) c' (ns_get m id) m) (from_element W strict (bound m' k) c' (ns_get m' id) m')).
  { intros k c' Hk. assert (M : merge_ns m = m) by apply merge_ns_idem. assert (M' : merge_ns m' = m') by apply merge_ns_idem.
    specialize (IH k Hk c' (ns_get m id) (ns_get m' id) m m'). rewrite M, M' in IH. apply IH; auto.
    intros p1 p2 H1 H2. apply Hd.
    - destruct H1 as [H1|H1]; [now left|right]. apply in_app_or in H1 as [H1|H1]; apply in_or_app; [now left|right]. cbn [prefixes]. right. apply in_concat. exists (prefixes k). split; [now apply in_map|exact H1].
    - destruct H2 as [H2|H2]; [now left|right]. apply in_app_or in H2 as [H2|H2]; apply in_or_app; [now left|right]. cbn [prefixes]. right. apply in_concat. exists (prefixes k). split; [now apply in_map|exact H2]. }
  rewrite !k_leaf_with, !find_kids_with. destruct (it_get it); try exact I; try exact A; try (now apply L).
  1-2: destruct (K _ G1) as [l [_ [-> ->]]]; rewrite !map_map; apply Forall2_map; cbn [fst]; clear; induction l as [|k l IHl]; constructor; auto; now rewrite !bound_text.
  - intros c' Hc'. rewrite !find_kid_with. destruct (K _ (G2 c' Hc')) as [l [Hl [-> ->]]]. destruct l as [|k l]; cbn [map hd_error option_map]; constructor. cbn [snd]. apply R, Hl. now left.
  - intros c' Hc'. rewrite !find_kids_with. destruct (K _ (G2 c' Hc')) as [l [Hl [-> ->]]]. rewrite !map_map. apply Forall2_map. cbn [snd].
    clear -Hl R. induction l as [|k l IHl]; constructor; [apply R, Hl; now left|]. apply IHl. intros y Hy. apply Hl. now right.
Qed.

(** ** With and without the KML name space *)

Lemma under_local p q : q_local (under p q) = q_local q.
Proof. now destruct q. Qed.
Lemma under_pre p q : q_pre (under p q) = p.
Proof. now destruct q. Qed.
Lemma under_text p q : q_text (under p q) = q_text q.
Proof. now destruct q. Qed.
Lemma under_plain p q : plain_names (under p q) = plain_names q.
Proof.
  induction q as [p' n a x ks IH] using qelem_ind'. cbn. f_equal. rewrite Forall_forall in IH. rewrite forallb_map. apply forallb_ext_in. exact IH.
Qed.

Lemma with_tag_under m p n nm ks : good_map m -> good_ns n = true -> good_name nm = true -> (forall k, In k ks -> plain_names k = true) ->
  with_tag (n ++ nm) (map (bound m) (map (under p) ks)) =
  if ueqb (ns_get m p) n then map (fun k => bound m (under p k)) (filter (fun k => ueqb (q_local k) nm) ks) else [].
Proof.
  intros Gm Gn Gnm H. rewrite with_tag_bound; auto.
  - induction ks as [|k ks IH]; [cbn; now destruct (ueqb _ _)|]. cbn [map filter]. rewrite under_pre, under_local. specialize (IH (fun y Hy => H y (or_intror Hy))).
    destruct (ueqb (ns_get m p) n) eqn:E; cbn [andb]; [destruct (ueqb (q_local k) nm); cbn [map]; now rewrite ?IH|exact IH].
  - intros k Hk. apply in_map_iff in Hk as [k0 [<- Hk]]. rewrite under_plain. now apply H.
Qed.


Lemma try_here f nss ids p r :
  (forall id, In id ids -> f (ns_get nss id) = if ueqb (ns_get nss p) (ns_get nss id) then r else Ok None) -> In p ids ->
  try_nsids f nss ids = r.
Proof.
  induction ids as [|id ids IH]; intros H Hp; [contradiction|]. cbn [try_nsids]. rewrite (H id (or_introl eq_refl)).
  destruct (ueqb_spec (ns_get nss p) (ns_get nss id)) as [E|E].
  - destruct r as [[v|]|]; cbn [bind]; try reflexivity. apply try_nsids_const; [|now right]. intros i Hi. rewrite (H i (or_intror Hi)). now destruct (ueqb _ _).
  - cbn [bind]. apply IH; [intros; apply H; now right|]. destruct Hp as [->|Hp]; [congruence|exact Hp].
Qed.

(** Nothing to be found. *)
Lemma get_kwarg_nothing W strict it a x ks n nss : item_ok W it = true ->
  match it_get it with
  | GText | GBool | GInt | GFloat | GEnum | GDate | GDates | GCoordList => find_kids (n ++ u (it_node it)) ks = []
  | GObj | GObjs => forall c, In c (it_classes it) -> find_kids (n ++ u (tag_of W c)) ks = []
  | _ => False
  end ->
  get_kwarg W strict it a x ks n nss = Ok (match it_get it with GObjs => Some (VList []) | _ => None end).
Proof.
  intros Hok H. assert (Hcl : classes_ok W it = true) by (unfold item_ok in Hok; rewrite !andb_true_iff in Hok; tauto).
  assert (Hpr : paired (it_get it) (it_set it) = true) by (unfold item_ok in Hok; rewrite !andb_true_iff in Hok; tauto).
  unfold get_kwarg. cbv zeta. rewrite k_leaf_find. unfold k_leaf. unfold classes_ok in Hcl.
  assert (Tg : forall c, In c (it_classes it) -> known_class W c = true -> class_tag W c = Ok (u (tag_of W c))).
  { intros c _ Hk. unfold known_class in Hk. unfold class_tag, tag_of. destruct (class_of W c); [reflexivity|discriminate]. }
  destruct (it_get it) eqn:G; try contradiction; try rewrite H; try reflexivity; destruct (it_set it); try discriminate Hpr.
  - destruct (it_classes it) as [|k l]; [discriminate|]. repeat match goal with |- context [match ?s with _ => _ end] => is_var s; destruct s; try discriminate Hcl end. reflexivity.
  - unfold with_enum. destruct (it_classes it) as [|k [|]]; try discriminate Hcl. destruct (sget _ _); [reflexivity|discriminate].
  - apply andb_prop in Hcl as [Hcl _]. rewrite forallb_forall in Hcl. induction (it_classes it) as [|c cs IH]; [reflexivity|]. cbn [read_obj].
    rewrite Tg by (try apply Hcl; now left). cbn [bind]. rewrite find_kid_hd, H by now left. cbn [hd_error]. apply IH; intros; [apply H|apply Hcl|apply Tg]; auto; now right.
  - apply andb_prop in Hcl as [Hcl _]. rewrite forallb_forall in Hcl. unfold read_objs.
    assert (E : map_res (fun c => let! tag := class_tag W c in map_res (fun k : rkid => snd k c n nss) (find_kids (n ++ tag) ks)) (it_classes it) = Ok (map (fun _ => []) (it_classes it))).
    { induction (it_classes it) as [|c cs IH]; [reflexivity|]. cbn [map_res map]. rewrite Tg by (try apply Hcl; now left). cbn [bind]. rewrite H by now left. cbn [map_res bind].
      rewrite IH; [reflexivity|intros; apply H; now right|intros; apply Hcl; now right|intros; apply Tg; auto; now right]. }
    rewrite E. cbn [bind]. do 3 f_equal. clear. induction (it_classes it); [reflexivity|exact IHl].
Qed.

Lemma no_local n ks : has_local n ks = false -> filter (fun k => ueqb (q_local k) n) ks = [].
Proof.
  induction ks as [|k ks IH]; intro H; [reflexivity|]. cbn in *. apply orb_false_iff in H as [-> H]. now apply IH.
Qed.

(** Children are found in the KML name space and without name space alike. *)
Theorem fallback W strict : world_ok W = true -> forall q c ns ns' nss,
  good_map (merge_ns nss) -> plain_names q = true -> fallback_ok W q c = true ->
  res_rel same_data (from_element W strict (bound (merge_ns nss) (under "kml" q)) c ns nss)
                    (from_element W strict (bound (merge_ns nss) (under "" q)) c ns' nss).
Proof.
  intros HW q. induction q as [p nm a x ks IH] using qelem_ind'. intros c ns ns' nss Gm Hp Hf.
  rewrite Forall_forall in IH. cbn in Hp. apply andb_prop in Hp as [[_ Hpa]%andb_prop Hpk]. rewrite forallb_forall in Hpk.
  cbn [fallback_ok] in Hf. rewrite forallb_forall in Hf.
  cbn [under bound from_element]. apply read_alike; [exact HW|]. intros it Hi. destruct (item_of_known W c it HW Hi) as [Hok _].
  destruct (item_good W it Hok) as [G1 [G2 G3]]. specialize (Hf it Hi).
  set (m := merge_ns nss) in *. assert (M : merge_ns m = m) by apply merge_ns_idem.
  assert (Gi : forall id, good_ns (ns_get m id) = true) by (intro; now apply ns_get_good).
  assert (T : forall p' id n, good_name n = true -> with_tag (ns_get m id ++ n) (map (bound m) (map (under p') ks)) =
              if ueqb (ns_get m p') (ns_get m id) then map (fun k => bound m (under p' k)) (filter (fun k => ueqb (q_local k) n) ks) else []).
  { intros. apply with_tag_under; auto. }
  set (F := fun p' n => get_kwarg W strict it a x (map (kid_reader W strict) (map (bound m) (map (under p') ks))) n m).
  change (kwarg_rel (try_nsids (F "kml"%string) m (it_nsids it)) (try_nsids (F ""%string) m (it_nsids it))).
  assert (Both : looks_both it = true -> (forall p' id, ueqb (ns_get m p') (ns_get m id) = false -> F p' (ns_get m id) = Ok None) ->
    kwarg_rel (F "kml"%string (ns_get m "kml")) (F ""%string (ns_get m "")) -> 
    kwarg_rel (try_nsids (F "kml"%string) m (it_nsids it)) (try_nsids (F ""%string) m (it_nsids it))).
  { intros Hb Hn Hr. unfold looks_both in Hb. apply andb_prop in Hb as [B1 B2]. apply mem_In in B1, B2.
    assert (E : forall p', In p' (it_nsids it) -> try_nsids (F p') m (it_nsids it) = F p' (ns_get m p')).
    { intros p' Hin. apply (try_here _ _ _ p'); [|exact Hin]. intros id Hid. destruct (ueqb (ns_get m p') (ns_get m id)) eqn:E; [|now apply Hn].
      apply ueqb_eq in E. now rewrite E. }
    rewrite !E by assumption. exact Hr. }
  assert (None_there : (forall p' id, F p' (ns_get m id) = Ok None) -> kwarg_rel (try_nsids (F "kml"%string) m (it_nsids it)) (try_nsids (F ""%string) m (it_nsids it))).
  { intro H. apply try_alike. intros id _. rewrite !H. apply kwarg_refl. }
  destruct (it_get it) eqn:G.
  1, 3, 6, 8, 10, 14: apply try_alike; intros id Hid; apply get_kwarg_alike; rewrite G; (exact I || reflexivity).
  1-8: assert (Nf : forall p' id, (if ueqb (ns_get m p') (ns_get m id) then filter (fun k => ueqb (q_local k) (u (it_node it))) ks = [] else True) -> F p' (ns_get m id) = Ok None)
        by (intros p' id H; unfold F; rewrite get_kwarg_nothing; rewrite ?G; auto; rewrite find_kids_with, T by exact G1; destruct (ueqb _ _); [now rewrite H|reflexivity]);
       apply orb_prop in Hf as [Hf|Hf]; [|apply None_there; intros p' id; apply Nf; destruct (ueqb _ _); [|exact I]; apply no_local; now apply negb_true_iff in Hf];
       apply Both; [exact Hf|intros p' id E; apply Nf; now rewrite E|]; unfold F; apply get_kwarg_alike; rewrite G, ?k_leaf_with, ?find_kids_with; unfold leaf_text; rewrite !T, !ueqb_refl by exact G1;
       try (destruct (filter _ ks) as [|k l]; [reflexivity|]; cbn [map]; now rewrite !bound_text, !under_text).
  1-2: rewrite !map_map; apply Forall2_map; cbn [fst]; clear; induction (filter _ ks) as [|k l IHl]; constructor; auto; now rewrite !bound_text, !under_text.
  - (* GObj *)
    assert (Nf : forall p' id, (if ueqb (ns_get m p') (ns_get m id) then forall c', In c' (it_classes it) -> filter (fun k => ueqb (q_local k) (u (tag_of W c'))) ks = [] else True) -> F p' (ns_get m id) = Ok None).
    { intros p' id H. unfold F. rewrite get_kwarg_nothing; rewrite ?G; auto. intros c' Hc'. rewrite find_kids_with, T by auto. destruct (ueqb _ _); [now rewrite H|reflexivity]. }
    rewrite forallb_forall in Hf. destruct (looks_both it) eqn:Hb.
    + apply Both; [reflexivity|intros p' id E; apply Nf; now rewrite E|]. unfold F. apply get_kwarg_alike. rewrite G. intros c' Hc'. rewrite !find_kid_with, !T, !ueqb_refl by auto.
      destruct (filter (fun k => ueqb (q_local k) (u (tag_of W c'))) ks) as [|k l] eqn:E; cbn [map hd_error option_map]; constructor. cbn [snd].
      assert (Hk : In k (filter (fun k => ueqb (q_local k) (u (tag_of W c'))) ks)) by (rewrite E; now left). apply filter_In in Hk as [Hk Hl].
      specialize (IH k Hk c' (ns_get m "kml") (ns_get m "") m). rewrite M in IH. apply IH; auto.
      specialize (Hf c' Hc'). apply orb_prop in Hf as [Hf|Hf].
      * exfalso. apply negb_true_iff, no_local in Hf. rewrite Hf in E. discriminate.
      * cbn [andb] in Hf. rewrite forallb_forall in Hf. specialize (Hf (k, fallback_ok W k)). cbn [fst snd] in Hf. rewrite Hl in Hf. apply Hf.
        change (k, fallback_ok W k) with ((fun k => (k, fallback_ok W k)) k). now apply in_map.
    + apply None_there. intros p' id. apply Nf. destruct (ueqb _ _); [|exact I]. intros c' Hc'. apply no_local. specialize (Hf c' Hc'). cbn [andb] in Hf. rewrite orb_false_r in Hf. now apply negb_true_iff.
  - (* GObjs *)
    rewrite forallb_forall in Hf. apply try_alike. intros id _. unfold F.
    assert (E : forall p', get_kwarg W strict it a x (map (kid_reader W strict) (map (bound m) (map (under p') ks))) (ns_get m id) m = Ok (Some (VList []))).
    { intro p'. rewrite get_kwarg_nothing; rewrite ?G; auto. intros c' Hc'. rewrite find_kids_with, T by auto. destruct (ueqb _ _); [|reflexivity].
      rewrite no_local; [reflexivity|]. specialize (Hf c' Hc'). now apply negb_true_iff. }
    rewrite !E. apply kwarg_refl.
Qed.

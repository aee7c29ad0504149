(** * Documents written without prefix: proofs. *)
From Coq Require Import String List NArith ZArith Bool Lia.
From Verif Require Import Ustr UstrProofs Res PyInt PyFloat PyDate Elem Value Geom Codec Spec Settled EmitProofs CodecProofs Erase EraseProofs Unprefixed.
Import ListNotations.

Definition kattrs (l : list (string * value)) : list (string * value) := map (fun av => match av with (a, x) => (a, in_kml x) end) l.

Lemma erase_in_kml v : erase (in_kml v) = erase v.
Proof.
  induction v as [| | | | | | | | | |l IH|c ns nss attrs IH] using value_ind'; try reflexivity.
  - cbn. f_equal. rewrite map_map. apply map_ext_in. rewrite Forall_forall in IH. exact IH.
  - cbn. f_equal. rewrite map_map. apply map_ext_in. intros [a x] Hi. rewrite Forall_forall in IH. specialize (IH _ Hi). cbn in IH. now rewrite IH.
Qed.

Lemma py_bool_in_kml W v : py_bool W (in_kml v) = py_bool W v.
Proof. now rewrite <- py_bool_erase, erase_in_kml, py_bool_erase. Qed.

Lemma sget_kattrs a l : sget a (kattrs l) = option_map in_kml (sget a l).
Proof. unfold kattrs. induction l as [|[b x] l IH]; [reflexivity|]. cbn. destruct (String.eqb a b); [reflexivity|exact IH]. Qed.

Lemma obj_attr_kattrs ci attrs a : obj_attr ci (kattrs attrs) a = in_kml (obj_attr ci attrs a).
Proof.
  unfold obj_attr. rewrite !sget_kattrs. destruct (sget a attrs) as [x|]; [reflexivity|]. cbn [option_map].
  destruct (ci_geom ci); try reflexivity. destruct (sget "track_items" attrs) as [x|]; [|reflexivity]. destruct x; try reflexivity. cbn [option_map in_kml].
  destruct (String.eqb a "whens"); [reflexivity|]. destruct (String.eqb a "coords"); [reflexivity|]. now destruct (String.eqb a "angles").
Qed.

Lemma get_value_in_kml vb v d : in_kml d = d -> get_value vb (in_kml v) d = in_kml (get_value vb v d).
Proof.
  intro Hd. destruct vb; cbn [get_value]; try reflexivity.
  all: replace (scalar_eq (in_kml v) d) with (scalar_eq v d) by (destruct v; reflexivity).
  all: replace (is_none (in_kml v)) with (is_none v) by (destruct v; reflexivity).
  all: try (now destruct (scalar_eq v d)).
  destruct (is_none v && negb (is_none d)); [now rewrite Hd|reflexivity].
Qed.

(** ** Elements *)

Definition K : ustr := KMLNS.

Definition settles (e : elem) : Prop := default_of K (e_attrib e) = K.

Lemma read_kid k e : settles e -> as_read K (append_kid k e) = append_kid (as_read K k) (as_read K e).
Proof. destruct e as [t a x ks]. unfold settles. cbn [e_attrib append_kid as_read]. intros ->. now rewrite map_app. Qed.
Lemma settles_kid k e : settles e -> settles (append_kid k e).
Proof. now destruct e. Qed.

Lemma read_text x e : as_read K (set_text x e) = set_text x (as_read K e).
Proof. now destruct e. Qed.
Lemma settles_text x e : settles e -> settles (set_text x e).
Proof. now destruct e. Qed.

Lemma uget_uset_other {A} k k' (v : A) l : ueqb k k' = false -> uget k (uset k' v l) = uget k l.
Proof.
  intro N. induction l as [|[j w] l IH]; cbn; [now rewrite N|]. destruct (ueqb k' j) eqn:E; cbn.
  - apply ueqb_eq in E. subst j. now rewrite N.
  - destruct (ueqb k j); [reflexivity|exact IH].
Qed.
Lemma filter_uset k k' (v : ustr) l : ueqb k' k = false ->
  filter (fun kv => negb (ueqb (fst kv) k)) (uset k' v l) = uset k' v (filter (fun kv => negb (ueqb (fst kv) k)) l).
Proof.
  intro N. induction l as [|[j w] l IH]; cbn; [now rewrite N|]. destruct (ueqb k' j) eqn:E; cbn.
  - apply ueqb_eq in E. subst j. rewrite N. cbn. now rewrite ueqb_refl.
  - destruct (ueqb j k) eqn:E2; cbn; [exact IH|]. now rewrite E, IH.
Qed.
Lemma ueqb_comm a b : ueqb a b = ueqb b a.
Proof. destruct (ueqb a b) eqn:E; symmetry. - apply ueqb_eq in E. subst. apply ueqb_refl. - destruct (ueqb b a) eqn:F; [|reflexivity]. apply ueqb_eq in F. subst. now rewrite ueqb_refl in E. Qed.

Lemma settles_attr k v e : ueqb k (u "xmlns") = false -> settles e -> settles (set_attr k v e).
Proof. destruct e as [t a x ks]. unfold settles. cbn [e_attrib set_attr]. intros N. unfold default_of. rewrite uget_uset_other by now rewrite ueqb_comm. auto. Qed.
Lemma read_attr k v e : ueqb k (u "xmlns") = false -> as_read K (set_attr k v e) = set_attr k v (as_read K e).
Proof.
  destruct e as [t a x ks]. cbn [set_attr as_read]. intro N. unfold default_of. rewrite uget_uset_other by now rewrite ueqb_comm. now rewrite filter_uset.
Qed.

(** Where an element without prefix is seen. *)
Definition seen (ns : ustr) : ustr := if uempty ns then K else ns.
Definition place (ns : ustr) : bool := uempty ns || qualified ns.

Lemma name_plain n : good_name n = true -> qualified n = false.
Proof. destruct n as [|c n]; [reflexivity|]. unfold good_name, no_char. cbn. now destruct (c =? 123)%N. Qed.

Lemma seen_tag ns n : place ns = true -> good_name n = true -> (if qualified (ns ++ n) then ns ++ n else K ++ ns ++ n) = seen ns ++ n.
Proof.
  intros P G. destruct ns as [|c ns]; [cbn [app seen uempty]; now rewrite (name_plain _ G)|]. unfold place in P. cbn in P. cbn. now rewrite P.
Qed.

Lemma read_add ns n t e : place ns = true -> good_name n = true -> settles e ->
  as_read K (add_text (ns ++ n) t e) = add_text (seen ns ++ n) t (as_read K e).
Proof.
  intros P G S. unfold add_text. rewrite read_kid by exact S. f_equal. unfold text_elem. cbn [as_read map filter]. unfold default_of. cbn [uget]. now rewrite seen_tag.
Qed.

(** ** The writer *)

Section Writer.
  Variable W : world.
  Hypothesis Wok : world_ok W = true.
  (** No attribute is called [xmlns]; defaults are no objects. *)
  Definition plain_item (it : item) : bool :=
    negb (ueqb (u (it_node it)) (u "xmlns")) && match it_default it with VObj _ _ _ _ | VList _ => false | _ => true end.
  Hypothesis Wplain : forallb (fun cc => forallb plain_item (items_of W (fst cc))) (w_classes W) = true.

  (** The name spaces in which dates and enumeration members are written. *)
  Definition enum_ids : list string := concat (map (fun e => flat_map (fun m => match snd m with Some id => [id] | None => [] end) (snd e)) (w_enums W)).
  Definition places (nss : nss_t) : bool := forallb (fun id => qualified (ns_get nss id)) ("kml"%string :: enum_ids).

  Lemma enum_id c e m id : sget c (w_enums W) = Some e -> uget m e = Some (Some id) -> In id enum_ids.
  Proof.
    intros E M. unfold enum_ids. apply in_concat. eexists. split; [apply in_map, (sget_In _ _ _ E)|]. cbn [snd]. apply in_flat_map.
    exists (m, Some id). split; [|now left]. clear E. induction e as [|[k o] e IH]; [discriminate|]. cbn in M. destruct (ueqb m k) eqn:Q; [|right; now apply IH].
    apply ueqb_eq in Q. subst k. injection M as ->. now left.
  Qed.

  Lemma enum_place ns nss c m : place ns = true -> places nss = true -> place (enum_ns W ns nss c m) = true /\ seen (enum_ns W ns nss c m) = enum_ns W (seen ns) nss c m.
  Proof.
    intros P Q. unfold enum_ns. destruct (sget c (w_enums W)) as [e|] eqn:E; [|auto]. destruct (uget m e) as [[id|]|] eqn:M; auto.
    unfold places in Q. rewrite forallb_forall in Q. specialize (Q id (or_intror (enum_id _ _ _ _ E M))). unfold place, seen. destruct (ns_get nss id); [discriminate|]. auto.
  Qed.
  Lemma date_place nss : places nss = true -> place (date_ns nss) = true /\ seen (date_ns nss) = date_ns nss.
  Proof. unfold places, date_ns, place, seen. cbn [forallb]. intro H. apply andb_prop in H as [H _]. destruct (ns_get nss "kml"); [discriminate|]. auto. Qed.

  Lemma item_plain c ci it : class_of W c = Some ci -> In it (items_of W c) ->
    good_name (u (it_node it)) = true /\ ueqb (u (it_node it)) (u "xmlns") = false /\ in_kml (it_default it) = it_default it.
  Proof.
    intros E Hi. assert (Hc := sget_In _ _ _ E).
    assert (H1 := proj1 (forallb_forall _ _) Wok _ Hc). assert (H2 := proj1 (forallb_forall _ _) Wplain _ Hc). cbn [fst snd] in H1, H2.
    rewrite forallb_forall in H2. specialize (H2 _ Hi). unfold plain_item in H2. apply andb_prop in H2 as [H2 H3]. apply negb_true_iff in H2.
    split; [|split; [exact H2|]].
    - unfold class_ok in H1. rewrite !andb_true_iff in H1. assert (H4 : forallb (item_ok W) (items_of W c) = true) by tauto.
      rewrite forallb_forall in H4. specialize (H4 _ Hi). unfold item_ok in H4. rewrite !andb_true_iff in H4. cbn [forallb] in H4. rewrite !andb_true_iff in H4. tauto.
    - now destruct (it_default it).
  Qed.
  Lemma tag_plain c ci : class_of W c = Some ci -> good_name (u (ci_tag ci)) = true.
  Proof.
    intros E. assert (H1 := proj1 (forallb_forall _ _) Wok _ (sget_In _ _ _ E)). cbn [fst snd] in H1. unfold class_ok in H1. rewrite !andb_true_iff in H1. tauto.
  Qed.

  (** The outcomes agree but for the default name space. *)
  Definition agrees (r r' : res elem) : Prop := r' = res_map (as_read K) r /\ forall e, r = Ok e -> settles e.

  Lemma agrees_ok e : settles e -> agrees (Ok e) (Ok (as_read K e)).
  Proof. intro S. split; [reflexivity|]. intros ? H. now injection H as <-. Qed.
  Lemma agrees_err x : agrees (Err x) (Err x).
  Proof. split; [reflexivity|discriminate]. Qed.

  Lemma texts_agree l l' e : settles e ->
    Forall2 (fun r r' => match r, r' with
                         | Ok (t, x), Ok (t', x') => x' = x /\ exists ns n, place ns = true /\ good_name n = true /\ t = ns ++ n /\ t' = seen ns ++ n
                         | Err x, Err x' => x = x'
                         | _, _ => False end) l l' ->
    agrees (append_texts l e) (append_texts l' (as_read K e)).
  Proof.
    intros S H. revert e S. induction H as [|r r' l l' Hr _ IH]; intros e S; cbn [append_texts]; [now apply agrees_ok|].
    destruct r as [[t x]|x], r' as [[t' x']|x']; try contradiction.
    - destruct Hr as [-> (ns & n & P & G & -> & ->)]. cbn [bind fst snd]. rewrite <- read_add by assumption. apply IH. unfold add_text. now apply settles_kid.
    - subst x'. apply agrees_err.
  Qed.

  Definition kids_agree (l l' : list wkid) : Prop := Forall2 (fun p q => fst q = in_kml (fst p) /\ agrees (snd p) (snd q)) l l'.

  Lemma objs_agree l l' e : settles e -> kids_agree l l' -> agrees (append_objs W l e) (append_objs W l' (as_read K e)).
  Proof.
    intros S H. revert e S. induction H as [|[v w] [v' w'] l l' [Hv Hw] _ IH]; intros e S; cbn [append_objs]; [now apply agrees_ok|].
    cbn in Hv, Hw. subst v'. rewrite py_bool_in_kml. destruct (py_bool W v) as [[|]|]; cbn [bind]; [|now apply IH|apply agrees_err].
    destruct Hw as [-> Hs]. destruct w as [k|]; cbn [bind res_map]; [|apply agrees_err]. rewrite <- read_kid by exact S. apply IH. now apply settles_kid.
  Qed.

  Definition attrs_agree (ws ws' : list (string * wattr)) : Prop :=
    Forall2 (fun p q => fst q = fst p /\ fst (fst (snd q)) = in_kml (fst (fst (snd p))) /\
                        match fst (fst (snd p)) with VObj _ _ _ _ => agrees (snd (fst (snd p))) (snd (fst (snd q))) | _ => snd (fst (snd q)) = Err EAttributeError /\ snd (fst (snd p)) = Err EAttributeError end /\ kids_agree (snd (snd p)) (snd (snd q))) ws ws'.

  Lemma attrs_get ws ws' a : attrs_agree ws ws' ->
    match sget a ws, sget a ws' with
    | Some (v, w, l), Some (v', w', l') => v' = in_kml v /\ agrees w w' /\ kids_agree l l'
    | None, None => True
    | _, _ => False
    end.
  Proof.
    induction 1 as [|[b [[v w] l]] [b' [[v' w'] l']] ws ws' (E & Ev & Ew & El) _ IH]; [exact I|]. cbn in E, Ev, Ew, El. subst b'. cbn. destruct (String.eqb a b); [|exact IH].
    split; [exact Ev|]. split; [|exact El]. destruct v; try exact Ew; destruct Ew as [-> ->]; apply agrees_err.
  Qed.

  Lemma set_agrees prec vb ci ns nss attrs ws ws' it e :
    place ns = true -> places nss = true -> good_name (u (it_node it)) = true -> ueqb (u (it_node it)) (u "xmlns") = false -> in_kml (it_default it) = it_default it ->
    attrs_agree ws ws' -> settles e ->
    agrees (set_element W prec vb ci ns nss attrs ws it e) (set_element W prec vb ci (seen ns) nss (kattrs attrs) ws' it (as_read K e)).
  Proof.
    intros P Q G X D A S. unfold set_element. cbv zeta. rewrite obj_attr_kattrs, get_value_in_kml by exact D.
    set (v0 := obj_attr ci attrs (it_attr it)). set (v := get_value vb v0 (it_default it)).
    assert (T : forall n t, place n = true -> agrees (Ok (add_text (n ++ u (it_node it)) t e)) (Ok (add_text (seen n ++ u (it_node it)) t (as_read K e)))).
    { intros n t Pn. rewrite <- read_add by assumption. apply agrees_ok. unfold add_text. now apply settles_kid. }
    assert (TA : forall t, agrees (Ok (set_attr (u (it_node it)) t e)) (Ok (set_attr (u (it_node it)) t (as_read K e)))).
    { intro t. rewrite <- read_attr by exact X. apply agrees_ok. now apply settles_attr. }
    assert (O := agrees_ok e S).
    destruct (it_set it).
    - destruct v; cbn [in_kml]; try apply agrees_err; [exact O|]. destruct (uempty s); [exact O|]. rewrite <- read_text. apply agrees_ok. now apply settles_text.
    - destruct v; cbn [in_kml]; try apply agrees_err; [exact O|]. destruct (uempty s); [exact O|]. now apply T.
    - destruct v; cbn [in_kml]; try apply agrees_err; [exact O|]. destruct (uempty s); [exact O|]. apply TA.
    - destruct v; cbn [in_kml]; try apply agrees_err; [exact O|now apply T|]. destruct n; [|apply agrees_err]. destruct (str_of_int z); [now apply T|apply agrees_err].
    - destruct v; cbn [in_kml str_value bind]; try apply agrees_err; try exact O; try (now apply T). destruct (num_str n); cbn [bind]; [now apply T|apply agrees_err].
    - destruct v; cbn [in_kml str_value bind]; try apply agrees_err; try exact O; try (now apply TA). destruct (num_str n); cbn [bind]; [now apply TA|apply agrees_err].
    - destruct v; cbn [in_kml str_value bind]; try apply agrees_err; try exact O; try (now apply T). destruct (num_str n); cbn [bind]; [now apply T|apply agrees_err].
    - destruct v; cbn [in_kml str_value bind]; try apply agrees_err; try exact O; try (now apply TA). destruct (num_str n); cbn [bind]; [now apply TA|apply agrees_err].
    - destruct v; cbn [in_kml]; try apply agrees_err; [exact O|]. destruct (enum_place ns nss cls val P Q) as [Pe <-]. now apply T.
    - destruct v; cbn [in_kml]; try apply agrees_err; [exact O|apply TA].
    - destruct v; cbn [in_kml]; try apply agrees_err; [exact O|]. destruct (date_place nss Q) as [Pe Ee]. rewrite <- Ee at 2. now apply T.
    - destruct v; cbn [in_kml]; try apply agrees_err; [exact O|]. apply texts_agree; [exact S|]. clear -P Q G. induction l as [|o l IH]; [constructor|]. cbn [map]. constructor; [|exact IH].
      destruct o as [k|]; (split; [reflexivity|]).
      + destruct (date_place nss Q) as [Pe Ee]. exists (date_ns nss), (u (it_node it)). now rewrite Ee.
      + exists ns, (u (it_node it)). auto.
    - destruct v; cbn [in_kml]; try apply agrees_err; [exact O|]. apply texts_agree; [exact S|]. clear -P G. induction l as [|o l IH]; [constructor|]. cbn [map]. constructor; [|exact IH].
      destruct (join_nums _ prec o); cbn [bind]; [|reflexivity]. split; [reflexivity|]. exists ns, (u (it_node it)). auto.
    - destruct v0; cbn [in_kml]; try apply agrees_err; [exact O|]. destruct (nilb l); [exact O|]. destruct (coordinates_text prec l); cbn [bind]; [|apply agrees_err].
      rewrite <- read_text. apply agrees_ok. now apply settles_text.
    - assert (A1 := attrs_get _ _ (it_attr it) A). rewrite py_bool_in_kml. destruct (py_bool W v0) as [[|]|]; cbn [bind]; [|exact O|apply agrees_err].
      destruct (sget (it_attr it) ws) as [[[x w] l]|], (sget (it_attr it) ws') as [[[x' w'] l']|]; try contradiction; [|apply agrees_err].
      destruct A1 as (_ & [-> Hs] & _). destruct w as [k|]; cbn [bind res_map]; [|apply agrees_err]. rewrite <- read_kid by exact S. apply agrees_ok. now apply settles_kid.
    - assert (A1 := attrs_get _ _ (it_attr it) A).
      destruct (sget (it_attr it) ws) as [[[x w] l]|], (sget (it_attr it) ws') as [[[x' w'] l']|]; try contradiction; [|exact O].
      destruct A1 as (-> & _ & Hl). destruct x; cbn [in_kml]; try apply agrees_err; [exact O|]. now apply objs_agree.
  Qed.

  Lemma sets_agree prec vb ci ns nss attrs ws ws' its e :
    place ns = true -> places nss = true ->
    (forall it, In it its -> good_name (u (it_node it)) = true /\ ueqb (u (it_node it)) (u "xmlns") = false /\ in_kml (it_default it) = it_default it) ->
    attrs_agree ws ws' -> settles e ->
    agrees (set_elements W prec vb ci ns nss attrs ws its e) (set_elements W prec vb ci (seen ns) nss (kattrs attrs) ws' its (as_read K e)).
  Proof.
    intros P Q H A. revert e. induction its as [|it its IH]; intros e S; cbn [set_elements]; [now apply agrees_ok|].
    destruct (H it (or_introl eq_refl)) as (G & X & D).
    destruct (set_agrees prec vb ci ns nss attrs ws ws' it e P Q G X D A S) as [-> Hs].
    destruct (set_element W prec vb ci ns nss attrs ws it e) as [e'|]; cbn [bind res_map]; [|apply agrees_err]. apply IH; [|now apply Hs]. intros; apply H. now right.
  Qed.

  Lemma new_read ns tag : place ns = true -> good_name tag = true -> as_read K (new_elem (ns ++ tag)) = new_elem (seen ns ++ tag).
  Proof. intros P G. unfold new_elem. cbn [as_read map filter]. unfold default_of. cbn [uget]. now rewrite seen_tag. Qed.
  Lemma new_settles t : settles (new_elem t).
  Proof. reflexivity. Qed.

  Lemma root_read ns tag : place ns = true -> good_name tag = true -> as_read K (root_elem ns tag) = root_elem (seen ns) tag /\ settles (root_elem ns tag).
  Proof.
    intros P G. unfold root_elem, seen. destruct (uempty ns) eqn:E.
    - destruct ns; [|discriminate]. change (uempty K) with false. cbn [app]. split; [|reflexivity].
      unfold new_elem, set_attr. cbn [uset as_read]. change (default_of K [(u "xmlns", removelast (tl KMLNS))]) with K. rewrite (name_plain _ G). reflexivity.
    - rewrite E. split; [|apply new_settles]. rewrite new_read by assumption. unfold seen. now rewrite E.
  Qed.

  Definition placed_all (v : value) : bool := vall (fun _ ns nss _ => place ns && places nss) v.

  Lemma etree_agrees prec vb v : placed_all v = true ->
    match v with VList l => forall y, In y l -> agrees (etree W prec vb y) (etree W prec vb (in_kml y)) | _ => agrees (etree W prec vb v) (etree W prec vb (in_kml v)) end.
  Proof.
    induction v as [| | | | | | | | | |l IH|c ns nss attrs IH] using value_ind'; intro H; try apply agrees_err.
    - intros y Hy. rewrite Forall_forall in IH. unfold placed_all in H. cbn [vall] in H. rewrite forallb_forall in H. specialize (IH y Hy (H y Hy)).
      destruct y; try exact IH. apply agrees_err.
    - unfold placed_all in H. cbn [vall] in H. apply andb_prop in H as [PQ H]. apply andb_prop in PQ as [P Q].
      cbn [etree in_kml]. fold (kattrs attrs). change (if uempty ns then KMLNS else ns) with (seen ns).
      set (wof := fun av : string * value => match av with (a, x) => (a, (x, etree W prec vb x, match x with VList l => map (fun y => (y, etree W prec vb y)) l | _ => [] end)) end).
      assert (A : attrs_agree (map wof attrs) (map wof (kattrs attrs))).
      { clear P Q. induction attrs as [|[a x] attrs IHa]; [constructor|]. inversion IH as [|? ? Hx IHr]; subst. cbn [forallb] in H. apply andb_prop in H as [Hp H].
        cbn [kattrs map]. constructor; [|now apply IHa]. cbn [wof fst snd]. cbn [snd] in Hx. specialize (Hx Hp). split; [reflexivity|]. split; [reflexivity|].
        destruct x; cbn [in_kml etree]; try (split; [split; reflexivity|constructor]).
        - split; [split; reflexivity|]. unfold kids_agree. clear -Hx. induction l as [|y l IHl]; [constructor|]. cbn [map]. constructor; [|apply IHl; intros; apply Hx; now right].
          cbn [fst snd]. split; [reflexivity|]. apply Hx. now left.
        - split; [exact Hx|constructor]. }
      unfold write_with. destruct (class_of W c) as [ci|] eqn:E; [|apply agrees_err]. assert (G := tag_plain _ _ E). destruct (ci_root ci).
      + destruct (root_read ns (u (ci_tag ci)) P G) as [<- S]. apply set_agrees; try assumption; reflexivity.
      + rewrite <- new_read by assumption. apply sets_agree; try assumption; [|apply new_settles]. intros it Hi. now apply (item_plain c ci).
  Qed.

  (** The root carries the declaration. *)
  Lemma declared prec vb ci nss attrs ws it e tag : it_set it = SObjs -> set_element W prec vb ci [] nss attrs ws it (root_elem [] tag) = Ok e -> as_read [] e = as_read K e.
  Proof.
    intro Hs.
    assert (R : forall l e0 e1, uget (u "xmlns") (e_attrib e0) = Some (removelast (tl KMLNS)) -> append_objs W l e0 = Ok e1 -> uget (u "xmlns") (e_attrib e1) = Some (removelast (tl KMLNS))).
    { induction l as [|[v w] l IH]; intros e0 e1 H H1; cbn [append_objs] in H1; [now injection H1 as <-|]. destruct (py_bool W v) as [[|]|]; cbn [bind] in H1; [|now apply (IH _ _ H H1)|discriminate].
      destruct w as [k|]; [|discriminate]. cbn [bind] in H1. apply (IH _ _) in H1; [exact H1|]. now destruct e0. }
    assert (R2 : forall e1, uget (u "xmlns") (e_attrib e1) = Some (removelast (tl KMLNS)) -> as_read [] e1 = as_read K e1).
    { intros [t a x ks] H. cbn [e_attrib] in H. cbn [as_read]. unfold default_of. now rewrite H. }
    unfold set_element. rewrite Hs. intro H. apply R2. destruct (sget (it_attr it) ws) as [[[x w] l]|]; [|now injection H as <-].
    destruct x; try discriminate H; [now injection H as <-|]. apply (R l (root_elem [] tag) e); [reflexivity|exact H].
  Qed.

  Theorem seen_in_kml prec vb c ci nss attrs e : class_of W c = Some ci -> ci_root ci = true -> placed_all (VObj c [] nss attrs) = true ->
    etree W prec vb (VObj c [] nss attrs) = Ok e -> etree W prec vb (in_kml (VObj c [] nss attrs)) = Ok (as_read [] e).
  Proof.
    intros E R P He. destruct (etree_agrees prec vb _ P) as [-> _]. rewrite He. cbn [res_map]. f_equal. symmetry.
    cbn [etree] in He. unfold write_with in He. rewrite E, R in He. revert He. apply declared. reflexivity.
  Qed.

  (** ** Every element is in the KML name space *)

  Hypothesis Wdef : forallb (fun cc => forallb (fun it => kml_member W (it_default it)) (items_of W (fst cc))) (w_classes W) = true.

  Definition kml_objs (v : value) : bool := vall (fun _ ns nss _ => ueqb ns K && ueqb (ns_get nss "kml") K) v.

  Lemma in_tag n : good_name n = true -> ueqb (firstn (length K) (K ++ n)) K && good_name (skipn (length K) (K ++ n)) = true.
  Proof.
    intro G. rewrite firstn_app, firstn_all, Nat.sub_diag, skipn_app, skipn_all, Nat.sub_diag. cbn [firstn skipn app]. now rewrite app_nil_r, ueqb_refl.
  Qed.
  Lemma in_kid k e : all_in K e = true -> all_in K k = true -> all_in K (append_kid k e) = true.
  Proof. destruct e as [t a x ks]. cbn [append_kid all_in]. intros H Hk. apply andb_prop in H as [-> H]. rewrite forallb_app, H. cbn [forallb]. now rewrite Hk. Qed.
  Lemma in_set_text x e : all_in K (set_text x e) = all_in K e.
  Proof. now destruct e. Qed.
  Lemma in_attr k x e : all_in K (set_attr k x e) = all_in K e.
  Proof. now destruct e. Qed.
  Lemma in_add n t e : good_name n = true -> all_in K e = true -> all_in K (add_text (K ++ n) t e) = true.
  Proof. intros G H. apply in_kid; [exact H|]. cbn [text_elem all_in forallb]. now rewrite in_tag. Qed.

  Lemma in_texts n l e e' : good_name n = true -> all_in K e = true -> Forall (fun r => match r with Ok (t, _) => t = K ++ n | Err _ => True end) l ->
    append_texts l e = Ok e' -> all_in K e' = true.
  Proof.
    intros G H F. revert e H. induction F as [|r l Hr _ IH]; intros e H He; cbn [append_texts] in He; [now injection He as <-|].
    destruct r as [[t x]|]; [|discriminate]. cbn [bind fst snd] in He. subst t. apply (IH _ (in_add n x e G H) He).
  Qed.
  Definition kid_in (p : wkid) : Prop := forall k, snd p = Ok k -> all_in K k = true.
  Lemma in_objs l e e' : all_in K e = true -> Forall kid_in l -> append_objs W l e = Ok e' -> all_in K e' = true.
  Proof.
    intros H F. revert e H. induction F as [|[v w] l Hr _ IH]; intros e H He; cbn [append_objs] in He; [now injection He as <-|].
    destruct (py_bool W v) as [[|]|]; [|now apply (IH e)|discriminate]. cbn [bind] in He. destruct w as [k|]; [|discriminate]. cbn [bind] in He.
    apply (IH (append_kid k e)); [|exact He]. apply in_kid; [exact H|now apply Hr].
  Qed.

  Lemma enum_in nss c m : ns_get nss "kml" = K -> kml_member W (VEnum c m) = true -> enum_ns W K nss c m = K.
  Proof.
    intros H M. unfold kml_member in M. unfold enum_ns. destruct (sget c (w_enums W)) as [en|]; [|reflexivity]. destruct (uget m en) as [[id|]|]; try reflexivity.
    apply String.eqb_eq in M. now subst id.
  Qed.

  Lemma in_set prec vb ci nss attrs (ws : list (string * wattr)) it e e' : ns_get nss "kml" = K -> good_name (u (it_node it)) = true ->
    kml_member W (obj_attr ci attrs (it_attr it)) = true -> kml_member W (it_default it) = true ->
    (forall w, In w ws -> kid_in (fst (snd w)) /\ Forall kid_in (snd (snd w))) -> all_in K e = true ->
    set_element W prec vb ci K nss attrs ws it e = Ok e' -> all_in K e' = true.
  Proof.
    intros HK G M Md A S. unfold set_element. cbv zeta. set (v0 := obj_attr ci attrs (it_attr it)) in *. set (v := get_value vb v0 (it_default it)).
    assert (Mv : kml_member W v = true). { unfold v, get_value. destruct vb; try exact M. - destruct (scalar_eq _ _); [reflexivity|exact M]. - destruct (_ && _); assumption. }
    assert (T : forall t e', Ok (add_text (K ++ u (it_node it)) t e) = Ok e' -> all_in K e' = true).
    { intros t e1 H. injection H as <-. now apply in_add. }
    assert (TA : forall t e', Ok (set_attr (u (it_node it)) t e) = Ok e' -> all_in K e' = true).
    { intros t e1 H. injection H as <-. now rewrite in_attr. }
    assert (TT : forall t e', Ok (set_text t e) = Ok e' -> all_in K e' = true).
    { intros t e1 H. injection H as <-. now rewrite in_set_text. }
    assert (O : forall e', Ok e = Ok e' -> all_in K e' = true) by (intros e1 H; now injection H as <-).
    destruct (it_set it).
    - destruct v; try discriminate; [apply O|]. destruct (uempty s); [apply O|apply TT].
    - destruct v; try discriminate; [apply O|]. destruct (uempty s); [apply O|apply T].
    - destruct v; try discriminate; [apply O|]. destruct (uempty s); [apply O|apply TA].
    - destruct v; try discriminate; [apply O|apply T|]. destruct n; [|discriminate]. destruct (str_of_int z); [apply T|discriminate].
    - destruct v; try discriminate; try apply O; cbn [str_value bind]; try apply T. destruct (num_str n); [apply T|discriminate].
    - destruct v; try discriminate; try apply O; cbn [str_value bind]; try apply TA. destruct (num_str n); [apply TA|discriminate].
    - destruct v; try discriminate; try apply O; cbn [str_value bind]; try apply T. destruct (num_str n); [apply T|discriminate].
    - destruct v; try discriminate; try apply O; cbn [str_value bind]; try apply TA. destruct (num_str n); [apply TA|discriminate].
    - destruct v; try discriminate; [apply O|]. rewrite enum_in by assumption. apply T.
    - destruct v; try discriminate; [apply O|apply TA].
    - destruct v; try discriminate; [apply O|]. unfold date_ns. rewrite HK. apply T.
    - destruct v; try discriminate; [apply O|]. apply (in_texts _ _ _ _ G S). rewrite Forall_map. apply Forall_forall. intros o _. unfold date_ns. rewrite HK. now destruct o.
    - destruct v; try discriminate; [apply O|]. apply (in_texts _ _ _ _ G S). rewrite Forall_map. apply Forall_forall. intros o _. now destruct (join_nums _ prec o).
    - destruct v0; try discriminate; [apply O|]. destruct (nilb l); [apply O|]. destruct (coordinates_text prec l); [apply TT|discriminate].
    - destruct (py_bool W v0) as [[|]|]; [|apply O|discriminate]. cbn [bind]. destruct (sget (it_attr it) ws) as [[[x w] l]|] eqn:E; [|discriminate].
      destruct (A _ (sget_In _ _ _ E)) as [A1 _]. destruct w as [k|]; [|discriminate]. cbn [bind]. intro H. injection H as <-. apply in_kid; [exact S|now apply A1].
    - destruct (sget (it_attr it) ws) as [[[x w] l]|] eqn:E; [|apply O].
      destruct (A _ (sget_In _ _ _ E)) as [_ A1]. destruct x; try discriminate; [apply O|]. now apply in_objs.
  Qed.

  Lemma in_sets prec vb ci nss attrs (ws : list (string * wattr)) its e e' : ns_get nss "kml" = K ->
    (forall it, In it its -> good_name (u (it_node it)) = true /\ kml_member W (obj_attr ci attrs (it_attr it)) = true /\ kml_member W (it_default it) = true) ->
    (forall w, In w ws -> kid_in (fst (snd w)) /\ Forall kid_in (snd (snd w))) -> all_in K e = true ->
    set_elements W prec vb ci K nss attrs ws its e = Ok e' -> all_in K e' = true.
  Proof.
    intros HK H A. revert e. induction its as [|it its IH]; intros e S; cbn [set_elements]; intro He; [now injection He as <-|].
    destruct (H it (or_introl eq_refl)) as (G & M & D).
    destruct (set_element W prec vb ci K nss attrs ws it e) as [e1|] eqn:E; [|discriminate]. cbn [bind] in He. apply (in_set _ _ _ _ _ _ _ _ _ HK G M D A S) in E.
    apply (IH (fun i Hi => H i (or_intror Hi)) _ E He).
  Qed.

  Lemma attr_member ci attrs a : forallb (fun av => kml_member W (snd av)) attrs = true -> kml_member W (obj_attr ci attrs a) = true.
  Proof.
    intro H. unfold obj_attr. destruct (sget a attrs) as [x|] eqn:E; [rewrite forallb_forall in H; exact (H _ (sget_In _ _ _ E))|].
    destruct (ci_geom ci); try reflexivity. destruct (sget "track_items" attrs) as [x|]; [|reflexivity]. destruct x; try reflexivity.
    destruct (String.eqb a "whens"); [reflexivity|]. destruct (String.eqb a "coords"); [reflexivity|]. now destruct (String.eqb a "angles").
  Qed.

  Lemma etree_in prec vb v : kml_objs v = true -> kml_members W v = true ->
    match v with VList l => forall y e, In y l -> etree W prec vb y = Ok e -> all_in K e = true | _ => forall e, etree W prec vb v = Ok e -> all_in K e = true end.
  Proof.
    induction v as [| | | | | | | | | |l IH|c ns nss attrs IH] using value_ind'; intros H M; try discriminate.
    - intros y e Hy. rewrite Forall_forall in IH. unfold kml_objs, kml_members in *. cbn [vall] in H, M. rewrite forallb_forall in H, M. specialize (IH y Hy (H y Hy) (M y Hy)).
      destruct y; try discriminate. exact (IH e).
    - unfold kml_objs, kml_members in *. cbn [vall] in H, M. apply andb_prop in H as [PQ H]. apply andb_prop in PQ as [P Q]. apply andb_prop in M as [M0 M].
      apply ueqb_eq in P, Q. subst ns. intro e. cbn [etree].
      set (wof := fun av : string * value => match av with (a, x) => (a, (x, etree W prec vb x, match x with VList l => map (fun y => (y, etree W prec vb y)) l | _ => [] end)) end).
      assert (A : forall w, In w (map wof attrs) -> kid_in (fst (snd w)) /\ Forall kid_in (snd (snd w))).
      { intros w Hw. apply in_map_iff in Hw as [[a x] [<- Hi]]. rewrite Forall_forall in IH. rewrite forallb_forall in H, M. specialize (IH _ Hi (H _ Hi) (M _ Hi)). cbn [snd] in IH.
        cbn [wof fst snd]. destruct x; try (split; [intros ? Hk; discriminate Hk|constructor]).
        - split; [intros ? Hk; discriminate Hk|]. rewrite Forall_map. apply Forall_forall. intros y Hy k Hk. exact (IH y k Hy Hk).
        - split; [exact IH|constructor]. }
      unfold write_with. destruct (class_of W c) as [ci|] eqn:E; [|discriminate]. assert (G := tag_plain _ _ E).
      assert (N : all_in K (new_elem (K ++ u (ci_tag ci))) = true) by (cbn [new_elem all_in forallb]; now rewrite in_tag).
      destruct (ci_root ci).
      + unfold root_elem. change (uempty K) with false. cbv iota. apply in_set; try assumption; try reflexivity. now apply attr_member.
      + apply in_sets; try assumption. intros it Hi. split; [now apply (item_plain c ci)|]. split; [now apply attr_member|].
        assert (D := proj1 (forallb_forall _ _) Wdef _ (sget_In _ _ _ E)). cbn [fst] in D. rewrite forallb_forall in D. now apply D.
  Qed.
End Writer.

(** ** The object with the KML name space is as well typed *)

Lemma vall_in_kml P Q v :
  (forall c ns nss attrs, P c ns nss attrs = true -> Q c (seen ns) nss (kattrs attrs) = true) -> vall P v = true -> vall Q (in_kml v) = true.
Proof.
  intro H. induction v as [| | | | | | | | | |l IH|c ns nss attrs IH] using value_ind'; try reflexivity; cbn [vall in_kml]; intro V; rewrite Forall_forall in IH.
  - rewrite forallb_forall in *. intros y Hy. apply in_map_iff in Hy as [x [<- Hx]]. auto.
  - apply andb_prop in V as [V0 V]. fold (kattrs attrs). change (if uempty ns then KMLNS else ns) with (seen ns). rewrite (H _ _ _ _ V0). cbn [andb].
    rewrite forallb_forall in *. intros [a y] Hy. apply in_map_iff in Hy as [[b x] [E Hx]]. injection E as <- <-. exact (IH _ Hx (V _ Hx)).
Qed.

Lemma kattrs_keys attrs : map fst (kattrs attrs) = map fst attrs.
Proof. unfold kattrs. rewrite map_map. apply map_ext. now intros [a x]. Qed.

Lemma forallb_kattrs (f : string * value -> bool) attrs : (forall a x, f (a, x) = true -> f (a, in_kml x) = true) -> forallb f attrs = true -> forallb f (kattrs attrs) = true.
Proof. intros H V. rewrite forallb_forall in *. intros [a y] Hy. apply in_map_iff in Hy as [[b x] [E Hx]]. injection E as <- <-. auto. Qed.

Lemma typed_in_kml W v : typed W v = true -> typed W (in_kml v) = true.
Proof.
  intro H. assert (G : vall (typed_node W) (in_kml v) = true).
  { apply vall_in_kml with (P := typed_node W); [|destruct v; try discriminate H; exact H]. clear. intros c ns nss attrs. unfold typed_node. destruct (class_of W c) as [ci|]; [|auto].
    intro H. apply andb_prop in H as [H1 H2]. apply andb_true_intro. split.
    - unfold shape_ok in *. now rewrite kattrs_keys.
    - revert H2. apply forallb_kattrs. intros a x. unfold attr_typed. intro H. apply andb_prop in H as [H2 H3]. apply andb_true_intro. split.
      + destruct (find_item a (items_of W c)) as [it|]; [|now destruct x]. unfold item_typed in *. destruct (it_set it), x; try exact H2.
        cbn [in_kml]. rewrite forallb_forall in *. intros y Hy. apply in_map_iff in Hy as [z [<- Hz]]. specialize (H2 _ Hz). now destruct z.
      + destruct (ckind_of ci a) as [[]|]; destruct x; try exact H3; reflexivity. }
  destruct v; try discriminate H. exact G.
Qed.

Lemma readable_in_kml W v : readable W v = true -> readable W (in_kml v) = true.
Proof.
  apply vall_in_kml. intros c ns nss attrs. destruct (class_of W c) as [ci|]; [|auto]. apply forallb_kattrs. intros a x. unfold attr_readable.
  intro H. apply andb_prop in H as [H1 H2]. apply andb_true_intro. split; [now destruct x|]. destruct (ckind_of ci a) as [[]|]; destruct x; try exact H2; reflexivity.
Qed.

Lemma vall_both P Q R v : (forall c ns nss attrs, P c ns nss attrs = true -> Q c ns nss attrs = true -> R c ns nss attrs = true) ->
  vall P v = true -> vall Q v = true -> vall R v = true.
Proof.
  intro H. induction v as [| | | | | | | | | |l IH|c ns nss attrs IH] using value_ind'; try reflexivity; cbn [vall]; intros V V'; rewrite Forall_forall in IH.
  - rewrite forallb_forall in *. auto.
  - apply andb_prop in V as [V0 V], V' as [V0' V']. rewrite (H _ _ _ _ V0 V0'). cbn [andb]. rewrite forallb_forall in *. intros [a x] Hx. exact (IH _ Hx (V _ Hx) (V' _ Hx)).
Qed.

(** * Writing existing objects after an additional registration. *)
From Coq Require Import String List NArith ZArith Bool Lia.
From Verif Require Import Ustr UstrProofs Res PyInt PyFloat PyDate Elem Value Geom Codec Spec Settled EmitProofs CodecProofs ReadProofs ItemProofs RoundTrip NsProofs Agree AgreeProofs AbsentProofs StrictProofs WriteProofs Extend ExtendProofs.
Import ListNotations.

Section Grown.
  Variables names attrs : list string.

  Lemma more_same_all ks ks' : Forall2 (grown names attrs) ks ks' -> more_kids names attrs ks ks'.
  Proof. induction 1; constructor; assumption. Qed.

  Lemma grown_refl e : grown names attrs e e.
  Proof.
    induction e as [t a x ks IH] using elem_ind'. constructor; [reflexivity|]. apply more_same_all. induction IH; constructor; assumption.
  Qed.

  Lemma more_refl ks : more_kids names attrs ks ks.
  Proof. apply more_same_all. induction ks; constructor; auto using grown_refl. Qed.

  Lemma more_app a a' b b' : more_kids names attrs a a' -> more_kids names attrs b b' -> more_kids names attrs (a ++ b) (a' ++ b').
  Proof. intros Ha Hb. induction Ha; cbn [app]; [exact Hb|constructor; assumption|econstructor; eassumption]. Qed.

  Lemma more_all_new ks : Forall (fun k => exists ns n, In n names /\ e_tag k = ns ++ u n) ks -> more_kids names attrs [] ks.
  Proof. induction 1 as [|k ks [ns [n [H1 H2]]] _ IH]; econstructor; eassumption. Qed.
End Grown.

Lemma uset_get {A} k k' (v : A) l : uget k (uset k' v l) = if ueqb k k' then Some v else uget k l.
Proof.
  induction l as [|[b x] l IH]; cbn [uset uget]; [reflexivity|]. destruct (ueqb_spec k' b) as [->|N]; cbn [uget].
  - now destruct (ueqb k b).
  - destruct (ueqb_spec k b) as [->|]; [|exact IH]. destruct (ueqb_spec b k'); [congruence|reflexivity].
Qed.

Lemma uget_fold_same k (l : list (ustr * ustr)) acc acc' : uget k acc = uget k acc' ->
  uget k (fold_left (fun acc kv => uset (fst kv) (snd kv) acc) l acc) = uget k (fold_left (fun acc kv => uset (fst kv) (snd kv) acc) l acc').
Proof. revert acc acc'. induction l as [|[b x] l IH]; intros acc acc' H; cbn [fold_left]; [exact H|]. apply IH. rewrite !uset_get. cbn [fst snd]. now rewrite H. Qed.

Lemma uget_fold_other k (l : list (ustr * ustr)) acc : ~ In k (map fst l) ->
  uget k (fold_left (fun acc kv => uset (fst kv) (snd kv) acc) l acc) = uget k acc.
Proof.
  revert acc. induction l as [|[b x] l IH]; intros acc H; cbn [fold_left]; [reflexivity|]. rewrite IH by (intro; apply H; now right).
  rewrite uset_get. cbn [fst]. destruct (ueqb_spec k b) as [->|]; [exfalso; apply H; now left|reflexivity].
Qed.

Lemma etree_tag W prec vb c ns nss attrs e : etree W prec vb (VObj c ns nss attrs) = Ok e -> e_tag e = ns ++ u (tag_of W c).
Proof.
  rewrite etree_obj. unfold write_with, tag_of. destruct (class_of W c) as [ci|]; [|discriminate]. destruct (ci_root ci); intro H.
  - rewrite set_element_emit in H. apply bind_ok in H as [m [_ H]]. injection H as <-. unfold root_elem. now destruct (uempty ns).
  - rewrite set_elements_emit in H. apply bind_ok in H as [ms [_ H]]. injection H as <-. rewrite fold_tag. reflexivity.
Qed.

(** Truth values and geometries do not depend on the registry. *)
Definition both W W' v := sem W' v = sem W v /\ match v with VList l => map (sem W') l = map (sem W) l | _ => True end.
Lemma sem_ext W d it v : both W (extend W d it) v.
Proof.
  induction v as [ |b|n|s|c w|k|c|b l|l|l|l IH|c ns nss attrs IH] using value_ind'; try (split; reflexivity || exact I).
  - split; [reflexivity|]. apply map_ext_in. intros y Hy. rewrite Forall_forall in IH. exact (proj1 (IH y Hy)).
  - split; [|exact I]. assert (E : env_of (extend W d it) attrs = env_of W attrs).
    { unfold env_of. apply map_ext_in. intros [a x] Hx. rewrite Forall_forall in IH. destruct (IH _ Hx) as [E1 E2]. cbn [snd] in *. rewrite E1. f_equal. f_equal. now destruct x. }
    destruct (class_of W c) as [ci|] eqn:Hc; [|cbn [sem]; change (class_of (extend W d it) c) with (class_of W c); now rewrite Hc].
    destruct (sem_obj W c ci ns nss attrs Hc) as [A B]. destruct (sem_obj (extend W d it) c ci ns nss attrs Hc) as [A' B']. unfold py_bool, geometry in *. rewrite E in *.
    rewrite (surjective_pairing (sem W _)), (surjective_pairing (sem (extend W d it) _)). congruence.
Qed.

Lemma py_bool_ext W d it v : py_bool (extend W d it) v = py_bool W v.
Proof. unfold py_bool. now rewrite (proj1 (sem_ext W d it v)). Qed.

Lemma objs_kids_ext W d it l : objs_kids (extend W d it) l = objs_kids W l.
Proof. induction l as [|[v w] l IH]; [reflexivity|]. cbn [objs_kids]. now rewrite py_bool_ext, IH. Qed.

Lemma emit_ext W d it prec vb ci ns nss attrs ws j : emit (extend W d it) prec vb ci ns nss attrs ws j = emit W prec vb ci ns nss attrs ws j.
Proof.
  unfold emit. destruct (it_set j); try reflexivity.
  - now rewrite py_bool_ext.
  - destruct (sget (it_attr j) ws) as [[[x w] l]|]; [|reflexivity]. destruct x; try reflexivity. now rewrite objs_kids_ext.
Qed.

Section Write.
  Variables (W : world) (d : string) (it : item).
  Notation W' := (extend W d it).
  Hypothesis HW : world_ok W = true.
  Hypothesis HM : mros_ok W = true.
  Hypothesis HF : fresh W d it = true.
  Variables (prec : option nat) (vb : verbosity).
  Notation names := (item_names W it).
  Notation xattrs := (item_attrs it).
  Notation grow := (grown names xattrs).
  Notation more := (more_kids names xattrs).

  Definition grows (w' w : res elem) : Prop := forall e', w' = Ok e' -> exists e, w = Ok e /\ grow e e'.

  (** The contribution [m'] of an item is [m] with grown child elements. *)
  Definition em_grow (m m' : em) : Prop := m_attr m' = m_attr m /\ m_text m' = m_text m /\ more (m_kids m) (m_kids m').

  Lemma em_same m : em_grow m m.
  Proof. repeat split; apply more_refl. Qed.

  (** The nested fold of the writer, for both tables. *)
  Definition kid_goal (x : value) : Prop :=
    grows (etree W' prec vb x) (etree W prec vb x) /\
    match x with VList l => Forall (fun y => grows (etree W' prec vb y) (etree W prec vb y)) l | _ => True end.

  Lemma objs_grow l ks' : Forall (fun y => grows (etree W' prec vb y) (etree W prec vb y)) l ->
    objs_kids W' (map (fun y => (y, etree W' prec vb y)) l) = Ok ks' ->
    exists ks, objs_kids W (map (fun y => (y, etree W prec vb y)) l) = Ok ks /\ more ks ks'.
  Proof.
    intro H. revert ks'. induction H as [|y l Hy _ IH]; intros ks' E; cbn [map objs_kids] in *.
    - injection E as <-. exists []. split; [reflexivity|constructor].
    - rewrite py_bool_ext in E. destruct (py_bool W y) as [[|]|]; cbn [bind] in *; [|now apply IH|discriminate].
      apply bind_ok in E as [k' [Hk E]]. apply bind_ok in E as [r' [Hr E]]. injection E as <-. destruct (Hy _ Hk) as [k [-> Gk]]. destruct (IH _ Hr) as [r [-> Gr]].
      exists (k :: r). split; [reflexivity|]. now constructor.
  Qed.

  Lemma emit_grow ci ns nss attrs j m' : (forall x, sget (it_attr j) attrs = Some x -> kid_goal x) ->
    emit W' prec vb ci ns nss attrs (ws_of W' prec vb attrs) j = Ok m' ->
    exists m, emit W prec vb ci ns nss attrs (ws_of W prec vb attrs) j = Ok m /\ em_grow m m'.
  Proof.
    intros Hk E. rewrite emit_ext in E. unfold emit in E |- *. destruct (it_set j) eqn:Es; try (exists m'; split; [exact E|apply em_same]).
    - destruct (py_bool W _) as [[|]|]; cbn [bind] in *; [|exists m'; split; [exact E|apply em_same]|discriminate].
      rewrite sget_ws_of in E |- *. destruct (sget (it_attr j) attrs) as [x|]; [|discriminate]. unfold w_attr in *. apply bind_ok in E as [k' [E1 E]]. injection E as <-.
      destruct (proj1 (Hk x eq_refl) _ E1) as [k [-> G]]. exists (em_kids [k]). split; [reflexivity|]. repeat split. cbn. repeat constructor. exact G.
    - rewrite sget_ws_of in E |- *. destruct (sget (it_attr j) attrs) as [x|]; [|exists m'; split; [exact E|apply em_same]]. unfold w_attr in *.
      destruct x; try (exists m'; split; [exact E|apply em_same]). apply bind_ok in E as [ks' [E1 E]]. injection E as <-.
      rewrite <- (objs_kids_ext W d it) in E1. destruct (objs_grow _ _ (proj2 (Hk _ eq_refl)) E1) as [ks [-> G]]. exists (em_kids ks). split; [reflexivity|]. repeat split. exact G.
  Qed.

  Lemma emits_grow ci ns nss attrs its ms' : (forall j x, In j its -> sget (it_attr j) attrs = Some x -> kid_goal x) ->
    map_res (emit W' prec vb ci ns nss attrs (ws_of W' prec vb attrs)) its = Ok ms' ->
    exists ms, map_res (emit W prec vb ci ns nss attrs (ws_of W prec vb attrs)) its = Ok ms /\ Forall2 em_grow ms ms'.
  Proof.
    revert ms'. induction its as [|j its IH]; intros ms' Hk E; cbn [map_res] in *.
    - injection E as <-. exists []. split; [reflexivity|constructor].
    - apply bind_ok in E as [m' [Hm E]]. apply bind_ok in E as [r' [Hr E]]. injection E as <-.
      apply emit_grow in Hm as [m [-> Gm]]; [|intros; eapply Hk; [now left|eassumption]]. apply IH in Hr as [r [-> Gr]]; [|intros; eapply Hk; [right|]; eassumption].
      exists (m :: r). split; [reflexivity|]. now constructor.
  Qed.

  (** What the new item contributes. *)
  Lemma emit_new ci ns nss attrs m' : (match sget (it_attr it) attrs with Some x => item_typed W it x = true | None => True end) ->
    emit W' prec vb ci ns nss attrs (ws_of W' prec vb attrs) it = Ok m' ->
    (forall k, In k (map fst (m_attr m')) -> In k (map u xattrs)) /\ m_text m' = None /\ more [] (m_kids m').
  Proof.
    intros Ht E. destruct (fresh_item _ _ _ HF) as [_ [_ [Hx [Hc _]]]].
    assert (Z : forall k, In k (map fst (m_attr em0)) -> In k (map u xattrs)) by (intros k []).
    assert (One : forall ns' t, it_set it <> SObj -> it_set it <> SObjs -> names = [it_node it] -> more [] [text_elem (ns' ++ u (it_node it)) (Some t)]).
    { intros ns' t _ _ En. rewrite En. eapply more_new; [now left|reflexivity|constructor]. }
    assert (Zero : m_text em0 = None /\ more [] (m_kids em0)) by (split; [reflexivity|constructor]).
    unfold item_texts in Hx. unfold item_names, item_attrs in *.
    unfold emit in E. destruct (it_set it) eqn:Es; try discriminate Hx; try congruence.
    all: try match type of E with context [get_value ?a ?b ?c] => destruct (get_value a b c) as [ |b'|[z|f]|s|c' v|k|c'|b' l|l|l|l|c' n ss at_] end.
    all: try discriminate E.
    all: repeat match type of E with
      | (let! _ := _ in _) = Ok _ => apply bind_ok in E as [? [? E]]
      | Ok (if ?b then _ else _) = Ok _ => destruct b
      end.
    all: try (injection E as <-).
    all: try (split; [exact Z|exact Zero]).
    all: try (split; [intros ? []|split; [reflexivity|apply One; discriminate || reflexivity]]).
    all: try (split; [cbn; intros ? H'; exact H'|split; [reflexivity|constructor]]).
    - split; [intros ? []|split; [reflexivity|]]. cbn [m_kids em_kids]. apply more_all_new. apply map_res_ok in H. clear -H.
      remember (map _ l) as r. revert l Heqr. induction H as [|y k r ks Hk _ IH]; intros l Heqr; [constructor|]. destruct l as [|o l]; [discriminate|]. injection Heqr as -> ->.
      constructor; [|eapply IH; reflexivity]. cbn in Hk. injection Hk as <-. destruct o; cbn; eexists _, _; split; try (now left); reflexivity.
    - destruct x; [|injection E as <-; split; [exact Z|exact Zero]].
      rewrite sget_ws_of in E. destruct (sget (it_attr it) attrs) as [y|] eqn:Ey; [|discriminate]. unfold w_attr in E. apply bind_ok in E as [k [Hk E]]. injection E as <-.
      split; [intros ? []|split; [reflexivity|]]. unfold item_typed in Ht. rewrite Es in Ht. destruct y; try discriminate Hk. apply etree_tag in Hk. cbn [em_kids m_kids].
      eapply more_new; [|exact Hk|constructor]. apply in_map. now apply EmitProofs.mem_In.
    - rewrite sget_ws_of in E. destruct (sget (it_attr it) attrs) as [y|] eqn:Ey; [|injection E as <-; split; [exact Z|exact Zero]]. unfold w_attr in E. unfold item_typed in Ht. rewrite Es in Ht.
      destruct y; try discriminate E; [injection E as <-; split; [exact Z|exact Zero]|]. apply bind_ok in E as [ks [Hk E]]. injection E as <-.
      split; [intros ? []|split; [reflexivity|]]. cbn [em_kids m_kids]. apply more_all_new. clear Ey. revert ks Hk. induction l as [|y l IH]; intros ks Hk; cbn [map objs_kids] in Hk; [injection Hk as <-; constructor|].
      cbn [forallb] in Ht. apply andb_prop in Ht as [Hy Ht]. specialize (IH Ht). destruct (py_bool _ y) as [[|]|]; cbn [bind] in Hk; [|now apply IH|discriminate].
      apply bind_ok in Hk as [k [Hk1 Hk]]. apply bind_ok in Hk as [r [Hk2 Hk]]. injection Hk as <-. constructor; [|now apply IH].
      destruct y; try discriminate Hk1. apply etree_tag in Hk1. eexists _, _. split; [|exact Hk1]. apply in_map. now apply EmitProofs.mem_In.
  Qed.

  Lemma fold_more ms ms' : Forall2 em_grow ms ms' -> more (concat (map m_kids ms)) (concat (map m_kids ms')).
  Proof. induction 1 as [|m m' ms ms' [_ [_ H]] _ IH]; [constructor|]. cbn [map concat]. now apply more_app. Qed.
  Lemma fold_more_attr ms ms' : Forall2 em_grow ms ms' -> concat (map m_attr ms') = concat (map m_attr ms).
  Proof. induction 1 as [|m m' ms ms' [H _] _ IH]; [reflexivity|]. cbn [map concat]. now rewrite H, IH. Qed.
  Lemma fold_more_text ms ms' t : Forall2 em_grow ms ms' ->
    fold_left (fun t m => match m_text m with Some y => Some y | None => t end) ms' t = fold_left (fun t m => match m_text m with Some y => Some y | None => t end) ms t.
  Proof. intro H. revert t. induction H as [|m m' ms ms' [_ [H _]] _ IH]; intro t; [reflexivity|]. cbn [fold_left]. rewrite H. apply IH. Qed.

  Lemma elem_eta e : e = Elem (e_tag e) (e_attrib e) (e_text e) (e_kids e).
  Proof. now destruct e. Qed.

  Lemma grow_intro e e' : e_tag e' = e_tag e -> e_text e' = e_text e -> (forall k, ~ In k (map u xattrs) -> uget k (e_attrib e') = uget k (e_attrib e)) -> more (e_kids e) (e_kids e') -> grow e e'.
  Proof. intros H1 H2 H3 H4. rewrite (elem_eta e), (elem_eta e'), H1, H2. now constructor. Qed.

  Theorem write_grows v : vall (typed_node W') v = true -> kid_goal v.
  Proof.
    induction v as [ |b|n|s|c w|k|c|b l|l|l|l IH|c ns nss attrs IH] using value_ind'; intro Ht; try (split; [intros e' H; discriminate H|exact I]).
    - split; [intros e' H; discriminate H|]. cbn [vall] in Ht. rewrite forallb_forall in Ht. apply Forall_forall. intros y Hy. rewrite Forall_forall in IH. exact (proj1 (IH y Hy (Ht y Hy))).
    - split; [|exact I]. cbn [vall] in Ht. apply andb_prop in Ht as [Hn Ht]. rewrite forallb_forall in Ht. rewrite Forall_forall in IH.
      assert (Hk : forall a x, sget a attrs = Some x -> kid_goal x).
      { intros a x Hx. apply sget_In in Hx. apply (IH (a, x) Hx). exact (Ht (a, x) Hx). }
      unfold typed_node in Hn. change (class_of W' c) with (class_of W c) in Hn. intros e' E. rewrite etree_obj in E |- *. unfold write_with in E |- *. change (class_of W' c) with (class_of W c) in E.
      destruct (class_of W c) as [ci|] eqn:Hc; [|discriminate]. destruct (ci_root ci) eqn:Hr.
      + rewrite set_element_emit in E |- *. apply bind_ok in E as [m' [Hm E]]. injection E as <-. apply emit_grow in Hm as [m [-> [G1 [G2 G3]]]]; [|intros; eauto].
        cbn [bind]. eexists. split; [reflexivity|]. destruct (root_elem ns (u (ci_tag ci))) as [t a x ks]. unfold apply_em. rewrite G1, G2. constructor; [reflexivity|]. apply more_app; [apply more_refl|exact G3].
      + rewrite set_elements_emit in E |- *. apply bind_ok in E as [ms' [Hms E]]. injection E as <-.
        destruct (ext_items W d it HM c ci Hc) as [[_ Ei]|[Hm [l1 [l2 [Ei Ei']]]]].
        * rewrite Ei in Hms. apply emits_grow in Hms as [ms [-> G]]; [|intros; eauto]. cbn [bind]. eexists. split; [reflexivity|]. apply grow_intro.
          -- now rewrite !fold_tag.
          -- rewrite !fold_text. now apply fold_more_text.
          -- intros k _. rewrite !fold_attrib. now rewrite (fold_more_attr _ _ G).
          -- rewrite !fold_kids. apply more_app; [apply more_refl|]. now apply fold_more.
        * rewrite Ei' in Hms. rewrite Ei. rewrite map_res_app in Hms. apply bind_ok in Hms as [ms1' [H1 Hms]]. apply bind_ok in Hms as [r' [Hms Hr']]. injection Hr' as <-. cbn [map_res] in Hms. apply bind_ok in Hms as [mi [Hi Hms]]. apply bind_ok in Hms as [ms2' [H2 Hms]]. injection Hms as <-.
          apply emits_grow in H1 as [ms1 [E1 G1]]; [|intros; eauto]. apply emits_grow in H2 as [ms2 [E2 G2]]; [|intros; eauto].
          assert (Hty : match sget (it_attr it) attrs with Some x => item_typed W it x = true | None => True end).
          { destruct (sget (it_attr it) attrs) as [x|] eqn:Ex; [|exact I]. apply andb_prop in Hn as [_ Hn]. rewrite forallb_forall in Hn. specialize (Hn _ (sget_In _ _ _ Ex)). unfold attr_typed in Hn. apply andb_prop in Hn as [Hn _].
            rewrite Ei' in Hn. assert (Hf : find_item (it_attr it) (l1 ++ it :: l2) = Some it).
            { apply find_item_NoDup; [|apply in_elt]. rewrite <- Ei'. exact (cf_attrs _ _ _ (world_class W' c ci (world_ok_ext W d it HW HM HF) Hc)). }
            rewrite Hf in Hn. exact Hn. }
          destruct (emit_new _ _ _ _ _ Hty Hi) as [N1 [N2 N3]].
          assert (Em : map_res (emit W prec vb ci ns nss attrs (ws_of W prec vb attrs)) (l1 ++ l2) = Ok (ms1 ++ ms2)) by (rewrite map_res_app, E1; cbn [bind]; rewrite E2; reflexivity).
          rewrite Em. cbn [bind]. eexists. split; [reflexivity|]. apply grow_intro.
          -- now rewrite !fold_tag.
          -- rewrite !fold_text, !fold_left_app. cbn [fold_left]. rewrite N2, (fold_more_text _ _ _ G2), (fold_more_text _ _ _ G1). reflexivity.
          -- intros k Hk'. rewrite !fold_attrib, !map_app, !concat_app, !fold_left_app. cbn [map concat]. rewrite fold_left_app, (fold_more_attr _ _ G1), (fold_more_attr _ _ G2). apply uget_fold_same.
             apply uget_fold_other. intro Hin. apply Hk', N1, Hin.
          -- rewrite !fold_kids, !map_app, !concat_app. cbn [map concat]. apply more_app; [apply more_refl|]. apply more_app; [now apply fold_more|]. change (concat (map m_kids ms2)) with ([] ++ concat (map m_kids ms2)). apply more_app; [exact N3|now apply fold_more].
  Qed.

  (** Objects without the new attribute are written as before, unless the
      default of the new item is written. *)
  Notation lacks := (Extend.lacks W d (it_attr it)).

  Hypothesis Hd : vb <> Verbose \/ it_default it = VNone.

  Lemma get_default : get_value vb VNone (it_default it) = VNone.
  Proof. unfold get_value. destruct vb; [|reflexivity|]; [now destruct (scalar_eq _ _)|]. destruct Hd as [H|H]; [congruence|]. now rewrite H. Qed.

  Lemma emit_lacks c ci ns nss attrs ws : class_of W c = Some ci -> mem d (ci_mro ci) = true -> sget (it_attr it) attrs = None -> sget (it_attr it) ws = None ->
    emit W' prec vb ci ns nss attrs ws it = Ok em0.
  Proof.
    intros Hc Hm Ha Hw. assert (Fc := fresh_class W d it HF c ci Hc Hm). assert (F := world_class _ _ _ HW Hc).
    assert (Ho : obj_attr ci attrs (it_attr it) = VNone).
    { unfold obj_attr. rewrite Ha. destruct (ci_geom ci) eqn:Eg; try reflexivity. assert (T := cf_track _ _ _ F). unfold track_ok, is_track in T. rewrite Eg in T. rewrite !andb_true_iff in T. destruct T as [_ T]. rewrite forallb_forall in T.
      assert (N : forall k, In k track_attrs -> String.eqb (it_attr it) k = false).
      { intros k Hk. apply String.eqb_neq. intros E. specialize (T k Hk). apply andb_prop in T as [T _]. rewrite <- E, (ff_params _ _ _ _ Fc) in T. discriminate. }
      destruct (sget "track_items" attrs) as [x|]; [|reflexivity]. destruct x; try reflexivity. now rewrite !N by (cbn; tauto). }
    unfold emit. rewrite Ho, get_default, Hw. now destruct (it_set it).
  Qed.

  Theorem write_same v : lacks v = true ->
    etree W' prec vb v = etree W prec vb v /\ match v with VList l => Forall (fun y => etree W' prec vb y = etree W prec vb y) l | _ => True end.
  Proof.
    induction v as [ |b|n|s|c w|k|c|b l|l|l|l IH|c ns nss attrs IH] using value_ind'; intro Hl; try (split; [reflexivity|exact I]).
    - split; [reflexivity|]. cbn [lacks] in Hl. rewrite forallb_forall in Hl. rewrite Forall_forall in IH |- *. intros y Hy. exact (proj1 (IH y Hy (Hl y Hy))).
    - split; [|exact I]. cbn [lacks] in Hl. apply andb_prop in Hl as [Hn Hl]. rewrite forallb_forall in Hl. rewrite Forall_forall in IH.
      assert (Ew : ws_of W' prec vb attrs = ws_of W prec vb attrs).
      { unfold ws_of. apply map_ext_in. intros [a x] Hx. specialize (IH (a, x) Hx (Hl (a, x) Hx)). cbn [snd] in IH. unfold w_attr. rewrite (proj1 IH). f_equal. f_equal. destruct x; try reflexivity. apply map_ext_in. intros y Hy. destruct IH as [_ IH]. rewrite Forall_forall in IH. now rewrite IH. }
      rewrite !etree_obj, Ew. unfold write_with. change (class_of W' c) with (class_of W c). destruct (class_of W c) as [ci|] eqn:Hc; [|reflexivity]. destruct (ci_root ci); [now rewrite !set_element_emit, emit_ext|].
      rewrite !set_elements_emit, (map_res_ext_in _ _ _ (fun j _ => emit_ext W d it prec vb ci ns nss attrs (ws_of W prec vb attrs) j)).
      destruct (ext_items W d it HM c ci Hc) as [[_ ->]|[Hm [l1 [l2 [-> ->]]]]]; [reflexivity|].
      unfold below_class in Hn. rewrite Hc, Hm in Hn. cbn [andb] in Hn. rewrite negb_true_iff in Hn.
      assert (Ha : sget (it_attr it) attrs = None). { apply sget_None. intro H. apply EmitProofs.mem_In in H. congruence. }
      assert (Em := emit_lacks c ci ns nss attrs (ws_of W prec vb attrs) Hc Hm Ha). rewrite sget_ws_of, Ha in Em. specialize (Em eq_refl). rewrite emit_ext in Em.
      rewrite !map_res_app. cbn [map_res]. rewrite Em. destruct (map_res _ l1) as [m1|]; cbn [bind]; [|reflexivity]. destruct (map_res _ l2) as [m2|]; cbn [bind]; [|reflexivity].
      rewrite !fold_left_app. cbn [fold_left]. now rewrite apply_em0'.
  Qed.
End Write.

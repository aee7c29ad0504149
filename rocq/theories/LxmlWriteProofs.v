(** * The elements the library writes: names, and which have children. *)
From Coq Require Import String List NArith ZArith Bool Lia.
From Verif Require Import Ustr UstrProofs Res Elem Value Geom Codec Spec EmitProofs CodecProofs Xml XmlSpec XmlWriteProofs.
Import ListNotations.
Local Open Scope N_scope.

(** The elements whose text is taken as it is (Layout.v, [text_respaced]). *)
Definition sensitive (n : ustr) : bool :=
  ends_with n (u "when") || (ends_with n (u "coord") || ends_with n (u "angles") || ends_with n (u "coordinates")).

(** Every tag is a name behind a name space that is [ok], attributes are in no
    name space, and the elements with sensitive text have no children. *)
Inductive laid (ok : ustr -> bool) : elem -> Prop :=
| laid_elem ns n a x ks : ok ns = true -> ncname n = true -> (ks = [] \/ sensitive n = false) ->
    Forall (fun kv : ustr * ustr => ncname (fst kv) = true) a -> Forall (laid ok) ks -> laid ok (Elem (ns ++ n) a x ks).

Section Laid.
  Variable W : world.
  Variable ok : ustr -> bool.
  Variable ids : list string.
  Hypothesis Wxml : xml_world W = true.

  (** Items that make no children. *)
  Definition bare (it : item) : bool :=
    match it_set it with SNodeText | SCoords | SAttrText | SAttrInt | SAttrFloat | SAttrEnum => true | _ => false end.
  Definition laid_world : bool :=
    mem "kml" ids &&
    forallb (fun e => forallb (fun m => match snd m with Some id => mem id ids | None => true end) (snd e)) (w_enums W) &&
    forallb (fun cc => negb (sensitive (u (ci_tag (snd cc)))) || negb (ci_root (snd cc)) && forallb bare (items_of W (fst cc))) (w_classes W).
  Hypothesis Wlaid : laid_world = true.

  Definition ns_all (v : value) : bool := vall (fun _ ns nss _ => ok ns && forallb (fun id => ok (ns_get nss id)) ids) v.

  Definition wkid_laid (p : wkid) : Prop := forall k, snd p = Ok k -> laid ok k.
  Definition em_laid (b : bool) (m : em) : Prop :=
    Forall (fun kv : ustr * ustr => ncname (fst kv) = true) (m_attr m) /\ Forall (laid ok) (m_kids m) /\ (b = true -> m_kids m = []).

  Lemma objs_laid l ks : Forall wkid_laid l -> objs_kids W l = Ok ks -> Forall (laid ok) ks.
  Proof.
    intro F. revert ks. induction F as [|[v w] l H _ IH]; intros ks E; cbn [objs_kids] in E; [injection E as <-; constructor|].
    destruct (py_bool W v) as [[|]|]; cbn [bind] in E; [|now apply IH|discriminate]. destruct w as [k|]; [|discriminate]. cbn [bind] in E.
    destruct (objs_kids W l); [|discriminate]. cbn [bind] in E. injection E as <-. constructor; [now apply H|now apply IH].
  Qed.
  Lemma texts_laid l ks : Forall (fun r => match r with Ok (t, x) => exists ns n, ok ns = true /\ ncname n = true /\ t = ns ++ n | Err _ => True end) l ->
    text_kids l = Ok ks -> Forall (laid ok) ks.
  Proof.
    intro F. revert ks. unfold text_kids. induction F as [|r l H _ IH]; intros ks E; cbn [map_res] in E; [injection E as <-; constructor|].
    destruct r as [[t x]|]; [|discriminate]. cbn [bind fst snd] in E. apply bind_ok in E as [r [E2 E]]. injection E as <-. specialize (IH r E2).
    destruct H as (ns & n & O & N & ->). constructor; [constructor; auto|exact IH].
  Qed.

  Lemma emit_laid prec vb ci ns nss attrs (ws : list (string * wattr)) it m :
    ok ns = true -> (forall id, In id ids -> ok (ns_get nss id) = true) ->
    (match it_set it with SObj | SObjs | SNodeText | SCoords => True | _ => ncname (u (it_node it)) = true end) ->
    (forall w, In w ws -> wkid_laid (fst (snd w)) /\ Forall wkid_laid (snd (snd w))) ->
    emit W prec vb ci ns nss attrs ws it = Ok m -> em_laid (bare it) m.
  Proof.
    intros O ON N A. unfold emit, bare. cbv zeta. set (v0 := obj_attr ci attrs (it_attr it)). set (v := get_value vb v0 (it_default it)).
    assert (KML : ok (date_ns nss) = true). { apply ON. unfold laid_world in Wlaid. rewrite !andb_true_iff in Wlaid. destruct Wlaid as [[H _] _]. now apply mem_In. }
    assert (EN : forall c m, ok (enum_ns W ns nss c m) = true).
    { intros c mm. unfold enum_ns. destruct (sget c (w_enums W)) as [en|] eqn:E; [|exact O]. destruct (uget mm en) as [[id|]|] eqn:E2; [|exact O|exact O].
      apply ON. unfold laid_world in Wlaid. rewrite !andb_true_iff in Wlaid. destruct Wlaid as [[_ H] _]. rewrite forallb_forall in H. specialize (H _ (sget_In _ _ _ E)). cbn [snd] in H.
      rewrite forallb_forall in H. specialize (H _ (XmlNsProofs.uget_in _ _ _ E2)). cbn [snd] in H. now apply mem_In. }
    assert (Zero : forall b m, Ok em0 = Ok m -> em_laid b m) by (intros b m' H; injection H as <-; repeat split; constructor).
    assert (Kid : forall n t m, ok n = true -> ncname (u (it_node it)) = true -> Ok (em_kid (n ++ u (it_node it)) t) = Ok m -> em_laid false m).
    { intros n t m' On Hn H. injection H as <-. repeat split; [constructor| |discriminate]. cbn [em_kid m_kids]. constructor; [|constructor]. unfold text_elem. constructor; auto. }
    assert (Att : forall t m, ncname (u (it_node it)) = true -> Ok (em_attr (u (it_node it)) t) = Ok m -> em_laid true m).
    { intros t m' Hn H. injection H as <-. repeat split; [constructor; [exact Hn|constructor]|constructor]. }
    assert (Txt : forall t m, Ok (em_text t) = Ok m -> em_laid true m) by (intros t m' H; injection H as <-; repeat split; constructor).
    assert (Kids : forall l r m, Forall (laid ok) l -> Ok (em_kids l) = Ok m -> em_laid false m \/ r = true).
    { intros l r m' H E. injection E as <-. left. repeat split; [constructor|exact H|discriminate]. }
    destruct (it_set it).
    - destruct v; try discriminate; [apply Zero|]. destruct (uempty s); [apply Zero|apply Txt].
    - destruct v; try discriminate; [apply Zero|]. destruct (uempty s); [apply Zero|now apply Kid].
    - destruct v; try discriminate; [apply Zero|]. destruct (uempty s); [apply Zero|now apply Att].
    - intro H. destruct v as [|b|[z|z]|z|z|z|z|z|z|z|z|z]; try discriminate H; try (revert H; now apply Zero); try (revert H; now apply Kid). apply bind_ok in H as [t [_ H]]. revert H. now apply Kid.
    - intro H. destruct v; try (revert H; apply Zero); apply bind_ok in H as [t [_ H]]; revert H; now apply Kid.
    - intro H. destruct v; try (revert H; apply Zero); apply bind_ok in H as [t [_ H]]; revert H; now apply Att.
    - intro H. destruct v; try (revert H; apply Zero); apply bind_ok in H as [t [_ H]]; revert H; now apply Kid.
    - intro H. destruct v; try (revert H; apply Zero); apply bind_ok in H as [t [_ H]]; revert H; now apply Att.
    - destruct v; try discriminate; [apply Zero|]. apply Kid; [apply EN|exact N].
    - destruct v; try discriminate; [apply Zero|now apply Att].
    - destruct v; try discriminate; [apply Zero|]. apply Kid; [exact KML|exact N].
    - destruct v; try discriminate; [apply Zero|]. intro H. apply bind_ok in H as [ks [Hk H]]. injection H as <-. repeat split; [constructor| |discriminate]. refine (texts_laid _ _ _ Hk).
      rewrite Forall_map. apply Forall_forall. intros o _. destruct o; [exists (date_ns nss)|exists ns]; exists (u (it_node it)); auto.
    - destruct v; try discriminate; [apply Zero|]. intro H. apply bind_ok in H as [ks [Hk H]]. injection H as <-. repeat split; [constructor| |discriminate]. refine (texts_laid _ _ _ Hk).
      rewrite Forall_map. apply Forall_forall. intros o _. destruct (join_nums (u " ") prec o); cbn [bind]; [|exact I]. exists ns, (u (it_node it)). auto.
    - destruct v0; try discriminate; [apply Zero|]. destruct (nilb l); [apply Zero|]. intro H. apply bind_ok in H as [t [_ H]]. revert H. apply Txt.
    - destruct (py_bool W v0) as [[|]|]; [|apply Zero|discriminate]. cbn [bind]. destruct (sget (it_attr it) ws) as [[[x w] l]|] eqn:E; [|discriminate].
      destruct (A _ (sget_In _ _ _ E)) as [A1 _]. destruct w as [k|]; [|discriminate]. cbn [bind]. intro H. injection H as <-. repeat split; [constructor| |discriminate]. constructor; [|constructor]. now apply A1.
    - destruct (sget (it_attr it) ws) as [[[x w] l]|] eqn:E; [|apply Zero]. destruct (A _ (sget_In _ _ _ E)) as [_ A1]. destruct x; try discriminate; [apply Zero|].
      intro H. apply bind_ok in H as [ks [Hk H]]. injection H as <-. repeat split; [constructor| |discriminate]. now apply (objs_laid l).
  Qed.

  Definition part_laid (ns n : ustr) (b : bool) (e : elem) : Prop :=
    e_tag e = ns ++ n /\ Forall (fun kv : ustr * ustr => ncname (fst kv) = true) (e_attrib e) /\ Forall (laid ok) (e_kids e) /\ (b = true -> e_kids e = []).
  Lemma uset_Forall {A} (P : ustr * A -> Prop) k x l : Forall P l -> P (k, x) -> Forall P (uset k x l).
  Proof. intros F H. induction F as [|[k' x'] l H' F IH]; cbn [uset]; [repeat constructor; exact H|]. destruct (ueqb k k'); constructor; auto. Qed.
  Lemma apply_laid ns n b m e : em_laid b m -> part_laid ns n b e -> part_laid ns n b (apply_em m e).
  Proof.
    intros (M1 & M2 & M3) (E0 & E1 & E2 & E3). destruct e as [t a x ks]. cbn [e_tag e_attrib e_kids] in *. unfold part_laid. cbn [apply_em e_tag e_attrib e_kids]. repeat split.
    - exact E0.
    - clear - M1 E1. revert a E1. induction M1 as [|kv l H _ IH]; intros a E1; cbn [fold_left]; [exact E1|]. apply IH. now apply uset_Forall.
    - now apply Forall_app.
    - intro B. now rewrite (E3 B), (M3 B).
  Qed.
  Lemma part_done ns n b e : part_laid ns n b e -> ok ns = true -> ncname n = true -> (b = true \/ sensitive n = false) -> laid ok e.
  Proof. intros (E0 & E1 & E2 & E3) O N S. destruct e as [t a x ks]. cbn [e_tag e_attrib e_kids] in *. subst t. constructor; auto. destruct S as [S|S]; [left; auto|now right]. Qed.

  Lemma bare_class b its : (b = true -> forallb bare its = true) ->
    forall ns n ms e, Forall2 (fun it m => em_laid (bare it) m) its ms -> part_laid ns n b e -> part_laid ns n b (fold_left (fun e m => apply_em m e) ms e).
  Proof.
    intros B ns n ms e F. revert e B. induction F as [|it m its ms H _ IH]; intros e B P; cbn [fold_left]; [exact P|]. apply IH; [intro Q; specialize (B Q); cbn [forallb] in B; now apply andb_prop in B|].
    apply apply_laid; [|exact P]. destruct H as (H1 & H2 & H3). split; [exact H1|]. split; [exact H2|]. intro Q. specialize (B Q). cbn [forallb] in B. apply andb_prop in B as [B _]. auto.
  Qed.

  Theorem etree_laid prec vb v : ns_all v = true -> forall e, etree W prec vb v = Ok e -> laid ok e.
  Proof.
    assert (Main : forall v, ns_all v = true -> match v with VList l => forall y e, In y l -> etree W prec vb y = Ok e -> laid ok e | _ => forall e, etree W prec vb v = Ok e -> laid ok e end).
    { clear v. induction v as [| | | | | | | | | |l IH|c ns nss attrs IH] using value_ind'; intros T; try discriminate.
      - intros y e Hy. rewrite Forall_forall in IH. unfold ns_all in T. cbn [vall] in T. rewrite forallb_forall in T. specialize (IH y Hy (T y Hy)). destruct y; try discriminate. exact (IH e).
      - unfold ns_all in T. cbn [vall] in T. apply andb_prop in T as [T0 T]. apply andb_prop in T0 as [O ON]. intros e. cbn [etree].
        set (wof := fun av : string * value => match av with (a, x) => (a, (x, etree W prec vb x, match x with VList l => map (fun y => (y, etree W prec vb y)) l | _ => [] end)) end).
        assert (A : forall w, In w (map wof attrs) -> wkid_laid (fst (snd w)) /\ Forall wkid_laid (snd (snd w))).
        { intros w Hw. apply in_map_iff in Hw as [[a x] [<- Hi]]. rewrite Forall_forall in IH. rewrite forallb_forall in T. specialize (IH _ Hi (T _ Hi)). cbn [snd] in IH.
          cbn [wof fst snd]. destruct x; try (split; [intros ? Hk; discriminate Hk|constructor]).
          - split; [intros ? Hk; discriminate Hk|]. rewrite Forall_map. apply Forall_forall. intros y Hy k Hk. exact (IH y k Hy Hk).
          - split; [|constructor]. intros k Hk. exact (IH k Hk). }
        assert (ON' : forall id, In id ids -> ok (ns_get nss id) = true) by (now apply forallb_forall).
        unfold write_with. destruct (class_of W c) as [ci|] eqn:E; [|discriminate].
        assert (Gt := class_tag W Wxml c ci E).
        assert (B := proj2 (andb_prop _ _ Wlaid)). rewrite forallb_forall in B. specialize (B _ (sget_In _ _ _ E)). cbn [fst snd] in B. apply orb_prop in B.
        set (b := negb (ci_root ci) && forallb bare (items_of W c)) in *.
        assert (S : b = true \/ sensitive (u (ci_tag ci)) = false) by (destruct B as [B|B]; [right; now apply negb_true_iff|now left]).
        destruct (ci_root ci) eqn:R.
        + intro He. rewrite set_element_emit in He. apply bind_ok in He as [m [Hm He]]. injection He as <-. apply (part_done ns (u (ci_tag ci)) false); [|exact O|exact Gt|destruct S as [S|S]; [discriminate S|now right]].
          apply apply_laid; [exact (emit_laid prec vb ci ns nss attrs (map wof attrs) root_item m O ON' I A Hm)|]. unfold part_laid, root_elem. destruct (uempty ns) eqn:Q.
          * cbn [new_elem set_attr uset e_tag e_attrib e_kids]. split; [reflexivity|]. repeat split; repeat constructor.
          * cbn [new_elem e_tag e_attrib e_kids]. split; [reflexivity|]. repeat split; constructor.
        + intro He. rewrite set_elements_emit in He. apply bind_ok in He as [ms [Hms He]]. injection He as <-. apply (part_done ns (u (ci_tag ci)) b); [|exact O|exact Gt|exact S].
          apply (bare_class b (items_of W c)); [intro Q; exact Q| |unfold part_laid; cbn [new_elem e_tag e_attrib e_kids]; split; [reflexivity|]; repeat split; constructor].
          apply map_res_ok in Hms. assert (Hin : forall it, In it (items_of W c) -> match it_set it with SObj | SObjs | SNodeText | SCoords => True | _ => ncname (u (it_node it)) = true end).
          { intros it Hi. assert (Q := item_node W Wxml c ci it E Hi). destruct (it_set it); tauto. }
          revert Hin. clear - Hms O ON' A Wlaid. induction Hms as [|it m its ms H _ IH]; intro Hin; constructor.
          * exact (emit_laid prec vb ci ns nss attrs (map wof attrs) it m O ON' (Hin it (or_introl eq_refl)) A H).
          * apply IH. intros i Hi. apply Hin. now right. }
    intros T e He. specialize (Main v T). destruct v; try discriminate He. exact (Main e He).
  Qed.
End Laid.
